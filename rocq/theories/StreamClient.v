(** Clients that read a slice from front to back: one message, or one packet,
    after the other.  Models of

      while !rest.is_empty() {
          let m = UmpMessage::try_from(rest)?;   // BytesMessage, Packet
          rest = &rest[m.data().len()..];
          ...
      }

    over [TryFrom] of the aggregates (midi2/src/message.rs 33-70, 108-140) and of
    [Packet] (midi2/src/packet.rs 26-73).  A packet is padded when the slice is
    short, so for packets the client advances by at most what is left.  [fuel]
    bounds the number of iterations; every iteration takes something, so the
    length of the slice is enough and running out of it is an error that never
    happens. *)
From Coq Require Import NArith List String.
From Verif Require Import Base Values Props Message Aggregate Packet.
Import ListNotations.
Local Open Scope string_scope.

(** The messages read, each with its [data()]. *)
Fixpoint read_loop (u : unit_id) (fuel : nat) (rest : list N) : outcome (res (list aggregate)) :=
  match rest, fuel with
  | [], _ => Val (Ok [])
  | _, O => Val (Err "out of fuel")
  | _, S n =>
      m <-? match u with U32 => ump_try_from rest | U8 => bytes_try_from rest end ;;
      d <- agg_data u m ;;
      l <-? read_loop u n (skipn (List.length d) rest) ;;
      Val (Ok ((fst m, d) :: l))
  end.
Definition read_messages (u : unit_id) (b : list N) : outcome (res (list aggregate)) :=
  read_loop u (List.length b) b.

(** The packets read. *)
Fixpoint packet_loop (fuel : nat) (rest : list N) : outcome (res (list packet)) :=
  match rest, fuel with
  | [], _ => Val (Ok [])
  | _, O => Val (Err "out of fuel")
  | _, S n =>
      p <-? packet_try_from rest ;;
      l <-? packet_loop n (skipn (List.length (packet_data p)) rest) ;;
      Val (Ok (p :: l))
  end.
Definition read_packets (b : list N) : outcome (res (list packet)) := packet_loop (List.length b) b.
