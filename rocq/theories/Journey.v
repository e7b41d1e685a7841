(** Client programs that take one [Sysex7] message through edits, conversions and
    copies.  Nothing here models new code; each case names the method it stands for. *)
From Coq Require Import NArith List Bool Arith String.
From Verif Require Import Base BitOps Values Props Message Sysex Splice Aggregate SpecEdits SysexClient SpecSysex SpecJourney.
Import ListNotations.
Local Open Scope nat_scope.

(** What the client holds: a [Sysex7] over a [Vec<u32>], a [[u32; n]], a [Vec<u8>]
    or a [[u8; n]], by the contents of its buffer. *)
Record held := { h_place : place; h_buffer : list N }.

(** A step that can fail leaves the client with what it had: it passes a clone or a
    borrowed view.  The boolean is [Ok]; a call that does not compile is [Panic]. *)
Definition or_keep (h : held) (p : place) (r : outcome (res (list N))) : outcome (held * bool) :=
  x <- r ;;
  Val (match x with
       | Ok b => ({| h_place := p; h_buffer := b |}, true)
       | Err _ => (h, false)
       end).
Definition got (p : place) (r : outcome (list N)) : outcome (held * bool) :=
  b <- r ;; Val ({| h_place := p; h_buffer := b |}, true).

(** The place a copy goes to. *)
Definition vec_of (p : place) : place :=
  match p with PacketVec | PacketArray => PacketVec | ByteVec | ByteArray => ByteVec end.
Definition array_of (p : place) : place :=
  match p with PacketVec | PacketArray => PacketArray | ByteVec | ByteArray => ByteArray end.

Definition take_step (s : leg) (h : held) : outcome (held * bool) :=
  match s, h_place h with
  (* traits.rs 561-662, sysex7.rs: the [Sysex] methods, [set_group] *)
  | Edit e, PacketVec => got PacketVec (apply_edit SevenBit e (h_buffer h))
  | Edit e, ByteVec => got ByteVec (apply_edit_b e (h_buffer h))
  | Edit e, PacketArray =>
      r <- try_edit SevenBit e (h_buffer h) ;;
      Val ({| h_place := PacketArray; h_buffer := fst r |}, snd r)
  | Edit e, ByteArray =>
      r <- try_edit_b e (h_buffer h) ;;
      Val ({| h_place := ByteArray; h_buffer := fst r |}, snd r)
  (* sysex7.rs 286-366: [from_ump], [try_from_ump], [from_bytes], [try_from_bytes] *)
  | ToBytes, (PacketVec | PacketArray) => got ByteVec (sysex7_from_ump (h_buffer h))
  | ToByteArray n, (PacketVec | PacketArray) => or_keep h ByteArray (sysex7_try_from_ump (h_buffer h) n)
  | ToPackets, (ByteVec | ByteArray) => got PacketVec (sysex7_from_bytes (h_buffer h))
  | ToPacketArray n, (ByteVec | ByteArray) => or_keep h PacketArray (sysex7_try_from_bytes (h_buffer h) n)
  (* generate_message.rs 390-468: [rebuffer_into], [try_rebuffer_into],
     [array_rebuffer_into] *)
  | CopyToVec, p => got (vec_of p) (Val (rebuffer_vec (h_buffer h)))
  | CopyToArray n, p => or_keep h (array_of p) (Val (try_rebuffer_array (h_buffer h) n))
  | CopyData n, p =>
      let u := match p with PacketVec | PacketArray => U32 | ByteVec | ByteArray => U8 end in
      a <- agg_array_rebuffer u (CSysex7, h_buffer h) n ;; got (array_of p) (Val (snd a))
  | _, _ => Panic
  end.

Fixpoint journey (ss : list leg) (h : held) : outcome (held * list bool) :=
  match ss with
  | [] => Val (h, [])
  | s :: t =>
      r <- take_step s h ;;
      q <- journey t (fst r) ;;
      Val (fst q, snd r :: snd q)
  end.

(** Reading the message: [payload], [group] (sysex7.rs 204-211 for bytes), [data]. *)
Definition read_payload (h : held) : outcome (list N) :=
  match h_place h with
  | PacketVec | PacketArray => payload_list fmt7 (h_buffer h)
  | ByteVec | ByteArray => payload_list_b (h_buffer h)
  end.
Definition read_group (h : held) : outcome N :=
  match h_place h with
  | PacketVec | PacketArray => Sysex.group (h_buffer h)
  | ByteVec | ByteArray => Val 0%N
  end.
Definition read_data (h : held) : outcome (list N) :=
  match h_place h with
  | PacketVec | PacketArray => sx_data fmt7 (h_buffer h)
  | ByteVec | ByteArray => data_b (h_buffer h)
  end.

(** sysex7.rs 204-211: [new] on each kind of buffer. *)
Definition set_out (p : place) (n : nat) : outcome (res held) :=
  let mk b := {| h_place := p; h_buffer := b |} in
  match p with
  | PacketVec => b <- sx_new fmt7 ;; Val (Ok (mk b))
  | ByteVec => b <- new_b ;; Val (Ok (mk b))
  | PacketArray => b <-? sx_try_new fmt7 n ;; Val (Ok (mk b))
  | ByteArray => b <-? try_new_b n ;; Val (Ok (mk b))
  end.
