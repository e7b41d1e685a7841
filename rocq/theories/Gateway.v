(** A client that sends MIDI 1.0 byte streams over a UMP connection, one group per
    stream, and one that turns what arrives into byte streams again.  Model of

      fn cable_in(group: u4, bytes: &[u8]) -> Result<Vec<Packet>> {
          let mut rest = bytes;
          while !rest.is_empty() {
              let m = BytesMessage::try_from(rest)?;
              rest = &rest[m.data().len()..];
              let u: UmpMessage<Vec<u32>> = match m {
                  BytesMessage::ChannelVoice1(m) => {
                      let mut u = ChannelVoice1::<Vec<u32>>::from_bytes(m);
                      u.set_group(group);
                      u.into()
                  }
                  ... // SystemCommon and Sysex7 alike
              };
              out.extend(u.packets());
          }
      }
      fn cable_out(group: u4, received: ...) -> Result<Vec<u8>> {
          for (g, m) in received {
              if g != group { continue; }
              let b: BytesMessage<Vec<u8>> = match m? { ... => from_ump(m).into() };
              out.extend(b.data());
          }
      }

    over the API.  The receiver is that of Receiver.v, filing by group. *)
From Coq Require Import NArith List String.
From Verif Require Import Base Values Props Message Sysex Splice Aggregate Packet StreamClient Receiver.
Import ListNotations.

(** [FromBytes] / [FromUmp] (channel_voice1.rs, system_common.rs via derives.rs
    57-175; sysex7.rs 286-332), then [set_group] *)
Definition to_ump (g : N) (a : aggregate) : outcome aggregate :=
  u <- match fst a with
       | CSysex7 => b <- sysex7_from_bytes (snd a) ;; Val (CSysex7, b)
       | _ => agg_from_bytes a
       end ;;
  agg_set_group u g.
Definition to_bytes (a : aggregate) : outcome aggregate :=
  match fst a with
  | CSysex7 => b <- sysex7_from_ump (snd a) ;; Val (CSysex7, b)
  | _ => agg_from_ump a
  end.

Fixpoint send (g : N) (ms : list aggregate) : outcome (list packet) :=
  match ms with
  | [] => Val []
  | m :: t => u <- to_ump g m ;; ps <- all_packets u ;; qs <- send g t ;; Val (ps ++ qs)
  end.
Definition cable_in (g : N) (b : list N) : outcome (res (list packet)) :=
  ms <-? read_messages U8 b ;; ps <- send g ms ;; Val (Ok ps).

(** The receiving end of the connection: words to packets to messages. *)
Definition link_out (w : list N) : outcome (res (open_messages * list (N * res aggregate))) :=
  ps <-? read_packets w ;; r <- receive_all packet_group [] ps ;; Val (Ok r).

Fixpoint cable_out (g : N) (received : list (N * res aggregate)) : outcome (res (list N)) :=
  match received with
  | [] => Val (Ok [])
  | (k, r) :: t =>
      if (k =? g)%N then
        m <-? Val r ;;
        b <- to_bytes m ;;
        d <- agg_data U8 b ;;
        l <-? cable_out g t ;;
        Val (Ok (d ++ l))
      else cable_out g t
  end.
