(** A client that begins to listen to a MIDI 1.0 byte stream at any time.  Model of

      let start = b.iter().position(|x| *x >= 0x80 && *x != 0xF7).unwrap_or(b.len());
      let mut rest = &b[start..];
      while !rest.is_empty() { let m = BytesMessage::try_from(rest)?; rest = &rest[m.data().len()..]; ... }

    over [TryFrom<&[u8]>] of [BytesMessage] (midi2/src/message.rs 108-140); the loop is [read_messages] (StreamClient.v). *)
From Coq Require Import NArith List Bool.
From Verif Require Import Base Values Props Message Aggregate StreamClient.
Import ListNotations.

(** [position(..)] and the slice from there; [b.len()], the empty slice, if there is no such byte. *)
Fixpoint from_status (b : list N) : list N :=
  match b with
  | [] => []
  | x :: t => if ((0x80 <=? x) && negb (x =? 0xF7))%N then b else from_status t
  end.
Definition join_bytes (b : list N) : outcome (res (list aggregate)) := read_messages U8 (from_status b).
