(** A client at the end of a MIDI 1.0 cable.  It is given one byte after the other and uses [BytesMessage::try_from]
    (midi2/src/message.rs 108-140) to find out whether a message is complete.  Model of

      struct Cable { status: Option<u8>, held: Vec<u8> }
      fn feed(&mut self, x: u8) -> Option<BytesMessage<Vec<u8>>> {
          if x >= 0xF8 {
              return BytesMessage::try_from(&[x][..]).ok().map(|m| m.rebuffer_into());
          }
          if x >= 0x80 && x != 0xF7 {
              self.status = if x < 0xF0 { Some(x) } else { None };
              self.held = vec![x];
          } else {
              if self.held.is_empty() { self.held.extend(self.status); }
              self.held.push(x);
          }
          let m = BytesMessage::try_from(&self.held[..]).ok()?.rebuffer_into();
          self.held.clear();
          Some(m)
      }                                                                                  *)
From Coq Require Import NArith List Bool.
From Verif Require Import Base Values Props Message Aggregate.
Import ListNotations.

Record cable_end := { c_status : option N; c_held : list N }.
Definition cable_start : cable_end := {| c_status := None; c_held := [] |}.

(** The message in the slice, if there is one, with its [data()]. *)
Definition heard_in (b : list N) : outcome (list aggregate) :=
  r <- bytes_try_from b ;;
  match r with Ok m => d <- agg_data U8 m ;; Val [(fst m, d)] | Err _ => Val [] end.

Definition cable_feed (c : cable_end) (x : N) : outcome (cable_end * list aggregate) :=
  if (0xF8 <=? x)%N then out <- heard_in [x] ;; Val (c, out)
  else
    let c1 :=
      if ((0x80 <=? x) && negb (x =? 0xF7))%N
      then {| c_status := if (x <? 0xF0)%N then Some x else None; c_held := [x] |}
      else {| c_status := c_status c;
              c_held := (match c_held c, c_status c with [], Some s => [s] | h, _ => h end) ++ [x] |} in
    out <- heard_in (c_held c1) ;;
    Val (match out with [] => c1 | _ => {| c_status := c_status c1; c_held := [] |} end, out).

Fixpoint cable_run (c : cable_end) (w : list N) : outcome (cable_end * list aggregate) :=
  match w with
  | [] => Val (c, [])
  | x :: t => r <- cable_feed c x ;; r' <- cable_run (fst r) t ;; Val (fst r', snd r ++ snd r')
  end.

(** A client that collects packets of one sender and asks [UmpMessage::try_from] (midi2/src/message.rs 33-70) after each
    of them whether the words held are a message.  Model of

      fn feed(&mut self, p: Packet) -> Option<UmpMessage<Vec<u32>>> {
          self.held.extend(p.data());
          let m = UmpMessage::try_from(&self.held[..]).ok()?.rebuffer_into();
          self.held.clear();
          Some(m)
      }                                                                                  *)
Definition packet_feed (held : list N) (p : list N) : outcome (list N * list aggregate) :=
  r <- ump_try_from (held ++ p) ;;
  match r with Ok m => d <- agg_data U32 m ;; Val ([], [(fst m, d)]) | Err _ => Val (held ++ p, []) end.
Fixpoint packet_run (held : list N) (ps : list (list N)) : outcome (list N * list aggregate) :=
  match ps with
  | [] => Val (held, [])
  | p :: t => r <- packet_feed held p ;; r' <- packet_run (fst r) t ;; Val (fst r', snd r ++ snd r')
  end.
