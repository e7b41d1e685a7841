(** A client that puts messages together again from packets that arrive one by
    one, several messages under way at a time.  Model of

      struct Receiver { open: HashMap<Key, Vec<u32>> }
      fn receive(&mut self, p: Packet) -> Option<(Key, Result<UmpMessageOwned>)> {
          let k = key(&p);
          let buffer = self.open.entry(k).or_default();
          buffer.extend_from_slice(&p);
          if !is_final(&p) { return None; }
          let buffer = self.open.remove(&k).unwrap();
          Some((k, UmpMessage::try_from(&buffer[..])...))
      }

    over [Packet] (midi2/src/packet.rs), [Packet::group], [status] of sysex7 and
    sysex8 packets, [stream_id], [format] of flex data and stream packets, and
    [UmpMessage::try_from] (midi2/src/message.rs 33-70).  A key is a number. *)
From Coq Require Import NArith List.
From Verif Require Import Base Values Props Message Aggregate Packet.
Import ListNotations.

(** Is this the last packet of its message?  [status] / [format]; messages of the
    other families have one packet. *)
Definition ends (f : format) : bool := match f with Complete | End => true | Start | Continue => false end.
Definition is_final (p : packet) : outcome bool :=
  match fst p with
  | PSysex7 => f <- status7 p ;; Val (ends f)
  | PSysex8 => s <- status8 p ;; Val (match s with Status f => ends f | UnexpectedEnd _ => true end)
  | PFlex => f <- flex_packet_format p ;; Val (ends f)
  | PStream => f <- stream_packet_format p ;; Val (ends f)
  | _ => Val true
  end.

(** The map from keys to unfinished messages. *)
Definition open_messages := list (N * list N).
Fixpoint so_far (st : open_messages) (k : N) : list N :=
  match st with
  | [] => []
  | (j, b) :: t => if (j =? k)%N then b else so_far t k
  end.
Definition closed (st : open_messages) (k : N) : open_messages :=
  filter (fun e => negb (fst e =? k)%N) st.

Definition receive (key : packet -> outcome N) (st : open_messages) (p : packet)
  : outcome (open_messages * option (N * res aggregate)) :=
  k <- key p ;;
  let b := so_far st k ++ packet_data p in
  f <- is_final p ;;
  if f then r <- ump_try_from b ;; Val (closed st k, Some (k, r))
  else Val ((k, b) :: closed st k, None).

(** What arrives is received one by one; the messages come out in the order in
    which they are completed. *)
Fixpoint receive_all (key : packet -> outcome N) (st : open_messages) (ps : list packet)
  : outcome (open_messages * list (N * res aggregate)) :=
  match ps with
  | [] => Val (st, [])
  | p :: t =>
      r <- receive key st p ;;
      q <- receive_all key (fst r) t ;;
      Val (fst q, match snd r with Some e => e :: snd q | None => snd q end)
  end.

(** The keys of the standard: system exclusive messages of different groups, or
    of different stream ids, may be under way at the same time. *)
Definition standard_key (p : packet) : outcome N :=
  match fst p with
  | PSysex7 => g <- packet_group p ;; Val (1 + g)%N
  | PSysex8 => g <- packet_group p ;; i <- packet_stream_id p ;; Val (256 + 256 * g + i)%N
  | _ => Val 0%N
  end.
