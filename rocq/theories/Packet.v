(** Single packets: midi2/src/packet.rs, the packet.rs of every message family,
    and the iterator over the packets of a message (midi2/src/packets.rs).

    A packet is a family and the words of its array.  All cargo features are
    enabled. *)
From Coq Require Import NArith List String Bool Arith.
From Verif Require Import Base BitOps Values Helpers Props Message MessageTable Sysex Text Aggregate.
Import ListNotations.
Local Open Scope string_scope.

(** midi2/src/packet.rs 7-24: the variants of [Packet] *)
Inductive kind :=
| PUtility | PSystem | PVoice1 | PSysex7 | PVoice2 | PSysex8 | PFlex | PStream.

(** The [UMP_MESSAGE_TYPE] of the family: channel_voice1.rs 23, channel_voice2.rs
    41, flex_data.rs 799, sysex7.rs 13, sysex8.rs 11, system_common.rs 3,
    ump_stream.rs 34, utility.rs 157. *)
Definition kind_type (k : kind) : N :=
  match k with
  | PUtility => 0x0 | PSystem => 0x1 | PVoice1 => 0x2 | PSysex7 => 0x3 | PVoice2 => 0x4
  | PSysex8 => 0x5 | PFlex => 0xD | PStream => 0xF
  end.
(** Line 4 of the family's packet.rs: the length of the array *)
Definition kind_words (k : kind) : nat :=
  match k with
  | PUtility | PSystem | PVoice1 => 1
  | PSysex7 | PVoice2 => 2
  | PSysex8 | PFlex | PStream => 4
  end.
(** Line 21 of the family's packet.rs: the slice must have this many words *)
Definition kind_needs (k : kind) : nat :=
  match k with
  | PUtility | PSystem | PVoice1 | PVoice2 | PStream => 1
  | PFlex | PSysex7 => 2
  | PSysex8 => 4
  end.

Definition packet : Type := kind * list N.

(** [let mut buffer = [0x0; N]; buffer[..sz].copy_from_slice(&data[..sz])] with
    [sz = N.min(data.len())]; the one-word packets copy [data[0]]. *)
Definition copied (n : nat) (data : list N) : list N :=
  (firstn n data ++ repeat 0%N (n - List.length data))%list.

(** sysex7/packet.rs 71-76, flex_data/packet.rs 62-68, ump_stream/packet.rs 50-56 *)
Inductive format := Complete | Start | Continue | End.
(** sysex8/packet.rs 66-79 *)
Inductive sysex8_status := Status (f : format) | UnexpectedEnd (valid : bool).

(** sysex7/packet.rs 146-156: [status_from_data] *)
Definition status7_of (data : list N) : outcome (res format) :=
  x <- idx data 0 ;;
  let s := nibble32 x 2 in
  Val (if (s =? 0)%N then Ok Complete
       else if (s =? 1)%N then Ok Start
       else if (s =? 2)%N then Ok Continue
       else if (s =? 3)%N then Ok End
       else Err "Invalid SysEx7 status byte").

(** sysex8/packet.rs 81-103: [status_from_data] *)
Definition status8_of (data : list N) : outcome (res sysex8_status) :=
  x <- idx data 0 ;;
  let s := nibble32 x 2 in
  if (s =? 0)%N then Val (Ok (Status Complete))
  else if (s =? 1)%N then Val (Ok (Status Start))
  else if (s =? 2)%N then Val (Ok (Status Continue))
  else if (s =? 3)%N then
    if (octet32 x 3 =? 0)%N then
      if (List.length data <? 4)%nat then Panic       (* data[1..4] *)
      else if forallb (fun w => w =? 0)%N (firstn 3 (skipn 1 data)) then
        let n := nibble32 x 3 in
        Val (Ok (if (n =? 0x1)%N then UnexpectedEnd true
                 else if (n =? 0xF)%N then UnexpectedEnd false
                 else Status End))
      else Val (Ok (Status End))
    else Val (Ok (Status End))
  else Val (Err "Invalid SysEx8 status byte").

(** [TryFrom<&[u32]>] of the family packets, lines 18-46 of their packet.rs.
    Sysex7 also checks the size field and the status (34-38), sysex8 the status
    (34). *)
Definition kind_try_from (k : kind) (data : list N) : outcome (res packet) :=
  if (List.length data <? kind_needs k)%nat then Val (Err "Slice is too short") else
  x <- idx data 0 ;;
  if negb (nibble32 x 0 =? kind_type k)%N then Val (Err "Incorrect UMP message type") else
  let packet := Val (Ok (k, copied (kind_words k) data)) in
  match k with
  | PSysex7 =>
    if (6 <? nibble32 x 3)%N then Val (Err "Size field can not exceed 6")
    else _ <-? status7_of data ;; packet
  | PSysex8 => _ <-? status8_of data ;; packet
  | _ => packet
  end.

(** midi2/src/packet.rs 26-73 *)
Definition packet_try_from (data : list N) : outcome (res packet) :=
  match data with
  | [] => Val (Err "Slice is too short")
  | _ =>
    x <- idx data 0 ;;
    let t := nibble32 x 0 in
    if (t =? kind_type PVoice1)%N then kind_try_from PVoice1 data
    else if (t =? kind_type PVoice2)%N then kind_try_from PVoice2 data
    else if (t =? kind_type PFlex)%N then kind_try_from PFlex data
    else if (t =? kind_type PSysex7)%N then kind_try_from PSysex7 data
    else if (t =? kind_type PSysex8)%N then kind_try_from PSysex8 data
    else if (t =? kind_type PSystem)%N then kind_try_from PSystem data
    else if (t =? kind_type PStream)%N then kind_try_from PStream data
    else if (t =? kind_type PUtility)%N then kind_try_from PUtility data
    else Val (Err "Incorrect UMP message type")
  end.

(** [Deref], lines 42-47 to 49-54 of the family's packet.rs; forwarded by packet.rs 6 *)
Definition packet_data (p : packet) : list N := snd p.

(** ** Header fields *)

(** [Grouped]: channel_voice1/packet.rs 49-61, channel_voice2/packet.rs 50-62,
    system_common/packet.rs 49-61, flex_data/packet.rs 48-60, sysex7/packet.rs
    56-68, sysex8/packet.rs 52-64; not implemented for utility and stream *)
Definition packet_group (p : packet) : outcome N := x <- idx (snd p) 0 ;; Val (nibble32 x 1).
Definition packet_set_group (p : packet) (g : N) : outcome packet :=
  b <- upd (snd p) 0 (fun x => set_nibble32 x 1 g) ;; Val (fst p, b).

(** [Channeled]: channel_voice1/packet.rs 63-75, channel_voice2/packet.rs 64-76 *)
Definition packet_channel (p : packet) : outcome N := x <- idx (snd p) 0 ;; Val (nibble32 x 3).
Definition packet_set_channel (p : packet) (c : N) : outcome packet :=
  b <- upd (snd p) 0 (fun x => set_nibble32 x 3 c) ;; Val (fst p, b).

(** flex_data/packet.rs 70-86 ([crumb(4)]), ump_stream/packet.rs 58-74 ([crumb(2)]):
    [format] *)
Definition packet_format (crumb : N) (p : packet) : outcome format :=
  x <- idx (snd p) 0 ;;
  let s := crumb32 x crumb in
  if (s =? 0)%N then Val Complete
  else if (s =? 1)%N then Val Start
  else if (s =? 2)%N then Val Continue
  else if (s =? 3)%N then Val End
  else Panic.                        (* unreachable!() *)
Definition flex_packet_format (p : packet) : outcome format := packet_format 4 p.
Definition stream_packet_format (p : packet) : outcome format := packet_format 2 p.

(** [unwrap], in packets.rs 13, 16 *)
Definition unwrapped {A} (r : outcome (res A)) : outcome A :=
  match r with Val (Ok a) => Val a | _ => Panic end.

(** sysex7/packet.rs 134-136, sysex8/packet.rs 162-164: [status] *)
Definition status7 (p : packet) : outcome format := unwrapped (status7_of (snd p)).
Definition status8 (p : packet) : outcome sysex8_status := unwrapped (status8_of (snd p)).
(** sysex8/packet.rs 165-167, sysex8.rs 167-169: [stream_id] *)
Definition packet_stream_id (p : packet) : outcome N := x <- idx (snd p) 0 ;; Val (octet32 x 2).

(** ** Payload iterators *)

(** sysex7/packet.rs 78-81, sysex8/packet.rs 105-108; [payload]: 138-143, 168-173 *)
Record pit := { pi_data : list N; pi_index : nat }.
Definition packet_payload (p : packet) : pit := {| pi_data := snd p; pi_index := 0 |}.

(** sysex7/packet.rs 124-131: [packet_size] *)
Definition pi_size7 (it : pit) : outcome nat :=
  x <- idx (pi_data it) 0 ;;
  let n := N.to_nat (nibble32 x 3) in
  if (6 <? n)%nat then Panic else Val n.
(** sysex8/packet.rs 152-159: [packet_size] *)
Definition pi_size8 (it : pit) : outcome nat :=
  x <- idx (pi_data it) 0 ;;
  n <- sub_chk (N.to_nat (nibble32 x 3)) 1 ;;
  if (13 <? n)%nat then Panic else Val n.

Definition pi_at (it : pit) (i : nat) : pit := {| pi_data := pi_data it; pi_index := i |}.

(** sysex7/packet.rs 85-93 *)
Definition pi_next7 (it : pit) : outcome (option N * pit) :=
  s <- pi_size7 it ;;
  if (s <=? pi_index it)%nat then Val (None, it)
  else
    let j := pi_index it + 2 in
    v <- get_unit fmt7 (pi_data it) (j / 4) (j mod 4) ;;
    Val (Some v, pi_at it (pi_index it + 1)).
(** sysex7/packet.rs 95-104 *)
Definition pi_nth7 (it : pit) (n : nat) : outcome (option N * pit) :=
  s <- pi_size7 it ;;
  if (s <=? pi_index it + n)%nat then Val (None, pi_at it (Nat.min (pi_index it + n) 6))
  else
    let j := pi_index it + n + 2 in
    v <- get_unit fmt7 (pi_data it) (j / 4) (j mod 4) ;;
    Val (Some v, pi_at it (pi_index it + (n + 1))).
(** sysex7/packet.rs 106-122: [len], also [size_hint] and [count] *)
Definition pi_len7 (it : pit) : outcome nat := s <- pi_size7 it ;; sub_chk s (pi_index it).

(** sysex8/packet.rs 113-121 *)
Definition pi_next8 (it : pit) : outcome (option N * pit) :=
  s <- pi_size8 it ;;
  if (s <=? pi_index it)%nat then Val (None, it)
  else
    let j := pi_index it + 3 in
    v <- get_unit fmt8 (pi_data it) (j / 4) (j mod 4) ;;
    Val (Some v, pi_at it (pi_index it + 1)).
(** sysex8/packet.rs 123-132 *)
Definition pi_nth8 (it : pit) (n : nat) : outcome (option N * pit) :=
  s <- pi_size8 it ;;
  if (s <=? pi_index it + n)%nat then Val (None, pi_at it (pi_index it + n))
  else
    let j := pi_index it + n + 3 in
    v <- get_unit fmt8 (pi_data it) (j / 4) (j mod 4) ;;
    Val (Some v, pi_at it (Nat.min (pi_index it + n) 13)).
(** sysex8/packet.rs 134-150 *)
Definition pi_len8 (it : pit) : outcome nat := s <- pi_size8 it ;; sub_chk s (pi_index it).

(** ** The packets of a message *)

(** [MIN_SIZE] over words: generate_message.rs 290-309 with the [MinSizeUmp] of
    sysex7.rs 15, sysex8.rs 16, flex_data.rs 21-768, unknown_metadata_text.rs and
    ump_stream/*.rs *)
Definition concrete_min (c : concrete) : nat :=
  match c with
  | CFixed m => min_size U32 m
  | CSysex7 => 2
  | CSysex8 | CFlexText _ | CStreamText _ => 4
  end.

(** packets.rs 8: [PacketsIterator] holds the chunks not yet visited;
    generate_message.rs 339-350 and derives.rs 34-55: [packets] *)
Definition packets_iter := list (list N).
Definition agg_packets (a : aggregate) : outcome packets_iter :=
  d <- agg_data U32 a ;; Val (chunks_exact (concrete_min (fst a)) d).

(** packets.rs 12-14, 15-17: [map(|data| Packet::try_from(data).unwrap())] *)
Definition packet_of (c : option (list N)) : outcome (option packet) :=
  match c with
  | None => Val None
  | Some data => p <- unwrapped (packet_try_from data) ;; Val (Some p)
  end.
Definition packets_next (it : packets_iter) : outcome (option packet * packets_iter) :=
  p <- packet_of (hd_error it) ;; Val (p, tl it).
(** packets.rs 15-17; [ChunksExact::nth] skips [n] chunks and leaves nothing when there are not so many *)
Definition packets_nth (it : packets_iter) (n : nat) : outcome (option packet * packets_iter) :=
  p <- packet_of (nth_error it n) ;; Val (p, skipn (S n) it).
(** packets.rs 18-35: [count], [size_hint], [len] *)
Definition packets_len (it : packets_iter) : nat := List.length it.
Definition packets_size_hint (it : packets_iter) : nat * option nat := (List.length it, Some (List.length it)).

(** [packets().collect()]: [next] of packets.rs 12-14 until it answers [None] *)
Fixpoint collect_packets (fuel : nat) (it : packets_iter) : outcome (list packet) :=
  match fuel with
  | O => Val []
  | S n =>
    r <- packets_next it ;;
    match r with
    | (None, _) => Val []
    | (Some p, it') => ps <- collect_packets n it' ;; Val (p :: ps)
    end
  end.
Definition all_packets (a : aggregate) : outcome (list packet) :=
  it <- agg_packets a ;; collect_packets (S (List.length it)) it.
