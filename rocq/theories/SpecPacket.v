(** SPECIFICATION.  Vocabulary for the properties of single packets, written
    from the UMP format. *)
From Coq Require Import NArith List Arith.
From Verif Require Import Base Values Props Message SpecLayout SpecSysex SpecEdits Aggregate SpecAggregate Packet.
Import ListNotations.

(** Length in words of a packet of each family (M2-104-UM, table 4). *)
Definition family_words (f : family) : nat :=
  match f with
  | Utility | SystemCommon | ChannelVoice1 => 1
  | Sysex7 | ChannelVoice2 => 2
  | Sysex8 | FlexData | UmpStream => 4
  end.

(** The variant of [Packet] of each family. *)
Definition variant (f : family) : kind :=
  match f with
  | Utility => PUtility | SystemCommon => PSystem | ChannelVoice1 => PVoice1
  | Sysex7 => PSysex7 | ChannelVoice2 => PVoice2 | Sysex8 => PSysex8
  | FlexData => PFlex | UmpStream => PStream
  end.

(** The fields of a packet's first word, most significant first. *)
Definition type_field (b : list N) : N := bits b (Seg 0 28 4).
Definition group_field (b : list N) : N := bits b (Seg 0 24 4).
Definition status_field (b : list N) : N := bits b (Seg 0 20 4).
Definition size_field (b : list N) : N := bits b (Seg 0 16 4).
Definition stream_id_field (b : list N) : N := bits b (Seg 0 8 8).
(** The two-bit form of flex data and of stream packets. *)
Definition flex_form_field (b : list N) : N := bits b (Seg 0 22 2).
Definition stream_form_field (b : list N) : N := bits b (Seg 0 26 2).

(** Size and status codes of system exclusive packets that exist. *)
Definition valid_codes (f : family) (b : list N) : Prop :=
  match f with
  | Sysex7 => (status_field b <= 3)%N /\ (size_field b <= 6)%N
  | Sysex8 => (status_field b <= 3)%N
  | _ => True
  end.

(** Exactly [n] words: those of [b], cut or continued with zeros. *)
Definition fitted (n : nat) (b : list N) : list N := map (fun i => nth i b 0%N) (seq 0 n).

(** Words a slice must have before the code looks at it. *)
Definition words_asked (f : family) : nat :=
  match f with Sysex7 | FlexData => 2 | Sysex8 => 4 | _ => 1 end.

(** The codes of a form or status field. *)
Definition form_code (s : format) : N :=
  match s with Complete => 0 | Start => 1 | Continue => 2 | End => 3 end.

(** A sysex8 packet that ends a message prematurely: an end packet whose payload
    is all zeros and whose size is 1 (the data before it is valid) or 15 (it is
    not). *)
Definition breaks_off (valid : bool) (b : list N) : Prop :=
  status_field b = 3%N /\ bits b (Seg 0 0 8) = 0%N
  /\ nth 1 b 0%N = 0%N /\ nth 2 b 0%N = 0%N /\ nth 3 b 0%N = 0%N
  /\ size_field b = (if valid then 1 else 15)%N.

(** A packet that is its family's size and says so. *)
Definition well_formed (p : packet) : Prop :=
  exists f, fst p = variant f /\ ump_family (type_field (snd p)) = Some f
    /\ List.length (snd p) = family_words f.

(** ** Clients *)

(** Iterators over anything, after SpecEdits.v: what is answered, and what is
    left. *)
Definition item_answer {A} (c : call) (l : list A) : option A :=
  match c with Next => hd_error l | Nth n => nth_error l n end.
Definition items_after {A} (c : call) (l : list A) : list A :=
  match c with Next => tl l | Nth n => skipn (S n) l end.
Fixpoint item_answers {A} (cs : list call) (l : list A) : list (option A * nat) :=
  match cs with
  | [] => []
  | c :: t => (item_answer c l, List.length (items_after c l)) :: item_answers t (items_after c l)
  end.

(** Calls on the iterator over packets, each followed by [len()]. *)
Fixpoint run_packets (cs : list call) (it : packets_iter) : outcome (list (option packet * nat)) :=
  match cs with
  | [] => Val []
  | c :: t =>
      r <- match c with Next => packets_next it | Nth n => packets_nth it n end ;;
      q <- run_packets t (snd r) ;;
      Val ((fst r, packets_len (snd r)) :: q)
  end.

(** Calls on the payload iterator of a packet, each followed by [len()]. *)
Fixpoint run_payload (fm : form) (cs : list call) (it : pit) : outcome (list (option N * nat)) :=
  match cs with
  | [] => Val []
  | c :: t =>
      r <- match fm, c with
           | SevenBit, Next => pi_next7 it | SevenBit, Nth n => pi_nth7 it n
           | EightBit, Next => pi_next8 it | EightBit, Nth n => pi_nth8 it n
           end ;;
      n <- match fm with SevenBit => pi_len7 (snd r) | EightBit => pi_len8 (snd r) end ;;
      q <- run_payload fm t (snd r) ;;
      Val ((fst r, n) :: q)
  end.

(** [payload().collect()]: [next] until [None]; no packet has more than 13 bytes. *)
Fixpoint drain (fm : form) (fuel : nat) (it : pit) : outcome (list N) :=
  match fuel with
  | O => Val []
  | S n =>
      r <- match fm with SevenBit => pi_next7 it | EightBit => pi_next8 it end ;;
      match r with
      | (None, _) => Val []
      | (Some v, it') => l <- drain fm n it' ;; Val (v :: l)
      end
  end.
Definition collected (fm : form) (p : packet) : outcome (list N) := drain fm 14 (packet_payload p).
Fixpoint all_collected (fm : form) (ps : list packet) : outcome (list N) :=
  match ps with
  | [] => Val []
  | p :: t => l <- collected fm p ;; r <- all_collected fm t ;; Val (l ++ r)
  end.
