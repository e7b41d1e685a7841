(** SPECIFICATION.  What it means that a message arrives as it was written in an array of [n]
    words.  Texts that the array has no room for change nothing, payloads that it has no
    room for leave an empty payload ([fixed_outcome]).  The vocabulary of C62_arrays. *)
From Coq Require Import NArith List String Arith.
From Verif Require Import Base Values Props Message MessageTable SpecLayout SpecFixed Sysex SpecSysex SpecEdits SysexClient
  Text SpecText Aggregate SpecAggregate Letters.
Import ListNotations.
Local Open Scope nat_scope.

Definition flex_written_in (n : nat) (h : list flex_edit) : flex_state :=
  fold_left (flex_after (Some (n / 4))) h flex_fresh.
Definition stream_written_in (n : nat) (K : stream_kind) (h : list stream_edit) : stream_state :=
  fold_left (stream_after (sk_off K) (Some (n / 4))) h stream_fresh.

(** As [proper_letter]; the array has room for the new message, and sources of payload bytes
    announce no fewer bytes than they replace. *)
Definition proper_letter_in (n : nat) (l : letter) : Prop :=
  match l with
  | Fields m h =>
      In m all_messages /\ m_name m <> "ump_stream::FunctionBlockDiscovery"%string /\ SpecFixed.legal U32 m h
      /\ units U32 (m_name m) <= n
  | Exclusive fm es => packet_words fm <= n /\ fixed_legal fm (room_in fm n) es []
  | FlexText K h =>
      In K flex_texts /\ ~ In (CFlexText K) misrouted /\ Forall flex_edit_ok h /\ 4 <= n
      /\ let t := fs_text (flex_written_in n h) in
         is_string t /\ no_nul t /\ (t = [] \/ List.length t mod 12 <> 0)
  | StreamText K h =>
      In K stream_texts /\ Forall (stream_edit_ok (sk_off K)) h /\ 4 <= n
      /\ let s := stream_written_in n K h in
         is_string (ss_name s) /\ no_nul (ss_name s)
         /\ (sk_off K = 1 -> forall p, p < text_packets 13 (List.length (ss_name s)) -> ss_block s p = ss_block s 0)
  end.

Definition as_written_in (n : nat) (l : letter) (a : aggregate) : Prop :=
  match l with
  | Fields m h =>
      fst a = CFixed m /\ List.length (snd a) = units U32 (m_name m)
      /\ forall f w, settable_field U32 m f w ->
           get U32 m (snd a) f = Val (match last_set f h with Some v => v | None => default_value w end)
  | Exclusive fm es =>
      let l := fst (fixed_history (room_in fm n) es []) in
      fst a = match fm with SevenBit => CSysex7 | EightBit => CSysex8 end
      /\ payload_list (fmt_for fm) (snd a) = Val l
      /\ payload_size (fmt_for fm) (snd a) = Val (List.length l)
      /\ group (snd a) = Val (final_group es 0%N)
  | FlexText K h =>
      fst a = CFlexText K
      /\ flex_text (snd a) = Val (fs_text (flex_written_in n h))
      /\ flex_group (snd a) = Val (fs_group (flex_written_in n h))
      /\ flex_channel (snd a) = Val (fs_channel (flex_written_in n h) 0)
  | StreamText K h =>
      fst a = CStreamText K
      /\ stream_text K (snd a) = Val (ss_name (stream_written_in n K h))
      /\ (sk_off K = 1 -> block_read (snd a) = Val (ss_block (stream_written_in n K h) 0))
  end.
