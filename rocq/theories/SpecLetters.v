(** SPECIFICATION.  What it means that a message arrives as it was written: the
    vocabulary of C62. *)
From Coq Require Import NArith List String Arith.
From Verif Require Import Base Values Props Message MessageTable SpecLayout SpecFixed Sysex SpecSysex SpecEdits SysexClient
  Text SpecText Aggregate SpecAggregate Letters.
Import ListNotations.
Local Open Scope nat_scope.

(** What the calls on a text message amount to. *)
Definition flex_written (h : list flex_edit) : flex_state := fold_left (flex_after None) h flex_fresh.
Definition stream_written (K : stream_kind) (h : list stream_edit) : stream_state :=
  fold_left (stream_after (sk_off K) None) h stream_fresh.

(** The calls are ones that Rust's types and the documented limits allow.  Texts are
    strings without NUL.  Known defects are left out: the type whose MIN_SIZE is too
    small (C07_sizes_refuted), three flex data types that the parser looks for under
    other numbers, flex data texts that fill their last packet to the end, and names
    of function blocks whose packets do not agree on the block. *)
Definition proper_letter (l : letter) : Prop :=
  match l with
  | Fields m h => In m all_messages /\ m_name m <> "ump_stream::FunctionBlockDiscovery"%string /\ SpecFixed.legal U32 m h
  | Exclusive fm es => all_legal fm es []
  | FlexText K h =>
      In K flex_texts /\ ~ In (CFlexText K) misrouted /\ Forall flex_edit_ok h
      /\ let t := fs_text (flex_written h) in
         is_string t /\ no_nul t /\ (t = [] \/ List.length t mod 12 <> 0)
  | StreamText K h =>
      In K stream_texts /\ Forall (stream_edit_ok (sk_off K)) h
      /\ let s := stream_written K h in
         is_string (ss_name s) /\ no_nul (ss_name s)
         /\ (sk_off K = 1 -> forall p, p < text_packets 13 (List.length (ss_name s)) -> ss_block s p = ss_block s 0)
  end.

(** The message [a] is of the letter's type; every getter returns the value of the last call
    of its setter, or the default; payloads and texts are what the edits make of them. *)
Definition as_written (l : letter) (a : aggregate) : Prop :=
  match l with
  | Fields m h =>
      fst a = CFixed m
      /\ forall f w, settable_field U32 m f w ->
           get U32 m (snd a) f = Val (match last_set f h with Some v => v | None => default_value w end)
  | Exclusive fm es =>
      fst a = match fm with SevenBit => CSysex7 | EightBit => CSysex8 end
      /\ payload_list (fmt_for fm) (snd a) = Val (final_payload es [])
      /\ payload_size (fmt_for fm) (snd a) = Val (List.length (final_payload es []))
      /\ group (snd a) = Val (final_group es 0%N)
  | FlexText K h =>
      fst a = CFlexText K
      /\ flex_text (snd a) = Val (fs_text (flex_written h))
      /\ flex_group (snd a) = Val (fs_group (flex_written h))
      /\ flex_channel (snd a) = Val (fs_channel (flex_written h) 0)
  | StreamText K h =>
      fst a = CStreamText K
      /\ stream_text K (snd a) = Val (ss_name (stream_written K h))
      /\ (sk_off K = 1 -> block_read (snd a) = Val (ss_block (stream_written K h) 0))
  end.
