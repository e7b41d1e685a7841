(** Vocabulary for the generated files [RepoTests*.v], which read the unit tests
    of /repo as statements about the model.  Nothing here is used by the model or
    by the property theorems. *)
From Coq Require Import NArith List String Bool.
From Verif Require Import Base Values Props Message Text Sysex Splice SpecSysex Ci Packet.
Import ListNotations.
Local Open Scope string_scope.
Local Open Scope N_scope.

(** A test passes when it does not panic and its assertions hold. *)
Definition passes (t : outcome Prop) : Prop := match t with Val p => p | Panic => False end.

(** [lo..hi] as the bytes a Rust range yields *)
Definition ints (lo hi : nat) : list N := map N.of_nat (seq lo (hi - lo)).

(** An iterator over the items that reports its exact length: a range, a slice
    iterator, [repeat_n], [empty], or a [map] of one of these. *)
Definition listed (l : list N) : source :=
  {| s_items := l; s_hint := (List.length l, Some (List.length l)) |}.
(** [Iterator::chain] of two of them adds the hints. *)
Definition chained (a b : source) : source := listed (s_items a ++ s_items b).
(** midi2/src/detail/test_support/rubbish_payload_iterator.rs 4-29: the same items without
    a size hint; [new] has the items 0 to 49. *)
Definition unhinted (s : source) : source := {| s_items := s_items s; s_hint := (0%nat, None) |}.
Definition rubbish : source := unhinted (listed (ints 0 50)).

(** [Option::unwrap], [Result::unwrap] of a fallible edit, [Result::is_ok] and
    [Result::map] *)
Definition some_of {A} (o : option A) : outcome A :=
  match o with Some a => Val a | None => Panic end.
Definition check (ok : bool) : outcome unit := if ok then Val tt else Panic.
Definition is_okay {A} (r : res A) : bool := match r with Ok _ => true | Err _ => false end.
Definition map_res {A B} (f : A -> B) (r : res A) : res B :=
  match r with Ok a => Ok (f a) | Err e => Err e end.
Definition truth (v : value) : bool := match v with VBool b => b | _ => false end.
Definition flag (v : ci_value) : bool := match v with CiFlag b => b | _ => false end.

(** midi2/src/channel_voice2/attribute.rs 99-102: the tests' own [try_from_ump] *)
Definition read_attribute (b : list N) : outcome (res value) :=
  r <- prop_validate U32 PAttribute b ;;
  match r with
  | Ok _ => v <- prop_read U32 PAttribute b ;; Val (Ok v)
  | Err e => Val (Err e)
  end.

(** The text messages, by name (rows of [flex_texts] and [stream_texts]). *)
Definition k_UnknownMetadataText : flex_kind := {| fk_name := "UnknownMetadataText"; fk_bank := 1; fk_status := 0x00 |}.
Definition k_ProjectName : flex_kind := {| fk_name := "ProjectName"; fk_bank := 1; fk_status := 0x01 |}.
Definition k_CompositionName : flex_kind := {| fk_name := "CompositionName"; fk_bank := 1; fk_status := 0x02 |}.
Definition k_MidiClipName : flex_kind := {| fk_name := "MidiClipName"; fk_bank := 1; fk_status := 0x03 |}.
Definition k_CopyrightNotice : flex_kind := {| fk_name := "CopyrightNotice"; fk_bank := 1; fk_status := 0x04 |}.
Definition k_ComposerName : flex_kind := {| fk_name := "ComposerName"; fk_bank := 1; fk_status := 0x05 |}.
Definition k_LyricistName : flex_kind := {| fk_name := "LyricistName"; fk_bank := 1; fk_status := 0x06 |}.
Definition k_ArrangerName : flex_kind := {| fk_name := "ArrangerName"; fk_bank := 1; fk_status := 0x07 |}.
Definition k_PublisherName : flex_kind := {| fk_name := "PublisherName"; fk_bank := 1; fk_status := 0x08 |}.
Definition k_PrimaryPerformerName : flex_kind := {| fk_name := "PrimaryPerformerName"; fk_bank := 1; fk_status := 0x09 |}.
Definition k_AccompanyingPerformerName : flex_kind := {| fk_name := "AccompanyingPerformerName"; fk_bank := 1; fk_status := 0x0A |}.
Definition k_RecordingDate : flex_kind := {| fk_name := "RecordingDate"; fk_bank := 1; fk_status := 0x0B |}.
Definition k_RecordingLocation : flex_kind := {| fk_name := "RecordingLocation"; fk_bank := 1; fk_status := 0x0C |}.
Definition k_UnknownPerformanceText : flex_kind := {| fk_name := "UnknownPerformanceText"; fk_bank := 2; fk_status := 0x00 |}.
Definition k_Lyrics : flex_kind := {| fk_name := "Lyrics"; fk_bank := 2; fk_status := 0x01 |}.
Definition k_LyricsLanguage : flex_kind := {| fk_name := "LyricsLanguage"; fk_bank := 2; fk_status := 0x02 |}.
Definition k_Ruby : flex_kind := {| fk_name := "Ruby"; fk_bank := 2; fk_status := 0x03 |}.
Definition k_RubyLanguage : flex_kind := {| fk_name := "RubyLanguage"; fk_bank := 2; fk_status := 0x04 |}.
Definition k_EndpointName : stream_kind := {| sk_name := "EndpointName"; sk_status := 0x03; sk_off := 0 |}.
Definition k_ProductInstanceId : stream_kind := {| sk_name := "ProductInstanceId"; sk_status := 0x04; sk_off := 0 |}.
Definition k_FunctionBlockName : stream_kind := {| sk_name := "FunctionBlockName"; sk_status := 0x12; sk_off := 1 |}.

Ltac run_test := vm_compute; repeat match goal with |- _ /\ _ => split end; (exact I || reflexivity).
