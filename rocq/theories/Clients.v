(** The client programs that come with the crate: the fuzz targets and the
    examples.  A failed assertion, an [unwrap] of an error and an [expect] of an
    error are panics. *)
From Coq Require Import NArith List Bool Arith String.
From Verif Require Import Base BitOps Values Props Message MessageTable Sysex Splice SpecSysex SpecEdits SysexClient Text Aggregate SpecAggregate Packet Features.
Import ListNotations.
Local Open Scope string_scope.
Local Open Scope list_scope.
Local Open Scope nat_scope.

Definition assert_eq (x y : list N) : outcome unit := if list_eq_dec N.eq_dec x y then Val tt else Panic.
(** An iterator over a vector, mapped: it announces what it yields. *)
Definition listed (l : list N) : source := {| s_items := l; s_hint := (List.length l, Some (List.length l)) |}.

(** fuzz/fuzz_targets/sysex7_payload_roundtrip.rs 7 and
    generic_sysex_splicing_payloads.rs 46-60: [IntoByte] *)
Definition to_byte (fm : form) (x : N) : N := match fm with SevenBit => N.land x 0x7F | EightBit => x end.

(** fuzz/fuzz_targets/sysex7_payload_roundtrip.rs 6-22 and
    sysex8_payload_roundtrip.rs 6-18 *)
Definition fuzz_roundtrip (fm : form) (data : list N) : outcome unit :=
  b0 <- sx_new (fmt_for fm) ;;
  b <- apply_edit fm (SetPayload (listed (map (to_byte fm) data))) b0 ;;
  p <- payload_list (fmt_for fm) b ;;
  _ <- assert_eq p (map (to_byte fm) data) ;;
  d <- sx_data (fmt_for fm) b ;;
  match sx_try_from (fmt_for fm) d with Ok _ => Val tt | Err _ => Panic end.

(** Which way [test_case] was left. *)
Inductive way := FirstRefused | SecondRefused | Checked.

(** fuzz/fuzz_targets/generic_sysex_splicing_payloads.rs 62-95: [test_case].
    [FixedSizeBuffer] (lines 7-34) answers requests as an array does
    (midi2/src/buffer.rs 293-311).  [lower..upper] is the range. *)
Definition fuzz_test_case (byte : N -> N) (try : edit -> list N -> outcome (list N * bool))
  (payload : list N -> outcome (list N)) (initial insert : list N) (lower upper : nat) (b0 : list N) : outcome way :=
  r <- try (SetPayload (listed (map byte initial))) b0 ;;
  if negb (snd r) then Val FirstRefused else
  p <- payload (fst r) ;;
  _ <- assert_eq p (map byte initial) ;;
  r <- try (SplicePayload (listed (map byte insert)) (Included lower) (Excluded upper)) (fst r) ;;
  if negb (snd r) then Val SecondRefused else
  p <- payload (fst r) ;;
  _ <- assert_eq p (map byte (firstn lower initial ++ insert ++ skipn upper initial)) ;;
  Val Checked.

(** Lines 97-137, after the random choice of the buffer's size and of the range *)
Definition fuzz_splice (size : nat) (initial insert : list N) (lower upper : nat) : outcome (way * way * way) :=
  m8 <- unwrapped (sx_try_new_with_buffer fmt8 (repeat 0%N size)) ;;
  w1 <- fuzz_test_case (to_byte EightBit) (try_edit EightBit) (payload_list fmt8) initial insert lower upper m8 ;;
  m7 <- unwrapped (sx_try_new_with_buffer fmt7 (repeat 0%N size)) ;;
  w2 <- fuzz_test_case (to_byte SevenBit) (try_edit SevenBit) (payload_list fmt7) initial insert lower upper m7 ;;
  mb <- unwrapped (try_new_with_buffer_b (repeat 0%N size)) ;;
  w3 <- fuzz_test_case (to_byte SevenBit) try_edit_b payload_list_b initial insert lower upper mb ;;
  Val (w1, w2, w3).

(** examples/handling_messages/src/main.rs 3-36: what is printed, as data.  The
    example is built with the features channel-voice2 and sysex7. *)
Inductive line :=
| PrintChannel (c : N)
| PrintNoteOn (note velocity : N)
| PrintNoteOff (note velocity : N)
| PrintPayload (l : list N)
| PrintError (e : string).

Definition example_features : features := fun f => match f with ChannelVoice2 | Sysex7 => true | _ => false end.
Definition number_of (m : Message.message) (b : list N) (f : string) : outcome N :=
  v <- get U32 m b f ;; match v with VNum n => Val n | _ => Panic end.

Definition handle_message (buffer : list N) : outcome (list line) :=
  r <- ump_try_from_with example_features buffer ;;
  match r with
  | Ok (c, b) =>
    match c with
    | CSysex7 => p <- payload_list fmt7 b ;; Val [PrintPayload p]
    | CFixed m =>
      ch <- agg_channel U32 (c, b) ;;
      if String.eqb (m_name m) "channel_voice2::NoteOn" then
        n <- number_of m b "note_number" ;; v <- number_of m b "velocity" ;; Val [PrintChannel ch; PrintNoteOn n v]
      else if String.eqb (m_name m) "channel_voice2::NoteOff" then
        n <- number_of m b "note_number" ;; v <- number_of m b "velocity" ;; Val [PrintChannel ch; PrintNoteOff n v]
      else Val [PrintChannel ch]
    | _ => Val []
    end
  | Err e => Val [PrintError e]
  end.
