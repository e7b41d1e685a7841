(** The aggregate enums: one per message family (channel_voice1.rs,
    channel_voice2.rs, system_common.rs, utility.rs, flex_data.rs,
    ump_stream.rs), [UmpMessage] and [BytesMessage] (message.rs), with the
    traits derived for them by midi2_proc/src/derives.rs.

    An aggregate value is a concrete message type (the variant, or the path of
    variants for the nested enums) and the buffer of the wrapped message.  All
    cargo features are enabled. *)
From Coq Require Import NArith List String Bool Arith.
From Verif Require Import Base BitOps Values Helpers Props Message MessageTable Sysex Text.
Import ListNotations.
Local Open Scope string_scope.

(** The concrete message types: the variants of the enums of message.rs 14-31 and of each family. *)
Inductive concrete :=
| CFixed (m : message)             (* MessageTable.v *)
| CSysex7 | CSysex8                (* Sysex.v; [CSysex7] over bytes and over words *)
| CFlexText (k : flex_kind)        (* Text.v *)
| CStreamText (k : stream_kind).

(** [TryFrom<&[U]>] of a concrete type: generate_message.rs 352-388 *)
Definition concrete_try_from (u : unit_id) (c : concrete) (b : list N) : outcome (res (list N)) :=
  match c, u with
  | CFixed m, _ => try_from u m b
  | CSysex7, U8 => Val (try_from_b b)
  | CSysex7, U32 => Val (sx_try_from fmt7 b)
  | CSysex8, U32 => Val (sx_try_from fmt8 b)
  | CFlexText k, U32 => flex_try_from k b
  | CStreamText k, U32 => stream_try_from k b
  | _, U8 => Panic                 (* does not exist *)
  end.

(** A value of such an enum: the variant and its buffer (message.rs 14-31) *)
Definition aggregate : Type := concrete * list N.

(** [T::try_from(buffer)?.into()], an arm of message.rs 43-72 for instance *)
Definition wrap (u : unit_id) (c : concrete) (b : list N) : outcome (res aggregate) :=
  m <-? concrete_try_from u c b ;; Val (Ok (c, m)).

(** A [match] on a number with literal arms: the first arm that fits (message.rs 43-72 for
    instance). *)
Fixpoint select (arms : list (N * concrete)) (s : N) : option concrete :=
  match arms with
  | [] => None
  | (n, c) :: t => if (s =? n)%N then Some c else select t s
  end.
Definition dispatch (u : unit_id) (arms : list (N * concrete)) (error : string) (s : N) (b : list N)
  : outcome (res aggregate) :=
  match select arms s with Some c => wrap u c b | None => Val (Err error) end.

(** ** The family enums *)

(** channel_voice1.rs 77-88: [status] *)
Definition cv1_status (u : unit_id) (b : list N) : outcome N :=
  x <- idx b 0 ;; Val (match u with U8 => nibble8 x 0 | U32 => nibble32 x 2 end).
(** channel_voice1.rs 63-69, with the [STATUS] constants of channel_voice1/*.rs *)
Definition cv1_arms : list (N * concrete) := [
  (0xD, CFixed cv1_channel_pressure); (0xB, CFixed cv1_control_change);
  (0xA, CFixed cv1_key_pressure); (0x8, CFixed cv1_note_off); (0x9, CFixed cv1_note_on);
  (0xE, CFixed cv1_pitch_bend); (0xC, CFixed cv1_program_change) ]%N.
(** channel_voice1.rs 54-75 *)
Definition cv1_try_from (u : unit_id) (b : list N) : outcome (res aggregate) :=
  match b with
  | [] => Val (Err "Slice is too short")
  | _ => s <- cv1_status u b ;; dispatch u cv1_arms "Unknown midi1 channel voice status" s b
  end.

(** channel_voice2.rs 88-124, with the [STATUS] constants of channel_voice2/*.rs *)
Definition cv2_arms : list (N * concrete) := [
  (0x3, CFixed cv2_assignable_controller); (0x1, CFixed cv2_assignable_per_note_controller);
  (0xE, CFixed cv2_channel_pitch_bend); (0xD, CFixed cv2_channel_pressure);
  (0xB, CFixed cv2_control_change); (0xA, CFixed cv2_key_pressure);
  (0x8, CFixed cv2_note_off); (0x9, CFixed cv2_note_on);
  (0xF, CFixed cv2_per_note_management); (0x6, CFixed cv2_per_note_pitch_bend);
  (0xC, CFixed cv2_program_change); (0x2, CFixed cv2_registered_controller);
  (0x0, CFixed cv2_registered_per_note_controller);
  (0x5, CFixed cv2_relative_assignable_controller);
  (0x4, CFixed cv2_relative_registered_controller) ]%N.
(** channel_voice2.rs 76-130 *)
Definition cv2_try_from (b : list N) : outcome (res aggregate) :=
  match b with
  | [] => Val (Err "Slice is too short")
  | _ => x <- idx b 0 ;;
         dispatch U32 cv2_arms "Unknown midi2 channel voice status" (nibble32 x 2) b
  end.

(** system_common.rs 231-242, with the [STATUS] constants of system_common.rs
    14-176 and system_common/*.rs *)
Definition sys_arms : list (N * concrete) := [
  (0xFE, CFixed sys_active_sensing); (0xFB, CFixed sys_continue); (0xFF, CFixed sys_reset);
  (0xF2, CFixed sys_song_position_pointer); (0xF3, CFixed sys_song_select);
  (0xFA, CFixed sys_start); (0xFC, CFixed sys_stop); (0xF1, CFixed sys_time_code);
  (0xF8, CFixed sys_timing_clock); (0xF6, CFixed sys_tune_request) ]%N.
(** system_common.rs 223-248; [status], 296-307, is [sys_status] of Props.v *)
Definition sys_try_from (u : unit_id) (b : list N) : outcome (res aggregate) :=
  match b with
  | [] => Val (Err "Slice is too short")
  | _ => x <- idx b 0 ;;
         dispatch u sys_arms "Unknown midi1 channel voice status" (sys_status u x) b
  end.

(** utility.rs 227-235, with the [STATUS] constants of utility.rs 1-154 *)
Definition util_arms : list (N * concrete) := [
  (0x0, CFixed util_no_op); (0x1, CFixed util_clock); (0x2, CFixed util_timestamp);
  (0x4, CFixed util_delta_clockstamp); (0x3, CFixed util_delta_clockstamp_tpq) ]%N.
(** utility.rs 219-238, [status] 240-252 *)
Definition util_try_from (b : list N) : outcome (res aggregate) :=
  match b with
  | [] => Val (Err "Slice is too short")
  | _ => x <- idx b 0 ;;
         dispatch U32 util_arms "Unknown utility message status" (nibble32 x 2) b
  end.

Definition flex_text_named (bank status : N) (name : string) : concrete :=
  CFlexText {| fk_name := name; fk_bank := bank; fk_status := status |}.
(** flex_data.rs 858-888.  The arms are literals; the last three metadata texts
    have the statuses 0x0A, 0x0B and 0x0C. *)
Definition flex_arms : list (N * concrete) := [
  (0x0000, CFixed flex_set_tempo); (0x0001, CFixed flex_set_time_signature);
  (0x0002, CFixed flex_set_metronome); (0x0005, CFixed flex_set_key_signature);
  (0x0006, CFixed flex_set_chord_name);
  (0x0100, flex_text_named 1 0x00 "UnknownMetadataText");
  (0x0101, flex_text_named 1 0x01 "ProjectName");
  (0x0102, flex_text_named 1 0x02 "CompositionName");
  (0x0103, flex_text_named 1 0x03 "MidiClipName");
  (0x0104, flex_text_named 1 0x04 "CopyrightNotice");
  (0x0105, flex_text_named 1 0x05 "ComposerName");
  (0x0106, flex_text_named 1 0x06 "LyricistName");
  (0x0107, flex_text_named 1 0x07 "ArrangerName");
  (0x0108, flex_text_named 1 0x08 "PublisherName");
  (0x0109, flex_text_named 1 0x09 "PrimaryPerformerName");
  (0x0110, flex_text_named 1 0x0A "AccompanyingPerformerName");
  (0x0111, flex_text_named 1 0x0B "RecordingDate");
  (0x0112, flex_text_named 1 0x0C "RecordingLocation");
  (0x0200, flex_text_named 2 0x00 "UnknownPerformanceText");
  (0x0201, flex_text_named 2 0x01 "Lyrics");
  (0x0202, flex_text_named 2 0x02 "LyricsLanguage");
  (0x0203, flex_text_named 2 0x03 "Ruby");
  (0x0204, flex_text_named 2 0x04 "RubyLanguage") ]%N.
(** flex_data.rs 848-894 *)
Definition flexdata_try_from (b : list N) : outcome (res aggregate) :=
  match b with
  | [] => Val (Err "Slice is too short")
  | _ => x <- idx b 0 ;;
         dispatch U32 flex_arms "Couldn't interpret flex data status / bank fields" (word32 x 1) b
  end.

Definition stream_text_named (status : N) (off : nat) (name : string) : concrete :=
  CStreamText {| sk_name := name; sk_status := status; sk_off := off |}.
(** ump_stream.rs 80-109, with the [STATUS] constants of ump_stream/*.rs *)
Definition stream_arms : list (N * concrete) := [
  (0x02, CFixed stream_device_identity); (0x21, CFixed stream_end_of_clip);
  (0x00, CFixed stream_endpoint_discovery); (0x01, CFixed stream_endpoint_info);
  (0x03, stream_text_named 0x03 0 "EndpointName");
  (0x10, CFixed stream_function_block_discovery); (0x11, CFixed stream_function_block_info);
  (0x12, stream_text_named 0x12 1 "FunctionBlockName");
  (0x04, stream_text_named 0x04 0 "ProductInstanceId");
  (0x20, CFixed stream_start_of_clip);
  (0x06, CFixed stream_stream_configuration_notification);
  (0x05, CFixed stream_stream_configuration_request) ]%N.
(** ump_stream.rs 70-115; [status_from_buffer] is [stream_status] of Props.v *)
Definition umpstream_try_from (b : list N) : outcome (res aggregate) :=
  match b with
  | [] => Val (Err "Slice is too short")
  | _ => x <- idx b 0 ;;
         dispatch U32 stream_arms "Couldn't interpret flex data status / bank fields"
           (stream_status x) b
  end.

(** ** [UmpMessage] and [BytesMessage] *)

(** message.rs 33-75 *)
Definition ump_try_from (b : list N) : outcome (res aggregate) :=
  match b with
  | [] => Val (Err "Ump message slice is empty")
  | _ =>
    x <- idx b 0 ;;
    let t := nibble32 x 0 in
    if (t =? 0xD)%N then flexdata_try_from b
    else if (t =? 0x2)%N then cv1_try_from U32 b
    else if (t =? 0x4)%N then cv2_try_from b
    else if (t =? 0x3)%N then wrap U32 CSysex7 b
    else if (t =? 0x5)%N then wrap U32 CSysex8 b
    else if (t =? 0x1)%N then sys_try_from U32 b
    else if (t =? 0xF)%N then umpstream_try_from b
    else if (t =? 0x0)%N then util_try_from b
    else Val (Err "Couldn't interpret ump message type")
  end.

(** message.rs 108-130 *)
Definition bytes_try_from (b : list N) : outcome (res aggregate) :=
  match b with
  | [] => Val (Err "Bytes slice is empty")
  | _ =>
    x <- idx b 0 ;;
    if ((0x80 <=? x) && (x <=? 0xEF))%N then cv1_try_from U8 b
    else if (x =? 0xF0)%N then wrap U8 CSysex7 b
    else if ((0xF1 <=? x) && (x <=? 0xF6) || (0xF8 <=? x) && (x <=? 0xFF))%N then sys_try_from U8 b
    else Val (Err "Couldn't interpret bytes message type")
  end.

(** ** Derived traits *)

(** [data] of a concrete message, and derives.rs 7-32 *)
Definition concrete_data (u : unit_id) (c : concrete) (b : list N) : outcome (list N) :=
  match c with
  | CFixed m => data u m b
  | CSysex7 => match u with U8 => data_b b | U32 => sx_data fmt7 b end
  | CSysex8 => sx_data fmt8 b
  | CFlexText _ => flex_data b
  | CStreamText _ => stream_data b
  end.
Definition agg_data (u : unit_id) (a : aggregate) : outcome (list N) :=
  concrete_data u (fst a) (snd a).

(** derives.rs 329-363: [Grouped], on the families that implement it.  The
    concrete [group] and [set_group] are the property's getter and setter
    (generate_message.rs 619-628). *)
Definition agg_group (a : aggregate) : outcome N :=
  match fst a with
  | CFixed m => v <- get U32 m (snd a) "group" ;; match v with VNum g => Val g | _ => Panic end
  | CFlexText _ => flex_group (snd a)
  | CSysex7 | CSysex8 => Sysex.group (snd a)
  | CStreamText _ => Panic         (* not implemented *)
  end.
Definition agg_set_group (a : aggregate) (g : N) : outcome aggregate :=
  match fst a with
  | CFixed m => b <- set U32 m (snd a) "group" (VNum g) ;; Val (CFixed m, b)
  | CFlexText k => b <- flex_set_group (snd a) g ;; Val (CFlexText k, b)
  | CSysex7 => b <- Sysex.set_group fmt7 (snd a) g ;; Val (CSysex7, b)
  | CSysex8 => b <- Sysex.set_group fmt8 (snd a) g ;; Val (CSysex8, b)
  | CStreamText _ => Panic         (* not implemented *)
  end.

(** derives.rs 365-403: [Channeled], implemented for the two channel voice
    families; all their variants are fixed-size messages. *)
Definition agg_channel (u : unit_id) (a : aggregate) : outcome N :=
  match fst a with
  | CFixed m => v <- get u m (snd a) "channel" ;; match v with VNum g => Val g | _ => Panic end
  | _ => Panic
  end.
Definition agg_set_channel (u : unit_id) (a : aggregate) (v : N) : outcome aggregate :=
  match fst a with
  | CFixed m => b <- set u m (snd a) "channel" (VNum v) ;; Val (CFixed m, b)
  | _ => Panic
  end.

(** flex_data.rs 896-918: the [FlexDataMessage] methods [bank] and [status];
    the bank is given by its code. *)
Definition agg_bank (a : aggregate) : outcome N :=
  d <- agg_data U32 a ;;
  x <- idx d 0 ;;
  let k := N.shiftr (N.land x 0xFF00) 8 in
  if ((k =? 0) || (k =? 1) || (k =? 2))%N then Val k else Panic.
Definition agg_status (a : aggregate) : outcome N :=
  d <- agg_data U32 a ;; x <- idx d 0 ;; Val (octet32 x 3).

(** derives.rs 57-175: [FromBytes], [FromUmp] and the [Try] forms, implemented
    for channel voice 1 and system common; all variants are fixed-size. *)
Definition agg_from_bytes (a : aggregate) : outcome aggregate :=
  match fst a with CFixed m => b <- from_bytes m (snd a) ;; Val (CFixed m, b) | _ => Panic end.
Definition agg_from_ump (a : aggregate) : outcome aggregate :=
  match fst a with CFixed m => b <- from_ump m (snd a) ;; Val (CFixed m, b) | _ => Panic end.
Definition agg_try_from_bytes (a : aggregate) (n : nat) : outcome (res aggregate) :=
  match fst a with CFixed m => b <-? try_from_bytes m (snd a) n ;; Val (Ok (CFixed m, b)) | _ => Panic end.
Definition agg_try_from_ump (a : aggregate) (n : nat) : outcome (res aggregate) :=
  match fst a with CFixed m => b <-? try_from_ump m (snd a) n ;; Val (Ok (CFixed m, b)) | _ => Panic end.

(** derives.rs 177-304: [RebufferFrom] a [Vec], [TryRebufferFrom] and
    [RebufferFromArray] into an array of [n] units (generate_message.rs 390-468
    on the wrapped message). *)
Definition agg_rebuffer_vec (a : aggregate) : aggregate := (fst a, rebuffer_vec (snd a)).
Definition agg_try_rebuffer_array (a : aggregate) (n : nat) : res aggregate :=
  match try_rebuffer_array (snd a) n with Ok b => Ok (fst a, b) | Err e => Err e end.
Definition agg_array_rebuffer (u : unit_id) (a : aggregate) (n : nat) : outcome aggregate :=
  d <- agg_data u a ;;
  if (n <? List.length d)%nat then Panic
  else Val (fst a, (d ++ repeat 0%N (n - List.length d))%list).
