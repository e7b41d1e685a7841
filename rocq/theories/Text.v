(** The text messages: flex data metadata and performance texts
    (midi2/src/flex_data.rs, midi2/src/flex_data/text.rs and the message types
    using them) and the UMP stream names (midi2/src/ump_stream.rs,
    ump_stream/endpoint_name.rs, product_instance_id.rs, function_block_name.rs).

    A Rust [&str] is the list of its UTF-8 bytes; [utf8_ok] says which byte
    lists are strings.  [String::from_utf8] is the identity on those. *)
From Coq Require Import NArith List String Bool Arith.
From Verif Require Import Base BitOps Values Helpers Props Message Sysex.
Import ListNotations.
Local Open Scope nat_scope.

(** ** UTF-8 *)

Definition between (lo x hi : N) : bool := ((lo <=? x) && (x <=? hi))%N.

(** [core::str::from_utf8] (standard library, run_utf8_validation): well-formed
    byte sequences, Unicode table 3-7.  Not code of this repository; written
    from the documented behaviour. *)
Fixpoint utf8_ok (l : list N) : bool :=
  match l with
  | [] => true
  | a :: l1 =>
      if (a <? 0x80)%N then utf8_ok l1
      else if between 0xC2 a 0xDF then
        match l1 with b :: l2 => between 0x80 b 0xBF && utf8_ok l2 | _ => false end
      else if between 0xE0 a 0xEF then
        match l1 with
        | b :: c :: l3 =>
            between (if (a =? 0xE0)%N then 0xA0 else 0x80) b (if (a =? 0xED)%N then 0x9F else 0xBF)
            && between 0x80 c 0xBF && utf8_ok l3
        | _ => false
        end
      else if between 0xF0 a 0xF4 then
        match l1 with
        | b :: c :: d :: l4 =>
            between (if (a =? 0xF0)%N then 0x90 else 0x80) b (if (a =? 0xF4)%N then 0x8F else 0xBF)
            && between 0x80 c 0xBF && between 0x80 d 0xBF && utf8_ok l4
        | _ => false
        end
      else false
  end.

(** ** Text in packets *)

(** What differs between the two implementations: the position of the first
    text byte in a packet, the number of text bytes in a packet, the iterator's
    end condition and the factor in its [size_hint].
    Flex data: text.rs 14-32 ([1 + byte_index / 4] is [(byte_index + 4) / 4]),
    145-161.  UMP stream: ump_stream.rs 195-213, 281-297. *)
Record tform := {
  tf_head : nat;
  tf_cap : nat;
  tf_early : bool;     (* text.rs 145-147, as opposed to ump_stream.rs 281-283 *)
  tf_hint : nat
}.
Definition flex_form : tform := {| tf_head := 4; tf_cap := 12; tf_early := true; tf_hint := 12 |}.
(** [off] is [OFFSET]: 0, or 1 for FunctionBlockName. *)
Definition stream_form (off : nat) : tform :=
  {| tf_head := 2 + off; tf_cap := 14 - off; tf_early := false; tf_hint := 14 |}.

(** text.rs 14-32, ump_stream.rs 195-213: [write], from packet [p], byte [i] on *)
Fixpoint text_write_from (f : tform) (p i : nat) (t : list N) (b : list N) : outcome (list N) :=
  match t with
  | [] => Val b
  | c :: t' =>
      b' <- put_octet b (p * 4 + (i + tf_head f) / 4) ((i + tf_head f) mod 4) c ;;
      if i =? tf_cap f - 1 then text_write_from f (S p) 0 t' b'
      else text_write_from f p (S i) t' b'
  end.
Definition text_write (f : tform) (b : list N) (t : list N) : outcome (list N) :=
  text_write_from f 0 0 t b.

(** text.rs 64-75, ump_stream.rs 387-399: words needed for [n] bytes of text *)
Definition text_words (f : tform) (n : nat) : nat :=
  if n mod tf_cap f =? 0 then (if n =? 0 then 4 else n * 4 / tf_cap f)
  else 4 * (n / tf_cap f + 1).

(** text.rs 117-121, ump_stream.rs 252-257: [TextBytesIterator] *)
Record titer := {
  ti_data : list N;
  ti_packet : nat;
  ti_byte : nat
}.
(** text.rs 171-177, ump_stream.rs 307-314, function_block_name.rs 89-97: the iterator
    over the whole buffer of the message *)
Definition text_bytes (b : list N) : titer := {| ti_data := b; ti_packet := 0; ti_byte := 0 |}.

(** text.rs 145-147, ump_stream.rs 281-283: [finished] *)
Definition ti_finished (f : tform) (it : titer) : outcome bool :=
  if tf_early f then
    last <- sub_chk (List.length (ti_data it) / 4) 1 ;;
    Val ((ti_packet it =? last) && (ti_byte it =? 11))
  else Val (List.length (ti_data it) / 4 <=? ti_packet it).

(** text.rs 148-155, ump_stream.rs 284-291: [advance] *)
Definition ti_advance (f : tform) (it : titer) : titer :=
  if S (ti_byte it) =? tf_cap f
  then {| ti_data := ti_data it; ti_packet := S (ti_packet it); ti_byte := 0 |}
  else {| ti_data := ti_data it; ti_packet := ti_packet it; ti_byte := S (ti_byte it) |}.

(** text.rs 156-161, ump_stream.rs 292-297: [value] *)
Definition ti_value (f : tform) (it : titer) : outcome N :=
  get_octet (ti_data it) (ti_packet it * 4 + (ti_byte it + tf_head f) / 4)
    ((ti_byte it + tf_head f) mod 4).

(** text.rs 126-128, ump_stream.rs 262-264: skip zero bytes.  Every turn of the loop
    advances by one byte, so it ends after at most [4 * len] turns: with that much fuel
    [None] (out of fuel, turned into [Panic] below) is never reached, as the theorems on
    [text_bytes] show. *)
Fixpoint ti_skip (fuel : nat) (f : tform) (it : titer) : outcome titer :=
  match fuel with
  | O => Panic
  | S n =>
      fin <- ti_finished f it ;;
      if fin then Val it
      else v <- ti_value f it ;;
           if (v =? 0)%N then ti_skip n f (ti_advance f it) else Val it
  end.
(** text.rs 125-135, ump_stream.rs 261-271: [next] *)
Definition ti_next (f : tform) (it : titer) : outcome (option N * titer) :=
  it1 <- ti_skip (4 * List.length (ti_data it) + 1) f it ;;
  fin <- ti_finished f it1 ;;
  if fin then Val (None, it1)
  else v <- ti_value f it1 ;; Val (Some v, ti_advance f it1).

(** text.rs 137-139, ump_stream.rs 273-275: [size_hint] *)
Definition ti_size_hint (f : tform) (it : titer) : outcome (nat * option nat) :=
  n <- sub_chk (List.length (ti_data it)) 1 ;;
  Val (n * tf_hint f, Some (List.length (ti_data it) * tf_hint f)).

(** [Iterator::collect] into a [Vec]: call [next] until it returns [None]; fuel as above.
    [collect] also calls [size_hint], which panics on an empty buffer only. *)
Fixpoint ti_collect_from (fuel : nat) (f : tform) (it : titer) : outcome (list N) :=
  match fuel with
  | O => Panic
  | S n =>
      r <- ti_next f it ;;
      match r with
      | (None, _) => Val []
      | (Some v, it') => l <- ti_collect_from n f it' ;; Val (v :: l)
      end
  end.
Definition ti_collect (f : tform) (it : titer) : outcome (list N) :=
  ti_collect_from (4 * List.length (ti_data it) + 1) f it.

(** text.rs 193-196, ump_stream.rs 330-333, function_block_name.rs 111-114: the [String] getter *)
Definition text_string (f : tform) (b : list N) : outcome (list N) :=
  l <- ti_collect f (text_bytes b) ;;
  if utf8_ok l then Val l else Panic.
(** text.rs 197-203, ump_stream.rs 334-340, function_block_name.rs 115-121: its [validate] *)
Definition text_string_validate (f : tform) (b : list N) : outcome (res unit) :=
  l <- ti_collect f (text_bytes b) ;;
  Val (check (utf8_ok l) "Payload bytes do not represent a valid utf string").

(** Position of the last packet plus one, in words: flex_data.rs 1155-1166
    ([flex_data_dyn_size], crumb 4), ump_stream.rs 418-431 ([message_size], crumb 2) *)
Definition dyn_size (crumb : N) (b : list N) : outcome nat :=
  match position (fun c => (crumb32 (hd0 c) crumb =? 0) || (crumb32 (hd0 c) crumb =? 3))%N
          (chunks_exact 4 b) with
  | Some p => Val (p * 4 + 4)
  | None => Panic
  end.

(** ** Flex data text messages *)

(** The [BANK] and [STATUS] constants of a message type, as in flex_data.rs 21-48. *)
Record flex_kind := { fk_name : string; fk_bank : N; fk_status : N }.

(** The message types built on text.rs: flex_data/unknown_metadata_text.rs 3-48 and the
    modules of flex_data.rs 21-768 with their [BANK] and [STATUS] constants (banks:
    flex_data.rs 804-806; 1 metadata, 2 performance text). *)
Definition flex_texts : list flex_kind := [
  {| fk_name := "UnknownMetadataText"; fk_bank := 1; fk_status := 0x00 |};
  {| fk_name := "ProjectName"; fk_bank := 1; fk_status := 0x01 |};
  {| fk_name := "CompositionName"; fk_bank := 1; fk_status := 0x02 |};
  {| fk_name := "MidiClipName"; fk_bank := 1; fk_status := 0x03 |};
  {| fk_name := "CopyrightNotice"; fk_bank := 1; fk_status := 0x04 |};
  {| fk_name := "ComposerName"; fk_bank := 1; fk_status := 0x05 |};
  {| fk_name := "LyricistName"; fk_bank := 1; fk_status := 0x06 |};
  {| fk_name := "ArrangerName"; fk_bank := 1; fk_status := 0x07 |};
  {| fk_name := "PublisherName"; fk_bank := 1; fk_status := 0x08 |};
  {| fk_name := "PrimaryPerformerName"; fk_bank := 1; fk_status := 0x09 |};
  {| fk_name := "AccompanyingPerformerName"; fk_bank := 1; fk_status := 0x0A |};
  {| fk_name := "RecordingDate"; fk_bank := 1; fk_status := 0x0B |};
  {| fk_name := "RecordingLocation"; fk_bank := 1; fk_status := 0x0C |};
  {| fk_name := "UnknownPerformanceText"; fk_bank := 2; fk_status := 0x00 |};
  {| fk_name := "Lyrics"; fk_bank := 2; fk_status := 0x01 |};
  {| fk_name := "LyricsLanguage"; fk_bank := 2; fk_status := 0x02 |};
  {| fk_name := "Ruby"; fk_bank := 2; fk_status := 0x03 |};
  {| fk_name := "RubyLanguage"; fk_bank := 2; fk_status := 0x04 |} ]%string.

(** flex_data.rs 1138-1146: [GroupProperty::write] *)
Definition flex_packets (b : list N) : nat :=
  List.length (take_while (fun c => (nibble32 (hd0 c) 0 =? 0xD)%N) (chunks_exact 4 b)).
Definition flex_set_group (b : list N) (g : N) : outcome (list N) :=
  for_heads 4 (flex_packets b) (fun _ x => set_nibble32 x 1 g) b.
(** flex_data.rs 1128-1130 *)
Definition flex_group (b : list N) : outcome N := x <- idx b 0 ;; Val (nibble32 x 1).

(** flex_data.rs 1024-1058: [OptionalChannelProperty], through Props.v *)
Definition flex_set_channel (b : list N) (o : option N) : outcome (list N) :=
  prop_write U32 POptChannel b (VOptNum o).
Definition flex_channel (b : list N) : outcome (option N) :=
  v <- prop_read U32 POptChannel b ;;
  match v with VOptNum o => Val o | _ => Panic end.

(** flex_data.rs 1184-1190: [clear_payload] *)
Definition clear_words (b : list N) : outcome (list N) :=
  fold_left (fun acc i =>
      b0 <- acc ;; b1 <- upd b0 (4 * i + 1) (fun _ => 0%N) ;;
      b2 <- upd b1 (4 * i + 2) (fun _ => 0%N) ;; upd b2 (4 * i + 3) (fun _ => 0%N))
    (seq 0 (List.length b / 4)) (Val b).

(** flex_data.rs 1038-1050: [optional_channel_to_slice] on the first word of a packet *)
Definition channel_word (x : N) (o : option N) : N :=
  match o with
  | Some c => set_nibble32 (set_crumb32 x 5 0) 3 c
  | None => set_nibble32 (set_crumb32 x 5 1) 3 0
  end.

(** text.rs 95-106: the format of packet [i] of [k] *)
Definition flex_format (i k : nat) : N :=
  if i =? 0 then (if k =? 1 then 0 else 1) else if i =? k - 1 then 3 else 2.

(** text.rs 77-115: [grow_buffer] *)
Definition grow_buffer (b : list N) (size : nat) : outcome (list N) :=
  if negb (size mod 4 =? 0) || (size =? 0) then Panic else
  x0 <- idx b 0 ;;
  o <- flex_channel b ;;
  for_heads 4 (Nat.min (size / 4) (List.length b / 4))
    (fun i x =>
       let x1 := set_crumb32 x 4 (flex_format i (size / 4)) in
       let x2 := set_nibble32 x1 0 0xD in
       let x3 := set_nibble32 x2 1 (nibble32 x0 1) in
       let x4 := channel_word x3 o in
       let x5 := set_octet32 x4 3 (octet32 x0 3) in
       set_octet32 x5 2 (octet32 x0 2)) b.

(** text.rs 41-49 and the setter, generate_message.rs 185-188 *)
Definition flex_set_text (b : list N) (t : list N) : outcome (list N) :=
  let n := text_words flex_form (List.length t) in
  b1 <- clear_words (vec_resize b n) ;;
  b2 <- grow_buffer b1 n ;;
  text_write flex_form b2 t.
(** text.rs 52-61 and the fallible setter, generate_message.rs 191-196.  On overflow the
    message is as before. *)
Definition flex_try_set_text (b : list N) (t : list N) : outcome (list N * bool) :=
  let n := text_words flex_form (List.length t) in
  if fixed_try_resize b n then
    b1 <- clear_words b ;;
    b2 <- grow_buffer b1 n ;;
    b3 <- text_write flex_form b2 t ;;
    Val (b3, true)
  else Val (b, false).

(** generate_message.rs 125-143 for the properties of e.g. flex_data.rs 21-64 ([mod project_name]):
    ump_type, group, optional_channel, bank, status, text (formats and the text getters are
    read only; text is written without resizing) *)
Definition flex_init (k : flex_kind) (b : list N) : outcome (list N) :=
  b1 <- prop_write U32 (PUmpType 0xD) b VUnit ;;
  b2 <- flex_set_group b1 0 ;;
  b3 <- flex_set_channel b2 None ;;
  b4 <- prop_write U32 (PFlexBank (fk_bank k)) b3 VUnit ;;
  b5 <- prop_write U32 (PFlexStatus (fk_status k)) b4 VUnit ;;
  text_write flex_form b5 [].

(** flex_data.rs 1106-1118: [ConsistentFormatsProperty::validate] *)
Definition flex_formats_validate (b : list N) : res unit :=
  validate_statuses b
    (fun x => crumb32 x 4 =? 0)%N (fun x => crumb32 x 4 =? 1)%N
    (fun x => crumb32 x 4 =? 2)%N (fun x => crumb32 x 4 =? 3)%N 4 0xD.

(** generate_message.rs 352-388, 497-617: constructors, parsing, [data] *)
Definition flex_new (k : flex_kind) : outcome (list N) := flex_init k (vec_resize [] 4).
Definition flex_new_with_buffer (k : flex_kind) (b : list N) : outcome (list N) :=
  b' <- zero_prefix (vec_resize b 4) 4 ;; flex_init k b'.
Definition flex_try_new_with_buffer (k : flex_kind) (b : list N) : outcome (res (list N)) :=
  if fixed_try_resize b 4 then
    b' <- zero_prefix b 4 ;; b'' <- flex_init k b' ;; Val (Ok b'')
  else Val (Err "BufferOverflow"%string).
Definition flex_try_new (k : flex_kind) (n : nat) : outcome (res (list N)) :=
  if fixed_try_resize (repeat 0%N n) 4 then
    b' <- flex_init k (repeat 0%N n) ;; Val (Ok b')
  else Val (Err "BufferOverflow"%string).
Definition flex_data (b : list N) : outcome (list N) := n <- dyn_size 4 b ;; prefix b n.
(** flex_data.rs 1106-1118, 1131-1134 and the other validators, in declaration order:
    ump_type, group, optional_channel, bank, status, formats, text_bytes, text *)
Definition flex_try_from (k : flex_kind) (b : list N) : outcome (res (list N)) :=
  if List.length b <? 4 then Val (Err "Slice is too short"%string) else
  _ <-? prop_validate U32 (PUmpType 0xD) b ;;
  _ <-? Val (consistent_groups b 4 0xD) ;;
  _ <-? prop_validate U32 POptChannel b ;;
  _ <-? prop_validate U32 (PFlexBank (fk_bank k)) b ;;
  _ <-? prop_validate U32 (PFlexStatus (fk_status k)) b ;;
  _ <-? Val (flex_formats_validate b) ;;
  _ <-? text_string_validate flex_form b ;;
  Val (Ok b).
(** The text getters: flex_data/text.rs 165-206. *)
Definition flex_text (b : list N) : outcome (list N) := text_string flex_form b.
Definition flex_text_bytes (b : list N) : outcome (list N) := ti_collect flex_form (text_bytes b).

(** ** UMP stream text messages *)

(** The status of a message type and the [OFFSET] of its text: ump_stream/endpoint_name.rs 3-30. *)
Record stream_kind := { sk_name : string; sk_status : N; sk_off : nat }.
(** ump_stream/endpoint_name.rs 3-30, product_instance_id.rs 3-30, function_block_name.rs 8-37 *)
Definition stream_texts : list stream_kind := [
  {| sk_name := "EndpointName"; sk_status := 0x03; sk_off := 0 |};
  {| sk_name := "ProductInstanceId"; sk_status := 0x04; sk_off := 0 |};
  {| sk_name := "FunctionBlockName"; sk_status := 0x12; sk_off := 1 |} ]%string.

(** ump_stream.rs 371-385: [clear_payload] *)
Definition stream_clear (off : nat) (b : list N) : outcome (list N) :=
  if 2 <=? off then Panic else
  b1 <- for_heads 4 (List.length b / 4)
          (fun _ x => set_octet32 (if off <? 1 then set_octet32 x 2 0 else x) 3 0) b ;;
  clear_words b1.

(** ump_stream.rs 401-416: [write_message_header_data] *)
Definition stream_headers (b : list N) (size : nat) : outcome (list N) :=
  x0 <- idx b 0 ;;
  if List.length b <? size then Panic else
  b1 <- for_heads 4 (size / 4)
          (fun _ x => N.lor (N.ldiff (set_nibble32 x 0 0xF) 0x03FF0000)
                            (N.shiftl (stream_status x0) 16)) (firstn size b) ;;
  b2 <- for_heads 4 ((List.length b - size) / 4) (fun _ _ => 0%N) (skipn size b) ;;
  Val (b1 ++ b2).

(** ump_stream.rs 225-235 and the setter *)
Definition stream_set_text (off : nat) (b : list N) (t : list N) : outcome (list N) :=
  let n := text_words (stream_form off) (List.length t) in
  b1 <- stream_clear off (vec_resize b n) ;;
  b2 <- stream_headers b1 n ;;
  b3 <- set_format_fields b2 ;;
  text_write (stream_form off) b3 t.
(** ump_stream.rs 237-249 and the fallible setter *)
Definition stream_try_set_text (off : nat) (b : list N) (t : list N) : outcome (list N * bool) :=
  let n := text_words (stream_form off) (List.length t) in
  if fixed_try_resize b n then
    b1 <- stream_clear off b ;;
    b2 <- stream_headers b1 n ;;
    b3 <- set_format_fields b2 ;;
    b4 <- text_write (stream_form off) b3 t ;;
    Val (b4, true)
  else Val (b, false).

(** function_block_name.rs 46-81: [FunctionBlockProperty] *)
Definition block_read (b : list N) : outcome N := get_octet b 0 2.
Definition block_write (b : list N) (v : N) : outcome (list N) :=
  for_heads 4 (List.length b / 4) (fun _ x => set_octet32 x 2 v) b.
Definition block_validate (b : list N) : outcome (res unit) :=
  v <- get_octet b 0 2 ;;
  Val (check (forallb (fun c => octet32 (hd0 c) 2 =? v)%N (chunks_exact 4 b))
         "Inconsistent function block fields").

(** generate_message.rs 125-143: ump_type, status, consistent_formats, function_block (if any),
    name (without resizing) *)
Definition stream_init (k : stream_kind) (b : list N) : outcome (list N) :=
  b1 <- prop_write U32 (PUmpType 0xF) b VUnit ;;
  b2 <- prop_write U32 (PStreamStatus (sk_status k)) b1 VUnit ;;
  b3 <- prop_write U32 PStreamFormats b2 VUnit ;;
  b4 <- (if sk_off k =? 1 then block_write b3 0 else Val b3) ;;
  text_write (stream_form (sk_off k)) b4 [].

(** generate_message.rs 470-617 *)
Definition stream_new (k : stream_kind) : outcome (list N) := stream_init k (vec_resize [] 4).
Definition stream_new_with_buffer (k : stream_kind) (b : list N) : outcome (list N) :=
  b' <- zero_prefix (vec_resize b 4) 4 ;; stream_init k b'.
Definition stream_try_new_with_buffer (k : stream_kind) (b : list N) : outcome (res (list N)) :=
  if fixed_try_resize b 4 then
    b' <- zero_prefix b 4 ;; b'' <- stream_init k b' ;; Val (Ok b'')
  else Val (Err "BufferOverflow"%string).
Definition stream_try_new (k : stream_kind) (n : nat) : outcome (res (list N)) :=
  if fixed_try_resize (repeat 0%N n) 4 then
    b' <- stream_init k (repeat 0%N n) ;; Val (Ok b')
  else Val (Err "BufferOverflow"%string).
Definition stream_data (b : list N) : outcome (list N) := n <- dyn_size 2 b ;; prefix b n.

(** generate_message.rs 352-388: validators in declaration order *)
Definition stream_try_from (k : stream_kind) (b : list N) : outcome (res (list N)) :=
  if List.length b <? 4 then Val (Err "Slice is too short"%string) else
  _ <-? prop_validate U32 (PUmpType 0xF) b ;;
  _ <-? prop_validate U32 (PStreamStatus (sk_status k)) b ;;
  _ <-? prop_validate U32 PStreamFormats b ;;
  _ <-? (if sk_off k =? 1 then block_validate b else Val (Ok tt)) ;;
  _ <-? text_string_validate (stream_form (sk_off k)) b ;;
  Val (Ok b).
Definition stream_text (k : stream_kind) (b : list N) : outcome (list N) :=
  text_string (stream_form (sk_off k)) b.
Definition stream_text_bytes (k : stream_kind) (b : list N) : outcome (list N) :=
  ti_collect (stream_form (sk_off k)) (text_bytes b).
