(** Messages over a buffer type of the client's own that implements
    [BufferTryResize] (midi2/src/buffer.rs 92-98, 156-166): the functions that call
    [try_resize], for any [room].  [Custom answer] is such a buffer; on [Fixed] they
    are the functions of Message.v, Sysex.v and Text.v (CustomLemmas.v).

    Simplification: the answer of a buffer depends on its contents and on the size
    asked for only, not on what other buffers share its memory. *)
From Coq Require Import NArith List String Bool Arith.
From Verif Require Import Base BitOps Schema Props Helpers Message Sysex Splice Text SpecSysex SpecEdits SpecText SysexClient TextClient.
Import ListNotations.
Local Open Scope string_scope.
Local Open Scope list_scope.
Local Open Scope nat_scope.

(** generate_message.rs 527-555: [try_new_with_buffer] *)
Definition custom_new_with_buffer (k : room) (u : unit_id) (m : Message.message) (b : list N)
  : outcome (res (list N)) :=
  let '(b0, ok) := request k b (min_size u m) in
  if ok then
    b' <- zero_prefix b0 (min_size u m) ;; b'' <- initialise u (m_fields m) b' ;; Val (Ok b'')
  else Val (Err "BufferOverflow").
(** generate_message.rs 592-617: [try_new]; [b] is [BufferDefault::default()] *)
Definition custom_new (k : room) (u : unit_id) (m : Message.message) (b : list N) : outcome (res (list N)) :=
  let '(b0, ok) := request k b (min_size u m) in
  if ok then b' <- initialise u (m_fields m) b0 ;; Val (Ok b') else Val (Err "BufferOverflow").
(** generate_message.rs 683-702, 758-777: [try_from_bytes], [try_from_ump] of the
    byte and UMP forms of a fixed-size message *)
Definition custom_convert (k : room) (from to : unit_id) (m : Message.message) (b d : list N)
  : outcome (res (list N)) :=
  let '(b0, ok) := request k d (min_size to m) in
  if ok then b' <- convert_properties from to (m_fields m) b b0 ;; Val (Ok b')
  else Val (Err "BufferOverflow").

(** The same constructors of [Sysex7] and [Sysex8] (UMP) and of [Sysex7] (bytes). *)
Definition custom_sx_new_with_buffer (k : room) (f : fmt) (b : list N) : outcome (res (list N)) :=
  let '(b0, ok) := request k b (f_words f) in
  if ok then b' <- zero_prefix b0 (f_words f) ;; b'' <- sx_init f b' ;; Val (Ok b'')
  else Val (Err "BufferOverflow").
Definition custom_sx_new (k : room) (f : fmt) (b : list N) : outcome (res (list N)) :=
  let '(b0, ok) := request k b (f_words f) in
  if ok then b' <- sx_init f b0 ;; Val (Ok b') else Val (Err "BufferOverflow").
Definition custom_new_b (k : room) (b : list N) : outcome (res (list N)) :=
  let '(b0, ok) := request k b 2 in
  if ok then b' <- init_b b0 ;; Val (Ok b') else Val (Err "BufferOverflow").

(** sysex7.rs 334-349: [try_from_bytes] *)
Definition custom_from_bytes (k : room) (b d : list N) : outcome (res (list N)) :=
  let '(b0, ok) := request k d 2 in
  if ok then
    b1 <- upd b0 0 (fun x => set_nibble32 x 0 3) ;;
    b2 <- set_group fmt7 b1 0 ;;
    src <- source_of_bytes b ;;
    r <- try_set_payload (ump_ops fmt7 k) b2 src ;;
    match r with (b', true) => Val (Ok b') | _ => Val (Err "BufferOverflow") end
  else Val (Err "BufferOverflow").

(** sysex7.rs 351-366: [try_from_ump] *)
Definition custom_from_ump (k : room) (b d : list N) : outcome (res (list N)) :=
  let '(b0, ok) := request k d 2 in
  if ok then
    b1 <- init_b b0 ;;
    g <- group b ;;
    src <- source_of_ump b ;;
    r <- try_set_payload (bytes_ops k) b1 src ;;
    match r with (b', true) => Val (Ok b') | _ => Val (Err "BufferOverflow") end
  else Val (Err "BufferOverflow").

(** The texts: [try_new] and the fallible setter (text.rs 52-61, ump_stream.rs 237-249). *)
Definition custom_flex_new (k : room) (K : flex_kind) (b : list N) : outcome (res (list N)) :=
  let '(b0, ok) := request k b 4 in
  if ok then b' <- flex_init K b0 ;; Val (Ok b') else Val (Err "BufferOverflow").
Definition custom_flex_set_text (k : room) (b t : list N) : outcome (list N * bool) :=
  let n := text_words flex_form (List.length t) in
  let '(b0, ok) := request k b n in
  if ok then
    b1 <- clear_words b0 ;; b2 <- grow_buffer b1 n ;; b3 <- text_write flex_form b2 t ;; Val (b3, true)
  else Val (b0, false).
Definition custom_stream_new (k : room) (K : stream_kind) (b : list N) : outcome (res (list N)) :=
  let '(b0, ok) := request k b 4 in
  if ok then b' <- stream_init K b0 ;; Val (Ok b') else Val (Err "BufferOverflow").
Definition custom_stream_set_text (k : room) (off : nat) (b t : list N) : outcome (list N * bool) :=
  let n := text_words (stream_form off) (List.length t) in
  let '(b0, ok) := request k b n in
  if ok then
    b1 <- stream_clear off b0 ;; b2 <- stream_headers b1 n ;; b3 <- set_format_fields b2 ;;
    b4 <- text_write (stream_form off) b3 t ;; Val (b4, true)
  else Val (b0, false).

Definition custom_flex_do (k : room) (e : flex_edit) (b : list N) : outcome (list N * bool) :=
  match e with
  | FGroup g => b' <- flex_set_group b g ;; Val (b', true)
  | FChannel o => b' <- flex_set_channel b o ;; Val (b', true)
  | FText t => custom_flex_set_text k b t
  end.
Definition custom_stream_do (k : room) (off : nat) (e : stream_edit) (b : list N) : outcome (list N * bool) :=
  match e with
  | SBlock v => b' <- block_write b v ;; Val (b', true)
  | SName t => custom_stream_set_text k off b t
  end.

(** Editing: the [try_*] methods of [Sysex] (traits.rs 561-662). *)
Definition custom_edit (k : room) (fm : form) (e : edit) (b : list N) : outcome (list N * bool) :=
  let o := ump_ops (fmt_for fm) k in
  match e with
  | SetPayload src => try_set_payload o b src
  | SplicePayload src lo hi => try_splice o b src lo hi
  | InsertPayload src i => try_insert_payload o b src i
  | AppendPayload src => try_append_payload o b src
  | AppendByte v => try_append_byte o b v
  | SetByte v i => b' <- set_byte (fmt_for fm) b v i ;; Val (b', true)
  | SetGroup g => b' <- set_group (fmt_for fm) b g ;; Val (b', true)
  end.
Definition custom_edit_b (k : room) (e : edit) (b : list N) : outcome (list N * bool) :=
  let o := bytes_ops k in
  match e with
  | SetPayload src => try_set_payload o b src
  | SplicePayload src lo hi => try_splice o b src lo hi
  | InsertPayload src i => try_insert_payload o b src i
  | AppendPayload src => try_append_payload o b src
  | AppendByte v => try_append_byte o b v
  | SetByte v i => b' <- set_byte_b b v i ;; Val (b', true)
  | SetGroup _ => Val (b, true)
  end.
