(** Text messages and packet payloads in machine arithmetic: the functions of Text.v and
    Packet.v whose arithmetic or [debug_assert!]s depend on the build, and their callers, for
    a given build.  The name of each is that of the function it mirrors with [_m] appended,
    and it cites the same lines.

    Functions that are not repeated here (constructors, [group], [optional_channel],
    [function_block], the format fields, validation except that of the text) do no
    arithmetic on [usize] apart from stepping through the chunks of a slice. *)
From Coq Require Import NArith List String Bool Arith.
From Verif Require Import Base BitOps Helpers Schema Props Message Machine Sysex Text TextClient Packet SpecText SpecSysex SpecEdits.
Import ListNotations.
Local Open Scope list_scope.
Local Open Scope nat_scope.

(** ** Writing and reading text *)

(** text.rs 14-32, ump_stream.rs 195-213 *)
Fixpoint text_write_from_m (bd : build) (f : tform) (p i : nat) (t : list N) (b : list N) : outcome (list N) :=
  match t with
  | [] => Val b
  | c :: t' =>
      a <- mmul bd p 4 ;;
      j <- madd bd i (tf_head f) ;;
      w <- madd bd a (j / 4) ;;
      b' <- put_octet b w (j mod 4) c ;;
      if i =? tf_cap f - 1 then p' <- madd bd p 1 ;; text_write_from_m bd f p' 0 t' b'
      else i' <- madd bd i 1 ;; text_write_from_m bd f p i' t' b'
  end.
Definition text_write_m (bd : build) (f : tform) (b : list N) (t : list N) : outcome (list N) :=
  text_write_from_m bd f 0 0 t b.

(** text.rs 64-75, ump_stream.rs 387-399 *)
Definition text_words_m (bd : build) (f : tform) (n : nat) : outcome nat :=
  if n mod tf_cap f =? 0 then
    if n =? 0 then Val 4 else m <- mmul bd n 4 ;; Val (m / tf_cap f)
  else q <- madd bd (n / tf_cap f) 1 ;; mmul bd 4 q.

(** text.rs 145-147, ump_stream.rs 281-283 *)
Definition ti_finished_m (bd : build) (f : tform) (it : titer) : outcome bool :=
  if tf_early f then
    last <- msub bd (List.length (ti_data it) / 4) 1 ;;
    Val ((ti_packet it =? last) && (ti_byte it =? 11))
  else Val (List.length (ti_data it) / 4 <=? ti_packet it).

(** text.rs 148-155, ump_stream.rs 284-291 *)
Definition ti_advance_m (bd : build) (f : tform) (it : titer) : outcome titer :=
  i <- madd bd (ti_byte it) 1 ;;
  if i =? tf_cap f
  then p <- madd bd (ti_packet it) 1 ;; Val {| ti_data := ti_data it; ti_packet := p; ti_byte := 0 |}
  else Val {| ti_data := ti_data it; ti_packet := ti_packet it; ti_byte := i |}.

(** text.rs 156-161, ump_stream.rs 292-297 *)
Definition ti_value_m (bd : build) (f : tform) (it : titer) : outcome N :=
  a <- mmul bd (ti_packet it) 4 ;;
  j <- madd bd (ti_byte it) (tf_head f) ;;
  w <- madd bd a (j / 4) ;;
  get_octet (ti_data it) w (j mod 4).

(** text.rs 126-128, ump_stream.rs 262-264; on the fuel see Text.v *)
Fixpoint ti_skip_m (fuel : nat) (bd : build) (f : tform) (it : titer) : outcome titer :=
  match fuel with
  | O => Panic
  | S n =>
      fin <- ti_finished_m bd f it ;;
      if fin then Val it
      else v <- ti_value_m bd f it ;;
           if (v =? 0)%N then it' <- ti_advance_m bd f it ;; ti_skip_m n bd f it' else Val it
  end.
(** text.rs 125-135, ump_stream.rs 261-271 *)
Definition ti_next_m (bd : build) (f : tform) (it : titer) : outcome (option N * titer) :=
  it1 <- ti_skip_m (4 * List.length (ti_data it) + 1) bd f it ;;
  fin <- ti_finished_m bd f it1 ;;
  if fin then Val (None, it1)
  else v <- ti_value_m bd f it1 ;; it2 <- ti_advance_m bd f it1 ;; Val (Some v, it2).

(** text.rs 137-139, ump_stream.rs 273-275 *)
Definition ti_size_hint_m (bd : build) (f : tform) (it : titer) : outcome (nat * option nat) :=
  n <- msub bd (List.length (ti_data it)) 1 ;;
  lo <- mmul bd n (tf_hint f) ;;
  hi <- mmul bd (List.length (ti_data it)) (tf_hint f) ;;
  Val (lo, Some hi).

(** [Iterator::collect] into a [Vec], which asks for the [size_hint] after some items (here:
    after each) *)
Fixpoint ti_collect_from_m (fuel : nat) (bd : build) (f : tform) (it : titer) : outcome (list N) :=
  match fuel with
  | O => Panic
  | S n =>
      r <- ti_next_m bd f it ;;
      match r with
      | (None, _) => Val []
      | (Some v, it') =>
          _ <- ti_size_hint_m bd f it' ;;
          l <- ti_collect_from_m n bd f it' ;; Val (v :: l)
      end
  end.
Definition ti_collect_m (bd : build) (f : tform) (it : titer) : outcome (list N) :=
  ti_collect_from_m (4 * List.length (ti_data it) + 1) bd f it.

(** text.rs 193-203, ump_stream.rs 330-340, function_block_name.rs 111-121 *)
Definition text_string_m (bd : build) (f : tform) (b : list N) : outcome (list N) :=
  l <- ti_collect_m bd f (text_bytes b) ;;
  if utf8_ok l then Val l else Panic.
Definition text_string_validate_m (bd : build) (f : tform) (b : list N) : outcome (res unit) :=
  l <- ti_collect_m bd f (text_bytes b) ;;
  Val (check (utf8_ok l) "Payload bytes do not represent a valid utf string").

(** flex_data.rs 1155-1166, ump_stream.rs 418-431 *)
Definition dyn_size_m (bd : build) (crumb : N) (b : list N) : outcome nat :=
  match position (fun c => (crumb32 (hd0 c) crumb =? 0) || (crumb32 (hd0 c) crumb =? 3))%N
          (chunks_exact 4 b) with
  | Some p => a <- mmul bd p 4 ;; madd bd a 4
  | None => Panic
  end.

(** ** Flex data text messages *)

(** text.rs 77-115.  [number_of_packets - 1] is only computed for a packet that is neither the
    first nor beyond the number, so it does not wrap. *)
Definition grow_buffer_m (bd : build) (b : list N) (size : nat) : outcome (list N) :=
  _ <- massert bd (size mod 4 =? 0) ;;
  _ <- massert bd (negb (size =? 0)) ;;
  x0 <- idx b 0 ;;
  o <- flex_channel b ;;
  for_heads 4 (Nat.min (size / 4) (List.length b / 4))
    (fun i x =>
       let x1 := set_crumb32 x 4 (flex_format i (size / 4)) in
       let x2 := set_nibble32 x1 0 0xD in
       let x3 := set_nibble32 x2 1 (nibble32 x0 1) in
       let x4 := channel_word x3 o in
       let x5 := set_octet32 x4 3 (octet32 x0 3) in
       set_octet32 x5 2 (octet32 x0 2)) b.

(** text.rs 41-61 and the setters, generate_message.rs 185-196 *)
Definition flex_set_text_m (bd : build) (b : list N) (t : list N) : outcome (list N) :=
  n <- text_words_m bd flex_form (List.length t) ;;
  b1 <- clear_words (vec_resize b n) ;;
  b2 <- grow_buffer_m bd b1 n ;;
  text_write_m bd flex_form b2 t.
Definition flex_try_set_text_m (bd : build) (b : list N) (t : list N) : outcome (list N * bool) :=
  n <- text_words_m bd flex_form (List.length t) ;;
  if fixed_try_resize b n then
    b1 <- clear_words b ;;
    b2 <- grow_buffer_m bd b1 n ;;
    b3 <- text_write_m bd flex_form b2 t ;;
    Val (b3, true)
  else Val (b, false).
Definition flex_data_m (bd : build) (b : list N) : outcome (list N) := n <- dyn_size_m bd 4 b ;; prefix b n.
Definition flex_try_from_m (bd : build) (k : flex_kind) (b : list N) : outcome (res (list N)) :=
  if List.length b <? 4 then Val (Err "Slice is too short"%string) else
  _ <-? prop_validate U32 (PUmpType 0xD) b ;;
  _ <-? Val (consistent_groups b 4 0xD) ;;
  _ <-? prop_validate U32 POptChannel b ;;
  _ <-? prop_validate U32 (PFlexBank (fk_bank k)) b ;;
  _ <-? prop_validate U32 (PFlexStatus (fk_status k)) b ;;
  _ <-? Val (flex_formats_validate b) ;;
  _ <-? text_string_validate_m bd flex_form b ;;
  Val (Ok b).
Definition flex_text_m (bd : build) (b : list N) : outcome (list N) := text_string_m bd flex_form b.
Definition flex_text_bytes_m (bd : build) (b : list N) : outcome (list N) := ti_collect_m bd flex_form (text_bytes b).

(** ** UMP stream text messages *)

(** ump_stream.rs 371-385 *)
Definition stream_clear_m (bd : build) (off : nat) (b : list N) : outcome (list N) :=
  _ <- massert bd (off <? 2) ;;
  b1 <- for_heads 4 (List.length b / 4)
          (fun _ x =>
             let x1 := if off <? 1 then set_octet32 x 2 0 else x in
             if off <? 2 then set_octet32 x1 3 0 else x1) b ;;
  clear_words b1.
(** ump_stream.rs 225-249 and the setters *)
Definition stream_set_text_m (bd : build) (off : nat) (b : list N) (t : list N) : outcome (list N) :=
  n <- text_words_m bd (stream_form off) (List.length t) ;;
  b1 <- stream_clear_m bd off (vec_resize b n) ;;
  b2 <- stream_headers b1 n ;;
  b3 <- set_format_fields b2 ;;
  text_write_m bd (stream_form off) b3 t.
Definition stream_try_set_text_m (bd : build) (off : nat) (b : list N) (t : list N) : outcome (list N * bool) :=
  n <- text_words_m bd (stream_form off) (List.length t) ;;
  if fixed_try_resize b n then
    b1 <- stream_clear_m bd off b ;;
    b2 <- stream_headers b1 n ;;
    b3 <- set_format_fields b2 ;;
    b4 <- text_write_m bd (stream_form off) b3 t ;;
    Val (b4, true)
  else Val (b, false).
Definition stream_data_m (bd : build) (b : list N) : outcome (list N) := n <- dyn_size_m bd 2 b ;; prefix b n.
Definition stream_try_from_m (bd : build) (k : stream_kind) (b : list N) : outcome (res (list N)) :=
  if List.length b <? 4 then Val (Err "Slice is too short"%string) else
  _ <-? prop_validate U32 (PUmpType 0xF) b ;;
  _ <-? prop_validate U32 (PStreamStatus (sk_status k)) b ;;
  _ <-? prop_validate U32 PStreamFormats b ;;
  _ <-? (if sk_off k =? 1 then block_validate b else Val (Ok tt)) ;;
  _ <-? text_string_validate_m bd (stream_form (sk_off k)) b ;;
  Val (Ok b).
Definition stream_text_m (bd : build) (k : stream_kind) (b : list N) : outcome (list N) :=
  text_string_m bd (stream_form (sk_off k)) b.
Definition stream_text_bytes_m (bd : build) (k : stream_kind) (b : list N) : outcome (list N) :=
  ti_collect_m bd (stream_form (sk_off k)) (text_bytes b).

(** ** Payload of packets *)

(** sysex7/packet.rs 124-131, sysex8/packet.rs 152-159 *)
Definition pi_size7_m (bd : build) (it : pit) : outcome nat :=
  x <- idx (pi_data it) 0 ;;
  let n := N.to_nat (nibble32 x 3) in
  _ <- massert bd (n <=? 6) ;; Val n.
Definition pi_size8_m (bd : build) (it : pit) : outcome nat :=
  x <- idx (pi_data it) 0 ;;
  n <- msub bd (N.to_nat (nibble32 x 3)) 1 ;;
  _ <- massert bd (n <=? 13) ;; Val n.

(** sysex7/packet.rs 85-104 *)
Definition pi_next7_m (bd : build) (it : pit) : outcome (option N * pit) :=
  s <- pi_size7_m bd it ;;
  if s <=? pi_index it then Val (None, it)
  else
    j <- madd bd (pi_index it) 2 ;;
    v <- get_unit fmt7 (pi_data it) (j / 4) (j mod 4) ;;
    i <- madd bd (pi_index it) 1 ;;
    Val (Some v, pi_at it i).
Definition pi_nth7_m (bd : build) (it : pit) (n : nat) : outcome (option N * pit) :=
  e <- madd bd (pi_index it) n ;;
  s <- pi_size7_m bd it ;;
  if s <=? e then Val (None, pi_at it (Nat.min e 6))
  else
    j <- madd bd e 2 ;;
    v <- get_unit fmt7 (pi_data it) (j / 4) (j mod 4) ;;
    n1 <- madd bd n 1 ;;
    i <- madd bd (pi_index it) n1 ;;
    Val (Some v, pi_at it i).
(** sysex7/packet.rs 106-122 *)
Definition pi_len7_m (bd : build) (it : pit) : outcome nat := s <- pi_size7_m bd it ;; msub bd s (pi_index it).

(** sysex8/packet.rs 113-132 *)
Definition pi_next8_m (bd : build) (it : pit) : outcome (option N * pit) :=
  s <- pi_size8_m bd it ;;
  if s <=? pi_index it then Val (None, it)
  else
    j <- madd bd (pi_index it) 3 ;;
    v <- get_unit fmt8 (pi_data it) (j / 4) (j mod 4) ;;
    i <- madd bd (pi_index it) 1 ;;
    Val (Some v, pi_at it i).
Definition pi_nth8_m (bd : build) (it : pit) (n : nat) : outcome (option N * pit) :=
  e <- madd bd (pi_index it) n ;;
  s <- pi_size8_m bd it ;;
  if s <=? e then Val (None, pi_at it e)
  else
    j <- madd bd e 3 ;;
    v <- get_unit fmt8 (pi_data it) (j / 4) (j mod 4) ;;
    Val (Some v, pi_at it (Nat.min e 13)).
(** sysex8/packet.rs 134-150 *)
Definition pi_len8_m (bd : build) (it : pit) : outcome nat := s <- pi_size8_m bd it ;; msub bd s (pi_index it).

(** ** Client programs: TextClient.v and [run_payload] of SpecPacket.v for a given build *)
Definition flex_do_m (bd : build) (e : flex_edit) (b : list N) : outcome (list N) :=
  match e with FText t => flex_set_text_m bd b t | _ => flex_do e b end.
Definition flex_try_do_m (bd : build) (e : flex_edit) (b : list N) : outcome (list N * bool) :=
  match e with FText t => flex_try_set_text_m bd b t | _ => flex_try_do e b end.
Definition stream_do_m (bd : build) (off : nat) (e : stream_edit) (b : list N) : outcome (list N) :=
  match e with SName t => stream_set_text_m bd off b t | _ => stream_do off e b end.
Definition stream_try_do_m (bd : build) (off : nat) (e : stream_edit) (b : list N) : outcome (list N * bool) :=
  match e with SName t => stream_try_set_text_m bd off b t | _ => stream_try_do off e b end.
Fixpoint ti_calls_m (n : nat) (bd : build) (f : tform) (it : titer) : outcome (list (option N)) :=
  match n with
  | O => Val []
  | S n' => r <- ti_next_m bd f it ;; l <- ti_calls_m n' bd f (snd r) ;; Val (fst r :: l)
  end.
Fixpoint run_payload_m (bd : build) (fm : form) (cs : list call) (it : pit) : outcome (list (option N * nat)) :=
  match cs with
  | [] => Val []
  | c :: t =>
      r <- match fm, c with
           | SevenBit, Next => pi_next7_m bd it | SevenBit, Nth n => pi_nth7_m bd it n
           | EightBit, Next => pi_next8_m bd it | EightBit, Nth n => pi_nth8_m bd it n
           end ;;
      n <- match fm with SevenBit => pi_len7_m bd (snd r) | EightBit => pi_len8_m bd (snd r) end ;;
      q <- run_payload_m bd fm t (snd r) ;;
      Val ((fst r, n) :: q)
  end.
