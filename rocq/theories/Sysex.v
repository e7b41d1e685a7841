(** System exclusive messages: midi2/src/sysex7.rs and midi2/src/sysex8.rs.

    A message value is its buffer.  The Universal MIDI Packet form of [Sysex7]
    and [Sysex8] are written twice in the crate with the same text up to
    constants; here each function is written once over a record [fmt] of those
    constants and cites both places.  Functions whose text differs by more than
    constants are written separately.  The byte-stream form of [Sysex7] is in
    the second half, with names ending in [_b]. *)
From Coq Require Import NArith List String Bool Arith.
From Verif Require Import Base BitOps Schema Props Helpers Message.
Import ListNotations.
Local Open Scope string_scope.
Local Open Scope list_scope.
Local Open Scope nat_scope.

Record fmt := {
  f_type : N;      (* UMP_MESSAGE_TYPE *)
  f_words : nat;   (* words per packet *)
  f_head : nat;    (* bytes of each packet before the payload *)
  f_cap : nat;     (* payload bytes in a full packet *)
  f_ext : N;       (* what the size field counts besides the payload *)
  f_seven : bool;  (* payload units are u7 (else u8) *)
  f_check : nat    (* chunk size used by is_compact *)
}.

(** sysex7.rs 13, 591-594, 671 *)
Definition fmt7 : fmt :=
  {| f_type := 3; f_words := 2; f_head := 2; f_cap := 6; f_ext := 0; f_seven := true; f_check := 4 |}.
(** sysex8.rs 9, 446-449, 588 *)
Definition fmt8 : fmt :=
  {| f_type := 5; f_words := 4; f_head := 3; f_cap := 13; f_ext := 1; f_seven := false; f_check := 4 |}.

(** The number of a byte in a word: [octet(_ % 4)] takes the index as is. *)
Definition get_octet (b : list N) (w o : nat) : outcome N :=
  x <- idx b w ;; Val (octet32 x (N.of_nat o)).
Definition put_octet (b : list N) (w o : nat) (v : N) : outcome (list N) :=
  upd b w (fun x => set_octet32 x (N.of_nat o) v).

(** Reading and writing one payload unit: [septet] in sysex7.rs 488, 594, 968;
    [octet] in sysex8.rs 307, 387, 449. *)
Definition get_unit (f : fmt) (b : list N) (w o : nat) : outcome N :=
  x <- idx b w ;;
  Val (if f_seven f then septet32 x (N.of_nat o) else octet32 x (N.of_nat o)).
Definition put_unit (f : fmt) (b : list N) (w o : nat) (v : N) : outcome (list N) :=
  upd b w (fun x => if f_seven f then set_septet32 x (N.of_nat o) v
                    else set_octet32 x (N.of_nat o) v).

(** Unsigned subtraction in a debug build, as in detail/helpers.rs 171 and 184-188.  Machine.v has the
    other builds. *)
Definition sub_chk (a b : nat) : outcome nat := if a <? b then Panic else Val (a - b).

(** ** Validation *)

(** sysex7.rs 234, 672; sysex8.rs 89, 129, 157, 178, 589: the condition of [take_while] *)
Definition is_packet (f : fmt) (c : list N) : bool := (nibble32 (hd0 c) 0 =? f_type f)%N.

(** sysex7.rs 131-149, sysex8.rs 43-58: [ConsistentStatuses] *)
Definition validate_statuses_sx (f : fmt) (b : list N) : res unit :=
  validate_statuses b (fun x => nibble32 x 2 =? 0)%N (fun x => nibble32 x 2 =? 1)%N
    (fun x => nibble32 x 2 =? 2)%N (fun x => nibble32 x 2 =? 3)%N (f_words f) (f_type f).

(** sysex7.rs 167-186, sysex8.rs 66-80: [ValidPacketSizes].  Sysex7 tests
    [> 6]; sysex8 tests for [1..=14]. *)
Definition size_ok (f : fmt) (c : list N) : bool :=
  ((f_ext f <=? nibble32 (hd0 c) 3) && (nibble32 (hd0 c) 3 <=? f_ext f + N.of_nat (f_cap f)))%N.
Definition validate_sizes (f : fmt) (b : list N) : res unit :=
  check (forallb (size_ok f) (chunks_exact (f_words f) b))
    (if f_seven f then "Size field can not exceed 6"
     else "Invalid number of payload bytes in packet").

(** sysex8.rs 148-169: [StreamIdProperty::validate] *)
Definition validate_stream_id (b : list N) : res unit :=
  check (forallb (fun c => octet32 (hd0 c) 2 =? octet32 (hd0 b) 2)%N
           (take_while (is_packet fmt8) (chunks_exact 4 b)))
    "Inconsistent stream id fields across packets".

Fixpoint first_error (l : list (res unit)) : res unit :=
  match l with
  | [] => Ok tt
  | Ok _ :: t => first_error t
  | Err e :: _ => Err e
  end.

(** generate_message.rs 352-388 on the property lists of sysex7.rs 15-35 and
    sysex8.rs 16-35.  [UmpMessageTypeProperty] is Schema.v's [ump_type];
    the two byte-stream properties accept every UMP buffer. *)
Definition sx_try_from (f : fmt) (b : list N) : res (list N) :=
  if List.length b <? f_words f then Err "Slice is too short"
  else
    match first_error
      ([check (is_packet f b) "Incorrect ump message type";
        validate_statuses_sx f b; validate_sizes f b;
        consistent_groups b (f_words f) (f_type f)]
       ++ (if f_seven f then [] else [validate_stream_id b])) with
    | Ok _ => Ok b
    | Err e => Err e
    end.

(** ** Size, data and payload *)

(** sysex7.rs 269-280, sysex8.rs 191-204: [size]; panics without an end packet *)
Definition is_last (c : list N) : bool :=
  ((nibble32 (hd0 c) 2 =? 0) || (nibble32 (hd0 c) 2 =? 3))%N.
Definition sx_size (f : fmt) (b : list N) : outcome nat :=
  match position is_last (chunks_exact (f_words f) b) with
  | Some k => Val (k * f_words f + f_words f)
  | None => Panic
  end.

(** generate_message.rs 328-337: [data] *)
Definition sx_data (f : fmt) (b : list N) : outcome (list N) :=
  n <- sx_size f b ;; prefix b n.

(** sysex7.rs 1001-1003, sysex8.rs 309-311: [packet_size] *)
Definition packet_size (f : fmt) (c : list N) : outcome nat :=
  let s := nibble32 (hd0 c) 3 in
  if (s <? f_ext f)%N then Panic else Val (N.to_nat (s - f_ext f)).

Fixpoint sum_sizes (f : fmt) (l : list (list N)) : outcome nat :=
  match l with
  | [] => Val 0
  | c :: t => s <- packet_size f c ;; r <- sum_sizes f t ;; Val (s + r)
  end.

(** sysex7.rs 845-852, sysex8.rs 206-212: [PayloadIterator] *)
Record iter := {
  it_data : list N;      (* the whole buffer *)
  it_payload : nat;      (* payload_index *)
  it_packet : nat;       (* packet_index *)
  it_left : nat          (* size_cache *)
}.

(** sysex7.rs 431-444, sysex8.rs 337-351: [payload] *)
Definition payload (f : fmt) (b : list N) : outcome iter :=
  d <- sx_data f b ;;
  s <- sum_sizes f (chunks_exact (f_words f) d) ;;
  Val {| it_data := b; it_payload := 0; it_packet := 0; it_left := s |}.

(** sysex7.rs 955-957, 1008-1016, sysex8.rs 292-301: [len], and the [size_hint] built on it *)
Definition it_len (it : iter) : nat := it_left it.

(** sysex7.rs 521-523, sysex8.rs 371-373: [payload_size] *)
Definition payload_size (f : fmt) (b : list N) : outcome nat :=
  it <- payload f b ;; Val (it_len it).

(** sysex7.rs 997-999, sysex8.rs 315-317: size of the packet under the cursor *)
Definition current_size (f : fmt) (it : iter) : outcome nat :=
  if List.length (it_data it) <? it_packet it * f_words f + f_words f then Panic
  else packet_size f (firstn (f_words f) (skipn (it_packet it * f_words f) (it_data it))).

(** sysex7.rs 975-980, sysex8.rs 222-226: skip empty packets.  The index grows
    until the slice panics, so [fuel = length data] loses nothing. *)
Fixpoint it_skip_aux (fuel : nat) (f : fmt) (it : iter) : outcome iter :=
  if it_left it =? 0 then Val it
  else
    s <- current_size f it ;;
    if s =? 0 then
      match fuel with
      | O => Panic
      | S k => it_skip_aux k f {| it_data := it_data it; it_payload := 0;
                                  it_packet := S (it_packet it); it_left := it_left it |}
      end
    else Val it.
Definition it_skip (f : fmt) (it : iter) : outcome iter :=
  it_skip_aux (List.length (it_data it)) f it.

(** sysex7.rs 965-969, sysex8.rs 304-308: [value] *)
Definition it_value (f : fmt) (it : iter) : outcome N :=
  get_unit f (it_data it) (it_packet it * f_words f + (it_payload it + f_head f) / 4)
    ((it_payload it + f_head f) mod 4).

(** sysex7.rs 982-995, sysex8.rs 318-328: [advance].  Sysex7 compares with [==]
    and then skips empty packets; sysex8 compares with [>=] and does not. *)
Definition it_advance (f : fmt) (it : iter) : outcome iter :=
  let p := S (it_payload it) in
  let l := if it_left it =? 0 then 0 else it_left it - 1 in
  s <- current_size f it ;;
  let at_end := if f_seven f then p =? s else s <=? p in
  let it' := {| it_data := it_data it;
                it_payload := if at_end then 0 else p;
                it_packet := if at_end then S (it_packet it) else it_packet it;
                it_left := l |} in
  if f_seven f then it_skip f it' else Val it'.

(** sysex7.rs 869-880, sysex8.rs 217-231: [next] *)
Definition it_next (f : fmt) (it : iter) : outcome (option N * iter) :=
  if it_left it =? 0 then Val (None, it)
  else
    it1 <- it_skip f it ;;
    v <- it_value f it1 ;;
    it2 <- it_advance f it1 ;;
    Val (Some v, it2).

(** sysex7.rs 916-930, sysex8.rs 256-270: the loop of [nth] over the packets
    after the current one; [k] is the enumeration index of the first of [l].
    [None] is the [?] on an exhausted packet iterator. *)
Fixpoint nth_loop (f : fmt) (it : iter) (l : list (list N)) (k n : nat)
  : outcome (option iter) :=
  match l with
  | [] => Val None
  | c :: t =>
      s <- packet_size f c ;;
      if n <? s then
        left <- sub_chk (it_left it) n ;;
        Val (Some {| it_data := it_data it; it_payload := n;
                     it_packet := it_packet it + k; it_left := left |})
      else
        left <- sub_chk (it_left it) s ;;
        nth_loop f {| it_data := it_data it; it_payload := it_payload it;
                      it_packet := it_packet it; it_left := left |} t (S k) (n - s)
  end.

(** The state in which [nth] leaves an exhausted iterator: sysex7.rs 935-941,
    sysex8.rs 275-281 (both divide by 2). *)
Definition it_exhausted (it : iter) : iter :=
  {| it_data := it_data it; it_payload := it_payload it;
     it_packet := List.length (it_data it) / 2; it_left := 0 |}.

(** sysex7.rs 896-943, sysex8.rs 236-283: [nth].  [None] at the end comes from
    an exhausted packet iterator or from [next]. *)
Definition it_nth (f : fmt) (it : iter) (n : nat) : outcome (option N * iter) :=
  if List.length (it_data it) <? it_packet it * f_words f then Panic
  else
    match chunks_exact (f_words f) (skipn (it_packet it * f_words f) (it_data it)) with
    | [] => Val (None, it_exhausted it)
    | c :: rest =>
        s <- packet_size f c ;;
        remaining <- sub_chk s (it_payload it) ;;
        if n <? remaining then
          left <- sub_chk (it_left it) n ;;
          r <- it_next f {| it_data := it_data it; it_payload := it_payload it + n;
                            it_packet := it_packet it; it_left := left |} ;;
          match r with
          | (None, it') => Val (None, it_exhausted it')
          | _ => Val r
          end
        else
          left <- sub_chk (it_left it) remaining ;;
          o <- nth_loop f {| it_data := it_data it; it_payload := it_payload it;
                             it_packet := it_packet it; it_left := left |} rest 1 (n - remaining) ;;
          match o with
          | None => Val (None, it_exhausted it)
          | Some it' =>
              r <- it_next f it' ;;
              match r with
              | (None, it'') => Val (None, it_exhausted it'')
              | _ => Val r
              end
          end
    end.

(** Draining an iterator with [next] (sysex7.rs 859-890; [collect], [for], [extend]): at most
    [fuel] items. *)
Fixpoint it_collect (fuel : nat) (f : fmt) (it : iter) : outcome (list N) :=
  match fuel with
  | O => Val []
  | S k =>
      r <- it_next f it ;;
      match r with
      | (None, _) => Val []
      | (Some v, it') => t <- it_collect k f it' ;; Val (v :: t)
      end
  end.

(** The collected payload of a message (sysex7.rs 420-447, sysex8.rs 337-350).  The fuel bounds the number of items by
    the number of payload bytes the buffer has room for. *)
Definition payload_list (f : fmt) (b : list N) : outcome (list N) :=
  it <- payload f b ;; it_collect (S (16 * List.length b)) f it.

(** sysex7.rs 479-494, sysex8.rs 374-394: [set_byte].  The packet index grows
    until indexing panics, so [fuel = length b] loses nothing. *)
Fixpoint set_byte_aux (fuel : nat) (f : fmt) (b : list N) (v : N) (i p : nat)
  : outcome (list N) :=
  x <- idx b (p * f_words f) ;;
  s <- packet_size f [x] ;;
  if i <? s then put_unit f b (p * f_words f + (i + f_head f) / 4) ((i + f_head f) mod 4) v
  else
    match fuel with
    | O => Panic
    | S k => set_byte_aux k f b v (i - s) (S p)
    end.
Definition set_byte (f : fmt) (b : list N) (v : N) (i : nat) : outcome (list N) :=
  set_byte_aux (List.length b) f b v i 0.

(** ** Fields *)

(** The [chunks_exact_mut(_).take_while(type)] loops of the property writers: sysex7.rs 233-234,
    sysex8.rs 88-89, 128-129, 177-178. *)
Definition own_packets (f : fmt) (b : list N) : nat :=
  List.length (take_while (is_packet f) (chunks_exact (f_words f) b)).

(** sysex7.rs 204-211, sysex8.rs 109-112 *)
Definition group (b : list N) : outcome N := x <- idx b 0 ;; Val (nibble32 x 1).
(** sysex7.rs 225-239, sysex8.rs 122-133 *)
Definition set_group (f : fmt) (b : list N) (g : N) : outcome (list N) :=
  for_heads (f_words f) (own_packets f b) (fun _ x => set_nibble32 x 1 g) b.
(** sysex8.rs 148-151, 167-169 *)
Definition stream_id (b : list N) : outcome N := x <- idx b 0 ;; Val (octet32 x 2).
(** sysex8.rs 171-182: the writer addresses octet 3 *)
Definition set_stream_id (b : list N) (v : N) : outcome (list N) :=
  for_heads (f_words fmt8) (own_packets fmt8 b) (fun _ x => set_octet32 x 3 v) b.
(** sysex8.rs 82-94: [ValidPacketSizes::write] *)
Definition write_sizes8 (b : list N) : outcome (list N) :=
  for_heads (f_words fmt8) (own_packets fmt8 b)
    (fun _ x => set_nibble32 x 3 (N.max (nibble32 x 3) 1)) b.

(** Initialisation (generate_message.rs 125-143): the writers in order.  The
    UMP type writer sets nibble 0 of the first word
    (detail/common_properties.rs); sysex7's other writers do nothing to a UMP
    buffer except the group. *)
Definition sx_init (f : fmt) (b : list N) : outcome (list N) :=
  b1 <- upd b 0 (fun x => set_nibble32 x 0 (f_type f)) ;;
  b2 <- (if f_seven f then Val b1 else write_sizes8 b1) ;;
  b3 <- set_group f b2 0 ;;
  if f_seven f then Val b3 else set_stream_id b3 0.

(** generate_message.rs 470-495, 497-525, 527-555 and 592-617 *)
Definition sx_new (f : fmt) : outcome (list N) := sx_init f (vec_resize [] (f_words f)).
Definition sx_new_with_buffer (f : fmt) (b : list N) : outcome (list N) :=
  b' <- zero_prefix (vec_resize b (f_words f)) (f_words f) ;; sx_init f b'.
Definition sx_try_new_with_buffer (f : fmt) (b : list N) : outcome (res (list N)) :=
  if fixed_try_resize b (f_words f) then
    b' <- zero_prefix b (f_words f) ;; b'' <- sx_init f b' ;; Val (Ok b'')
  else Val (Err "BufferOverflow").
Definition sx_try_new (f : fmt) (n : nat) : outcome (res (list N)) :=
  if fixed_try_resize (repeat 0%N n) (f_words f) then
    b' <- sx_init f (repeat 0%N n) ;; Val (Ok b')
  else Val (Err "BufferOverflow").

(** ** Resizing, writing and moving payload *)

(** How the buffer reacts to a request for [n] units: buffer.rs 293-333. *)
Inductive room :=
| Growable   (* Vec: buffer.rs 329-333 *)
| Fixed      (* arrays and mutable slices: buffer.rs 293-311 *)
| Untouched  (* the [|_, _| Ok(())] closure of [compact] *)
| Custom (answer : list N -> nat -> list N * bool).
             (* a client's implementation of [BufferTryResize]: buffer.rs 94-98, 156-166 *)

(** buffer.rs 293-333: [resize] and [try_resize].  [true]: the request succeeded. *)
Definition request (k : room) (b : list N) (n : nat) : list N * bool :=
  match k with
  | Growable => (vec_resize b n, true)
  | Fixed => (b, fixed_try_resize b n)
  | Untouched => (b, true)
  | Custom answer => answer b n
  end.

(** sysex7.rs 812-822, sysex8.rs 570-580 ([payload_size / 3] is
    [payload_size * 2 / 6]) *)
Definition buffer_size (f : fmt) (n : nat) : nat :=
  if n mod f_cap f =? 0 then
    if n =? 0 then f_words f else n * f_words f / f_cap f
  else f_words f * (n / f_cap f + 1).

(** sysex7.rs 800-803, sysex8.rs 558-561: zero the end of packet [i] *)
Definition zero_tail (f : fmt) (i r : nat) (b : list N) : outcome (list N) :=
  fold_left (fun acc j =>
      b' <- acc ;; put_octet b' (f_words f * i + (j + f_head f) / 4) ((j + f_head f) mod 4) 0)
    (seq r (f_cap f - r)) (Val b).

(** [u4::new(v)] *)
Definition u4_new (v : N) : outcome N := if (v <? 16)%N then Val v else Panic.

(** sysex7.rs 769-807, sysex8.rs 527-565: rewrite the header of packet [i] of
    [k]; [g] is the group of the first packet *)
Definition head_packet (f : fmt) (k n : nat) (g : N) (i : nat) (b : list N)
  : outcome (list N) :=
  let full := (N.of_nat (f_cap f) + f_ext f)%N in
  b1 <- upd b (f_words f * i) (fun x => set_nibble32 x 0 (f_type f)) ;;
  b2 <- (if i =? 0 then Val b1
         else upd b1 (f_words f * i) (fun x => set_nibble32 x 1 g)) ;;
  if S i <? k then
    upd b2 (f_words f * i)
      (fun x => set_nibble32 (set_nibble32 x 2 (if i =? 0 then 1 else 2)) 3 full)
  else if i =? 0 then
    s <- u4_new (N.of_nat n mod 256 + f_ext f) ;;
    upd b2 0 (fun x => set_nibble32 (set_nibble32 x 2 0) 3 s)
  else if n mod f_cap f =? 0 then
    upd b2 (f_words f * i) (fun x => set_nibble32 (set_nibble32 x 2 3) 3 full)
  else
    s <- u4_new (N.of_nat (n mod f_cap f) + f_ext f) ;;
    b3 <- upd b2 (f_words f * i) (fun x => set_nibble32 (set_nibble32 x 2 3) 3 s) ;;
    zero_tail f i (n mod f_cap f) b3.

(** sysex7.rs 738-810, sysex8.rs 495-568: [try_resize_ump] / [try_resize].  The
    second component is the payload of the [SysexTryResizeError], if any. *)
Definition try_resize (f : fmt) (k : room) (b : list N) (n : nat)
  : outcome (list N * option nat) :=
  let '(b1, ok) := request k b (buffer_size f n) in
  let size := if ok then buffer_size f n else List.length b1 in
  let n' := if ok then n else List.length b1 / f_words f * f_cap f in
  let packets := min (size / f_words f) (List.length b1 / f_words f) in
  b2 <- fold_left (fun acc i => b' <- acc ;;
          g <- idx b' 0 ;; head_packet f packets n' (nibble32 g 1) i b')
          (seq 0 packets) (Val b1) ;;
  Val (b2, if ok then None else Some n').

(** sysex7.rs 580-598, sysex8.rs 440-450: [write_datum] *)
Definition write_datum (f : fmt) (b : list N) (v : N) (i : nat) : outcome (list N) :=
  put_unit f b (f_words f * (i / f_cap f) + (i mod f_cap f + f_head f) / 4)
    ((i mod f_cap f + f_head f) mod 4) v.

(** sysex7.rs 662-686, sysex8.rs 584-600: [is_compact] *)
Definition is_compact (f : fmt) (b : list N) : bool :=
  forallb (fun c => negb (((nibble32 (hd0 c) 2 =? 1) || (nibble32 (hd0 c) 2 =? 2))
                          && negb (nibble32 (hd0 c) 3 =? N.of_nat (f_cap f) + f_ext f)))%N
    (take_while (is_packet f) (chunks_exact (f_check f) b)).

(** sysex7.rs 623-626, sysex8.rs 459-462: the byte holding payload byte [i] *)
Definition byte_index (f : fmt) (i : nat) : nat := i + f_head f * (1 + i / f_cap f).

Definition copy_byte (f : fmt) (b : list N) (src dst : nat) : outcome (list N) :=
  v <- get_octet b (byte_index f src / 4) (byte_index f src mod 4) ;;
  put_octet b (byte_index f dst / 4) (byte_index f dst mod 4) v.

(** sysex7.rs 600-650, sysex8.rs 452-483: [move_payload_tail] *)
Definition move_tail (f : fmt) (b : list N) (tail to : nat) : outcome (list N) :=
  if negb (is_compact f b) then Panic
  else
    n <- payload_size f b ;;
    if tail <? to then
      e <- sub_chk n (to - tail) ;;
      fold_left (fun acc i => b' <- acc ;; copy_byte f b' i (i + (to - tail)))
        (rev (seq tail (e - tail))) (Val b)
    else if to <? tail then
      fold_left (fun acc i => b' <- acc ;; copy_byte f b' i (i - (tail - to)))
        (seq tail (n - tail)) (Val b)
    else Val b.

(** sysex7.rs 715-725, sysex8.rs 625-635: copy the payload of one packet to the
    running destination; the two indices of the destination are returned *)
Fixpoint compact_packet (f : fmt) (b : list N) (src i count dp di : nat)
  : outcome (list N * nat * nat) :=
  match count with
  | O => Val (b, dp, di)
  | S c =>
      v <- get_octet b (src * f_words f + (i + f_head f) / 4) ((i + f_head f) mod 4) ;;
      b' <- put_octet b (dp * f_words f + (di + f_head f) / 4) ((di + f_head f) mod 4) v ;;
      if S di =? f_cap f then compact_packet f b' src (S i) c (S dp) 0
      else compact_packet f b' src (S i) c dp (S di)
  end.

(** sysex7.rs 703-732, sysex8.rs 613-642: the loop over the packets; indexing
    panics past the end, so [fuel = length b] loses nothing *)
Fixpoint compact_loop (fuel : nat) (f : fmt) (b : list N) (src dp di : nat)
  : outcome (list N) :=
  x <- idx b (src * f_words f) ;;
  let status := nibble32 x 2 in
  if (status =? 0)%N then Val b
  else
    s <- packet_size f [x] ;;
    r <- compact_packet f b src 0 s dp di ;;
    let '(b', dp', di') := r in
    if (status =? 3)%N then Val b'
    else match fuel with
         | O => Panic
         | S k => compact_loop k f b' (S src) dp' di'
         end.

(** sysex7.rs 652-659, 687-736; sysex8.rs 485-492, 602-646: [compact] *)
Definition compact (f : fmt) (b : list N) : outcome (list N) :=
  if is_compact f b then Val b
  else
    n <- payload_size f b ;;
    b1 <- compact_loop (List.length b) f b 0 0 0 ;;
    r <- try_resize f Untouched b1 n ;;
    match r with (b2, None) => Val b2 | _ => Panic end.

(** * The byte-stream form of [Sysex7] *)

(** sysex7.rs 53-70, 92-108 and generate_message.rs 352-388 *)
Definition try_from_b (b : list N) : res (list N) :=
  if List.length b <? 2 then Err "Slice is too short"
  else
    match first_error
      [check (hd0 b =? 0xF0)%N "Sysex messages should begin 0xF0";
       check (existsb (fun x => x =? 0xF7)%N b) "Sysex messages should end 0xF7"] with
    | Ok _ => Ok b
    | Err e => Err e
    end.

(** sysex7.rs 261-268: [size] *)
Definition size_b (b : list N) : outcome nat :=
  match position (fun x => x =? 0xF7)%N b with Some k => Val (S k) | None => Panic end.
Definition data_b (b : list N) : outcome (list N) := n <- size_b b ;; prefix b n.

(** The byte-stream iterator: the payload slice and the next index
    ([packet_index] and [size_cache] stay 0). *)
Record iter_b := { ib_data : list N; ib_index : nat }.

(** sysex7.rs 425-430: [&buffer[1..data().len() - 1]] *)
Definition payload_b (b : list N) : outcome iter_b :=
  d <- data_b b ;;
  e <- sub_chk (List.length d) 1 ;;
  if (e <? 1) || (List.length b <? e) then Panic
  else Val {| ib_data := firstn (e - 1) (skipn 1 b); ib_index := 0 |}.

(** sysex7.rs 1008-1016: [len]; the slice panics when the index is past the end *)
Definition ib_len (it : iter_b) : outcome nat := sub_chk (List.length (ib_data it)) (ib_index it).

(** sysex7.rs 955-957: [size_hint] reads the unused [size_cache] *)
Definition ib_size_hint (it : iter_b) : nat * option nat := (0, Some 0).

(** sysex7.rs 521-523 *)
Definition payload_size_b (b : list N) : outcome nat := it <- payload_b b ;; ib_len it.

(** [u7::new(v)] *)
Definition u7_new (v : N) : outcome N := if (v <? 128)%N then Val v else Panic.

(** sysex7.rs 859-868: [next] *)
Definition ib_next (it : iter_b) : outcome (option N * iter_b) :=
  if List.length (ib_data it) <=? ib_index it then Val (None, it)
  else
    x <- idx (ib_data it) (ib_index it) ;;
    v <- u7_new x ;;
    Val (Some v, {| ib_data := ib_data it; ib_index := S (ib_index it) |}).

(** sysex7.rs 892-895: [nth] *)
Definition ib_nth (it : iter_b) (n : nat) : outcome (option N * iter_b) :=
  ib_next {| ib_data := ib_data it; ib_index := ib_index it + n |}.

Fixpoint ib_collect (fuel : nat) (it : iter_b) : outcome (list N) :=
  match fuel with
  | O => Val []
  | S k =>
      r <- ib_next it ;;
      match r with
      | (None, _) => Val []
      | (Some v, it') => t <- ib_collect k it' ;; Val (v :: t)
      end
  end.
Definition payload_list_b (b : list N) : outcome (list N) :=
  it <- payload_b b ;; ib_collect (S (List.length b)) it.

(** sysex7.rs 475-478: [set_byte] *)
Definition set_byte_b (b : list N) (v : N) (i : nat) : outcome (list N) :=
  upd b (i + 1) (fun x => set_septet8 x v).

(** sysex7.rs 72-84, 110-124: initialisation writes the begin and end bytes *)
Definition init_b (b : list N) : outcome (list N) :=
  b1 <- upd b 0 (fun _ => 0xF0%N) ;; upd b1 1 (fun _ => 0xF7%N).
Definition new_b : outcome (list N) := init_b (vec_resize [] 2).
Definition new_with_buffer_b (b : list N) : outcome (list N) :=
  b' <- zero_prefix (vec_resize b 2) 2 ;; init_b b'.
Definition try_new_with_buffer_b (b : list N) : outcome (res (list N)) :=
  if fixed_try_resize b 2 then
    b' <- zero_prefix b 2 ;; b'' <- init_b b' ;; Val (Ok b'')
  else Val (Err "BufferOverflow").
Definition try_new_b (n : nat) : outcome (res (list N)) :=
  if fixed_try_resize (repeat 0%N n) 2 then
    b' <- init_b (repeat 0%N n) ;; Val (Ok b')
  else Val (Err "BufferOverflow").

(** sysex7.rs 527-541: [resize] of a growable byte buffer *)
Definition resize_b (b : list N) (n : nat) : outcome (list N) :=
  old <- payload_size_b b ;;
  let b1 := vec_resize b (n + 2) in
  b2 <- (if old <? n then upd b1 (old + 1) (fun _ => 0%N) else Val b1) ;;
  upd b2 (n + 2 - 1) (fun _ => 0xF7%N).

(** sysex7.rs 551-572: [try_resize] of a byte buffer.  The comparison is
    between the new buffer size and the old payload size. *)
Definition try_resize_bytes (k : room) (b : list N) (n : nat) : outcome (list N * option nat) :=
  old <- payload_size_b b ;;
  let '(b0, ok) := request k b (n + 2) in
  let sz := if ok then n + 2 else List.length b0 in
  b1 <- (if old <? sz then upd b0 (old + 1) (fun _ => 0%N) else Val b0) ;;
  e <- sub_chk sz 1 ;;
  b2 <- upd b1 e (fun _ => 0xF7%N) ;;
  Val (b2, if ok then None else Some (List.length b0 - 2)).
(** The same on arrays and slices (buffer.rs 293-311). *)
Definition try_resize_b (b : list N) (n : nat) : outcome (list N * option nat) :=
  try_resize_bytes Fixed b n.

(** [slice::copy_within(from..to, dest)], used in sysex7.rs 612, 615 *)
Definition copy_within (b : list N) (from to dest : nat) : outcome (list N) :=
  if (to <? from) || (List.length b <? to) || (List.length b <? dest + (to - from)) then Panic
  else Val (firstn dest b ++ firstn (to - from) (skipn from b) ++ skipn (dest + (to - from)) b).

(** sysex7.rs 585-587: [write_datum] *)
Definition write_datum_b (b : list N) (v : N) (i : nat) : outcome (list N) :=
  upd b (i + 1) (fun _ => v).

(** sysex7.rs 606-619: [move_payload_tail]; [is_compact] is true of bytes *)
Definition move_tail_b (b : list N) (tail to : nat) : outcome (list N) :=
  n <- payload_size_b b ;;
  if tail <? to then copy_within b (1 + tail) (1 + tail + (n - to)) (to + 1)
  else if to <? tail then copy_within b (1 + tail) (1 + n) (to + 1)
  else Val b.
