(** What the [generate_message] attribute macro generates for a fixed-size
    message (midi2_proc/src/generate_message.rs), as functions over a message
    description.  A message value is its buffer.

    Simplifications: a growable buffer ([Vec]) and a fixed one (array, slice)
    are both a [list N]; where the generated code differs by buffer kind there
    is one function per kind.  All fields of the fixed-size messages are
    readable and writable, so the [readonly]/[writeonly] filters are trivial. *)
From Coq Require Import NArith List String Bool Arith.
From Verif Require Import Base Values Schema Props.
Import ListNotations.

(** The macro's input: the attribute arguments (generate_message.rs 6-12, 25-54) and the
    struct's fields. *)
Record message := {
  m_name : string;
  m_min_ump : nat;                     (* MinSizeUmp(_) *)
  m_min_bytes : option nat;            (* MinSizeBytes(_), absent on UMP-only messages *)
  m_fields : list (string * prop)
}.

(** generate_message.rs 290-309: [MIN_SIZE] *)
Definition min_size (u : unit_id) (m : message) : nat :=
  match u with
  | U32 => m_min_ump m
  | U8 => match m_min_bytes m with Some k => k | None => 0 end
  end.

(** Whether the message type exists over buffers of this unit: generate_message.rs 14-22,
    without messages in bytes only, which no fixed-size type is. *)
Definition supports (u : unit_id) (m : message) : bool :=
  match u with
  | U32 => true
  | U8 => match m_min_bytes m with Some _ => true | None => false end
  end.

(** The property of a field's name: generate_message.rs 145-206 make one getter and setter each *)
Fixpoint field (fs : list (string * prop)) (f : string) : option prop :=
  match fs with
  | [] => None
  | (g, p) :: t => if String.eqb f g then Some p else field t f
  end.

(** generate_message.rs 145-162: the getter *)
Definition get (u : unit_id) (m : message) (b : list N) (f : string) : outcome value :=
  match field (m_fields m) f with Some p => prop_read u p b | None => Panic end.

(** generate_message.rs 164-206: the setter *)
Definition set (u : unit_id) (m : message) (b : list N) (f : string) (v : value)
  : outcome (list N) :=
  match field (m_fields m) f with Some p => prop_write u p b v | None => Panic end.

(** generate_message.rs 125-143: write every default in order *)
Definition initialise (u : unit_id) (fs : list (string * prop)) (b : list N)
  : outcome (list N) :=
  fold_left (fun acc fp => b' <- acc ;; prop_write u (snd fp) b' (prop_default (snd fp)))
    fs (Val b).

(** generate_message.rs 352-388: [TryFrom<&[U]>] *)
Fixpoint validate_all (u : unit_id) (fs : list (string * prop)) (b : list N)
  : outcome (res unit) :=
  match fs with
  | [] => Val (Ok tt)
  | (_, p) :: t =>
      r <- prop_validate u p b ;;
      match r with Err e => Val (Err e) | Ok _ => validate_all u t b end
  end.
Definition try_from (u : unit_id) (m : message) (b : list N) : outcome (res (list N)) :=
  if List.length b <? min_size u m then Val (Err "Slice is too short"%string)
  else
    r <- validate_all u (m_fields m) b ;;
    match r with Err e => Val (Err e) | Ok _ => Val (Ok b) end.

(** buffer.rs 329-333: [Vec::resize] *)
Definition vec_resize (b : list N) (n : nat) : list N :=
  firstn n b ++ repeat 0%N (n - List.length b).

(** generate_message.rs 470-495: [new] on a resizable buffer *)
Definition new (u : unit_id) (m : message) : outcome (list N) :=
  initialise u (m_fields m) (vec_resize [] (min_size u m)).

(** Zeroing of the first [n] units (generate_message.rs 517-519, 547-549). *)
Definition zero_prefix (b : list N) (n : nat) : outcome (list N) :=
  if List.length b <? n then Panic else Val (repeat 0%N n ++ skipn n b).

(** generate_message.rs 497-525: [new_with_buffer] *)
Definition new_with_buffer (u : unit_id) (m : message) (b : list N) : outcome (list N) :=
  b' <- zero_prefix (vec_resize b (min_size u m)) (min_size u m) ;;
  initialise u (m_fields m) b'.

(** buffer.rs 293-311: [try_resize] of arrays and of [&mut [U]] never moves data *)
Definition fixed_try_resize (b : list N) (n : nat) : bool := negb (List.length b <? n).

(** generate_message.rs 527-555: [try_new_with_buffer] on a fixed buffer *)
Definition try_new_with_buffer (u : unit_id) (m : message) (b : list N)
  : outcome (res (list N)) :=
  if fixed_try_resize b (min_size u m) then
    b' <- zero_prefix b (min_size u m) ;;
    b'' <- initialise u (m_fields m) b' ;;
    Val (Ok b'')
  else Val (Err "BufferOverflow"%string).

(** generate_message.rs 557-590: [new] on an array of [n] units; a too small
    array does not compile ([ArraySizeValid], traits.rs), here it panics. *)
Definition array_new (u : unit_id) (m : message) (n : nat) : outcome (list N) :=
  if n <? min_size u m then Panic
  else initialise u (m_fields m) (repeat 0%N n).

(** generate_message.rs 592-617: [try_new] on an array of [n] units *)
Definition try_new (u : unit_id) (m : message) (n : nat) : outcome (res (list N)) :=
  if fixed_try_resize (repeat 0%N n) (min_size u m) then
    b' <- initialise u (m_fields m) (repeat 0%N n) ;; Val (Ok b')
  else Val (Err "BufferOverflow"%string).

(** generate_message.rs 279-288, 328-337: [size], [data] *)
Definition size (u : unit_id) (m : message) (b : list N) : nat := min_size u m.
Definition data (u : unit_id) (m : message) (b : list N) : outcome (list N) :=
  prefix b (size u m b).

(** generate_message.rs 339-350: [packets] (UMP only) *)
Definition packets (m : message) (b : list N) : outcome (list (list N)) :=
  d <- data U32 m b ;; Val (chunks_exact (min_size U32 m) d).

(** generate_message.rs 390-420 with buffer.rs 402-427: [rebuffer_into] a [Vec] *)
Definition rebuffer_vec (b : list N) : list N := b.

(** generate_message.rs 422-452 with buffer.rs 368-400: [try_rebuffer_into] an
    array of [n] units *)
Definition try_rebuffer_array (b : list N) (n : nat) : res (list N) :=
  if n <? List.length b then Err "BufferOverflow"%string
  else Ok (b ++ repeat 0%N (n - List.length b)).

(** generate_message.rs 454-468: [array_rebuffer_into] an array of [n] units *)
Definition array_rebuffer (u : unit_id) (m : message) (b : list N) (n : nat)
  : outcome (list N) :=
  d <- data u m b ;;
  if n <? List.length d then Panic
  else Val (d ++ repeat 0%N (n - List.length d)).

(** generate_message.rs 704-719: write every property read from the other
    representation, in order *)
Definition convert_properties (from to : unit_id) (fs : list (string * prop))
  (src dst : list N) : outcome (list N) :=
  fold_left (fun acc fp =>
      b' <- acc ;; v <- prop_read from (snd fp) src ;; prop_write to (snd fp) b' v)
    fs (Val dst).

(** generate_message.rs 646-665: [from_bytes] into a resizable buffer *)
Definition from_bytes (m : message) (b : list N) : outcome (list N) :=
  convert_properties U8 U32 (m_fields m) b (vec_resize [] (min_size U32 m)).
(** generate_message.rs 667-681, 683-702: into an array of [n] units *)
Definition from_bytes_array (m : message) (b : list N) (n : nat) : outcome (list N) :=
  if n <? min_size U32 m then Panic
  else convert_properties U8 U32 (m_fields m) b (repeat 0%N n).
Definition try_from_bytes (m : message) (b : list N) (n : nat) : outcome (res (list N)) :=
  if fixed_try_resize (repeat 0%N n) (min_size U32 m) then
    b' <- convert_properties U8 U32 (m_fields m) b (repeat 0%N n) ;; Val (Ok b')
  else Val (Err "BufferOverflow"%string).

(** generate_message.rs 721-740: [from_ump] into a resizable buffer *)
Definition from_ump (m : message) (b : list N) : outcome (list N) :=
  convert_properties U32 U8 (m_fields m) b (vec_resize [] (min_size U8 m)).
(** generate_message.rs 742-756, 758-777: into an array of [n] units *)
Definition from_ump_array (m : message) (b : list N) (n : nat) : outcome (list N) :=
  if n <? min_size U8 m then Panic
  else convert_properties U32 U8 (m_fields m) b (repeat 0%N n).
Definition try_from_ump (m : message) (b : list N) (n : nat) : outcome (res (list N)) :=
  if fixed_try_resize (repeat 0%N n) (min_size U8 m) then
    b' <- convert_properties U32 U8 (m_fields m) b (repeat 0%N n) ;; Val (Ok b')
  else Val (Err "BufferOverflow"%string).
