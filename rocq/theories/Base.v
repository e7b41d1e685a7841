(** Rust run-time notions shared by every model file.

    Conventions used throughout the model:
    - a machine word or byte ([u32], [u8], [u4], [u7], [u14], ...) is an [N];
      the range of each type is stated where it matters;
    - a slice, array or [Vec] is a [list N]; an index or a [usize] length is a
      [nat] (so [usize] addition does not overflow here; Machine.v and
      MachineSysex.v redo system exclusive messages in machine arithmetic);
    - a panic (failed index, failed [assert!]/[debug_assert!], [unwrap] of a
      [None]/[Err], [unreachable!], [uN::new] out of range, arithmetic
      underflow in a debug build) is the value [Panic];
    - [Result] is data. *)
From Coq Require Import List NArith String Bool Arith.
Import ListNotations.

(** Outcome of running a Rust function that may panic. *)
Inductive outcome (A : Type) : Type :=
| Val (a : A)
| Panic.
Arguments Val {A} a.
Arguments Panic {A}.

Definition bind {A B} (x : outcome A) (f : A -> outcome B) : outcome B :=
  match x with Val a => f a | Panic => Panic end.

Declare Scope outcome_scope.
Delimit Scope outcome_scope with outcome.
Open Scope outcome_scope.
Notation "x <- e ;; k" := (bind e (fun x => k))
  (at level 61, e at next level, right associativity) : outcome_scope.

(** [Result<A, InvalidData>]: the error carries the crate's message string
    (midi2/src/error.rs). *)
Inductive res (A : Type) : Type :=
| Ok (a : A)
| Err (e : string).
Arguments Ok {A} a.
Arguments Err {A} e.

(** The [?] operator inside a function returning [Result]. *)
Definition try_bind {A B} (x : outcome (res A)) (f : A -> outcome (res B))
  : outcome (res B) :=
  match x with
  | Val (Ok a) => f a
  | Val (Err e) => Val (Err e)
  | Panic => Panic
  end.
Notation "x <-? e ;; k" := (try_bind e (fun x => k))
  (at level 61, e at next level, right associativity) : outcome_scope.

(** Slice indexing [b[i]], as in detail/schema.rs 29 and nearly every reader: panics when out of range. *)
Definition idx (b : list N) (i : nat) : outcome N :=
  match nth_error b i with Some x => Val x | None => Panic end.

(** In-place replacement of element [i]; the list is unchanged when [i] is out
    of range (callers go through [upd], which panics instead). *)
Fixpoint set_nth (b : list N) (i : nat) (x : N) : list N :=
  match b, i with
  | [], _ => []
  | _ :: t, O => x :: t
  | h :: t, S j => h :: set_nth t j x
  end.

(** [b[i].some_mutator(..)], as in detail/schema.rs 32: panics when [i] is out of range. *)
Definition upd (b : list N) (i : nat) (f : N -> N) : outcome (list N) :=
  match nth_error b i with
  | Some x => Val (set_nth b i (f x))
  | None => Panic
  end.

(** [&b[..n]], as in sysex7.rs 261-268 and generate_message.rs 328-350: panics when [n] exceeds the length. *)
Definition prefix (b : list N) (n : nat) : outcome (list N) :=
  if n <=? List.length b then Val (firstn n b) else Panic.

(** [slice::chunks_exact(n)] (detail/helpers.rs 12-28, sysex7.rs 234): full chunks only, the remainder is dropped.
    [fuel] is an upper bound on the number of chunks. *)
Fixpoint chunks_exact_aux (fuel n : nat) (l : list N) : list (list N) :=
  match fuel with
  | O => []
  | S f => if List.length l <? n then [] else firstn n l :: chunks_exact_aux f n (skipn n l)
  end.
Definition chunks_exact (n : nat) (l : list N) : list (list N) :=
  chunks_exact_aux (List.length l) n l.

(** [slice::chunks(n)] (detail/helpers.rs 60): the last chunk may be shorter. *)
Fixpoint chunks_aux (fuel n : nat) (l : list N) : list (list N) :=
  match fuel with
  | O => []
  | S f => match l with [] => [] | _ => firstn n l :: chunks_aux f n (skipn n l) end
  end.
Definition chunks (n : nat) (l : list N) : list (list N) :=
  chunks_aux (List.length l) n l.

(** [Iterator::take_while] (sysex7.rs 234, 672; sysex8.rs 89, 129, 157, 178, 589). *)
Fixpoint take_while {A} (f : A -> bool) (l : list A) : list A :=
  match l with
  | [] => []
  | x :: t => if f x then x :: take_while f t else []
  end.

(** [Iterator::position]. *)
Fixpoint position {A} (f : A -> bool) (l : list A) : option nat :=
  match l with
  | [] => None
  | x :: t => if f x then Some O else option_map S (position f t)
  end.

(** First element of a chunk produced by [chunks]/[chunks_exact]; such chunks
    are never empty, so the default is never used. *)
Definition hd0 (p : list N) : N := nth 0 p 0%N.

(** A loop over [b.chunks_exact_mut(stride)] restricted to its first [k] chunks
    that mutates the first unit of chunk number [i] by [f i]. *)
Definition for_heads (stride k : nat) (f : nat -> N -> N) (b : list N) : outcome (list N) :=
  fold_left (fun acc i => b' <- acc ;; upd b' (stride * i) (f i)) (seq 0 k) (Val b).

(** The width of a buffer unit: [u8] byte streams or [u32] Universal MIDI
    Packets (midi2/src/buffer.rs 102-125 [Unit], 433-475 [UNIT_ID_*]). *)
Inductive unit_id := U8 | U32.

Definition unit_bits (u : unit_id) : N := match u with U8 => 8 | U32 => 32 end.

(** [bits]-wide value. *)
Definition fits (bits x : N) : bool := N.ltb x (2 ^ bits)%N.

(** A buffer all of whose elements are machine units: what the Rust types
    guarantee of every [&[u8]] and [&[u32]]. *)
Definition wf_buf (u : unit_id) (b : list N) : Prop :=
  Forall (fun x => (x < 2 ^ unit_bits u)%N) b.
