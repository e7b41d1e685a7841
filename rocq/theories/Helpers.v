(** midi2/src/detail/helpers.rs 1-90: validation shared by the multi-packet
    messages.  (Splicing, 92-254, is in Splice.v.) *)
From Coq Require Import NArith List String Bool.
From Verif Require Import Base BitOps.
Import ListNotations.
Local Open Scope string_scope.
Local Open Scope N_scope.

(** Outcome of a [validate] that cannot panic: [if .. { Ok(()) } else { Err(InvalidData(..)) }],
    helpers.rs 23-27 for instance. *)
Definition check (b : bool) (e : string) : res unit := if b then Ok tt else Err e.

(** helpers.rs 12-28: [sysex_group_consistent_groups].  [gfp(buffer)] indexes
    [buffer[0]]; it is only evaluated for a non-empty buffer. *)
Definition consistent_groups (b : list N) (stride : nat) (ump_type : N) : res unit :=
  check
    (forallb (fun c => nibble32 (hd0 c) 1 =? nibble32 (hd0 b) 1)
       (take_while (fun c => nibble32 (hd0 c) 0 =? ump_type) (chunks_exact stride b)))
    "Inconsistent groups across packets".

(** helpers.rs 80-89: the loop over the packets after the first *)
Fixpoint check_rest (is_continue is_end : N -> bool) (l : list (list N)) : res unit :=
  match l with
  | [] => Ok tt
  | [c] => check (is_end (hd0 c)) "Expected End packet"
  | c :: t =>
      if is_continue (hd0 c) then check_rest is_continue is_end t
      else Err "Expected Continue packet"
  end.

(** helpers.rs 43-90: [validate_sysex_group_statuses].  The four predicates of
    the Rust function are given here as tests on the packet's first word, which
    is all that any caller looks at. *)
Definition validate_statuses (b : list N) (is_complete is_begin is_continue is_end : N -> bool)
  (stride : nat) (ump_type : N) : res unit :=
  match take_while (fun c => nibble32 (hd0 c) 0 =? ump_type) (chunks stride b) with
  | [] => Err "The message buffer is empty"
  | [c] => check (is_complete (hd0 c)) "Expected Complete packet"
  | c :: t =>
      if is_begin (hd0 c) then check_rest is_continue is_end t
      else Err "Expected Begin packet"
  end.
