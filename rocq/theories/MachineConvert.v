(** Conversion between the two forms of [Sysex7] in machine arithmetic: the last part of
    Splice.v and the draining of payload iterators (Sysex.v) for a given build. *)
From Coq Require Import NArith List String Bool Arith.
From Verif Require Import Base BitOps Props Message Machine Sysex Splice MachineSysex.
Import ListNotations.
Local Open Scope nat_scope.

(** Draining an iterator with [next] *)
Fixpoint it_collect_m (fuel : nat) (bd : build) (f : fmt) (it : iter) : outcome (list N) :=
  match fuel with
  | O => Val []
  | S k =>
      r <- it_next_m bd f it ;;
      match r with
      | (None, _) => Val []
      | (Some v, it') => t <- it_collect_m k bd f it' ;; Val (v :: t)
      end
  end.
Definition payload_list_m (bd : build) (f : fmt) (b : list N) : outcome (list N) :=
  it <- payload_m bd f b ;; it_collect_m (S (16 * List.length b)) bd f it.

Definition source_of_ump_m (bd : build) (b : list N) : outcome source :=
  it <- payload_m bd fmt7 b ;; l <- payload_list_m bd fmt7 b ;;
  Val {| s_items := l; s_hint := (it_len it, Some (it_len it)) |}.

(** sysex7.rs 368-410 *)
Definition ump_from_bytes_m (bd : build) (k : room) (buffer : list N) (b : list N)
  : outcome (list N * bool) :=
  b1 <- upd buffer 0 (fun x => set_nibble32 x 0 3) ;;
  b2 <- set_group fmt7 b1 0 ;;
  src <- source_of_bytes b ;;
  match k with
  | Fixed => try_set_payload_m bd (ump_ops_m bd fmt7 k) b2 src
  | _ => r <- set_payload_m bd (ump_ops_m bd fmt7 k) b2 src ;; Val (r, true)
  end.
Definition bytes_from_ump_m (bd : build) (k : room) (buffer : list N) (b : list N)
  : outcome (list N * bool) :=
  b1 <- init_b buffer ;;
  g <- group b ;;
  src <- source_of_ump_m bd b ;;
  match k with
  | Fixed => try_set_payload_m bd (bytes_ops_m bd k) b1 src
  | _ => r <- set_payload_m bd (bytes_ops_m bd k) b1 src ;; Val (r, true)
  end.

(** sysex7.rs 286-332 *)
Definition sysex7_from_bytes_m (bd : build) (b : list N) : outcome (list N) :=
  r <- ump_from_bytes_m bd Growable (vec_resize [] 2) b ;; Val (fst r).
Definition sysex7_from_ump_m (bd : build) (b : list N) : outcome (list N) :=
  r <- bytes_from_ump_m bd Growable (vec_resize [] 2) b ;; Val (fst r).

(** sysex7.rs 334-366 *)
Definition sysex7_try_from_bytes_m (bd : build) (b : list N) (n : nat) : outcome (res (list N)) :=
  if fixed_try_resize (repeat 0%N n) 2 then
    r <- ump_from_bytes_m bd Fixed (repeat 0%N n) b ;;
    match r with (b', true) => Val (Ok b') | _ => Val (Err "BufferOverflow") end
  else Val (Err "BufferOverflow").
Definition sysex7_try_from_ump_m (bd : build) (b : list N) (n : nat) : outcome (res (list N)) :=
  if fixed_try_resize (repeat 0%N n) 2 then
    r <- bytes_from_ump_m bd Fixed (repeat 0%N n) b ;;
    match r with (b', true) => Val (Ok b') | _ => Val (Err "BufferOverflow") end
  else Val (Err "BufferOverflow").
