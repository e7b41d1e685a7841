(** Client programs over the model of text messages: one method call per edit.
    Nothing here models new code; each case names the method it stands for. *)
From Coq Require Import NArith List Bool Arith.
From Verif Require Import Base Text SpecText.
Import ListNotations.
Local Open Scope nat_scope.

(** A flex data text message over a [Vec<u32>]: [set_group], [set_optional_channel], [set_text]. *)
Definition flex_do (e : flex_edit) (b : list N) : outcome (list N) :=
  match e with
  | FGroup g => flex_set_group b g
  | FChannel o => flex_set_channel b o
  | FText t => flex_set_text b t
  end.
(** Over an array or slice: [try_set_text].  The boolean is [Ok]. *)
Definition flex_try_do (e : flex_edit) (b : list N) : outcome (list N * bool) :=
  match e with
  | FGroup g => b' <- flex_set_group b g ;; Val (b', true)
  | FChannel o => b' <- flex_set_channel b o ;; Val (b', true)
  | FText t => flex_try_set_text b t
  end.

(** A stream text message: [set_function_block], [set_name] / [set_product_instance_id]. *)
Definition stream_do (off : nat) (e : stream_edit) (b : list N) : outcome (list N) :=
  match e with
  | SBlock v => block_write b v
  | SName t => stream_set_text off b t
  end.
Definition stream_try_do (off : nat) (e : stream_edit) (b : list N) : outcome (list N * bool) :=
  match e with
  | SBlock v => b' <- block_write b v ;; Val (b', true)
  | SName t => stream_try_set_text off b t
  end.

(** A program: the calls in order. *)
Fixpoint run_all {E} (step : E -> list N -> outcome (list N)) (h : list E) (b : list N) : outcome (list N) :=
  match h with
  | [] => Val b
  | e :: h' => b' <- step e b ;; run_all step h' b'
  end.
Fixpoint run_try {E} (step : E -> list N -> outcome (list N * bool)) (h : list E) (b : list N)
  : outcome (list N * list bool) :=
  match h with
  | [] => Val (b, [])
  | e :: h' =>
      r <- step e b ;; q <- run_try step h' (fst r) ;; Val (fst q, snd r :: snd q)
  end.

(** [n] calls of [next] on a text iterator. *)
Fixpoint ti_calls (n : nat) (f : tform) (it : titer) : outcome (list (option N)) :=
  match n with
  | O => Val []
  | S n' => r <- ti_next f it ;; l <- ti_calls n' f (snd r) ;; Val (fst r :: l)
  end.
