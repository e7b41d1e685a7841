(** SPECIFICATION.  Iterators handed in by a caller, and what an edit fed by one should do. *)
From Coq Require Import NArith List Bool Arith.
From Verif Require Import Splice SpecSysex SpecEdits Feed.
Import ListNotations.
Local Open Scope nat_scope.

(** The items before the first [None] among the first [n] answers. *)
Fixpoint heard_from (n k : nat) (f : feed) : list N :=
  match n with
  | O => []
  | S m => match fd_answer f k with Some v => v :: heard_from m (S k) f | None => [] end
  end.
Definition heard (n : nat) (f : feed) : list N := heard_from n 0 f.

(** The first [None] comes after the items [l]; what may come later is not restricted. *)
Definition yields (f : feed) (l : list N) : Prop :=
  (forall i, i < List.length l -> fd_answer f i = nth_error l i) /\ fd_answer f (List.length l) = None.
Definition endless (fm : form) (f : feed) : Prop :=
  forall i, exists v, fd_answer f i = Some v /\ is_unit fm v.

(** The same edit with a finite list of items in place of the iterator. *)
Definition with_items (e : feeding) (l : list N) : edit :=
  match e with
  | SetFrom f => SetPayload {| s_items := l; s_hint := fd_hint f |}
  | SpliceFrom f lo hi => SplicePayload {| s_items := l; s_hint := fd_hint f |} lo hi
  | InsertFrom f i => InsertPayload {| s_items := l; s_hint := fd_hint f |} i
  | AppendFrom f => AppendPayload {| s_items := l; s_hint := fd_hint f |}
  end.
Definition feed_of (e : feeding) : feed :=
  match e with SetFrom f | SpliceFrom f _ _ | InsertFrom f _ | AppendFrom f => f end.

(** Positions inside a payload of [n] bytes. *)
Definition inside (e : feeding) (n : nat) : Prop :=
  match e with
  | SpliceFrom _ lo hi => range_begin lo <= range_end hi n <= n
  | InsertFrom _ i => i <= n
  | SetFrom _ | AppendFrom _ => True
  end.
