(** SPECIFICATION.  Iterators that panic, and what an edit interrupted by one should leave behind. *)
From Coq Require Import NArith List Bool Arith.
From Verif Require Import Splice SpecSysex SpecEdits Unwind.
Import ListNotations.
Local Open Scope nat_scope.

Definition risky_of (x : risk) : risky :=
  match x with SetRisky r | SpliceRisky r _ _ | InsertRisky r _ | AppendRisky r => r end.

(** The iterator gives the items [l] and then panics. *)
Definition throws_after (r : risky) (l : list N) : Prop :=
  (forall i, i < List.length l -> rk_answer r i = Item (nth i l 0%N)) /\ rk_answer r (List.length l) = Throws.
(** Its [size_hint] answers, and announces [n] items. *)
Definition promises (r : risky) (n : nat) : Prop :=
  match rk_hint r with
  | Some (_, Some u) => n = u
  | Some (l, None) => n = l
  | None => False
  end.

(** Positions inside a payload of [n] bytes. *)
Definition risk_inside (x : risk) (n : nat) : Prop :=
  match x with
  | SpliceRisky _ lo hi => range_begin lo <= range_end hi n <= n
  | InsertRisky _ i => i <= n
  | SetRisky _ | AppendRisky _ => True
  end.
(** The payload the items go into, and the positions [a..e) they replace: [set_payload] empties the message first. *)
Definition before (x : risk) (l : list N) : list N := match x with SetRisky _ => [] | _ => l end.
Definition cut_begin (x : risk) (l : list N) : nat :=
  match x with
  | SetRisky _ => 0
  | SpliceRisky _ lo _ => range_begin lo
  | InsertRisky _ i => i
  | AppendRisky _ => List.length l
  end.
Definition cut_end (x : risk) (l : list N) : nat :=
  match x with SpliceRisky _ _ hi => range_end hi (List.length l) | _ => cut_begin x l end.

(** The payload [p] when the iterator has given the items [taken] and [n] were expected: what comes before the replaced
    bytes, the items, a gap up to the number expected, and what comes after the replaced bytes.  If fewer items were
    expected than bytes are replaced, then as many bytes follow as were not made use of.  If more items came than were
    expected, the gap is shorter than the part that was not expected. *)
Definition torn (l : list N) (a e n : nat) (taken p : list N) : Prop :=
  exists gap rest, p = firstn a l ++ taken ++ gap ++ skipn e l ++ rest
    /\ (List.length taken <= n -> List.length gap = n - List.length taken /\ List.length rest = (e - a) - n)
    /\ (n < List.length taken -> rest = [] /\ List.length gap < List.length taken - n).
Definition interrupted (x : risk) (l : list N) (n : nat) (taken p : list N) : Prop :=
  torn (before x l) (cut_begin x l) (cut_end x l) n taken p.

(** The length of the payload with the items [taken]. *)
Definition length_with (x : risk) (l : list N) (taken : list N) : nat :=
  List.length (before x l) - (cut_end x l - cut_begin x l) + List.length taken.
(** A fixed-size buffer with room for [room] payload bytes expects no more items than fit. *)
Definition expected (room : nat) (x : risk) (l : list N) (n : nat) : nat :=
  Nat.min n (Nat.max (cut_end x l - cut_begin x l) (room - (List.length (before x l) - (cut_end x l - cut_begin x l)))).
(** Nothing is replaced, or no more items come than expected. *)
Definition few (x : risk) (l : list N) (n : nat) (taken : list N) : Prop :=
  cut_begin x l = cut_end x l \/ List.length taken <= n.
