(** SPECIFICATION.  What payload edits cost. *)
From Coq Require Import NArith List Bool Arith.
From Verif Require Import SpecSysex SpecEdits Splice.
Import ListNotations.
Local Open Scope nat_scope.

(** How often the buffer is resized, how many packet headers (end bytes, in a byte
    stream) are written by that, the greatest number of payload bytes it is asked to
    hold, how many payload bytes are moved and how many are written. *)
Record cost := { resizings : nat; headings : nat; peak : nat; moved : nat; stored : nat }.
Definition nothing_yet : cost := {| resizings := 0; headings := 0; peak := 0; moved := 0; stored := 0 |}.

(** The items an edit is given and the number its iterator announces. *)
Definition given (e : edit) : source :=
  match e with
  | SetPayload src | SplicePayload src _ _ | InsertPayload src _ | AppendPayload src => src
  | AppendByte v => {| s_items := [v]; s_hint := (1, Some 1) |}
  | SetByte _ _ | SetGroup _ => {| s_items := []; s_hint := (0, Some 0) |}
  end.
Definition items (e : edit) : nat := List.length (s_items (given e)).

(** The payload bytes that stay in front of and behind the new ones. *)
Definition kept_before (e : edit) (l : list N) : nat :=
  match e with
  | SplicePayload _ lo _ => range_begin lo
  | InsertPayload _ i => i
  | SetPayload _ => 0
  | _ => List.length l
  end.
Definition kept_behind (e : edit) (l : list N) : nat :=
  match e with
  | SplicePayload _ _ hi => List.length l - range_end hi (List.length l)
  | InsertPayload _ i => List.length l - i
  | _ => 0
  end.
(** The bytes that are replaced. *)
Definition replaced_by (e : edit) (l : list N) : nat :=
  match e with
  | SplicePayload _ lo hi => range_end hi (List.length l) - range_begin lo
  | _ => 0
  end.

(** How often the estimate of the number of items has to be raised. *)
Definition raises (e : edit) : nat :=
  if items e <=? announced (given e) then 0 else 1 + Nat.log2 (items e - announced (given e)).

(** The most one edit may cost, if a resize to [n] payload bytes writes [heads n]
    headers.  The resizes: [set_payload] empties the message first; one before and one
    after; one per raise.  The room: for what stays and for what is announced, or, if more
    than that is supplied, for less than twice as much as is supplied.  The bytes behind
    the range are moved once per raise, once before and once after; with them, what was
    replaced may be moved once. *)
Definition limit (heads : nat -> nat) (e : edit) (l : list N) : cost :=
  let r := raises e + (match e with SetPayload _ => 3 | _ => 2 end) in
  let p := kept_before e l + kept_behind e l
           + (if items e <=? announced (given e) then announced (given e) else 2 * items e - announced (given e) - 1) in
  {| resizings := r; headings := r * heads p; peak := p;
     moved := (2 + raises e) * kept_behind e l + replaced_by e l; stored := items e |}.

(** The most a history may cost: work adds up, room does not. *)
Definition both (a b : cost) : cost :=
  {| resizings := resizings a + resizings b; headings := headings a + headings b;
     peak := Nat.max (peak a) (peak b); moved := moved a + moved b; stored := stored a + stored b |}.
Fixpoint limits (heads : nat -> nat) (es : list edit) (l : list N) : cost :=
  match es with [] => nothing_yet | e :: t => both (limit heads e l) (limits heads t (new_payload e l)) end.

Definition within (k c : cost) : Prop :=
  resizings k <= resizings c /\ headings k <= headings c /\ peak k <= peak c /\ moved k <= moved c /\ stored k = stored c.
