(** SPECIFICATION.  What a client asks of a system exclusive message, and what the
    answers should be in terms of a plain list of payload bytes.

    Only the types of the arguments ([source]: an iterator, given by the items it
    yields and its [size_hint]; [bound]: one end of a Rust range) come from the
    model. *)
From Coq Require Import NArith List Bool Arith.
From Verif Require Import Splice SpecSysex.
Import ListNotations.
Local Open Scope nat_scope.

(** ** Edits *)

(** The positions [a..e) a Rust range selects in a payload of [n] bytes. *)
Definition range_begin (lo : bound) : nat :=
  match lo with Included v => v | Excluded v => v + 1 | Unbounded => 0 end.
Definition range_end (hi : bound) (n : nat) : nat :=
  match hi with Included v => v + 1 | Excluded v => v | Unbounded => n end.

Inductive edit :=
| SetPayload (src : source)
| SplicePayload (src : source) (lo hi : bound)
| InsertPayload (src : source) (i : nat)
| AppendPayload (src : source)
| AppendByte (v : N)
| SetByte (v : N) (i : nat)
| SetGroup (g : N).

(** The payload and the group afterwards. *)
Definition new_payload (e : edit) (l : list N) : list N :=
  match e with
  | SetPayload src => s_items src
  | SplicePayload src lo hi => replaced l (range_begin lo) (range_end hi (List.length l)) (s_items src)
  | InsertPayload src i => replaced l i i (s_items src)
  | AppendPayload src => l ++ s_items src
  | AppendByte v => l ++ [v]
  | SetByte v i => with_unit l i v
  | SetGroup _ => l
  end.
Definition new_group (e : edit) (g : N) : N := match e with SetGroup g' => g' | _ => g end.

(** What the caller must respect: the types of the data, and positions inside
    the payload. *)
Definition legal (fm : form) (e : edit) (l : list N) : Prop :=
  match e with
  | SetPayload src | AppendPayload src => Forall (is_unit fm) (s_items src)
  | SplicePayload src lo hi =>
      Forall (is_unit fm) (s_items src)
      /\ range_begin lo <= range_end hi (List.length l) <= List.length l
  | InsertPayload src i => Forall (is_unit fm) (s_items src) /\ i <= List.length l
  | AppendByte v => is_unit fm v
  | SetByte v i => is_unit fm v /\ i < List.length l
  | SetGroup g => (g < 16)%N
  end.

(** A history of edits. *)
Fixpoint final_payload (es : list edit) (l : list N) : list N :=
  match es with [] => l | e :: t => final_payload t (new_payload e l) end.
Fixpoint final_group (es : list edit) (g : N) : N :=
  match es with [] => g | e :: t => final_group t (new_group e g) end.
Fixpoint all_legal (fm : form) (es : list edit) (l : list N) : Prop :=
  match es with [] => True | e :: t => legal fm e l /\ all_legal fm t (new_payload e l) end.

(** ** Fixed-size buffers with room for [room] payload bytes *)

(** The payload afterwards and whether the call reports success: what does not
    fit leaves an empty message and an error. *)
Definition fixed_outcome (room : nat) (e : edit) (l : list N) : list N * bool :=
  let l' := new_payload e l in
  if List.length l' <=? room then (l', true) else ([], false).

(** The number of items the [size_hint] of an iterator announces. *)
Definition announced (src : source) : nat :=
  match s_hint src with (_, Some u) => u | (l, None) => l end.

(** Replacing part of the payload: the iterator must not yield more than it
    announced. *)
Definition announced_enough (e : edit) (l : list N) : Prop :=
  match e with
  | SplicePayload src lo hi =>
      range_begin lo = range_end hi (List.length l) \/ List.length (s_items src) <= announced src
  | _ => True
  end.

(** Edits that replace bytes by at least as many, with exact announcements. *)
Definition not_shrinking (e : edit) (l : list N) : Prop :=
  match e with
  | SetPayload src => l = [] /\ announced src = List.length (s_items src)
  | SplicePayload src lo hi =>
      range_end hi (List.length l) - range_begin lo <= List.length (s_items src)
      /\ announced src = List.length (s_items src)
  | InsertPayload src _ | AppendPayload src => announced src = List.length (s_items src)
  | _ => True
  end.
Fixpoint growing (fm : form) (es : list edit) (l : list N) : Prop :=
  match es with
  | [] => True
  | e :: t => legal fm e l /\ not_shrinking e l /\ growing fm t (new_payload e l)
  end.

Fixpoint fixed_history (room : nat) (es : list edit) (l : list N) : list N * list bool :=
  match es with
  | [] => (l, [])
  | e :: t =>
      let '(l', ok) := fixed_outcome room e l in
      let '(l'', oks) := fixed_history room t l' in (l'', ok :: oks)
  end.
Fixpoint fixed_legal (fm : form) (room : nat) (es : list edit) (l : list N) : Prop :=
  match es with
  | [] => True
  | e :: t => legal fm e l /\ announced_enough e l
              /\ fixed_legal fm room t (fst (fixed_outcome room e l))
  end.

(** ** Payload iterators *)

Inductive call := Next | Nth (n : nat).

(** What an iterator over the bytes [l] answers, and what it has left. *)
Definition answer (c : call) (l : list N) : option N :=
  match c with Next => hd_error l | Nth n => nth_error l n end.
Definition left_after (c : call) (l : list N) : list N :=
  match c with Next => tl l | Nth n => skipn (S n) l end.

(** The answers to a sequence of calls, each with the [len()] afterwards. *)
Fixpoint answers (cs : list call) (l : list N) : list (option N * nat) :=
  match cs with
  | [] => []
  | c :: t => (answer c l, List.length (left_after c l)) :: answers t (left_after c l)
  end.

(** No [nth] beyond the end. *)
Fixpoint within (cs : list call) (l : list N) : Prop :=
  match cs with
  | [] => True
  | c :: t => match c with Next => True | Nth n => n < List.length l end /\ within t (left_after c l)
  end.

(** ** Messages whose packets are not all full *)

(** Packets of any size, partly filled ones being noticed, and no partly filled
    ones behind the message. *)
Definition loose_message (fm : form) (k : nat) (g : N) (l : list N) (b : list N) : Prop :=
  carries fm k g None l b /\ noticed fm k b /\ nothing_behind fm k b.

(** By how many bytes an edit lengthens the message before it writes. *)
Definition room_made (e : edit) (l : list N) : nat :=
  match e with
  | SplicePayload src lo hi => announced src - (range_end hi (List.length l) - range_begin lo)
  | SetPayload src | InsertPayload src _ | AppendPayload src => announced src
  | AppendByte _ => 1
  | SetByte _ _ | SetGroup _ => 0
  end.

(** The edits that meet a partly filled packet left behind by compaction.  A
    growable buffer drops it when it is resized. *)
Definition blocked (fm : form) (k : nat) (e : edit) (l : list N) (b : list N) : Prop :=
  match e with
  | SetPayload _ | SetByte _ _ | SetGroup _ => False
  | _ => room_made e l = 0 /\ left_behind fm k (List.length l) b
  end.
Definition fixed_blocked (fm : form) (k : nat) (e : edit) (l : list N) (b : list N) : Prop :=
  match e with
  | SetByte _ _ | SetGroup _ => False
  | SetPayload _ => left_behind fm k (room_made e l) b
  | _ => left_behind fm k (List.length l + room_made e l) b
  end.

(** Edits that write all packet headers again. *)
Definition resizes (e : edit) : Prop := match e with SetByte _ _ | SetGroup _ => False | _ => True end.
