(** SPECIFICATION.  A buffer type of the client's own with room for [cap] units,
    as the library's documentation suggests: a resizable buffer which uses an
    arena.  The client implements [try_resize]. *)
From Coq Require Import NArith List Bool Arith.
From Verif Require Import Splice SpecSysex SpecEdits SpecText.
Import ListNotations.
Local Open Scope nat_scope.

(** Cut off, or extended by zeros. *)
Definition resized (b : list N) (n : nat) : list N := firstn n b ++ repeat 0%N (n - List.length b).

(** Up to [cap] units the request is granted: the buffer gets that length, or keeps
    its own if that is enough.  Beyond, it is refused and nothing happens. *)
Definition bounded_buffer (cap : nat) (answer : list N -> nat -> list N * bool) : Prop :=
  forall b n, List.length b <= cap ->
  if n <=? cap
  then answer b n = (resized b n, true) \/ (n <= List.length b /\ answer b n = (b, true))
  else answer b n = (b, false).

(** The arena buffer: always exactly as long as asked for.  A lazy one only grows. *)
Definition arena (cap : nat) (b : list N) (n : nat) : list N * bool :=
  if n <=? cap then (resized b n, true) else (b, false).
Definition lazy_arena (cap : nat) (b : list N) (n : nat) : list N * bool :=
  if n <=? List.length b then (b, true) else if n <=? cap then (resized b n, true) else (b, false).

Lemma arena_bounded cap : bounded_buffer cap (arena cap).
Proof. intros b n _. unfold arena. destruct (n <=? cap); auto. Qed.
Lemma lazy_arena_bounded cap : bounded_buffer cap (lazy_arena cap).
Proof.
  intros b n H. unfold lazy_arena. destruct (Nat.leb_spec n (List.length b)), (Nat.leb_spec n cap); auto.
  exfalso. apply (Nat.lt_irrefl cap). eapply Nat.lt_le_trans; [eassumption|]. now apply Nat.le_trans with (List.length b).
Qed.

(** Sysex8: the stream id is not tracked ([None]), or it is zero and the buffer is
    a whole number of packets.  Packets added by growing have stream id zero. *)
Definition whole_packets (fm : form) (s : option N) (b : list N) : Prop :=
  s = None \/ (s = Some 0%N /\ List.length b mod packet_words fm = 0).

(** The iterator handed in says how many items it will yield. *)
Definition exact (src : source) : Prop := announced src = List.length (s_items src).
Definition announced_exactly (e : edit) : Prop :=
  match e with
  | SetPayload src | SplicePayload src _ _ | InsertPayload src _ | AppendPayload src => exact src
  | AppendByte _ | SetByte _ _ | SetGroup _ => True
  end.
(** It must if part of the payload is replaced. *)
Definition settled (e : edit) (l : list N) : Prop :=
  match e with
  | SplicePayload src lo hi => range_begin lo = range_end hi (List.length l) \/ exact src
  | _ => True
  end.
(** An insertion of items not announced, or not all of them, into [room] that is
    enough for twice as many. *)
Definition roomy (room : nat) (e : edit) (l : list N) : Prop :=
  match e with
  | SetPayload src => announced src <= List.length (s_items src) /\ 2 * List.length (s_items src) <= room
  | InsertPayload src _ | AppendPayload src =>
      announced src <= List.length (s_items src) /\ List.length l + 2 * List.length (s_items src) <= room
  | _ => False
  end.
Fixpoint exact_history (fm : form) (room : nat) (es : list edit) (l : list N) : Prop :=
  match es with
  | [] => True
  | e :: t => legal fm e l /\ announced_exactly e /\ exact_history fm room t (fst (fixed_outcome room e l))
  end.

(** Byte-stream form: the edit makes the payload shorter by exactly one byte, or
    starts by emptying a payload of one byte. *)
Definition loses_one (e : edit) (l : list N) : Prop :=
  match e with
  | SetPayload _ => List.length l = 1
  | SetByte _ _ | SetGroup _ => False
  | _ => List.length l = List.length (new_payload e l) + 1
  end.

Fixpoint arena_history (room : nat) (es : list edit) (l : list N) : Prop :=
  match es with
  | [] => True
  | e :: t => legal SevenBit e l /\ announced_exactly e /\ ~ loses_one e l
      /\ arena_history room t (fst (fixed_outcome room e l))
  end.

(** Stream texts in an arena: a name too long for [cap] words changes nothing;
    otherwise as in a [Vec]. *)
Definition arena_after (off cap : nat) (s : stream_state) (e : stream_edit) : stream_state :=
  if stream_accepted off (Some (cap / 4)) e then stream_after off None s e else s.
