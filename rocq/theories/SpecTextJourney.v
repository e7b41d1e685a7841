(** SPECIFICATION.  One text message on its way through [Vec<u32>] and [[u32; n]] buffers, seen as the values that were
    set and the length of the buffer: the vocabulary of C71. *)
From Coq Require Import NArith List Bool Arith.
From Verif Require Import SpecText.
Import ListNotations.
Local Open Scope nat_scope.

Inductive text_place := TextVec | TextArray.

(** What a client may do with the message it holds; [n] is the size of an array.  [Parsed]: the words of [data()] are
    parsed again and copied to a vector. *)
Inductive text_leg (E : Type) := Call (e : E) | ToVec | ToArray (n : nat) | DataToArray (n : nat) | Parsed.
Arguments Call {E}. Arguments ToVec {E}. Arguments ToArray {E}. Arguments DataToArray {E}. Arguments Parsed {E}.

(** What the client should see: the kind of buffer, its length in words, the values. *)
Record text_view (S : Type) := { tv_place : text_place; tv_length : nat; tv_state : S }.
Arguments tv_place {S}. Arguments tv_length {S}. Arguments tv_state {S}.
Definition seen {S} p n s : text_view S := {| tv_place := p; tv_length := n; tv_state := s |}.

(** The setter calls in a journey. *)
Fixpoint calls_of {E} (ss : list (text_leg E)) : list E :=
  match ss with [] => [] | Call e :: t => e :: calls_of t | _ :: t => calls_of t end.

Fixpoint text_route {E S} (go : text_leg E -> text_view S -> text_view S * bool) (ss : list (text_leg E)) (v : text_view S)
  : text_view S * list bool :=
  match ss with
  | [] => (v, [])
  | s :: t => let '(v1, ok) := go s v in let '(v2, oks) := text_route go t v1 in (v2, ok :: oks)
  end.
Fixpoint text_permitted {E S} (go : text_leg E -> text_view S -> text_view S * bool) (may : text_leg E -> text_view S -> Prop)
  (ss : list (text_leg E)) (v : text_view S) : Prop :=
  match ss with [] => True | s :: t => may s v /\ text_permitted go may t (fst (go s v)) end.

(** ** Flex data texts *)

Definition flex_words (s : flex_state) : nat := 4 * text_packets 12 (length (fs_text s)).
Definition flex_goes (l : text_leg flex_edit) (v : text_view flex_state) : text_view flex_state * bool :=
  let n := tv_length v in let s := tv_state v in
  match l with
  | Call e =>
      match tv_place v with
      | TextVec => let s' := flex_after None s e in (seen TextVec (match e with FText _ => flex_words s' | _ => n end) s', true)
      | TextArray => (seen TextArray n (flex_after (Some (n / 4)) s e), flex_accepted (Some (n / 4)) e)
      end
  | ToVec => (seen TextVec n s, true)
  | ToArray m => if n <=? m then (seen TextArray m s, true) else (v, false)
  | DataToArray m => (seen TextArray m s, true)
  | Parsed => (seen TextVec (flex_words s) s, true)
  end.
(** Arrays hold whole packets, the call that needs room has it, and what is parsed is UTF-8 (of a text that fills its
    packets, without the last byte: see [C29_full_packet_refuted]). *)
Definition flex_may (readable : flex_state -> Prop) (l : text_leg flex_edit) (v : text_view flex_state) : Prop :=
  match l with
  | Call e => flex_edit_ok e
  | ToVec => True
  | ToArray m => m mod 4 = 0
  | DataToArray m => m mod 4 = 0 /\ flex_words (tv_state v) <= m
  | Parsed => readable (tv_state v)
  end.

(** ** Stream texts *)

Definition stream_words (off : nat) (s : stream_state) : nat := 4 * text_packets (14 - off) (length (ss_name s)).
(** The block numbers of the packets of the name; nothing behind. *)
Definition trimmed (off : nat) (s : stream_state) : stream_state :=
  {| ss_block := fun p => if p <? text_packets (14 - off) (length (ss_name s)) then ss_block s p else 0%N; ss_name := ss_name s |}.
Definition stream_goes (off : nat) (l : text_leg stream_edit) (v : text_view stream_state) : text_view stream_state * bool :=
  let n := tv_length v in let s := tv_state v in
  match l with
  | Call e =>
      match tv_place v, e with
      | TextVec, SName t => let s' := stream_after off None s e in (seen TextVec (stream_words off s') s', true)
      | TextVec, SBlock _ => (seen TextVec n (stream_after off (Some (n / 4)) s e), true)
      | TextArray, _ => (seen TextArray n (stream_after off (Some (n / 4)) s e), stream_accepted off (Some (n / 4)) e)
      end
  | ToVec => (seen TextVec n s, true)
  | ToArray m => if n <=? m then (seen TextArray m s, true) else (v, false)
  | DataToArray m => (seen TextArray m (trimmed off s), true)
  | Parsed => (seen TextVec (stream_words off s) (trimmed off s), true)
  end.
Definition stream_may (off : nat) (readable : stream_state -> Prop) (l : text_leg stream_edit) (v : text_view stream_state) : Prop :=
  match l with
  | Call e => stream_edit_ok off e
  | ToVec => True
  | ToArray m => m mod 4 = 0
  | DataToArray m => m mod 4 = 0 /\ stream_words off (tv_state v) <= m
  | Parsed => readable (tv_state v)
  end.
