(** SPECIFICATION.  Messages with nothing in them but their fields: the vocabulary
    of C53. *)
From Coq Require Import NArith List String Bool Arith.
From Verif Require Import Base Values Props Message MessageTable SpecLayout SpecFixed.
Import ListNotations.
Local Open Scope string_scope.
Local Open Scope N_scope.

(** The bits of a field hold its value and nothing else: where a value leaves
    bits of the field unused, they are zero (the address of a flex data message
    that is for no channel is 1, "group"). *)
Definition tidy (w : wire) (b : list N) : Prop :=
  match w with
  | Code s k => decode (Code s k) b = Some (VAlt None) -> bits b s = 0
  | Attribute t d => bits b t = 0 -> bits b d = 0
  | Guarded v l h =>
      let low := bits b (Seg (sg_w l) (sg_lo l) 8) in
      let high := bits b (Seg (sg_w h) (sg_lo h) 8) in
      low < 128 /\ high < 128 /\ (bits b v = 0 -> low = 0 /\ high = 0)
  | OptChannel a c => bits b a = 0 \/ (bits b a = 1 /\ bits b c = 0)
  | GroupAddress a c => bits b a = 1 /\ bits b c = 0
  | _ => True
  end.

(** A message of exactly its size, its reserved bits zero, its fields tidy. *)
Definition tidy_message (u : unit_id) (m : message) (b : list N) : Prop :=
  List.length b = min_size u m /\ reserved_zero u m b /\
  forall f w, In (f, w) (layout u (m_name m)) -> tidy w b.

(** Every getter that has a setter gives the same. *)
Definition same_fields (u : unit_id) (m : message) (a b : list N) : Prop :=
  forall f w, settable_field u m f w -> get u m a f = get u m b f.

(** In a history: no attribute is taken back, that is set to [None] after it was
    set to something. *)
Definition never_withdrawn (h : history) : Prop :=
  forall f, last_set f h = Some (VAttr None) -> forall a, ~ In (f, VAttr (Some a)) h.

(** A client that copies a message field by field:
      let mut copy = M::new();
      copy.set_a(original.a()); copy.set_b(original.b()); ... *)
Fixpoint copy_fields (u : unit_id) (m : message) (names : list string) (from to : list N)
  : outcome (list N) :=
  match names with
  | [] => Val to
  | f :: t => v <- get u m from f ;; to' <- set u m to f v ;; copy_fields u m t from to'
  end.

(** [names] names every field, in some order, possibly more than once. *)
Definition all_fields (u : unit_id) (m : message) (names : list string) : Prop :=
  forall f, In f names <-> exists w, settable_field u m f w.

(** Every field holds a value the setter can write: all but [EffectDepth 5]. *)
Definition writable (u : unit_id) (m : message) (b : list N) : Prop :=
  forall f v, get u m b f = Val v -> representable v = true.
