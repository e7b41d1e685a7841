(** C65: changed bits.  What the parsers and getters make of messages some of whose bits were changed on the way. *)
From Coq Require Import NArith List String Bool Arith Lia ZifyBool ZifyNat ZifyN.
From Verif Require Import Base Values Props Message MessageTable SpecLayout SpecFixed SpecDamage
  PropLemmas PropWrite MessageLemmas InitLemmas FixedLemmas FixedProofs
  Aggregate SpecAggregate AggregateLemmas AggregateMore SpecErrors ErrorAggregate DamageLemmas.
Import ListNotations.
Local Open Scope string_scope.
Local Open Scope N_scope.
Local Open Scope list_scope.

(** ** Fixed-size messages *)

(** One packet, or a type that looks at the first packet only. *)
Definition alone (u : unit_id) (m : message) (b : list N) : Prop :=
  scans_packets m = false \/ (sized u m /\ List.length b = units u (m_name m)).

(** Bits that belong to no field make no difference. *)
Theorem C65_reserved_bits : forall u m b b', In m all_messages -> supports u m = true -> holds u m b -> alone u m b -> wf_buf u b' ->
  alike_in_fields u m b b' ->
  (accepts u m b <-> accepts u m b') /\ forall f w, In (f, w) (layout u (m_name m)) -> settable w = true -> get u m b' f = get u m b f.
Proof.
  intros u m b b' Hm Hs Hh Ha Hw H. pose proof (proj1 H) as L.
  assert (Hh' : holds u m b') by (destruct Hh as (A & B & C); split; [exact Hw|]; rewrite L; auto).
  split.
  - pose proof (meaningful_alike u m b b' Hm H) as M. destruct Ha as [Ha|[Ha1 Ha2]].
    + rewrite !accepts_bare by (auto; apply Hh). rewrite L. tauto.
    + rewrite !accepts_one by (auto; try apply Hh; congruence). exact M.
  - intros f w Hf Hset. rewrite (get_settable u m b' f w), (get_settable u m b f w) by (auto; split; auto).
    now rewrite (alike_decode u m f w b b').
Qed.
Print Assumptions C65_reserved_bits.

(** Damage inside one field: the other fields read as before, and the slice is refused exactly when the field's
    bits have no meaning any more. *)
Theorem C65_one_field : forall u m f x b b', In m all_messages -> supports u m = true -> holds u m b -> alone u m b -> wf_buf u b' ->
  In (f, x) (layout u (m_name m)) -> only_changes (occupies x) b b' ->
  (accepts u m b -> (accepts u m b' <-> decode x b' <> None))
  /\ forall g w, In (g, w) (layout u (m_name m)) -> settable w = true -> g <> f -> get u m b' g = get u m b g.
Proof.
  intros u m f x b b' Hm Hs Hh Ha Hw Hf Hc. pose proof (proj1 Hc) as L.
  assert (Hh' : holds u m b') by (destruct Hh as (A & B & C); split; [exact Hw|]; rewrite L; auto).
  assert (D : forall g w, In (g, w) (layout u (m_name m)) -> g <> f -> decode w b' = decode w b).
  { intros g w Hg Hne. exact (frame_decode u m f x g w b b' Hm Hf Hg (fun e => Hne (eq_sym e)) Hc). }
  split.
  - intros A. assert (M : meaningful u m b /\ (accepts u m b' <-> meaningful u m b')).
    { destruct Ha as [Ha|[Ha1 Ha2]].
      - apply accepts_bare in A; auto; [|apply Hh]. rewrite accepts_bare by auto. rewrite L. tauto.
      - apply accepts_one in A; auto; [|apply Hh]. rewrite accepts_one by (auto; congruence). tauto. }
    destruct M as [M ->]. split.
    + intros M'. exact (M' f x Hf).
    + intros X g w Hg. destruct (string_dec g f) as [->|Hne].
      * assert (w = x) as -> by exact (layout_unique u m f w x Hm Hg Hf). exact X.
      * rewrite (D g w Hg Hne). exact (M g w Hg).
  - intros g w Hg Hset Hne. rewrite (get_settable u m b' g w), (get_settable u m b g w) by (auto; split; auto).
    now rewrite (D g w).
Qed.
Print Assumptions C65_one_field.

(** No damage to a number, a flag or an array goes unseen, and none to the bits that identify the type is accepted. *)
Theorem C65_seen : forall u m f x b b', In m all_messages -> supports u m = true -> holds u m b -> alone u m b -> wf_buf u b' ->
  accepts u m b -> In (f, x) (layout u (m_name m)) -> only_changes (occupies x) b b' -> b' <> b ->
  (exact x = true -> accepts u m b' /\ get u m b' f <> get u m b f)
  /\ (forall s v, x = Fixed s v -> ~ accepts u m b').
Proof.
  intros u m f x b b' Hm Hs Hh Ha Hw A Hf Hc Hne. destruct (C65_one_field u m f x b b' Hm Hs Hh Ha Hw Hf Hc) as [Acc _].
  specialize (Acc A). pose proof (only_differs _ b b' Hc Hne) as Df. split.
  - intros He. assert (N : forall c, decode x c <> None) by (intros c; destruct x; discriminate).
    split; [apply Acc, N|]. assert (St : settable x = true) by (destruct x; try discriminate; reflexivity).
    assert (Hh' : holds u m b') by (destruct Hh as (A1 & B1 & C1); split; [exact Hw|]; rewrite (proj1 Hc); auto).
    rewrite (get_settable u m b' f x), (get_settable u m b f x) by (auto; split; auto).
    pose proof (exact_differs u m f x b b' Hm Hf He Df) as X. destruct (decode x b'), (decode x b); cbn [of_option]; congruence.
  - intros s v -> A'. apply Acc in A'. destruct Df as (s' & [<-|[]] & Hd). cbn [decode] in A'.
    assert (M : decode (Fixed s v) b <> None).
    { destruct Ha as [Ha|[Ha1 Ha2]].
      - apply accepts_bare in A; auto; [|apply Hh]. exact (proj2 A f _ Hf).
      - apply accepts_one in A; auto; [|apply Hh]. exact (A f _ Hf). }
    cbn [decode] in M. destruct (N.eqb_spec (bits b s) v), (N.eqb_spec (bits b' s) v); congruence.
Qed.
Print Assumptions C65_seen.

(** Through the enum of all messages: a message of the same type, with the other fields as they were, or an error. *)
Theorem C65_ump_message : forall m f x b b', sized U32 m -> List.length b = units U32 (m_name m) -> wf_buf U32 b -> wf_buf U32 b' ->
  ump_try_from b = Val (Ok (CFixed m, b)) ->
  (alike_in_fields U32 m b b' -> ump_try_from b' = Val (Ok (CFixed m, b')))
  /\ (In (f, x) (layout U32 (m_name m)) -> only_changes (occupies x) b b' ->
      (decode x b' <> None -> ump_try_from b' = Val (Ok (CFixed m, b')))
      /\ (decode x b' = None -> (forall s v, x <> Fixed s v) -> exists e, ump_try_from b' = Val (Err e))
      /\ (decode x b' = None -> forall a, ump_try_from b' <> Val (Ok (CFixed m, a)))).
Proof.
  intros m f x b b' Hz Hl Hw Hw' E. apply ump_iff in E as (T & Mi & R & A & _).
  assert (Hm : In m all_messages) by (apply in_flat_map in T as (fa & _ & T); exact (types_fixed fa m T)).
  assert (Hs : supports U32 m = true) by now destruct m.
  assert (Hh : holds U32 m b) by (split; [exact Hw|]; split; [unfold sized in Hz; lia|discriminate]).
  assert (Al : alone U32 m b) by (right; auto).
  assert (Rb : forall c, fbd_routed (CFixed m) c).
  { intros c Ec. exfalso. injection Ec as ->. unfold sized in Hz. vm_compute in Hz. discriminate Hz. }
  assert (Ty : exists f t, In (f, Fixed (Seg 0 28 4) t) (layout U32 (m_name m))).
  { assert (X : forallb (fun m => existsb (fun fw => match snd fw with Fixed s _ => Nat.eqb (sg_w s) 0 && (sg_lo s =? 28) && (sg_n s =? 4) | _ => false end) (layout U32 (m_name m))) all_messages = true)
      by (vm_compute; reflexivity).
    rewrite forallb_forall in X. specialize (X m Hm). apply existsb_exists in X as ([g w] & Hin & X). cbn [snd] in X.
    destruct w as [ | | | | | | | | | |[w lo n] t| ]; try discriminate X. cbn [sg_w sg_lo sg_n] in X.
    exists g, t. replace (Seg 0 28 4) with (Seg w lo n) by (f_equal; lia). exact Hin. }
  split; [|intros Hf Hc; split; [|split]].
  - intros H. apply ump_iff. repeat split; auto. apply (C65_reserved_bits U32 m b b' Hm Hs Hh Al Hw' H). exact A.
  - intros D. apply ump_iff. repeat split; auto. apply (C65_one_field U32 m f x b b' Hm Hs Hh Al Hw' Hf Hc); auto.
  - intros D NF. destruct (ump_total b' Hw') as ([[c a]|e] & Er); [|eauto]. exfalso.
    assert (Un : forall g s v, In (g, Fixed s v) (layout U32 (m_name m)) -> bits b' s = v /\ bits b s = v).
    { intros g s v Hg. assert (g <> f) by (intros ->; exact (NF s v (layout_unique U32 m f x _ Hm Hf Hg))).
      pose proof (frame_decode U32 m f x g _ b b' Hm Hf Hg (fun e => H (eq_sym e)) Hc) as Fr.
      apply accepts_one in A; auto. specialize (A g _ Hg). cbn [decode] in Fr, A.
      destruct (N.eqb_spec (bits b s) v), (N.eqb_spec (bits b' s) v); split; congruence. }
    destruct Ty as (g & t & Hg). destruct (Un g _ t Hg) as [U1 U2].
    assert (c = CFixed m).
    { refine (taken_for b' c b m T _ A _ _ a Er).
      - now rewrite U1, U2.
      - intros g' s v Hin _. exact (proj1 (Un g' s v Hin)).
      - intros ->. pose proof (proj1 Hc) as L. cbn in L. pose proof (min_size_pos m Hm). unfold sized in Hz. lia. }
    subst c. apply ump_iff in Er as (_ & _ & _ & A' & ->).
    exact (proj1 (proj1 (C65_one_field U32 m f x b b' Hm Hs Hh Al Hw' Hf Hc) A) A' D).
  - intros D a Er. apply ump_iff in Er as (_ & _ & _ & A' & ->).
    exact (proj1 (proj1 (C65_one_field U32 m f x b b' Hm Hs Hh Al Hw' Hf Hc) A) A' D).
Qed.
Print Assumptions C65_ump_message.

(** A note on: bit 15 is reserved; bits 8 to 14 are the note number.  A set key signature whose tonic bits lose their meaning. *)
Example C65_cases :
  alike_in_fields U32 cv1_note_on [0x23953C40] [0x2395BC40] /\ accepts U32 cv1_note_on [0x2395BC40]
  /\ (exists x, In ("note_number", x) (layout U32 (m_name cv1_note_on)) /\ exact x = true /\ only_changes (occupies x) [0x23953C40] [0x23953D40])
  /\ get U32 cv1_note_on [0x23953D40] "note_number" = Val (VNum 0x3D)
  /\ (exists x, In ("tonic", x) (layout U32 (m_name flex_set_key_signature))
        /\ only_changes (occupies x) [0xD0100005; 0x91000000; 0; 0] [0xD0100005; 0x99000000; 0; 0]
        /\ decode x [0xD0100005; 0x99000000; 0; 0] = None)
  /\ ump_try_from [0xD0100005; 0x99000000; 0; 0] = Val (Err "Couldn't interpret Tonic field").
Proof.
  assert (X : forall a k j, j <> k -> N.testbit (N.lxor a (2 ^ k)) j = N.testbit a j).
  { intros a k j H. rewrite N.lxor_spec, N.pow2_bits_false by congruence. apply xorb_false_r. }
  split; [|split; [reflexivity|split; [|split; [reflexivity|split; [|reflexivity]]]]].
  - split; [reflexivity|]. intros f x s w j Hf Hs [-> Hj].
    assert (L : forallb (fun fw => forallb (fun s => Nat.eqb (sg_w s) 0 && negb ((sg_lo s <=? 15) && (15 <? sg_lo s + sg_n s))) (occupies (snd fw)))
      (layout U32 (m_name cv1_note_on)) = true) by (vm_compute; reflexivity).
    rewrite forallb_forall in L. specialize (L _ Hf). cbn [snd] in L. rewrite forallb_forall in L. specialize (L s Hs).
    replace (sg_w s) with 0%nat by lia. cbn [nth]. change 0x2395BC40 with (N.lxor 0x23953C40 (2 ^ 15)). apply X. lia.
  - eexists. split; [apply find_wire_in; reflexivity|]. split; [reflexivity|]. split; [reflexivity|].
    intros [|w] j H; [|destruct w; reflexivity]. cbn [nth]. change 0x23953D40 with (N.lxor 0x23953C40 (2 ^ 8)). apply X.
    intros ->. apply (H (Seg 0 8 7)); [now left|]. unfold in_seg. cbn. lia.
  - eexists. split; [apply find_wire_in; reflexivity|]. split; [|reflexivity]. split; [reflexivity|].
    intros [|[|w]] j H; [reflexivity| |destruct w as [|[|[|]]]; reflexivity]. cbn [nth]. change 0x99000000 with (N.lxor 0x91000000 (2 ^ 27)). apply X.
    intros ->. apply (H (Seg 1 24 4)); [now left|]. unfold in_seg. cbn. lia.
Qed.
