(** C04: the mask that a field is declared with names exactly the bits that the field owns, for
    every mask and representation type that has a schema, used by a message or not. *)
From Coq Require Import NArith List String Bool Arith Lia ZifyBool ZifyNat ZifyN.
From Verif Require Import Base BitOps Encode7 Values Schema Helpers Props SpecLayout
  BitLemmas ListLemmas PropLemmas PropWrite.
Import ListNotations.
Local Open Scope N_scope.

(** Bit [j] of unit [w] is one of the bits of a mask, given as the list of its units. *)
Definition named (mask : list N) (w : nat) (j : N) : Prop := N.testbit (nth w mask 0) j = true.
(** Two buffers hold the same bits under a mask. *)
Definition same_under (mask b b' : list N) : Prop :=
  forall w j, named mask w j -> N.testbit (nth w b 0) j = N.testbit (nth w b' 0) j.
(** Two buffers of one length hold the same bits outside of a mask. *)
Definition same_outside (mask b b' : list N) : Prop :=
  List.length b' = List.length b /\
  forall w j, ~ named mask w j -> N.testbit (nth w b' 0) j = N.testbit (nth w b 0) j.
(** A buffer has all the units of a mask. *)
Definition reaches (mask b : list N) : Prop :=
  forall w, nth w mask 0 <> 0 -> (w < List.length b)%nat.

Definition units4 (m : mask4) : list N := let '(a, b, c, d) := m in [a; b; c; d].
Definition units3 (m : mask3) : list N := let '(a, b, c) := m in [a; b; c].

(** *** The masks are the segments *)

Definition cover (w : nat) (l : list seg) : N :=
  fold_right (fun s a => if (w =? sg_w s)%nat
                         then N.lor (N.shiftl (N.ones (sg_n s)) (sg_lo s)) a else a) 0 l.

Lemma cover_spec w j l :
  N.testbit (cover w l) j = true <-> exists s, In s l /\ in_seg s w j.
Proof.
  induction l as [|s l IH]; cbn [cover fold_right].
  - rewrite N.bits_0. split; [discriminate|intros (s & [] & _)].
  - assert (E : N.testbit (N.shiftl (N.ones (sg_n s)) (sg_lo s)) j = true <->
                sg_lo s <= j < sg_lo s + sg_n s).
    { destruct (N.le_gt_cases (sg_lo s) j) as [H|H].
      - rewrite N.shiftl_spec_high' by exact H.
        destruct (N.lt_ge_cases (j - sg_lo s) (sg_n s)) as [H1|H1].
        + rewrite N.ones_spec_low by exact H1. split; [lia|reflexivity].
        + rewrite N.ones_spec_high by exact H1. split; [discriminate|lia].
      - rewrite N.shiftl_spec_low by exact H. split; [discriminate|lia]. }
    fold (cover w l). destruct (Nat.eqb_spec w (sg_w s)) as [Ew|Ew].
    + rewrite N.lor_spec, orb_true_iff, E, IH. split.
      * intros [H|(x & Hx & Hin)]; [exists s|exists x]; cbn [In]; unfold in_seg in *; auto.
      * intros (x & [<-|Hx] & Hin); [left; apply Hin|right; eauto].
    + rewrite IH. split; intros (x & Hx & Hin); exists x; cbn [In]; auto.
      destruct Hx as [<-|Hx]; [destruct Hin as [? _]; congruence|auto].
Qed.

(** The segments lie in the units of the mask and fill it. *)
Definition fills (u : list N) (w : wire) : bool :=
  forallb (fun k => nth k u 0 =? cover k (occupies w)) (seq 0 (List.length u)) &&
  forallb (fun s => (sg_w s <? List.length u)%nat && negb (sg_n s =? 0)) (occupies w).

Lemma fills_named u w : fills u w = true -> forall k j,
  named u k j <-> exists s, In s (occupies w) /\ in_seg s k j.
Proof.
  unfold fills, named. intros H k j. apply andb_prop in H as [H1 H2].
  rewrite forallb_forall in H1, H2. rewrite <- cover_spec.
  destruct (Nat.lt_ge_cases k (List.length u)) as [Hk|Hk].
  - specialize (H1 k). rewrite N.eqb_eq in H1. rewrite H1; [reflexivity|]. apply in_seq. lia.
  - rewrite nth_overflow by exact Hk. rewrite cover_spec, N.bits_0. split; [discriminate|].
    intros (s & Hs & Hin & _). specialize (H2 s Hs). lia.
Qed.

Lemma fills_in u w b : fills u w = true -> reaches u b -> wire_in (List.length b) w = true.
Proof.
  intros H Hr. unfold wire_in. apply forallb_forall. intros s Hs. apply Nat.ltb_lt. apply Hr.
  assert (Hn : sg_n s <> 0).
  { unfold fills in H. apply andb_prop in H as [_ H]. rewrite forallb_forall in H.
    specialize (H s Hs). lia. }
  intros E. assert (Hx : named u (sg_w s) (sg_lo s)).
  { apply (proj2 (fills_named u w H (sg_w s) (sg_lo s))). exists s. split; [exact Hs|].
    unfold in_seg. split; [reflexivity|lia]. }
  unfold named in Hx. rewrite E, N.bits_0 in Hx. discriminate.
Qed.

Lemma fills_change u w b b' : fills u w = true ->
  only_changes (occupies w) b b' -> same_outside u b b'.
Proof.
  intros H [Hl Hc]. split; [exact Hl|]. intros k j Hn. apply Hc. intros s Hs Hin. apply Hn.
  apply (proj2 (fills_named u w H k j)). eauto.
Qed.

(** *** Plain fields are determined by, and determine, their bits *)

Definition plain (w : wire) : bool :=
  match w with
  | Number _ | Array _ => true
  | Flag s => sg_n s =? 1
  | Septets l h => (sg_n l =? 7) && (sg_n h =? 7)
  | _ => false
  end.

Lemma plain_decode w b b' : plain w = true ->
  (decode w b = decode w b' <-> forall s, In s (occupies w) -> bits b s = bits b' s).
Proof.
  destruct w; try discriminate; cbn [plain decode occupies]; intros Hp.
  - split; [intros E x [<-|[]]; congruence|intros H; now rewrite (H s) by now left].
  - split; [|intros H; now rewrite (H s) by now left].
    intros E x [<-|[]]. injection E as E. pose proof (bits_lt b s). pose proof (bits_lt b' s).
    apply N.eqb_eq in Hp. rewrite Hp in *. change (2 ^ 1) with 2 in *.
    destruct (N.eqb_spec (bits b s) 1), (N.eqb_spec (bits b' s) 1); try discriminate; lia.
  - split.
    + intros E x Hx. apply andb_prop in Hp as [Hl Hh]. apply N.eqb_eq in Hl, Hh.
      pose proof (bits_lt b lsb). pose proof (bits_lt b' lsb). rewrite Hl in *.
      change (2 ^ 7) with 128 in *.
      assert (E1 : bits b lsb + 128 * bits b msb = bits b' lsb + 128 * bits b' msb) by congruence.
      destruct Hx as [<-|[<-|[]]]; lia.
    + intros H. rewrite (H lsb), (H msb); [reflexivity|right; now left|now left].
  - split.
    + intros E. assert (Em : map (bits b) l = map (bits b') l) by congruence.
      clear E. induction l as [|s l IH]; [intros x []|]. injection Em as E1 E2.
      intros x [<-|Hx]; [exact E1|now apply IH].
    + intros H. do 2 f_equal. now apply map_ext_in.
Qed.

Lemma bits_iff b b' s : bits b s = bits b' s <->
  forall j, in_seg s (sg_w s) j -> N.testbit (nth (sg_w s) b 0) j = N.testbit (nth (sg_w s) b' 0) j.
Proof.
  split.
  - intros E j [_ Hj]. pose proof (f_equal (fun x => N.testbit x (j - sg_lo s)) E) as H.
    cbv beta in H. unfold bits in H. rewrite !testbit_field in H.
    replace (j - sg_lo s <? sg_n s) with true in H by (clear - Hj; lia).
    cbn [andb] in H. replace (sg_lo s + (j - sg_lo s)) with j in H by (clear - Hj; lia). exact H.
  - intros H. unfold bits. apply field_eq. intros j Hj. apply H. now split.
Qed.

Lemma same_decode u w b b' : fills u w = true -> plain w = true ->
  (decode w b = decode w b' <-> same_under u b b').
Proof.
  intros H Hp. rewrite plain_decode by exact Hp. split.
  - intros E k j Hn. apply (proj1 (fills_named u w H k j)) in Hn as (s & Hs & Hin).
    destruct Hin as [Ek Hj]. subst k. apply (proj1 (bits_iff b b' s) (E s Hs)). now split.
  - intros E s Hs. apply bits_iff. intros j Hj. apply E.
    apply (proj2 (fills_named u w H (sg_w s) j)). eauto.
Qed.

(** *** Every declared mask *)

Definition declared4 (t : sty) (m : mask4) : Prop := In m (map fst (ump_table t)).
Definition declared3 (t : sty) (m : mask3) : Prop := In m (map fst (bytes_table t)).

Lemma table4_ok t m : declared4 t m ->
  exists w, ump_wire t m = Some w /\ fills (units4 m) w = true /\ plain w = true /\
            wire_ok U32 w = true.
Proof.
  intros H.
  assert (A : forallb (fun m => match ump_wire t m with
      | Some w => fills (units4 m) w && plain w && wire_ok U32 w | None => false end)
      (map fst (ump_table t)) = true) by (destruct t; vm_compute; reflexivity).
  rewrite forallb_forall in A. specialize (A m H).
  destruct (ump_wire t m) as [w|]; [|discriminate]. exists w.
  apply andb_prop in A as [A A3]. apply andb_prop in A as [A1 A2]. auto.
Qed.

Lemma table3_ok t m : declared3 t m ->
  exists w, bytes_wire t m = Some w /\ fills (units3 m) w = true /\ plain w = true /\
            wire_ok U8 w = true.
Proof.
  intros H.
  assert (A : forallb (fun m => match bytes_wire t m with
      | Some w => fills (units3 m) w && plain w && wire_ok U8 w | None => false end)
      (map fst (bytes_table t)) = true) by (destruct t; vm_compute; reflexivity).
  rewrite forallb_forall in A. specialize (A m H).
  destruct (bytes_wire t m) as [w|]; [|discriminate]. exists w.
  apply andb_prop in A as [A A3]. apply andb_prop in A as [A1 A2]. auto.
Qed.

Lemma plain_value w b : plain w = true -> exists v, decode w b = Some v.
Proof. destruct w; try discriminate; intros _; eexists; reflexivity. Qed.

(** A field declared with a mask over words: two buffers read alike exactly if they agree on
    the bits of the mask; a write changes no other bit and is read back. *)
Theorem C04_masks_words : forall t m b,
  declared4 t m -> wf_buf U32 b -> reaches (units4 m) b ->
  (exists v, ump_read t m b = Val v) /\
  (forall b', wf_buf U32 b' -> reaches (units4 m) b' ->
    (ump_read t m b = ump_read t m b' <-> same_under (units4 m) b b')) /\
  (forall v, has_type (sty_ty t) v = true -> exists b', ump_write t m b v = Val b' /\
    same_outside (units4 m) b b' /\ wf_buf U32 b' /\ ump_read t m b' = Val v).
Proof.
  intros t m b Hd Hwf Hr. destruct (table4_ok t m Hd) as (w & Ew & Hf & Hp & Hok).
  pose proof (fills_in _ _ _ Hf Hr) as Hin. split; [|split].
  - destruct (plain_value w b Hp) as [v Ev]. exists v.
    rewrite (ump_read_decode t m w b Hwf Ew Hin), Ev. reflexivity.
  - intros b' Hwf' Hr'. pose proof (fills_in _ _ _ Hf Hr') as Hin'.
    rewrite (ump_read_decode t m w b), (ump_read_decode t m w b') by assumption.
    rewrite <- (same_decode _ w b b' Hf Hp).
    destruct (plain_value w b Hp) as [v ->], (plain_value w b' Hp) as [v' ->].
    cbn [of_option]. split; congruence.
  - intros v Ht. destruct (ump_write_spec t m w b v Hwf Ew Hok Hin Ht) as (b' & E & Hc & Hwf' & Hv).
    exists b'. split; [exact E|]. split; [now apply (fills_change _ w)|]. split; [exact Hwf'|].
    assert (Hl : List.length b' = List.length b) by apply Hc.
    rewrite (ump_read_decode t m w b'), Hv by (auto; now rewrite Hl).
    destruct w; try discriminate; reflexivity.
Qed.
Print Assumptions C04_masks_words.

(** The same for masks over bytes. *)
Theorem C04_masks_bytes : forall t m b,
  declared3 t m -> wf_buf U8 b -> reaches (units3 m) b ->
  (exists v, bytes_read t m b = Val v) /\
  (forall b', wf_buf U8 b' -> reaches (units3 m) b' ->
    (bytes_read t m b = bytes_read t m b' <-> same_under (units3 m) b b')) /\
  (forall v, has_type (sty_ty t) v = true -> exists b', bytes_write t m b v = Val b' /\
    same_outside (units3 m) b b' /\ wf_buf U8 b' /\ bytes_read t m b' = Val v).
Proof.
  intros t m b Hd Hwf Hr. destruct (table3_ok t m Hd) as (w & Ew & Hf & Hp & Hok).
  pose proof (fills_in _ _ _ Hf Hr) as Hin. split; [|split].
  - destruct (plain_value w b Hp) as [v Ev]. exists v.
    rewrite (bytes_read_decode t m w b Ew Hin), Ev. reflexivity.
  - intros b' Hwf' Hr'. pose proof (fills_in _ _ _ Hf Hr') as Hin'.
    rewrite (bytes_read_decode t m w b), (bytes_read_decode t m w b') by assumption.
    rewrite <- (same_decode _ w b b' Hf Hp).
    destruct (plain_value w b Hp) as [v ->], (plain_value w b' Hp) as [v' ->].
    cbn [of_option]. split; congruence.
  - intros v Ht. destruct (bytes_write_spec t m w b v Hwf Ew Hok Hin Ht) as (b' & E & Hc & Hwf' & Hv).
    exists b'. split; [exact E|]. split; [now apply (fills_change _ w)|]. split; [exact Hwf'|].
    assert (Hl : List.length b' = List.length b) by apply Hc.
    rewrite (bytes_read_decode t m w b'), Hv by (auto; now rewrite Hl).
    destruct w; try discriminate; reflexivity.
Qed.
Print Assumptions C04_masks_bytes.

(** Non-vacuity: a 7-bit field that no message uses, and the bend of a pitch bend message. *)
Example C04_case_masks :
  declared4 SU7 (0, 0x00007F00, 0, 0) /\ reaches (units4 (0, 0x00007F00, 0, 0)) [1; 2] /\
  ump_write SU7 (0, 0x00007F00, 0, 0) [1; 2] (VNum 0x55) = Val [1; 0x5502] /\
  declared3 SU14 (0, 0x7F, 0x7F) /\ reaches (units3 (0, 0x7F, 0x7F)) [0xE0; 0; 0] /\
  bytes_write SU14 (0, 0x7F, 0x7F) [0xE0; 0; 0] (VNum 0x2081) = Val [0xE0; 1; 0x41].
Proof.
  assert (R : forall u b, forallb (fun w => (nth w u 0 =? 0) || (w <? List.length b)%nat)
    (seq 0 (List.length u)) = true -> reaches u b).
  { intros u b H w Hw. rewrite forallb_forall in H.
    destruct (Nat.lt_ge_cases w (List.length u)) as [Hl|Hl].
    - specialize (H w). rewrite in_seq in H. apply N.eqb_neq in Hw.
      rewrite Hw in H. cbn [orb] in H. apply Nat.ltb_lt. apply H. lia.
    - rewrite nth_overflow in Hw by exact Hl. congruence. }
  split; [unfold declared4; cbn; tauto|]. split; [now apply R|]. split; [reflexivity|].
  split; [unfold declared3; cbn; tauto|]. split; [now apply R|reflexivity].
Qed.
