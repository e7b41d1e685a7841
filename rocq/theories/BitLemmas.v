(** Lemmas on bit segments of words and on updating them in a buffer. *)
From Coq Require Import NArith List Bool Arith Lia ZifyBool ZifyNat ZifyN.
From Verif Require Import Base BitOps SpecLayout.
Import ListNotations.
Local Open Scope N_scope.

Lemma land_shiftr_ones x lo n : N.land (N.shiftr x lo) (N.ones n) = (x / 2 ^ lo) mod 2 ^ n.
Proof. rewrite N.land_ones, N.shiftr_div_pow2. reflexivity. Qed.

Lemma testbit_field x lo n j :
  N.testbit ((x / 2 ^ lo) mod 2 ^ n) j = (j <? n) && N.testbit x (lo + j).
Proof.
  rewrite <- land_shiftr_ones, N.land_spec, N.shiftr_spec' , andb_comm.
  rewrite (N.add_comm j lo).
  destruct (N.ltb_spec j n).
  - now rewrite N.ones_spec_low.
  - now rewrite N.ones_spec_high.
Qed.

Lemma testbit_above n v j : v < 2 ^ n -> n <= j -> N.testbit v j = false.
Proof.
  intros Hv Hj. destruct (N.eq_dec v 0) as [->|Hz]; [apply N.bits_0|].
  apply N.bits_above_log2. apply N.lt_le_trans with n; [|exact Hj].
  apply N.log2_lt_pow2; [lia|exact Hv].
Qed.

Lemma testbit_replace x lo n v j : v < 2 ^ n ->
  N.testbit (replace_bits x (N.ones n) lo v) j =
  if (lo <=? j) && (j <? lo + n) then N.testbit v (j - lo) else N.testbit x j.
Proof.
  intros Hv. unfold replace_bits. rewrite N.lor_spec, N.ldiff_spec.
  destruct (N.leb_spec lo j) as [H|H]; cbn [andb].
  - rewrite !N.shiftl_spec_high' by exact H.
    destruct (N.ltb_spec j (lo + n)).
    + rewrite N.ones_spec_low by lia. cbn. rewrite andb_false_r. reflexivity.
    + rewrite N.ones_spec_high by lia. rewrite (testbit_above n v) by (auto; lia).
      cbn. rewrite andb_true_r, orb_false_r. reflexivity.
  - rewrite !N.shiftl_spec_low by exact H. cbn. rewrite andb_true_r, orb_false_r. reflexivity.
Qed.

Lemma lt_pow2_bits v n : (forall j, n <= j -> N.testbit v j = false) -> v < 2 ^ n.
Proof.
  intros H. assert (E : v = v mod 2 ^ n).
  { rewrite <- N.land_ones. apply N.bits_inj. intros j. rewrite N.land_spec.
    destruct (N.ltb_spec j n).
    - rewrite N.ones_spec_low by auto. now rewrite andb_true_r.
    - rewrite N.ones_spec_high by auto. rewrite H by auto. reflexivity. }
  rewrite E. apply N.mod_lt. apply N.pow_nonzero. discriminate.
Qed.

Lemma replace_lt x lo n v k :
  x < 2 ^ k -> v < 2 ^ n -> lo + n <= k -> replace_bits x (N.ones n) lo v < 2 ^ k.
Proof.
  intros Hx Hv Hk. apply lt_pow2_bits. intros j Hj. rewrite testbit_replace by auto.
  replace (j <? lo + n) with false by lia. rewrite andb_false_r.
  eapply testbit_above; eauto.
Qed.

Lemma field_eq x y lo n :
  (forall j, lo <= j < lo + n -> N.testbit x j = N.testbit y j) ->
  (x / 2 ^ lo) mod 2 ^ n = (y / 2 ^ lo) mod 2 ^ n.
Proof.
  intros H. apply N.bits_inj. intros j. rewrite !testbit_field.
  destruct (N.ltb_spec j n); cbn [andb]; auto. apply H. lia.
Qed.

Lemma field_replace_same x lo n v : v < 2 ^ n ->
  (replace_bits x (N.ones n) lo v / 2 ^ lo) mod 2 ^ n = v.
Proof.
  intros Hv. apply N.bits_inj. intros j. rewrite testbit_field.
  destruct (N.ltb_spec j n); cbn [andb].
  - rewrite testbit_replace by auto.
    replace (lo <=? lo + j) with true by lia. replace (lo + j <? lo + n) with true by lia.
    cbn [andb]. f_equal. lia.
  - symmetry. eapply testbit_above; eauto.
Qed.

Lemma replace_full x n v : x < 2 ^ n -> v < 2 ^ n -> replace_bits x (N.ones n) 0 v = v.
Proof.
  intros Hx Hv. apply N.bits_inj. intros j. rewrite testbit_replace by auto.
  replace (0 <=? j) with true by lia. cbn [andb].
  destruct (N.ltb_spec j (0 + n)).
  - f_equal. lia.
  - rewrite (testbit_above n x), (testbit_above n v) by (auto; lia). reflexivity.
Qed.

(** *** Lists *)

Lemma set_nth_length b i x : List.length (set_nth b i x) = List.length b.
Proof. revert i; induction b; destruct i; cbn; auto. Qed.

Lemma nth_set_nth b i x w :
  (i < List.length b)%nat ->
  nth w (set_nth b i x) 0 = if Nat.eqb w i then x else nth w b 0.
Proof.
  revert i w; induction b as [|h t IH]; cbn; intros i w H; [lia|].
  destruct i, w; cbn; auto. apply IH. lia.
Qed.

Lemma idx_nth b i : (i < List.length b)%nat -> idx b i = Val (nth i b 0).
Proof.
  intros H. unfold idx. rewrite (nth_error_nth' b 0 H). reflexivity.
Qed.

Lemma idx_panic b i : (List.length b <= i)%nat -> idx b i = Panic.
Proof.
  intros H. unfold idx. now rewrite (proj2 (nth_error_None b i) H).
Qed.

Lemma upd_nth b i f : (i < List.length b)%nat -> upd b i f = Val (set_nth b i (f (nth i b 0))).
Proof.
  intros H. unfold upd. rewrite (nth_error_nth' b 0 H). reflexivity.
Qed.

Lemma upd_panic b i f : (List.length b <= i)%nat -> upd b i f = Panic.
Proof.
  intros H. unfold upd. now rewrite (proj2 (nth_error_None b i) H).
Qed.

Lemma set_nth_firstn b i x n : (i < n)%nat -> firstn n (set_nth b i x) = set_nth (firstn n b) i x.
Proof.
  revert i n; induction b as [|h t IH]; destruct i, n; cbn; intros; auto; try lia.
  f_equal. apply IH. lia.
Qed.

Lemma nth_firstn_lt (b : list N) n w : (w < n)%nat -> nth w (firstn n b) 0 = nth w b 0.
Proof.
  revert n w; induction b as [|h t IH]; destruct n, w; cbn; intros; auto; try lia.
  apply IH. lia.
Qed.

Lemma list_ext (a b : list N) :
  List.length a = List.length b -> (forall w, (w < List.length a)%nat -> nth w a 0 = nth w b 0) -> a = b.
Proof. intros. eapply nth_ext; eauto. Qed.

(** *** Putting a number into a segment of a buffer *)

Definition put (b : list N) (s : seg) (v : N) : list N :=
  set_nth b (sg_w s) (replace_bits (nth (sg_w s) b 0) (N.ones (sg_n s)) (sg_lo s) v).

Definition seg_disjoint (s t : seg) : bool :=
  negb (Nat.eqb (sg_w s) (sg_w t)) || (sg_lo s + sg_n s <=? sg_lo t) || (sg_lo t + sg_n t <=? sg_lo s).

Lemma seg_disjoint_spec s t : seg_disjoint s t = true ->
  forall w j, in_seg s w j -> ~ in_seg t w j.
Proof. unfold seg_disjoint, in_seg. intros. lia. Qed.

Lemma seg_disjoint_sym s t : seg_disjoint s t = seg_disjoint t s.
Proof. unfold seg_disjoint. rewrite Nat.eqb_sym. destruct (Nat.eqb _ _); cbn; lia. Qed.

Definition all_disjoint (a b : list seg) : bool :=
  forallb (fun s => forallb (seg_disjoint s) b) a.

Lemma put_length b s v : List.length (put b s v) = List.length b.
Proof. apply set_nth_length. Qed.

Lemma put_testbit b s v w j : (sg_w s < List.length b)%nat -> v < 2 ^ sg_n s ->
  N.testbit (nth w (put b s v) 0) j =
  if Nat.eqb w (sg_w s) && ((sg_lo s <=? j) && (j <? sg_lo s + sg_n s))
  then N.testbit v (j - sg_lo s) else N.testbit (nth w b 0) j.
Proof.
  intros Hl Hv. unfold put. rewrite nth_set_nth by auto.
  destruct (Nat.eqb_spec w (sg_w s)) as [->|]; cbn [andb]; auto.
  now rewrite testbit_replace.
Qed.

Lemma put_only_changes b s v : (sg_w s < List.length b)%nat -> v < 2 ^ sg_n s ->
  only_changes [s] b (put b s v).
Proof.
  intros Hl Hv. split; [apply put_length|]. intros w j H.
  rewrite put_testbit by auto.
  destruct (Nat.eqb w (sg_w s) && _) eqn:E; auto.
  exfalso. apply (H s); [now left|]. unfold in_seg. lia.
Qed.

Lemma put_bits_same b s v : (sg_w s < List.length b)%nat -> v < 2 ^ sg_n s ->
  bits (put b s v) s = v.
Proof.
  intros Hl Hv. unfold bits, put. rewrite nth_set_nth by auto. rewrite Nat.eqb_refl.
  now apply field_replace_same.
Qed.

Lemma bits_agree b b' s :
  (forall w j, in_seg s w j -> N.testbit (nth w b' 0) j = N.testbit (nth w b 0) j) ->
  bits b' s = bits b s.
Proof. intros H. unfold bits. apply field_eq. intros j Hj. apply H. unfold in_seg. auto. Qed.

Lemma bits_lt b s : bits b s < 2 ^ sg_n s.
Proof. unfold bits. apply N.mod_lt. apply N.pow_nonzero. discriminate. Qed.

Lemma only_changes_bits l b b' s :
  only_changes l b b' -> forallb (seg_disjoint s) l = true -> bits b' s = bits b s.
Proof.
  intros [_ H] Hd. apply bits_agree. intros w j Hin. apply H. intros t Ht.
  rewrite forallb_forall in Hd. eapply seg_disjoint_spec; eauto.
Qed.

Lemma only_changes_refl l b : only_changes l b b.
Proof. split; auto. Qed.

Lemma only_changes_trans l b1 b2 b3 :
  only_changes l b1 b2 -> only_changes l b2 b3 -> only_changes l b1 b3.
Proof.
  intros [H1 H2] [H3 H4]. split; [congruence|]. intros. rewrite H4, H2; auto.
Qed.

Lemma only_changes_weaken l l' b b' :
  incl l l' -> only_changes l b b' -> only_changes l' b b'.
Proof. intros Hi [H1 H2]. split; auto. Qed.

Fixpoint puts (b : list N) (ps : list (seg * N)) : list N :=
  match ps with [] => b | p :: t => puts (put b (fst p) (snd p)) t end.

Lemma puts_length ps b : List.length (puts b ps) = List.length b.
Proof. revert b; induction ps; cbn; intros; auto. rewrite IHps. apply put_length. Qed.

Definition puts_ok (len : nat) (ps : list (seg * N)) : Prop :=
  Forall (fun p => (sg_w (fst p) < len)%nat /\ snd p < 2 ^ sg_n (fst p)) ps.

Lemma puts_only_changes ps b : puts_ok (List.length b) ps ->
  only_changes (map fst ps) b (puts b ps).
Proof.
  revert b; induction ps as [|p ps IH]; cbn; intros b H; [apply only_changes_refl|].
  inversion H as [|? ? [H1 H2] H3]; subst.
  eapply only_changes_trans.
  - eapply only_changes_weaken; [|apply put_only_changes; eauto]. intros x [<-|[]]. now left.
  - eapply only_changes_weaken; [|apply IH]; [intros x Hx; now right|].
    now rewrite put_length.
Qed.

Fixpoint pairwise_disjoint (l : list seg) : bool :=
  match l with [] => true | s :: t => forallb (seg_disjoint s) t && pairwise_disjoint t end.

Lemma puts_bits ps b s v : puts_ok (List.length b) ps ->
  pairwise_disjoint (map fst ps) = true -> In (s, v) ps -> bits (puts b ps) s = v.
Proof.
  revert b; induction ps as [|p ps IH]; cbn; intros b H Hd Hin; [tauto|].
  inversion H as [|? ? [H1 H2] H3]; subst. apply andb_prop in Hd as [Hd1 Hd2].
  destruct Hin as [->|Hin].
  - rewrite (only_changes_bits (map fst ps) (put b (fst (s, v)) (snd (s, v)))); auto.
    + cbn in *. now apply put_bits_same.
    + apply puts_only_changes. now rewrite put_length.
  - apply IH; auto. now rewrite put_length.
Qed.

(** *** Machine words *)

Definition seg_fits (k : N) (s : seg) : bool := sg_lo s + sg_n s <=? k.

Lemma put_wf u b s v : wf_buf u b -> (sg_w s < List.length b)%nat -> v < 2 ^ sg_n s ->
  seg_fits (unit_bits u) s = true -> wf_buf u (put b s v).
Proof.
  unfold wf_buf, seg_fits. intros Hb Hl Hv Hs. apply Forall_forall. intros x Hx.
  apply (In_nth _ _ 0) in Hx as (w & Hw & <-).
  rewrite put_length in Hw. unfold put. rewrite nth_set_nth by auto.
  rewrite Forall_forall in Hb.
  destruct (Nat.eqb w (sg_w s)).
  - apply replace_lt; auto; try lia. apply Hb. now apply nth_In.
  - apply Hb. now apply nth_In.
Qed.

Lemma puts_wf u ps b : wf_buf u b -> puts_ok (List.length b) ps ->
  forallb (fun p => seg_fits (unit_bits u) (fst p)) ps = true -> wf_buf u (puts b ps).
Proof.
  revert b; induction ps as [|p ps IH]; cbn; intros b Hb H Hf; auto.
  inversion H as [|? ? [H1 H2] H3]; subst. apply andb_prop in Hf as [Hf1 Hf2].
  apply IH; auto.
  - now apply put_wf.
  - now rewrite put_length.
Qed.

Lemma wf_nth u b w : wf_buf u b -> nth w b 0 < 2 ^ unit_bits u.
Proof.
  intros H. destruct (Nat.lt_ge_cases w (List.length b)).
  - unfold wf_buf in H. rewrite Forall_forall in H. apply H. now apply nth_In.
  - rewrite nth_overflow by auto. apply N.neq_0_lt_0. apply N.pow_nonzero. discriminate.
Qed.

Lemma bits_full b w n : nth w b 0 < 2 ^ n -> bits b (Seg w 0 n) = nth w b 0.
Proof.
  intros H. unfold bits. cbn. rewrite N.div_1_r. now apply N.mod_small.
Qed.
