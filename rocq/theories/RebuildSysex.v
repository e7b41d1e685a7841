(** Lemmas: what is in the unused end of the last packet of a system exclusive
    message. *)
From Coq Require Import NArith List Bool Arith Lia ZifyN ZifyNat ZifyBool.
From Verif Require Import Base BitOps Message Sysex Splice SpecSysex SpecEdits SpecSysexWire SysexClient
  BitLemmas ListLemmas ByteView SysexLayout SysexRead SysexEdit SpliceLemmas SysexLaws
  SysexBridge SysexHold SysexMore SysexInit SysexHistory.
Import ListNotations.
Local Open Scope nat_scope.

(** Behind [n] payload bytes all is zero. *)
Definition blank (f : fmt) (n : nat) (b : list N) : Prop := forall i, n <= i -> oct b (pos f i) = 0%N.

Lemma resize_grow_at f g s cl n b m b' r : okf f -> (g < 16)%N -> ump_inv f g s cl Growable 0 n b ->
  try_resize f Growable b m = Val (b', r) ->
  List.length b' = f_words f * np f m /\
  forall j, oct b' j = reheaded f m g (vec_resize b (buffer_size f m)) j.
Proof.
  intros H Hg (FR & _) E. pose proof (okf_facts f H) as F. pose proof (np_pos f m H) as Np.
  set (b1 := vec_resize b (buffer_size f m)) in *.
  assert (L1 : List.length b1 = f_words f * np f m)
    by (unfold b1; rewrite vec_resize_length; now apply buffer_size_np).
  destruct (resize_at f Growable b m b1 g H Hg eq_refl ltac:(lia)) as (b2 & E2 & L2 & O2).
  { unfold b1. rewrite oct_vec_resize, buffer_size_np by auto.
    replace (0 <? 4 * (f_words f * np f m)) with true by nia. now apply (framed_group f g n b). }
  rewrite E in E2. injection E2 as -> ->. split; [congruence|exact O2].
Qed.

Lemma resize_blank f g s cl n b m b' r : okf f -> (g < 16)%N -> ump_inv f g s cl Growable 0 n b ->
  blank f n b -> n <= m -> try_resize f Growable b m = Val (b', r) -> blank f m b'.
Proof.
  intros H Hg HI B L E i Hi. destruct (resize_grow_at _ _ _ _ _ _ _ _ _ H Hg HI E) as [_ O].
  rewrite O. destruct (reheaded_body f m g (vec_resize b (buffer_size f m)) (pos f i) H (pos_mod_ge f i H)) as [->| ->];
    [|reflexivity].
  rewrite oct_vec_resize. destruct (_ <? _); [apply B; lia|reflexivity].
Qed.

(** More than one packet: the end of the last one is cleared. *)
Lemma resize_clears f g s cl n b m b' r : okf f -> (g < 16)%N -> ump_inv f g s cl Growable 0 n b ->
  f_cap f < m -> try_resize f Growable b m = Val (b', r) -> blank f m b'.
Proof.
  intros H Hg HI L E i Hi. pose proof (okf_facts f H) as F.
  destruct (resize_grow_at _ _ _ _ _ _ _ _ _ H Hg HI E) as [Len O].
  destruct (np_bounds f m H) as [A B]. specialize (B ltac:(lia)).
  assert (Np : 2 <= np f m) by nia.
  destruct (Nat.lt_ge_cases (pos f i) (pb f * np f m)) as [In|Out].
  2: { apply oct_beyond. rewrite Len. unfold pb in Out. lia. }
  rewrite O. unfold reheaded. replace (pos f i <? pb f * np f m) with true by lia.
  destruct (pos_div f i H) as [D M]. rewrite D. unfold rehead1.
  assert (Hpb : 0 < pb f) by (unfold pb; lia).
  assert (E1 : i / f_cap f < np f m). { rewrite <- D. apply Nat.div_lt_upper_bound; lia. }
  pose proof (Nat.div_mod i (f_cap f) ltac:(lia)) as DM.
  pose proof (Nat.mod_upper_bound i (f_cap f) ltac:(lia)) as MU.
  assert (E2 : i / f_cap f = np f m - 1) by nia.
  unfold pos in *. set (p := i / f_cap f) in *.
  replace (pb f * p + f_head f + i mod f_cap f =? pb f * p) with false by lia.
  replace (pb f * p + f_head f + i mod f_cap f =? pb f * p + 1) with false by lia.
  replace (S p =? np f m) with true by lia. replace (p =? 0) with false by lia. cbn [negb andb].
  assert (C : count_of f m p = m - f_cap f * p).
  { unfold count_of. destruct (Nat.ltb_spec (S p) (np f m)); lia. }
  rewrite C. replace (pb f * p + f_head f + (m - f_cap f * p) <=? pb f * p + f_head f + i mod f_cap f) with true by lia.
  replace (pb f * p + f_head f + i mod f_cap f <? pb f * S p) with true by (unfold pb in *; lia).
  reflexivity.
Qed.

Lemma write_blank f g s cl k len n b v i b' : okf f -> ump_inv f g s cl k len n b -> i < n -> unit_ok f v ->
  write_datum f b v i = Val b' -> blank f n b -> blank f n b'.
Proof.
  intros H (FR & _) Hi Hv E B j Hj. pose proof (fr_len _ _ _ _ FR) as HL.
  destruct (write_datum_ok f n b v i H HL Hi Hv) as (b2 & x & E2 & _ & _ & _ & O).
  rewrite E in E2. injection E2 as ->. rewrite O.
  destruct (Nat.eqb_spec (pos f j) (pos f i)) as [X|X]; [apply pos_inj in X; auto; lia|now apply B].
Qed.

Lemma move_blank f g s cl k len n b tail to b' : okf f -> ump_inv f g s cl k len n b ->
  (tail < to /\ to <= n) \/ (to < tail /\ tail <= n) -> move_tail f b tail to = Val b' ->
  blank f n b -> blank f n b'.
Proof.
  intros H HI D E B j Hj. pose proof HI as (FR & T & _). pose proof (fr_len _ _ _ _ FR) as HL.
  assert (X : forall i, i < n -> pos f j <> pos f i) by (intros i Hi Y; apply pos_inj in Y; auto; lia).
  revert E. unfold move_tail. rewrite tidy_compact by auto. cbn [negb].
  rewrite (framed_payload_size f g n b H FR). cbn [bind].
  destruct (Nat.ltb_spec tail to) as [Lt|Ge].
  - unfold sub_chk. replace (n <? to - tail) with false by lia. cbn [bind].
    destruct (move_right_fold f n b (to - tail) tail (n - (to - tail)) H HL) as (b2 & E & _ & Q & _);
      [lia|lia|]. rewrite E. intros [= <-]. rewrite Q by exact X. now apply B.
  - destruct (Nat.ltb_spec to tail) as [Lt|Ge']; [|lia].
    destruct (move_left_fold f n b (tail - to) tail H HL) as (b2 & E & _ & Q & _); [lia|lia|lia|].
    rewrite E. intros [= <-]. rewrite Q by exact X. now apply B.
Qed.

(** Any edit: the end is clear when more than one packet is left. *)
Lemma clearing_laws f g s cl : okf f -> (g < 16)%N ->
  laws (ump_ops f Growable) (ump_inv f g s cl Growable 0)
    (fun n b => ump_done f g s cl Growable 0 n b /\ (f_cap f < n -> blank f n b))
    (rd f) (unit_ok f) None true.
Proof.
  intros H Hg. pose proof (ump_laws_growable f g s cl H Hg) as L.
  constructor; try (apply L; fail).
  intros n b m HI Hm. destruct (l_final _ _ _ _ _ _ _ L n b m HI Hm) as (b' & E & W & X & R).
  exists b'. split; [exact E|]. split; [split; [exact W|]|auto]. intros Lm.
  exact (resize_clears f g s cl n b m b' None H Hg HI Lm E).
Qed.

(** Edits that do not shrink the payload keep the end clear. *)
Lemma growing_laws f g s cl : okf f -> (g < 16)%N ->
  laws (ump_ops f Growable) (fun n b => ump_inv f g s cl Growable 0 n b /\ blank f n b)
    (ump_done f g s cl Growable 0) (rd f) (unit_ok f) None false.
Proof.
  intros H Hg. pose proof (ump_laws_growable f g s cl H Hg) as L. constructor.
  - intros n b [A _]. eapply l_compact; eauto.
  - intros n b [A _]. eapply l_size; eauto.
  - intros n b [A _]. exact I.
  - intros n b m [A B] [X|X] D; [discriminate|].
    destruct (l_grow _ _ _ _ _ _ _ L n b m A ltac:(now left) D) as (b' & E & I' & R).
    exists b'. split; [exact E|]. split; [split; [exact I'|]|exact R].
    exact (resize_blank f g s cl n b m b' None H Hg A B X E).
  - discriminate.
  - intros n b m [A B] D. destruct (l_final _ _ _ _ _ _ _ L n b m A D) as (b' & E & W & X & R).
    exists b'. split; [exact E|]. split; [exact W|]. split; [|exact R]. intros Le. split; [now apply X|].
    exact (resize_blank f g s cl n b m b' None H Hg A B Le E).
  - intros n b v i [A B] C D. destruct (l_write _ _ _ _ _ _ _ L n b v i A C D) as (b' & E & I' & X).
    exists b'. split; [exact E|]. split; [split; [exact I'|]|exact X].
    exact (write_blank f g s cl Growable 0 n b v i b' H A C D E B).
  - intros n b t u [A B] C D. destruct (l_right _ _ _ _ _ _ _ L n b t u A C D) as (b' & E & I' & X).
    exists b'. split; [exact E|]. split; [split; [exact I'|]|exact X].
    exact (move_blank f g s cl Growable 0 n b t u b' H A ltac:(auto) E B).
  - intros n b t u [A B] C D. destruct (l_left _ _ _ _ _ _ _ L n b t u A C D) as (b' & E & I' & X).
    exists b'. split; [exact E|]. split; [split; [exact I'|]|exact X].
    exact (move_blank f g s cl Growable 0 n b t u b' H A ltac:(auto) E B).
  - intros n b t [A B]. eapply l_same; eauto.
Qed.

(** [set_byte] and [set_group] change no byte behind the payload. *)
Lemma set_byte_blank fm g s l b v i b' : message fm g s l b -> is_unit fm v -> i < List.length l ->
  set_byte (fmt_of fm) b v i = Val b' -> blank (fmt_of fm) (List.length l) b ->
  blank (fmt_of fm) (List.length l) b'.
Proof.
  intros (k & C & Fu & Len) Hv Hi E B j Hj. set (f := fmt_of fm) in *. pose proof (okf_of fm) as H. fold f in H.
  pose proof (okf_facts f H) as F.
  pose proof (carries_sized _ _ _ _ _ _ C) as Sz. fold f in Sz.
  pose proof (ca_payload _ _ _ _ _ _ C) as P. rewrite payload_span in P. fold f in P.
  pose proof (ca_fits _ _ _ _ _ _ C). pose proof (words_pos fm).
  destruct (set_byte_aux_ok f b v k H Sz (proj2 (unit_ok_of fm v) Hv)
     (List.length b) 0 i) as (p & q & b2 & _ & Hp & Hq & Ei & E2 & UE).
  - lia.
  - nia.
  - now rewrite Nat.sub_0_r, P.
  - unfold set_byte in E. rewrite E in E2. injection E2 as <-. destruct UE as (_ & y & _ & _ & O). rewrite O.
    destruct (carries_framed _ _ _ _ _ _ C Fu) as (FR & Kn & _). fold f in FR, Kn. rewrite Kn in Hp.
    pose proof (framed_cnt f g (List.length l) b p H FR Hp) as Cn.
    pose proof (count_of_le f (List.length l) p H Hp) as Cl.
    destruct (Nat.eqb_spec (pos f j) (pb f * p + f_head f + q)) as [X|X]; [|now apply B].
    exfalso. destruct (pos_div f j H) as [D M]. rewrite X in D, M.
    destruct (div_mod_unique_small p (f_head f + q) (pb f)) as [D' M']; [lia|].
    rewrite Nat.add_assoc in D', M'. rewrite D in D'. rewrite M in M'.
    pose proof (Nat.div_mod j (f_cap f) ltac:(lia)) as DM.
    destruct (np_bounds f (List.length l) H) as [A1 A2].
    specialize (A2 ltac:(lia)). rewrite Cn in Hq. unfold count_of in *.
    destruct (Nat.ltb_spec (S p) (np f (List.length l))).
    + assert (f_cap f * S p <= f_cap f * (np f (List.length l) - 1)) by (apply Nat.mul_le_mono_l; lia). lia.
    + lia.
Qed.

Lemma set_group_blank fm b g b' n : (g < 16)%N -> set_group (fmt_of fm) b g = Val b' ->
  blank (fmt_of fm) n b -> blank (fmt_of fm) n b'.
Proof.
  intros Hg E B i Hi. destruct (set_group_packets fm b g Hg) as (b2 & E2 & _ & _ & _ & O).
  rewrite E in E2. injection E2 as <-. rewrite <- byte_oct, O, byte_oct; [now apply B|].
  rewrite <- pb_of. pose proof (pos_mod_ge (fmt_of fm) i (okf_of fm)). lia.
Qed.

Lemma with_unit_length l i (v : N) : i < List.length l -> List.length (with_unit l i v) = List.length l.
Proof. intros. unfold with_unit. rewrite app_length, firstn_length. cbn [List.length]. rewrite skipn_length. lia. Qed.

(** One edit, more than one packet afterwards. *)
Lemma step_clears fm e b g s l : message fm g s l b -> kept s -> legal fm e l ->
  (packet_room fm < List.length l -> blank (fmt_of fm) (List.length l) b) ->
  forall b', apply_edit fm e b = Val b' ->
  packet_room fm < List.length (new_payload e l) -> blank (fmt_of fm) (List.length (new_payload e l)) b'.
Proof.
  intros M K Lg Q b' E Lo. pose proof (message_inv fm g s l b false M K ltac:(discriminate)) as [H Hg].
  pose proof (clearing_laws (fmt_of fm) g s false (okf_of fm) Hg) as L. rewrite <- cap_of in Lo, Q.
  assert (U : forall l' b2, holds (fun n b => ump_done (fmt_of fm) g s false Growable 0 n b
    /\ (f_cap (fmt_of fm) < n -> blank (fmt_of fm) n b)) (rd (fmt_of fm)) l' b2 ->
    Val b2 = Val b' -> f_cap (fmt_of fm) < List.length l' -> blank (fmt_of fm) (List.length l') b').
  { intros l' b2 [[_ X] _] [= ->]. exact X. }
  destruct e as [src|src lo hi|src i|src|v|v i|g']; cbn [apply_edit new_payload legal] in *;
    rewrite fmt_for_of in E.
  - destruct (set_grow _ _ _ _ _ L b l src H (units_ok _ _ Lg)) as (b2 & E' & H').
    rewrite E' in E. eapply U; eauto.
  - destruct Lg as (Hv & A & B).
    destruct (splice_grow _ _ _ _ _ L b l src lo hi _ _ H (units_ok _ _ Hv) eq_refl eq_refl A B) as (b2 & E' & H').
    rewrite E' in E. eapply U; eauto.
  - destruct Lg as (Hv & A).
    destruct (insert_grow _ _ _ _ _ L b l src i H (units_ok _ _ Hv) A) as (b2 & E' & H').
    rewrite E' in E. eapply U; eauto.
  - destruct (append_grow _ _ _ _ _ L b l src H (units_ok _ _ Lg)) as (b2 & E' & H').
    rewrite E' in E. eapply U; eauto.
  - destruct (append_byte_grow _ _ _ _ _ L b l v H (proj2 (unit_ok_of _ _) Lg)) as (b2 & E' & H').
    rewrite E' in E. eapply U; eauto.
  - destruct Lg as [Hv Hi]. rewrite with_unit_length in * by exact Hi.
    exact (set_byte_blank fm g s l b v i b' M Hv Hi E (Q Lo)).
  - exact (set_group_blank fm b g' b' _ Lg E (Q Lo)).
Qed.

(** One edit that does not shrink the payload. *)
Lemma step_blank fm e b g s l : message fm g s l b -> kept s -> legal fm e l -> not_shrinking e l ->
  blank (fmt_of fm) (List.length l) b ->
  forall b', apply_edit fm e b = Val b' -> blank (fmt_of fm) (List.length (new_payload e l)) b'.
Proof.
  intros M K Lg Ns Q b' E. pose proof (message_inv fm g s l b false M K ltac:(discriminate)) as [H Hg].
  pose proof (growing_laws (fmt_of fm) g s false (okf_of fm) Hg) as L.
  set (I' := fun n b => ump_inv (fmt_of fm) g s false Growable 0 n b /\ blank (fmt_of fm) n b) in L.
  assert (SP : forall l0 b0 src lo hi a e0, holds I' (rd (fmt_of fm)) l0 b0 -> Forall (is_unit fm) (s_items src) ->
    begin_of lo = a -> end_of hi (List.length l0) = e0 -> a <= e0 -> e0 <= List.length l0 ->
    e0 - a <= List.length (s_items src) -> announced src = List.length (s_items src) ->
    splice (ump_ops (fmt_of fm) Growable) b0 src lo hi = Val b' ->
    blank (fmt_of fm) (List.length (replaced l0 a e0 (s_items src))) b').
  { intros l0 b0 src lo hi a e0 H0 Hv Ha He A B Gr An E0.
    destruct (splice_list _ _ _ _ _ _ _ L b0 l0 src lo hi a e0 H0 (units_ok _ _ Hv) Ha He A B)
      as [(_ & b2 & E2 & _ & X)|(c & b2 & X & _)]; [right; left; unfold announced in An; unfold estimate; lia| |discriminate].
    unfold splice in E0. rewrite E2 in E0. cbn [bind] in E0. injection E0 as <-.
    destruct X as [[_ X] _]; [symmetry; exact An|exact Gr|exact X]. }
  assert (HI : holds I' (rd (fmt_of fm)) l b) by (destruct H as [H1 H2]; split; [split; assumption|exact H2]).
  assert (AP : forall src, Forall (is_unit fm) (s_items src) -> announced src = List.length (s_items src) ->
    append_payload (ump_ops (fmt_of fm) Growable) b src = Val b' ->
    blank (fmt_of fm) (List.length (l ++ s_items src)) b').
  { intros src Hv An E0. unfold append_payload in E0. rewrite (l_size _ _ _ _ _ _ _ L _ _ (proj1 HI)) in E0. cbn [bind] in E0.
    pose proof (SP l b src (Included (List.length l)) (Excluded (List.length l)) (List.length l) (List.length l) HI Hv
      eq_refl eq_refl ltac:(lia) ltac:(lia) ltac:(lia) An E0) as X.
    unfold replaced in X. now rewrite firstn_all, skipn_all, app_nil_r in X. }
  destruct e as [src|src lo hi|src i|src|v|v i|g']; cbn [apply_edit new_payload legal not_shrinking] in *;
    rewrite fmt_for_of in E.
  - destruct Ns as [-> An]. unfold set_payload in E.
    destruct (l_grow _ _ _ _ _ _ _ L 0 b 0 (proj1 HI)) as (b1 & E1 & I1 & _); [right; lia|exact Logic.I|].
    rewrite E1 in E. cbn [bind fst] in E.
    assert (H1 : holds I' (rd (fmt_of fm)) [] b1) by (split; [exact I1|cbn; lia]).
    pose proof (SP [] b1 src (Included 0) (Excluded 0) 0 0 H1 Lg eq_refl eq_refl ltac:(lia) ltac:(cbn; lia) ltac:(lia) An E) as X.
    unfold replaced in X. cbn [firstn skipn app] in X. now rewrite app_nil_r in X.
  - destruct Lg as (Hv & A & B). destruct Ns as [Gr An].
    exact (SP l b src lo hi _ _ HI Hv eq_refl eq_refl A B Gr An E).
  - destruct Lg as (Hv & A).
    exact (SP l b src (Included i) (Excluded i) i i HI Hv eq_refl eq_refl ltac:(lia) A ltac:(lia) Ns E).
  - exact (AP src Lg Ns E).
  - exact (AP {| s_items := [v]; s_hint := (1, Some 1) |} (Forall_cons _ Lg (Forall_nil _)) eq_refl E).
  - destruct Lg as [Hv Hi]. rewrite with_unit_length by exact Hi.
    exact (set_byte_blank fm g s l b v i b' M Hv Hi E Q).
  - exact (set_group_blank fm b g' b' _ Lg E Q).
Qed.

(** Histories. *)
Lemma history_clears fm s : kept s -> forall es b g l b', message fm g s l b -> all_legal fm es l ->
  (packet_room fm < List.length l -> blank (fmt_of fm) (List.length l) b) ->
  run_edits (apply_edit fm) es b = Val b' ->
  packet_room fm < List.length (final_payload es l) -> blank (fmt_of fm) (List.length (final_payload es l)) b'.
Proof.
  intros K. induction es as [|e es IH]; intros b g l b' M Lg Q E; cbn [run_edits final_payload] in *.
  - injection E as ->. exact Q.
  - destruct Lg as [L1 L2]. destruct (edit_step fm e b g s l M K L1) as (b1 & E1 & M1 & _).
    rewrite E1 in E. cbn [bind] in E. apply (IH b1 _ _ b' M1 L2); [|exact E].
    exact (step_clears fm e b g s l M K L1 Q b1 E1).
Qed.

Lemma growing_legal fm es : forall l, growing fm es l -> all_legal fm es l.
Proof. induction es as [|e es IH]; intros l H; [exact I|]. destruct H as (A & _ & B). split; auto. Qed.

Lemma history_blank fm s : kept s -> forall es b g l b', message fm g s l b -> growing fm es l ->
  blank (fmt_of fm) (List.length l) b -> run_edits (apply_edit fm) es b = Val b' ->
  blank (fmt_of fm) (List.length (final_payload es l)) b'.
Proof.
  intros K. induction es as [|e es IH]; intros b g l b' M Gr Q E; cbn [run_edits final_payload] in *.
  - injection E as ->. exact Q.
  - destruct Gr as (L1 & N1 & L2). destruct (edit_step fm e b g s l M K L1) as (b1 & E1 & M1 & _).
    rewrite E1 in E. cbn [bind] in E. apply (IH b1 _ _ b' M1 L2); [|exact E].
    exact (step_blank fm e b g s l M K L1 N1 Q b1 E1).
Qed.

(** ** The bytes sent *)

Lemma sent_bytes_length b : List.length (sent_bytes b) = 4 * List.length b.
Proof. unfold sent_bytes. induction b as [|x b IH]; [reflexivity|]. cbn [flat_map app List.length]. rewrite IH. lia. Qed.

Lemma sent_bytes_nth b : forall j, nth j (sent_bytes b) 0%N = byte b j.
Proof.
  induction b as [|x b IH]; intros j.
  - unfold byte. cbn [sent_bytes flat_map]. destruct j; destruct (_ / 4); reflexivity.
  - cbn [sent_bytes flat_map]. fold (sent_bytes b).
    destruct j as [|[|[|[|j]]]].
    1-4: unfold byte; cbn; rewrite ?N.div_1_r; reflexivity.
    cbn [app nth]. rewrite IH. unfold byte.
    replace (S (S (S (S j)))) with (j + 1 * 4) by lia. rewrite Nat.div_add, Nat.mod_add by lia.
    rewrite Nat.add_1_r. reflexivity.
Qed.

Lemma nth_chunks (g : nat -> list N) c : 0 < c -> forall k a, (forall p, a <= p < a + k -> List.length (g p) = c) ->
  forall j, j < c * k -> nth j (flat_map g (seq a k)) 0%N = nth (j mod c) (g (a + j / c)) 0%N.
Proof.
  intros Hc. induction k as [|k IH]; intros a L j Hj; [lia|]. cbn [seq flat_map].
  destruct (Nat.lt_ge_cases j c) as [Lt|Ge].
  - rewrite app_nth1 by (rewrite L; lia). now rewrite Nat.div_small, Nat.mod_small, Nat.add_0_r by lia.
  - rewrite app_nth2 by (rewrite L; lia). rewrite L by lia. rewrite IH; [|intros p Hp; apply L; lia|lia].
    replace j with (j - c + 1 * c) at 3 4 by lia. rewrite Nat.div_add, Nat.mod_add by lia.
    replace (S a + (j - c) / c) with (a + ((j - c) / c + 1)) by lia. reflexivity.
Qed.

Lemma chunks_length (g : nat -> list N) c : forall k a, (forall p, a <= p < a + k -> List.length (g p) = c) ->
  List.length (flat_map g (seq a k)) = c * k.
Proof.
  induction k as [|k IH]; intros a L; [cbn; lia|]. cbn [seq flat_map]. rewrite app_length, L, IH by (intros; try apply L; lia). lia.
Qed.

Lemma wire_packet_length fm g l p : List.length (wire_packet fm g l p) = packet_bytes fm.
Proof.
  unfold wire_packet. pose proof (firstn_le_length (packet_room fm) (skipn (packet_room fm * p) l)).
  set (here := firstn _ _) in *. rewrite !app_length, repeat_length. destruct fm; cbn [packet_room packet_bytes List.length] in *; lia.
Qed.

Lemma np_needed fm n : np (fmt_of fm) n = packets_needed fm n.
Proof. now destruct fm. Qed.

Lemma blank_wire fm g l b : (g < 16)%N -> message fm g (Some 0%N) l b -> clean_bytes fm b ->
  blank (fmt_of fm) (List.length l) b -> sent_bytes b = sysex_wire fm g l.
Proof.
  intros Hg (k & C & Fu & Len) Cl Bl. set (f := fmt_of fm) in *. pose proof (okf_of fm) as H. fold f in H.
  pose proof (okf_facts f H) as F.
  destruct (carries_framed _ _ _ _ _ _ C Fu) as (FR & Kn & R). fold f in FR, Kn, R.
  assert (PB : packet_bytes fm = 4 * packet_words fm) by now destruct fm.
  assert (Kn' : packets_needed fm (List.length l) = k) by (rewrite <- np_needed; symmetry; exact Kn).
  assert (Lw : List.length (sysex_wire fm g l) = packet_bytes fm * k).
  { unfold sysex_wire. rewrite Kn'. apply chunks_length. intros. apply wire_packet_length. }
  apply nth_ext with (d := 0%N) (d' := 0%N); [rewrite sent_bytes_length, Lw, Len; lia|].
  intros j Hj. rewrite sent_bytes_length, Len in Hj. rewrite sent_bytes_nth, byte_oct.
  unfold sysex_wire. rewrite Kn'. pose proof (words_pos fm) as W0.
  rewrite (nth_chunks _ (packet_bytes fm)); [|lia|intros; apply wire_packet_length|lia]. cbn [Nat.add].
  pose proof (Nat.div_mod j (packet_bytes fm) ltac:(lia)) as DM.
  pose proof (Nat.mod_upper_bound j (packet_bytes fm) ltac:(lia)) as MU.
  assert (Hp : j / packet_bytes fm < k) by (apply Nat.div_lt_upper_bound; lia).
  set (p := j / packet_bytes fm) in *. set (r := j mod packet_bytes fm) in *.
  assert (PBf : pb f = packet_bytes fm) by apply pb_of.
  pose proof (np_bounds f (List.length l) H) as [A1 A2]. rewrite <- Kn in A1, A2.
  assert (Hh : List.length (firstn (packet_room fm) (skipn (packet_room fm * p) l)) = count_of f (List.length l) p).
  { rewrite firstn_length, skipn_length. unfold count_of. rewrite <- Kn.
    assert (f_cap f = packet_room fm) as <- by apply cap_of. destruct (Nat.ltb_spec (S p) k).
    - assert (0 < List.length l) by (destruct l; [cbn in Kn'; destruct fm; cbn in Kn'; lia|cbn; lia]).
      specialize (A2 ltac:(lia)). assert (Z : S p <= k - 1) by lia.
      pose proof (Nat.mul_le_mono_l _ _ (f_cap f) Z) as Y. clear - A1 A2 Y. nia.
    - assert (p = k - 1) as -> by lia. clear - A1 A2. nia. }
  assert (Hr0 : r = 0 -> oct b j = (type_code fm * 16 + g)%N).
  { intros Z. replace j with (pb f * p) by lia. rewrite (fr_h0 _ _ _ _ FR) by lia. unfold f. now rewrite type_fmt. }
  assert (Hr1 : r = 1 -> oct b j = (status_code k p * 16 + (size_bias fm + N.of_nat (count_of f (List.length l) p)))%N).
  { intros Z. replace j with (pb f * p + 1) by lia. rewrite (fr_h1 _ _ _ _ FR) by lia. unfold f at 2. rewrite ext_of.
    f_equal. unfold status_of, status_code. rewrite <- Kn. destruct (Nat.eqb_spec k 1); destruct (Nat.eqb_spec p 0); try lia;
      destruct (Nat.ltb_spec (S p) k), (Nat.eqb_spec (S p) k); lia. }
  assert (Hr2 : fm = EightBit -> r = 2 -> oct b j = 0%N).
  { intros E Z. pose proof (ca_stream _ _ _ _ _ _ C p Hp E) as X. cbn [in_stream] in X. unfold stream_of in X.
    rewrite byte_oct in X. now replace j with (packet_bytes fm * p + 2) by lia. }
  assert (Hq : forall q, r = header_bytes fm + q -> q < packet_room fm ->
    oct b j = nth q (firstn (packet_room fm) (skipn (packet_room fm * p) l)
      ++ repeat 0%N (packet_room fm - List.length (firstn (packet_room fm) (skipn (packet_room fm * p) l)))) 0%N).
  { intros q Er Lq. assert (Ec : f_cap f = packet_room fm) by apply cap_of.
    assert (Ej : j = pos f (packet_room fm * p + q)).
    { unfold pos. rewrite Ec. destruct (div_mod_unique_small p q (packet_room fm) Lq) as [-> ->].
      rewrite PBf. unfold f. rewrite head_of. lia. }
    rewrite Ej. destruct (Nat.lt_ge_cases (packet_room fm * p + q) (List.length l)) as [Li|Li].
    - rewrite app_nth1 by (rewrite firstn_length, skipn_length; lia).
      rewrite nth_firstn_lt by exact Lq. rewrite nth_skipn. rewrite <- R by exact Li. unfold rd, keep.
      destruct (f_seven f) eqn:E7; [|reflexivity]. rewrite N.mod_small; [reflexivity|].
      apply (proj1 (clean_of fm b) Cl E7). apply (pos_mod_ge f _ H).
    - rewrite app_nth2 by (rewrite firstn_length, skipn_length; lia). rewrite nth_repeat0.
      now apply Bl. }
  unfold wire_packet. rewrite Kn'. revert Hq Hr0 Hr1 Hr2. rewrite Hh.
  set (here := firstn (packet_room fm) (skipn (packet_room fm * p) l)) in *.
  intros Hq Hr0 Hr1 Hr2. destruct r as [|[|r]]; [cbn [app nth]; auto|cbn [app nth]; auto|].
  destruct fm; cbn [app nth header_bytes packet_room packet_bytes] in *.
  - rewrite (Hq r); [reflexivity|lia|lia].
  - destruct r as [|r]; [auto|]. rewrite (Hq r); [reflexivity|lia|lia].
Qed.
