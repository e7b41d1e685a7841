(** Lemmas: what is in the unused end of the last packet of a system exclusive
    message built in an array. *)
From Coq Require Import NArith List Bool Arith Lia ZifyN ZifyNat ZifyBool.
From Verif Require Import Base BitOps Message Sysex Splice SpecSysex SpecEdits SpecSysexWire SysexClient
  BitLemmas ListLemmas ByteView SysexLayout SysexRead SysexEdit SpliceLemmas SysexLaws
  SysexBridge SysexHold SysexMore SysexInit SysexHistory RebuildSysex.
Import ListNotations.
Local Open Scope nat_scope.

(** Behind [n] payload bytes the rest of the message's own packets is zero. *)
Definition blank_end (f : fmt) (n : nat) (b : list N) : Prop :=
  forall i, n <= i -> i < f_cap f * np f n -> oct b (pos f i) = 0%N.

Lemma pos_lt_packets f i k : okf f -> i < f_cap f * k -> pos f i < pb f * k.
Proof.
  intros H Hi. pose proof (okf_facts f H) as F. unfold pos.
  assert (i / f_cap f < k) by (apply Nat.div_lt_upper_bound; lia).
  pose proof (Nat.mod_upper_bound i (f_cap f) ltac:(lia)). unfold pb in *. nia.
Qed.

(** More than one packet: the end of the last one is cleared. *)
Lemma resize_clears_end f g s cl len n b m b' r : okf f -> (g < 16)%N -> ump_inv f g s cl Fixed len n b ->
  m <= capacity f len -> f_cap f < m -> try_resize f Fixed b m = Val (b', r) -> blank_end f m b'.
Proof.
  intros H Hg HI Hm L E i Hi Hi2. pose proof (okf_facts f H) as F. pose proof HI as (FR & _ & _ & _ & Len).
  pose proof (fr_len _ _ _ _ FR) as HL. pose proof (np_pos f n H) as Nn.
  apply fits_np in Hm; auto; [|nia].
  destruct (resize_at f Fixed b m b g H Hg) as (b2 & E2 & L2 & O).
  { cbn [request]. f_equal. unfold fixed_try_resize. rewrite buffer_size_np by auto. lia. }
  { lia. } { now apply (framed_group f g n b). }
  rewrite E in E2. injection E2 as <- ->.
  destruct (np_bounds f m H) as [A B]. specialize (B ltac:(lia)).
  assert (Np : 2 <= np f m) by nia.
  pose proof (pos_lt_packets f i (np f m) H Hi2) as In.
  rewrite O. unfold reheaded. replace (pos f i <? pb f * np f m) with true by lia.
  destruct (pos_div f i H) as [D M]. rewrite D. unfold rehead1.
  assert (Hpb : 0 < pb f) by (unfold pb; lia).
  assert (E1 : i / f_cap f < np f m). { apply Nat.div_lt_upper_bound; lia. }
  pose proof (Nat.div_mod i (f_cap f) ltac:(lia)) as DM.
  pose proof (Nat.mod_upper_bound i (f_cap f) ltac:(lia)) as MU.
  assert (E2 : i / f_cap f = np f m - 1) by nia.
  unfold pos in *. set (p := i / f_cap f) in *.
  replace (pb f * p + f_head f + i mod f_cap f =? pb f * p) with false by lia.
  replace (pb f * p + f_head f + i mod f_cap f =? pb f * p + 1) with false by lia.
  replace (S p =? np f m) with true by lia. replace (p =? 0) with false by lia. cbn [negb andb].
  assert (C : count_of f m p = m - f_cap f * p).
  { unfold count_of. destruct (Nat.ltb_spec (S p) (np f m)); lia. }
  rewrite C. replace (pb f * p + f_head f + (m - f_cap f * p) <=? pb f * p + f_head f + i mod f_cap f) with true by lia.
  replace (pb f * p + f_head f + i mod f_cap f <? pb f * S p) with true by (unfold pb in *; lia).
  reflexivity.
Qed.

Lemma clearing_laws_fixed f g s cl len : okf f -> (g < 16)%N ->
  laws (ump_ops f Fixed) (ump_inv f g s cl Fixed len)
    (fun n b => ump_done f g s cl Fixed len n b /\ (f_cap f < n -> blank_end f n b))
    (rd f) (unit_ok f) (Some (capacity f len)) true.
Proof.
  intros H Hg. pose proof (ump_laws_fixed f g s cl len H Hg) as L.
  constructor; try (apply L; fail).
  intros n b m HI Hm. destruct (l_final _ _ _ _ _ _ _ L n b m HI Hm) as (b' & E & W & X & R).
  exists b'. split; [exact E|]. split; [split; [exact W|]|auto]. intros Lm.
  exact (resize_clears_end f g s cl len n b m b' None H Hg HI Hm Lm E).
Qed.

Lemma set_byte_end fm g s l b v i b' : message_in fm g s l b -> is_unit fm v -> i < List.length l ->
  set_byte (fmt_of fm) b v i = Val b' -> blank_end (fmt_of fm) (List.length l) b ->
  blank_end (fmt_of fm) (List.length l) b'.
Proof.
  intros [(k & C & Fu) Sc] Hv Hi E B j Hj Hj2. set (f := fmt_of fm) in *. pose proof (okf_of fm) as H. fold f in H.
  pose proof (okf_facts f H) as F.
  pose proof (carries_sized _ _ _ _ _ _ C) as Sz. fold f in Sz.
  pose proof (ca_payload _ _ _ _ _ _ C) as P. rewrite payload_span in P. fold f in P.
  pose proof (ca_fits _ _ _ _ _ _ C). pose proof (words_pos fm).
  destruct (set_byte_aux_ok f b v k H Sz (proj2 (unit_ok_of fm v) Hv)
     (List.length b) 0 i) as (p & q & b2 & _ & Hp & Hq & Ei & E2 & UE).
  - lia.
  - nia.
  - now rewrite Nat.sub_0_r, P.
  - unfold set_byte in E. rewrite E in E2. injection E2 as <-. destruct UE as (_ & y & _ & _ & O). rewrite O.
    destruct (carries_framed _ _ _ _ _ _ C Fu) as (FR & Kn & _). fold f in FR, Kn. rewrite Kn in Hp.
    pose proof (framed_cnt f g (List.length l) b p H FR Hp) as Cn.
    pose proof (count_of_le f (List.length l) p H Hp) as Cl.
    destruct (Nat.eqb_spec (pos f j) (pb f * p + f_head f + q)) as [X|X]; [|now apply B].
    exfalso. destruct (pos_div f j H) as [D M]. rewrite X in D, M.
    destruct (div_mod_unique_small p (f_head f + q) (pb f)) as [D' M']; [lia|].
    rewrite Nat.add_assoc in D', M'. rewrite D in D'. rewrite M in M'.
    pose proof (Nat.div_mod j (f_cap f) ltac:(lia)) as DM.
    destruct (np_bounds f (List.length l) H) as [A1 A2].
    specialize (A2 ltac:(lia)). rewrite Cn in Hq. unfold count_of in *.
    destruct (Nat.ltb_spec (S p) (np f (List.length l))).
    + assert (f_cap f * S p <= f_cap f * (np f (List.length l) - 1)) by (apply Nat.mul_le_mono_l; lia). lia.
    + lia.
Qed.

Lemma set_group_end fm b g b' n : (g < 16)%N -> set_group (fmt_of fm) b g = Val b' ->
  blank_end (fmt_of fm) n b -> blank_end (fmt_of fm) n b'.
Proof.
  intros Hg E B i Hi Hi2. destruct (set_group_packets fm b g Hg) as (b2 & E2 & _ & _ & _ & O).
  rewrite E in E2. injection E2 as <-. rewrite <- byte_oct, O, byte_oct; [now apply B|].
  rewrite <- pb_of. pose proof (pos_mod_ge (fmt_of fm) i (okf_of fm)). lia.
Qed.

(** One edit, accepted or not. *)
Lemma fixed_step_clears fm e b g s l : message_in fm g s l b -> legal fm e l -> announced_enough e l ->
  (packet_room fm < List.length l -> blank_end (fmt_of fm) (List.length l) b) ->
  forall b' ok, try_edit fm e b = Val (b', ok) ->
  packet_room fm < List.length (fst (fixed_outcome (room_in fm (List.length b)) e l)) ->
  blank_end (fmt_of fm) (List.length (fst (fixed_outcome (room_in fm (List.length b)) e l))) b'.
Proof.
  intros M Lg An Q b' ok E Lo. pose proof (message_in_inv fm g s l b false M ltac:(discriminate)) as [H Hg].
  pose proof (clearing_laws_fixed (fmt_of fm) g s false (List.length b) (okf_of fm) Hg) as L.
  rewrite <- cap_of in Lo, Q.
  set (c := room_in fm (List.length b)) in *.
  assert (Hc : List.length l <= c).
  { unfold c. rewrite <- capacity_of. eapply framed_le_capacity; eauto. apply H. }
  set (I' := ump_inv (fmt_of fm) g s false Fixed (List.length b)) in *.
  assert (SP : forall b0 l0 src lo hi, holds I' (rd (fmt_of fm)) l0 b0 ->
    Forall (is_unit fm) (s_items src) ->
    range_begin lo <= range_end hi (List.length l0) -> range_end hi (List.length l0) <= List.length l0 ->
    (range_begin lo = range_end hi (List.length l0) \/ List.length (s_items src) <= announced src) ->
    let r := replaced l0 (range_begin lo) (range_end hi (List.length l0)) (s_items src) in
    try_splice (ump_ops (fmt_of fm) Fixed) b0 src lo hi = Val (b', ok) ->
    List.length r <= c -> f_cap (fmt_of fm) < List.length r -> blank_end (fmt_of fm) (List.length r) b').
  { intros b0 l0 src lo hi H0 Hv A B Hi r E0 X Y.
    pose proof (splice_fit _ _ _ _ _ _ _ L b0 l0 src lo hi _ _ H0 (units_ok _ _ Hv) eq_refl eq_refl A B Hi) as S.
    change (replaced l0 (begin_of lo) (end_of hi (Datatypes.length l0)) (s_items src)) with r in S.
    rewrite capacity_of in S. fold c in S.
    replace (List.length r <=? c) with true in S by lia.
    destruct S as (b2 & E2 & [[_ W] _] & _). rewrite E0 in E2. injection E2 as <- _. now apply W. }
  revert Lo. unfold fixed_outcome. cbv zeta.
  destruct (Nat.leb_spec (List.length (new_payload e l)) c) as [Fit|No]; cbn [fst List.length]; [intros Lo|lia].
  assert (APP : forall src, Forall (is_unit fm) (s_items src) ->
    try_append_payload (ump_ops (fmt_of fm) Fixed) b src = Val (b', ok) ->
    List.length (l ++ s_items src) <= c -> f_cap (fmt_of fm) < List.length (l ++ s_items src) ->
    blank_end (fmt_of fm) (List.length (l ++ s_items src)) b').
  { intros src Hv E0. unfold try_append_payload in E0.
    rewrite (l_size _ _ _ _ _ _ _ L _ _ (proj1 H)) in E0. cbn [bind] in E0.
    pose proof (SP b l src (Included (List.length l)) (Excluded (List.length l)) H Hv (le_n _) (le_n _)
      (or_introl eq_refl) E0) as X. cbn [range_begin range_end] in X.
    unfold replaced in X. now rewrite firstn_all, skipn_all, app_nil_r in X. }
  destruct e as [src|src lo hi|src i|src|v|v i|g']; cbn [try_edit new_payload legal announced_enough] in *;
    rewrite ?fmt_for_of in E.
  - unfold try_set_payload in E. cbn [ump_ops o_resize] in E.
    destruct (fixed_reset fm g s false b l Hg H) as (b1 & E1 & H1). rewrite E1 in E. cbn [bind] in E.
    pose proof (SP b1 [] src (Included 0) (Excluded 0) H1 Lg (le_n _) (le_n _) (or_introl eq_refl) E) as X.
    unfold replaced in X. cbn [range_begin range_end firstn skipn app List.length] in X. rewrite app_nil_r in X. auto.
  - destruct Lg as (Hv & A & B). exact (SP b l src lo hi H Hv A B An E Fit Lo).
  - destruct Lg as (Hv & A).
    exact (SP b l src (Included i) (Excluded i) H Hv (le_n _) A (or_introl eq_refl) E Fit Lo).
  - exact (APP src Lg E Fit Lo).
  - exact (APP {| s_items := [v]; s_hint := (1, Some 1) |} (Forall_cons _ Lg (Forall_nil _)) E Fit Lo).
  - destruct Lg as [Hv Hi]. rewrite with_unit_length in * by exact Hi.
    destruct (set_byte (fmt_of fm) b v i) as [b2|] eqn:E2; [|discriminate]. cbn [bind] in E. injection E as <- _.
    exact (set_byte_end fm g s l b v i b2 M Hv Hi E2 (Q Lo)).
  - destruct (set_group (fmt_of fm) b g') as [b2|] eqn:E2; [|discriminate]. cbn [bind] in E. injection E as <- _.
    exact (set_group_end fm b g' b2 _ Lg E2 (Q Lo)).
Qed.

Lemma fixed_history_clears fm s : forall es b g l b' oks, message_in fm g s l b ->
  fixed_legal fm (room_in fm (List.length b)) es l ->
  (packet_room fm < List.length l -> blank_end (fmt_of fm) (List.length l) b) ->
  run_tries (try_edit fm) es b = Val (b', oks) ->
  packet_room fm < List.length (fst (fixed_history (room_in fm (List.length b)) es l)) ->
  blank_end (fmt_of fm) (List.length (fst (fixed_history (room_in fm (List.length b)) es l))) b'.
Proof.
  induction es as [|e es IH]; intros b g l b' oks M Lg Q E; cbn [run_tries fixed_history fst] in *.
  - injection E as -> _. exact Q.
  - destruct Lg as (L1 & L2 & L3).
    destruct (fixed_step fm e b g s l M L1 L2) as (b1 & E1 & M1 & Len1 & _).
    pose proof (fixed_step_clears fm e b g s l M L1 L2 Q b1 _ E1) as Q1.
    rewrite E1 in E. cbn [bind fst snd] in E.
    destruct (fixed_outcome (room_in fm (List.length b)) e l) as [l1 ok] eqn:X. cbn [fst snd] in *.
    rewrite <- Len1 in *.
    destruct (run_tries (try_edit fm) es b1) as [[b2 oks2]|] eqn:Y; [|discriminate].
    cbn [bind fst snd] in E. injection E as <- _.
    specialize (IH b1 _ l1 b2 oks2 M1 L3 Q1 Y).
    destruct (fixed_history (room_in fm (List.length b1)) es l1) as [l2 oks3]. cbn [fst] in *. exact IH.
Qed.

(** What [data()] then holds is blank behind the payload. *)
Lemma blank_end_data fm g s l b d : message fm g s l d -> d = firstn (List.length d) b ->
  blank_end (fmt_of fm) (List.length l) b -> blank (fmt_of fm) (List.length l) d.
Proof.
  intros (k & C & Fu & Len) Ed B i Hi. destruct (carries_framed _ _ _ _ _ _ C Fu) as (_ & Kn & _).
  pose proof (okf_of fm) as H. pose proof (okf_facts _ H) as F. set (f := fmt_of fm) in *.
  destruct (Nat.lt_ge_cases i (f_cap f * np f (List.length l))) as [In|Out].
  - rewrite <- (B i Hi In). rewrite Ed. unfold oct. rewrite nth_firstn.
    pose proof (pos_lt_packets f i _ H In) as X.
    assert (pos f i / 4 < List.length d).
    { apply Nat.div_lt_upper_bound; [lia|]. rewrite Len, Kn. fold f. unfold pb in X. rewrite <- words_of. fold f. lia. }
    replace (_ <? _) with true by lia. reflexivity.
  - apply oct_beyond. rewrite Len, Kn. fold f. rewrite <- words_of. fold f.
    unfold pos. assert (np f (List.length l) <= i / f_cap f) by (apply Nat.div_le_lower_bound; lia).
    unfold pb. nia.
Qed.

(** ** Histories that never shorten the payload *)

Lemma resize_blank_fixed f g s cl len n b m b' r : okf f -> (g < 16)%N -> ump_inv f g s cl Fixed len n b ->
  blank f n b -> n <= m -> try_resize f Fixed b m = Val (b', r) ->
  blank f (match r with None => m | Some c => c end) b'.
Proof.
  intros H Hg HI B L E i. pose proof (okf_facts f H) as F. pose proof HI as (FR & _ & _ & _ & Len).
  pose proof (fr_len _ _ _ _ FR) as HL. pose proof (np_pos f n H) as Nn.
  pose proof (framed_le_capacity f g n b H FR) as Hc. rewrite Len in Hc.
  assert (Hw : f_words f <= len) by nia.
  destruct (Nat.le_gt_cases m (capacity f len)) as [Hm|Hm].
  - apply fits_np in Hm; auto.
    destruct (resize_at f Fixed b m b g H Hg) as (b2 & E2 & L2 & O).
    { cbn [request]. f_equal. unfold fixed_try_resize. rewrite buffer_size_np by auto. lia. }
    { lia. } { now apply (framed_group f g n b). }
    rewrite E in E2. injection E2 as <- ->. intros Hi.
    rewrite O. destruct (reheaded_body f m g b (pos f i) H (pos_mod_ge f i H)) as [->| ->]; [|reflexivity].
    apply B. lia.
  - destruct (resize_fail_at f Fixed b m b g (capacity f len) H Hg) as (b2 & E2 & L2 & O).
    { cbn [request]. f_equal. unfold fixed_try_resize. rewrite buffer_size_np by auto. apply negb_false_iff, Nat.ltb_lt.
      rewrite Len. apply Nat.nle_gt. intros X. apply fits_np in X; auto. lia. }
    { lia. } { now apply (framed_group f g n b). } { unfold capacity. now rewrite Len. }
    rewrite E in E2. injection E2 as <- ->. intros Hi.
    rewrite O. destruct (reheaded_body f (capacity f len) g b (pos f i) H (pos_mod_ge f i H)) as [->| ->]; [|reflexivity].
    apply B. lia.
Qed.

Lemma growing_laws_fixed f g s cl len : okf f -> (g < 16)%N ->
  laws (ump_ops f Fixed) (fun n b => ump_inv f g s cl Fixed len n b /\ blank f n b)
    (ump_done f g s cl Fixed len) (rd f) (unit_ok f) (Some (capacity f len)) false.
Proof.
  intros H Hg. pose proof (ump_laws_fixed f g s cl len H Hg) as L. constructor.
  - intros n b [A _]. eapply l_compact; eauto.
  - intros n b [A _]. eapply l_size; eauto.
  - intros n b [A _]. eapply l_le; eauto.
  - intros n b m [A B] [X|X] D; [discriminate|].
    destruct (l_grow _ _ _ _ _ _ _ L n b m A ltac:(now left) D) as (b' & E & I' & R).
    exists b'. split; [exact E|]. split; [split; [exact I'|]|exact R].
    exact (resize_blank_fixed f g s cl len n b m b' None H Hg A B X E).
  - intros n b m c [A B] Ec Lt. pose proof (l_le _ _ _ _ _ _ _ L n b A) as Le. injection Ec as <-. cbn [fits_in] in Le.
    destruct (l_full _ _ _ _ _ _ _ L n b m _ A eq_refl Lt) as (b' & E & I' & R).
    exists b'. split; [exact E|]. split; [split; [exact I'|]|exact R].
    exact (resize_blank_fixed f g s cl len n b m b' _ H Hg A B ltac:(lia) E).
  - intros n b m [A B] D. destruct (l_final _ _ _ _ _ _ _ L n b m A D) as (b' & E & W & X & R).
    exists b'. split; [exact E|]. split; [exact W|]. split; [|exact R]. intros Le. split; [now apply X|].
    exact (resize_blank_fixed f g s cl len n b m b' None H Hg A B Le E).
  - intros n b v i [A B] C D. destruct (l_write _ _ _ _ _ _ _ L n b v i A C D) as (b' & E & I' & X).
    exists b'. split; [exact E|]. split; [split; [exact I'|]|exact X].
    exact (write_blank f g s cl Fixed len n b v i b' H A C D E B).
  - intros n b t u [A B] C D. destruct (l_right _ _ _ _ _ _ _ L n b t u A C D) as (b' & E & I' & X).
    exists b'. split; [exact E|]. split; [split; [exact I'|]|exact X].
    exact (move_blank f g s cl Fixed len n b t u b' H A ltac:(auto) E B).
  - intros n b t u [A B] C D. destruct (l_left _ _ _ _ _ _ _ L n b t u A C D) as (b' & E & I' & X).
    exists b'. split; [exact E|]. split; [split; [exact I'|]|exact X].
    exact (move_blank f g s cl Fixed len n b t u b' H A ltac:(auto) E B).
  - intros n b t [A B]. eapply l_same; eauto.
Qed.

Lemma set_byte_blank_in fm g s l b v i b' : message_in fm g s l b -> is_unit fm v -> i < List.length l ->
  set_byte (fmt_of fm) b v i = Val b' -> blank (fmt_of fm) (List.length l) b ->
  blank (fmt_of fm) (List.length l) b'.
Proof.
  intros [(k & C & Fu) Sc] Hv Hi E B j Hj. set (f := fmt_of fm) in *. pose proof (okf_of fm) as H. fold f in H.
  pose proof (okf_facts f H) as F.
  pose proof (carries_sized _ _ _ _ _ _ C) as Sz. fold f in Sz.
  pose proof (ca_payload _ _ _ _ _ _ C) as P. rewrite payload_span in P. fold f in P.
  pose proof (ca_fits _ _ _ _ _ _ C). pose proof (words_pos fm).
  destruct (set_byte_aux_ok f b v k H Sz (proj2 (unit_ok_of fm v) Hv)
     (List.length b) 0 i) as (p & q & b2 & _ & Hp & Hq & Ei & E2 & UE).
  - lia.
  - nia.
  - now rewrite Nat.sub_0_r, P.
  - unfold set_byte in E. rewrite E in E2. injection E2 as <-. destruct UE as (_ & y & _ & _ & O). rewrite O.
    destruct (carries_framed _ _ _ _ _ _ C Fu) as (FR & Kn & _). fold f in FR, Kn. rewrite Kn in Hp.
    pose proof (framed_cnt f g (List.length l) b p H FR Hp) as Cn.
    pose proof (count_of_le f (List.length l) p H Hp) as Cl.
    destruct (Nat.eqb_spec (pos f j) (pb f * p + f_head f + q)) as [X|X]; [|now apply B].
    exfalso. destruct (pos_div f j H) as [D M]. rewrite X in D, M.
    destruct (div_mod_unique_small p (f_head f + q) (pb f)) as [D' M']; [lia|].
    rewrite Nat.add_assoc in D', M'. rewrite D in D'. rewrite M in M'.
    pose proof (Nat.div_mod j (f_cap f) ltac:(lia)) as DM.
    destruct (np_bounds f (List.length l) H) as [A1 A2].
    specialize (A2 ltac:(lia)). rewrite Cn in Hq. unfold count_of in *.
    destruct (Nat.ltb_spec (S p) (np f (List.length l))).
    + assert (f_cap f * S p <= f_cap f * (np f (List.length l) - 1)) by (apply Nat.mul_le_mono_l; lia). lia.
    + lia.
Qed.

(** One edit that does not shrink the payload, and that fits. *)
Lemma fixed_step_blank fm e b g s l : message_in fm g s l b -> legal fm e l -> not_shrinking e l ->
  blank (fmt_of fm) (List.length l) b -> List.length (new_payload e l) <= room_in fm (List.length b) ->
  forall b' ok, try_edit fm e b = Val (b', ok) -> blank (fmt_of fm) (List.length (new_payload e l)) b'.
Proof.
  intros M Lg Ns Q Fit b' ok E. pose proof (message_in_inv fm g s l b false M ltac:(discriminate)) as [H Hg].
  pose proof (growing_laws_fixed (fmt_of fm) g s false (List.length b) (okf_of fm) Hg) as L.
  set (c := room_in fm (List.length b)) in *.
  set (I' := fun n b0 => ump_inv (fmt_of fm) g s false Fixed (List.length b) n b0 /\ blank (fmt_of fm) n b0) in L.
  assert (SP : forall l0 b0 src lo hi a e0, holds I' (rd (fmt_of fm)) l0 b0 -> Forall (is_unit fm) (s_items src) ->
    begin_of lo = a -> end_of hi (List.length l0) = e0 -> a <= e0 -> e0 <= List.length l0 ->
    e0 - a <= List.length (s_items src) -> announced src = List.length (s_items src) ->
    try_splice (ump_ops (fmt_of fm) Fixed) b0 src lo hi = Val (b', ok) ->
    List.length (replaced l0 a e0 (s_items src)) <= c ->
    blank (fmt_of fm) (List.length (replaced l0 a e0 (s_items src))) b').
  { intros l0 b0 src lo hi a e0 H0 Hv Ha He A B Gr An E0 Ft.
    pose proof (splice_fit _ _ _ _ _ _ _ L b0 l0 src lo hi a e0 H0 (units_ok _ _ Hv) Ha He A B) as S.
    rewrite capacity_of in S. fold c in S. replace (_ <=? c) with true in S by lia.
    destruct S as (b2 & E2 & _ & X); [right; unfold announced in An; unfold estimate; lia|].
    rewrite E0 in E2. injection E2 as <- _.
    destruct X as [[_ X] _]; [symmetry; exact An|exact Gr|exact X]. }
  assert (HI : holds I' (rd (fmt_of fm)) l b) by (destruct H as [H1 H2]; split; [split; assumption|exact H2]).
  assert (AP : forall src, Forall (is_unit fm) (s_items src) -> announced src = List.length (s_items src) ->
    try_append_payload (ump_ops (fmt_of fm) Fixed) b src = Val (b', ok) ->
    List.length (l ++ s_items src) <= c -> blank (fmt_of fm) (List.length (l ++ s_items src)) b').
  { intros src Hv An E0 Ft. unfold try_append_payload in E0.
    rewrite (l_size _ _ _ _ _ _ _ L _ _ (proj1 HI)) in E0. cbn [bind] in E0.
    pose proof (SP l b src (Included (List.length l)) (Excluded (List.length l)) (List.length l) (List.length l) HI Hv
      eq_refl eq_refl ltac:(lia) ltac:(lia) ltac:(lia) An E0) as X.
    unfold replaced in X. rewrite firstn_all, skipn_all, app_nil_r in X. now apply X. }
  destruct e as [src|src lo hi|src i|src|v|v i|g']; cbn [try_edit new_payload legal not_shrinking] in *;
    rewrite ?fmt_for_of in E.
  - destruct Ns as [-> An]. unfold try_set_payload in E.
    destruct (l_grow _ _ _ _ _ _ _ L 0 b 0 (proj1 HI)) as (b1 & E1 & I1 & _); [right; lia|cbn; lia|].
    rewrite E1 in E. cbn [bind fst] in E.
    assert (H1 : holds I' (rd (fmt_of fm)) [] b1) by (split; [exact I1|cbn; lia]).
    pose proof (SP [] b1 src (Included 0) (Excluded 0) 0 0 H1 Lg eq_refl eq_refl ltac:(lia) ltac:(cbn; lia) ltac:(lia) An E) as X.
    unfold replaced in X. cbn [firstn skipn app] in X. rewrite app_nil_r in X. now apply X.
  - destruct Lg as (Hv & A & B). destruct Ns as [Gr An].
    exact (SP l b src lo hi _ _ HI Hv eq_refl eq_refl A B Gr An E Fit).
  - destruct Lg as (Hv & A).
    exact (SP l b src (Included i) (Excluded i) i i HI Hv eq_refl eq_refl ltac:(lia) A ltac:(lia) Ns E Fit).
  - exact (AP src Lg Ns E Fit).
  - exact (AP {| s_items := [v]; s_hint := (1, Some 1) |} (Forall_cons _ Lg (Forall_nil _)) eq_refl E Fit).
  - destruct Lg as [Hv Hi]. rewrite with_unit_length by exact Hi.
    destruct (set_byte (fmt_of fm) b v i) as [b2|] eqn:E2; [|discriminate]. cbn [bind] in E. injection E as <- _.
    exact (set_byte_blank_in fm g s l b v i b2 M Hv Hi E2 Q).
  - destruct (set_group (fmt_of fm) b g') as [b2|] eqn:E2; [|discriminate]. cbn [bind] in E. injection E as <- _.
    exact (set_group_blank fm b g' b2 _ Lg E2 Q).
Qed.

Lemma not_shrinking_le fm e l : legal fm e l -> not_shrinking e l -> List.length l <= List.length (new_payload e l).
Proof.
  destruct e; cbn [legal not_shrinking new_payload]; intros Lg Ns.
  - destruct Ns as [-> _]. cbn. lia.
  - destruct Lg as (_ & A & B). destruct Ns as [Gr _]. unfold replaced.
    rewrite !app_length, firstn_length, skipn_length. lia.
  - destruct Lg as (_ & A). unfold replaced. rewrite !app_length, firstn_length, skipn_length. lia.
  - rewrite app_length. lia.
  - rewrite app_length. lia.
  - destruct Lg. rewrite with_unit_length; lia.
  - lia.
Qed.

Lemma growing_le fm es : forall l, growing fm es l -> List.length l <= List.length (final_payload es l).
Proof.
  induction es as [|e es IH]; intros l H; [cbn; lia|]. destruct H as (A & B & C). cbn [final_payload].
  pose proof (not_shrinking_le fm e l A B). specialize (IH _ C). lia.
Qed.

Lemma not_shrinking_enough e l : not_shrinking e l -> announced_enough e l.
Proof. destruct e; cbn [not_shrinking announced_enough]; intuition (auto; lia). Qed.

Lemma fixed_growing_history fm s : forall es b g l, message_in fm g s l b -> growing fm es l ->
  List.length (final_payload es l) <= room_in fm (List.length b) ->
  blank (fmt_of fm) (List.length l) b ->
  exists b', run_tries (try_edit fm) es b = Val (b', map (fun _ => true) es)
    /\ message_in fm (final_group es g) s (final_payload es l) b'
    /\ List.length b' = List.length b /\ (clean_bytes fm b -> clean_bytes fm b')
    /\ blank (fmt_of fm) (List.length (final_payload es l)) b'.
Proof.
  induction es as [|e es IH]; intros b g l M Gr Ft B; cbn [run_tries final_payload final_group map] in *.
  - exists b. auto.
  - destruct Gr as (L1 & N1 & Gr).
    pose proof (growing_le fm es _ Gr) as Le.
    destruct (fixed_step fm e b g s l M L1 (not_shrinking_enough e l N1)) as (b1 & E1 & M1 & Len1 & C1).
    unfold fixed_outcome in E1, M1. cbv zeta in E1, M1. 
    replace (List.length (new_payload e l) <=? room_in fm (List.length b)) with true in E1, M1 by lia.
    cbn [fst snd] in E1, M1.
    pose proof (fixed_step_blank fm e b g s l M L1 N1 B ltac:(lia) b1 _ E1) as B1.
    rewrite E1. cbn [bind fst snd]. rewrite <- Len1 in Ft.
    destruct (IH b1 _ _ M1 Gr Ft B1) as (b' & E & M' & Len' & C' & B').
    rewrite E. cbn [bind fst snd]. exists b'. split; [reflexivity|]. split; [exact M'|]. split; [lia|]. split; [auto|exact B'].
Qed.
