(** Lemmas: an edit of a byte array that replaces bytes by more items than fit.  Old end bytes may stay behind in the
    buffer while the edit runs. *)
From Coq Require Import NArith List Bool Arith Lia ZifyBool ZifyNat ZifyN.
From Verif Require Import Base Message Sysex Splice BitLemmas ListLemmas Helpers ByteView SysexLayout SpliceLemmas SysexBytes SpliceUnannounced.
Import ListNotations.
Local Open Scope nat_scope.

(** End bytes behind [m] and behind [s] payload bytes, and nowhere else. *)
Record marks (len s m : nat) (b : list N) : Prop := {
  mk_len : List.length b = len;
  mk_begin : nth 0 b 0%N = 0xF0%N;
  mk_m : m + 2 <= len;
  mk_s : s + 2 <= len;
  mk_end : nth (m + 1) b 0%N = 0xF7%N;
  mk_old : nth (s + 1) b 0%N = 0xF7%N;
  mk_only : forall j, nth j b 0%N = 0xF7%N -> j = s + 1 \/ j = m + 1
}.

Lemma marks_sealed len s m b : marks len s m b -> sealed (min s m) b.
Proof.
  intros [A B C D E F G]. constructor.
  - lia. - exact B.
  - destruct (Nat.min_spec s m) as [[_ ->]|[_ ->]]; assumption.
  - intros i Hi X. apply G in X. lia.
Qed.
Lemma inv_marks len n b : bytes_inv Fixed len n b -> marks len n n b.
Proof.
  intros [[A B C D] [L Sg]]. constructor; auto; try lia. intros j Hj. left.
  destruct (Nat.lt_trichotomy j (n + 1)) as [X|[X|X]]; [|exact X|exfalso; now apply (Sg j)].
  exfalso. destruct j as [|j]; [rewrite B in Hj; discriminate|]. apply (D j); [lia|]. now replace (j + 1) with (S j) by lia.
Qed.

Lemma resize_marks len s m b m' : marks len s m b -> s = m \/ min s m < m' + 2 ->
  let sz := min m' (len - 2) in
  exists b' s', try_resize_b b m' = Val (b', if m' + 2 <=? len then None else Some (len - 2))
    /\ marks len s' sz b' /\ (s' = sz \/ s' = max s m).
Proof.
  intros M H sz. pose proof (marks_sealed _ _ _ _ M) as S. pose proof M as [A B C D E F G].
  destruct (resize_fixed len (min s m) b m' S A) as (b' & E' & L' & N').
  replace (if m' + 2 <=? len then m' else len - 2) with sz in N' by (unfold sz; destruct (Nat.leb_spec (m' + 2) len); lia).
  exists b'. assert (Z : sz + 2 <= len) by (unfold sz; lia).
  assert (B' : nth 0 b' 0%N = 0xF0%N).
  { rewrite N'. replace (0 =? sz + 1) with false by lia. replace (0 =? min s m + 1) with false by lia. now rewrite andb_false_r. }
  assert (P' : nth (sz + 1) b' 0%N = 0xF7%N) by (rewrite N', Nat.eqb_refl; reflexivity).
  assert (Q : forall j, nth j b' 0%N = 0xF7%N -> j = max s m + 1 \/ j = sz + 1).
  { intros j. rewrite N'. destruct (Nat.eqb_spec j (sz + 1)); [now right|].
    destruct ((min s m <? sz + 2) && (j =? min s m + 1)) eqn:X; [discriminate|]. intros Y. apply G in Y.
    assert (min s m < sz + 2 \/ s = m) by (unfold sz; lia). left. lia. }
  destruct (N.eq_dec (nth (max s m + 1) b' 0%N) 0xF7) as [Y|Y].
  - exists (max s m). split; [exact E'|]. split; [|now right]. constructor; auto; lia.
  - exists sz. split; [exact E'|]. split; [|now left]. constructor; auto. intros j Hj. destruct (Q j Hj) as [->|]; [contradiction|auto].
Qed.

Lemma move_marks len s m b tail to : marks len s m b -> to + 1 <= len -> tail <= to \/ tail <= min s m ->
  exists b', move_tail_b b tail to = Val b' /\ marks len s m b'.
Proof.
  intros M Ht H. pose proof (marks_sealed _ _ _ _ M) as S. pose proof M as [A B C D E F G]. unfold move_tail_b.
  rewrite (sealed_payload_size _ b S). cbn [bind]. set (p := min s m) in *.
  assert (X : forall from to' dest, 1 <= from -> from <= to' -> 1 <= dest -> dest + (to' - from) <= p + 1 \/ from = to' /\ dest <= len -> to' <= p + 1 ->
    exists b', copy_within b from to' dest = Val b' /\ marks len s m b').
  { intros from to' dest H1 H2 H3 H4 H5. destruct (copy_within_ok b from to' dest) as (b' & E' & L' & N'); [lia|lia|lia|].
    exists b'. split; [exact E'|]. constructor; try lia.
    - rewrite N'. replace ((dest <=? 0) && (0 <? dest + (to' - from))) with false by lia. exact B.
    - rewrite N'. replace ((dest <=? m + 1) && (m + 1 <? dest + (to' - from))) with false by lia. exact E.
    - rewrite N'. replace ((dest <=? s + 1) && (s + 1 <? dest + (to' - from))) with false by lia. exact F.
    - intros j. rewrite N'. destruct ((dest <=? j) && (j <? dest + (to' - from))) eqn:Y; [|apply G].
      intros Z. apply G in Z. lia. }
  destruct (Nat.ltb_spec tail to) as [Lt|Ge].
  - destruct (Nat.le_gt_cases p to).
    + replace (1 + tail + (p - to)) with (1 + tail) by lia. destruct (Nat.le_gt_cases (1 + tail) (p + 1)); [apply X; lia|].
      destruct (copy_within_ok b (1 + tail) (1 + tail) (to + 1)) as (b' & E' & L' & N'); [lia|lia|lia|].
      exists b'. split; [exact E'|]. rewrite Nat.sub_diag, Nat.add_0_r in N'.
      assert (N2 : forall j, nth j b' 0%N = nth j b 0%N) by (intros j; rewrite N'; now replace ((to + 1 <=? j) && (j <? to + 1)) with false by lia).
      constructor; try lia; try (rewrite N2; assumption). intros j. rewrite N2. apply G.
    + apply X; lia.
  - destruct (Nat.ltb_spec to tail); [|exists b; split; [reflexivity|exact M]]. apply X; lia.
Qed.

Lemma write_marks len s m b v i : marks len s m b -> i < m -> septet v ->
  exists b' s', write_datum_b b v i = Val b' /\ marks len s' m b' /\ (s' = s \/ s' = m).
Proof.
  intros [A B C D E F G] Hi Hv. unfold write_datum_b. rewrite upd_nth by lia. unfold septet in Hv.
  assert (Q : forall j, nth j (set_nth b (i + 1) v) 0%N = if j =? i + 1 then v else nth j b 0%N).
  { intros j. rewrite nth_set_nth by lia. reflexivity. }
  destruct (Nat.eq_dec s i) as [->|Ne]; eexists.
  - exists m. split; [reflexivity|]. split; [|now right]. constructor; auto; rewrite ?set_nth_length; auto.
    + rewrite Q. replace (0 =? i + 1) with false by lia. exact B.
    + rewrite Q. replace (m + 1 =? i + 1) with false by lia. exact E.
    + rewrite Q. replace (m + 1 =? i + 1) with false by lia. exact E.
    + intros j. rewrite Q. destruct (Nat.eqb_spec j (i + 1)); [lia|]. intros X. apply G in X. lia.
  - exists s. split; [reflexivity|]. split; [|now left]. constructor; auto; rewrite ?set_nth_length; auto.
    + rewrite Q. replace (0 =? i + 1) with false by lia. exact B.
    + rewrite Q. replace (m + 1 =? i + 1) with false by lia. exact E.
    + rewrite Q. replace (s + 1 =? i + 1) with false by lia. exact F.
    + intros j. rewrite Q. destruct (Nat.eqb_spec j (i + 1)); [lia|]. apply G.
Qed.

(** Filling, while items are left. *)
Lemma fill_marks len m a est data : forall b s w, marks len s m b -> Forall septet data -> w <= est -> a + est <= m ->
  est - w < List.length data ->
  exists b' s', fill (bytes_ops Fixed) b data a w est = Val (b', est, skipn (est - w) data, false)
    /\ marks len s' m b' /\ (s' = s \/ s' = m).
Proof.
  induction data as [|v t IH]; intros b s w M Hv Hw Hm Hl; cbn [List.length] in Hl; [lia|]. inversion Hv; subst.
  cbn [fill]. destruct (Nat.ltb_spec w est) as [Lt|Ge].
  - cbn [bytes_ops o_write]. destruct (write_marks len s m b v (a + w) M ltac:(lia) ltac:(assumption)) as (b1 & s1 & E1 & M1 & Hs1).
    rewrite E1. cbn [bind]. destruct (IH b1 s1 (S w) M1 ltac:(assumption) ltac:(lia) Hm ltac:(lia)) as (b' & s' & E & M' & H').
    exists b', s'. split; [|split; [exact M'|]].
    + change (bytes_ops Fixed) with (bytes_ops Fixed) in E. rewrite E. replace (est - w) with (S (est - S w)) by lia. reflexivity.
    + destruct Hs1, H'; subst; auto.
  - exists b, s. replace (est - w) with 0 by lia. replace w with est by lia. split; [reflexivity|]. auto.
Qed.

Section Crowded.
  Context (len n a e : nat) (data : list N).
  Context (Hae : a < e) (Hen : e <= n) (Hdata : Forall septet data) (Hcap : n + 2 <= len).
  Let cap := len - 2.
  Let d := e - a.
  Let K := cap - (n - d).
  Context (Hlong : K < List.length data).

  (** From a round in which the buffer is not enlarged as wanted on. *)
  Lemma full_round fuel b s w extra : 1 <= fuel -> marks len s cap b -> w <= K -> 0 < extra ->
    exists b' s' m', main_loop fuel (bytes_ops Fixed) b (skipn w data) a (e - a) n w K (a + K) extra = Val (Overflow b') /\ marks len s' m' b'.
  Proof.
    intros Hf M Hw Hx. destruct fuel as [|f]; [lia|]. cbn [main_loop]. assert (HK : d <= K /\ a + K + (n - e) = cap) by (unfold K, d, cap; lia).
    destruct (fill_marks len cap a K (skipn w data) b s w M) as (b1 & s1 & E1 & M1 & _); [|lia|lia|rewrite skipn_length; lia|].
    { apply Forall_forall. intros x Hx'. rewrite Forall_forall in Hdata. apply Hdata. rewrite <- (firstn_skipn w data). apply in_or_app. now right. }
    rewrite E1. cbn [bind]. rewrite Nat.eqb_refl. cbn [negb]. rewrite skipn_both. replace (w + (K - w)) with K by lia.
    destruct (skipn K data) as [|y rest] eqn:Er; [exfalso; apply (proj1 (skipn_none K data)) in Er; lia|].
    unfold sub_chk at 1. replace (K + extra + n <? e - a) with false by lia. cbn [bind].
    replace (a + K <? a + (K + extra)) with true by lia. cbn [bytes_ops o_resize o_move].
    destruct (resize_marks len s1 cap b1 (K + extra + n - (e - a)) M1) as (b2 & s2 & E2 & M2 & H2).
    { right. pose proof (mk_m _ _ _ _ M1). unfold d, cap in *. lia. }
    replace (K + extra + n - (e - a) + 2 <=? len) with false in E2 by (unfold d, cap in *; lia).
    replace (min (K + extra + n - (e - a)) (len - 2)) with cap in * by (unfold d, cap in *; lia).
    rewrite E2. cbn [bind]. unfold sub_chk. replace (n <? e - a) with false by lia. cbn [bind].
    replace (len - 2 - (n - (e - a))) with K by (unfold K, d, cap; reflexivity).
    replace (a + K <? e - a) with false by (unfold d in *; lia). cbn [bind].
    assert (Es : s2 = cap). { destruct H2 as [|H2]; [assumption|]. pose proof (mk_s _ _ _ _ M1). unfold cap in *. lia. }
    destruct (move_marks len s2 cap b2 (a + K) (a + K - (e - a)) M2 ltac:(unfold cap in *; lia) ltac:(right; lia)) as (b3 & E3 & M3).
    rewrite E3. cbn [bind]. rewrite Nat.leb_refl. eauto.
  Qed.

  Lemma loop_marks : forall fuel b s m w est extra, marks len s m b -> s = m \/ m = est + (n - d) -> est + (n - d) <= m ->
    w <= est -> 0 < extra -> 1 <= fuel -> List.length data - w + (if w <? est then 0 else 1) <= fuel ->
    exists b' s' m', main_loop fuel (bytes_ops Fixed) b (skipn w data) a (e - a) n w est (a + est) extra = Val (Overflow b') /\ marks len s' m' b'.
  Proof.
    induction fuel as [|k IH]; intros b s m w est extra M Hs Hm Hw Hx H1 HF; [clear - H1; lia|]. cbn [main_loop].
    assert (N1 : a + d = e /\ 1 <= d /\ cap + 2 = len /\ K + (n - d) = cap /\ d <= n) by (clear - Hae Hen Hcap; unfold K, d, cap; lia).
    destruct N1 as (Na & Nd & Nc & NK & Nn). pose proof (mk_m _ _ _ _ M) as Mm.
    assert (He : est <= K) by (clear - Nc NK Hm Mm; lia).
    assert (Hk : 1 <= k /\ List.length data - est <= k).
    { clear - HF Hw He Hlong. set (L := List.length data) in *. clearbody L K. destruct (Nat.ltb_spec w est); lia. }
    destruct Hk as [Hk1 Hk2]. clear HF H1. assert (Hme : a + est <= m) by (clear - Hm Na Nd Hen Nn; lia).
    assert (Hel : est < List.length data) by (clear - He Hlong; lia).
    destruct (fill_marks len m a est (skipn w data) b s w M) as (b1 & s1 & E1 & M1 & H1');
      [|exact Hw|exact Hme|rewrite skipn_length; clear - Hel Hw; lia|].
    { apply Forall_forall. intros x Hx'. rewrite Forall_forall in Hdata. apply Hdata. rewrite <- (firstn_skipn w data). apply in_or_app. now right. }
    rewrite E1. cbn [bind]. rewrite Nat.eqb_refl. cbn [negb]. rewrite skipn_both. replace (w + (est - w)) with est by (clear - Hw; lia).
    destruct (skipn est data) as [|y rest] eqn:Er; [exfalso; apply (proj1 (skipn_none est data)) in Er; clear - Er Hel; lia|].
    rewrite <- Er. clear y rest Er E1.
    unfold sub_chk at 1. replace (est + extra + n <? e - a) with false by (clear - Hen Hae; lia). cbn [bind].
    replace (a + est <? a + (est + extra)) with true by (clear - Hx; lia). cbn [bytes_ops o_resize o_move].
    set (q := est + extra + n - (e - a)). assert (Hq : q = est + extra + (n - d)) by (unfold q; clear - Na Nd Nn; lia). clearbody q.
    assert (Hs1 : s1 = m \/ m = est + (n - d)) by (clear - H1' Hs; destruct H1'; subst; auto). clear H1' Hs.
    assert (Hsq : s1 = m \/ min s1 m < q + 2) by (clear - Hs1 Hq; lia).
    pose proof (mk_s _ _ _ _ M1) as Ms.
    destruct (resize_marks len s1 m b1 q M1 Hsq) as (b2 & s2 & E2 & M2 & H2). rewrite E2. clear E2.
    destruct (Nat.leb_spec (est + extra) K) as [Fit|Full].
    - replace (q + 2 <=? len) with true by (clear - Hq Fit NK Nc; lia). cbn [bind].
      replace (min q (len - 2)) with q in * by (clear - Hq Fit NK Nc; lia).
      destruct (move_marks len s2 q b2 (a + est) (a + (est + extra)) M2) as (b3 & E3 & M3).
      { clear - Hq Na Hen Nn Nd Fit NK Nc. lia. } { left. clear. lia. }
      rewrite E3. cbn [bind]. replace (est + extra <=? est) with false by (clear - Hx; lia).
      assert (Hsx : s2 = q \/ q = est + extra + (n - d)) by (right; exact Hq).
      apply (IH b3 s2 q est (est + extra) (extra * 2) M3 Hsx); [clear - Hq; lia|clear; lia|clear - Hx; lia|exact Hk1|].
      replace (est <? est + extra) with true by (clear - Hx; lia). clear - Hk2. lia.
    - replace (q + 2 <=? len) with false by (clear - Hq Full NK Nc; lia). cbn [bind].
      replace (min q (len - 2)) with cap in * by (clear - Hq Full NK Nc; lia).
      unfold sub_chk. replace (n <? e - a) with false by (clear - Hae Hen; lia). cbn [bind].
      replace (len - 2 - (n - (e - a))) with K by (unfold K, d, cap; reflexivity).
      replace (a + K <? e - a) with false by (clear - Na NK Nc Hcap Nn; lia). cbn [bind].
      destruct (move_marks len s2 cap b2 (a + est) (a + K - (e - a)) M2) as (b3 & E3 & M3).
      { unfold cap in *. lia. } { right. unfold d, cap in *. destruct H2; lia. }
      rewrite E3. cbn [bind]. destruct (Nat.leb_spec K est) as [|Lt]; [eauto|].
      apply (full_round k b3 s2 est (extra * 2)); [exact Hk1|exact M3|exact He|clear - Hx; lia].
  Qed.

  Lemma splice_crowded b src lo hi : bytes_inv Fixed len n b -> s_items src = data ->
    begin_of lo = a -> end_of hi n = e -> estimate (s_hint src) <= d ->
    exists b', try_splice (bytes_ops Fixed) b src lo hi = Val (b', false) /\ bytes_done Fixed len 0 b'.
  Proof.
    intros HI Hs Hlo Hhi Hest. pose proof HI as [Sl _]. set (est0 := estimate (s_hint src)) in *.
    assert (X : exists b' s m, splice_detail (bytes_ops Fixed) b src lo hi = Val (b', false) /\ marks len s m b').
    { unfold splice_detail. cbn [bytes_ops o_compact o_payload_size bind]. rewrite (sealed_payload_size n b Sl). cbn [bind].
      rewrite Hlo, Hhi, Hs. fold est0. unfold sub_chk at 1. replace (e <? a) with false by lia. cbn [bind].
      replace (e <? e + est0 - (e - a)) with false by (unfold d in *; lia). cbn [bind].
      replace (e + est0 - (e - a)) with (a + est0) by lia.
      destruct (move_marks len n n b e (a + est0) (inv_marks _ _ _ HI) ltac:(unfold d in *; lia) ltac:(right; lia)) as (b2 & E2 & M2).
      cbn [bytes_ops o_move]. rewrite E2. cbn [bind].
      destruct (loop_marks (S (List.length data)) b2 n n 0 est0 1 M2) as (b3 & s & m & E3 & M3); try (unfold d in *; lia).
      { destruct (0 <? est0); lia. }
      change (skipn 0 data) with data in E3. rewrite E3. cbn [bind]. eauto. }
    destruct X as (b1 & s & m & E & M). unfold try_splice. rewrite E. cbn [bind bytes_ops o_resize].
    pose proof (marks_sealed _ _ _ _ M) as S1. pose proof M as [A B C D _ _ _].
    destruct (resize_fixed len (min s m) b1 0 S1 A) as (b2 & E2 & L2 & N2). rewrite E2. cbn [bind fst].
    replace (0 + 2 <=? len) with true in N2 by lia.
    exists b2. split; [reflexivity|]. split; [|exact L2]. constructor.
    - lia.
    - rewrite N2. replace (0 =? 0 + 1) with false by reflexivity. replace (0 =? min s m + 1) with false by lia. now rewrite andb_false_r.
    - rewrite N2. reflexivity.
    - intros i Hi. lia.
  Qed.
End Crowded.
