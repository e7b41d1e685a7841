(** Lemmas: the editing algorithm of Splice.v over a buffer that really changes its
    length, up to a limit.  When a request is refused the operations report the
    room in the buffer as it is, not the limit, so the laws are weaker than
    [SpliceLemmas.laws]. *)
From Coq Require Import NArith List Bool Arith Lia ZifyBool.
From Verif Require Import Base Sysex Splice ListLemmas SpliceLemmas.
Import ListNotations.
Local Open Scope nat_scope.

(** [I n b]: [b] holds [n] payload units; [rd b i] is unit [i]; [lim] units fit the
    largest buffer; [bad n m]: shrinking from [n] to [m] units fails. *)
Record bounded (o : ops) (I : nat -> list N -> Prop) (rd : list N -> nat -> N)
  (okv : N -> Prop) (lim : nat) (bad : nat -> nat -> Prop) : Prop := {
  k_compact : forall n b, I n b -> o_compact o b = Val b;
  k_size : forall n b, I n b -> o_payload_size o b = Val n;
  k_le : forall n b, I n b -> n <= lim;
  k_bad : forall n m, bad n m -> m < n;
  k_fit : forall n b m, I n b -> m <= lim -> ~ bad n m ->
    exists b', o_resize o b m = Val (b', None) /\ I m b'
      /\ forall i, i < n -> i < m -> rd b' i = rd b i;
  k_full : forall n b m, I n b -> lim < m ->
    exists b' c, o_resize o b m = Val (b', Some c) /\ n <= c /\ I c b'
      /\ forall i, i < n -> rd b' i = rd b i;
  k_write : forall n b v i, I n b -> i < n -> okv v ->
    exists b', o_write o b v i = Val b' /\ I n b'
      /\ forall j, j < n -> rd b' j = if j =? i then v else rd b j;
  k_right : forall n b tail to, I n b -> tail < to -> to <= n ->
    exists b', o_move o b tail to = Val b' /\ I n b'
      /\ forall j, j < n -> rd b' j = if to <=? j then rd b (j - (to - tail)) else rd b j;
  k_left : forall n b tail to, I n b -> to < tail -> tail <= n ->
    exists b', o_move o b tail to = Val b' /\ I n b'
      /\ forall j, j < n -> rd b' j = if (to <=? j) && (j <? n - (tail - to))
                                      then rd b (j + (tail - to)) else rd b j;
  k_same : forall n b t, I n b -> o_move o b t t = Val b
}.

Lemma skipn_none {A} k (l : list A) : skipn k l = [] <-> List.length l <= k.
Proof.
  split; intros H.
  - pose proof (skipn_length k l) as E. rewrite H in E. cbn in E. lia.
  - apply skipn_all2. lia.
Qed.
Lemma skipn_again {A} j k (l : list A) : skipn j (skipn k l) = skipn (k + j) l.
Proof.
  revert l; induction k as [|k IH]; intros l; [reflexivity|].
  destruct l as [|y l]; cbn [skipn Nat.add]; [now rewrite !skipn_nil|auto].
Qed.

Section Bounded.
  Context (o : ops) (I : nat -> list N -> Prop) (rd : list N -> nat -> N)
    (okv : N -> Prop) (lim : nat) (bad : nat -> nat -> Prop)
    (L : bounded o I rd okv lim bad).

  Lemma k_grow n b m : I n b -> m <= lim -> n <= m ->
    exists b', o_resize o b m = Val (b', None) /\ I m b'
      /\ forall i, i < n -> i < m -> rd b' i = rd b i.
  Proof. intros H Hm Hn. apply (k_fit _ _ _ _ _ _ L); auto. intros X. apply (k_bad _ _ _ _ _ _ L) in X. lia. Qed.

  Lemma k_move n b tail to : I n b -> tail <= n -> to <= n -> exists b', o_move o b tail to = Val b' /\ I n b'.
  Proof.
    intros H A B. destruct (Nat.lt_trichotomy tail to) as [X|[X|X]].
    - destruct (k_right _ _ _ _ _ _ L n b tail to H X B) as (b' & E & I' & _). eauto.
    - subst to. rewrite (k_same _ _ _ _ _ _ L n b tail H). eauto.
    - destruct (k_left _ _ _ _ _ _ L n b tail to H X A) as (b' & E & I' & _). eauto.
  Qed.

  (** Writing items while there is room. *)
  Lemma kfill_ok n data : forall b a w room, I n b -> Forall okv data -> w <= room -> a + room <= n ->
    let c := min (room - w) (List.length data) in
    exists b', fill o b data a w room = Val (b', w + c, skipn c data, List.length data <? room - w)
      /\ I n b'
      /\ forall j, j < n -> rd b' j = if (a + w <=? j) && (j <? a + w + c)
                                      then nth (j - (a + w)) data 0%N else rd b j.
  Proof.
    induction data as [|v t IH]; intros b a w room HI Hv Hw Hn c; unfold c.
    - rewrite Nat.min_0_r. cbn [fill List.length].
      exists b. split; [|split; [exact HI|]].
      + rewrite Nat.add_0_r. cbn [skipn].
        destruct (Nat.ltb_spec w room), (Nat.ltb_spec 0 (room - w)); try lia; reflexivity.
      + intros j Hj. replace ((a + w <=? j) && (j <? a + w + 0)) with false by lia. reflexivity.
    - cbn [fill]. inversion Hv as [|? ? Hv0 Hv']; subst.
      destruct (Nat.ltb_spec w room) as [Lw|Lw].
      + destruct (k_write _ _ _ _ _ _ L n b v (a + w) HI ltac:(lia) Hv0) as (b1 & E1 & I1 & R1).
        rewrite E1. cbn [bind].
        destruct (IH b1 a (S w) room I1 Hv' ltac:(lia) Hn) as (b' & E & I' & R).
        exists b'. split; [|split; [exact I'|]].
        * rewrite E. cbn [List.length].
          replace (min (room - w) (S (List.length t))) with (S (min (room - S w) (List.length t))) by lia.
          cbn [skipn]. replace (w + S (min (room - S w) (List.length t)))
            with (S w + min (room - S w) (List.length t)) by lia.
          replace (S (List.length t) <? room - w) with (List.length t <? room - S w)
            by (destruct (Nat.ltb_spec (List.length t) (room - S w)),
                  (Nat.ltb_spec (S (List.length t)) (room - w)); lia || reflexivity).
          reflexivity.
        * intros j Hj. rewrite R by auto. cbn [List.length].
          replace (min (room - w) (S (List.length t))) with (S (min (room - S w) (List.length t))) by lia.
          set (m := min (room - S w) (List.length t)).
          destruct (Nat.leb_spec (a + S w) j), (Nat.ltb_spec j (a + S w + m)); cbn [andb].
          -- replace ((a + w <=? j) && (j <? a + w + S m)) with true by lia.
             replace (j - (a + w)) with (S (j - (a + S w))) by lia. reflexivity.
          -- replace ((a + w <=? j) && (j <? a + w + S m)) with false by lia.
             rewrite R1 by auto. replace (j =? a + w) with false by lia. reflexivity.
          -- rewrite R1 by auto. destruct (Nat.eqb_spec j (a + w)) as [->|].
             ++ replace ((a + w <=? a + w) && (a + w <? a + w + S m)) with true by lia.
                now rewrite Nat.sub_diag.
             ++ replace ((a + w <=? j) && (j <? a + w + S m)) with false by lia. reflexivity.
          -- rewrite R1 by auto. destruct (Nat.eqb_spec j (a + w)) as [->|].
             ++ lia.
             ++ replace ((a + w <=? j) && (j <? a + w + S m)) with false by lia. reflexivity.
      + exists b. replace (room - w) with 0 by lia. cbn [Nat.min List.length skipn].
        split; [|split; [exact HI|]].
        * rewrite Nat.add_0_r. reflexivity.
        * intros j Hj. replace ((a + w <=? j) && (j <? a + w + 0)) with false by lia. reflexivity.
  Qed.

  Context (u : nat -> N) (n a e : nat) (data : list N).
  Context (Hae : a <= e) (Hen : e <= n) (Hdata : Forall okv data).

  (** State of the buffer while editing, as in SpliceLemmas. *)
  Definition kediting (sz est w : nat) (b : list N) : Prop :=
    I sz b /\ est + (n - (e - a)) <= sz
    /\ (forall i, i < a -> rd b i = u i)
    /\ (forall i, i < w -> rd b (a + i) = nth i data 0%N)
    /\ (forall i, i < n - e -> rd b (a + est + i) = u (e + i)).
  Definition ktotal : nat := n - (e - a) + List.length data.
  Definition ktarget (i : nat) : N :=
    if i <? a then u i else if i <? a + List.length data then nth (i - a) data 0%N
    else u (e + (i - (a + List.length data))).

  Definition kloop_post (sz0 est0 : nat) (r : looped) : Prop :=
    match r with
    | Done b w tail => w = List.length data /\ exists sz est, tail = a + est /\ w <= est
        /\ (List.length data <= est0 -> sz = sz0 /\ est = est0)
        /\ kediting sz est w b
    | Overflow b => (exists c, I c b /\ lim <= 2 * c) /\ est0 < List.length data /\ lim < n + 2 * List.length data
    end.

  (** Items left to write, as a suffix of the data. *)
  Lemma suffix_ok w : Forall okv (skipn w data).
  Proof.
    apply Forall_forall. intros x Hx'. rewrite Forall_forall in Hdata. apply Hdata.
    rewrite <- (firstn_skipn w data). apply in_or_app. now right.
  Qed.

  Lemma kwiden sz est w b est' : kediting sz est w b -> w <= est -> est < est' ->
    est' + (n - (e - a)) <= sz ->
    exists b', o_move o b (a + est) (a + est') = Val b' /\ kediting sz est' w b'.
  Proof.
    intros (HI & Hsz & Hb & Hd & Ht) Hw Hlt Hfit.
    destruct (k_right _ _ _ _ _ _ L sz b (a + est) (a + est') HI ltac:(lia) ltac:(lia))
      as (b' & E & I' & R).
    exists b'. split; [exact E|]. split; [exact I'|]. split; [lia|]. split; [|split].
    - intros i Hi. rewrite R by lia. replace (a + est' <=? i) with false by lia. auto.
    - intros i Hi. rewrite R by lia. replace (a + est' <=? a + i) with false by lia. auto.
    - intros i Hi. rewrite R by lia. replace (a + est' <=? a + est' + i) with true by lia.
      rewrite <- Ht by lia. f_equal. lia.
  Qed.

  Lemma kresized sz est w b sz' b' : kediting sz est w b -> w <= est ->
    I sz' b' -> est + (n - (e - a)) <= sz' ->
    (forall i, i < sz -> i < sz' -> rd b' i = rd b i) -> kediting sz' est w b'.
  Proof.
    intros (HI & Hsz & Hb & Hd & Ht) Hw I' Hfit R.
    split; [exact I'|]. split; [exact Hfit|]. split; [|split].
    - intros i Hi. rewrite R by lia. auto.
    - intros i Hi. rewrite R by lia. auto.
    - intros i Hi. rewrite R by lia. auto.
  Qed.

  Lemma klater sz est : est < List.length data ->
    forall sz' est' r, kloop_post sz' est' r -> kloop_post sz est r.
  Proof.
    intros Hl sz' est' [b w tail|b] P; cbn [kloop_post] in *; [|destruct P as (P1 & P2 & P3); auto].
    destruct P as (Ew & s & x & A & B & _ & D). split; [exact Ew|]. exists s, x. repeat split; auto; try lia; apply D.
  Qed.

  (** Nothing is replaced, or the items fit the room made. *)
  Definition kmode (sz est : nat) : Prop := (a = e /\ sz = est + n) \/ List.length data <= est.

  Lemma kmain_loop : forall fuel b sz w est extra,
    kediting sz est w b -> w <= est -> w <= List.length data -> 0 < extra -> kmode sz est ->
    extra <= est + 1 \/ (lim < n + 2 * List.length data /\ lim <= 2 * sz) ->
    1 <= fuel -> List.length data - w + (if w <? est then 0 else 1) <= fuel ->
    exists r, main_loop fuel o b (skipn w data) a (e - a) n w est (a + est) extra = Val r
      /\ kloop_post sz est r.
  Proof.
    induction fuel as [|k IH]; intros b sz w est extra HE Hw Hwd Hx HM HX H1 HF; [lia|].
    destruct HE as (HI & Hsz & Hb & Hd & Ht).
    cbn [main_loop].
    destruct (kfill_ok sz (skipn w data) b a w est HI (suffix_ok w)) as (b1 & E1 & I1 & R1); [lia|lia|].
    rewrite skipn_length in *. set (c := min (est - w) (List.length data - w)) in *.
    rewrite E1. cbn [bind].
    assert (HE1 : kediting sz est (w + c) b1).
    { split; [exact I1|]. split; [exact Hsz|]. split; [|split].
      - intros i Hi. rewrite R1 by lia.
        replace ((a + w <=? i) && (i <? a + w + c)) with false by lia. auto.
      - intros i Hi. rewrite R1 by lia.
        destruct (Nat.lt_ge_cases i w) as [Li|Li].
        + replace ((a + w <=? a + i) && (a + i <? a + w + c)) with false by lia. auto.
        + replace ((a + w <=? a + i) && (a + i <? a + w + c)) with true by lia.
          rewrite nth_skipn. f_equal. lia.
      - intros i Hi. rewrite R1 by lia.
        replace ((a + w <=? a + est + i) && (a + est + i <? a + w + c)) with false by lia. auto. }
    destruct (Nat.ltb_spec (List.length data - w) (est - w)) as [Dry|Wet].
    { eexists. split; [reflexivity|]. cbn [kloop_post]. split; [lia|].
      exists sz, est. split; [reflexivity|]. split; [lia|]. split; [auto|exact HE1]. }
    assert (Ewc : w + c = est) by lia. rewrite Ewc in *. clear Ewc.
    rewrite Nat.eqb_refl. cbn [negb]. rewrite skipn_again.
    replace (w + c) with est by lia.
    destruct (skipn est data) as [|y rest] eqn:Er.
    { apply skipn_none in Er. eexists. split; [reflexivity|]. cbn [kloop_post].
      split; [lia|]. exists sz, est. split; [reflexivity|]. split; [lia|]. split; [auto|exact HE1]. }
    assert (Hlong : est < List.length data).
    { destruct (Nat.le_gt_cases (List.length data) est) as [X|X]; [|lia].
      apply skipn_none in X. rewrite X in Er. discriminate. }
    rewrite <- Er. clear y rest Er.
    unfold sub_chk at 1. replace (est + extra + n <? e - a) with false by lia. cbn [bind].
    replace (a + est <? a + (est + extra)) with true by lia.
    assert (Hk : 1 <= k /\ List.length data - est <= k) by (destruct (Nat.ltb_spec w est); lia).
    set (m := est + extra + n - (e - a)).
    assert (Hm : m = est + extra + (n - (e - a))) by (unfold m; lia).
    destruct HM as [(Eae & Esz)|HM]; [|lia].
    destruct (Nat.le_gt_cases m lim) as [Fm|Lc].
    - destruct (k_grow sz b1 m I1 Fm ltac:(lia)) as (b2 & E2 & I2 & R2).
      rewrite E2. cbn [bind].
      destruct (kwiden m est est b2 (est + extra)) as (b3 & E3 & HE3); [|lia|lia|lia|].
      { eapply kresized; eauto. lia. }
      rewrite E3. cbn [bind]. replace (est + extra <=? est) with false by lia.
      destruct (IH b3 m est (est + extra) (extra * 2) HE3) as (r & Er & Pr); try lia.
      { left. split; [exact Eae|lia]. }
      { replace (est <? est + extra) with true by lia. lia. }
      exists r. split; [exact Er|]. now apply (klater sz est Hlong) in Pr.
    - destruct (k_full _ _ _ _ _ _ L sz b1 m I1 Lc) as (b2 & cap & E2 & Lcap & I2 & R2).
      rewrite E2. cbn [bind]. unfold sub_chk. replace (n <? e - a) with false by lia. cbn [bind].
      replace (a + (cap - (n - (e - a))) <? e - a) with false by lia. cbn [bind].
      replace (a + (cap - (n - (e - a))) - (e - a)) with (a + (cap - n)) by lia.
      replace (cap - (n - (e - a))) with (cap - n) by lia.
      assert (HE2 : kediting cap est est b2).
      { eapply kresized; eauto. lia. }
      destruct (Nat.eq_dec (cap - n) est) as [Eq|Ne].
      + rewrite Eq. rewrite (k_same _ _ _ _ _ _ L cap b2 _ I2). cbn [bind].
        rewrite Nat.leb_refl. eexists. split; [reflexivity|]. cbn [kloop_post].
        split; [exists cap; split; [exact I2|lia]|]. split; [exact Hlong|lia].
      + destruct (kwiden cap est est b2 (cap - n) HE2) as (b3 & E3 & HE3); try lia.
        rewrite E3. cbn [bind]. replace (cap - n <=? est) with false by lia.
        destruct (IH b3 cap est (cap - n) (extra * 2) HE3) as (r & Er & Pr); try lia.
        { left. split; [exact Eae|lia]. }
        { replace (est <? cap - n) with true by lia. lia. }
        exists r. split; [exact Er|]. now apply (klater sz est Hlong) in Pr.
  Qed.

  (** When the result does not fit, the loop overflows whatever it did before. *)
  Lemma koverflow_loop : forall fuel b sz w est extra,
    I sz b -> sz = est + (n - (e - a)) -> w <= est -> e - a <= est -> est < List.length data ->
    lim < ktotal -> 0 < extra -> extra <= est + 1 \/ lim <= 2 * sz -> 1 <= fuel ->
    List.length data - w + (if w <? est then 0 else 1) <= fuel ->
    exists b', main_loop fuel o b (skipn w data) a (e - a) n w est (a + est) extra = Val (Overflow b')
      /\ exists c, I c b' /\ lim <= 2 * c.
  Proof.
    induction fuel as [|k IH]; intros b sz w est extra HI Hsz Hw Hd Hlong Hlim Hx HX H1 HF; [lia|].
    cbn [main_loop].
    destruct (kfill_ok sz (skipn w data) b a w est HI (suffix_ok w)) as (b1 & E1 & I1 & _); [lia|lia|].
    rewrite skipn_length in *. set (c := min (est - w) (List.length data - w)) in *.
    rewrite E1. cbn [bind].
    replace (List.length data - w <? est - w) with false by lia.
    assert (Ewc : w + c = est) by lia. rewrite Ewc.
    rewrite Nat.eqb_refl. cbn [negb]. rewrite skipn_again. rewrite Ewc.
    destruct (skipn est data) as [|y rest] eqn:Er; [apply skipn_none in Er; lia|].
    rewrite <- Er. clear y rest Er.
    unfold sub_chk at 1. replace (est + extra + n <? e - a) with false by lia. cbn [bind].
    replace (a + est <? a + (est + extra)) with true by lia.
    assert (Hk : 1 <= k /\ List.length data - est <= k) by (destruct (Nat.ltb_spec w est); lia).
    set (m := est + extra + n - (e - a)).
    assert (Hm : m = est + extra + (n - (e - a))) by (unfold m; lia).
    assert (GO : forall b3 sz3 est3, I sz3 b3 -> sz3 = est3 + (n - (e - a)) -> est < est3 ->
      extra * 2 <= est3 + 1 \/ lim <= 2 * sz3 ->
      exists b', main_loop k o b3 (skipn est data) a (e - a) n est est3 (a + est3) (extra * 2) = Val (Overflow b')
        /\ exists c, I c b' /\ lim <= 2 * c).
    { intros b3 sz3 est3 I3 S3 X3 Y3. apply (IH b3 sz3); auto; try lia.
      - pose proof (k_le _ _ _ _ _ _ L _ _ I3). unfold ktotal in Hlim. lia.
      - replace (est <? est3) with true by lia. lia. }
    destruct (Nat.le_gt_cases m lim) as [Fm|Lc].
    - destruct (k_grow sz b1 m I1 Fm ltac:(lia)) as (b2 & E2 & I2 & _). rewrite E2. cbn [bind].
      destruct (k_move m b2 (a + est) (a + (est + extra)) I2 ltac:(lia) ltac:(lia)) as (b3 & E3 & I3).
      rewrite E3. cbn [bind]. replace (est + extra <=? est) with false by lia.
      apply (GO b3 m); auto; lia.
    - destruct (k_full _ _ _ _ _ _ L sz b1 m I1 Lc) as (b2 & cap & E2 & Lcap & I2 & _).
      rewrite E2. cbn [bind]. unfold sub_chk. replace (n <? e - a) with false by lia. cbn [bind].
      set (est2 := cap - (n - (e - a))) in *.
      replace (a + est2 <? e - a) with false by lia. cbn [bind].
      destruct (k_move cap b2 (a + est) (a + est2 - (e - a)) I2 ltac:(lia) ltac:(lia)) as (b3 & E3 & I3).
      rewrite E3. cbn [bind]. destruct (Nat.leb_spec est2 est) as [X|X].
      + eexists. split; [reflexivity|]. exists cap. split; [exact I3|lia].
      + apply (GO b3 cap); auto; lia.
  Qed.

  (** The first move: the kept tail goes behind the room for [est] items. *)
  Lemma kfirst b1 sz est : I sz b1 -> n <= sz -> (forall i, i < n -> rd b1 i = u i) ->
    est + (n - (e - a)) <= sz ->
    exists b2, o_move o b1 e (a + est) = Val b2 /\ kediting sz est 0 b2.
  Proof.
    intros I1 Hn R1 Hsz.
    destruct (Nat.lt_trichotomy e (a + est)) as [Lt|[Eq|Gt]].
    - destruct (k_right _ _ _ _ _ _ L sz b1 e (a + est) I1 Lt ltac:(lia)) as (b2 & E2 & I2 & R2).
      exists b2. split; [exact E2|]. split; [exact I2|]. split; [lia|]. split; [|split; [lia|]].
      + intros i Hi. rewrite R2 by lia. replace (a + est <=? i) with false by lia. apply R1. lia.
      + intros i Hi. rewrite R2 by lia. replace (a + est <=? a + est + i) with true by lia.
        rewrite R1 by lia. f_equal. lia.
    - rewrite <- Eq. rewrite (k_same _ _ _ _ _ _ L sz b1 e I1). exists b1. split; [reflexivity|].
      split; [exact I1|]. split; [lia|]. split; [|split; [lia|]].
      + intros i Hi. apply R1. lia.
      + intros i Hi. rewrite R1 by lia. f_equal. lia.
    - destruct (k_left _ _ _ _ _ _ L sz b1 e (a + est) I1 Gt ltac:(lia)) as (b2 & E2 & I2 & R2).
      exists b2. split; [exact E2|]. split; [exact I2|]. split; [lia|]. split; [|split; [lia|]].
      + intros i Hi. rewrite R2 by lia. replace (a + est <=? i) with false by lia. apply R1. lia.
      + intros i Hi. rewrite R2 by lia.
        replace ((a + est <=? a + est + i) && (a + est + i <? sz - (e - (a + est)))) with true by lia.
        rewrite R1 by lia. f_equal. lia.
  Qed.

  (** The last move. *)
  Lemma klast b3 sz3 est3 : kediting sz3 est3 (List.length data) b3 -> List.length data <= est3 ->
    exists b4, o_move o b3 (a + est3) (a + List.length data) = Val b4 /\ I sz3 b4
      /\ forall i, i < ktotal -> rd b4 i = ktarget i.
  Proof.
    intros (I3 & Hsz3 & Hb3 & Hd3 & Ht3) Lw. unfold ktotal, ktarget. set (w := List.length data) in *.
    destruct (Nat.eq_dec w est3) as [Eq|Ne].
    - rewrite <- Eq. rewrite (k_same _ _ _ _ _ _ L sz3 b3 _ I3). exists b3. split; [reflexivity|].
      split; [exact I3|]. intros i Hi. rewrite <- Eq in *.
      destruct (Nat.ltb_spec i a); [auto|]. destruct (Nat.ltb_spec i (a + w)).
      + rewrite <- Hd3 by lia. f_equal. lia.
      + rewrite <- Ht3 by lia. f_equal. lia.
    - destruct (k_left _ _ _ _ _ _ L sz3 b3 (a + est3) (a + w) I3 ltac:(lia) ltac:(lia))
        as (b4 & E4 & I4 & R4).
      exists b4. split; [exact E4|]. split; [exact I4|]. intros i Hi. rewrite R4 by lia.
      destruct (Nat.ltb_spec i a).
      { replace ((a + w <=? i) && (i <? sz3 - (a + est3 - (a + w)))) with false by lia. auto. }
      destruct (Nat.ltb_spec i (a + w)).
      + replace ((a + w <=? i) && (i <? sz3 - (a + est3 - (a + w)))) with false by lia.
        rewrite <- Hd3 by lia. f_equal. lia.
      + replace ((a + w <=? i) && (i <? sz3 - (a + est3 - (a + w)))) with true by lia.
        rewrite <- Ht3 by lia. f_equal. lia.
  Qed.

  Lemma ksplice_detail b src lo hi :
    I n b -> (forall i, i < n -> rd b i = u i) -> s_items src = data ->
    begin_of lo = a -> end_of hi n = e ->
    a = e \/ List.length data = estimate (s_hint src) ->
    (forall x y, ~ bad x y) \/ (List.length data = estimate (s_hint src) /\ ~ bad n ktotal) ->
    exists b' ok, splice_detail o b src lo hi = Val (b', ok)
      /\ (if ok then ktotal <= lim /\ I ktotal b' /\ forall i, i < ktotal -> rd b' i = ktarget i
          else exists c, I c b' /\ lim <= 2 * c)
      /\ (List.length data = estimate (s_hint src) -> ok = (ktotal <=? lim))
      /\ (a = e -> estimate (s_hint src) <= List.length data -> n + 2 * List.length data <= lim -> ok = true).
  Proof.
    intros HI Hu Hs Hlo Hhi HC HB. unfold splice_detail.
    rewrite (k_compact _ _ _ _ _ _ L _ _ HI). cbn [bind]. rewrite (k_size _ _ _ _ _ _ L _ _ HI). cbn [bind].
    rewrite Hlo, Hhi, Hs. set (est0 := estimate (s_hint src)) in *.
    unfold sub_chk at 1. replace (e <? a) with false by lia. cbn [bind].
    pose proof (k_le _ _ _ _ _ _ L _ _ HI) as Ln.
    (* what happens once the loop can be entered *)
    assert (RUN : forall b1 sz est, I sz b1 -> n <= sz -> (forall i, i < n -> rd b1 i = u i) ->
      est + (n - (e - a)) <= sz -> kmode sz est ->
      (List.length data = est0 -> ktotal <= lim -> est = est0 /\ sz = Nat.max n ktotal) ->
      (List.length data = est0 -> lim < ktotal -> est < List.length data) ->
      exists b' ok,
        (b2 <- o_move o b1 e (e + est - (e - a)) ;;
         l <- main_loop (S (List.length data)) o b2 data a (e - a) n 0 est (e + est - (e - a)) 1 ;;
         match l with
         | Done b3 w tail' =>
             b4 <- o_move o b3 tail' (a + w) ;; n0 <- sub_chk (w + n) (e - a) ;;
             q <- o_resize o b4 n0 ;;
             match q with (b5, None) => Val (b5, true) | (b5, Some _) => Val (b5, false) end
         | Overflow b3 => Val (b3, false)
         end) = Val (b', ok)
        /\ (if ok then ktotal <= lim /\ I ktotal b' /\ forall i, i < ktotal -> rd b' i = ktarget i
            else exists c, I c b' /\ lim <= 2 * c)
        /\ (List.length data = est0 -> ok = (ktotal <=? lim))
        /\ (n + 2 * List.length data <= lim -> ok = true)).
    { intros b1 sz est I1 Hn R1 Hsz HM Same Over.
      replace (e + est - (e - a)) with (a + est) by lia.
      destruct (kfirst b1 sz est I1 Hn R1 Hsz) as (b2 & E2 & HE2). rewrite E2. cbn [bind].
      destruct (kmain_loop (S (List.length data)) b2 sz 0 est 1 HE2) as (r & Er & Pr); try lia; auto.
      { destruct (0 <? est); lia. }
      change (skipn 0 data) with data in Er. rewrite Er. cbn [bind].
      destruct r as [b3 w tail|b3]; cbn [kloop_post] in Pr.
      2: { destruct Pr as (Pr & Hover & Hsmall). exists b3, false. split; [reflexivity|]. split; [exact Pr|].
           split; [|lia]. intros X. symmetry. apply Nat.leb_gt. destruct (Nat.le_gt_cases ktotal lim) as [Y|Y]; [|exact Y].
           destruct (Same X Y). lia. }
      destruct Pr as (-> & sz3 & est3 & -> & Lw & Keep & HE3).
      destruct (klast b3 sz3 est3 HE3 Lw) as (b4 & E4 & I4 & R4). rewrite E4. cbn [bind].
      unfold sub_chk. replace (List.length data + n <? e - a) with false by lia. cbn [bind].
      replace (List.length data + n - (e - a)) with ktotal by (unfold ktotal; lia).
      destruct HE3 as (I3 & Hsz3 & _). pose proof (k_le _ _ _ _ _ _ L _ _ I3) as L3.
      assert (Ht : ktotal <= sz3) by (unfold ktotal; lia).
      destruct (k_fit _ _ _ _ _ _ L sz3 b4 ktotal I4 ltac:(lia)) as (b5 & E5 & I5 & R5).
      { intros X. destruct HB as [HB|[HB HN]]; [now apply HB in X|].
        destruct (Same HB ltac:(lia)) as [Q1 Q2]. destruct (Keep ltac:(lia)) as [Q3 _]. rewrite Q3, Q2 in X.
        destruct (Nat.max_spec n ktotal) as [[A B]|[A B]]; rewrite B in X; [|exact (HN X)].
        apply (k_bad _ _ _ _ _ _ L) in X. lia. }
      rewrite E5. cbn [bind]. exists b5, true. split; [reflexivity|]. split.
      - split; [lia|]. split; [exact I5|]. intros i Hi. rewrite R5 by lia. auto.
      - split; [|auto]. intros X. symmetry. apply Nat.leb_le. lia. }
    destruct (Nat.ltb_spec e (e + est0 - (e - a))) as [Lt|Ge].
    - unfold sub_chk at 1. replace (est0 + n <? e - a) with false by lia. cbn [bind].
      set (m := est0 + n - (e - a)). destruct (Nat.le_gt_cases m lim) as [Fm|Fm].
      + destruct (k_grow n b m HI Fm ltac:(lia)) as (b1 & E1 & I1 & R1). rewrite E1. cbn [bind].
        destruct (RUN b1 m est0 I1) as (b' & ok & Q1 & Q2 & Q3 & Q4); try lia; [..|exists b', ok; auto].
        * intros i Hi. rewrite R1 by lia. auto.
        * destruct HC as [HC|HC]; [left; lia|right; lia].
        * intros X Y. unfold ktotal in *. lia.
        * intros X Y. unfold ktotal in *. lia.
      + destruct (k_full _ _ _ _ _ _ L n b m HI Fm) as (b1 & c & E1 & Lc & I1 & R1). rewrite E1. cbn [bind].
        unfold sub_chk at 1. replace (n <? e - a) with false by lia. cbn [bind].
        pose proof (k_le _ _ _ _ _ _ L _ _ I1) as Lcl.
        destruct HC as [HC|HC].
        * destruct (RUN b1 c (c - (n - (e - a))) I1) as (b' & ok & Q1 & Q2 & Q3 & Q4); try lia; [..|exists b', ok; auto].
          -- intros i Hi. rewrite R1 by lia. auto.
          -- left. lia.
          -- intros X Y. unfold ktotal in *. lia.
        * set (est := c - (n - (e - a))).
          assert (Hlim : lim < ktotal) by (unfold ktotal; lia).
          assert (Hest : c = est + (n - (e - a))) by (unfold est; lia). clearbody est.
          replace (e + est - (e - a)) with (a + est) by lia.
          destruct (k_move c b1 e (a + est) I1 ltac:(lia) ltac:(lia)) as (b2 & E2 & I2). rewrite E2. cbn [bind].
          destruct (koverflow_loop (S (List.length data)) b2 c 0 est 1 I2) as (b3 & E3 & c3 & I3 & Hc3); try lia.
          { destruct (0 <? est); lia. }
          change (skipn 0 data) with data in E3. rewrite E3. cbn [bind]. exists b3, false.
          split; [reflexivity|]. split; [eauto|]. split; [|lia]. intros _. symmetry. apply Nat.leb_gt. exact Hlim.
    - destruct (RUN b n est0 HI) as (b' & ok & Q1 & Q2 & Q3 & Q4); try lia; auto; [..|exists b', ok; auto].
      + destruct HC as [HC|HC]; [left; lia|right; lia].
      + intros X Y. unfold ktotal in *. lia.
      + intros X Y. unfold ktotal in *. lia.
  Qed.
End Bounded.
