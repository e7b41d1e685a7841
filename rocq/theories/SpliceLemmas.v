(** Lemmas: the editing algorithm of Splice.v over any implementation of its
    operations that reads, writes, moves and resizes payload as expected. *)
From Coq Require Import NArith List Bool Arith Lia ZifyBool.
From Verif Require Import Base Sysex Splice ListLemmas.
Import ListNotations.
Local Open Scope nat_scope.

(** [n] payload units fit the buffer. *)
Definition fits_in (lim : option nat) (n : nat) : Prop :=
  match lim with Some c => n <= c | None => True end.

Lemma fits_dec lim n : fits_in lim n \/ exists c, lim = Some c /\ c < n.
Proof.
  destruct lim as [c|]; cbn; [|now left].
  destruct (Nat.le_gt_cases n c); [now left|right; eauto].
Qed.

(** [I n b]: [b] holds [n] payload units and can be edited further; [W n b]: it
    holds [n] payload units; [rd b i] is unit [i]; [lim] the capacity; [shr]
    whether a buffer stays editable when it shrinks. *)
Record laws (o : ops) (I W : nat -> list N -> Prop) (rd : list N -> nat -> N)
  (okv : N -> Prop) (lim : option nat) (shr : bool) : Prop := {
  l_compact : forall n b, I n b -> o_compact o b = Val b;
  l_size : forall n b, I n b -> o_payload_size o b = Val n;
  l_le : forall n b, I n b -> fits_in lim n;
  l_grow : forall n b m, I n b -> shr = true \/ n <= m -> fits_in lim m ->
    exists b', o_resize o b m = Val (b', None) /\ I m b'
      /\ forall i, i < n -> i < m -> rd b' i = rd b i;
  l_full : forall n b m c, I n b -> lim = Some c -> c < m ->
    exists b', o_resize o b m = Val (b', Some c) /\ I c b'
      /\ forall i, i < n -> rd b' i = rd b i;
  l_final : forall n b m, I n b -> fits_in lim m ->
    exists b', o_resize o b m = Val (b', None) /\ W m b' /\ (n <= m -> I m b')
      /\ forall i, i < n -> i < m -> rd b' i = rd b i;
  l_write : forall n b v i, I n b -> i < n -> okv v ->
    exists b', o_write o b v i = Val b' /\ I n b'
      /\ forall j, j < n -> rd b' j = if j =? i then v else rd b j;
  l_right : forall n b tail to, I n b -> tail < to -> to <= n ->
    exists b', o_move o b tail to = Val b' /\ I n b'
      /\ forall j, j < n -> rd b' j = if to <=? j then rd b (j - (to - tail)) else rd b j;
  l_left : forall n b tail to, I n b -> to < tail -> tail <= n ->
    exists b', o_move o b tail to = Val b' /\ I n b'
      /\ forall j, j < n -> rd b' j = if (to <=? j) && (j <? n - (tail - to))
                                      then rd b (j + (tail - to)) else rd b j;
  l_same : forall n b t, I n b -> o_move o b t t = Val b
}.

Section Generic.
  Context (o : ops) (I W : nat -> list N -> Prop) (rd : list N -> nat -> N)
    (okv : N -> Prop) (lim : option nat) (shr : bool)
    (L : laws o I W rd okv lim shr).

  (** Writing items while there is room. *)
  Lemma fill_ok n data : forall b a w room, I n b -> Forall okv data -> w <= room -> a + room <= n ->
    let c := min (room - w) (List.length data) in
    exists b', fill o b data a w room = Val (b', w + c, skipn c data, List.length data <? room - w)
      /\ I n b'
      /\ forall j, j < n -> rd b' j = if (a + w <=? j) && (j <? a + w + c)
                                      then nth (j - (a + w)) data 0%N else rd b j.
  Proof.
    induction data as [|v t IH]; intros b a w room HI Hv Hw Hn c; unfold c.
    - rewrite Nat.min_0_r. cbn [fill List.length].
      exists b. split; [|split; [exact HI|]].
      + rewrite Nat.add_0_r. cbn [skipn].
        destruct (Nat.ltb_spec w room), (Nat.ltb_spec 0 (room - w)); try lia; reflexivity.
      + intros j Hj. replace ((a + w <=? j) && (j <? a + w + 0)) with false by lia. reflexivity.
    - cbn [fill]. inversion Hv as [|? ? Hv0 Hv']; subst.
      destruct (Nat.ltb_spec w room) as [Lw|Lw].
      + destruct (l_write _ _ _ _ _ _ _ L n b v (a + w) HI ltac:(lia) Hv0) as (b1 & E1 & I1 & R1).
        rewrite E1. cbn [bind].
        destruct (IH b1 a (S w) room I1 Hv' ltac:(lia) Hn) as (b' & E & I' & R).
        exists b'. split; [|split; [exact I'|]].
        * rewrite E. cbn [List.length].
          replace (min (room - w) (S (List.length t))) with (S (min (room - S w) (List.length t))) by lia.
          cbn [skipn]. replace (w + S (min (room - S w) (List.length t)))
            with (S w + min (room - S w) (List.length t)) by lia.
          replace (S (List.length t) <? room - w) with (List.length t <? room - S w)
            by (destruct (Nat.ltb_spec (List.length t) (room - S w)),
                  (Nat.ltb_spec (S (List.length t)) (room - w)); lia || reflexivity).
          reflexivity.
        * intros j Hj. rewrite R by auto. cbn [List.length].
          replace (min (room - w) (S (List.length t))) with (S (min (room - S w) (List.length t))) by lia.
          set (m := min (room - S w) (List.length t)).
          destruct (Nat.leb_spec (a + S w) j), (Nat.ltb_spec j (a + S w + m)); cbn [andb].
          -- replace ((a + w <=? j) && (j <? a + w + S m)) with true by lia.
             replace (j - (a + w)) with (S (j - (a + S w))) by lia. reflexivity.
          -- replace ((a + w <=? j) && (j <? a + w + S m)) with false by lia.
             rewrite R1 by auto. replace (j =? a + w) with false by lia. reflexivity.
          -- rewrite R1 by auto. destruct (Nat.eqb_spec j (a + w)) as [->|].
             ++ replace ((a + w <=? a + w) && (a + w <? a + w + S m)) with true by lia.
                now rewrite Nat.sub_diag.
             ++ replace ((a + w <=? j) && (j <? a + w + S m)) with false by lia. reflexivity.
          -- rewrite R1 by auto. destruct (Nat.eqb_spec j (a + w)) as [->|].
             ++ lia.
             ++ replace ((a + w <=? j) && (j <? a + w + S m)) with false by lia. reflexivity.
      + exists b. replace (room - w) with 0 by lia. cbn [Nat.min List.length skipn].
        split; [|split; [exact HI|]].
        * rewrite Nat.add_0_r. reflexivity.
        * intros j Hj. replace ((a + w <=? j) && (j <? a + w + 0)) with false by lia. reflexivity.
  Qed.

  (** The text being edited: units [0..n) are [u], [e - a] units from [a] on are
      replaced by [data]. *)
  Context (u : nat -> N) (n a e : nat) (data : list N).
  Context (Hae : a <= e) (Hen : e <= n) (Hdata : Forall okv data).

  (** State of the buffer while editing: room for [est] items at [a], followed by
      the kept tail; the first [w] items are there. *)
  Definition editing (sz est w : nat) (b : list N) : Prop :=
    I sz b /\ est + (n - (e - a)) <= sz
    /\ (forall i, i < a -> rd b i = u i)
    /\ (forall i, i < w -> rd b (a + i) = nth i data 0%N)
    /\ (forall i, i < n - e -> rd b (a + est + i) = u (e + i)).

  Definition total : nat := n - (e - a) + List.length data.
  Definition target (i : nat) : N :=
    if i <? a then u i else if i <? a + List.length data then nth (i - a) data 0%N
    else u (e + (i - (a + List.length data))).

  (** What the loop returns when it starts with room for [est0] items and would next make room for [x0] more. *)
  Definition loop_post (sz0 est0 x0 : nat) (r : looped) : Prop :=
    match r with
    | Done b w tail => w = List.length data /\ exists sz est, tail = a + est /\ w <= est
        /\ (List.length data <= est0 -> sz = sz0 /\ est = est0)
        /\ (est0 < List.length data -> sz = est + (n - (e - a)) /\ est + est0 + 2 <= 2 * List.length data + x0)
        /\ editing sz est w b
    | Overflow b => exists c, lim = Some c /\ c < total /\ I c b
    end.

  (** Why the loop cannot go wrong: nothing is replaced; or the buffer can always
      grow; or the items fit the room made; or the room is all there is. *)
  Definition mode (sz est : nat) : Prop :=
    (a = e /\ sz = est + n) \/ (lim = None /\ shr = true) \/ List.length data <= est
    \/ (exists c, lim = Some c /\ est + (n - (e - a)) = c /\ e - a <= est).

  Lemma skipn_nil_iff {A} k (l : list A) : skipn k l = [] <-> List.length l <= k.
  Proof.
    split; intros H.
    - pose proof (skipn_length k l) as E. rewrite H in E. cbn in E. lia.
    - apply skipn_all2. lia.
  Qed.

  Lemma skipn_twice {A} j k (l : list A) : skipn j (skipn k l) = skipn (k + j) l.
  Proof.
    revert l; induction k as [|k IH]; intros l; [reflexivity|].
    destruct l as [|y l]; cbn [skipn Nat.add]; [now rewrite !skipn_nil|auto].
  Qed.

  (** Making room: the kept tail moves from [a + est] to [a + est']. *)
  Lemma widen sz est w b est' : editing sz est w b -> w <= est -> est < est' ->
    est' + (n - (e - a)) <= sz ->
    exists b', o_move o b (a + est) (a + est') = Val b' /\ editing sz est' w b'.
  Proof.
    intros (HI & Hsz & Hb & Hd & Ht) Hw Hlt Hfit.
    destruct (l_right _ _ _ _ _ _ _ L sz b (a + est) (a + est') HI ltac:(lia) ltac:(lia))
      as (b' & E & I' & R).
    exists b'. split; [exact E|]. split; [exact I'|]. split; [lia|]. split; [|split].
    - intros i Hi. rewrite R by lia. replace (a + est' <=? i) with false by lia. auto.
    - intros i Hi. rewrite R by lia. replace (a + est' <=? a + i) with false by lia. auto.
    - intros i Hi. rewrite R by lia. replace (a + est' <=? a + est' + i) with true by lia.
      rewrite <- Ht by lia. f_equal. lia.
  Qed.

  Lemma editing_resized sz est w b sz' b' : editing sz est w b -> w <= est ->
    I sz' b' -> est + (n - (e - a)) <= sz' ->
    (forall i, i < sz -> i < sz' -> rd b' i = rd b i) -> editing sz' est w b'.
  Proof.
    intros (HI & Hsz & Hb & Hd & Ht) Hw I' Hfit R.
    split; [exact I'|]. split; [exact Hfit|]. split; [|split].
    - intros i Hi. rewrite R by lia. auto.
    - intros i Hi. rewrite R by lia. auto.
    - intros i Hi. rewrite R by lia. auto.
  Qed.

  Lemma later_post sz est x : est < List.length data ->
    forall sz' est' r, sz' = est' + (n - (e - a)) -> est' <= est + x ->
    est' = est + x \/ (exists c, lim = Some c /\ est' + (n - (e - a)) = c) ->
    loop_post sz' est' (x * 2) r -> loop_post sz est x r.
  Proof.
    intros Hl sz' est' [b w tail|b] Es Le Hx P; [|exact P]. cbn [loop_post] in *.
    destruct P as (Ew & s & est3 & A & B & C & G & D). split; [exact Ew|]. exists s, est3.
    split; [exact A|]. split; [exact B|]. split; [lia|]. split; [|exact D]. intros _.
    destruct (Nat.le_gt_cases (List.length data) est') as [X|X].
    - destruct (C X) as [-> ->]. split; [exact Es|lia].
    - destruct (G X) as [G1 G2]. split; [exact G1|]. destruct Hx as [->|(c & El & Ec)]; [lia|].
      destruct D as (D & D' & _). pose proof (l_le _ _ _ _ _ _ _ L _ _ D) as F. rewrite El in F. cbn [fits_in] in F. lia.
  Qed.

  Lemma main_loop_ok : forall fuel b sz w est extra,
    editing sz est w b -> w <= est -> w <= List.length data -> 0 < extra -> mode sz est ->
    1 <= fuel -> List.length data - w + (if w <? est then 0 else 1) <= fuel ->
    exists r, main_loop fuel o b (skipn w data) a (e - a) n w est (a + est) extra = Val r
      /\ loop_post sz est extra r.
  Proof.
    induction fuel as [|k IH]; intros b sz w est extra HE Hw Hwd Hx HM H1 HF; [lia|].
    destruct HE as (HI & Hsz & Hb & Hd & Ht).
    cbn [main_loop].
    destruct (fill_ok sz (skipn w data) b a w est HI) as (b1 & E1 & I1 & R1).
    { apply Forall_forall. intros x Hx'. rewrite Forall_forall in Hdata. apply Hdata.
      rewrite <- (firstn_skipn w data). apply in_or_app. now right. }
    { lia. } { lia. }
    rewrite skipn_length in *. set (c := min (est - w) (List.length data - w)) in *.
    rewrite E1. cbn [bind].
    assert (HE1 : editing sz est (w + c) b1).
    { split; [exact I1|]. split; [exact Hsz|]. split; [|split].
      - intros i Hi. rewrite R1 by lia.
        replace ((a + w <=? i) && (i <? a + w + c)) with false by lia. auto.
      - intros i Hi. rewrite R1 by lia.
        destruct (Nat.lt_ge_cases i w) as [Li|Li].
        + replace ((a + w <=? a + i) && (a + i <? a + w + c)) with false by lia. auto.
        + replace ((a + w <=? a + i) && (a + i <? a + w + c)) with true by lia.
          rewrite nth_skipn. f_equal. lia.
      - intros i Hi. rewrite R1 by lia.
        replace ((a + w <=? a + est + i) && (a + est + i <? a + w + c)) with false by lia. auto. }
    destruct (Nat.ltb_spec (List.length data - w) (est - w)) as [Dry|Wet].
    { eexists. split; [reflexivity|]. cbn [loop_post]. split; [lia|].
      exists sz, est. split; [reflexivity|]. split; [lia|]. split; [auto|]. split; [lia|exact HE1]. }
    assert (Ewc : w + c = est) by lia. rewrite Ewc in *. clear Ewc.
    rewrite Nat.eqb_refl. cbn [negb]. rewrite skipn_twice.
    replace (w + c) with est by lia.
    destruct (skipn est data) as [|y rest] eqn:Er.
    { apply skipn_nil_iff in Er. eexists. split; [reflexivity|]. cbn [loop_post].
      split; [lia|]. exists sz, est. split; [reflexivity|]. split; [lia|]. split; [auto|]. split; [lia|exact HE1]. }
    assert (Hlong : est < List.length data).
    { destruct (Nat.le_gt_cases (List.length data) est) as [X|X]; [|lia].
      apply skipn_nil_iff in X. rewrite X in Er. discriminate. }
    rewrite <- Er. clear y rest Er.
    unfold sub_chk at 1. replace (est + extra + n <? e - a) with false by lia. cbn [bind].
    replace (a + est <? a + (est + extra)) with true by lia.
    assert (Hk : 1 <= k /\ List.length data - est <= k) by (destruct (Nat.ltb_spec w est); lia).
    set (m := est + extra + n - (e - a)).
    assert (Hm : m = est + extra + (n - (e - a))) by (unfold m; lia).
    destruct HM as [(Eae & Esz)|[(El & Es)|[HM|(cap & El & Ecap & Hde)]]]; [| |lia|].
    - (* nothing is replaced *)
      destruct (fits_dec lim m) as [Fm|(cap & El & Lc)].
      + destruct (l_grow _ _ _ _ _ _ _ L sz b1 m I1 ltac:(right; lia) Fm) as (b2 & E2 & I2 & R2).
        rewrite E2. cbn [bind].
        destruct (widen m est est b2 (est + extra)) as (b3 & E3 & HE3); [|lia|lia|lia|].
        { eapply editing_resized; eauto. lia. }
        rewrite E3. cbn [bind]. replace (est + extra <=? est) with false by lia.
        destruct (IH b3 m est (est + extra) (extra * 2) HE3) as (r & Er & Pr); try lia.
        { left. split; [exact Eae|lia]. }
        { replace (est <? est + extra) with true by lia. lia. }
        exists r. split; [exact Er|]. apply (later_post sz est extra Hlong) in Pr; [exact Pr|lia|lia|now left].
      + destruct (l_full _ _ _ _ _ _ _ L sz b1 m cap I1 El Lc) as (b2 & E2 & I2 & R2).
        rewrite E2. cbn [bind]. unfold sub_chk. replace (n <? e - a) with false by lia. cbn [bind].
        pose proof (l_le _ _ _ _ _ _ _ L _ _ HI) as Lsz. rewrite El in Lsz. cbn [fits_in] in Lsz.
        replace (a + (cap - (n - (e - a))) <? e - a) with false by lia. cbn [bind].
        replace (a + (cap - (n - (e - a))) - (e - a)) with (a + (cap - n)) by lia.
        replace (cap - (n - (e - a))) with (cap - n) by lia.
        assert (HE2 : editing cap est est b2).
        { eapply editing_resized; eauto. lia. }
        destruct (Nat.eq_dec (cap - n) est) as [Eq|Ne].
        * rewrite Eq. rewrite (l_same _ _ _ _ _ _ _ L cap b2 _ I2). cbn [bind].
          rewrite Nat.leb_refl. eexists. split; [reflexivity|]. cbn [loop_post].
          exists cap. split; [exact El|]. split; [unfold total; lia|exact I2].
        * destruct (widen cap est est b2 (cap - n) HE2) as (b3 & E3 & HE3); try lia.
          rewrite E3. cbn [bind]. replace (cap - n <=? est) with false by lia.
          destruct (IH b3 cap est (cap - n) (extra * 2) HE3) as (r & Er & Pr); try lia.
          { left. split; [exact Eae|lia]. }
          { replace (est <? cap - n) with true by lia. lia. }
          exists r. split; [exact Er|]. apply (later_post sz est extra Hlong) in Pr; [exact Pr|lia|lia|right; exists cap; split; [exact El|lia]].
    - (* growable *)
      destruct (l_grow _ _ _ _ _ _ _ L sz b1 m I1 ltac:(now left)) as (b2 & E2 & I2 & R2).
      { rewrite El. exact Logic.I. }
      rewrite E2. cbn [bind].
      destruct (widen m est est b2 (est + extra)) as (b3 & E3 & HE3); [|lia|lia|lia|].
      { eapply editing_resized; eauto. lia. }
      rewrite E3. cbn [bind]. replace (est + extra <=? est) with false by lia.
      destruct (IH b3 m est (est + extra) (extra * 2) HE3) as (r & Er & Pr); try lia.
      { right. left. auto. }
      { replace (est <? est + extra) with true by lia. lia. }
      exists r. split; [exact Er|]. apply (later_post sz est extra Hlong) in Pr; [exact Pr|lia|lia|now left].
    - (* the room is all there is *)
      destruct (l_full _ _ _ _ _ _ _ L sz b1 m cap I1 El ltac:(lia)) as (b2 & E2 & I2 & R2).
      rewrite E2. cbn [bind]. unfold sub_chk. replace (n <? e - a) with false by lia. cbn [bind].
      replace (cap - (n - (e - a))) with est by lia.
      replace (a + est <? e - a) with false by lia. cbn [bind].
      assert (exists b3, o_move o b2 (a + est) (a + est - (e - a)) = Val b3 /\ I cap b3)
        as (b3 & E3 & I3).
      { destruct (Nat.eq_dec (e - a) 0) as [Z|Z].
        - rewrite Z, Nat.sub_0_r. rewrite (l_same _ _ _ _ _ _ _ L cap b2 _ I2). eauto.
        - destruct (l_left _ _ _ _ _ _ _ L cap b2 (a + est) (a + est - (e - a)) I2
                      ltac:(lia) ltac:(lia)) as (b3 & E3 & I3 & _). eauto. }
      rewrite E3. cbn [bind]. rewrite Nat.leb_refl. eexists. split; [reflexivity|].
      cbn [loop_post]. exists cap. split; [exact El|]. split; [unfold total; lia|exact I3].
  Qed.

  (** Making room for the announced number of items. *)
  Definition make_room (b : list N) (est0 : nat) : outcome (list N * nat) :=
    if e <? e + est0 - (e - a) then
      n1 <- sub_chk (est0 + n) (e - a) ;;
      q <- o_resize o b n1 ;;
      match q with
      | (b1, None) => Val (b1, est0)
      | (b1, Some sz) => d <- sub_chk n (e - a) ;; Val (b1, sz - d)
      end
    else Val (b, est0).
  Definition roomed (b : list N) (est0 : nat) : Prop :=
    exists b1 sz est, make_room b est0 = Val (b1, est) /\ I sz b1 /\ n <= sz
         /\ (forall i, i < n -> rd b1 i = u i)
         /\ est + (n - (e - a)) <= sz /\ (e - a <= est -> sz = est + (n - (e - a)))
         /\ (est <= e - a -> est = est0 -> sz = n)
         /\ (est = est0 \/ exists cap, lim = Some cap /\ cap < est0 + n - (e - a) /\ est = cap - (n - (e - a)))
         /\ mode sz est.

  (** The edit up to the end of the loop. *)
  Lemma roomed_loop b0 est0 : roomed b0 est0 ->
    exists b1 est sz b2 r, make_room b0 est0 = Val (b1, est)
      /\ o_move o b1 e (a + est) = Val b2
      /\ main_loop (S (List.length data)) o b2 data a (e - a) n 0 est (a + est) 1 = Val r
      /\ loop_post sz est 1 r
      /\ n <= sz /\ fits_in lim sz /\ (e - a <= est -> sz = est + (n - (e - a)))
      /\ (est <= e - a -> est = est0 -> sz = n)
      /\ (est = est0 \/ exists cap, lim = Some cap /\ cap < est0 + n - (e - a) /\ est = cap - (n - (e - a))).
  Proof.
    intros (b1 & sz & est & E1 & I1 & Hnsz & R1 & Hsz & Heq & Hno & HX & HM).
    (* the first move *)
    assert (exists b2, o_move o b1 e (a + est) = Val b2 /\ editing sz est 0 b2) as (b2 & E2 & HE2).
    { destruct (Nat.lt_trichotomy e (a + est)) as [Lt|[Eq|Gt]].
      - destruct (l_right _ _ _ _ _ _ _ L sz b1 e (a + est) I1 Lt ltac:(lia)) as (b2 & E2 & I2 & R2).
        exists b2. split; [exact E2|]. split; [exact I2|]. split; [lia|]. split; [|split; [lia|]].
        + intros i Hi. rewrite R2 by lia. replace (a + est <=? i) with false by lia. apply R1. lia.
        + intros i Hi. rewrite R2 by lia. replace (a + est <=? a + est + i) with true by lia.
          rewrite R1 by lia. f_equal. lia.
      - rewrite <- Eq. rewrite (l_same _ _ _ _ _ _ _ L sz b1 e I1). exists b1. split; [reflexivity|].
        split; [exact I1|]. split; [lia|]. split; [|split; [lia|]].
        + intros i Hi. apply R1. lia.
        + intros i Hi. rewrite R1 by lia. f_equal. lia.
      - destruct (l_left _ _ _ _ _ _ _ L sz b1 e (a + est) I1 Gt ltac:(lia)) as (b2 & E2 & I2 & R2).
        exists b2. split; [exact E2|]. split; [exact I2|]. split; [lia|]. split; [|split; [lia|]].
        + intros i Hi. rewrite R2 by lia. replace (a + est <=? i) with false by lia. apply R1. lia.
        + intros i Hi. rewrite R2 by lia.
          replace ((a + est <=? a + est + i) && (a + est + i <? sz - (e - (a + est)))) with true by lia.
          rewrite R1 by lia. f_equal. lia. }
    destruct (main_loop_ok (S (List.length data)) b2 sz 0 est 1 HE2) as (r & Er & Pr); try lia; auto.
    { destruct (0 <? est); lia. }
    change (skipn 0 data) with data in Er. exists b1, est, sz, b2, r.
    pose proof (l_le _ _ _ _ _ _ _ L _ _ I1). auto 10.
  Qed.

  (** The whole edit, once there is room. *)
  Lemma splice_roomed b b0 src lo hi :
    o_compact o b = Val b0 -> o_payload_size o b0 = Val n ->
    s_items src = data -> begin_of lo = a -> end_of hi n = e ->
    roomed b0 (estimate (s_hint src)) ->
    exists b' ok, splice_detail o b src lo hi = Val (b', ok)
      /\ if ok then fits_in lim total /\ W total b'
           /\ (List.length data = estimate (s_hint src) -> e - a <= List.length data -> I total b')
           /\ forall i, i < total -> rd b' i = target i
         else exists c, lim = Some c /\ c < total /\ I c b'.
  Proof.
    intros Hc Hz Hs Hlo Hhi HR. unfold splice_detail. rewrite Hc. cbn [bind]. rewrite Hz. cbn [bind].
    rewrite Hlo, Hhi, Hs. set (est0 := estimate (s_hint src)) in *.
    unfold sub_chk at 1. replace (e <? a) with false by lia. cbn [bind].
    destruct (roomed_loop _ _ HR) as (b1 & est & sz & b2 & r & E1 & E2 & Er & Pr & Hnsz & _ & Heq & _ & HX).
    unfold make_room in E1.
    rewrite E1. cbn [bind]. replace (e + est - (e - a)) with (a + est) by lia.
    rewrite E2. cbn [bind]. rewrite Er. cbn [bind].
    destruct r as [b3 w tail|b3]; cbn [loop_post] in Pr.
    2: { exists b3, false. auto. }
    destruct Pr as (Ew & sz3 & est3 & Et & Lw & Same & _ & (I3 & Hsz3 & Hb3 & Hd3 & Ht3)). subst tail.
    (* the last move *)
    assert (exists b4, o_move o b3 (a + est3) (a + w) = Val b4 /\ I sz3 b4
       /\ forall i, i < total -> rd b4 i = target i) as (b4 & E4 & I4 & R4).
    { unfold total, target. rewrite <- Ew. destruct (Nat.eq_dec w est3) as [Eq|Ne].
      - rewrite Eq. rewrite (l_same _ _ _ _ _ _ _ L sz3 b3 _ I3). exists b3. split; [reflexivity|].
        split; [exact I3|]. intros i Hi. rewrite <- Eq in *.
        destruct (Nat.ltb_spec i a); [auto|]. destruct (Nat.ltb_spec i (a + w)).
        + rewrite <- Hd3 by lia. f_equal. lia.
        + rewrite <- Ht3 by lia. f_equal. lia.
      - destruct (l_left _ _ _ _ _ _ _ L sz3 b3 (a + est3) (a + w) I3 ltac:(lia) ltac:(lia))
          as (b4 & E4 & I4 & R4).
        exists b4. split; [exact E4|]. split; [exact I4|]. intros i Hi. rewrite R4 by lia.
        destruct (Nat.ltb_spec i a).
        { replace ((a + w <=? i) && (i <? sz3 - (a + est3 - (a + w)))) with false by lia. auto. }
        destruct (Nat.ltb_spec i (a + w)).
        + replace ((a + w <=? i) && (i <? sz3 - (a + est3 - (a + w)))) with false by lia.
          rewrite <- Hd3 by lia. f_equal. lia.
        + replace ((a + w <=? i) && (i <? sz3 - (a + est3 - (a + w)))) with true by lia.
          rewrite <- Ht3 by lia. f_equal. lia. }
    rewrite E4. cbn [bind]. unfold sub_chk. replace (w + n <? e - a) with false by lia. cbn [bind].
    replace (w + n - (e - a)) with total by (unfold total; lia).
    assert (Ltot : total <= sz3) by (unfold total; lia).
    assert (Fit : fits_in lim total).
    { pose proof (l_le _ _ _ _ _ _ _ L _ _ I3) as F3. destruct lim; cbn [fits_in] in *; lia. }
    destruct (l_final _ _ _ _ _ _ _ L sz3 b4 total I4 Fit) as (b5 & E5 & W5 & I5 & R5).
    rewrite E5. cbn [bind]. exists b5, true. split; [reflexivity|]. split; [exact Fit|].
    split; [exact W5|]. split.
    { intros Hh Hs'. apply I5.
      assert (est = est0) as ->.
      { destruct HX as [|(cap & El & Lc & _)]; [assumption|]. exfalso. rewrite El in Fit. cbn [fits_in] in Fit.
        unfold total in Fit. unfold est0 in Lc. lia. }
      destruct Same as [Q1 Q2]; [unfold est0; lia|]. rewrite Q1, (Heq ltac:(unfold est0; lia)).
      unfold total, est0. lia. }
    intros i Hi. rewrite R5 by lia. auto.
  Qed.

  Lemma laws_roomed b est0 : I n b -> (forall i, i < n -> rd b i = u i) ->
    a = e \/ List.length data <= est0 \/ (lim = None /\ shr = true) -> roomed b est0.
  Proof.
    intros HI Hu HC.
    pose proof (l_le _ _ _ _ _ _ _ L _ _ HI) as Lsz. unfold roomed, make_room.
    destruct (Nat.ltb_spec e (e + est0 - (e - a))) as [Lt|Ge].
      - unfold sub_chk at 1. replace (est0 + n <? e - a) with false by lia. cbn [bind].
        set (m := est0 + n - (e - a)). destruct (fits_dec lim m) as [Fm|(cap & El & Lc)].
        + destruct (l_grow _ _ _ _ _ _ _ L n b m HI ltac:(right; lia) Fm) as (b1 & E1 & I1 & R1).
          rewrite E1. cbn [bind]. exists b1, m, est0. split; [reflexivity|].
          split; [exact I1|]. split; [lia|]. split.
          { intros i Hi. rewrite R1 by lia. auto. }
          split; [lia|]. split; [lia|]. split; [lia|]. split; [now left|].
          destruct HC as [HC|[HC|HC]]; [left; split; lia|right; right; left; lia|right; left; auto].
        + destruct (l_full _ _ _ _ _ _ _ L n b m cap HI El Lc) as (b1 & E1 & I1 & R1).
          rewrite E1. cbn [bind]. unfold sub_chk. replace (n <? e - a) with false by lia. cbn [bind].
          rewrite El in Lsz. cbn [fits_in] in Lsz.
          exists b1, cap, (cap - (n - (e - a))). split; [reflexivity|].
          split; [exact I1|]. split; [lia|]. split.
          { intros i Hi. rewrite R1 by lia. auto. }
          split; [lia|]. split; [lia|]. split; [lia|]. split; [right; exists cap; split; [exact El|split; [lia|reflexivity]]|].
          right. right. right. exists cap. split; [exact El|lia].
      - exists b, n, est0. split; [reflexivity|]. split; [exact HI|]. split; [lia|].
        split; [exact Hu|]. split; [lia|]. split; [lia|]. split; [lia|]. split; [now left|].
        destruct HC as [HC|[HC|HC]]; [left; split; lia|right; right; left; lia|right; left; auto].
  Qed.

  Lemma splice_detail_ok b src lo hi :
    I n b -> (forall i, i < n -> rd b i = u i) -> s_items src = data ->
    begin_of lo = a -> end_of hi n = e ->
    a = e \/ List.length data <= estimate (s_hint src) \/ (lim = None /\ shr = true) ->
    exists b' ok, splice_detail o b src lo hi = Val (b', ok)
      /\ if ok then fits_in lim total /\ W total b'
           /\ (List.length data = estimate (s_hint src) -> e - a <= List.length data -> I total b')
           /\ forall i, i < total -> rd b' i = target i
         else exists c, lim = Some c /\ c < total /\ I c b'.
  Proof.
    intros HI Hu Hs Hlo Hhi HC. apply splice_roomed with (b0 := b); auto.
    { apply (l_compact _ _ _ _ _ _ _ L _ _ HI). } { apply (l_size _ _ _ _ _ _ _ L _ _ HI). }
    now apply laws_roomed.
  Qed.

  (** A buffer that is not in order yet, when the first thing to happen is that it
      grows. *)
  Lemma splice_detail_grow b b0 b1 src lo hi :
    o_compact o b = Val b0 -> o_payload_size o b0 = Val n -> s_items src = data ->
    begin_of lo = a -> end_of hi n = e -> e - a < estimate (s_hint src) ->
    a = e \/ List.length data <= estimate (s_hint src) \/ (lim = None /\ shr = true) ->
    o_resize o b0 (estimate (s_hint src) + n - (e - a)) = Val (b1, None) ->
    I (estimate (s_hint src) + n - (e - a)) b1 -> (forall i, i < n -> rd b1 i = u i) ->
    exists b' ok, splice_detail o b src lo hi = Val (b', ok)
      /\ if ok then fits_in lim total /\ W total b'
           /\ (List.length data = estimate (s_hint src) -> e - a <= List.length data -> I total b')
           /\ forall i, i < total -> rd b' i = target i
         else exists c, lim = Some c /\ c < total /\ I c b'.
  Proof.
    intros Hc Hz Hs Hlo Hhi Hg HC HR I1 R1. apply splice_roomed with (b0 := b0); auto.
    set (est0 := estimate (s_hint src)) in *. unfold roomed, make_room.
    replace (e <? e + est0 - (e - a)) with true by lia.
    unfold sub_chk at 1. replace (est0 + n <? e - a) with false by lia. cbn [bind].
    rewrite HR. cbn [bind]. exists b1, (est0 + n - (e - a)), est0. split; [reflexivity|].
    split; [exact I1|]. split; [lia|]. split; [exact R1|]. split; [lia|]. split; [lia|]. split; [lia|]. split; [now left|].
    destruct HC as [HC|[HC|HC]]; [left; split; lia|right; right; left; lia|right; left; auto].
  Qed.
  (** The same when it grows as far as it can. *)
  Lemma splice_detail_full b b0 b1 cap src lo hi :
    o_compact o b = Val b0 -> o_payload_size o b0 = Val n -> s_items src = data ->
    begin_of lo = a -> end_of hi n = e -> e - a < estimate (s_hint src) ->
    lim = Some cap -> n <= cap -> cap < estimate (s_hint src) + n - (e - a) ->
    o_resize o b0 (estimate (s_hint src) + n - (e - a)) = Val (b1, Some cap) ->
    I cap b1 -> (forall i, i < n -> rd b1 i = u i) ->
    exists b' ok, splice_detail o b src lo hi = Val (b', ok)
      /\ if ok then fits_in lim total /\ W total b'
           /\ (List.length data = estimate (s_hint src) -> e - a <= List.length data -> I total b')
           /\ forall i, i < total -> rd b' i = target i
         else exists c, lim = Some c /\ c < total /\ I c b'.
  Proof.
    intros Hc Hz Hs Hlo Hhi Hg El Nc Lc HR I1 R1. apply splice_roomed with (b0 := b0); auto.
    set (est0 := estimate (s_hint src)) in *. unfold roomed, make_room.
    replace (e <? e + est0 - (e - a)) with true by lia.
    unfold sub_chk at 1. replace (est0 + n <? e - a) with false by lia. cbn [bind].
    rewrite HR. cbn [bind]. unfold sub_chk. replace (n <? e - a) with false by lia. cbn [bind].
    exists b1, cap, (cap - (n - (e - a))). split; [reflexivity|].
    split; [exact I1|]. split; [lia|]. split; [exact R1|].
    split; [lia|]. split; [lia|]. split; [lia|]. split; [right; exists cap; split; [exact El|split; [lia|reflexivity]]|].
    right. right. right. exists cap. split; [exact El|lia].
  Qed.
End Generic.

(** The same in terms of lists. *)
Definition edited (l : list N) (a e : nat) (data : list N) : list N :=
  firstn a l ++ data ++ skipn e l.

Lemma edited_length l a e data : a <= e -> e <= List.length l ->
  List.length (edited l a e data) = List.length l - (e - a) + List.length data.
Proof. intros. unfold edited. rewrite !app_length, firstn_length, skipn_length. lia. Qed.

Lemma edited_nth l a e data i : a <= e -> e <= List.length l ->
  nth i (edited l a e data) 0%N
  = if i <? a then nth i l 0%N else if i <? a + List.length data then nth (i - a) data 0%N
    else nth (e + (i - (a + List.length data))) l 0%N.
Proof.
  intros. unfold edited. assert (Lf : List.length (firstn a l) = a) by (rewrite firstn_length; lia).
  destruct (Nat.ltb_spec i a).
  - rewrite app_nth1 by lia. rewrite <- (firstn_skipn a l) at 2. now rewrite app_nth1 by lia.
  - rewrite app_nth2 by lia. rewrite Lf. destruct (Nat.ltb_spec i (a + List.length data)).
    + now rewrite app_nth1 by lia.
    + rewrite app_nth2 by lia. rewrite nth_skipn. f_equal. lia.
Qed.

(** [b] holds the payload [l]. *)
Definition holds (P : nat -> list N -> Prop) (rd : list N -> nat -> N) (l b : list N) : Prop :=
  P (List.length l) b /\ forall i, i < List.length l -> rd b i = nth i l 0%N.

Lemma splice_list o I W rd okv lim shr (L : laws o I W rd okv lim shr) b l src lo hi a e :
  holds I rd l b -> Forall okv (s_items src) ->
  begin_of lo = a -> end_of hi (List.length l) = e -> a <= e -> e <= List.length l ->
  a = e \/ List.length (s_items src) <= estimate (s_hint src) \/ (lim = None /\ shr = true) ->
  let r := edited l a e (s_items src) in
  (fits_in lim (List.length r) /\ exists b', splice_detail o b src lo hi = Val (b', true)
     /\ holds W rd r b'
     /\ (List.length (s_items src) = estimate (s_hint src) -> e - a <= List.length (s_items src) ->
         holds I rd r b'))
  \/ (exists c b', lim = Some c /\ c < List.length r
      /\ splice_detail o b src lo hi = Val (b', false) /\ I c b').
Proof.
  intros [HI Hu] Hd Hlo Hhi Hae Hel HC r. unfold r, holds. rewrite edited_length by auto.
  destruct (splice_detail_ok o I W rd okv lim shr L (fun i => nth i l 0%N) (List.length l) a e
     (s_items src) Hae Hel Hd b src lo hi HI Hu eq_refl Hlo Hhi HC)
    as (b' & [] & E & H); [destruct H as (F & HW & HX & R)|destruct H as (c & El & Lc & Ic)].
  - left. split; [exact F|]. exists b'. split; [exact E|].
    assert (RR : forall i, i < List.length l - (e - a) + List.length (s_items src) ->
      rd b' i = nth i (edited l a e (s_items src)) 0%N).
    { intros i Hi. rewrite R by exact Hi. unfold target. now rewrite edited_nth by auto. }
    split; [split; [exact HW|exact RR]|]. intros A B. split; [now apply HX|exact RR].
  - right. exists c, b'. auto.
Qed.
