(** Lemmas: an edit of a fixed-size buffer that replaces bytes by more items than were announced. *)
From Coq Require Import NArith List Bool Arith Lia ZifyBool.
From Verif Require Import Base Sysex Splice ListLemmas SpliceLemmas.
Import ListNotations.
Local Open Scope nat_scope.

(** The number of items written when the buffer can not be enlarged as wanted any more; [K] items fit, [n] will come. *)
Fixpoint reach (fuel est extra K n : nat) : option nat :=
  match fuel with
  | O => None
  | S f => if n <=? est then None else if est + extra <=? K then reach f (est + extra) (extra * 2) K n else Some est
  end.

Lemma skipn_none {A} k (l : list A) : skipn k l = [] <-> List.length l <= k.
Proof.
  split; intros H.
  - pose proof (skipn_length k l) as E. rewrite H in E. cbn in E. lia.
  - apply skipn_all2. lia.
Qed.
Lemma skipn_both {A} j k (l : list A) : skipn j (skipn k l) = skipn (k + j) l.
Proof.
  revert l; induction k as [|k IH]; intros l; [reflexivity|].
  destruct l as [|y l]; cbn [skipn Nat.add]; [now rewrite !skipn_nil|auto].
Qed.

Section Unannounced.
  Context (o : ops) (I W : nat -> list N -> Prop) (rd : list N -> nat -> N) (okv : N -> Prop) (cap : nat) (shr : bool)
    (L : laws o I W rd okv (Some cap) shr).
  Context (u : nat -> N) (n a e : nat) (data : list N).
  Context (Hae : a < e) (Hen : e <= n) (Hdata : Forall okv data) (Hcap : n <= cap).

  Let d := e - a.
  Let K := cap - (n - d).
  Notation editing := (editing I rd u n a e data).
  Notation total := (total n a e data).

  (** The buffer when the tail has been moved to the wrong place, with [w] items written before and all of them now. *)
  Definition spoilt (w : nat) (b : list N) : Prop :=
    I cap b
    /\ (forall i, i < a -> rd b i = u i)
    /\ (forall i, i < List.length data -> i < K - d \/ w <= i -> rd b (a + i) = nth i data 0%N)
    /\ (forall i, K - d + i < w -> i < n - e -> rd b (a + (K - d) + i) = u (e + i))
    /\ (forall i, d + i < n - e -> rd b (a + K + i) = u (e + d + i)).

  (** The last round. *)
  Lemma last_round fuel b w extra : 1 <= fuel -> 0 < extra -> w < K -> w <= List.length data ->
    (I cap b /\ (forall i, i < a -> rd b i = u i)
     /\ (forall i, i < w -> i < K - d -> rd b (a + i) = nth i data 0%N)
     /\ (forall i, K - d + i < w -> i < n - e -> rd b (a + (K - d) + i) = u (e + i))
     /\ (forall i, d + i < n - e -> rd b (a + K + i) = u (e + d + i))) ->
    exists r, main_loop fuel o b (skipn w data) a (e - a) n w K (a + K) extra = Val r
      /\ match r with
         | Done b' w' tail => List.length data <= K /\ w' = List.length data /\ tail = a + K /\ spoilt w b'
         | Overflow b' => K < List.length data /\ I cap b'
         end.
  Proof.
    intros Hf Hx Hw Hwd (HI & Hb & Hd & Hm & Ht). destruct fuel as [|f]; [lia|]. cbn [main_loop].
    assert (HK : d <= K /\ a + K + (n - e) = cap) by (unfold K, d; lia).
    destruct (fill_ok o I W rd okv (Some cap) shr L cap (skipn w data) b a w K HI) as (b1 & E1 & I1 & R1).
    { apply Forall_forall. intros x Hx'. rewrite Forall_forall in Hdata. apply Hdata.
      rewrite <- (firstn_skipn w data). apply in_or_app. now right. }
    { lia. } { lia. }
    rewrite skipn_length in *. set (c := min (K - w) (List.length data - w)) in *. rewrite E1. cbn [bind].
    assert (S1 : List.length data <= K -> spoilt w b1).
    { intros Lk. assert (c = List.length data - w) by lia. split; [exact I1|]. split; [|split; [|split]].
      - intros i Hi. rewrite R1 by lia. replace ((a + w <=? i) && (i <? a + w + c)) with false by lia. auto.
      - intros i Hi Hc. rewrite R1 by lia. destruct (Nat.lt_ge_cases i w).
        + replace ((a + w <=? a + i) && (a + i <? a + w + c)) with false by lia. apply Hd; lia.
        + replace ((a + w <=? a + i) && (a + i <? a + w + c)) with true by lia. rewrite nth_skipn. f_equal. lia.
      - intros i Hi Hi'. rewrite R1 by (unfold d in *; lia). replace ((a + w <=? a + (K - d) + i) && (a + (K - d) + i <? a + w + c)) with false by lia. auto.
      - intros i Hi. rewrite R1 by lia. replace ((a + w <=? a + K + i) && (a + K + i <? a + w + c)) with false by lia. auto. }
    destruct (Nat.ltb_spec (List.length data - w) (K - w)) as [Dry|Wet].
    { eexists. split; [reflexivity|]. cbn beta iota. split; [lia|]. split; [lia|]. split; [reflexivity|]. apply S1. lia. }
    replace (w + c) with K by lia. rewrite Nat.eqb_refl. cbn [negb]. rewrite skipn_both. replace (w + c) with K by lia.
    destruct (skipn K data) as [|y rest] eqn:Er.
    { assert (List.length data <= K) by exact (proj1 (skipn_none _ _) Er). eexists. split; [reflexivity|]. cbn beta iota.
      split; [lia|]. split; [lia|]. split; [reflexivity|]. now apply S1. }
    assert (Hlong : K < List.length data).
    { destruct (Nat.le_gt_cases (List.length data) K) as [X|X]; [|lia]. apply skipn_none in X. rewrite X in Er. discriminate. }
    unfold sub_chk at 1. replace (K + extra + n <? e - a) with false by lia. cbn [bind].
    replace (a + K <? a + (K + extra)) with true by lia.
    destruct (l_full _ _ _ _ _ _ _ L cap b1 (K + extra + n - (e - a)) cap I1 eq_refl ltac:(unfold d in *; lia)) as (b2 & E2 & I2 & R2).
    rewrite E2. cbn [bind]. unfold sub_chk. replace (n <? e - a) with false by lia. cbn [bind].
    replace (cap - (n - (e - a))) with K by (unfold K, d; reflexivity).
    replace (a + K <? e - a) with false by (unfold d in *; lia). cbn [bind].
    destruct (l_left _ _ _ _ _ _ _ L cap b2 (a + K) (a + K - (e - a)) I2 ltac:(unfold d in *; lia) ltac:(lia)) as (b3 & E3 & I3 & _).
    rewrite E3. cbn [bind]. rewrite Nat.leb_refl. eexists. split; [reflexivity|]. cbn beta iota. auto.
  Qed.

  Lemma main_loop_reach : forall fuel b sz w est extra,
    editing sz est w b -> w <= est -> w <= List.length data -> 0 < extra ->
    shr = true \/ sz <= est + (n - d) ->
    1 <= fuel -> List.length data - w + (if w <? est then 0 else 1) <= fuel ->
    exists r, main_loop fuel o b (skipn w data) a (e - a) n w est (a + est) extra = Val r
      /\ match reach fuel est extra K (List.length data), r with
         | None, Done b' w' tail => w' = List.length data /\ exists sz' est', tail = a + est' /\ w' <= est' /\ editing sz' est' w' b'
         | None, Overflow _ => False
         | Some w0, Done b' w' tail => w0 < List.length data <= K /\ w' = List.length data /\ tail = a + K /\ spoilt w0 b'
         | Some _, Overflow b' => K < List.length data /\ I cap b'
         end.
  Proof.
    induction fuel as [|k IH]; intros b sz w est extra HE Hw Hwd Hx Hs H1 HF; [lia|].
    assert (Hae' : a <= e) by lia. destruct HE as (HI & Hsz & Hb & Hd & Ht). cbn [main_loop].
    pose proof (l_le _ _ _ _ _ _ _ L _ _ HI) as Lsz. cbn [fits_in] in Lsz.
    destruct (fill_ok o I W rd okv (Some cap) shr L sz (skipn w data) b a w est HI) as (b1 & E1 & I1 & R1).
    { apply Forall_forall. intros x Hx'. rewrite Forall_forall in Hdata. apply Hdata.
      rewrite <- (firstn_skipn w data). apply in_or_app. now right. }
    { lia. } { lia. }
    rewrite skipn_length in *. set (c := min (est - w) (List.length data - w)) in *.
    rewrite E1. cbn [bind].
    assert (HE1 : editing sz est (w + c) b1).
    { split; [exact I1|]. split; [exact Hsz|]. split; [|split].
      - intros i Hi. rewrite R1 by lia. replace ((a + w <=? i) && (i <? a + w + c)) with false by lia. auto.
      - intros i Hi. rewrite R1 by lia. destruct (Nat.lt_ge_cases i w) as [Li|Li].
        + replace ((a + w <=? a + i) && (a + i <? a + w + c)) with false by lia. auto.
        + replace ((a + w <=? a + i) && (a + i <? a + w + c)) with true by lia. rewrite nth_skipn. f_equal. lia.
      - intros i Hi. rewrite R1 by lia. replace ((a + w <=? a + est + i) && (a + est + i <? a + w + c)) with false by lia. auto. }
    cbn [reach]. destruct (Nat.ltb_spec (List.length data - w) (est - w)) as [Dry|Wet].
    { replace (List.length data <=? est) with true by lia. eexists. split; [reflexivity|]. cbn beta iota. split; [lia|].
      exists sz, est. split; [reflexivity|]. split; [lia|exact HE1]. }
    assert (Ewc : w + c = est) by lia. rewrite Ewc in *.
    rewrite Nat.eqb_refl. cbn [negb]. rewrite skipn_both. rewrite Ewc.
    destruct (skipn est data) as [|y rest] eqn:Er.
    { assert (Ln : List.length data <= est) by exact (proj1 (skipn_none _ _) Er).
      replace (List.length data <=? est) with true by lia. eexists. split; [reflexivity|]. cbn beta iota. split; [lia|].
      exists sz, est. split; [reflexivity|]. split; [lia|exact HE1]. }
    assert (Hlong : est < List.length data).
    { destruct (Nat.le_gt_cases (List.length data) est) as [X|X]; [|lia]. apply skipn_none in X. rewrite X in Er. discriminate. }
    replace (List.length data <=? est) with false by lia. rewrite <- Er. clear y rest Er.
    unfold sub_chk at 1. replace (est + extra + n <? e - a) with false by lia. cbn [bind].
    replace (a + est <? a + (est + extra)) with true by lia.
    assert (Hk : 1 <= k /\ List.length data - est <= k) by (destruct (Nat.ltb_spec w est); lia).
    assert (HK : d <= K /\ a + K + (n - e) = cap /\ est <= K) by (unfold K, d; lia).
    set (m := est + extra + n - (e - a)). assert (Hm : m = est + extra + (n - d)) by (unfold m, d; lia).
    destruct (Nat.leb_spec (est + extra) K) as [Fit|Full].
    - destruct (l_grow _ _ _ _ _ _ _ L sz b1 m I1 ltac:(destruct Hs; [now left|right; lia])) as (b2 & E2 & I2 & R2).
      { cbn [fits_in]. unfold d in *. lia. }
      rewrite E2. cbn [bind].
      assert (X2 : editing m est est b2).
      { refine (editing_resized I rd u n a e data Hae' Hen sz est est b1 m b2 HE1 _ I2 _ R2); [lia|unfold d in *; lia]. }
      destruct (widen o I W rd okv (Some cap) shr L u n a e data Hae' Hen m est est b2 (est + extra) X2) as (b3 & E3 & HE3); [lia|lia|unfold d in *; lia|].
      rewrite E3. cbn [bind]. replace (est + extra <=? est) with false by lia.
      apply (IH b3 m est (est + extra) (extra * 2) HE3); try lia. replace (est <? est + extra) with true by lia. lia.
    - destruct (l_full _ _ _ _ _ _ _ L sz b1 m cap I1 eq_refl ltac:(unfold d in *; lia)) as (b2 & E2 & I2 & R2).
      rewrite E2. cbn [bind]. unfold sub_chk. replace (n <? e - a) with false by lia. cbn [bind].
      replace (cap - (n - (e - a))) with K by (unfold K, d; reflexivity).
      replace (a + K <? e - a) with false by (unfold d in *; lia). cbn [bind].
      assert (X2 : editing cap est est b2).
      { refine (editing_resized I rd u n a e data Hae' Hen sz est est b1 cap b2 HE1 _ I2 _ _); [lia|unfold d in *; lia|]. intros i Hi _. now apply R2. }
      destruct X2 as (_ & Hsz2 & Hb2 & Hd2 & Ht2).
      replace (a + K - (e - a)) with (a + (K - d)) by (unfold d in *; lia).
      assert (X3 : exists b3, o_move o b2 (a + est) (a + (K - d)) = Val b3 /\ I cap b3
         /\ (forall i, i < a -> rd b3 i = u i)
         /\ (forall i, i < est -> i < K - d -> rd b3 (a + i) = nth i data 0%N)
         /\ (forall i, i < n - e -> rd b3 (a + (K - d) + i) = u (e + i))).
      { destruct (Nat.lt_trichotomy est (K - d)) as [Lt|[Eq|Gt]].
        - destruct (l_right _ _ _ _ _ _ _ L cap b2 (a + est) (a + (K - d)) I2 ltac:(lia) ltac:(lia)) as (b3 & E3 & I3 & R3).
          exists b3. split; [exact E3|]. split; [exact I3|]. split; [|split].
          + intros i Hi. rewrite R3 by lia. replace (a + (K - d) <=? i) with false by lia. auto.
          + intros i Hi Hi'. rewrite R3 by lia. replace (a + (K - d) <=? a + i) with false by lia. auto.
          + intros i Hi. rewrite R3 by lia. replace (a + (K - d) <=? a + (K - d) + i) with true by lia. rewrite <- Ht2 by lia. f_equal. lia.
        - rewrite <- Eq. rewrite (l_same _ _ _ _ _ _ _ L cap b2 _ I2). exists b2. split; [reflexivity|]. split; [exact I2|]. split; [|split]; auto.
        - destruct (l_left _ _ _ _ _ _ _ L cap b2 (a + est) (a + (K - d)) I2 ltac:(lia) ltac:(lia)) as (b3 & E3 & I3 & R3).
          exists b3. split; [exact E3|]. split; [exact I3|]. split; [|split].
          + intros i Hi. rewrite R3 by lia. replace ((a + (K - d) <=? i) && (i <? cap - (a + est - (a + (K - d))))) with false by lia. auto.
          + intros i Hi Hi'. rewrite R3 by lia. replace ((a + (K - d) <=? a + i) && (a + i <? cap - (a + est - (a + (K - d))))) with false by lia. auto.
          + intros i Hi. rewrite R3 by (unfold d in *; lia). replace ((a + (K - d) <=? a + (K - d) + i) && (a + (K - d) + i <? cap - (a + est - (a + (K - d))))) with true by (unfold d in *; lia).
            rewrite <- Ht2 by lia. f_equal. lia. }
      destruct X3 as (b3 & E3 & I3 & Hb3 & Hd3 & Ht3). rewrite E3. cbn [bind].
      destruct (Nat.leb_spec K est) as [Le|Gt].
      + eexists. split; [reflexivity|]. cbn beta iota. split; [lia|exact I3].
      + destruct (last_round k b3 est (extra * 2)) as (r & Er & Pr); try lia.
        { split; [exact I3|]. split; [exact Hb3|]. split; [exact Hd3|]. split.
          - intros i _ Hi. now apply Ht3.
          - intros i Hi. replace (a + K + i) with (a + (K - d) + (d + i)) by lia. rewrite Ht3 by lia. f_equal. lia. }
        exists r. split; [exact Er|]. destruct r as [b' w' tl|b']; [|exact Pr]. destruct Pr as (P1 & P2 & P3 & P4).
        split; [lia|]. auto.
  Qed.

  Lemma first_move b1 sz est : I sz b1 -> n <= sz -> (forall i, i < n -> rd b1 i = u i) -> est + (n - (e - a)) <= sz ->
    exists b2, o_move o b1 e (a + est) = Val b2 /\ editing sz est 0 b2.
  Proof.
    intros I1 Hnsz R1 Hsz. destruct (Nat.lt_trichotomy e (a + est)) as [Lt|[Eq|Gt]].
    - destruct (l_right _ _ _ _ _ _ _ L sz b1 e (a + est) I1 Lt ltac:(lia)) as (b2 & E2 & I2 & R2).
      exists b2. split; [exact E2|]. split; [exact I2|]. split; [lia|]. split; [|split; [lia|]].
      + intros i Hi. rewrite R2 by lia. replace (a + est <=? i) with false by lia. apply R1. lia.
      + intros i Hi. rewrite R2 by lia. replace (a + est <=? a + est + i) with true by lia.
        rewrite R1 by lia. f_equal. lia.
    - rewrite <- Eq. rewrite (l_same _ _ _ _ _ _ _ L sz b1 e I1). exists b1. split; [reflexivity|].
      split; [exact I1|]. split; [lia|]. split; [|split; [lia|]].
      + intros i Hi. apply R1. lia.
      + intros i Hi. rewrite R1 by lia. f_equal. lia.
    - destruct (l_left _ _ _ _ _ _ _ L sz b1 e (a + est) I1 Gt ltac:(lia)) as (b2 & E2 & I2 & R2).
      exists b2. split; [exact E2|]. split; [exact I2|]. split; [lia|]. split; [|split; [lia|]].
      + intros i Hi. rewrite R2 by lia.
        replace ((a + est <=? i) && (i <? sz - (e - (a + est)))) with false by lia. apply R1. lia.
      + intros i Hi. rewrite R2 by lia.
        replace ((a + est <=? a + est + i) && (a + est + i <? sz - (e - (a + est)))) with true by lia.
        rewrite R1 by lia. f_equal. lia.
  Qed.

  (** The tail moves behind the items. *)
  Lemma last_move b sz est w : I sz b -> w <= est -> a + est + (n - e) <= sz ->
    exists b', o_move o b (a + est) (a + w) = Val b' /\ I sz b'
      /\ (forall i, i < a + w -> rd b' i = rd b i) /\ (forall i, i < n - e -> rd b' (a + w + i) = rd b (a + est + i)).
  Proof.
    intros HI Hw Hs. destruct (Nat.eq_dec w est) as [->|Ne].
    - rewrite (l_same _ _ _ _ _ _ _ L sz b _ HI). exists b. auto.
    - destruct (l_left _ _ _ _ _ _ _ L sz b (a + est) (a + w) HI ltac:(lia) ltac:(lia)) as (b' & E & I' & R).
      exists b'. split; [exact E|]. split; [exact I'|]. split; intros i Hi; rewrite R by lia.
      + replace ((a + w <=? i) && (i <? sz - (a + est - (a + w)))) with false by lia. reflexivity.
      + replace ((a + w <=? a + w + i) && (a + w + i <? sz - (a + est - (a + w)))) with true by lia. f_equal. lia.
  Qed.

  (** What the edit leaves when the capacity was met with [w] items written. *)
  Definition spoilt_text (w : nat) (b : list N) : Prop :=
    (forall i, i < a -> rd b i = u i)
    /\ (forall i, i < List.length data -> i < K - d \/ w <= i -> rd b (a + i) = nth i data 0%N)
    /\ (forall i, K - d + i < w -> i < n - e -> rd b (a + (K - d) + i) = u (e + i))
    /\ (forall i, d + i < n - e -> rd b (a + List.length data + i) = u (e + d + i)).

  Lemma splice_reach b src lo hi :
    I n b -> (forall i, i < n -> rd b i = u i) -> s_items src = data ->
    begin_of lo = a -> end_of hi n = e -> estimate (s_hint src) < List.length data ->
    shr = true \/ e - a <= estimate (s_hint src) ->
    exists b' ok, splice_detail o b src lo hi = Val (b', ok)
      /\ if List.length data <=? K
         then ok = true /\ W total b'
              /\ match reach (S (List.length data)) (estimate (s_hint src)) 1 K (List.length data) with
                 | None => forall i, i < total -> rd b' i = target u a e data i
                 | Some w => w < List.length data /\ spoilt_text w b'
                 end
         else ok = false /\ I cap b'.
  Proof.
    intros HI Hu Hs Hlo Hhi Hest Hshr. assert (Hae' : a <= e) by lia. assert (HK : d <= K /\ a + K + (n - e) = cap) by (unfold K, d; lia).
    set (est0 := estimate (s_hint src)) in *.
    assert (Tt : total = n - (e - a) + List.length data) by reflexivity.
    destruct (Nat.le_gt_cases est0 K) as [Le|Gt].
    2: { replace (List.length data <=? K) with false by lia.
         destruct (l_full _ _ _ _ _ _ _ L n b (est0 + n - (e - a)) cap HI eq_refl ltac:(unfold d in *; lia)) as (b1 & E1 & I1 & R1).
         destruct (splice_detail_full o I W rd okv (Some cap) shr L u n a e data Hae' Hen Hdata b b b1 cap src lo hi) as (b' & ok & E & P); auto.
         { apply (l_compact _ _ _ _ _ _ _ L _ _ HI). } { apply (l_size _ _ _ _ _ _ _ L _ _ HI). }
         { fold est0. unfold d in *. lia. } { fold est0. unfold d in *. lia. }
         { intros i Hi. rewrite R1 by lia. auto. }
         exists b', ok. split; [exact E|]. destruct ok; [|destruct P as (c & Ec & _ & Ic); injection Ec as <-; auto].
         destruct P as (P & _). cbn [fits_in] in P. unfold d in *. lia. }
    unfold splice_detail. rewrite (l_compact _ _ _ _ _ _ _ L _ _ HI). cbn [bind]. rewrite (l_size _ _ _ _ _ _ _ L _ _ HI). cbn [bind].
    rewrite Hlo, Hhi, Hs. fold est0. unfold sub_chk at 1. replace (e <? a) with false by lia. cbn [bind].
    assert (X1 : exists b1 sz, make_room o n a e b est0 = Val (b1, est0) /\ I sz b1 /\ n <= sz
       /\ (forall i, i < n -> rd b1 i = u i) /\ est0 + (n - (e - a)) <= sz /\ (shr = true \/ sz <= est0 + (n - (e - a)))).
    { unfold make_room. destruct (Nat.ltb_spec e (e + est0 - (e - a))) as [Lt|Ge].
      - unfold sub_chk. replace (est0 + n <? e - a) with false by lia. cbn [bind].
        destruct (l_grow _ _ _ _ _ _ _ L n b (est0 + n - (e - a)) HI ltac:(right; lia)) as (b1 & E1 & I1 & R1).
        { cbn [fits_in]. unfold d in *. lia. }
        rewrite E1. cbn [bind]. eexists. eexists. split; [reflexivity|]. split; [exact I1|]. split; [lia|]. split; [|split; [lia|right; lia]].
        intros i Hi. rewrite R1 by lia. auto.
      - exists b, n. split; [reflexivity|]. split; [exact HI|]. split; [lia|]. split; [exact Hu|]. split; [lia|]. destruct Hshr; [now left|right; lia]. }
    destruct X1 as (b1 & sz & E1 & I1 & Hn & R1 & Hsz & Hgr). unfold make_room in E1. rewrite E1. cbn [bind].
    replace (e + est0 - (e - a)) with (a + est0) by lia.
    destruct (first_move b1 sz est0 I1 Hn R1 Hsz) as (b2 & E2 & HE2). rewrite E2. cbn [bind].
    destruct (main_loop_reach (S (List.length data)) b2 sz 0 est0 1 HE2) as (r & Er & Pr); try lia; auto.
    { destruct (0 <? est0); lia. }
    change (skipn 0 data) with data in Er. rewrite Er. cbn [bind].
    destruct (reach (S (List.length data)) est0 1 K (List.length data)) as [w0|] eqn:Rc, r as [b3 w tl|b3].
    - destruct Pr as ([Lw Lk] & -> & -> & (I3 & Hb3 & Hd3 & Hm3 & Ht3)). replace (List.length data <=? K) with true by lia.
      destruct (last_move b3 cap K (List.length data) I3 Lk ltac:(lia)) as (b4 & E4 & I4 & R4 & T4). rewrite E4. cbn [bind].
      unfold sub_chk. replace (List.length data + n <? e - a) with false by lia. cbn [bind].
      replace (List.length data + n - (e - a)) with total by lia.
      assert (Ltot : total <= cap) by (unfold d in *; lia).
      destruct (l_final _ _ _ _ _ _ _ L cap b4 total I4 Ltot) as (b5 & E5 & W5 & _ & R5). rewrite E5. cbn [bind].
      exists b5, true. split; [reflexivity|]. split; [reflexivity|]. split; [exact W5|]. split; [lia|].
      split; [|split; [|split]].
      + intros i Hi. rewrite R5, R4 by lia. auto.
      + intros i Hi Hc. rewrite R5, R4 by lia. auto.
      + intros i Hi Hi'. rewrite R5, R4 by lia. auto.
      + intros i Hi. rewrite R5 by (unfold d in *; lia). rewrite T4 by lia. auto.
    - destruct Pr as [Lk I3]. replace (List.length data <=? K) with false by lia. exists b3, false. auto.
    - destruct Pr as (-> & sz3 & est3 & -> & Lw & (I3 & Hsz3 & Hb3 & Hd3 & Ht3)).
      pose proof (l_le _ _ _ _ _ _ _ L _ _ I3) as F3. cbn [fits_in] in F3.
      replace (List.length data <=? K) with true by (unfold d in *; lia).
      destruct (last_move b3 sz3 est3 (List.length data) I3 Lw ltac:(lia)) as (b4 & E4 & I4 & R4 & T4). rewrite E4. cbn [bind].
      unfold sub_chk. replace (List.length data + n <? e - a) with false by lia. cbn [bind].
      replace (List.length data + n - (e - a)) with total by lia.
      assert (Ltot : total <= cap) by (unfold d in *; lia).
      destruct (l_final _ _ _ _ _ _ _ L sz3 b4 total I4 Ltot) as (b5 & E5 & W5 & _ & R5). rewrite E5. cbn [bind].
      exists b5, true. split; [reflexivity|]. split; [reflexivity|]. split; [exact W5|].
      intros i Hi. rewrite R5 by lia. unfold target. destruct (Nat.ltb_spec i a); [rewrite R4 by lia; auto|].
      destruct (Nat.ltb_spec i (a + List.length data)).
      + rewrite R4 by lia. rewrite <- Hd3 by lia. f_equal. lia.
      + replace i with (a + List.length data + (i - (a + List.length data))) at 1 by lia. rewrite T4 by lia. apply Ht3. lia.
    - contradiction.
  Qed.
End Unannounced.
