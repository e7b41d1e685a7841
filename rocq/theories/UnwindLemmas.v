(** Lemmas on edits whose iterator panics: the buffer is then in the state that the loop of the editing algorithm has
    reached when it has used up the list of the items taken. *)
From Coq Require Import NArith List String Bool Arith Lia ZifyN ZifyNat ZifyBool.
From Verif Require Import Feed FeedLemmas.
From Verif Require Import Base BitOps Props Message Sysex Splice ListLemmas SpliceLemmas SpecSysex SpecEdits SysexClient Unwind SpecUnwind.
Import ListNotations.
Local Open Scope list_scope.
Local Open Scope nat_scope.

(** The answers still to come. *)
Definition ahead (r : risky) (p : peeking) (i : nat) : reply :=
  match pe_slot p with
  | Some v => match i with O => v | S j => rk_answer r (pe_calls p + j) end
  | None => rk_answer r (pe_calls p + i)
  end.
Lemma next_ahead r p : fst (pe_next r p) = ahead r p 0 /\ (forall i, ahead r (snd (pe_next r p)) i = ahead r p (S i)).
Proof.
  unfold pe_next, ahead. destruct (pe_slot p) as [v|]; cbn [fst snd pe_slot pe_calls].
  - split; reflexivity.
  - rewrite Nat.add_0_r. split; [reflexivity|]. intros i. now rewrite Nat.add_succ_r.
Qed.
Lemma peek_ahead r p : fst (pe_peek r p) = ahead r p 0 /\ forall i, ahead r (snd (pe_peek r p)) i = ahead r p i.
Proof.
  unfold pe_peek, ahead. destruct (pe_slot p) as [v|] eqn:E; cbn [fst snd pe_slot pe_calls].
  - rewrite E. split; reflexivity.
  - rewrite Nat.add_0_r. split; [reflexivity|]. intros [|i]; [now rewrite Nat.add_0_r|]. now rewrite Nat.add_succ_r.
Qed.
(** The items [data] come, and then the panic. *)
Definition doomed (r : risky) (p : peeking) (data : list N) : Prop :=
  (forall i, i < List.length data -> ahead r p i = Item (nth i data 0%N)) /\ ahead r p (List.length data) = Throws.
Lemma doomed_cons r p v t : doomed r p (v :: t) -> ahead r p 0 = Item v /\ doomed r (snd (pe_next r p)) t.
Proof.
  intros [C E]. destruct (next_ahead r p) as [_ U]. split; [apply (C 0); cbn; lia|]. split.
  - intros i I. rewrite U. apply (C (S i)). cbn. lia.
  - rewrite U. exact E.
Qed.

Lemma fill_doom o r at_ room : forall data b p w, doomed r p data ->
  match fill o b data at_ w room with
  | Panic => fill_u (room - w) o r b p at_ w = Panic
  | Val (b', _, _, true) => fill_u (room - w) o r b p at_ w = Val (Unwound b')
  | Val (b', w', rest, false) => exists p', fill_u (room - w) o r b p at_ w = Val (Ran (b', w', p', false)) /\ doomed r p' rest
      /\ w + List.length data = w' + List.length rest
  end.
Proof.
  induction data as [|v t IH]; intros b p w D; cbn [fill].
  - destruct (Nat.ltb_spec w room) as [L|L].
    + destruct D as [_ D]. cbn [List.length] in D. destruct (room - w) as [|k] eqn:K; [lia|]. cbn [fill_u].
      destruct (next_ahead r p) as [U _]. rewrite D in U. destruct (pe_next r p) as [a p']. cbn [fst] in U. now subst a.
    + replace (room - w) with 0 by lia. cbn [fill_u]. exists p. split; [reflexivity|]. split; [exact D|]. lia.
  - destruct (Nat.ltb_spec w room) as [L|L].
    + destruct (room - w) as [|k] eqn:K; [lia|]. replace k with (room - S w) by lia. cbn [fill_u].
      destruct (doomed_cons _ _ _ _ D) as [U0 D']. destruct (next_ahead r p) as [U _]. rewrite U0 in U.
      destruct (pe_next r p) as [a p'] eqn:P. cbn [fst snd] in *. subst a.
      destruct (o_write o b v (at_ + w)) as [b'|]; cbn [bind]; [|reflexivity].
      pose proof (IH b' p' (S w) D') as X. destruct (fill o b' t at_ (S w) room) as [[[[b2 w2] rest] [|]]|]; [exact X| |exact X].
      destruct X as (p2 & E & D2 & Tot). exists p2. split; [exact E|]. split; [exact D2|]. cbn [List.length]. lia.
    + replace (room - w) with 0 by lia. cbn [fill_u]. exists p. split; [reflexivity|]. split; [exact D|]. lia.
Qed.

Lemma main_doom o r begin_ splice_ initial : forall k k' b data p w est tail extra,
  k <= k' -> doomed r p data ->
  List.length data < k \/ (List.length data <= k /\ w < est /\ data <> []) ->
  match main_loop k o b data begin_ splice_ initial w est tail extra with
  | Panic => main_loop_u k' o r b p begin_ splice_ initial w est tail extra = Some Panic
  | Val (Done b' _ _) => main_loop_u k' o r b p begin_ splice_ initial w est tail extra = Some (Val (Unwound b'))
  | Val (Overflow b') => main_loop_u k' o r b p begin_ splice_ initial w est tail extra = Some (Val (Ran (Overflow b')))
  end.
Proof.
  induction k as [|k IH]; intros k' b data p w est tail extra K D Fu.
  { destruct Fu as [Fu|(Fu & _ & Ne)]; [lia|]. destruct data; [contradiction|cbn in Fu; lia]. }
  destruct k' as [|k']; [lia|]. cbn [main_loop main_loop_u].
  pose proof (fill_doom o r begin_ est data b p w D) as X.
  destruct (fill o b data begin_ w est) as [[[[b1 w1] rest] [|]]|] eqn:Fl; cbn [bind]; [rewrite X; reflexivity| |rewrite X; reflexivity].
  apply fill_grows in Fl. destruct Fl as [Gr Pr]. destruct X as (p1 & -> & D1 & Tot).
  destruct (Nat.eqb_spec w1 est) as [->|Ne]; cbn [negb]; [|reflexivity].
  destruct (peek_ahead r p1) as [Pk Up]. destruct (pe_peek r p1) as [a p2] eqn:P. cbn [fst snd] in *.
  destruct rest as [|v t].
  - destruct D1 as [_ D1]. cbn [List.length] in D1. rewrite D1 in Pk. subst a. reflexivity.
  - assert (a = Item v) as -> by (rewrite Pk; apply (proj1 D1 0); cbn; lia).
    destruct (sub_chk (est + extra + initial) splice_) as [n|]; cbn [bind]; [|reflexivity].
    match goal with |- context [bind ?z _] => destruct z as [[[b2 est2] to2]|] eqn:St end; cbn [bind]; [|reflexivity].
    destruct (o_move o b2 tail to2) as [b3|] eqn:Mv; cbn [bind]; [|reflexivity].
    destruct (Nat.leb_spec est2 est) as [Le|Lt]; [reflexivity|].
    assert (D2 : doomed r p2 (v :: t)) by (split; [intros i I; rewrite Up; now apply D1|rewrite Up; apply D1]).
    apply (IH k' b3 (v :: t) p2 est est2 (begin_ + est2) (extra * 2) ltac:(lia) D2).
    right. split; [|split; [exact Lt|discriminate]]. destruct Fu as [Fu|(Fu & Le & Nd)]; [lia|]. specialize (Pr Le Nd). lia.
Qed.

(** ** Reading off the payload *)

Section Torn.
  Context (o : ops) (I W : nat -> list N -> Prop) (rd : list N -> nat -> N) (okv : N -> Prop) (lim : option nat) (shr : bool).
  Context (L : laws o I W rd okv lim shr).

  Lemma editing_torn (l : list N) a e data sz est b : a <= e -> e <= List.length l -> List.length data <= est ->
    editing I rd (fun i => nth i l 0%N) (List.length l) a e data sz est (List.length data) b ->
    exists gap rest, let p := firstn a l ++ data ++ gap ++ skipn e l ++ rest in
      holds I rd p b /\ List.length gap = est - List.length data
      /\ List.length rest = sz - (est + (List.length l - (e - a))).
  Proof.
    intros A B Hd (HI & Hsz & Hb & Hdt & Ht).
    exists (map (fun i => rd b (a + List.length data + i)) (seq 0 (est - List.length data))),
      (map (fun i => rd b (a + est + (List.length l - e) + i)) (seq 0 (sz - (est + (List.length l - (e - a)))))).
    set (gap := map _ (seq 0 (est - List.length data))). set (rest := map _ (seq 0 (sz - _))). intros p.
    assert (Lg : List.length gap = est - List.length data) by (unfold gap; now rewrite map_length, seq_length).
    assert (Lr : List.length rest = sz - (est + (List.length l - (e - a)))) by (unfold rest; now rewrite map_length, seq_length).
    assert (Lf : List.length (firstn a l) = a) by (rewrite firstn_length; lia).
    assert (Ls : List.length (skipn e l) = List.length l - e) by apply skipn_length.
    assert (Lp : List.length p = sz) by (unfold p; rewrite !app_length; lia).
    split; [|split; [exact Lg|exact Lr]]. split; [now rewrite Lp|]. rewrite Lp. intros i Hi. unfold p.
    destruct (Nat.lt_ge_cases i a) as [X1|X1].
    { rewrite app_nth1 by lia. rewrite nth_firstn. replace (i <? a) with true by lia. now apply Hb. }
    rewrite app_nth2 by lia. rewrite Lf. destruct (Nat.lt_ge_cases (i - a) (List.length data)) as [X2|X2].
    { rewrite app_nth1 by lia. rewrite <- Hdt by lia. f_equal. lia. }
    rewrite app_nth2 by lia. destruct (Nat.lt_ge_cases (i - a - List.length data) (List.length gap)) as [X3|X3].
    { rewrite app_nth1 by lia. unfold gap. rewrite nth_indep with (d' := rd b (a + List.length data + 0)) by (fold gap; lia).
      rewrite (map_nth (fun i => rd b (a + List.length data + i))). rewrite seq_nth by lia. f_equal. lia. }
    rewrite app_nth2 by lia. destruct (Nat.lt_ge_cases (i - a - List.length data - List.length gap) (List.length (skipn e l))) as [X4|X4].
    { rewrite app_nth1 by lia. rewrite nth_skipn, <- Ht by lia. f_equal. lia. }
    rewrite app_nth2 by lia. unfold rest. rewrite nth_indep with (d' := rd b (a + est + (List.length l - e) + 0)) by (fold rest; lia).
    rewrite (map_nth (fun i => rd b (a + est + (List.length l - e) + i))). rewrite seq_nth by lia. f_equal. lia.
  Qed.

  (** The whole edit: it is interrupted unless the items taken do not fit. *)
  Lemma detail_doom b (l data : list N) r lo hi a e n fuel :
    holds I rd l b -> Forall okv data -> throws_after r data -> promises r n ->
    begin_of lo = a -> end_of hi (List.length l) = e -> a <= e -> e <= List.length l ->
    a = e \/ List.length data <= n \/ (lim = None /\ shr = true) -> List.length data < fuel ->
    let n' := match lim with Some c => Nat.min n (Nat.max (e - a) (c - (List.length l - (e - a)))) | None => n end in
    if match lim with Some c => List.length l - (e - a) + List.length data <=? c | None => true end
    then exists b' p, splice_detail_u fuel o b r lo hi = Some (Val (Unwound b')) /\ holds I rd p b' /\ torn l a e n' data p
    else exists c b', lim = Some c /\ splice_detail_u fuel o b r lo hi = Some (Val (Ran (b', false))) /\ I c b'.
  Proof.
    intros [HI Hu] Hd Th Pm Hlo Hhi Hae Hel HC Fu n'. unfold promises in Pm.
    destruct (rk_hint r) as [h|] eqn:Eh; [|contradiction].
    assert (En : estimate h = n) by (destruct h as [z [w|]]; cbn [estimate]; lia). clear Pm.
    pose proof (laws_roomed o I W rd okv lim shr L (fun i => nth i l 0%N) (List.length l) a e data Hae Hel b n HI Hu HC) as RM.
    destruct (roomed_loop o I W rd okv lim shr L (fun i => nth i l 0%N) (List.length l) a e data Hae Hel Hd b n RM)
      as (b1 & est & sz & b2 & q & E1 & E2 & Er & Pr & Hn & Hs & Heq & Hno & HX). clear RM.
    assert (St : splice_detail_u fuel o b r lo hi = match main_loop_u fuel o r b2 pe_new a (e - a) (List.length l) 0 est (a + est) 1 with
      | None => None | Some Panic => Some Panic | Some (Val (Unwound b3)) => Some (Val (Unwound b3))
      | Some (Val (Ran (Overflow b3))) => Some (Val (Ran (b3, false)))
      | Some (Val (Ran (Done b3 w tail'))) =>
          Some (b4 <- o_move o b3 tail' (a + w) ;; m <- sub_chk (w + List.length l) (e - a) ;; q <- o_resize o b4 m ;;
                match q with (b5, None) => Val (Ran (b5, true)) | (b5, Some _) => Val (Ran (b5, false)) end)
      end).
    { unfold splice_detail_u. rewrite (l_compact _ _ _ _ _ _ _ L _ _ HI). cbn [bind]. rewrite (l_size _ _ _ _ _ _ _ L _ _ HI). cbn [bind].
      rewrite Hlo, Hhi, Eh, En. unfold sub_chk at 1. replace (e <? a) with false by lia. cbn [bind].
      unfold make_room in E1. rewrite E1. cbn [bind]. replace (e + est - (e - a)) with (a + est) by lia. rewrite E2. reflexivity. }
    rewrite St. clear St.
    assert (D : doomed r pe_new data) by exact Th.
    pose proof (main_doom o r a (e - a) (List.length l) (S (List.length data)) fuel b2 data pe_new 0 est (a + est) 1 ltac:(lia) D ltac:(left; lia)) as X.
    rewrite Er in X. destruct q as [b3 w tail|b3]; rewrite X; cbn [loop_post] in Pr.
    - destruct Pr as (-> & sz3 & est3 & _ & Lw & Same & Grown & HE).
      destruct (editing_torn l a e data sz3 est3 b3 Hae Hel Lw HE) as (gap & rest & Hh & Lg & Lr). cbv zeta in Hh.
      destruct HE as (I3 & Hsz3 & _). pose proof (l_le _ _ _ _ _ _ _ L _ _ I3) as Le3.
      assert (F : match lim with Some c => List.length l - (e - a) + List.length data <=? c | None => true end = true).
      { destruct lim as [c|]; [|reflexivity]. cbn [fits_in] in Le3. lia. }
      rewrite F. eexists b3, _. split; [reflexivity|]. split; [exact Hh|]. exists gap, rest. split; [reflexivity|].
      assert (Ee : est = n').
      { unfold n'. pose proof (l_le _ _ _ _ _ _ _ L _ _ HI) as Le. destruct lim as [c|]; cbn [fits_in] in *.
        - destruct HX as [HX|(c' & [= <-] & HX & HY)]; [|clear - HX HY Le Hae Hel Le3 Lw Same Grown; lia]. subst est.
          destruct (Nat.le_gt_cases n (e - a)); [clear - H; lia|]. pose proof (Heq ltac:(lia)) as Hq.
          lia.
        - destruct HX as [HX|(c' & [=] & _)]. exact HX. }
      rewrite <- Ee. split.
      + intros Q. destruct (Same Q) as [-> ->]. split; [exact Lg|]. rewrite Lr.
        destruct (Nat.le_gt_cases (e - a) est) as [Z|Z]; [rewrite (Heq Z); lia|].
        rewrite (Hno ltac:(lia)); [lia|]. unfold n' in Ee. destruct lim as [c|]; [|exact Ee].
        destruct HX as [HX|(c' & [= <-] & HX & HY)]; [exact HX|]. pose proof (l_le _ _ _ _ _ _ _ L _ _ HI) as Le. cbn [fits_in] in Le. lia.
      + intros Q. destruct (Grown Q) as [G1 G2]. split; [|lia]. rewrite G1 in Lr. destruct rest; [reflexivity|cbn in Lr; lia].
    - destruct Pr as (c & El & Lc & Ic). subst lim. unfold total in Lc.
      replace (List.length l - (e - a) + List.length data <=? c) with false by lia. exists c, b3. auto.
  Qed.
End Torn.

(** ** The methods *)

Section Methods.
  Context (o : ops) (I W : nat -> list N -> Prop) (rd : list N -> nat -> N) (okv : N -> Prop).

  Lemma risk_edit_doom (L : laws o I W rd okv None true) x b l taken n fuel :
    holds I rd l b -> Forall okv taken -> throws_after (risky_of x) taken -> promises (risky_of x) n ->
    risk_inside x (List.length l) -> List.length taken < fuel ->
    exists b' p, risk_edit fuel o b x = Some (Val (Unwound b')) /\ holds I rd p b' /\ interrupted x l n taken p.
  Proof.
    intros Hh Hv Th Pm In Fu.
    assert (X : forall r lo hi b l, holds I rd l b -> throws_after r taken -> promises r n ->
      begin_of lo <= end_of hi (List.length l) <= List.length l ->
      exists b' p, splice_u fuel o b r lo hi = Some (Val (Unwound b')) /\ holds I rd p b'
        /\ torn l (begin_of lo) (end_of hi (List.length l)) n taken p).
    { clear - L Hv Fu. intros r lo hi b l Hh Th Pm [A B].
      destruct (detail_doom o I W rd okv None true L b l taken r lo hi _ _ n fuel Hh Hv Th Pm eq_refl eq_refl A B ltac:(auto) Fu)
        as (b' & p & E & Hp & T). exists b', p. split; [|split; [exact Hp|exact T]]. unfold splice_u. now rewrite E. }
    destruct x as [r|r lo hi|r i|r]; cbn [risky_of risk_inside risk_edit] in *; unfold interrupted; cbn [before cut_begin cut_end].
    - destruct (l_grow _ _ _ _ _ _ _ L _ b 0 (proj1 Hh) (or_introl eq_refl) Logic.I) as (b1 & E & I1 & _). rewrite E. cbn [fst].
      apply (X r (Included 0) (Excluded 0) b1 []); auto. split; [exact I1|]. cbn. lia.
    - now apply X.
    - apply (X r (Included i) (Excluded i)); auto.
    - rewrite (l_size _ _ _ _ _ _ _ L _ _ (proj1 Hh)). apply (X r (Included (List.length l)) (Excluded (List.length l))); auto.
  Qed.

  (** An iterator whose [size_hint] panics *)
  Lemma detail_mute lim shr (L : laws o I W rd okv lim shr) b l r lo hi fuel : holds I rd l b -> rk_hint r = None ->
    begin_of lo <= end_of hi (List.length l) -> splice_detail_u fuel o b r lo hi = Some (Val (Unwound b)).
  Proof.
    intros [HI _] Hn A. unfold splice_detail_u. rewrite (l_compact _ _ _ _ _ _ _ L _ _ HI). cbn [bind].
    rewrite (l_size _ _ _ _ _ _ _ L _ _ HI). cbn [bind]. unfold sub_chk.
    replace (end_of hi (List.length l) <? begin_of lo) with false by lia. cbn [bind]. now rewrite Hn.
  Qed.

  Lemma risk_edit_mute (L : laws o I W rd okv None true) x b l fuel :
    holds I rd l b -> rk_hint (risky_of x) = None -> risk_inside x (List.length l) ->
    exists b', risk_edit fuel o b x = Some (Val (Unwound b')) /\ holds I rd (before x l) b'.
  Proof.
    intros Hh Hn In. destruct x as [r|r lo hi|r i|r]; cbn [risky_of risk_inside risk_edit before] in *; unfold splice_u.
    - destruct (l_grow _ _ _ _ _ _ _ L _ b 0 (proj1 Hh) (or_introl eq_refl) Logic.I) as (b1 & E & I1 & _). rewrite E. cbn [fst].
      assert (H1 : holds I rd [] b1) by (split; [exact I1|cbn; lia]).
      rewrite (detail_mute None true L b1 [] r (Included 0) (Excluded 0) fuel H1 Hn ltac:(cbn; lia)). eauto.
    - rewrite (detail_mute None true L b l r lo hi fuel Hh Hn ltac:(apply In)). eauto.
    - rewrite (detail_mute None true L b l r (Included i) (Excluded i) fuel Hh Hn ltac:(cbn; lia)). eauto.
    - rewrite (l_size _ _ _ _ _ _ _ L _ _ (proj1 Hh)).
      rewrite (detail_mute None true L b l r (Included (List.length l)) (Excluded (List.length l)) fuel Hh Hn ltac:(cbn; lia)). eauto.
  Qed.

  Lemma risk_try_doom c shr (L : laws o I W rd okv (Some c) shr) x b l taken n fuel :
    holds I rd l b -> Forall okv taken -> throws_after (risky_of x) taken -> promises (risky_of x) n ->
    risk_inside x (List.length l) -> few x l n taken -> List.length taken < fuel -> shr = true \/ (forall r, x <> SetRisky r) ->
    if length_with x l taken <=? c
    then exists b' p, risk_try fuel o b x = Some (Val (Unwound b')) /\ holds I rd p b' /\ interrupted x l (expected c x l n) taken p
    else exists b', risk_try fuel o b x = Some (Val (Ran (b', false))) /\ W 0 b'.
  Proof.
    intros Hh Hv Th Pm In Fw Fu Sh.
    assert (X : forall r lo hi b l, holds I rd l b -> throws_after r taken -> promises r n ->
      begin_of lo <= end_of hi (List.length l) <= List.length l ->
      begin_of lo = end_of hi (List.length l) \/ List.length taken <= n ->
      let sp := end_of hi (List.length l) - begin_of lo in
      if List.length l - sp + List.length taken <=? c
      then exists b' p, try_splice_u fuel o b r lo hi = Some (Val (Unwound b')) /\ holds I rd p b'
        /\ torn l (begin_of lo) (end_of hi (List.length l)) (Nat.min n (Nat.max sp (c - (List.length l - sp)))) taken p
      else exists b', try_splice_u fuel o b r lo hi = Some (Val (Ran (b', false))) /\ W 0 b').
    { clear - L Hv Fu. intros r lo hi b l Hh Th Pm [A B] Fw sp.
      pose proof (detail_doom o I W rd okv (Some c) shr L b l taken r lo hi _ _ n fuel Hh Hv Th Pm eq_refl eq_refl A B ltac:(tauto) Fu) as X.
      cbv zeta iota in X. fold sp in X. unfold try_splice_u. destruct (List.length l - sp + List.length taken <=? c).
      - destruct X as (b' & p & E & Hp & T). exists b', p. split; [|split; [exact Hp|exact T]]. now rewrite E.
      - destruct X as (c' & b' & _ & E & Ic). rewrite E.
        destruct (l_final _ _ _ _ _ _ _ L _ b' 0 Ic ltac:(cbn; lia)) as (b2 & E2 & W2 & _). rewrite E2. cbn [bind fst]. eauto. }
    destruct x as [r|r lo hi|r i|r]; cbn [risky_of risk_inside risk_try] in *; unfold interrupted, expected, length_with, few in *; cbn [before cut_begin cut_end] in *.
    - destruct Sh as [->|Sh]; [|now destruct (Sh r)].
      destruct (l_grow _ _ _ _ _ _ _ L _ b 0 (proj1 Hh) (or_introl eq_refl) ltac:(cbn; lia)) as (b1 & E & I1 & _). rewrite E.
      apply (X r (Included 0) (Excluded 0) b1 []); auto. split; [exact I1|]. cbn. lia.
    - now apply X.
    - apply (X r (Included i) (Excluded i)); auto.
    - rewrite (l_size _ _ _ _ _ _ _ L _ _ (proj1 Hh)). apply (X r (Included (List.length l)) (Excluded (List.length l))); auto.
  Qed.

  Lemma risk_try_mute c shr (L : laws o I W rd okv (Some c) shr) x b l fuel :
    holds I rd l b -> rk_hint (risky_of x) = None -> risk_inside x (List.length l) -> shr = true \/ (forall r, x <> SetRisky r) ->
    exists b', risk_try fuel o b x = Some (Val (Unwound b')) /\ holds I rd (before x l) b'.
  Proof.
    intros Hh Hn In Sh. destruct x as [r|r lo hi|r i|r]; cbn [risky_of risk_inside risk_try before] in *; unfold try_splice_u.
    - destruct Sh as [->|Sh]; [|now destruct (Sh r)].
      destruct (l_grow _ _ _ _ _ _ _ L _ b 0 (proj1 Hh) (or_introl eq_refl) ltac:(cbn; lia)) as (b1 & E & I1 & _). rewrite E. cbn [fst].
      assert (H1 : holds I rd [] b1) by (split; [exact I1|cbn; lia]).
      rewrite (detail_mute (Some c) true L b1 [] r (Included 0) (Excluded 0) fuel H1 Hn ltac:(cbn; lia)). eauto.
    - rewrite (detail_mute (Some c) shr L b l r lo hi fuel Hh Hn ltac:(apply In)). eauto.
    - rewrite (detail_mute (Some c) shr L b l r (Included i) (Excluded i) fuel Hh Hn ltac:(cbn; lia)). eauto.
    - rewrite (l_size _ _ _ _ _ _ _ L _ _ (proj1 Hh)).
      rewrite (detail_mute (Some c) shr L b l r (Included (List.length l)) (Excluded (List.length l)) fuel Hh Hn ltac:(cbn; lia)). eauto.
  Qed.
End Methods.

(** ** Iterators that do not panic *)

Definition as_reply (a : option N) : reply := match a with Some v => Item v | None => NoMore end.
Definition as_peeking (p : peekable) : peeking := {| pe_calls := pk_calls p; pe_slot := option_map as_reply (pk_slot p) |}.
Definition as_run {A B} (k : A -> B) (x : option (outcome A)) : option (outcome (run B)) :=
  option_map (fun y => match y with Val z => Val (Ran (k z)) | Panic => Panic end) x.

Section Calm.
  Context (f : feed) (r : risky) (Ha : forall i, rk_answer r i = as_reply (fd_answer f i)) (Hh : rk_hint r = Some (fd_hint f)).

  Lemma next_calm p : pe_next r (as_peeking p) = (as_reply (fst (pk_next f p)), as_peeking (snd (pk_next f p))).
  Proof. unfold pe_next, pk_next, as_peeking. cbn [pe_slot pe_calls]. destruct (pk_slot p) as [v|]; cbn [option_map fst snd pk_slot pk_calls]; [reflexivity|now rewrite Ha]. Qed.
  Lemma peek_calm p : pe_peek r (as_peeking p) = (as_reply (fst (pk_peek f p)), as_peeking (snd (pk_peek f p))).
  Proof.
    unfold pe_peek, pk_peek, as_peeking. cbn [pe_slot pe_calls]. destruct (pk_slot p) as [v|] eqn:E; cbn [option_map fst snd pk_slot pk_calls].
    - now rewrite E.
    - now rewrite Ha.
  Qed.

  Lemma fill_calm o at_ : forall k b p w, fill_u k o r b (as_peeking p) at_ w
    = match fill_f k o f b p at_ w with Panic => Panic | Val (b', w', p', dry) => Val (Ran (b', w', as_peeking p', dry)) end.
  Proof.
    induction k as [|k IH]; intros b p w; cbn [fill_u fill_f]; [reflexivity|]. rewrite next_calm. destruct (pk_next f p) as [[v|] p']; cbn [fst snd as_reply]; [|reflexivity].
    destruct (o_write o b v (at_ + w)) as [b'|]; cbn [bind]; [apply IH|reflexivity].
  Qed.

  Lemma main_calm o begin_ splice_ initial : forall k b p w est tail extra,
    main_loop_u k o r b (as_peeking p) begin_ splice_ initial w est tail extra
    = as_run fst (main_loop_f k o f b p begin_ splice_ initial w est tail extra).
  Proof.
    induction k as [|k IH]; intros b p w est tail extra; cbn [main_loop_u main_loop_f]; [reflexivity|].
    rewrite fill_calm. destruct (fill_f (est - w) o f b p begin_ w) as [[[[b1 w1] p1] [|]]|]; [reflexivity| |reflexivity].
    destruct (negb (w1 =? est)); [reflexivity|]. rewrite peek_calm. destruct (pk_peek f p1) as [[v|] p2]; cbn [fst snd as_reply]; [|reflexivity].
    destruct (sub_chk (est + extra + initial) splice_) as [n|]; cbn [bind]; [|reflexivity].
    match goal with |- context [bind ?z _] => destruct z as [[[b2 est2] to2]|] end; cbn [bind]; [|reflexivity].
    destruct (o_move o b2 tail to2) as [b3|]; cbn [bind]; [|reflexivity].
    destruct (est2 <=? w1); [reflexivity|apply IH].
  Qed.

  Lemma detail_calm fuel o b lo hi : splice_detail_u fuel o b r lo hi = as_run fst (splice_detail_f fuel o b f lo hi).
  Proof.
    unfold splice_detail_u, splice_detail_f. rewrite Hh.
    destruct (o_compact o b) as [b0|]; cbn [bind]; [|reflexivity].
    destruct (o_payload_size o b0) as [initial|]; cbn [bind]; [|reflexivity].
    destruct (sub_chk (end_of hi initial) (begin_of lo)) as [sp|]; cbn [bind]; [|reflexivity].
    match goal with |- context [bind ?z _] => destruct z as [[b1 est]|] end; cbn [bind]; [|reflexivity].
    destruct (o_move o b1 (end_of hi initial) (end_of hi initial + est - sp)) as [b2|]; cbn [bind]; [|reflexivity].
    change pe_new with (as_peeking pk_new). rewrite main_calm.
    destruct (main_loop_f fuel o f b2 pk_new (begin_of lo) sp initial 0 est (end_of hi initial + est - sp) 1) as [[[[b3 w t|b3] p]|]|]; cbn [as_run option_map then_do bind fst]; try reflexivity.
    destruct (o_move o b3 t (begin_of lo + w)) as [b4|]; cbn [bind]; [|reflexivity].
    destruct (sub_chk (w + initial) sp) as [n|]; cbn [bind]; [|reflexivity].
    destruct (o_resize o b4 n) as [[b5 [z|]]|]; reflexivity.
  Qed.
  Lemma splice_calm fuel o b lo hi : splice_u fuel o b r lo hi = as_run fst (splice_f fuel o b f lo hi).
  Proof.
    unfold splice_u, splice_f. rewrite detail_calm. destruct (splice_detail_f fuel o b f lo hi) as [[[[b' [|]] c]|]|]; reflexivity.
  Qed.
  Lemma try_splice_calm fuel o b lo hi : try_splice_u fuel o b r lo hi = as_run fst (try_splice_f fuel o b f lo hi).
  Proof.
    unfold try_splice_u, try_splice_f. rewrite detail_calm. destruct (splice_detail_f fuel o b f lo hi) as [[[[b' [|]] c]|]|]; try reflexivity.
    cbn [as_run option_map then_do bind fst]. destruct (o_resize o b' 0) as [q|]; reflexivity.
  Qed.
End Calm.
