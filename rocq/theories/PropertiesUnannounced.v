(** C22, for iterators that yield more than they announced: what a splice that replaces part of the payload of a message
    in an array of words does, exactly. *)
From Coq Require Import NArith List Bool Arith Lia ZifyBool.
From Verif Require Import Base Sysex Splice SpecSysex SpecEdits SpecUnannounced SysexClient ListLemmas SysexLayout SpliceLemmas
  SysexLaws SysexBridge SysexHold SysexMore SysexInit SysexTail SysexHistory SpliceUnannounced UnannouncedLemmas PropertiesSysex.
Import ListNotations.
Local Open Scope nat_scope.

(** [K] items fit in place of the bytes replaced.  The items that come are too many for the buffer: an error and an empty
    message.  The room made reaches them without exceeding the buffer: the edit.  The room wanted exceeds the buffer before
    that: success is reported with a spoilt payload. *)
Theorem C22_unannounced_exact : forall fm src lo hi b g s l,
  message_in fm g s l b -> Forall (is_unit fm) (s_items src) ->
  let a := range_begin lo in let e := range_end hi (List.length l) in let n := List.length (s_items src) in
  let K := room_in fm (List.length b) - (List.length l - (e - a)) in
  a < e -> e <= List.length l -> announced src < n ->
  exists b' p ok, try_edit fm (SplicePayload src lo hi) b = Val (b', ok) /\ List.length b' = List.length b
    /\ message_in fm g s p b' /\ payload_list (fmt_for fm) b' = Val p
    /\ (K < n -> ok = false /\ p = [])
    /\ (forall k, n <= room_after (announced src) k <= K -> ok = true /\ p = replaced l a e (s_items src))
    /\ (forall k, room_after (announced src) k < n <= K -> K < room_after (announced src) (S k) ->
          ok = true /\ spoilt_payload l a e (s_items src) (room_after (announced src) k) K p).
Proof.
  intros fm src lo hi b g s l M Hv a e n K Hae Hel An.
  pose proof (message_in_inv fm g s l b false M ltac:(discriminate)) as [H Hg].
  pose proof (ump_laws_fixed (fmt_of fm) g s false (List.length b) (okf_of fm) Hg) as L.
  set (c := room_in fm (List.length b)) in *.
  assert (Hc : List.length l <= c).
  { unfold c. rewrite <- capacity_of. eapply framed_le_capacity; eauto. apply H. }
  destruct H as [HI HR]. rewrite capacity_of in L. fold c in L.
  destruct (splice_reach _ _ _ _ _ _ _ L (fun i => nth i l 0%N) (List.length l) a e (s_items src) Hae Hel (units_ok _ _ Hv) Hc b src lo hi HI HR
    eq_refl eq_refl eq_refl An (or_introl eq_refl)) as (b1 & ok & E & P).
  change (estimate (s_hint src)) with (announced src) in P. fold n in P. fold K in P.
  cbn [try_edit]. rewrite fmt_for_of. unfold try_splice. rewrite E. cbn [bind].
  destruct (Nat.leb_spec n K) as [Le|Gt].
  - destruct P as (-> & [W _] & P). set (t := total (List.length l) a e (s_items src)) in *.
    set (p := map (rd (fmt_of fm) b1) (seq 0 t)).
    assert (Lp : List.length p = t) by (unfold p; now rewrite map_length, seq_length).
    assert (Np : forall i, i < t -> nth i p 0%N = rd (fmt_of fm) b1 i).
    { intros i Hi. unfold p. rewrite (nth_indep _ 0%N (rd (fmt_of fm) b1 0)) by (rewrite map_length, seq_length; lia).
      rewrite map_nth, seq_nth by lia. reflexivity. }
    destruct (inv_message_in fm g s p b1 false (List.length b) Hg) as (M1 & _ & L1).
    { split; [now rewrite Lp|]. intros i Hi. rewrite Np by lia. reflexivity. }
    assert (Tt : t = List.length l - (e - a) + n) by reflexivity.
    exists b1, p, true. split; [reflexivity|]. split; [exact L1|]. split; [exact M1|]. split; [apply (message_in_reads _ _ _ _ _ M1)|].
    split; [lia|]. split.
    + intros k Hk. split; [reflexivity|].
      replace (reach (S n) (announced src) 1 K n) with (@None nat) in P.
      2: { symmetry. replace (announced src) with (room_after (announced src) 0) by (unfold room_after; cbn; lia).
           now apply (reach_enough (announced src) K n (S n) 0 k). }
      apply list_is.
      * unfold replaced. rewrite Lp, !app_length, firstn_length, skipn_length. fold n. lia.
      * intros i Hi. rewrite Np, P by lia. unfold target, replaced. fold n.
        destruct (Nat.ltb_spec i a); [rewrite app_nth1 by (rewrite firstn_length; lia); now rewrite nth_cut by lia|].
        rewrite app_nth2 by (rewrite firstn_length; lia). rewrite firstn_length. replace (Nat.min a (List.length l)) with a by lia.
        destruct (Nat.ltb_spec i (a + n)); [now rewrite app_nth1 by (fold n; lia)|].
        rewrite app_nth2 by (fold n; lia). fold n. rewrite nth_skipn. f_equal. lia.
    + intros k [Hk _] Hk'. split; [reflexivity|].
      replace (reach (S n) (announced src) 1 K n) with (Some (room_after (announced src) k)) in P.
      2: { symmetry. replace (announced src) with (room_after (announced src) 0) at 1 by (unfold room_after; cbn; lia).
           pose proof (pow_gt k). unfold room_after in Hk. apply (reach_full (announced src) K n k); unfold room_after in *; lia. }
      destruct P as (Pw & P1 & P2 & P3 & P4). fold n in P1, P2, P3, P4.
      apply spoilt_pieces; fold n; auto; try lia; intros i Hi; try intros Hi'; rewrite Np by lia; auto.
  - destruct P as [-> I1]. cbn [bind].
    destruct (fit_ump (fmt_of fm) g s false (List.length b) c b1 0 (okf_of fm) Hg I1) as (b2 & E2 & I2 & _); [lia|].
    cbn [ump_ops o_resize]. rewrite E2. cbn [bind fst].
    destruct (inv_message_in fm g s [] b2 false (List.length b) Hg) as (M2 & _ & L2); [split; [exact I2|cbn; lia]|].
    exists b2, [], false. split; [reflexivity|]. split; [exact L2|]. split; [exact M2|]. split; [apply (message_in_reads _ _ _ _ _ M2)|].
    split; [auto|]. split; intros k Hk; lia.
Qed.
Print Assumptions C22_unannounced_exact.

(** No other case is left. *)
Theorem C22_unannounced_cases : forall announced K n, announced < n ->
  K < n \/ (exists k, n <= room_after announced k <= K)
  \/ (exists k, room_after announced k < n <= K /\ K < room_after announced (S k)).
Proof. intros A K n H. destruct (Nat.lt_ge_cases K n); [now left|right; now apply room_cases]. Qed.
Print Assumptions C22_unannounced_cases.

(** The edit is right whenever the buffer has room for twice the unannounced items. *)
Theorem C22_unannounced_roomy : forall fm src lo hi b g s l,
  message_in fm g s l b -> legal fm (SplicePayload src lo hi) l ->
  let l' := new_payload (SplicePayload src lo hi) l in
  List.length l' + (List.length (s_items src) - announced src) <= room_in fm (List.length b) + 1 ->
  List.length l' <= room_in fm (List.length b) ->
  exists b', try_edit fm (SplicePayload src lo hi) b = Val (b', true) /\ List.length b' = List.length b
    /\ message_in fm g s l' b' /\ payload_list (fmt_for fm) b' = Val l'.
Proof.
  intros fm src lo hi b g s l M Lg l' Hr Hf. pose proof Lg as (Hv & H1 & H2).
  set (a := range_begin lo) in *. set (e := range_end hi (List.length l)) in *.
  assert (Ll : List.length l' = List.length l - (e - a) + List.length (s_items src)).
  { unfold l'. cbn [new_payload]. fold a e. unfold replaced. rewrite !app_length, firstn_length, skipn_length. lia. }
  destruct (Nat.eq_dec a e) as [Eq|Ne]; [|destruct (Nat.le_gt_cases (List.length (s_items src)) (announced src)) as [Le|Gt]].
  3: { destruct (C22_unannounced_exact fm src lo hi b g s l M Hv) as (b' & p & ok & E & Len & M' & Pl & _ & Good & Bad); fold a e; try lia.
       fold a e in Good, Bad.
       destruct (C22_unannounced_cases (announced src) (room_in fm (List.length b) - (List.length l - (e - a))) (List.length (s_items src)) Gt) as [X|[[k X]|(k & X & Y)]].
       - lia.
       - destruct (Good k X) as [-> ->]. exists b'. auto.
       - exfalso. pose proof (pow_pos k). unfold room_after in X, Y. cbn [Nat.pow] in Y. lia. }
  all: destruct (C22_fixed_edit fm (SplicePayload src lo hi) b g s l M Lg ltac:(cbn; fold a e; lia)) as (b' & E & Len & M' & Pl);
    fold l' in E, M', Pl; replace (List.length l' <=? room_in fm (List.length b)) with true in * by lia; exists b'; auto.
Qed.
Print Assumptions C22_unannounced_roomy.

(** The message of C22_unannounced_refuted and two others meet the hypotheses: replacing four of twelve bytes by four, in
    arrays with room for 12, 24 and 12 (room for 4, 16 and 4 items; announced: 0, 0 and 1). *)
Definition four : list N := [101; 102; 103; 104]%N.
Example C22_unannounced_case :
  (exists b, message_in SevenBit 0 (Some 0%N) (up 12) b /\ List.length b = 4)
  /\ (exists b, message_in SevenBit 0 (Some 0%N) (up 12) b /\ List.length b = 8)
  /\ Forall (is_unit SevenBit) four
  /\ (room_after 0 2 < 4 <= 4 /\ 4 < room_after 0 3)
  /\ (4 <= room_after 0 3 <= 16)
  /\ (4 <= room_after 1 2 <= 4)
  /\ spoilt_payload (up 12) 0 4 four (room_after 0 2) 4 [5; 6; 7; 104; 9; 10; 11; 12; 0; 11; 12; 0]%N.
Proof.
  assert (X : forall n, 4 <= n -> exists b, message_in SevenBit 0 (Some 0%N) (up 12) b /\ List.length b = n).
  { intros n Hn. pose proof (try_new_fresh SevenBit n) as T. change (packet_words SevenBit) with 2 in T.
    replace (n <? 2) with false in T by lia. destruct T as (b0 & _ & L0 & M0 & _).
    destruct (C22_fixed_edit SevenBit (SetPayload (exactly (up 12))) b0 _ _ _ M0 (up_units SevenBit 12 ltac:(lia)) Logic.I) as (b1 & _ & L1 & M1 & _).
    change (new_payload (SetPayload (exactly (up 12))) []) with (up 12) in M1. rewrite L0 in *.
    replace (List.length (up 12) <=? room_in SevenBit n) with true in M1.
    - exists b1. auto.
    - symmetry. apply Nat.leb_le. change (List.length (up 12)) with 12. unfold room_in. cbn [packet_words].
      pose proof (Nat.div_le_mono 4 n 2 ltac:(lia) Hn) as D. change (4 / 2) with 2 in D. cbn in *. lia. }
  split; [apply X; lia|]. split; [apply X; lia|]. split; [repeat constructor|]. split; [cbn; lia|]. split; [cbn; lia|]. split; [cbn; lia|].
  exists [5; 6; 7]%N, [0; 11; 12; 0]%N. repeat split.
Qed.
