(** C22, for iterators that yield more than they announced and byte arrays: an edit whose result does not fit fails cleanly
    whatever was announced; what happens to the others. *)
From Coq Require Import NArith List Bool Arith Lia ZifyBool.
From Verif Require Import Base Message Sysex Splice SpecSysex SpecEdits SpecUnannounced SysexClient ListLemmas SysexLayout SpliceLemmas
  SysexBytes SysexHold SysexMore SysexInit SysexTail SysexHistory SpliceUnannounced UnannouncedLemmas BytesCrowded PropertiesSysex PropertiesUnannounced.
Import ListNotations.
Local Open Scope nat_scope.

(** The message is a byte array that holds the payload [l] and then [r], without a stale end byte. *)
Theorem C22_bytes_unannounced_exact : forall l r src lo hi,
  Forall (is_unit SevenBit) l -> Forall (fun x => x <> 0xF7%N) r -> Forall (is_unit SevenBit) (s_items src) ->
  let a := range_begin lo in let e := range_end hi (List.length l) in let n := List.length (s_items src) in
  let room := List.length l + List.length r in let K := room - (List.length l - (e - a)) in
  a < e -> e <= List.length l -> e - a <= announced src < n ->
  exists p r' ok, try_edit_b (SplicePayload src lo hi) (stream_bytes l ++ r) = Val (stream_bytes p ++ r', ok)
    /\ List.length p + List.length r' = room /\ Forall (fun x => x <> 0xF7%N) p
    /\ (K < n -> ok = false /\ p = [])
    /\ (forall k, n <= room_after (announced src) k <= K -> ok = true /\ p = replaced l a e (s_items src))
    /\ (forall k, room_after (announced src) k < n <= K -> K < room_after (announced src) (S k) ->
          ok = true /\ spoilt_payload l a e (s_items src) (room_after (announced src) k) K p).
Proof.
  intros l r src lo hi Hl Hr Hv a e n room K Hae Hel [Ad An].
  set (len := List.length (stream_bytes l ++ r)).
  assert (Lc : len - 2 = room) by (unfold len, room; rewrite app_length, stream_bytes_length; lia).
  assert (L2 : 2 <= len) by (unfold len; rewrite app_length, stream_bytes_length; lia).
  pose proof (fixed_bytes_inv l r len (septets_no_end l Hl) Hr eq_refl) as [HI HR].
  pose proof (bytes_laws_fixed len) as L. rewrite Lc in L.
  destruct (splice_reach _ _ _ _ _ _ _ L (fun i => nth i l 0%N) (List.length l) a e (s_items src) Hae Hel Hv ltac:(unfold room; lia) _ src lo hi HI HR
    eq_refl eq_refl eq_refl An (or_intror Ad)) as (b1 & ok & E & P).
  change (estimate (s_hint src)) with (announced src) in P. fold n in P. fold K in P.
  cbn [try_edit_b]. unfold try_splice. rewrite E. cbn [bind].
  assert (Out : forall p b, sealed (List.length p) b -> List.length b = len -> (forall i, i < List.length p -> rd_b b i = nth i p 0%N) ->
    b = stream_bytes p ++ skipn (List.length p + 2) b /\ List.length p + List.length (skipn (List.length p + 2) b) = room
    /\ Forall (fun x => x <> 0xF7%N) p).
  { intros p b S Lb R. split; [apply sealed_stream; split; auto|]. split.
    - rewrite skipn_length. pose proof (se_len _ _ S). lia.
    - apply Forall_forall. intros x Hx. destruct (In_nth _ _ 0%N Hx) as (i & Hi & <-). rewrite <- R by lia. apply (se_body _ _ S i Hi). }
  destruct (Nat.leb_spec n K) as [Le|Gt].
  - destruct P as (-> & [W Lb] & P). set (t := total (List.length l) a e (s_items src)) in *.
    set (p := map (rd_b b1) (seq 0 t)).
    assert (Lp : List.length p = t) by (unfold p; now rewrite map_length, seq_length).
    assert (Np : forall i, i < t -> nth i p 0%N = rd_b b1 i).
    { intros i Hi. unfold p. rewrite (nth_indep _ 0%N (rd_b b1 0)) by (rewrite map_length, seq_length; lia).
      rewrite map_nth, seq_nth by lia. reflexivity. }
    destruct (Out p b1) as (Eb & Lr & Fp); [now rewrite Lp|exact Lb|intros i Hi; symmetry; apply Np; lia|].
    assert (Tt : t = List.length l - (e - a) + n) by reflexivity.
    exists p, (skipn (List.length p + 2) b1), true. split; [now rewrite <- Eb|]. split; [exact Lr|]. split; [exact Fp|].
    split; [lia|]. split.
    + intros k Hk. split; [reflexivity|].
      replace (reach (S n) (announced src) 1 K n) with (@None nat) in P.
      2: { symmetry. replace (announced src) with (room_after (announced src) 0) by (unfold room_after; cbn; lia).
           now apply (reach_enough (announced src) K n (S n) 0 k). }
      apply list_is.
      * unfold replaced. rewrite Lp, !app_length, firstn_length, skipn_length. fold n. lia.
      * intros i Hi. rewrite Np, P by lia. unfold target, replaced. fold n.
        destruct (Nat.ltb_spec i a); [rewrite app_nth1 by (rewrite firstn_length; lia); now rewrite nth_cut by lia|].
        rewrite app_nth2 by (rewrite firstn_length; lia). rewrite firstn_length. replace (Nat.min a (List.length l)) with a by lia.
        destruct (Nat.ltb_spec i (a + n)); [now rewrite app_nth1 by (fold n; lia)|].
        rewrite app_nth2 by (fold n; lia). fold n. rewrite nth_skipn. f_equal. lia.
    + intros k [Hk _] Hk'. split; [reflexivity|].
      replace (reach (S n) (announced src) 1 K n) with (Some (room_after (announced src) k)) in P.
      2: { symmetry. replace (announced src) with (room_after (announced src) 0) at 1 by (unfold room_after; cbn; lia).
           pose proof (pow_gt k). unfold room_after in Hk. apply (reach_full (announced src) K n k); unfold room_after in *; lia. }
      destruct P as (Pw & P1 & P2 & P3 & P4). fold n in P1, P2, P3, P4.
      apply spoilt_pieces; fold n; auto; try (unfold K, room; lia); intros i Hi; try intros Hi'; rewrite Np by lia; auto.
  - destruct P as [-> I1]. cbn [bind].
    destruct (l_final _ _ _ _ _ _ _ L _ b1 0 I1 ltac:(cbn; lia)) as (b2 & E2 & [S2 Lb] & _). rewrite E2. cbn [bind fst].
    destruct (Out [] b2) as (Eb & Lr & Fp); [exact S2|exact Lb|cbn; lia|].
    exists [], (skipn (List.length (@nil N) + 2) b2), false. split; [now rewrite <- Eb|]. split; [exact Lr|]. split; [exact Fp|].
    split; [auto|]. split; intros k Hk; lia.
Qed.
Print Assumptions C22_bytes_unannounced_exact.

(** An edit whose result does not fit: an error and an empty message, whatever was announced. *)
Theorem C22_bytes_too_many : forall l r src lo hi,
  Forall (is_unit SevenBit) l -> Forall (fun x => x <> 0xF7%N) r -> Forall (is_unit SevenBit) (s_items src) ->
  let a := range_begin lo in let e := range_end hi (List.length l) in
  a <= e -> e <= List.length l ->
  List.length l + List.length r < List.length (replaced l a e (s_items src)) ->
  exists r', try_edit_b (SplicePayload src lo hi) (stream_bytes l ++ r) = Val (stream_bytes [] ++ r', false)
    /\ List.length r' = List.length l + List.length r.
Proof.
  intros l r src lo hi Hl Hr Hv a e A B Big.
  assert (Ln : List.length (replaced l a e (s_items src)) = List.length l - (e - a) + List.length (s_items src)).
  { unfold replaced. rewrite !app_length, firstn_length, skipn_length. lia. }
  assert (D : (a = e \/ List.length (s_items src) <= announced src) \/ (a < e /\ announced src < List.length (s_items src))) by lia.
  destruct D as [D|[Ne Lt]].
  - pose proof (C22_bytes_splice l r src lo hi Hl Hr Hv A B D) as X. cbv zeta in X. fold a e in X.
    replace (List.length (replaced l a e (s_items src)) <=? List.length l + List.length r) with false in X by lia. exact X.
  - destruct (Nat.le_gt_cases (announced src) (e - a)) as [Few|Many].
    + set (len := List.length (stream_bytes l ++ r)).
      assert (Lc : len = List.length l + List.length r + 2) by (unfold len; rewrite app_length, stream_bytes_length; lia).
      pose proof (fixed_bytes_inv l r len (septets_no_end l Hl) Hr eq_refl) as [HI _].
      destruct (splice_crowded len (List.length l) a e (s_items src) Ne B Hv ltac:(lia) ltac:(lia) _ src lo hi HI eq_refl eq_refl eq_refl Few)
        as (b' & E & S & Lb).
      exists (skipn 2 b'). assert (Eb : b' = stream_bytes [] ++ skipn (List.length (@nil N) + 2) b').
      { apply sealed_stream. split; [exact S|cbn; lia]. }
      cbn [List.length Nat.add] in Eb. cbn [try_edit_b]. rewrite <- Eb. split; [exact E|]. rewrite skipn_length. lia.
    + destruct (C22_bytes_unannounced_exact l r src lo hi Hl Hr Hv) as (p & r' & ok & E & Lr & _ & X & _); fold a e; try lia.
      fold a e in X. destruct X as [-> ->]; [lia|]. exists r'. split; [exact E|]. exact Lr.
Qed.
Print Assumptions C22_bytes_too_many.

(** The other edits need the hypothesis [e - a <= announced src]: in an array of seven bytes that holds four payload bytes,
    replacing them by four of which none was announced panics. *)
Theorem C22_bytes_unannounced_refuted : exists b0 b1 src,
  try_new_b 7 = Val (Ok b0)
  /\ try_edit_b (SetPayload (exactly (up 4))) b0 = Val (b1, true) /\ b1 = (stream_bytes (up 4) ++ [0])%N
  /\ Forall (is_unit SevenBit) (s_items src) /\ List.length (s_items src) = 4 /\ announced src = 0
  /\ try_edit_b (SplicePayload src (Included 0) (Excluded 4)) b1 = Panic.
Proof.
  eexists. eexists. exists {| s_items := four; s_hint := (0, None) |}.
  split; [vm_compute; reflexivity|]. split; [vm_compute; reflexivity|]. split; [reflexivity|].
  split; [repeat constructor|]. repeat split; vm_compute; reflexivity.
Qed.
Print Assumptions C22_bytes_unannounced_refuted.

(** Replacing two of five bytes by eight, of which two, six or none were announced, in arrays with room for twelve, fourteen
    and eight payload bytes; and by four, of which two were announced, in an array with room for seven. *)
Definition eight : list N := [101; 102; 103; 104; 105; 106; 107; 108]%N.
Example C22_bytes_unannounced_case :
  Forall (is_unit SevenBit) (up 5) /\ Forall (is_unit SevenBit) eight /\ Forall (fun x => x <> 0xF7%N) (repeat 1%N 9)
  /\ (8 <= room_after 2 3 <= 12 - 3) /\ (8 <= room_after 6 2 <= 14 - 3)
  /\ (8 + 0 < List.length (replaced (up 5) 1 3 eight) + 0)
  /\ (room_after 2 1 < 4 <= 4 /\ 4 < room_after 2 2)
  /\ try_edit_b (SplicePayload {| s_items := eight; s_hint := (0, None) |} (Included 1) (Excluded 3)) (stream_bytes (up 5) ++ repeat 1%N 3)
     = Val (stream_bytes [] ++ [101; 102; 103; 0; 1; 0; 1; 247]%N, false).
Proof.
  split; [apply up_units; lia|]. split; [repeat constructor|]. split; [apply Forall_forall; intros x Hx; apply repeat_spec in Hx; subst; discriminate|].
  split; [cbn; lia|]. split; [cbn; lia|]. split; [cbn; lia|]. split; [cbn; lia|]. vm_compute. reflexivity.
Qed.
