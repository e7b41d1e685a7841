(** [try_set_payload] on a fixed byte buffer in any accepted state, with an
    iterator that announces its length exactly. *)
From Coq Require Import NArith List Bool Arith Lia ZifyN ZifyNat ZifyBool.
From Verif Require Import Base BitOps Message Sysex Splice SpecSysex SpecEdits SysexClient
  BitLemmas ListLemmas SysexBytes SysexHold SysexInit SysexHistory.
Import ListNotations.
Local Open Scope nat_scope.

(** A begin byte and somewhere an end byte. *)
Definition closed (b : list N) : Prop := exists l r, no_end l /\ b = stream_bytes l ++ r.

Lemma closed_size b : closed b -> exists m, payload_size_b b = Val m /\ m + 2 <= List.length b.
Proof.
  intros (l & r & Hl & ->). exists (List.length l). destruct (septet_reads l r Hl) as (_ & Z & _).
  split; [exact Z|]. rewrite app_length, stream_bytes_length. lia.
Qed.

Lemma closed_at b j : nth 0 b 0%N = 0xF0%N -> 0 < j -> nth j b 0%N = 0xF7%N -> closed b.
Proof.
  intros H0 Hj H7. apply accepts_b. unfold try_from_b.
  assert (L : j < List.length b).
  { destruct (Nat.lt_ge_cases j (List.length b)); auto. rewrite nth_overflow in H7 by lia. discriminate. }
  replace (List.length b <? 2) with false by lia. unfold hd0. 
  destruct b as [|x b]; [cbn in L; lia|]. cbn [nth hd] in H0. subst x.
  assert (E : existsb (fun x => x =? 0xF7)%N (240%N :: b) = true).
  { apply existsb_exists. exists 0xF7%N. split; [|reflexivity]. rewrite <- H7. now apply nth_In. }
  rewrite E. reflexivity.
Qed.

Lemma split_at (b : list N) n : n < List.length b ->
  b = firstn n b ++ nth n b 0%N :: skipn (S n) b.
Proof.
  intros H. rewrite <- (firstn_skipn n b) at 1. f_equal. revert n H.
  induction b as [|x b IH]; intros n H; cbn [List.length] in H; [lia|].
  destruct n as [|n]; [reflexivity|]. cbn [skipn nth]. apply IH. lia.
Qed.

(** The two ways [try_resize_b] ends. *)
Lemma try_resize_closed b n : closed b ->
  exists b', try_resize_b b n = Val (b', if List.length b <? n + 2 then Some (List.length b - 2) else None)
    /\ List.length b' = List.length b /\ nth 0 b' 0%N = 0xF0%N
    /\ nth (min (n + 2) (List.length b) - 1) b' 0%N = 0xF7%N.
Proof.
  intros C. destruct (closed_size b C) as (m & Z & Lm). destruct C as (l & r & Hl & Eb).
  assert (H0 : nth 0 b 0%N = 0xF0%N) by (subst b; reflexivity).
  unfold try_resize_b, try_resize_bytes, request. rewrite Z. cbn [bind]. unfold fixed_try_resize. rewrite negb_involutive || idtac.
  set (sz := if negb (List.length b <? n + 2) then n + 2 else List.length b).
  assert (Hsz : sz = min (n + 2) (List.length b)) by (unfold sz; destruct (Nat.ltb_spec (List.length b) (n + 2)); cbn [negb]; lia).
  assert (S1 : exists b1, (if m <? sz then upd b (m + 1) (fun _ => 0%N) else Val b) = Val b1
     /\ List.length b1 = List.length b /\ nth 0 b1 0%N = 0xF0%N).
  { destruct (m <? sz).
    - exists (set_nth b (m + 1) 0%N). rewrite upd_nth by lia. split; [reflexivity|].
      rewrite set_nth_length. split; [reflexivity|]. rewrite nth_set_nth by lia.
      replace (0 =? m + 1) with false by lia. exact H0.
    - exists b. auto. }
  destruct S1 as (b1 & E1 & L1 & H1). rewrite E1. cbn [bind].
  unfold sub_chk. replace (sz <? 1) with false by lia. cbn [bind].
  rewrite upd_nth by lia. cbn [bind].
  exists (set_nth b1 (sz - 1) 0xF7%N). split.
  - destruct (Nat.ltb_spec (List.length b) (n + 2)); reflexivity.
  - rewrite set_nth_length. split; [exact L1|]. rewrite !nth_set_nth by lia.
    replace (0 =? sz - 1) with false by lia. split; [exact H1|].
    rewrite <- Hsz. now rewrite Nat.eqb_refl.
Qed.

Lemma reset_closed b : closed b ->
  exists r, try_resize_b b 0 = Val (stream_bytes [] ++ r, None) /\ List.length r + 2 = List.length b.
Proof.
  intros C. destruct (try_resize_closed b 0 C) as (b' & E & L & H0 & H7).
  destruct (closed_size b C) as (m & _ & Lm).
  replace (List.length b <? 0 + 2) with false in E by lia.
  rewrite Nat.min_l in H7 by lia. cbn [Nat.add Nat.sub] in H7.
  exists (skipn 2 b'). split; [|rewrite skipn_length; lia]. rewrite E. f_equal. f_equal.
  destruct b' as [|x [|y b']]; [cbn in L; lia|cbn in L; lia|]. cbn in H0, H7. now subst.
Qed.

Lemma fill_bytes rest : forall old pre data x, List.length old <= List.length data ->
  fill (bytes_ops Fixed) (x :: pre ++ old ++ rest) data 0 (List.length pre) (List.length pre + List.length old)
  = Val (x :: pre ++ firstn (List.length old) data ++ rest, List.length pre + List.length old,
         skipn (List.length old) data, false).
Proof.
  induction old as [|y old IH]; intros pre data x H.
  - cbn [List.length]. rewrite Nat.add_0_r. cbn [app firstn skipn].
    destruct data; cbn [fill]; rewrite Nat.ltb_irrefl; reflexivity.
  - destruct data as [|v data]; cbn [List.length] in *; [lia|]. cbn [fill].
    replace (List.length pre <? List.length pre + S (List.length old)) with true by lia.
    cbn [bytes_ops o_write]. unfold write_datum_b.
    rewrite upd_nth by (cbn [List.length]; rewrite !app_length; cbn [List.length]; lia). cbn [bind].
    assert (X : set_nth (x :: pre ++ (y :: old) ++ rest) (0 + List.length pre + 1) v
      = x :: (pre ++ [v]) ++ old ++ rest).
    { replace (0 + List.length pre + 1) with (S (List.length pre)) by lia. cbn [set_nth]. f_equal.
      clear. cbn [app]. induction pre as [|z pre IH]; cbn [List.length app set_nth]; [reflexivity|]. now rewrite IH. }
    rewrite X. specialize (IH (pre ++ [v]) data x ltac:(lia)). rewrite app_length in IH. cbn [List.length] in IH.
    replace (List.length pre + 1) with (S (List.length pre)) in IH by lia.
    replace (List.length pre + S (List.length old)) with (S (List.length pre) + List.length old) by lia.
    rewrite IH. rewrite <- app_assoc. reflexivity.
Qed.

Lemma copy_nothing b from dest : from <= List.length b -> dest <= List.length b ->
  copy_within b from from dest = Val b.
Proof.
  intros A B. unfold copy_within. rewrite Nat.sub_diag, Nat.add_0_r.
  replace ((from <? from) || (List.length b <? from) || (List.length b <? dest)) with false by lia.
  cbn [firstn app]. now rewrite firstn_skipn.
Qed.

Lemma move_up b m : closed b -> m + 2 <= List.length b ->
  (forall k, payload_size_b b = Val k -> k <= m) -> move_tail_b b 0 m = Val b.
Proof.
  intros C Hm Hk. destruct (closed_size b C) as (k & Z & Lk). unfold move_tail_b. rewrite Z. cbn [bind].
  destruct (Nat.ltb_spec 0 m) as [X|X].
  - replace (k - m) with 0 by (specialize (Hk k Z); lia). rewrite Nat.add_0_r. apply copy_nothing; lia.
  - replace (m <? 0) with false by lia. reflexivity.
Qed.

Lemma end_bounds b j : closed b -> 0 < j -> nth j b 0%N = 0xF7%N ->
  forall k, payload_size_b b = Val k -> k <= j - 1.
Proof.
  intros (l & r & Hl & ->) Hj H7 k Z. destruct (septet_reads l r Hl) as (_ & Z' & _). rewrite Z' in Z.
  injection Z as <-. destruct (Nat.le_gt_cases (List.length l) (j - 1)) as [X|X]; [exact X|]. exfalso.
  unfold no_end in Hl. rewrite Forall_forall in Hl. apply (Hl (nth (j - 1) l 0%N)); [apply nth_In; lia|].
  rewrite <- H7. unfold stream_bytes. destruct j as [|j]; [lia|]. cbn [app nth].
  rewrite <- app_assoc, app_nth1 by lia. f_equal. lia.
Qed.

Lemma stream_move l r t : no_end l -> move_tail_b (stream_bytes l ++ r) t t = Val (stream_bytes l ++ r).
Proof.
  intros Hl. destruct (septet_reads l r Hl) as (_ & Z & _). unfold move_tail_b. rewrite Z. cbn [bind].
  now rewrite Nat.ltb_irrefl.
Qed.

Lemma stream_resize l r n : no_end l -> n = List.length l ->
  exists r', try_resize_b (stream_bytes l ++ r) n = Val (stream_bytes l ++ r', None)
    /\ List.length r' = List.length r /\ r' = r.
Proof.
  intros Hl ->. destruct (septet_reads l r Hl) as (_ & Z & _). exists r. split; [|split; reflexivity].
  unfold try_resize_b, try_resize_bytes, request. rewrite Z. cbn [bind]. unfold fixed_try_resize. rewrite app_length, stream_bytes_length.
  replace (List.length l + 2 + List.length r <? List.length l + 2) with false by lia. cbn [negb].
  replace (List.length l <? List.length l + 2) with true by lia.
  rewrite upd_nth by (rewrite app_length, stream_bytes_length; lia). cbn [bind]. unfold sub_chk.
  replace (List.length l + 2 <? 1) with false by lia. cbn [bind].
  replace (List.length l + 2 - 1) with (List.length l + 1) by lia.
  rewrite upd_nth by (rewrite set_nth_length, app_length, stream_bytes_length; lia). cbn [bind].
  f_equal. f_equal. unfold stream_bytes. cbn [app]. replace (List.length l + 1) with (S (List.length l)) by lia.
  cbn [set_nth]. f_equal. clear. induction l as [|x l IH]; cbn [List.length app set_nth]; [reflexivity|]. now rewrite IH.
Qed.

Lemma set_fixed_any_b b src : closed b -> Forall septet (s_items src) ->
  announced src = List.length (s_items src) ->
  if List.length (s_items src) + 2 <=? List.length b
  then exists r, try_set_payload (bytes_ops Fixed) b src = Val (stream_bytes (s_items src) ++ r, true)
         /\ List.length (stream_bytes (s_items src) ++ r) = List.length b
  else exists r, try_set_payload (bytes_ops Fixed) b src = Val (stream_bytes [] ++ r, false)
         /\ List.length (stream_bytes [] ++ r) = List.length b.
Proof.
  intros C Hv An. destruct (reset_closed b C) as (r0 & E0 & L0).
  unfold try_set_payload. cbn [bytes_ops o_resize]. rewrite E0. cbn [bind].
  unfold try_insert_payload, try_splice, splice_detail. cbn [bytes_ops o_compact o_payload_size bind].
  assert (N0 : no_end []) by constructor.
  assert (NI : no_end (s_items src)) by (now apply septets_no_end).
  destruct (septet_reads [] r0 N0) as (_ & Z0 & _). rewrite Z0. cbn [bind List.length begin_of end_of].
  change (sub_chk 0 0) with (Val 0). cbn [bind].
  assert (Es : estimate (s_hint src) = List.length (s_items src)) by (rewrite <- An; reflexivity).
  rewrite Es. set (n := List.length (s_items src)) in *. cbn [Nat.add]. rewrite !Nat.sub_0_r, !Nat.add_0_r.
  set (b0 := stream_bytes [] ++ r0) in *.
  assert (Lb0 : List.length b0 = List.length b) by (unfold b0; rewrite app_length, stream_bytes_length; cbn [List.length]; lia).
  assert (C0 : closed b0) by (exists [], r0; auto).
  (* room, then the items that fit *)
  assert (RM : forall m b1, (m = n \/ List.length b = m + 2) -> m <= n -> m + 2 <= List.length b ->
     List.length b1 = List.length b -> nth 0 b1 0%N = 0xF0%N -> nth (m + 1) b1 0%N = 0xF7%N ->
     move_tail_b b1 0 m = Val b1
     /\ exists r, fill (bytes_ops Fixed) b1 (s_items src) 0 0 m
          = Val (stream_bytes (firstn m (s_items src)) ++ r, m, skipn m (s_items src), false)
        /\ List.length r + m + 2 = List.length b).
  { intros m b1 _ Hmn Hm L1 H0 H7.
    assert (C1 : closed b1) by (apply (closed_at b1 (m + 1)); auto; lia).
    split.
    - apply move_up; auto; [lia|]. intros k Hk. pose proof (end_bounds b1 (m + 1) C1 ltac:(lia) H7 k Hk). lia.
    - exists (skipn (m + 2) b1). split; [|rewrite skipn_length; lia].
      assert (Eb : b1 = 240%N :: [] ++ firstn m (skipn 1 b1) ++ 247%N :: skipn (m + 2) b1).
      { destruct b1 as [|x b1]; [cbn in L1; lia|]. cbn [nth] in H0. subst x. cbn [skipn app].
        f_equal. rewrite Nat.add_1_r in H7. cbn [nth] in H7. cbn [List.length] in L1.
        rewrite (split_at b1 m) at 1 by lia. rewrite H7. f_equal. f_equal.
        replace (m + 2) with (S (S m)) by lia. reflexivity. }
      rewrite Eb at 1.
      assert (Lf : List.length (firstn m (skipn 1 b1)) = m) by (rewrite firstn_length, skipn_length; lia).
      pose proof (fill_bytes (247%N :: skipn (m + 2) b1) (firstn m (skipn 1 b1)) [] (s_items src) 240%N) as FB.
      rewrite Lf in FB. cbn [List.length Nat.add app] in FB. cbn [app]. rewrite FB by (unfold n in Hmn; lia).
      unfold stream_bytes. cbn [app]. rewrite <- app_assoc. reflexivity. }
  assert (DONE : forall r, no_end (s_items src) ->
    exists r', try_resize_b (stream_bytes (s_items src) ++ r) n = Val (stream_bytes (s_items src) ++ r', None)
      /\ List.length r' = List.length r).
  { intros r _. destruct (stream_resize (s_items src) r n NI eq_refl) as (r' & A & B & _). eauto. }
  destruct (Nat.leb_spec (n + 2) (List.length b)) as [Fit|Full].
  - assert (ST : exists b1, (if 0 <? n then n1 <- sub_chk n 0 ;;
        q <- try_resize_b b0 n1 ;;
        match q with
        | (b2, None) => Val (b2, n)
        | (b2, Some sz) => d <- sub_chk 0 0 ;; Val (b2, sz - d)
        end else Val (b0, n)) = Val (b1, n)
      /\ List.length b1 = List.length b /\ nth 0 b1 0%N = 0xF0%N /\ nth (n + 1) b1 0%N = 0xF7%N).
    { destruct (Nat.ltb_spec 0 n) as [X|X].
      - unfold sub_chk. replace (n <? 0) with false by lia. cbn [bind]. rewrite Nat.sub_0_r.
        destruct (try_resize_closed b0 n C0) as (b1 & E1 & L1 & H0 & H7). rewrite E1. cbn [bind].
        rewrite Lb0 in *. replace (List.length b <? n + 2) with false by lia.
        exists b1. split; [reflexivity|]. split; [exact L1|]. split; [exact H0|].
        rewrite Nat.min_l in H7 by lia. now replace (n + 2 - 1) with (n + 1) in H7 by lia.
      - exists b0. replace n with 0 by lia. repeat split; auto. }
    destruct ST as (b1 & E1 & L1 & H0 & H7). cbn [bytes_ops o_resize o_move] in *. rewrite E1. cbn [bind].
    destruct (RM n b1 ltac:(now left) ltac:(lia) Fit L1 H0 H7) as (Mv & r & Fi & Lr).
    rewrite Nat.sub_0_r, Mv. cbn [bind main_loop]. change (List.length (s_items src)) with n. rewrite Fi. cbn [bind].
    rewrite Nat.eqb_refl. cbn [negb].
    assert (SK : skipn n (s_items src) = []) by (apply skipn_all2; unfold n; lia). rewrite SK. cbn [bind].
    assert (FN : firstn n (s_items src) = s_items src) by (apply firstn_all). rewrite FN.
    rewrite stream_move by exact NI. cbn [bind]. unfold sub_chk. rewrite Nat.add_0_r.
    replace (n <? 0) with false by lia. cbn [bind]. rewrite Nat.sub_0_r.
    destruct (DONE r NI) as (r' & E' & L'). rewrite E'. cbn [bind].
    exists r'. split; [reflexivity|]. rewrite app_length, stream_bytes_length. fold n. lia.
  - assert (Hn : 0 < n) by lia.
    replace (0 <? n) with true by lia. unfold sub_chk at 1. replace (n <? 0) with false by lia. cbn [bind].
    rewrite ?Nat.sub_0_r. destruct (try_resize_closed b0 n C0) as (b1 & E1 & L1 & H0 & H7).
    cbn [bytes_ops o_resize o_move] in *. rewrite E1. cbn [bind]. rewrite Lb0 in *.
    replace (List.length b <? n + 2) with true by lia. unfold sub_chk at 1. cbn [Nat.ltb Nat.leb bind].
    rewrite Nat.sub_0_r. set (c := List.length b - 2) in *.
    rewrite Nat.min_r in H7 by lia. replace (List.length b - 1) with (c + 1) in H7 by lia.
    destruct (RM c b1 ltac:(right; lia) ltac:(lia) ltac:(lia) ltac:(lia) H0 H7) as (Mv & r & Fi & Lr).
    rewrite Nat.sub_0_r, Mv. cbn [bind]. change (List.length (s_items src)) with n. cbn [main_loop].
    rewrite Fi. cbn [bind]. rewrite Nat.eqb_refl. cbn [negb].
    destruct (skipn c (s_items src)) as [|v rest] eqn:SK.
    { exfalso. assert (X : List.length (skipn c (s_items src)) = 0) by (rewrite SK; reflexivity).
      rewrite skipn_length in X. fold n in X. lia. }
    unfold sub_chk. rewrite !Nat.add_0_r. replace (c + 1 <? 0) with false by lia. cbn [bind Nat.add].
    replace (c <? c + 1) with true by lia. rewrite Nat.sub_0_r.
    assert (NF : no_end (firstn c (s_items src))) by (apply firstn_forall, NI).
    assert (C2 : closed (stream_bytes (firstn c (s_items src)) ++ r)) by (eexists; eexists; split; [exact NF|reflexivity]).
    assert (L2 : List.length (stream_bytes (firstn c (s_items src)) ++ r) = List.length b).
    { rewrite app_length, stream_bytes_length, firstn_length. fold n. lia. }
    cbn [bytes_ops o_resize o_move] in *.
    destruct (try_resize_closed _ (c + 1) C2) as (b3 & E3 & L3 & H03 & H73). rewrite E3. cbn [bind].
    rewrite L2 in *. replace (List.length b <? c + 1 + 2) with true by lia. cbn [Nat.ltb Nat.leb bind].
    rewrite !Nat.sub_0_r. replace (List.length b - 2) with c by reflexivity.
    replace (c <? 0) with false by lia. cbn [bind]. rewrite ?Nat.sub_0_r.
    rewrite Nat.min_r in H73 by lia.
    assert (C3 : closed b3) by (apply (closed_at b3 (List.length b - 1)); auto; lia).
    assert (Mv3 : move_tail_b b3 c c = Val b3).
    { destruct C3 as (l3 & r3 & Hl3 & ->). now apply stream_move. }
    rewrite Mv3. cbn [bind]. rewrite Nat.leb_refl. cbn [bind].
    destruct (reset_closed b3 C3) as (r4 & E4 & L4). rewrite E4. cbn [bind fst].
    exists r4. split; [reflexivity|]. rewrite app_length, stream_bytes_length. cbn [List.length]. lia.
Qed.

(** ** Growing edits *)

Lemma grow_step_b e l r : Forall septet l -> lone_end r -> legal SevenBit e l -> not_shrinking e l ->
  if List.length (new_payload e l) <=? List.length l + List.length r
  then exists r', try_edit_b e (stream_bytes l ++ r) = Val (stream_bytes (new_payload e l) ++ r', true)
         /\ List.length (new_payload e l) + List.length r' = List.length l + List.length r
         /\ lone_end r' /\ Forall septet (new_payload e l)
  else exists r', try_edit_b e (stream_bytes l ++ r) = Val (stream_bytes [] ++ r', false)
         /\ List.length r' = List.length l + List.length r.
Proof.
  intros Hl Hr Lg G.
  assert (SP : forall l src lo hi, Forall septet l -> Forall septet (s_items src) ->
    range_begin lo <= range_end hi (List.length l) -> range_end hi (List.length l) <= List.length l ->
    announced src = List.length (s_items src) ->
    range_end hi (List.length l) - range_begin lo <= List.length (s_items src) ->
    let l' := replaced l (range_begin lo) (range_end hi (List.length l)) (s_items src) in
    if List.length l' <=? List.length l + List.length r
    then exists r', try_splice (bytes_ops Fixed) (stream_bytes l ++ r) src lo hi = Val (stream_bytes l' ++ r', true)
         /\ List.length l' + List.length r' = List.length l + List.length r /\ lone_end r' /\ Forall septet l'
    else exists r', try_splice (bytes_ops Fixed) (stream_bytes l ++ r) src lo hi = Val (stream_bytes [] ++ r', false)
         /\ List.length r' = List.length l + List.length r).
  { clear l Hl Lg G. intros l src lo hi Hl Hv A B An Sh l'.
    pose proof (splice_fixed_b l r src lo hi _ _ Hl Hr Hv eq_refl eq_refl A B ltac:(right; lia)) as S.
    cbv zeta in S. fold l' in S. destruct (List.length l' <=? List.length l + List.length r); [|exact S].
    destruct S as (r' & E & L & Q). exists r'. split; [exact E|]. split; [exact L|]. split; [apply Q; auto|].
    unfold l', replaced. apply Forall_app. split; [now apply firstn_forall|]. apply Forall_app. split; [exact Hv|now apply skipn_forall]. }
  assert (AP : forall src, Forall septet (s_items src) -> announced src = List.length (s_items src) ->
    if List.length (l ++ s_items src) <=? List.length l + List.length r
    then exists r', try_append_payload (bytes_ops Fixed) (stream_bytes l ++ r) src = Val (stream_bytes (l ++ s_items src) ++ r', true)
         /\ List.length (l ++ s_items src) + List.length r' = List.length l + List.length r /\ lone_end r'
         /\ Forall septet (l ++ s_items src)
    else exists r', try_append_payload (bytes_ops Fixed) (stream_bytes l ++ r) src = Val (stream_bytes [] ++ r', false)
         /\ List.length r' = List.length l + List.length r).
  { intros src Hv An. destruct (septet_reads l r (septets_no_end l Hl)) as (_ & Z & _).
    unfold try_append_payload. cbn [bytes_ops o_payload_size]. rewrite Z. cbn [bind].
    pose proof (SP l src (Included (List.length l)) (Excluded (List.length l)) Hl Hv) as S.
    cbn [range_begin range_end] in S. specialize (S ltac:(lia) ltac:(lia) An ltac:(lia)). cbv zeta in S.
    unfold replaced in S. now rewrite firstn_all, skipn_all, app_nil_r in S. }
  destruct e as [src|src lo hi|src i|src|v|v i|g]; cbn [try_edit_b new_payload legal not_shrinking] in *.
  - destruct G as [-> An]. unfold try_set_payload. cbn [bytes_ops o_resize].
    destruct (stream_resize [] r 0 ltac:(constructor) eq_refl) as (r' & E & _ & ->). rewrite E. cbn [bind].
    pose proof (SP [] src (Included 0) (Excluded 0) Hl Lg) as S.
    cbn [range_begin range_end] in S. specialize (S ltac:(lia) ltac:(lia) An ltac:(lia)). cbv zeta in S.
    unfold replaced in S. cbn [firstn skipn app] in S. now rewrite app_nil_r in S.
  - destruct Lg as (Hv & A & B), G as (Sh & An). now apply SP.
  - destruct Lg as (Hv & A). pose proof (SP l src (Included i) (Excluded i) Hl Hv) as S.
    cbn [range_begin range_end] in S. specialize (S ltac:(lia) ltac:(lia) G ltac:(lia)). exact S.
  - now apply AP.
  - apply (AP {| s_items := [v]; s_hint := (1, Some 1) |}); [repeat constructor; exact Lg|reflexivity].
  - destruct Lg as [Hv Hi]. rewrite (set_byte_stream l v i r Hl Hv Hi). cbn [bind].
    assert (Lw : List.length (with_unit l i v) = List.length l).
    { unfold with_unit. rewrite app_length. cbn [List.length]. rewrite firstn_length, skipn_length. lia. }
    rewrite Lw. replace (List.length l <=? List.length l + List.length r) with true by lia.
    exists r. split; [reflexivity|]. split; [reflexivity|]. split; [exact Hr|].
    unfold with_unit. apply Forall_app. split; [now apply firstn_forall|]. constructor; [exact Hv|now apply skipn_forall].
  - replace (List.length l <=? List.length l + List.length r) with true by lia.
    exists r. auto.
Qed.

Lemma grow_history_b : forall es l r, Forall septet l -> lone_end r -> growing SevenBit es l ->
  List.length (final_payload es l) <= List.length l + List.length r ->
  exists r', run_tries try_edit_b es (stream_bytes l ++ r)
      = Val (stream_bytes (final_payload es l) ++ r', map (fun _ => true) es)
    /\ List.length (final_payload es l) + List.length r' = List.length l + List.length r
    /\ lone_end r' /\ Forall septet (final_payload es l).
Proof.
  assert (MN : forall es l, growing SevenBit es l -> List.length l <= List.length (final_payload es l)).
  { induction es as [|e es IH]; intros l G; cbn [final_payload]; [lia|]. destruct G as (Lg & Sh & G).
    apply IH in G. apply Nat.le_trans with (2 := G). clear -Lg Sh.
    destruct e as [src|src lo hi|src i|src|v|v i|g]; cbn [new_payload legal not_shrinking] in *;
      unfold replaced, with_unit; rewrite ?app_length; cbn [List.length]; rewrite ?firstn_length, ?skipn_length; try lia.
    destruct Sh as [-> _]. cbn. lia. }
  induction es as [|e es IH]; intros l r Hl Hr G Fit; cbn [run_tries final_payload map] in *.
  - exists r. auto.
  - destruct G as (Lg & Sh & G). pose proof (grow_step_b e l r Hl Hr Lg Sh) as S.
    pose proof (MN es _ G) as M. replace (List.length (new_payload e l) <=? List.length l + List.length r) with true in S by lia.
    destruct S as (r1 & E & L1 & H1 & F1). rewrite E. cbn [bind fst snd].
    destruct (IH _ r1 F1 H1 G ltac:(lia)) as (r' & E' & L' & H' & F'). rewrite E'. cbn [bind fst snd].
    exists r'. split; [reflexivity|]. split; [lia|auto].
Qed.
