(** Lemmas: edit histories and iterator call sequences. *)
From Coq Require Import NArith List String Bool Arith Lia ZifyBool ZifyNat ZifyN.
From Verif Require Import Base BitOps BitLemmas ListLemmas Helpers Message Sysex Splice
  ByteView SysexLayout SysexEdit SpliceLemmas SysexLaws SysexBytes SysexRead SpecSysex SpecEdits
  SysexBridge SysexHold SysexMore SysexNth SysexInit SysexClient.
Import ListNotations.
Local Open Scope nat_scope.

Lemma fmt_for_of fm : fmt_for fm = fmt_of fm. Proof. reflexivity. Qed.

Lemma units_ok fm l : Forall (is_unit fm) l -> Forall (unit_ok (fmt_of fm)) l.
Proof. apply Forall_impl. intros v. apply unit_ok_of. Qed.

Lemma holds_weaken (I J : nat -> list N -> Prop) rd l b : (forall n b, I n b -> J n b) ->
  holds I rd l b -> holds J rd l b.
Proof. intros W [A B]. split; auto. Qed.

(** ** Growable UMP buffers *)

(** [set_payload] from any buffer. *)
Lemma set_payload_any fm b src s cl : kept s -> (fm = EightBit -> in_stream s (stream_of fm b 0)) ->
  (cl = true -> clean_bytes fm b) -> Forall (is_unit fm) (s_items src) ->
  exists b', set_payload (ump_ops (fmt_of fm) Growable) b src = Val b'
    /\ message fm (group_of fm b 0) s (s_items src) b' /\ (cl = true -> clean_bytes fm b').
Proof.
  intros K St Cl Hv. destruct (reset_grow fm b) as (b1 & E & H1). specialize (H1 s cl K St Cl).
  assert (Hg : (group_of fm b 0 < 16)%N) by (apply N.mod_lt; discriminate).
  unfold set_payload. cbn [ump_ops o_resize]. rewrite E. cbn [bind fst].
  destruct (insert_grow _ _ _ _ _ (ump_laws_growable (fmt_of fm) _ s cl (okf_of fm) Hg) b1 [] src 0)
    as (b' & E' & H'); auto; [now apply units_ok|].
  exists b'. split; [exact E'|]. unfold replaced in H'. cbn [firstn skipn app] in H'.
  rewrite app_nil_r in H'. now apply done_message in H'.
Qed.

Lemma edit_step_cl fm cl e b g s l : message fm g s l b -> kept s -> (cl = true -> clean_bytes fm b) ->
  legal fm e l ->
  exists b', apply_edit fm e b = Val b' /\ message fm (new_group e g) s (new_payload e l) b'
    /\ (cl = true -> clean_bytes fm b').
Proof.
  intros M K Cl Lg. pose proof (message_inv fm g s l b cl M K Cl) as [H Hg].
  pose proof (ump_laws_growable (fmt_of fm) g s cl (okf_of fm) Hg) as L.
  destruct e as [src|src lo hi|src i|src|v|v i|g']; cbn [apply_edit new_group new_payload legal] in *;
    rewrite fmt_for_of.
  - destruct (set_grow _ _ _ _ _ L b l src H (units_ok _ _ Lg)) as (b' & E & H').
    exists b'. split; [exact E|]. now apply done_message in H'.
  - destruct Lg as (Hv & A & B).
    destruct (splice_grow _ _ _ _ _ L b l src lo hi _ _ H (units_ok _ _ Hv) eq_refl eq_refl A B) as (b' & E & H').
    exists b'. split; [exact E|]. now apply done_message in H'.
  - destruct Lg as (Hv & A).
    destruct (insert_grow _ _ _ _ _ L b l src i H (units_ok _ _ Hv) A) as (b' & E & H').
    exists b'. split; [exact E|]. now apply done_message in H'.
  - destruct (append_grow _ _ _ _ _ L b l src H (units_ok _ _ Lg)) as (b' & E & H').
    exists b'. split; [exact E|]. now apply done_message in H'.
  - destruct (append_byte_grow _ _ _ _ _ L b l v H (proj2 (unit_ok_of _ _) Lg)) as (b' & E & H').
    exists b'. split; [exact E|]. now apply done_message in H'.
  - destruct Lg as [Hv Hi]. destruct M as (k & C & F & Len).
    destruct (set_byte_carries fm k g s l b v i C Hi Hv) as (b' & E & C' & Len' & F' & _ & Cl').
    exists b'. split; [exact E|]. split; [|intros X; apply Cl'; auto]. exists k. split; [exact C'|]. split; [auto|lia].
  - destruct M as (k & C & F & Len). destruct (set_group_ok fm b g' Lg) as (b' & E).
    destruct (set_group_carries fm k g s l b g' b' C Lg E) as (C' & Len' & F' & _ & Cl').
    exists b'. split; [exact E|]. split; [|intros X; apply Cl'; auto]. exists k. split; [exact C'|]. split; [auto|lia].
Qed.

Lemma edit_step fm e b g s l : message fm g s l b -> kept s -> legal fm e l ->
  exists b', apply_edit fm e b = Val b' /\ message fm (new_group e g) s (new_payload e l) b'
    /\ (clean_bytes fm b -> clean_bytes fm b').
Proof.
  intros M K Lg. destruct (edit_step_cl fm false e b g s l M K ltac:(discriminate) Lg) as (b' & E & M' & _).
  exists b'. split; [exact E|]. split; [exact M'|]. intros Cl.
  destruct (edit_step_cl fm true e b g s l M K ltac:(auto) Lg) as (b2 & E2 & _ & Cl2).
  rewrite E in E2. injection E2 as <-. auto.
Qed.

Lemma history_ump fm s : kept s -> forall es b g l, message fm g s l b -> all_legal fm es l ->
  exists b', run_edits (apply_edit fm) es b = Val b'
    /\ message fm (final_group es g) s (final_payload es l) b'
    /\ (clean_bytes fm b -> clean_bytes fm b').
Proof.
  intros K. induction es as [|e es IH]; intros b g l M Lg; cbn [run_edits final_group final_payload].
  - exists b. auto.
  - destruct Lg as [L1 L2]. destruct (edit_step fm e b g s l M K L1) as (b1 & E1 & M1 & C1).
    rewrite E1. cbn [bind]. destruct (IH b1 _ _ M1 L2) as (b' & E & M' & C').
    exists b'. auto.
Qed.

(** ** Growable byte buffers *)

Lemma septets l : Forall (is_unit SevenBit) l -> Forall septet l.
Proof. intros H. exact H. Qed.

Lemma set_septet_small x v : (x < 128)%N -> (v < 128)%N -> set_septet8 x v = v.
Proof.
  intros Hx Hv. unfold set_septet8.
  assert (E : forallb (fun y => forallb (fun w => set_septet8 (N.of_nat y) (N.of_nat w) =? N.of_nat w)%N (seq 0 128))
    (seq 0 128) = true) by (vm_compute; reflexivity).
  rewrite forallb_forall in E. specialize (E (N.to_nat x)). rewrite in_seq in E. specialize (E ltac:(lia)).
  rewrite forallb_forall in E. specialize (E (N.to_nat v)). rewrite in_seq in E. specialize (E ltac:(lia)).
  rewrite !N2Nat.id in E. now apply N.eqb_eq in E.
Qed.

Lemma set_byte_stream l v i r : Forall septet l -> septet v -> i < List.length l ->
  set_byte_b (stream_bytes l ++ r) v i = Val (stream_bytes (with_unit l i v) ++ r).
Proof.
  intros Hl Hv Hi. unfold set_byte_b.
  assert (L : i + 1 < List.length (stream_bytes l ++ r)) by (rewrite app_length, stream_bytes_length; lia).
  rewrite upd_nth by exact L. f_equal.
  assert (N0 : nth (i + 1) (stream_bytes l ++ r) 0%N = nth i l 0%N).
  { rewrite app_nth1 by (rewrite stream_bytes_length; lia). rewrite stream_bytes_nth.
    destruct (Nat.eqb_spec (i + 1) 0); [lia|]. destruct (Nat.leb_spec (i + 1) (List.length l)); [|lia].
    f_equal. lia. }
  rewrite N0. rewrite set_septet_small; [|rewrite Forall_forall in Hl; apply Hl, nth_In, Hi|exact Hv].
  unfold stream_bytes. replace (i + 1) with (S i) by lia. cbn [app set_nth]. f_equal.
  clear L N0 Hl Hv. revert i Hi; induction l as [|x l IH]; intros i Hi; cbn [List.length] in Hi; [lia|].
  destruct i as [|i]; [reflexivity|]. cbn [app set_nth]. unfold with_unit. cbn [firstn skipn app].
  f_equal. apply IH. lia.
Qed.

Lemma firstn_forall (P : N -> Prop) n l : Forall P l -> Forall P (firstn n l).
Proof. intros H. rewrite <- (firstn_skipn n l) in H. now apply Forall_app in H. Qed.
Lemma skipn_forall (P : N -> Prop) n l : Forall P l -> Forall P (skipn n l).
Proof. intros H. rewrite <- (firstn_skipn n l) in H. now apply Forall_app in H. Qed.

Lemma with_unit_forall (P : N -> Prop) l i v : Forall P l -> P v -> Forall P (with_unit l i v).
Proof.
  intros H Hv. unfold with_unit. apply Forall_app. split; [now apply firstn_forall|].
  constructor; auto. now apply skipn_forall.
Qed.
Lemma replaced_forall (P : N -> Prop) l a e d : Forall P l -> Forall P d -> Forall P (replaced l a e d).
Proof.
  intros H Hd. unfold replaced. rewrite !Forall_app. repeat split; auto.
  - now apply firstn_forall.
  - now apply skipn_forall.
Qed.

Lemma new_payload_units fm e l : Forall (is_unit fm) l -> legal fm e l -> Forall (is_unit fm) (new_payload e l).
Proof.
  intros H Lg. destruct e; cbn [new_payload legal] in *; auto.
  - apply replaced_forall; tauto.
  - apply replaced_forall; tauto.
  - apply Forall_app. auto.
  - apply Forall_app. auto.
  - apply with_unit_forall; tauto.
Qed.

(** [set_payload] from any accepted byte stream. *)
Lemma set_payload_any_b b src : try_from_b b = Ok b -> Forall septet (s_items src) ->
  set_payload (bytes_ops Growable) b src = Val (stream_bytes (s_items src)).
Proof.
  intros A Hv. apply accepts_b in A. destruct A as (l & r & Hl & ->).
  unfold set_payload. cbn [bytes_ops o_resize]. rewrite (reset_grow_b l r Hl). cbn [bind fst].
  destruct (insert_grow _ _ _ _ _ bytes_laws_growable (stream_bytes []) [] src 0) as (b' & E' & H');
    auto; [apply stream_inv; constructor|].
  rewrite E'. f_equal. unfold replaced in H'. cbn [firstn skipn app] in H'.
  rewrite app_nil_r in H'. now apply done_stream.
Qed.

Lemma edit_step_b e l : Forall septet l -> legal SevenBit e l ->
  apply_edit_b e (stream_bytes l) = Val (stream_bytes (new_payload e l)).
Proof.
  intros Hl Lg. pose proof (stream_inv l (septets_no_end l Hl)) as H.
  pose proof bytes_laws_growable as L.
  destruct e as [src|src lo hi|src i|src|v|v i|g']; cbn [apply_edit_b new_group new_payload legal] in *.
  - destruct (set_grow _ _ _ _ _ L _ l src H Lg) as (b' & E & H').
    rewrite E. f_equal. now apply done_stream.
  - destruct Lg as (Hv & A & B).
    destruct (splice_grow _ _ _ _ _ L _ l src lo hi _ _ H Hv eq_refl eq_refl A B) as (b' & E & H').
    rewrite E. f_equal. now apply done_stream.
  - destruct Lg as (Hv & A).
    destruct (insert_grow _ _ _ _ _ L _ l src i H Hv A) as (b' & E & H').
    rewrite E. f_equal. now apply done_stream.
  - destruct (append_grow _ _ _ _ _ L _ l src H Lg) as (b' & E & H').
    rewrite E. f_equal. now apply done_stream.
  - destruct (append_byte_grow _ _ _ _ _ L _ l v H Lg) as (b' & E & H').
    rewrite E. f_equal. now apply done_stream.
  - destruct Lg as [Hv Hi]. pose proof (set_byte_stream l v i [] Hl Hv Hi) as X. now rewrite !app_nil_r in X.
  - reflexivity.
Qed.

Lemma history_bytes : forall es l, Forall septet l -> all_legal SevenBit es l ->
  run_edits apply_edit_b es (stream_bytes l) = Val (stream_bytes (final_payload es l))
  /\ Forall septet (final_payload es l).
Proof.
  induction es as [|e es IH]; intros l Hl Lg; cbn [run_edits final_payload].
  - auto.
  - destruct Lg as [L1 L2]. rewrite edit_step_b by auto. cbn [bind]. apply IH; auto.
    now apply (new_payload_units SevenBit).
Qed.

(** ** Fixed UMP buffers *)

Lemma fixed_reset fm g s cl b l : (g < 16)%N -> 
  holds (ump_inv (fmt_of fm) g s cl Fixed (List.length b)) (rd (fmt_of fm)) l b ->
  exists b', try_resize (fmt_of fm) Fixed b 0 = Val (b', None)
    /\ holds (ump_inv (fmt_of fm) g s cl Fixed (List.length b)) (rd (fmt_of fm)) [] b'.
Proof.
  intros Hg [H _]. destruct (fit_ump (fmt_of fm) g s cl (List.length b) (List.length l) b 0 (okf_of fm) Hg H)
    as (b' & E & I' & _); [lia|]. exists b'. split; [exact E|]. split; [exact I'|]. cbn. lia.
Qed.

Lemma fixed_step_cl fm cl e b g s l : message_in fm g s l b -> (cl = true -> clean_bytes fm b) ->
  legal fm e l -> announced_enough e l ->
  exists b', try_edit fm e b = Val (b', snd (fixed_outcome (room_in fm (List.length b)) e l))
    /\ message_in fm (new_group e g) s (fst (fixed_outcome (room_in fm (List.length b)) e l)) b'
    /\ List.length b' = List.length b /\ (cl = true -> clean_bytes fm b').
Proof.
  intros M Cl Lg An. pose proof (message_in_inv fm g s l b cl M Cl) as [H Hg].
  pose proof (ump_laws_fixed (fmt_of fm) g s cl (List.length b) (okf_of fm) Hg) as L.
  set (c := room_in fm (List.length b)) in *.
  assert (Hc : List.length l <= c).
  { unfold c. rewrite <- capacity_of. eapply framed_le_capacity; eauto. apply H. }
  assert (SP : forall b0 l0 src lo hi, holds (ump_inv (fmt_of fm) g s cl Fixed (List.length b)) (rd (fmt_of fm)) l0 b0 ->
    Forall (is_unit fm) (s_items src) ->
    range_begin lo <= range_end hi (List.length l0) -> range_end hi (List.length l0) <= List.length l0 ->
    (range_begin lo = range_end hi (List.length l0) \/ List.length (s_items src) <= announced src) ->
    let r := replaced l0 (range_begin lo) (range_end hi (List.length l0)) (s_items src) in
    exists b', try_splice (ump_ops (fmt_of fm) Fixed) b0 src lo hi = Val (b', List.length r <=? c)
      /\ message_in fm g s (if List.length r <=? c then r else []) b'
      /\ List.length b' = List.length b /\ (cl = true -> clean_bytes fm b')).
  { intros b0 l0 src lo hi H0 Hv A B Hi r.
    pose proof (splice_fit _ _ _ _ _ _ _ L b0 l0 src lo hi _ _ H0 (units_ok _ _ Hv) eq_refl eq_refl A B Hi) as S.
    change (replaced l0 (begin_of lo) (end_of hi (Datatypes.length l0)) (s_items src)) with r in S.
    rewrite capacity_of in S. fold c in S.
    destruct (Nat.leb_spec (List.length r) c) as [X|X].
    - destruct S as (b' & E & [[W _] R] & _). exists b'. split; [exact E|].
      destruct (inv_message_in fm g s r b' cl (List.length b) Hg) as (A' & B' & C'); [split; auto|]. auto.
    - destruct S as (b' & E & [W _]). exists b'. split; [exact E|].
      destruct (inv_message_in fm g s [] b' cl (List.length b) Hg) as (A' & B' & C');
        [split; [exact W|cbn; lia]|]. auto. }
  unfold fixed_outcome. cbv zeta.
  assert (IF : forall (r : list N), (if List.length r <=? c then (r, true) else ([], false))
    = (if List.length r <=? c then r else [], List.length r <=? c)) by (intros r; destruct (_ <=? _); reflexivity).
  rewrite IF. cbn [fst snd].
  assert (INS : forall b0 l0 src i, holds (ump_inv (fmt_of fm) g s cl Fixed (List.length b)) (rd (fmt_of fm)) l0 b0 ->
    Forall (is_unit fm) (s_items src) -> i <= List.length l0 ->
    exists b', try_insert_payload (ump_ops (fmt_of fm) Fixed) b0 src i
        = Val (b', List.length (replaced l0 i i (s_items src)) <=? c)
      /\ message_in fm g s (if List.length (replaced l0 i i (s_items src)) <=? c then replaced l0 i i (s_items src) else []) b'
      /\ List.length b' = List.length b /\ (cl = true -> clean_bytes fm b')).
  { intros b0 l0 src i H0 Hv A. apply (SP b0 l0 src (Included i) (Excluded i)); auto. }
  assert (APP : forall src, Forall (is_unit fm) (s_items src) ->
    exists b', try_append_payload (ump_ops (fmt_of fm) Fixed) b src = Val (b', List.length (l ++ s_items src) <=? c)
      /\ message_in fm g s (if List.length (l ++ s_items src) <=? c then l ++ s_items src else []) b'
      /\ List.length b' = List.length b /\ (cl = true -> clean_bytes fm b')).
  { intros src Hv. unfold try_append_payload.
    rewrite (l_size _ _ _ _ _ _ _ L _ _ (proj1 H)). cbn [bind].
    destruct (INS b l src (List.length l) H Hv ltac:(lia)) as (b' & E & R).
    unfold replaced in E, R. rewrite firstn_all, skipn_all, app_nil_r in E, R. eauto. }
  destruct e as [src|src lo hi|src i|src|v|v i|g']; cbn [try_edit new_group new_payload legal announced_enough] in *;
    rewrite ?fmt_for_of.
  - unfold try_set_payload. cbn [ump_ops o_resize].
    destruct (fixed_reset fm g s cl b l Hg H) as (b1 & E1 & H1). rewrite E1. cbn [bind].
    destruct (INS b1 [] src 0 H1 Lg ltac:(cbn; lia)) as (b' & E & R).
    unfold replaced in E, R. cbn [firstn skipn app] in E, R. rewrite app_nil_r in E, R. eauto.
  - destruct Lg as (Hv & A & B). apply SP; auto.
  - destruct Lg as (Hv & A). apply INS; auto.
  - apply APP. exact Lg.
  - apply (APP {| s_items := [v]; s_hint := (1, Some 1) |}). cbn. auto.
  - destruct Lg as [Hv Hi]. destruct M as [(k & C & F) Sc].
    destruct (set_byte_carries fm k g s l b v i C Hi Hv) as (b' & E & C' & Len' & F' & Sc' & Cl').
    rewrite E. cbn [bind]. exists b'.
    assert (Lw : List.length (with_unit l i v) = List.length l).
    { unfold with_unit. rewrite app_length. cbn [List.length]. rewrite firstn_length, skipn_length. lia. }
    rewrite Lw. replace (List.length l <=? c) with true by lia.
    split; [reflexivity|]. split; [|split; [exact Len'|intros X; apply Cl'; auto]]. split; [exists k; auto|auto].
  - destruct M as [(k & C & F) Sc]. destruct (set_group_ok fm b g' Lg) as (b' & E).
    destruct (set_group_carries fm k g s l b g' b' C Lg E) as (C' & Len' & F' & Sc' & Cl').
    rewrite E. cbn [bind]. exists b'. replace (List.length l <=? c) with true by lia.
    split; [reflexivity|]. split; [|split; [exact Len'|intros X; apply Cl'; auto]]. split; [exists k; auto|auto].
Qed.

Lemma fixed_step fm e b g s l : message_in fm g s l b -> legal fm e l -> announced_enough e l ->
  exists b', try_edit fm e b = Val (b', snd (fixed_outcome (room_in fm (List.length b)) e l))
    /\ message_in fm (new_group e g) s (fst (fixed_outcome (room_in fm (List.length b)) e l)) b'
    /\ List.length b' = List.length b /\ (clean_bytes fm b -> clean_bytes fm b').
Proof.
  intros M Lg An. destruct (fixed_step_cl fm false e b g s l M ltac:(discriminate) Lg An) as (b' & E & M' & L' & _).
  exists b'. split; [exact E|]. split; [exact M'|]. split; [exact L'|]. intros Cl.
  destruct (fixed_step_cl fm true e b g s l M ltac:(auto) Lg An) as (b2 & E2 & _ & _ & Cl2).
  rewrite E in E2. injection E2 as <-. auto.
Qed.

Lemma fixed_history_ump fm s : forall es b g l, message_in fm g s l b ->
  fixed_legal fm (room_in fm (List.length b)) es l ->
  exists b', run_tries (try_edit fm) es b = Val (b', snd (fixed_history (room_in fm (List.length b)) es l))
    /\ message_in fm (final_group es g) s (fst (fixed_history (room_in fm (List.length b)) es l)) b'
    /\ List.length b' = List.length b /\ (clean_bytes fm b -> clean_bytes fm b').
Proof.
  induction es as [|e es IH]; intros b g l M Lg; cbn [run_tries fixed_history final_group fst snd].
  - exists b. auto.
  - destruct Lg as (L1 & L2 & L3).
    destruct (fixed_step fm e b g s l M L1 L2) as (b1 & E1 & M1 & Len1 & C1).
    rewrite E1. cbn [bind fst snd].
    destruct (fixed_outcome (room_in fm (List.length b)) e l) as [l1 ok] eqn:X. cbn [fst snd] in *.
    rewrite <- Len1 in L3. destruct (IH b1 _ l1 M1 L3) as (b' & E & M' & Len' & C').
    rewrite Len1 in *.
    destruct (fixed_history (room_in fm (List.length b)) es l1) as [l2 oks] eqn:Y. cbn [fst snd] in *.
    rewrite E. cbn [bind fst snd]. exists b'. split; [reflexivity|]. split; [exact M'|]. split; [lia|auto].
Qed.

(** ** Fixed byte buffers *)

Definition lone_end (r : list N) : Prop := Forall (fun x => x <> 0xF7%N) r.

Lemma stream_single l r : lone_end r -> single (List.length l) (stream_bytes l ++ r).
Proof.
  intros H j Hj. destruct (Nat.lt_ge_cases j (List.length (stream_bytes l ++ r))) as [X|X];
    [|rewrite nth_overflow by lia; discriminate].
  rewrite app_length, stream_bytes_length in X.
  rewrite app_nth2 by (rewrite stream_bytes_length; lia). unfold lone_end in H. rewrite Forall_forall in H.
  apply H, nth_In. rewrite stream_bytes_length. lia.
Qed.

Lemma single_rest l b : holds sealed rd_b l b -> single (List.length l) b ->
  exists r, b = stream_bytes l ++ r /\ lone_end r.
Proof.
  intros H S. exists (skipn (List.length l + 2) b). split; [now apply sealed_stream|].
  apply Forall_forall. intros x Hx. apply (In_nth _ _ 0%N) in Hx. destruct Hx as (i & Hi & <-).
  rewrite nth_skipn. apply S. lia.
Qed.

Lemma fixed_bytes_inv l r len : no_end l -> lone_end r -> List.length (stream_bytes l ++ r) = len ->
  holds (bytes_inv Fixed len) rd_b l (stream_bytes l ++ r).
Proof.
  intros Hl Hr Len. destruct (stream_sealed l r Hl) as [S R]. split; [|exact R].
  split; [exact S|]. split; [exact Len|]. now apply stream_single.
Qed.

(** The edits that leave no stale end byte: exact announcements, not shrinking. *)
Lemma splice_fixed_b l r src lo hi a e : Forall septet l -> lone_end r -> Forall septet (s_items src) ->
  range_begin lo = a -> range_end hi (List.length l) = e -> a <= e -> e <= List.length l ->
  (a = e \/ List.length (s_items src) <= announced src) ->
  let c := List.length l + List.length r in
  let l' := replaced l a e (s_items src) in
  if List.length l' <=? c
  then exists r', try_splice (bytes_ops Fixed) (stream_bytes l ++ r) src lo hi = Val (stream_bytes l' ++ r', true)
         /\ List.length l' + List.length r' = c
         /\ (List.length (s_items src) = announced src -> e - a <= List.length (s_items src) -> lone_end r')
  else exists r', try_splice (bytes_ops Fixed) (stream_bytes l ++ r) src lo hi = Val (stream_bytes [] ++ r', false)
         /\ List.length r' = c.
Proof.
  intros Hl Hr Hv Ha He A B An c l'.
  set (len := List.length (stream_bytes l ++ r)).
  assert (Lc : len - 2 = c) by (unfold len, c; rewrite app_length, stream_bytes_length; lia).
  assert (L2 : 2 <= len) by (unfold len; rewrite app_length, stream_bytes_length; lia).
  pose proof (fixed_bytes_inv l r len (septets_no_end l Hl) Hr eq_refl) as H.
  pose proof (splice_fit _ _ _ _ _ _ _ (bytes_laws_fixed len) _ l src lo hi a e H Hv Ha He A B An) as S.
  fold l' in S. rewrite Lc in S.
  destruct (List.length l' <=? c).
  - destruct S as (b' & E & [[S1 S2] R] & X).
    assert (SS : holds sealed rd_b l' b') by (split; auto).
    pose proof (sealed_stream l' b' SS) as Eb. exists (skipn (List.length l' + 2) b').
    rewrite <- Eb. split; [exact E|]. split.
    + rewrite skipn_length. pose proof (se_len _ _ S1). unfold l' in *. lia.
    + intros Y1 Y2. destruct (X Y1 Y2) as [[S3 [_ S4]] R3].
      destruct (single_rest l' b' SS S4) as (r2 & E2 & Hr2).
      assert (EE : skipn (List.length l' + 2) b' = r2).
      { rewrite E2, <- (stream_bytes_length l'), skipn_app, skipn_all, Nat.sub_diag. reflexivity. }
      now rewrite EE.
  - destruct S as (b' & E & [S1 S2]).
    assert (SS : holds sealed rd_b [] b') by (split; [exact S1|cbn; lia]).
    pose proof (sealed_stream [] b' SS) as Eb. exists (skipn (List.length (@nil N) + 2) b').
    rewrite <- Eb. split; [exact E|]. rewrite skipn_length. cbn [List.length]. lia.
Qed.

(** ** Iterators *)

Lemma calls_ok f b k : okf f -> sized f b k -> forall cs it, cursor f b k it ->
  within cs (remaining f k it) -> run_calls f cs it = Val (answers cs (remaining f k it)).
Proof.
  intros H S. induction cs as [|c cs IH]; intros it C W; cbn [run_calls answers]; [reflexivity|].
  destruct W as [W1 W2]. destruct c as [|n]; cbn [answer left_after] in *.
  - pose proof (next_ok f b k it H S C) as X. destruct (remaining f k it) as [|v t] eqn:E.
    + rewrite X. cbn [bind fst snd hd_error tl List.length] in *. rewrite IH; [|exact C|now rewrite E].
      rewrite E. cbn [bind]. unfold it_len. destruct C as (_ & _ & _ & ->). rewrite E. reflexivity.
    + destruct X as (it' & E' & C' & R'). rewrite E'. cbn [bind fst snd hd_error tl] in *.
      rewrite IH; [|exact C'|now rewrite R']. rewrite R'. cbn [bind]. unfold it_len.
      destruct C' as (_ & _ & _ & ->). now rewrite R'.
  - destruct (nth_in f b k it n H S C W1) as (it' & E' & C' & R'). rewrite E'. cbn [bind fst snd].
    rewrite IH; [|exact C'|now rewrite R']. rewrite R'. cbn [bind]. unfold it_len.
    destruct C' as (_ & _ & _ & ->). rewrite R'. f_equal. f_equal. f_equal.
    symmetry. now apply nth_error_nth'.
Qed.

(** Exhausted 7-bit iterators. *)
Lemma spent_calls b it : it_data it = b -> it_left it = 0 -> it_packet it = List.length b / 2 ->
  forall cs, run_calls fmt7 cs it = Val (answers cs []).
Proof.
  intros D Z P. revert it D Z P.
  assert (X : forall cs it, it_data it = b -> it_left it = 0 -> it_packet it = List.length b / 2 ->
    run_calls fmt7 cs it = Val (answers cs [])); [|auto].
  induction cs as [|c cs IH]; intros it D Z P; cbn [run_calls answers]; [reflexivity|].
  destruct c as [|n]; cbn [answer left_after].
  - unfold it_next. rewrite Z. cbn [Nat.eqb bind fst snd]. rewrite IH by auto. cbn [bind].
    unfold it_len. rewrite Z. reflexivity.
  - assert (E : it_nth fmt7 it n = Val (None, it_exhausted it)).
    { unfold it_nth. rewrite D, P. cbn [fmt7 f_words].
      pose proof (Nat.mul_div_le (List.length b) 2 ltac:(lia)) as M.
      pose proof (Nat.div_mod (List.length b) 2 ltac:(lia)) as M2.
      pose proof (Nat.mod_upper_bound (List.length b) 2 ltac:(lia)).
      replace (List.length b <? List.length b / 2 * 2) with false by lia.
      rewrite chunks_exact_spec by lia. rewrite skipn_length.
      rewrite (Nat.div_small (List.length b - _)) by lia. reflexivity. }
    rewrite E. cbn [bind fst snd]. rewrite IH; [|exact D|reflexivity|cbn; now rewrite D].
    cbn [bind it_len it_exhausted it_left]. rewrite skipn_nil. cbn [List.length]. now destruct n.
Qed.

Lemma calls_seven b k : sized fmt7 b k -> k = List.length b / 2 -> forall cs it, cursor fmt7 b k it ->
  run_calls fmt7 cs it = Val (answers cs (remaining fmt7 k it)).
Proof.
  intros S K. pose proof (okf_of SevenBit) as H. cbn [fmt_of] in H.
  induction cs as [|c cs IH]; intros it C; cbn [run_calls answers]; [reflexivity|].
  destruct c as [|n]; cbn [answer left_after] in *.
  - pose proof (next_ok fmt7 b k it H S C) as X. destruct (remaining fmt7 k it) as [|v t] eqn:E.
    + rewrite X. cbn [bind fst snd hd_error tl List.length] in *. rewrite IH by exact C.
      rewrite E. cbn [bind]. unfold it_len. destruct C as (_ & _ & _ & ->). rewrite E. reflexivity.
    + destruct X as (it' & E' & C' & R'). rewrite E'. cbn [bind fst snd hd_error tl] in *.
      rewrite IH by exact C'. rewrite R'. cbn [bind]. unfold it_len.
      destruct C' as (_ & _ & _ & ->). now rewrite R'.
  - destruct (Nat.lt_ge_cases n (List.length (remaining fmt7 k it))) as [W|W].
    + destruct (nth_in fmt7 b k it n H S C W) as (it' & E' & C' & R'). rewrite E'. cbn [bind fst snd].
      rewrite IH by exact C'. rewrite R'. cbn [bind]. unfold it_len.
      destruct C' as (_ & _ & _ & ->). rewrite R'. f_equal. f_equal. f_equal.
      symmetry. now apply nth_error_nth'.
    + rewrite (nth_past fmt7 b k it n H S K C W). cbn [bind fst snd].
      rewrite skipn_all2 by lia. rewrite (spent_calls b); [| |reflexivity|];
        [|cbn; now destruct C|cbn; destruct C as [-> _]; reflexivity].
      cbn [bind it_len it_exhausted it_left List.length]. f_equal. f_equal. f_equal.
      symmetry. now apply nth_error_None.
Qed.

Lemma calls_bytes data : Forall septet data -> forall cs i, i <= List.length data ->
  within cs (skipn i data) ->
  run_calls_b cs {| ib_data := data; ib_index := i |} = Val (answers cs (skipn i data)).
Proof.
  intros Hv. rewrite Forall_forall in Hv.
  assert (NX : forall i, i < List.length data -> ib_next {| ib_data := data; ib_index := i |}
    = Val (Some (nth i data 0%N), {| ib_data := data; ib_index := S i |})).
  { intros i Hi. unfold ib_next. cbn [ib_data ib_index]. replace (List.length data <=? i) with false by lia.
    rewrite idx_nth by lia. cbn [bind]. unfold u7_new. pose proof (Hv _ (nth_In data 0%N Hi)) as X.
    unfold septet in X. replace (nth i data 0%N <? 128)%N with true by lia. reflexivity. }
  induction cs as [|c cs IH]; intros i Hi W; cbn [run_calls_b answers]; [reflexivity|].
  destruct W as [W1 W2]. destruct c as [|n]; cbn [answer left_after] in *.
  - destruct (Nat.eq_dec i (List.length data)) as [->|Hn].
    + unfold ib_next. cbn [ib_data ib_index]. rewrite Nat.leb_refl. cbn [bind fst snd].
      rewrite skipn_all in *. cbn [tl hd_error List.length]. unfold ib_len. cbn [ib_data ib_index].
      unfold sub_chk. rewrite Nat.ltb_irrefl, Nat.sub_diag. cbn [bind].
      rewrite IH by (auto; rewrite skipn_all; exact W2). rewrite skipn_all. reflexivity.
    + rewrite NX by lia. cbn [bind fst snd]. rewrite (skipn_cons_nth data i) in * by lia. cbn [tl hd_error] in *.
      unfold ib_len. cbn [ib_data ib_index]. unfold sub_chk.
      replace (List.length data <? S i) with false by lia. cbn [bind].
      rewrite IH by (auto; lia). cbn [bind]. rewrite skipn_length. reflexivity.
  - rewrite skipn_length in W1. unfold ib_nth. cbn [ib_data ib_index]. rewrite NX by lia. cbn [bind fst snd].
    unfold ib_len. cbn [ib_data ib_index]. unfold sub_chk.
    replace (List.length data <? S (i + n)) with false by lia. cbn [bind].
    assert (SK : skipn (S n) (skipn i data) = skipn (S (i + n)) data).
    { rewrite skipn_skipn'. f_equal. lia. }
    rewrite SK in *. rewrite IH by (auto; lia). cbn [bind]. rewrite skipn_length. f_equal. f_equal. f_equal.
    rewrite (nth_error_nth' _ 0%N) by (rewrite skipn_length; lia). now rewrite nth_skipn.
Qed.
