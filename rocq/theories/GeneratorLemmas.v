(** Lemmas on the generator example: one region, then the whole array. *)
From Coq Require Import NArith ZArith List String Bool Arith Lia Zify ZifyBool ZifyNat ZifyN.
From Verif Require Import Base BitOps ListLemmas Values Props Message MessageTable SpecLayout SpecFixed FixedLemmas FixedProofs.
From Verif Require Import Sysex Splice SpecSysex SpecEdits SysexHold SysexInit SysexFixedBytes.
From Verif Require Import Text Aggregate SpecAggregate SpecStream Generator SpecGenerator.
Import ListNotations.
Local Open Scope string_scope.
Local Open Scope list_scope.
Local Open Scope nat_scope.

Lemma byte_messages : forallb (fun m => negb (supports U8 m) || negb (scans_packets m)
  && ((FixedLemmas.room U8 m <=? min_size U8 m) || String.eqb (m_name m) "system_common::SongPositionPointer")
  && (1 <=? min_size U8 m)) all_messages = true.
Proof. vm_compute. reflexivity. Qed.
Lemma byte_message m : In m all_messages -> supports U8 m = true ->
  scans_packets m = false /\ (constructible U8 m -> FixedLemmas.room U8 m <= min_size U8 m) /\ 1 <= min_size U8 m.
Proof.
  intros Hm Hs. pose proof byte_messages as H. rewrite forallb_forall in H. specialize (H m Hm). rewrite Hs in H.
  cbn [negb orb] in H. apply andb_prop in H as [H C]. apply andb_prop in H as [A B]. apply Nat.leb_le in C.
  split; [now destruct (scans_packets m)|]. split; [|exact C]. intros N0. apply orb_prop in B as [B|B].
  - now apply Nat.leb_le in B.
  - apply String.eqb_eq in B. contradiction.
Qed.

Lemma stream_bytes_length l : List.length (stream_bytes l) = List.length l + 2.
Proof. unfold stream_bytes. cbn [List.length]. rewrite app_length. cbn [List.length]. lia. Qed.

Lemma build_ok o region : proper o -> needed o <= List.length region -> wf_buf U8 region ->
  exists b, build o region = Val (Ok b) /\ List.length b = List.length region
    /\ delivered o (order_type o, b)
    /\ forall d, concrete_data U8 (order_type o) b = Val d -> wf_buf U8 d.
Proof.
  destruct o as [m n h|n s]; cbn [proper needed build order_type].
  - intros (Hm & Hs & Hc & Hl) L W. destruct (byte_message m Hm Hs) as (Sc & Rm & _). specialize (Rm Hc).
    assert (Ca : calm m region).
    { intros P. unfold scans_packets in Sc. rewrite P, orb_true_r in Sc. discriminate. }
    destruct (construct_with_buffer U8 m region Hm Hs Hc W L Ca) as (z & b0 & _ & Fz & E0 & L0 & H0 & D0 & G0).
    rewrite E0. cbn [try_bind]. destruct (run_sets_ok U8 m h Hm Hl b0 H0) as (b & E & Hb & Lb & _).
    rewrite E. cbn [bind]. exists b. split; [reflexivity|]. split; [congruence|].
    rewrite (data_ok U8 m b0) in D0 by lia. assert (z = firstn (min_size U8 m) b0) by congruence. subst z. clear D0.
    assert (M0 : meaningful U8 m b0).
    { intros f w Hin. rewrite <- (firstn_decode U8 m f w b0 (min_size U8 m)) by auto.
      destruct Fz as (_ & _ & _ & Dz). rewrite (Dz f w Hin). discriminate. }
    pose proof (run_sets_meaningful U8 m b0 h b Hm Hl H0 E M0) as Mb.
    assert (Dd : data U8 m b = Val (firstn (min_size U8 m) b)) by (apply data_ok; lia).
    destruct Hb as (Wb & Hlb & Hb3).
    assert (Wf : wf_buf U8 (firstn (min_size U8 m) b)) by now apply wf_firstn.
    assert (Lf : List.length (firstn (min_size U8 m) b) = min_size U8 m) by (rewrite firstn_length; lia).
    split; [|cbn [concrete_data]; intros d; rewrite Dd; intros [= <-]; exact Wf].
    split; [reflexivity|]. cbn [fst snd]. split; [|split].
    + unfold accepted. cbn [concrete_try_from]. apply accepts_bare; auto.
    + exists (firstn (min_size U8 m) b). cbn [concrete_data]. split; [exact Dd|]. split; [|exact Lf].
      split; cbn [fst snd].
      * unfold accepted. cbn [concrete_try_from]. apply accepts_bare; auto. split; [lia|].
        intros f w Hin. rewrite (firstn_decode U8 m f) by auto. now apply (Mb f).
      * cbn [concrete_data]. rewrite data_ok by lia. now rewrite firstn_firstn, Nat.min_id.
    + intros f w Hw. destruct (run_sets_ok U8 m h Hm Hl b0 H0) as (b1 & E1 & _ & _ & _ & Hg & _).
      assert (b1 = b) by congruence. subst b1.
      assert (Hold : SpecFixed.holds U8 m b) by (split; [exact Wb|split; auto]).
      rewrite (get_settable U8 m b f w) by auto. rewrite (Hg f w Hw). destruct (last_set f h) as [v|]; [reflexivity|].
      pose proof (G0 f) as Gf. rewrite (get_settable U8 m b0 f w) in Gf by auto.
      rewrite (fresh_get U8 m _ f w Hm Hc Fz Hw) in Gf. exact Gf.
  - intros (Hu & An) L W. pose proof (try_new_with_buffer_b_fresh region) as T.
    replace (List.length region <? 2) with false in T by lia. rewrite T. cbn [try_bind].
    assert (C : closed (stream_bytes [] ++ skipn 2 region)) by (exists [], (skipn 2 region); split; [constructor|reflexivity]).
    assert (Lr : List.length (stream_bytes [] ++ skipn 2 region) = List.length region)
      by (rewrite app_length, skipn_length; cbn [stream_bytes List.length app]; lia).
    pose proof (set_fixed_any_b _ s C Hu An) as X. rewrite Lr in X.
    replace (List.length (s_items s) + 2 <=? List.length region) with true in X by lia.
    destruct X as (r & E & Lr'). rewrite E. cbn [bind]. exists (stream_bytes (s_items s) ++ r).
    split; [reflexivity|]. split; [exact Lr'|]. pose proof (septets_no_end _ Hu) as Ne.
    destruct (septet_reads (s_items s) r Ne) as (D & _ & P).
    destruct (septet_reads (s_items s) [] Ne) as (D' & _). rewrite app_nil_r in D'.
    split.
    + split; [reflexivity|]. cbn [fst snd]. split; [|split].
      * unfold accepted. cbn [concrete_try_from]. f_equal. apply accepts_b. eauto.
      * exists (stream_bytes (s_items s)). cbn [concrete_data]. split; [exact D|]. split; [|now rewrite stream_bytes_length].
        split; cbn [fst snd]; [|exact D'].
        unfold accepted. cbn [concrete_try_from]. f_equal. apply accepts_b. exists (s_items s), []. now rewrite app_nil_r.
      * now apply P.
    + cbn [concrete_data]. intros d. rewrite D. intros [= <-]. unfold stream_bytes.
      constructor; [reflexivity|]. apply Forall_app. split; [|repeat constructor].
      eapply Forall_impl; [|exact Hu]. intros v Hv. unfold is_unit in Hv. cbn in Hv. change (v < 256)%N. lia.
Qed.

Lemma build_small o region : proper o -> List.length region < needed o ->
  build o region = Val (Err "BufferOverflow").
Proof.
  destruct o as [m n h|n s]; cbn [proper needed build].
  - intros _ L. unfold try_new_with_buffer, fixed_try_resize.
    destruct (Nat.ltb_spec (List.length region) (min_size U8 m)); [reflexivity|lia].
  - intros (Hu & An) L. pose proof (try_new_with_buffer_b_fresh region) as T.
    destruct (Nat.ltb_spec (List.length region) 2); rewrite T; [reflexivity|]. cbn [try_bind].
    assert (C : closed (stream_bytes [] ++ skipn 2 region)) by (exists [], (skipn 2 region); split; [constructor|reflexivity]).
    assert (Lr : List.length (stream_bytes [] ++ skipn 2 region) = List.length region)
      by (rewrite app_length, skipn_length; cbn [stream_bytes List.length app]; lia).
    pose proof (set_fixed_any_b _ s C Hu An) as X. rewrite Lr in X.
    replace (List.length (s_items s) + 2 <=? List.length region) with false in X by lia.
    destruct X as (r & E & _). rewrite E. reflexivity.
Qed.

Definition fitting (o : order) : Prop := proper o /\ needed o <= order_size o.

Lemma total_app l k : total (l ++ k) = total l + total k.
Proof. induction l; cbn [total app]; lia. Qed.
Lemma laid_out_app at_ l k : laid_out at_ (l ++ k) = laid_out at_ l ++ laid_out (at_ + total l) k.
Proof.
  revert at_. induction l as [|o l IH]; intros at_; cbn [laid_out total app]; [now rewrite Nat.add_0_r|].
  rewrite IH. now rewrite Nat.add_assoc.
Qed.
Lemma laid_out_length at_ l : List.length (laid_out at_ l) = List.length l.
Proof. revert at_. induction l; intros at_; cbn [laid_out List.length]; auto. Qed.

Lemma wf_skipn n b : wf_buf U8 b -> wf_buf U8 (skipn n b).
Proof. intros W. rewrite <- (firstn_skipn n b) in W. now apply Forall_app in W as [_ W]. Qed.

(** Writing a region: what is before and behind it stays. *)
Lemma written (mem region : list N) at_ n : at_ + n <= List.length mem -> List.length region = n ->
  let mem1 := firstn at_ mem ++ region ++ skipn (at_ + n) mem in
  List.length mem1 = List.length mem /\ firstn at_ mem1 = firstn at_ mem
  /\ firstn (at_ + n) mem1 = firstn at_ mem ++ region /\ skipn (at_ + n) mem1 = skipn (at_ + n) mem.
Proof.
  intros L Lr mem1. assert (La : List.length (firstn at_ mem) = at_) by (rewrite firstn_length; lia).
  unfold mem1. split; [|split; [|split]].
  - rewrite !app_length, skipn_length. lia.
  - rewrite firstn_app, La, Nat.sub_diag. cbn [firstn]. rewrite app_nil_r. rewrite firstn_all2; [reflexivity|lia].
  - rewrite app_assoc, firstn_app, app_length, La, Lr, Nat.sub_diag. cbn [firstn]. rewrite app_nil_r.
    apply firstn_all2. rewrite app_length. lia.
  - rewrite app_assoc, skipn_app, app_length, La, Lr, Nat.sub_diag. cbn [skipn].
    rewrite skipn_all2 by (rewrite app_length; lia). reflexivity.
Qed.

Definition sound_in (mem : list N) (o : order) (p : pointer) : Prop :=
  delivered o (deref mem p) /\ forall d, concrete_data U8 (p_type p) (snd (deref mem p)) = Val d -> wf_buf U8 d.

Lemma firstn_le {A} (x y : list A) n k : k <= n -> firstn n x = firstn n y -> firstn k x = firstn k y.
Proof.
  intros L E. replace k with (Nat.min k n) by lia. rewrite <- !firstn_firstn. now rewrite E.
Qed.

Lemma generate_ok os : forall slots mem at_ kept, at_ <= List.length mem -> wf_buf U8 (skipn at_ mem) ->
  Forall fitting os -> List.length kept + List.length os <= slots -> at_ + total os <= List.length mem ->
  exists mem', (forall t, generate slots mem at_ kept (os ++ t) = generate slots mem' (at_ + total os) (kept ++ laid_out at_ os) t)
    /\ List.length mem' = List.length mem /\ firstn at_ mem' = firstn at_ mem
    /\ skipn (at_ + total os) mem' = skipn (at_ + total os) mem
    /\ Forall2 (sound_in mem') os (laid_out at_ os).
Proof.
  induction os as [|o os IH]; intros slots mem at_ kept La W F Ls Lt.
  - exists mem. cbn [app laid_out total]. rewrite Nat.add_0_r, app_nil_r.
    split; [reflexivity|]. split; [reflexivity|]. split; [reflexivity|]. split; [reflexivity|constructor].
  - inversion F as [|? ? [Pr Nd] F']; subst. cbn [total List.length] in *.
    set (n := order_size o) in *. set (region := firstn n (skipn at_ mem)).
    assert (Lr : List.length region = n) by (unfold region; rewrite firstn_length, skipn_length; lia).
    destruct (build_ok o region Pr ltac:(lia)) as (b & Eb & Lb & Db & Wb); [now apply wf_firstn|].
    rewrite Lr in Lb. destruct (written mem b at_ n ltac:(lia) Lb) as (L1 & F1 & F2 & S1).
    set (mem1 := firstn at_ mem ++ b ++ skipn (at_ + n) mem) in *.
    set (p := {| p_type := order_type o; p_at := at_; p_len := n |}).
    destruct (IH slots mem1 (at_ + n) (kept ++ [p])) as (mem' & E & L' & F3 & S2 & F4).
    + lia.
    + rewrite S1. rewrite <- skipn_skipn'. now apply wf_skipn.
    + exact F'.
    + rewrite app_length. cbn [List.length]. lia.
    + lia.
    + exists mem'. split; [|split; [lia|split; [|split]]].
      * intros t. cbn [app generate]. fold n. fold region.
        replace (List.length mem - at_ <? n) with false by lia. rewrite Eb. cbn [try_bind]. fold mem1.
        replace (slots <=? List.length kept) with false by lia. fold p. rewrite E.
        cbn [laid_out]. fold n. fold p. rewrite <- app_assoc. cbn [app]. now rewrite Nat.add_assoc.
      * rewrite <- F1. apply (firstn_le _ _ (at_ + n)); [lia|exact F3].
      * rewrite Nat.add_assoc, S2, <- (skipn_skipn' (total os) (at_ + n) mem1), <- (skipn_skipn' (total os) (at_ + n) mem). now rewrite S1.
      * cbn [laid_out]. fold n. constructor; [|exact F4]. fold p.
        assert (Dp : deref mem' p = (order_type o, b)).
        { unfold deref, p. cbn [p_type p_at p_len]. f_equal.
          rewrite firstn_skipn_comm, F3, F2, skipn_app. rewrite firstn_length.
          replace (at_ - Nat.min at_ (List.length mem)) with 0 by lia. cbn [skipn].
          rewrite skipn_all2 by (rewrite firstn_length; lia). reflexivity. }
        split; rewrite Dp; [exact Db|exact Wb].
Qed.
