(** Lemmas: histories of setter calls on text messages; calls of the text iterator. *)
From Coq Require Import NArith ZArith List String Bool Arith Lia Zify ZifyBool ZifyNat ZifyN.
From Verif Require Import Base BitOps BitLemmas ListLemmas Values Helpers Props Message SpecLayout SpecFixed
  PropLemmas PropValidate Sysex ByteView SysexLayout SysexBridge
  Text SpecSysex SpecText TextLemmas TextHeader TextFlex TextFlexMore TextFlexInit TextStream TextStreamMore
  TextUtf8 TextParse TextClient.
Import ListNotations.
Local Open Scope nat_scope.

(** *** Flex data *)

Definition fstate (bank st : N) (s : flex_state) (b : list N) : Prop :=
  fholds bank st (fs_group s) (fs_channel s) (fs_text s) b.

Lemma flex_do_ok bank st s e b : flex_edit_ok e -> fstate bank st s b ->
  List.length b = 4 * text_packets 12 (List.length (fs_text s)) ->
  exists b', flex_do e b = Val b' /\ fstate bank st (flex_after None s e) b'
    /\ List.length b' = 4 * text_packets 12 (List.length (fs_text (flex_after None s e))).
Proof.
  intros He S0 L. pose proof (fh_room S0) as R. destruct e as [g|o|t]; cbn [flex_do flex_edit_ok] in *.
  - destruct (set_group_fholds _ _ _ _ _ _ g S0 He) as (b' & E & L' & S1 & _).
    exists b'. split; [exact E|]. split; [exact S1|]. cbn. lia.
  - destruct (set_channel_fholds _ _ _ _ _ _ o S0 He) as (b' & E & L' & S1).
    exists b'. split; [exact E|]. split; [exact S1|]. cbn. lia.
  - destruct (set_text_fholds b t He ltac:(lia)) as (b' & E & L' & S1).
    destruct (fholds_first _ _ _ _ _ _ S0) as (E1 & E2 & E3 & E4). rewrite E1, E2, E3, E4 in S1.
    exists b'. split; [exact E|]. split; [exact S1|]. exact L'.
Qed.

Lemma flex_history bank st h : forall s b, Forall flex_edit_ok h -> fstate bank st s b ->
  List.length b = 4 * text_packets 12 (List.length (fs_text s)) ->
  exists b', run_all flex_do h b = Val b' /\ fstate bank st (fold_left (flex_after None) h s) b'
    /\ List.length b' = 4 * text_packets 12 (List.length (fs_text (fold_left (flex_after None) h s))).
Proof.
  induction h as [|e h IH]; intros s b Hh S0 L; cbn [run_all fold_left]; [eauto|].
  inversion Hh as [|? ? He Hr]; subst. destruct (flex_do_ok _ _ s e b He S0 L) as (b' & -> & S1 & L1). cbn [bind].
  now apply IH.
Qed.

Lemma packets_fit k n : (n <? 4 * k) = negb (k <=? n / 4).
Proof.
  pose proof (Nat.div_mod n 4 ltac:(lia)). pose proof (Nat.mod_upper_bound n 4 ltac:(lia)).
  destruct (Nat.ltb_spec n (4 * k)), (Nat.leb_spec k (n / 4)); try reflexivity; lia.
Qed.

Lemma flex_try_do_ok bank st s e b : flex_edit_ok e -> fstate bank st s b ->
  let room := Some (List.length b / 4) in
  exists b', flex_try_do e b = Val (b', flex_accepted room e) /\ fstate bank st (flex_after room s e) b'
    /\ List.length b' = List.length b.
Proof.
  intros He S0 room. pose proof (fh_room S0) as R. destruct e as [g|o|t]; cbn [flex_try_do flex_edit_ok] in *.
  - destruct (set_group_fholds _ _ _ _ _ _ g S0 He) as (b' & E & L' & S1 & _).
    exists b'. rewrite E. split; [reflexivity|]. split; [exact S1|]. lia.
  - destruct (set_channel_fholds _ _ _ _ _ _ o S0 He) as (b' & E & L' & S1).
    exists b'. rewrite E. split; [reflexivity|]. split; [exact S1|]. lia.
  - rewrite flex_try_set_text_put, packets_fit. unfold flex_after.
    cbn [flex_accepted fits room]. destruct (Nat.leb_spec (text_packets 12 (List.length t)) (List.length b / 4)) as [F|F];
      cbn [negb].
    + pose proof (Nat.div_mod (List.length b) 4 ltac:(lia)).
      destruct (put_fholds b t He ltac:(lia)) as (b' & -> & L' & S1). cbn [bind].
      destruct (fholds_first _ _ _ _ _ _ S0) as (E1 & E2 & E3 & E4). rewrite E1, E2, E3, E4 in S1.
      exists b'. split; [reflexivity|]. split; [exact S1|exact L'].
    + exists b. split; [reflexivity|]. split; [exact S0|reflexivity].
Qed.

Lemma flex_try_history bank st h n : forall s b, Forall flex_edit_ok h -> fstate bank st s b -> List.length b = n ->
  let room := Some (n / 4) in
  exists b', run_try flex_try_do h b = Val (b', map (flex_accepted room) h)
    /\ fstate bank st (fold_left (flex_after room) h s) b' /\ List.length b' = n.
Proof.
  induction h as [|e h IH]; intros s b Hh S0 L; cbn [run_try fold_left map]; [eauto|].
  inversion Hh as [|? ? He Hr]; subst. destruct (flex_try_do_ok _ _ s e b He S0) as (b' & -> & S1 & L1). cbn [bind fst snd].
  destruct (IH _ b' Hr S1 L1) as (b2 & -> & S2 & L2). cbn [bind fst snd]. eauto.
Qed.

(** *** Stream *)

Definition sstate (K : stream_kind) (s : stream_state) (b : list N) : Prop :=
  sholds (sk_off K) (sk_status K) (ss_block s) (ss_name s) b.

Lemma sholds_ext off st blk blk' t b : (forall p, blk p = blk' p) -> sholds off st blk t b -> sholds off st blk' t b.
Proof.
  intros E [A1 A2 A3 [L4 A4] A5 A6]. split; auto.
  - split; [exact L4|]. intros w o Hw Ho. rewrite A4 by auto. unfold stream_header, blocks.
    destruct (off =? 1); [|reflexivity]. destruct o as [|[|[|o]]]; try reflexivity. cbn [nth app]. now rewrite E.
  - intros H w. rewrite <- E. now apply A6.
Qed.

Lemma sholds_old off st blk t b : sholds off st blk t b -> off <= 1 -> List.length b mod 4 = 0 -> off = 1 ->
  forall p, oct b (16 * p + 2) = blk p.
Proof.
  intros S0 Ho M E p. rewrite (sh_blk _ _ _ _ _ S0 E p). destruct (Nat.ltb_spec p (List.length b / 4)); [reflexivity|].
  apply oct_beyond. pose proof (Nat.div_mod (List.length b) 4 ltac:(lia)). lia.
Qed.

(** Block numbers do not matter in messages without them. *)
Lemma sholds_noblk st blk blk' t b : sholds 0 st blk t b -> sholds 0 st blk' t b.
Proof. intros [A1 A2 A3 A4 A5 A6]. split; auto. discriminate. Qed.

Lemma stream_do_ok K s e b : stream_edit_ok (sk_off K) e -> sstate K s b ->
  List.length b = 4 * text_packets (14 - sk_off K) (List.length (ss_name s)) ->
  exists b', stream_do (sk_off K) e b = Val b' /\ sstate K (stream_after (sk_off K) None s e) b'
    /\ List.length b' = 4 * text_packets (14 - sk_off K) (List.length (ss_name (stream_after (sk_off K) None s e))).
Proof.
  intros He S0 L. pose proof (sh_room S0) as R. pose proof (sh_off _ _ _ _ _ S0) as Ho.
  assert (L4 : List.length b / 4 = text_packets (14 - sk_off K) (List.length (ss_name s))).
  { rewrite L, Nat.mul_comm, Nat.div_mul; lia. }
  destruct e as [v|t]; cbn [stream_do stream_edit_ok] in *.
  - destruct He as [E Hv]. unfold sstate in *. rewrite E in S0, R, L, L4 |- *.
    destruct (block_write_sholds _ _ _ _ v S0 Hv) as (b' & E' & L' & S1).
    exists b'. split; [exact E'|]. split.
    + unfold stream_after. cbn [stream_accepted fits negb ss_block ss_name]. cbv zeta. rewrite L4 in S1. exact S1.
    + rewrite L', L. reflexivity.
  - destruct (set_name_sholds (sk_off K) b t Ho He ltac:(lia)) as (b' & E' & L' & S1).
    rewrite (sholds_st S0) in S1. exists b'. split; [exact E'|]. split; [|exact L'].
    unfold sstate, stream_after. cbn [stream_accepted fits negb ss_block ss_name].
    destruct (Nat.eq_dec (sk_off K) 1) as [E|E].
    + eapply sholds_ext; [|exact S1]. intros p. cbn beta. destruct (_ <? _); [|reflexivity].
      apply (sholds_old _ _ _ _ _ S0 Ho); [|exact E]. rewrite L, Nat.mul_comm, Nat.mod_mul; lia.
    + assert (E0 : sk_off K = 0) by lia. rewrite E0 in S1 |- *. eapply sholds_noblk, S1.
Qed.

Lemma stream_history K h : forall s b, Forall (stream_edit_ok (sk_off K)) h -> sstate K s b ->
  List.length b = 4 * text_packets (14 - sk_off K) (List.length (ss_name s)) ->
  let s' := fold_left (stream_after (sk_off K) None) h s in
  exists b', run_all (stream_do (sk_off K)) h b = Val b' /\ sstate K s' b'
    /\ List.length b' = 4 * text_packets (14 - sk_off K) (List.length (ss_name s')).
Proof.
  induction h as [|e h IH]; intros s b Hh S0 L; cbn [run_all fold_left]; [cbn zeta; eauto|].
  inversion Hh as [|? ? He Hr]; subst. destruct (stream_do_ok K s e b He S0 L) as (b' & -> & S1 & L1). cbn [bind].
  now apply IH.
Qed.

Lemma stream_try_do_ok K s e b : stream_edit_ok (sk_off K) e -> sstate K s b ->
  let room := Some (List.length b / 4) in
  exists b', stream_try_do (sk_off K) e b = Val (b', stream_accepted (sk_off K) room e)
    /\ sstate K (stream_after (sk_off K) room s e) b' /\ List.length b' = List.length b.
Proof.
  intros He S0 room. pose proof (sh_room S0) as R. pose proof (sh_off _ _ _ _ _ S0) as Ho.
  destruct e as [v|t]; cbn [stream_try_do stream_edit_ok] in *.
  - destruct He as [E Hv]. unfold sstate in *. rewrite E in S0, R |- *.
    destruct (block_write_sholds _ _ _ _ v S0 Hv) as (b' & E' & L' & S1). rewrite E'.
    exists b'. split; [reflexivity|]. split; [exact S1|exact L'].
  - rewrite stream_try_set_text_put, packets_fit by exact Ho. unfold stream_after.
    cbn [stream_accepted fits room].
    destruct (Nat.leb_spec (text_packets (14 - sk_off K) (List.length t)) (List.length b / 4)) as [F|F]; cbn [negb].
    + pose proof (Nat.div_mod (List.length b) 4 ltac:(lia)).
      destruct (put_sholds (sk_off K) b t Ho He ltac:(lia)) as (b' & -> & L' & S1). cbn [bind].
      rewrite (sholds_st S0) in S1. exists b'. split; [reflexivity|]. split; [|exact L'].
      unfold sstate. cbn [ss_block ss_name]. destruct (Nat.eq_dec (sk_off K) 1) as [E|E].
      * eapply sholds_ext; [|exact S1]. intros p. cbn beta.
        destruct (Nat.ltb_spec p (text_packets (14 - sk_off K) (List.length t))); [|reflexivity].
        rewrite (sh_blk _ _ _ _ _ S0 E p). now replace (p <? List.length b / 4) with true by lia.
      * assert (E0 : sk_off K = 0) by lia. rewrite E0 in S1 |- *. eapply sholds_noblk, S1.
    + exists b. split; [reflexivity|]. split; [exact S0|reflexivity].
Qed.

Lemma stream_try_history K h n : forall s b, Forall (stream_edit_ok (sk_off K)) h -> sstate K s b ->
  List.length b = n -> let room := Some (n / 4) in
  exists b', run_try (stream_try_do (sk_off K)) h b = Val (b', map (stream_accepted (sk_off K) room) h)
    /\ sstate K (fold_left (stream_after (sk_off K) room) h s) b' /\ List.length b' = n.
Proof.
  induction h as [|e h IH]; intros s b Hh S0 L; cbn [run_try fold_left map]; [cbn zeta; eauto|].
  inversion Hh as [|? ? He Hr]; subst. destruct (stream_try_do_ok K s e b He S0) as (b' & -> & S1 & L1). cbn [bind fst snd].
  destruct (IH _ b' Hr S1 L1) as (b2 & -> & S2 & L2). cbn [bind fst snd]. cbn zeta. eauto.
Qed.

(** *** The iterator *)

Lemma calls_pos f b : okt f -> 4 <= List.length b -> forall n i, i <= reach f (List.length b) ->
  ti_calls n f (at_pos f b i) = Val (firstn n (map Some (upcoming f b i) ++ repeat None n)).
Proof.
  intros H Hb. induction n as [|n IH]; intros i Hi; [reflexivity|]. cbn [ti_calls].
  destruct (next_pos f b i H Hb Hi) as (j & Hj & Hn). destruct (upcoming f b i) as [|v l].
  - destruct Hn as [-> E]. cbn [bind snd fst]. rewrite IH by lia. rewrite E. reflexivity.
  - destruct Hn as (-> & E & _). cbn [bind snd fst]. rewrite IH by lia. rewrite E. cbn [bind map app firstn].
    f_equal. f_equal. rewrite !firstn_app, !map_length. f_equal.
    replace (S n) with (n + 1) by lia. rewrite repeat_app. rewrite firstn_app, repeat_length.
    replace (n - List.length l - n) with 0 by lia. now rewrite app_nil_r.
Qed.
