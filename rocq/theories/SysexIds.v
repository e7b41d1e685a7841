(** Lemmas: the stream ids of 8-bit messages. *)
From Coq Require Import NArith List Bool Arith Lia ZifyN ZifyNat ZifyBool.
From Verif Require Import Base BitOps Message Sysex Splice SpecSysex SpecEdits SysexClient
  BitLemmas ListLemmas ByteView SysexLayout SysexRead SysexEdit SpliceLemmas SysexLaws
  SysexBridge SysexHold SysexMore SysexInit SysexHistory.
Import ListNotations.
Local Open Scope nat_scope.

(** Operations that keep [Q] as well. *)
Lemma laws_and o I W rd okv lim shr (Q : list N -> Prop) : laws o I W rd okv lim shr ->
  (forall n b m b' r, I n b -> Q b -> o_resize o b m = Val (b', r) -> Q b') ->
  (forall n b v i b', I n b -> Q b -> i < n -> okv v -> o_write o b v i = Val b' -> Q b') ->
  (forall n b tail to b', I n b -> Q b -> (tail < to /\ to <= n) \/ (to < tail /\ tail <= n) ->
     o_move o b tail to = Val b' -> Q b') ->
  laws o (fun n b => I n b /\ Q b) (fun n b => W n b /\ Q b) rd okv lim shr.
Proof.
  intros L R Wr M. constructor.
  - intros n b [A _]. eapply l_compact; eauto.
  - intros n b [A _]. eapply l_size; eauto.
  - intros n b [A _]. eapply l_le; eauto.
  - intros n b m [A B] C D. destruct (l_grow _ _ _ _ _ _ _ L n b m A C D) as (b' & E & I' & X). eauto 8.
  - intros n b m c [A B] C D. destruct (l_full _ _ _ _ _ _ _ L n b m c A C D) as (b' & E & I' & X). eauto 8.
  - intros n b m [A B] C. destruct (l_final _ _ _ _ _ _ _ L n b m A C) as (b' & E & W' & I' & X).
    exists b'. split; [exact E|]. split; [split; eauto|]. split; [split; eauto|exact X].
  - intros n b v i [A B] C D. destruct (l_write _ _ _ _ _ _ _ L n b v i A C D) as (b' & E & I' & X). eauto 8.
  - intros n b t u [A B] C D. destruct (l_right _ _ _ _ _ _ _ L n b t u A C D) as (b' & E & I' & X).
    exists b'. split; [exact E|]. split; [split; [exact I'|]|exact X]. apply (M n b t u b'); auto.
  - intros n b t u [A B] C D. destruct (l_left _ _ _ _ _ _ _ L n b t u A C D) as (b' & E & I' & X).
    exists b'. split; [exact E|]. split; [split; [exact I'|]|exact X]. apply (M n b t u b'); auto.
  - intros n b t [A B]. eapply l_same; eauto.
Qed.

Lemma move_heads f g s cl k len n b tail to b' : okf f -> ump_inv f g s cl k len n b ->
  (tail < to /\ to <= n) \/ (to < tail /\ tail <= n) -> move_tail f b tail to = Val b' ->
  same_heads f b b'.
Proof.
  intros H HI D. pose proof HI as (FR & T & _). pose proof (fr_len _ _ _ _ FR) as HL.
  unfold move_tail. rewrite tidy_compact by auto. cbn [negb].
  rewrite (framed_payload_size f g n b H FR). cbn [bind].
  destruct (Nat.ltb_spec tail to) as [Lt|Ge].
  - unfold sub_chk. replace (n <? to - tail) with false by lia. cbn [bind].
    destruct (move_right_fold f n b (to - tail) tail (n - (to - tail)) H HL) as (b2 & E & Sh & _);
      [lia|lia|]. rewrite E. intros [= <-]. exact Sh.
  - destruct (Nat.ltb_spec to tail) as [Lt|Ge']; [|lia].
    destruct (move_left_fold f n b (tail - to) tail H HL) as (b2 & E & Sh & _); [lia|lia|lia|].
    rewrite E. intros [= <-]. exact Sh.
Qed.

(** The first packet has id [i], the others [i] or 0. *)
Definition idq (i : N) (b : list N) : Prop :=
  stream_of EightBit b 0 = i
  /\ forall p, stream_of EightBit b p = i \/ stream_of EightBit b p = 0%N.

Lemma heads_idq i b b' : same_heads fmt8 b b' -> idq i b -> idq i b'.
Proof.
  intros [_ S]. unfold idq, stream_of. cbn [packet_bytes].
  assert (E : forall p, byte b' (16 * p + 2) = byte b (16 * p + 2)).
  { intros p. rewrite !byte_oct. apply (S p 2). cbn. lia. }
  intros [A B]. rewrite E. split; [exact A|]. intros p. rewrite E. apply B.
Qed.

Lemma resize_idq i b b1 n g b' : (forall p, oct b' (16 * p + 2) = reheaded fmt8 n g b1 (16 * p + 2)) ->
  (forall p, oct b1 (16 * p + 2) = oct b (16 * p + 2) \/ 0 < p /\ oct b1 (16 * p + 2) = 0%N) ->
  idq i b -> idq i b'.
Proof.
  intros O V. unfold idq, stream_of. cbn [packet_bytes].
  assert (E : forall p, byte b' (16 * p + 2) = byte b1 (16 * p + 2)).
  { intros p. rewrite !byte_oct, O. apply (reheaded_id fmt8); [now right|reflexivity]. }
  intros [A B]. split.
  - rewrite E, byte_oct. destruct (V 0) as [->|[? _]]; [now rewrite <- byte_oct|lia].
  - intros p. rewrite E, byte_oct. destruct (V p) as [->|[_ ->]]; [rewrite <- byte_oct; apply B|now right].
Qed.

Lemma grow_idq i b n b' r : idq i b -> try_resize fmt8 Growable b n = Val (b', r) -> idq i b'.
Proof.
  intros Q E. assert (H : okf fmt8) by now right.
  set (b1 := vec_resize b (buffer_size fmt8 n)).
  pose proof (np_pos fmt8 n H) as Np.
  assert (L1 : List.length b1 = 4 * np fmt8 n).
  { unfold b1. rewrite vec_resize_length, buffer_size_np by exact H. reflexivity. }
  destruct (resize_at fmt8 Growable b n b1 (oct b1 0 mod 16)%N H) as (b2 & E2 & _ & O).
  { apply N.mod_lt. discriminate. } { reflexivity. } { cbn [fmt8 f_words]. lia. } { reflexivity. }
  rewrite E in E2. injection E2 as -> ->. refine (resize_idq i b b1 n _ b2 (fun p => O _) _ Q).
  intros p. unfold b1. rewrite oct_vec_resize, buffer_size_np by exact H.
  change (f_words fmt8) with 4. destruct (Nat.ltb_spec (16 * p + 2) (4 * (4 * np fmt8 n))); [now left|right].
  split; [lia|reflexivity].
Qed.

Lemma ids_laws g i : (g < 16)%N ->
  laws (ump_ops fmt8 Growable) (fun n b => ump_inv fmt8 g None false Growable 0 n b /\ idq i b)
    (fun n b => ump_done fmt8 g None false Growable 0 n b /\ idq i b) (rd fmt8) (unit_ok fmt8) None true.
Proof.
  intros Hg. assert (H : okf fmt8) by now right.
  apply laws_and; [now apply ump_laws_growable| | |]; cbn [ump_ops o_resize o_write o_move].
  - intros n b m b' r _ Q E. exact (grow_idq i b m b' r Q E).
  - intros n b v j b' (FR & _) Q Hj Hv E. pose proof (fr_len _ _ _ _ FR) as HL.
    destruct (write_datum_ok fmt8 n b v j H HL Hj Hv) as (b2 & x & E2 & L' & _ & _ & O).
    rewrite E in E2. injection E2 as ->. apply (heads_idq i b b2); [|exact Q]. eapply same_heads_pos; eauto.
  - intros n b tail to b' HI Q D E. apply (heads_idq i b b'); [|exact Q].
    eapply move_heads; eauto.
Qed.

Lemma holds_and (I : nat -> list N -> Prop) (Q : list N -> Prop) rd l b : holds I rd l b -> Q b -> holds (fun n b => I n b /\ Q b) rd l b.
Proof. intros [A B] C. split; auto. Qed.

Lemma ids_edit e b g i l : message EightBit g None l b -> idq i b -> legal EightBit e l ->
  exists b', apply_edit EightBit e b = Val b'
    /\ message EightBit (new_group e g) None (new_payload e l) b' /\ idq i b'.
Proof.
  intros M Q Lg. pose proof (message_inv EightBit g None l b false M ltac:(now left) ltac:(discriminate)) as [H Hg].
  pose proof (ids_laws g i Hg) as L. pose proof (holds_and _ _ _ _ _ H Q) as HQ.
  assert (D : forall l' b', holds (fun n b => ump_done fmt8 g None false Growable 0 n b /\ idq i b) (rd fmt8) l' b' ->
    message EightBit g None l' b' /\ idq i b').
  { intros l' b' [[A B] C]. split; [|exact B]. apply (done_message EightBit g None l' b' false Hg). now split. }
  destruct e as [src|src lo hi|src j|src|v|v j|g']; cbn [apply_edit new_group new_payload legal] in *;
    rewrite fmt_for_of; cbn [fmt_of].
  - destruct (set_grow _ _ _ _ _ L b l src HQ (units_ok EightBit _ Lg)) as (b' & E & H').
    exists b'. split; [exact E|]. now apply D.
  - destruct Lg as (Hv & A & B).
    destruct (splice_grow _ _ _ _ _ L b l src lo hi _ _ HQ (units_ok EightBit _ Hv) eq_refl eq_refl A B) as (b' & E & H').
    exists b'. split; [exact E|]. now apply D.
  - destruct Lg as (Hv & A).
    destruct (insert_grow _ _ _ _ _ L b l src j HQ (units_ok EightBit _ Hv) A) as (b' & E & H').
    exists b'. split; [exact E|]. now apply D.
  - destruct (append_grow _ _ _ _ _ L b l src HQ (units_ok EightBit _ Lg)) as (b' & E & H').
    exists b'. split; [exact E|]. now apply D.
  - destruct (append_byte_grow _ _ _ _ _ L b l v HQ (proj2 (unit_ok_of EightBit _) Lg)) as (b' & E & H').
    exists b'. split; [exact E|]. now apply D.
  - destruct (edit_step EightBit (SetByte v j) b g None l M ltac:(now left) Lg) as (b' & E & M' & _).
    exists b'. split; [exact E|]. split; [exact M'|]. destruct M as (k & C & _ & _). destruct Lg as [Hv Hj].
    pose proof (carries_sized _ _ _ _ _ _ C) as Sz.
    pose proof (ca_payload _ _ _ _ _ _ C) as P. rewrite payload_span in P.
    pose proof (ca_fits _ _ _ _ _ _ C) as Fi. cbn [packet_words] in Fi.
    destruct (set_byte_aux_ok fmt8 b v k ltac:(now right) Sz Hv (List.length b) 0 j)
      as (p & q & b2 & _ & Hp & Hq & Ei & E2 & UE); [lia|lia|now rewrite Nat.sub_0_r; cbn [fmt_of] in P; rewrite P|].
    cbn [apply_edit] in E. change (fmt_for EightBit) with fmt8 in E. unfold set_byte in E. rewrite E in E2. injection E2 as <-.
    destruct UE as (Le & y & _ & _ & O). pose proof (cnt_le fmt8 b k p Sz Hp).
    apply (heads_idq i b b'); [|exact Q]. split; [exact Le|]. intros p' h Hh. rewrite O.
    cbn [fmt8 f_head f_cap] in *. unfold pb in *. cbn [fmt8 f_words] in *.
    destruct (Nat.eqb_spec (4 * 4 * p' + h) (4 * 4 * p + 3 + q)); [lia|reflexivity].
  - destruct (edit_step EightBit (SetGroup g') b g None l M ltac:(now left) Lg) as (b' & E & M' & _).
    exists b'. split; [exact E|]. split; [exact M'|].
    destruct (set_group_packets EightBit b g' Lg) as (b2 & E2 & _ & _ & _ & O).
    cbn [apply_edit] in E. rewrite fmt_for_of, E2 in E. injection E as <-.
    unfold idq, stream_of in *. cbn [packet_bytes] in *.
    assert (X : forall p, byte b2 (16 * p + 2) = byte b (16 * p + 2)).
    { intros p. apply O. rewrite Nat.add_comm, Nat.mul_comm, Nat.mod_add by lia. cbn. lia. }
    rewrite X. setoid_rewrite X. exact Q.
Qed.

Lemma ids_history i : forall es b g l, message EightBit g None l b -> idq i b -> all_legal EightBit es l ->
  exists b', run_edits (apply_edit EightBit) es b = Val b'
    /\ message EightBit (final_group es g) None (final_payload es l) b' /\ idq i b'.
Proof.
  induction es as [|e es IH]; intros b g l M Q Lg; cbn [run_edits final_group final_payload].
  - exists b. auto.
  - destruct Lg as [L1 L2]. destruct (ids_edit e b g i l M Q L1) as (b1 & E1 & M1 & Q1).
    rewrite E1. cbn [bind]. destruct (IH b1 _ _ M1 Q1 L2) as (b' & E & M' & Q'). eauto.
Qed.

Lemma message_idq g i l b : message EightBit g (Some i) l b -> idq i b.
Proof.
  intros (k & C & _ & Len). pose proof (ca_some _ _ _ _ _ _ C) as K. split.
  - exact (ca_stream _ _ _ _ _ _ C 0 K eq_refl).
  - intros p. destruct (Nat.lt_ge_cases p k) as [X|X].
    + left. exact (ca_stream _ _ _ _ _ _ C p X eq_refl).
    + right. unfold stream_of. rewrite byte_oct. apply oct_beyond. cbn [packet_words packet_bytes] in *. lia.
Qed.

(** ** [set_stream_id] *)

(** Its effect on bytes. *)
Lemma set_stream_oct b v : (v < 256)%N ->
  exists b', set_stream_id b v = Val b' /\ List.length b' = List.length b
    /\ forall j, byte b' j = if (j mod 16 =? 3) && (j / 16 <? own_packets fmt8 b) then v else byte b j.
Proof.
  intros Hv. unfold set_stream_id, for_heads. change (f_words fmt8) with 4.
  pose proof (own_le fmt8 b ltac:(now right)) as Ow. change (f_words fmt8) with 4 in Ow.
  set (own := own_packets fmt8 b) in *.
  destruct (heads_fold 4 (fun _ x => set_octet32 x 3 v) ltac:(lia) own 0 b) as (b' & E & L & O).
  { intros i Hi. pose proof (Nat.mul_div_le (List.length b) 4 ltac:(lia)). nia. }
  exists b'. split; [exact E|]. split; [exact L|]. intros j. rewrite !byte_oct. unfold oct. rewrite O.
  cbn [Nat.leb andb]. rewrite andb_true_r, Nat.add_0_l.
  assert (D1 : j / 16 = j / 4 / 4) by (rewrite Nat.div_div; lia).
  assert (D2 : j mod 16 = 4 * ((j / 4) mod 4) + j mod 4).
  { change 16 with (4 * 4) at 1. rewrite Nat.mod_mul_r by lia. lia. }
  rewrite D1, D2. pose proof (Nat.mod_upper_bound j 4 ltac:(lia)).
  destruct (Nat.eqb_spec ((j / 4) mod 4) 0) as [Z|Z]; cbn [andb].
  - destruct (Nat.ltb_spec (j / 4 / 4) own); cbn [andb].
    + rewrite octet_set_octet by (auto; lia).
      destruct (Nat.eqb_spec (j mod 4) 3) as [J|J].
      * rewrite Z, J. reflexivity.
      * replace (N.of_nat (j mod 4) =? 3)%N with false by lia. rewrite ?N.eqb_refl.
        replace (4 * ((j / 4) mod 4) + j mod 4 =? 3) with false by lia.
        replace (3 =? N.of_nat (j mod 4))%N with false by lia. reflexivity.
    + rewrite andb_false_r. reflexivity.
  - replace (4 * ((j / 4) mod 4) + j mod 4 =? 3) with false by lia. reflexivity.
Qed.

(** The payload afterwards. *)
Lemma set_stream_carries k g s l b v : carries EightBit k g s l b -> (v < 256)%N ->
  exists b', set_stream_id b v = Val b' /\ List.length b' = List.length b
    /\ carries EightBit k g s (flat_map (fun p => first_to v (payload_of EightBit b p)) (seq 0 k)) b'
    /\ forall p, stream_of EightBit b' p = stream_of EightBit b p.
Proof.
  intros C Hv. destruct (set_stream_oct b v Hv) as (b' & E & L & O). exists b'. split; [exact E|].
  split; [exact L|].
  assert (Own : k <= own_packets fmt8 b).
  { apply (own_ge EightBit); [apply C|apply C]. }
  assert (HD : forall p h, h < 3 -> byte b' (16 * p + h) = byte b (16 * p + h)).
  { intros p h Hh. rewrite O. destruct (div_mod_unique_small p h 16 ltac:(lia)) as [_ ->].
    now replace (h =? 3) with false by lia. }
  assert (H0 : forall p, byte b' (16 * p) = byte b (16 * p)).
  { intros p. pose proof (HD p 0 ltac:(lia)) as X. now rewrite Nat.add_0_r in X. }
  assert (SI : forall p, stream_of EightBit b' p = stream_of EightBit b p) by (intros p; apply HD; lia).
  split; [|exact SI].
  assert (UI : forall p, units_in EightBit b' p = units_in EightBit b p).
  { intros p. unfold units_in, size_nibble. cbn [packet_bytes]. now rewrite HD by lia. }
  destruct C as [C1 C2 C3 C4 C5 C6 C7 C8]. constructor; auto.
  - rewrite L. exact C2.
  - intros p Hp. unfold type_of. cbn [packet_bytes]. rewrite H0. now apply C3.
  - intros p Hp. unfold group_of. cbn [packet_bytes]. rewrite H0. now apply C4.
  - intros p Hp Ef. rewrite SI. now apply C5.
  - intros p Hp. unfold status_nibble. cbn [packet_bytes]. rewrite HD by lia. now apply C6.
  - intros p Hp. unfold size_nibble. cbn [packet_bytes]. rewrite HD by lia. now apply C7.
  - rewrite !flat_map_concat_map. f_equal. apply map_ext_in. intros p Hp. apply in_seq in Hp.
    unfold payload_of. rewrite UI.
    assert (Ur : units_in EightBit b p <= 13).
    { specialize (C7 p ltac:(lia)). unfold units_in. cbn in *. lia. }
    destruct (units_in EightBit b p) as [|m] eqn:Um; [reflexivity|]. cbn [seq map first_to]. f_equal.
    + cbn [unit_of packet_bytes header_bytes]. rewrite Nat.add_0_r, O.
      destruct (div_mod_unique_small p 3 16 ltac:(lia)) as [-> ->].
      replace (p <? own_packets fmt8 b) with true by lia. reflexivity.
    + apply map_ext_in. intros q Hq. apply in_seq in Hq. cbn [unit_of packet_bytes header_bytes].
      rewrite O. replace (16 * p + 3 + q) with (16 * p + (3 + q)) by lia.
      destruct (div_mod_unique_small p (3 + q) 16 ltac:(lia)) as [_ ->].
      now replace (3 + q =? 3) with false by lia.
Qed.

Lemma stream_id_of k g s l b : carries EightBit k g s l b -> stream_id b = Val (stream_of EightBit b 0).
Proof.
  intros C. pose proof (ca_fits _ _ _ _ _ _ C). pose proof (ca_some _ _ _ _ _ _ C). cbn [packet_words] in *.
  unfold stream_id. rewrite idx_nth by lia. cbn [bind]. unfold stream_of. cbn [packet_bytes Nat.mul Nat.add].
  rewrite byte_oct. reflexivity.
Qed.
