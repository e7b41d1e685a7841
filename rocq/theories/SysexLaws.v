(** Lemmas: the packet and byte forms of a system exclusive message implement the
    operations of the editing algorithm ([SpliceLemmas.laws]). *)
From Coq Require Import NArith List Bool Arith Lia ZifyBool ZifyNat ZifyN.
From Verif Require Import Base BitOps SpecLayout BitLemmas ListLemmas Helpers Message Sysex Splice
  ByteView SysexLayout SysexEdit SpliceLemmas.
Import ListNotations.
Local Open Scope nat_scope.

(** ** Packets *)

(** Every packet in the buffer carries stream id [s], if one is given (8-bit
    form only). *)
Definition ids (f : fmt) (s : option N) (b : list N) : Prop :=
  f_seven f = false -> forall p v, p < List.length b / f_words f -> s = Some v ->
  oct b (pb f * p + 2) = v.
(** No byte that is not in a packet header has its top bit set (7-bit form only). *)
Definition clean7 (f : fmt) (b : list N) : Prop :=
  f_seven f = true -> forall j, 2 <= j mod pb f -> (oct b j < 128)%N.

(** Capacity of a buffer of [len] words. *)
Definition capacity (f : fmt) (len : nat) : nat := len / f_words f * f_cap f.

Definition ump_inv (f : fmt) (g : N) (s : option N) (cl : bool) (k : room) (len : nat) (n : nat) (b : list N) : Prop :=
  framed f g n b /\ tidy f b /\ ids f s b /\ (cl = true -> clean7 f b)
  /\ match k with
     | Growable => (s = None \/ s = Some 0%N) /\ List.length b mod f_words f = 0
     | _ => List.length b = len
     end.
(** After the last resize a growable buffer has exactly the words needed. *)
Definition ump_done (f : fmt) (g : N) (s : option N) (cl : bool) (k : room) (len : nat) (n : nat) (b : list N) : Prop :=
  ump_inv f g s cl k len n b
  /\ match k with Growable => List.length b = f_words f * np f n | _ => True end.

Lemma reheaded_body f n g b j : okf f -> 2 <= j mod pb f ->
  reheaded f n g b j = oct b j \/ reheaded f n g b j = 0%N.
Proof.
  intros H Hm. pose proof (okf_facts f H) as F. unfold reheaded.
  assert (Hpb : 2 < pb f) by (unfold pb; lia).
  destruct (Nat.ltb_spec j (pb f * np f n)); auto. unfold rehead1.
  pose proof (Nat.div_mod j (pb f) ltac:(lia)) as D.
  destruct (Nat.eqb_spec j (pb f * (j / pb f))); [lia|].
  destruct (Nat.eqb_spec j (pb f * (j / pb f) + 1)); [lia|].
  destruct (_ && _); auto.
Qed.

Lemma reheaded_id f n g b p : okf f -> f_seven f = false ->
  reheaded f n g b (pb f * p + 2) = oct b (pb f * p + 2).
Proof.
  intros H H7. pose proof (okf_facts f H) as F. unfold reheaded.
  assert (f_head f = 3) by (destruct H as [->| ->]; [discriminate|reflexivity]).
  assert (Hpb : 2 < pb f) by (unfold pb; lia).
  destruct (Nat.ltb_spec (pb f * p + 2) (pb f * np f n)); auto.
  destruct (div_mod_unique_small p 2 (pb f) ltac:(lia)) as [-> _]. unfold rehead1.
  replace (pb f * p + 2 =? pb f * p) with false by lia.
  replace (pb f * p + 2 =? pb f * p + 1) with false by lia.
  replace (pb f * p + f_head f + count_of f n p <=? pb f * p + 2) with false by lia.
  now rewrite andb_false_r.
Qed.

Lemma framed_exact_tidy f g n b : okf f -> framed f g n b ->
  List.length b = f_words f * np f n -> tidy f b.
Proof.
  intros H I E p Hp Ht Hs. pose proof (okf_facts f H) as F.
  rewrite E, (Nat.mul_comm (f_words f)), Nat.div_mul in Hp by lia.
  rewrite (fr_h1 _ _ _ _ I p Hp) in *. pose proof (count_of_le f n p H Hp).
  rewrite halves_div in Hs by lia. rewrite halves_mod by lia.
  destruct (status_of_cases f n p H Hp) as [(E1&?)|[(E1&?)|[(E1&?)|(E1&?)]]];
    rewrite E1 in Hs; try lia; unfold count_of;
    destruct (Nat.ltb_spec (S p) (np f n)); lia.
Qed.

Lemma framed_le_capacity f g n b : okf f -> framed f g n b -> n <= capacity f (List.length b).
Proof.
  intros H I. pose proof (np_le_packets f g n b H I). destruct (np_bounds f n H) as [A _].
  unfold capacity. nia.
Qed.

Lemma fits_np f n len : okf f -> f_words f <= len ->
  (n <= capacity f len <-> f_words f * np f n <= len).
Proof.
  intros H Hl. pose proof (okf_facts f H) as F. unfold capacity.
  destruct (np_bounds f n H) as [A B].
  pose proof (Nat.mul_div_le len (f_words f) ltac:(lia)) as D1.
  assert (1 <= len / f_words f) by (apply Nat.div_le_lower_bound; lia).
  split; intros X.
  - destruct (Nat.eq_dec n 0) as [->|Hn]; [unfold np; cbn [Nat.eqb]; lia|].
    specialize (B ltac:(lia)). assert (np f n <= len / f_words f) by nia. nia.
  - assert (np f n <= len / f_words f) by (apply Nat.div_le_lower_bound; lia). nia.
Qed.

Lemma grow_ump f g s cl n b m : okf f -> (g < 16)%N -> ump_inv f g s cl Growable 0 n b ->
  exists b', try_resize f Growable b m = Val (b', None) /\ ump_done f g s cl Growable 0 m b'
    /\ forall i, i < n -> i < m -> rd f b' i = rd f b i.
Proof.
  intros H Hg (FR & T & ID & CL & S0 & M). pose proof (okf_facts f H) as F.
  pose proof (np_pos f m H) as Np. pose proof (fr_len _ _ _ _ FR) as HL. pose proof (np_pos f n H) as Nn.
  set (b1 := vec_resize b (buffer_size f m)).
  assert (L1 : List.length b1 = f_words f * np f m)
    by (unfold b1; rewrite vec_resize_length; now apply buffer_size_np).
  assert (O1 : forall j, oct b1 j = if j <? 4 * (f_words f * np f m) then oct b j else 0%N)
    by (intros j; unfold b1; rewrite oct_vec_resize, buffer_size_np by auto; reflexivity).
  destruct (resize_at f Growable b m b1 g H Hg eq_refl ltac:(lia)) as (b' & E & L' & O').
  { rewrite O1. replace (0 <? 4 * (f_words f * np f m)) with true by nia.
    now apply (framed_group f g n b). }
  exists b'. split; [exact E|].
  assert (FR' : framed f g m b') by (eapply reheaded_framed; eauto; lia).
  assert (LE : List.length b' = f_words f * np f m) by lia.
  split; [split; [|exact LE]|].
  - split; [exact FR'|]. split; [eapply framed_exact_tidy; eauto|]. split; [|split; [|split; [exact S0|]]].
    + intros H7 p v Hp Hv. rewrite O', reheaded_id by auto. rewrite O1.
      assert (v = 0%N) by (destruct S0; congruence). subst v.
      destruct (Nat.ltb_spec (pb f * p + 2) (4 * (f_words f * np f m))); auto.
      destruct (Nat.lt_ge_cases p (List.length b / f_words f)) as [X|X]; [now apply ID|].
      apply oct_beyond. apply Nat.div_exact in M; [|lia]. rewrite M. unfold pb. nia.
    + intros Hc H7 j Hj. rewrite O'.
      destruct (reheaded_body f m g b1 j H Hj) as [->| ->]; [|lia].
      rewrite O1. destruct (j <? _); [apply CL; auto|lia].
    + rewrite LE, Nat.mul_comm. apply Nat.mod_mul. lia.
  - intros i Hn Hm. unfold rd. rewrite O', reheaded_pos, O1 by auto.
    pose proof (pos_lt f i m H Hm). unfold pb in *.
    replace (pos f i <? 4 * (f_words f * np f m)) with true by lia. reflexivity.
Qed.

Lemma keep_ump f g s cl len n b m b' : okf f -> (g < 16)%N -> ump_inv f g s cl Fixed len n b ->
  f_words f * np f m <= List.length b ->
  List.length b' = List.length b -> (forall j, oct b' j = reheaded f m g b j) ->
  ump_inv f g s cl Fixed len m b' /\ forall i, i < m -> rd f b' i = rd f b i.
Proof.
  intros H Hg (FR & T & ID & CL & Len) Hm L' O'. split.
  - split; [eapply reheaded_framed; eauto|]. split; [eapply reheaded_tidy; eauto|].
    split; [|split; [|lia]].
    + intros H7 p v Hp Hv. rewrite O', reheaded_id by auto. apply ID; auto. now rewrite <- L'.
    + intros Hc H7 j Hj. rewrite O'.
      destruct (reheaded_body f m g b j H Hj) as [->| ->]; [|lia]. apply CL; auto.
  - intros i Hi. unfold rd. now rewrite O', reheaded_pos.
Qed.

Lemma fit_ump f g s cl len n b m : okf f -> (g < 16)%N -> ump_inv f g s cl Fixed len n b ->
  m <= capacity f len ->
  exists b', try_resize f Fixed b m = Val (b', None) /\ ump_inv f g s cl Fixed len m b'
    /\ forall i, i < m -> rd f b' i = rd f b i.
Proof.
  intros H Hg HI Hm. pose proof HI as (FR & T & ID & CL & Len). pose proof (okf_facts f H) as F.
  pose proof (fr_len _ _ _ _ FR) as HL. pose proof (np_pos f n H) as Nn.
  apply fits_np in Hm; auto; [|nia].
  destruct (resize_at f Fixed b m b g H Hg) as (b' & E & L' & O').
  { cbn [request]. f_equal. unfold fixed_try_resize. rewrite buffer_size_np by auto. lia. }
  { lia. } { now apply (framed_group f g n b). }
  destruct (keep_ump f g s cl len n b m b' H Hg HI ltac:(lia) L' O') as [A B].
  exists b'. auto.
Qed.

Lemma full_ump f g s cl len n b m : okf f -> (g < 16)%N -> ump_inv f g s cl Fixed len n b ->
  capacity f len < m ->
  exists b', try_resize f Fixed b m = Val (b', Some (capacity f len))
    /\ ump_inv f g s cl Fixed len (capacity f len) b'
    /\ forall i, i < n -> rd f b' i = rd f b i.
Proof.
  intros H Hg HI Hm. pose proof HI as (FR & T & ID & CL & Len). pose proof (okf_facts f H) as F.
  pose proof (fr_len _ _ _ _ FR) as HL. pose proof (np_pos f n H) as Nn.
  pose proof (framed_le_capacity f g n b H FR) as Hc. rewrite Len in Hc.
  assert (Hw : f_words f <= len) by nia.
  destruct (resize_fail_at f Fixed b m b g (capacity f len) H Hg) as (b' & E & L' & O').
  { cbn [request]. f_equal. unfold fixed_try_resize. rewrite buffer_size_np by auto. apply negb_false_iff, Nat.ltb_lt.
    rewrite Len. apply Nat.nle_gt. intros X. apply fits_np in X; auto. lia. }
  { lia. } { now apply (framed_group f g n b). } { unfold capacity. now rewrite Len. }
  destruct (keep_ump f g s cl len n b (capacity f len) b' H Hg HI) as [A B]; auto.
  { rewrite Len. apply fits_np; auto. }
  exists b'. split; [exact E|]. split; [exact A|]. intros i Hi. apply B. lia.
Qed.

Lemma moved_clean f n b b' : okf f ->
  (forall j, (forall i, i < n -> j <> pos f i) -> oct b' j = oct b j) ->
  (forall i, i < n -> exists i', oct b' (pos f i) = oct b (pos f i')) ->
  clean7 f b -> clean7 f b'.
Proof.
  intros H Q P C H7 j Hj.
  destruct (in_dec Nat.eq_dec j (map (pos f) (seq 0 n))) as [X|X].
  - apply in_map_iff in X. destruct X as (i & <- & Hi). apply in_seq in Hi.
    destruct (P i ltac:(lia)) as (i' & ->). apply C; auto. now apply pos_mod_ge.
  - rewrite Q; [now apply C|]. intros i Hi ->. apply X, in_map_iff. exists i.
    split; auto. apply in_seq. lia.
Qed.

Lemma edit_inv f g s cl k len n b b' : okf f -> same_heads f b b' ->
  (clean7 f b -> clean7 f b') ->
  ump_inv f g s cl k len n b -> ump_inv f g s cl k len n b'.
Proof.
  intros H S C (FR & T & ID & CL & K). pose proof (okf_facts f H) as F.
  split; [eapply same_heads_framed; eauto|].
  split; [eapply same_heads_tidy; eauto|]. destruct S as [L S]. split; [|split; [auto|]].
  - intros H7 p v Hp Hv. rewrite S; [apply ID; auto; now rewrite <- L|].
    destruct H as [->| ->]; [discriminate|]. cbn. lia.
  - now rewrite L.
Qed.

Lemma move_ump f g s cl k len n b tail to : okf f -> ump_inv f g s cl k len n b ->
  (tail < to /\ to <= n) \/ (to < tail /\ tail <= n) \/ tail = to ->
  exists b', move_tail f b tail to = Val b' /\ ump_inv f g s cl k len n b'
    /\ forall j, j < n -> rd f b' j =
        if tail <? to then if to <=? j then rd f b (j - (to - tail)) else rd f b j
        else if (to <=? j) && (j <? n - (tail - to)) then rd f b (j + (tail - to)) else rd f b j.
Proof.
  intros H HI D. pose proof HI as (FR & T & _). pose proof (fr_len _ _ _ _ FR) as HL.
  unfold move_tail. rewrite tidy_compact by auto. cbn [negb].
  rewrite (framed_payload_size f g n b H FR). cbn [bind].
  destruct (Nat.ltb_spec tail to) as [Lt|Ge].
  - unfold sub_chk. replace (n <? to - tail) with false by lia. cbn [bind].
    destruct (move_right_fold f n b (to - tail) tail (n - (to - tail)) H HL) as (b' & E & Sh & Q & O);
      [lia|lia|].
    exists b'. split; [exact E|]. split.
    + apply (edit_inv f g s cl k len n b b'); auto. intros C. eapply moved_clean; eauto.
      intros i Hi. rewrite O by auto. destruct (_ && _); eauto.
    + intros j Hj. unfold rd. rewrite O by auto.
      replace ((tail + (to - tail) <=? j) && (j <? n - (to - tail) + (to - tail))) with (to <=? j) by lia.
      destruct (to <=? j); reflexivity.
  - destruct (Nat.ltb_spec to tail) as [Lt|Ge'].
    + destruct (move_left_fold f n b (tail - to) tail H HL) as (b' & E & Sh & Q & O); [lia|lia|lia|].
      exists b'. split; [exact E|]. split.
      * apply (edit_inv f g s cl k len n b b'); auto. intros C. eapply moved_clean; eauto.
        intros i Hi. rewrite O by auto. destruct (_ && _); eauto.
      * intros j Hj. unfold rd. rewrite O by auto.
        replace (tail - (tail - to) <=? j) with (to <=? j) by lia.
        destruct (_ && _); reflexivity.
    + exists b. split; [reflexivity|]. split; [exact HI|]. intros j Hj.
      replace (tail - to) with 0 by lia. rewrite Nat.add_0_r. destruct (_ && _); reflexivity.
Qed.

Lemma write_ump f g s cl k len n b v i : okf f -> ump_inv f g s cl k len n b -> i < n -> unit_ok f v ->
  exists b', write_datum f b v i = Val b' /\ ump_inv f g s cl k len n b'
    /\ forall j, j < n -> rd f b' j = if j =? i then v else rd f b j.
Proof.
  intros H HI Hi Hv. pose proof HI as (FR & T & _). pose proof (fr_len _ _ _ _ FR) as HL.
  destruct (write_datum_ok f n b v i H HL Hi Hv) as (b' & x & E & L' & K & K7 & O).
  exists b'. split; [exact E|]. split.
  - apply (edit_inv f g s cl k len n b b'); auto; [eapply same_heads_pos; eauto|].
    intros C H7 j Hj. rewrite O. destruct (Nat.eqb_spec j (pos f i)) as [->|]; [|now apply C].
    specialize (K7 H7). specialize (C H7 _ Hj).
    apply N.div_small in C. rewrite C in K7. apply N.div_small_iff in K7; [exact K7|discriminate].
  - intros j Hj. unfold rd. rewrite O. destruct (Nat.eqb_spec j i) as [->|Hn].
    + now rewrite Nat.eqb_refl.
    + destruct (Nat.eqb_spec (pos f j) (pos f i)) as [X|X]; [|reflexivity].
      apply pos_inj in X; auto. lia.
Qed.

Lemma ump_laws_growable f g s cl : okf f -> (g < 16)%N ->
  laws (ump_ops f Growable) (ump_inv f g s cl Growable 0) (ump_done f g s cl Growable 0)
    (rd f) (unit_ok f) None true.
Proof.
  intros H Hg. constructor; cbn [ump_ops o_compact o_payload_size o_resize o_write o_move].
  - intros n b (FR & T & _). unfold compact. now rewrite tidy_compact.
  - intros n b (FR & _). eapply framed_payload_size; eauto.
  - intros. exact I.
  - intros n b m HI _ _. destruct (grow_ump f g s cl n b m H Hg HI) as (b' & E & [A _] & R). eauto.
  - discriminate.
  - intros n b m HI _. destruct (grow_ump f g s cl n b m H Hg HI) as (b' & E & [A B] & R).
    exists b'. split; [exact E|]. split; [now split|]. auto.
  - intros n b v i. now apply write_ump.
  - intros n b tail to HI A B.
    destruct (move_ump f g s cl Growable 0 n b tail to H HI) as (b' & E & I' & R); [auto|].
    exists b'. split; [exact E|]. split; [exact I'|]. intros j Hj. rewrite R by auto.
    now replace (tail <? to) with true by lia.
  - intros n b tail to HI A B.
    destruct (move_ump f g s cl Growable 0 n b tail to H HI) as (b' & E & I' & R); [auto|].
    exists b'. split; [exact E|]. split; [exact I'|]. intros j Hj. rewrite R by auto.
    now replace (tail <? to) with false by lia.
  - intros n b t (FR & T & _). unfold move_tail. rewrite tidy_compact by auto. cbn [negb].
    rewrite (framed_payload_size f g n b H FR). cbn [bind]. now rewrite Nat.ltb_irrefl.
Qed.

Lemma ump_laws_fixed f g s cl len : okf f -> (g < 16)%N ->
  laws (ump_ops f Fixed) (ump_inv f g s cl Fixed len) (ump_done f g s cl Fixed len)
    (rd f) (unit_ok f) (Some (capacity f len)) true.
Proof.
  intros H Hg. constructor; cbn [ump_ops o_compact o_payload_size o_resize o_write o_move fits_in].
  - intros n b (FR & T & _). unfold compact. now rewrite tidy_compact.
  - intros n b (FR & _). eapply framed_payload_size; eauto.
  - intros n b (FR & _ & _ & _ & <-). eapply framed_le_capacity; eauto.
  - intros n b m HI _ Hm. destruct (fit_ump f g s cl len n b m H Hg HI Hm) as (b' & E & A & R). eauto.
  - intros n b m c HI [= <-] Hm. apply full_ump; auto.
  - intros n b m HI Hm. destruct (fit_ump f g s cl len n b m H Hg HI Hm) as (b' & E & A & R).
    exists b'. split; [exact E|]. split; [split; auto; exact I|]. split; auto.
  - intros n b v i. now apply write_ump.
  - intros n b tail to HI A B.
    destruct (move_ump f g s cl Fixed len n b tail to H HI) as (b' & E & I' & R); [auto|].
    exists b'. split; [exact E|]. split; [exact I'|]. intros j Hj. rewrite R by auto.
    now replace (tail <? to) with true by lia.
  - intros n b tail to HI A B.
    destruct (move_ump f g s cl Fixed len n b tail to H HI) as (b' & E & I' & R); [auto|].
    exists b'. split; [exact E|]. split; [exact I'|]. intros j Hj. rewrite R by auto.
    now replace (tail <? to) with false by lia.
  - intros n b t (FR & T & _). unfold move_tail. rewrite tidy_compact by auto. cbn [negb].
    rewrite (framed_payload_size f g n b H FR). cbn [bind]. now rewrite Nat.ltb_irrefl.
Qed.
