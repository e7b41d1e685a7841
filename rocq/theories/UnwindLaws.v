(** Lemmas: what the buffers hold at every moment of an edit.  A growable buffer of packets has exactly the packets it
    needs; a buffer of bytes has no byte with its top bit set but the two that frame the message. *)
From Coq Require Import NArith List String Bool Arith Lia ZifyN ZifyNat ZifyBool.
From Verif Require Import MachineLemmas MachineOps FeedLemmas.
From Verif Require Import Base BitOps BitLemmas Props Message Sysex Splice ListLemmas ByteView SysexLayout SysexEdit SpliceLemmas SysexLaws SysexBytes.
Import ListNotations.
Local Open Scope list_scope.
Local Open Scope nat_scope.

Lemma ump_laws_exact f g s cl : okf f -> (g < 16)%N ->
  laws (ump_ops f Growable) (ump_done f g s cl Growable 0) (ump_done f g s cl Growable 0) (rd f) (unit_ok f) None true.
Proof.
  intros H Hg. pose proof (ump_laws_growable f g s cl H Hg) as L.
  assert (S : std f) by (destruct H as [-> | ->]; [left|right]; reflexivity).
  assert (Res : forall n b m, ump_done f g s cl Growable 0 n b -> exists b', o_resize (ump_ops f Growable) b m = Val (b', None)
    /\ ump_done f g s cl Growable 0 m b' /\ forall i, i < n -> i < m -> rd f b' i = rd f b i).
  { intros n b m [HI _]. destruct (l_final _ _ _ _ _ _ _ L n b m HI I) as (b' & E & D & _ & R). eauto. }
  constructor.
  - intros n b [HI _]. eapply l_compact; eauto.
  - intros n b [HI _]. eapply l_size; eauto.
  - intros. exact I.
  - intros n b m HI _ _. apply Res; auto.
  - discriminate.
  - intros n b m HI _. destruct (Res n b m HI) as (b' & E & D & R). exists b'. auto.
  - intros n b v i [HI Len] Hi Hv. destruct (l_write _ _ _ _ _ _ _ L n b v i HI Hi Hv) as (b' & E & I' & R).
    exists b'. split; [exact E|]. split; [|exact R]. split; [exact I'|]. cbn [ump_ops o_write] in E. apply (write_datum_in f _ _ _ _ S) in E. lia.
  - intros n b t to [HI Len] A B. destruct (l_right _ _ _ _ _ _ _ L n b t to HI A B) as (b' & E & I' & R).
    exists b'. split; [exact E|]. split; [|exact R]. split; [exact I'|]. cbn [ump_ops o_move] in E. apply move_tail_len in E. lia.
  - intros n b t to [HI Len] A B. destruct (l_left _ _ _ _ _ _ _ L n b t to HI A B) as (b' & E & I' & R).
    exists b'. split; [exact E|]. split; [|exact R]. split; [exact I'|]. cbn [ump_ops o_move] in E. apply move_tail_len in E. lia.
  - intros n b t [HI _]. eapply l_same; eauto.
Qed.

(** The bytes but the frame are below 128. *)
Definition calm (n : nat) (b : list N) : Prop := forall j, 0 < j -> j <> n + 1 -> (nth j b 0 < 128)%N.
Definition calm_inv (k : room) (len n : nat) (b : list N) : Prop := bytes_inv k len n b /\ calm n b.

Lemma upd_at b i f b' : upd b i f = Val b' -> forall j, nth j b' 0%N = if j =? i then f (nth i b 0%N) else nth j b 0%N.
Proof.
  intros E. destruct (upd_in _ _ _ _ E) as [Hi _]. rewrite upd_nth in E by exact Hi. injection E as <-.
  intros j. rewrite nth_set_nth by exact Hi. reflexivity.
Qed.
Lemma calm_write n b v i b' : calm n b -> i < n -> septet v -> write_datum_b b v i = Val b' -> calm n b'.
Proof.
  intros C Hi Hv E j J Jn. rewrite (upd_at _ _ _ _ E). destruct (j =? i + 1); [exact Hv|now apply C].
Qed.
Lemma calm_copy n b s e d b' : calm n b -> e <= n + 1 -> 0 < s -> 0 < d -> d + (e - s) <= n + 1 -> s <= e -> e <= List.length b -> n + 2 <= List.length b ->
  copy_within b s e d = Val b' -> calm n b'.
Proof.
  intros C He Hs Hd Hde Hse Hel Hn E j J Jn. destruct (copy_within_ok b s e d Hse Hel ltac:(lia)) as (b2 & E2 & _ & N2).
  rewrite E in E2. injection E2 as <-. rewrite N2. destruct (_ && _) eqn:X; apply C; lia.
Qed.
Lemma calm_move k len n b t to b' : bytes_inv k len n b -> calm n b -> (t < to /\ to <= n) \/ (to < t /\ t <= n) \/ t = to ->
  move_tail_b b t to = Val b' -> calm n b'.
Proof.
  intros [S _] C D E. pose proof (se_len _ _ S) as HL. unfold move_tail_b in E. rewrite (sealed_payload_size n b S) in E. cbn [bind] in E.
  destruct (Nat.ltb_spec t to); [|destruct (Nat.ltb_spec to t)].
  - eapply calm_copy in E; eauto; lia.
  - eapply calm_copy in E; eauto; lia.
  - now injection E as <-.
Qed.
Lemma calm_grow n b m b' : bytes_inv Growable 0 n b -> calm n b -> resize_b b m = Val b' -> calm m b'.
Proof.
  intros [S Len] C E j J Jm. unfold resize_b in E. rewrite (sealed_payload_size n b S) in E. cbn [bind] in E.
  destruct (bind_val _ _ _ E) as (b2 & E2 & E3). rewrite (upd_at _ _ _ _ E3). destruct (Nat.eqb_spec j (m + 2 - 1)); [lia|].
  destruct (Nat.ltb_spec n m) as [X|X].
  - rewrite (upd_at _ _ _ _ E2). destruct (Nat.eqb_spec j (n + 1)); [lia|]. rewrite vec_resize_nth. destruct (_ <? _); [apply C; lia|lia].
  - injection E2 as <-. rewrite vec_resize_nth. destruct (Nat.ltb_spec j (m + 2)); [apply C; lia|lia].
Qed.
Lemma calm_fit len n b m b' q : bytes_inv Fixed len n b -> calm n b -> n <= m -> n + 2 <= len -> try_resize_b b m = Val (b', q) ->
  calm (if m + 2 <=? len then m else len - 2) b'.
Proof.
  intros [S [Len Sg]] C Hm Hl E. destruct (resize_fixed len n b m S Len) as (b2 & E2 & _ & N2). cbv zeta in N2. rewrite E in E2. injection E2 as <- _.
  intros j J Jm. rewrite N2. set (sz := if m + 2 <=? len then m else len - 2) in *.
  assert (n <= sz) by (unfold sz; destruct (Nat.leb_spec (m + 2) len); lia).
  replace (j =? sz + 1) with false by lia. destruct (_ && _) eqn:X; [lia|]. apply C; lia.
Qed.

Lemma bytes_laws_calm : laws (bytes_ops Growable) (calm_inv Growable 0) (bytes_done Growable 0) rd_b septet None true.
Proof.
  pose proof bytes_laws_growable as L.
  assert (Res : forall n b m, calm_inv Growable 0 n b -> exists b', o_resize (bytes_ops Growable) b m = Val (b', None)
    /\ calm_inv Growable 0 m b' /\ forall i, i < n -> i < m -> rd_b b' i = rd_b b i).
  { intros n b m [HI C]. destruct (l_grow _ _ _ _ _ _ _ L n b m HI (or_introl eq_refl) I) as (b' & E & D & R).
    exists b'. split; [exact E|]. split; [|exact R]. split; [exact D|]. cbn [bytes_ops o_resize] in E.
    destruct (bind_val _ _ _ E) as (b2 & E2 & E3). injection E3 as <-. exact (calm_grow n b m _ HI C E2). }
  constructor.
  - intros n b [HI _]. eapply l_compact; eauto.
  - intros n b [HI _]. eapply l_size; eauto.
  - intros. exact I.
  - intros n b m HI _ _. apply Res; auto.
  - discriminate.
  - intros n b m HI _. destruct (Res n b m HI) as (b' & E & D & R). exists b'. split; [exact E|]. split; [apply D|]. split; [auto|exact R].
  - intros n b v i [HI C] Hi Hv. destruct (l_write _ _ _ _ _ _ _ L n b v i HI Hi Hv) as (b' & E & I' & R).
    exists b'. split; [exact E|]. split; [|exact R]. split; [exact I'|]. exact (calm_write n b v i b' C Hi Hv E).
  - intros n b t to [HI C] A B. destruct (l_right _ _ _ _ _ _ _ L n b t to HI A B) as (b' & E & I' & R).
    exists b'. split; [exact E|]. split; [|exact R]. split; [exact I'|]. exact (calm_move _ _ n b t to b' HI C (or_introl (conj A B)) E).
  - intros n b t to [HI C] A B. destruct (l_left _ _ _ _ _ _ _ L n b t to HI A B) as (b' & E & I' & R).
    exists b'. split; [exact E|]. split; [|exact R]. split; [exact I'|]. exact (calm_move _ _ n b t to b' HI C (or_intror (or_introl (conj A B))) E).
  - intros n b t [HI _]. eapply l_same; eauto.
Qed.

Lemma bytes_laws_calm_fixed len : laws (bytes_ops Fixed) (calm_inv Fixed len) (bytes_done Fixed len) rd_b septet (Some (len - 2)) false.
Proof.
  pose proof (bytes_laws_fixed len) as L.
  assert (Ln : forall n b, bytes_inv Fixed len n b -> n + 2 <= len).
  { intros n b [S [Len _]]. pose proof (se_len _ _ S). lia. }
  constructor.
  - intros n b [HI _]. eapply l_compact; eauto.
  - intros n b [HI _]. eapply l_size; eauto.
  - intros n b [HI _]. eapply l_le; eauto.
  - intros n b m [HI C] Hm F. destruct (l_grow _ _ _ _ _ _ _ L n b m HI Hm F) as (b' & E & D & R).
    exists b'. split; [exact E|]. split; [|exact R]. split; [exact D|]. cbn [bytes_ops o_resize] in E. cbn [fits_in] in F.
    pose proof (Ln _ _ HI). destruct Hm as [Hm|Hm]; [discriminate|]. apply (calm_fit len n b m b' None HI C Hm ltac:(lia)) in E.
    now replace (m + 2 <=? len) with true in E by lia.
  - intros n b m c [HI C] Ec Hm. destruct (l_full _ _ _ _ _ _ _ L n b m c HI Ec Hm) as (b' & E & D & R). injection Ec as <-.
    exists b'. split; [exact E|]. split; [|exact R]. split; [exact D|]. cbn [bytes_ops o_resize] in E.
    pose proof (Ln _ _ HI). apply (calm_fit len n b m b' _ HI C ltac:(lia) ltac:(lia)) in E.
    now replace (m + 2 <=? len) with false in E by lia.
  - intros n b m [HI C] F. destruct (l_final _ _ _ _ _ _ _ L n b m HI F) as (b' & E & D & D2 & R).
    exists b'. split; [exact E|]. split; [exact D|]. split; [|exact R]. intros Hm. split; [now apply D2|]. cbn [bytes_ops o_resize] in E. cbn [fits_in] in F.
    pose proof (Ln _ _ HI). apply (calm_fit len n b m b' None HI C Hm ltac:(lia)) in E.
    now replace (m + 2 <=? len) with true in E by lia.
  - intros n b v i [HI C] Hi Hv. destruct (l_write _ _ _ _ _ _ _ L n b v i HI Hi Hv) as (b' & E & I' & R).
    exists b'. split; [exact E|]. split; [|exact R]. split; [exact I'|]. exact (calm_write n b v i b' C Hi Hv E).
  - intros n b t to [HI C] A B. destruct (l_right _ _ _ _ _ _ _ L n b t to HI A B) as (b' & E & I' & R).
    exists b'. split; [exact E|]. split; [|exact R]. split; [exact I'|]. exact (calm_move _ _ n b t to b' HI C (or_introl (conj A B)) E).
  - intros n b t to [HI C] A B. destruct (l_left _ _ _ _ _ _ _ L n b t to HI A B) as (b' & E & I' & R).
    exists b'. split; [exact E|]. split; [|exact R]. split; [exact I'|]. exact (calm_move _ _ n b t to b' HI C (or_intror (or_introl (conj A B))) E).
  - intros n b t [HI _]. eapply l_same; eauto.
Qed.
