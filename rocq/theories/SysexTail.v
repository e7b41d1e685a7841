(** Lemmas: editing a growable byte buffer that has bytes behind its message, as
    copies of arrays and of received slices do. *)
From Coq Require Import NArith List Bool Arith Lia ZifyBool.
From Verif Require Import Base BitOps SpecLayout BitLemmas ListLemmas Helpers Message Sysex Splice ByteView SysexLayout
  SpliceLemmas SysexBytes SpecSysex SpecEdits SysexClient SysexHold SysexHistory.
Import ListNotations.
Local Open Scope nat_scope.

Definition tail_inv (n : nat) (b : list N) : Prop := sealed n b /\ single n b.

Lemma grow_tail n b m : tail_inv n b ->
  exists b', resize_b b m = Val b' /\ bytes_inv Growable 0 m b'
    /\ forall i, i < n -> i < m -> rd_b b' i = rd_b b i.
Proof.
  intros [S Sg]. pose proof S as [HL H0 H1 Hb]. unfold resize_b.
  rewrite (sealed_payload_size n b S). cbn [bind].
  set (b1 := vec_resize b (m + 2)).
  assert (L1 : List.length b1 = m + 2) by apply vec_resize_length.
  assert (N1 : forall j, nth j b1 0%N = if j <? m + 2 then nth j b 0%N else 0%N)
    by (intros j; apply vec_resize_nth).
  assert (exists b2, (if n <? m then upd b1 (n + 1) (fun _ => 0%N) else Val b1) = Val b2
    /\ List.length b2 = m + 2
    /\ forall j, nth j b2 0%N = if (n <? m) && (j =? n + 1) then 0%N else nth j b1 0%N)
    as (b2 & E2 & L2 & N2).
  { destruct (Nat.ltb_spec n m).
    - rewrite upd_nth by lia. eexists. split; [reflexivity|].
      split; [now rewrite set_nth_length|]. intros j. rewrite nth_set_nth by lia. reflexivity.
    - exists b1. auto. }
  rewrite E2. cbn [bind]. rewrite upd_nth by lia.
  eexists. split; [reflexivity|].
  assert (N3 : forall j, nth j (set_nth b2 (m + 2 - 1) 0xF7%N) 0%N
    = if j =? m + 1 then 0xF7%N else nth j b2 0%N).
  { intros j. rewrite nth_set_nth by lia. now replace (m + 2 - 1) with (m + 1) by lia. }
  split; [split; [constructor|rewrite set_nth_length; lia]|].
  - rewrite set_nth_length. lia.
  - rewrite N3, N2, N1. replace (0 =? m + 1) with false by lia. replace (0 =? n + 1) with false by lia.
    rewrite andb_false_r. replace (0 <? m + 2) with true by lia. exact H0.
  - rewrite N3, Nat.eqb_refl. reflexivity.
  - intros i Hi. rewrite N3, N2, N1. replace (i + 1 =? m + 1) with false by lia.
    destruct (_ && _) eqn:X; [discriminate|]. replace (i + 1 <? m + 2) with true by lia.
    destruct (Nat.lt_ge_cases i n); [now apply Hb|]. apply Sg. lia.
  - intros i Hn Hm. unfold rd_b. rewrite N3, N2, N1. replace (i + 1 =? m + 1) with false by lia.
    replace ((n <? m) && (i + 1 =? n + 1)) with false by lia.
    replace (i + 1 <? m + 2) with true by lia. reflexivity.
Qed.

Lemma exact_tail n b : bytes_inv Growable 0 n b -> tail_inv n b.
Proof. intros [S L]. split; [exact S|]. intros j Hj. rewrite nth_overflow by lia. discriminate. Qed.
Lemma tail_fixed n b : tail_inv n b <-> bytes_inv Fixed (List.length b) n b.
Proof. split; intros [S X]; split; auto. apply X. Qed.

Lemma bytes_laws_tail : laws (bytes_ops Growable) tail_inv (bytes_done Growable 0) rd_b septet None true.
Proof.
  constructor; cbn [bytes_ops o_compact o_payload_size o_resize o_write o_move].
  - reflexivity.
  - intros n b [S _]. now apply sealed_payload_size.
  - intros. exact I.
  - intros n b m HI _ _. destruct (grow_tail n b m HI) as (b' & E & A & R).
    rewrite E. cbn [bind]. exists b'. split; [reflexivity|]. split; [now apply exact_tail|exact R].
  - discriminate.
  - intros n b m HI _. destruct (grow_tail n b m HI) as (b' & E & A & R).
    rewrite E. cbn [bind]. exists b'. split; [reflexivity|]. split; [exact A|]. split; [intros _; now apply exact_tail|exact R].
  - intros n b v i HI Hi Hv. apply tail_fixed in HI. destruct (write_bytes _ _ _ _ v i HI Hi Hv) as (b' & E & I' & R).
    exists b'. split; [exact E|]. split; [|exact R]. split; apply I'.
  - intros n b tail to HI A B. apply tail_fixed in HI.
    destruct (move_bytes _ _ n b tail to HI) as (b' & E & I' & R); [auto|].
    exists b'. split; [exact E|]. split; [split; apply I'|]. intros j Hj. rewrite R by auto.
    now replace (tail <? to) with true by lia.
  - intros n b tail to HI A B. apply tail_fixed in HI.
    destruct (move_bytes _ _ n b tail to HI) as (b' & E & I' & R); [auto|].
    exists b'. split; [exact E|]. split; [split; apply I'|]. intros j Hj. rewrite R by auto.
    now replace (tail <? to) with false by lia.
  - intros n b t [S _]. unfold move_tail_b. rewrite (sealed_payload_size n b S). cbn [bind].
    now rewrite Nat.ltb_irrefl.
Qed.

(** Every edit that resizes leaves the message alone in the buffer. *)
Lemma edit_tail e l r : Forall septet l -> lone_end r -> legal SevenBit e l ->
  apply_edit_b e (stream_bytes l ++ r)
    = Val (stream_bytes (new_payload e l) ++ match e with SetByte _ _ | SetGroup _ => r | _ => [] end).
Proof.
  intros Hl Hr Lg.
  assert (H : holds tail_inv rd_b l (stream_bytes l ++ r)).
  { destruct (stream_sealed l r (septets_no_end l Hl)) as [S R]. split; [|exact R]. split; [exact S|]. now apply stream_single. }
  pose proof bytes_laws_tail as L.
  destruct e as [src|src lo hi|src i|src|v|v i|g']; cbn [apply_edit_b new_group new_payload legal] in *; rewrite ?app_nil_r.
  - destruct (set_grow _ _ _ _ _ L _ l src H Lg) as (b' & E & H').
    rewrite E. f_equal. now apply done_stream.
  - destruct Lg as (Hv & A & B).
    destruct (splice_grow _ _ _ _ _ L _ l src lo hi _ _ H Hv eq_refl eq_refl A B) as (b' & E & H').
    rewrite E. f_equal. now apply done_stream.
  - destruct Lg as (Hv & A).
    destruct (insert_grow _ _ _ _ _ L _ l src i H Hv A) as (b' & E & H').
    rewrite E. f_equal. now apply done_stream.
  - destruct (append_grow _ _ _ _ _ L _ l src H Lg) as (b' & E & H').
    rewrite E. f_equal. now apply done_stream.
  - destruct (append_byte_grow _ _ _ _ _ L _ l v H Lg) as (b' & E & H').
    rewrite E. f_equal. now apply done_stream.
  - destruct Lg as [Hv Hi]. exact (set_byte_stream l v i r Hl Hv Hi).
  - reflexivity.
Qed.
