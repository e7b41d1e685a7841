(** C04 for the byte masks of eight bits, which no message uses. *)
From Coq Require Import NArith List String Bool Arith Lia ZifyBool ZifyNat ZifyN.
From Verif Require Import Base BitOps Values Schema OctetSchema BitLemmas ListLemmas PropertiesMask.
Import ListNotations.
Local Open Scope N_scope.

Lemma octet_mask m w : In (m, w) u8_bytes ->
  (w < 3)%nat /\ forall k, nth k (units3 m) 0 = if (k =? w)%nat then 0xFF else 0.
Proof.
  intros [[= <- <-]|[[= <- <-]|[[= <- <-]|[]]]]; (split; [lia|]); intros [|[|[|[|k]]]]; reflexivity.
Qed.

Lemma octet_named m w k j : In (m, w) u8_bytes -> (named (units3 m) k j <-> k = w /\ j < 8).
Proof.
  intros H. destruct (octet_mask m w H) as [_ M]. unfold named. rewrite M.
  destruct (Nat.eqb_spec k w) as [->|E]; [|rewrite N.bits_0; split; [discriminate|now intros [? _]]].
  change 0xFF with (N.ones 8). destruct (N.lt_ge_cases j 8) as [L|L].
  - rewrite N.ones_spec_low by exact L. tauto.
  - rewrite N.ones_spec_high by exact L. split; [discriminate|lia].
Qed.

(** As [C04_masks_bytes]: two buffers read alike exactly if they agree on the bits of the mask;
    a write changes no other bit and is read back. *)
Theorem C04_masks_octets : forall m w b,
  In (m, w) u8_bytes -> wf_buf U8 b -> reaches (units3 m) b ->
  (exists v, u8_bytes_read w b = Val v /\ v < 256) /\
  (forall b', wf_buf U8 b' -> reaches (units3 m) b' ->
    (u8_bytes_read w b = u8_bytes_read w b' <-> same_under (units3 m) b b')) /\
  (forall v, v < 256 -> exists b', u8_bytes_write w b v = Val b' /\
    same_outside (units3 m) b b' /\ wf_buf U8 b' /\ u8_bytes_read w b' = Val v).
Proof.
  intros m w b H Hwf Hr.
  assert (R : forall x, reaches (units3 m) x -> (w < List.length x)%nat).
  { intros x Hx. apply Hx. rewrite (proj2 (octet_mask m w H)), Nat.eqb_refl. discriminate. }
  assert (B : forall x, wf_buf U8 x -> nth w x 0 < 256).
  { intros x Hx. destruct (Nat.lt_ge_cases w (List.length x)) as [L|L]; [|now rewrite nth_overflow by exact L].
    unfold wf_buf in Hx. rewrite Forall_forall in Hx. apply (Hx (nth w x 0)). now apply nth_In. }
  pose proof (R b Hr) as L. unfold u8_bytes_read, u8_bytes_write. split; [|split].
  - exists (nth w b 0). rewrite (idx_nth b w L). split; [reflexivity|]. now apply B.
  - intros b' Hwf' Hr'. pose proof (R b' Hr') as L'. rewrite (idx_nth b w L), (idx_nth b' w L').
    unfold same_under. split.
    + intros [= E] k j Hn. apply (octet_named m w k j H) in Hn as [-> _]. now rewrite E.
    + intros E. f_equal. apply N.bits_inj. intros j. destruct (N.lt_ge_cases j 8) as [Lj|Lj].
      * apply E. now apply (octet_named m w w j H).
      * rewrite !(testbit_above 8) by (auto; now apply B). reflexivity.
  - intros v Hv. unfold upd. rewrite (nth_error_nth' b 0 L). eexists. split; [reflexivity|].
    split; [split; [now rewrite set_nth_length|]|split].
    + intros k j Hn. rewrite nth_set_nth by exact L. destruct (Nat.eqb_spec k w) as [->|E]; [|reflexivity].
      destruct (N.lt_ge_cases j 8) as [Lj|Lj]; [destruct Hn; now apply (octet_named m w w j H)|].
      rewrite !(testbit_above 8) by (auto; now apply B). reflexivity.
    + unfold wf_buf in *. apply Forall_forall. intros x Hx. apply (In_nth _ _ 0) in Hx as (k & Hk & <-).
      rewrite set_nth_length in Hk. rewrite nth_set_nth by exact L. destruct (k =? w)%nat; [exact Hv|].
      rewrite Forall_forall in Hwf. apply Hwf. now apply nth_In.
    + rewrite idx_nth by now rewrite set_nth_length. rewrite nth_set_nth by exact L. now rewrite Nat.eqb_refl.
Qed.
Print Assumptions C04_masks_octets.

Example C04_case_octets :
  In ((0, 0xFF, 0), 1%nat) u8_bytes /\ reaches (units3 (0, 0xFF, 0)) [0x90; 0x3C; 0x7F] /\
  u8_bytes_write 1 [0x90; 0x3C; 0x7F] 0xA5 = Val [0x90; 0xA5; 0x7F] /\ u8_bytes_read 1 [0x90; 0xA5; 0x7F] = Val 0xA5.
Proof.
  split; [cbn; tauto|]. split; [|split; reflexivity].
  intros [|[|[|[|w]]]] H; cbn in *; try lia; congruence.
Qed.
