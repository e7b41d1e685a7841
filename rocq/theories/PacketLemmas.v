(** Lemmas about single packets and the packets of a message. *)
From Coq Require Import NArith ZArith List String Bool Arith Lia Zify ZifyBool ZifyNat ZifyN.
From Verif Require Import Base BitOps BitLemmas ListLemmas Values Helpers Props Message MessageTable SpecLayout
  PropLemmas Sysex ByteView SpecSysex Text Aggregate SpecAggregate AggregateLemmas AggregateMore Packet SpecPacket.
Import ListNotations.
Local Open Scope list_scope.
Local Open Scope nat_scope.

Lemma fitted_length n b : List.length (fitted n b) = n.
Proof. unfold fitted. now rewrite map_length, seq_length. Qed.
Lemma fitted_nth n b i : i < n -> nth i (fitted n b) 0%N = nth i b 0%N.
Proof.
  intros H. unfold fitted.
  rewrite (nth_indep _ 0%N (nth 0 b 0%N)) by (rewrite map_length, seq_length; lia).
  rewrite (map_nth (fun j => nth j b 0%N)), seq_nth by lia. reflexivity.
Qed.
Lemma copied_fitted n b : copied n b = fitted n b.
Proof.
  unfold copied. apply (nth_ext _ _ 0%N 0%N).
  - rewrite app_length, firstn_length, repeat_length, fitted_length. lia.
  - intros i Hi. rewrite app_length, firstn_length, repeat_length in Hi.
    rewrite fitted_nth by lia.
    destruct (Nat.lt_ge_cases i (List.length b)).
    + rewrite app_nth1 by (rewrite firstn_length; lia). apply nth_firstn_lt. lia.
    + rewrite app_nth2 by (rewrite firstn_length; lia). rewrite nth_repeat. now rewrite nth_overflow.
Qed.

Lemma fitted_own n b : List.length b = n -> fitted n b = b.
Proof.
  intros L. rewrite <- copied_fitted. unfold copied. rewrite firstn_all2 by lia.
  replace (n - List.length b) with 0 by lia. cbn. apply app_nil_r.
Qed.
Lemma fitted_bits n b lo k : 0 < n -> bits (fitted n b) (Seg 0 lo k) = bits b (Seg 0 lo k).
Proof. intros H. unfold bits. cbn [sg_w sg_lo sg_n]. now rewrite fitted_nth. Qed.

Lemma idx0 b : b <> [] -> idx b 0 = Val (nth 0 b 0%N).
Proof. destruct b; [easy|reflexivity]. Qed.

Lemma kind_words_spec f : kind_words (variant f) = family_words f.
Proof. now destruct f. Qed.
Lemma kind_needs_spec f : kind_needs (variant f) = words_asked f.
Proof. now destruct f. Qed.
Lemma ump_family_spec t f : ump_family t = Some f <-> t = kind_type (variant f).
Proof.
  split.
  - intros H. destruct t as [|p]; [injection H as <-; reflexivity|].
    repeat (destruct p as [p|p|]; try discriminate; try (cbn in H; injection H as <-; reflexivity)).
  - intros ->. now destruct f.
Qed.

Lemma status7_cases b : b <> [] ->
  status7_of b = Val (match status_field b with
    | 0 => Ok Complete | 1 => Ok Start | 2 => Ok Continue | 3 => Ok End
    | _ => Err "Invalid SysEx7 status byte"%string end)%N.
Proof.
  intros Hb. unfold status7_of. rewrite idx0 by exact Hb. cbn [bind]. rewrite nibble32_bits.
  change (28 - 2 * 4)%N with 20%N. fold (status_field b). pose proof (bits_lt b (Seg 0 20 4)) as L.
  fold (status_field b) in L. change (2 ^ sg_n (Seg 0 20 4))%N with 16%N in L. destruct (status_field b) as [|p]; [reflexivity|].
  repeat (destruct p as [p|p|]; try reflexivity; try lia).
Qed.

Lemma status7_ok b : b <> [] -> (exists s, status7_of b = Val (Ok s)) <-> (status_field b <= 3)%N.
Proof.
  intros Hb. rewrite status7_cases by exact Hb. split.
  - intros (s & E). destruct (status_field b) as [|p]; [lia|].
    destruct p as [[| |]|[| |]|]; try discriminate; lia.
  - intros L. destruct (status_field b) as [|p]; [eauto|].
    destruct p as [[| |]|[| |]|]; eauto; lia.
Qed.

Lemma status8_total b : 4 <= List.length b -> exists r, status8_of b = Val r
  /\ ((exists s, r = Ok s) <-> (status_field b <= 3)%N).
Proof.
  intros Hb. unfold status8_of. rewrite idx0 by (destruct b; [cbn in Hb; lia|discriminate]). cbn [bind].
  rewrite !nibble32_bits. change (28 - 2 * 4)%N with 20%N. fold (status_field b).
  replace (List.length b <? 4) with false by lia.
  destruct (N.eqb_spec (status_field b) 0); [eexists; split; [reflexivity|]; split; [lia|eauto]|].
  destruct (N.eqb_spec (status_field b) 1); [eexists; split; [reflexivity|]; split; [lia|eauto]|].
  destruct (N.eqb_spec (status_field b) 2); [eexists; split; [reflexivity|]; split; [lia|eauto]|].
  destruct (N.eqb_spec (status_field b) 3).
  - destruct (octet32 _ _ =? 0)%N; [destruct (forallb _ _)|]; (eexists; split; [reflexivity|]; split; [lia|eauto]).
  - eexists; split; [reflexivity|]. split; [intros (s & X); discriminate|lia].
Qed.

Lemma kind_ok f b : exists r, kind_try_from (variant f) b = Val r /\ forall p,
  r = Ok p <-> words_asked f <= List.length b /\ ump_family (type_field b) = Some f
     /\ valid_codes f b /\ p = (variant f, fitted (family_words f) b).
Proof.
  unfold kind_try_from. rewrite kind_needs_spec.
  destruct (Nat.ltb_spec (List.length b) (words_asked f)).
  { eexists. split; [reflexivity|]. intros p. split; [discriminate|]. intros (A & _). lia. }
  assert (Hb : b <> []) by (destruct f, b; cbn in *; try lia; discriminate).
  rewrite idx0 by exact Hb. cbn [bind]. rewrite !nibble32_bits. change (28 - 0 * 4)%N with 28%N. change (28 - 3 * 4)%N with 16%N.
  fold (type_field b) (size_field b). pose proof (ump_family_spec (type_field b) f) as U. rewrite copied_fitted, kind_words_spec.
  destruct (N.eqb_spec (type_field b) (kind_type (variant f))) as [T|T]; cbn [negb].
  2:{ eexists. split; [reflexivity|]. intros p. split; [discriminate|]. intros (_ & A & _). now apply U in A. }
  apply U in T. clear U.
  assert (G : forall p, Ok (variant f, fitted (family_words f) b) = Ok p <-> p = (variant f, fitted (family_words f) b)).
  { intros p. split; [intros E; now injection E as ->|now intros ->]. }
  destruct f; cbn [variant valid_codes] in *; try (eexists; split; [reflexivity|]; intros p; rewrite G; tauto).
  - destruct (N.ltb_spec 6 (size_field b)).
    { eexists. split; [reflexivity|]. intros p. split; [discriminate|]. lia. }
    pose proof (status7_ok b Hb) as S7. rewrite status7_cases in * by exact Hb.
    destruct (match status_field b with 0%N => _ | _ => _ end) as [s|e]; cbn [try_bind].
    + eexists. split; [reflexivity|]. intros p. rewrite G. destruct S7 as [S7 _]. specialize (S7 ltac:(eauto)). intuition lia.
    + eexists. split; [reflexivity|]. intros p. split; [discriminate|]. intros (_ & _ & (A & _) & _).
      apply S7 in A as (s & X). discriminate.
  - destruct (status8_total b H) as (r & -> & R). destruct r as [s|e]; cbn [try_bind].
    + eexists. split; [reflexivity|]. intros p. rewrite G. destruct R as [R _]. specialize (R ltac:(eauto)). intuition lia.
    + eexists. split; [reflexivity|]. intros p. split; [discriminate|]. intros (_ & _ & A & _).
      apply R in A as (s & X). discriminate.
Qed.

Lemma packet_by_family b : b <> [] -> packet_try_from b =
  match ump_family (type_field b) with
  | Some f => kind_try_from (variant f) b
  | None => Val (Err "Incorrect UMP message type"%string)
  end.
Proof.
  destruct b as [|x b]; [easy|]. intros _. unfold packet_try_from. cbn [idx nth_error bind].
  assert (E : nibble32 x 0 = type_field (x :: b)) by apply (nibble32_bits (x :: b) 0 0). rewrite E. clear E.
  pose proof (bits_lt (x :: b) (Seg 0 28 4)) as L. fold (type_field (x :: b)) in L.
  change (2 ^ sg_n (Seg 0 28 4))%N with 16%N in L. generalize dependent (type_field (x :: b)). intros t L.
  destruct t as [|p]; [reflexivity|]. repeat (destruct p as [p|p|]; try reflexivity; try lia).
Qed.

Lemma words_asked_pos f : 0 < words_asked f.
Proof. destruct f; cbn; lia. Qed.
Lemma family_words_pos f : 0 < family_words f.
Proof. destruct f; cbn; lia. Qed.

Lemma packet_ok b : exists r, packet_try_from b = Val r /\ forall p,
  r = Ok p <-> exists f, words_asked f <= List.length b /\ ump_family (type_field b) = Some f
     /\ valid_codes f b /\ p = (variant f, fitted (family_words f) b).
Proof.
  destruct b as [|x b].
  { eexists. split; [reflexivity|]. intros p. split; [discriminate|]. intros (f & A & _). pose proof (words_asked_pos f). cbn in A. lia. }
  rewrite packet_by_family by discriminate. destruct (ump_family _) as [f|] eqn:F.
  - destruct (kind_ok f (x :: b)) as (r & E & R). exists r. split; [exact E|]. intros p. rewrite R. split.
    + intros (A & B & C). exists f. rewrite <- F. auto.
    + intros (g & A & B & C). assert (f = g) by congruence. subst g. rewrite F. auto.
  - eexists. split; [reflexivity|]. intros p. split; [discriminate|]. intros (g & _ & A & _). discriminate.
Qed.

Lemma packet_of_chunk f c : List.length c = family_words f -> ump_family (type_field c) = Some f -> valid_codes f c ->
  packet_try_from c = Val (Ok (variant f, c)).
Proof.
  intros L T V. destruct (packet_ok c) as (r & E & R). rewrite E. f_equal. apply R. exists f.
  rewrite fitted_own by exact L. split; [rewrite L; destruct f; cbn; lia|auto].
Qed.
