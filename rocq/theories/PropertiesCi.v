(** PROPERTIES of MIDI-CI discovery inquiries.  See properties.jsonl;
    vocabulary in SpecCi.v and SpecLayout.v. *)
From Coq Require Import NArith ZArith List String Bool Arith Lia Zify ZifyBool ZifyNat ZifyN.
From Verif Require Import Base BitOps BitLemmas ListLemmas Helpers Message SpecLayout SpecFixed PropLemmas PropWrite
  Sysex SpecSysex SysexBytes SysexHold SysexInit Ci SpecCi CiLemmas.
Import ListNotations.
Local Open Scope string_scope.
Local Open Scope list_scope.
Local Open Scope nat_scope.

(** ** C37: histories *)

(** The contents after a sequence of setter calls. *)
Lemma typed_updated v s e : typed s -> ci_call_ok v e -> typed (updated s e).
Proof.
  intros T [_ H] f. unfold updated. destruct (field_eqb (fst e) f) eqn:E; [|apply T].
  replace f with (fst e); [exact H|]. destruct (fst e), f; try discriminate; reflexivity.
Qed.
Lemma typed_history v h s : typed s -> Forall (ci_call_ok v) h -> typed (fold_left updated h s).
Proof. intros T H. revert s T. induction H as [|e h He H IH]; intros s T; [exact T|]. cbn [fold_left]. apply IH. eapply typed_updated; eassumption. Qed.
Lemma typed_blank : typed blank.
Proof. intros []; cbn; try split; try reflexivity; try exact I; repeat constructor. Qed.

Lemma sets_inquiry v h : version v -> Forall (ci_call_ok v) h -> forall s rest,
  ci_sets h (inquiry v s ++ rest) = Val (inquiry v (fold_left updated h s) ++ rest).
Proof.
  intros Hv H. induction H as [|e h He H IH]; intros s rest; [reflexivity|]. cbn [ci_sets fold_left].
  rewrite set_inquiry by assumption. cbn [bind]. apply IH.
Qed.

(** Any calls of setters on a new inquiry end, without a panic, with exactly the
    inquiry whose fields are the last values set; that is what the getters and
    [data] return. *)
Theorem C37_histories : forall v h,
  v = 1%N \/ v = 2%N -> Forall (ci_call_ok v) h ->
  let s := fold_left updated h blank in
  exists b0 b, ci_new v = Val b0 /\ ci_sets h b0 = Val b
    /\ b = inquiry v s /\ ci_data b = Val b
    /\ (forall f, (since f <= v)%N -> ci_get f b = Val (s f))
    /\ ci_device_id b = Val FunctionBlock /\ ci_destination b = Val 0xFFFFFFF%N.
Proof.
  intros v h Hv Hh s. exists (inquiry v blank), (inquiry v s).
  pose proof (typed_history v h blank typed_blank Hh) as T. fold s in T.
  split; [now apply new_inquiry|]. split.
  { pose proof (sets_inquiry v h Hv Hh blank []) as E. now rewrite !app_nil_r in E. }
  split; [reflexivity|]. split; [rewrite <- (app_nil_r (inquiry v s)) at 1; now apply data_inquiry|].
  split; [intros f Hf; rewrite <- (app_nil_r (inquiry v s)); now apply get_inquiry|].
  split; reflexivity.
Qed.
Print Assumptions C37_histories.

(** Every byte of it between 0xF0 and 0xF7 is a data byte; these bytes are the
    payload of the system exclusive message; and it parses. *)
Theorem C37_wire : forall v h b0 b,
  v = 1%N \/ v = 2%N -> Forall (ci_call_ok v) h -> ci_new v = Val b0 -> ci_sets h b0 = Val b ->
  exists l, b = 0xF0%N :: l ++ [0xF7%N] /\ Forall (fun x => (x < 0x80)%N) l
    /\ List.length b = (if (v =? 2)%N then 32 else 31)
    /\ ci_payload b = Val l /\ ci_try_from v b = Val (Ok b).
Proof.
  intros v h b0 b Hv Hh E0 E. destruct (C37_histories v h Hv Hh) as (b0' & b' & N0 & N1 & N2 & _). rewrite E0 in N0. injection N0 as <-.
  rewrite E in N1. injection N1 as <-. pose proof (typed_history v h blank typed_blank Hh) as T. subst b.
  destruct (inquiry_stream v _ Hv T) as (l & El & NE & Sp & L). exists l. split; [exact El|]. split; [exact Sp|].
  split. { rewrite El. cbn. rewrite app_length. cbn. rewrite <- ci_min_version by exact Hv. lia. }
  split. { rewrite El, <- (app_nil_r (stream_bytes l)). now apply (septet_reads l [] NE). }
  destruct (ci_try_from_spec v (inquiry v (fold_left updated h blank)) Hv) as (r & -> & _ & R). f_equal. apply R.
  unfold is_inquiry. rewrite El at 1. split. { rewrite <- ci_min_version by exact Hv. rewrite stream_bytes_length. lia. }
  repeat (split; [reflexivity|]). unfold inquiry. rewrite !in_app_iff. right. right. left. reflexivity.
Qed.
Print Assumptions C37_wire.

Example C37_histories_case :
  let h := [(FSource, CiNum 0x0ABCDEF); (FPropertyExchange, CiFlag true); (FManufacturer, CiBytes [0x7D; 1; 2]);
            (FMaxSysexSize, CiNum 512); (FProcessInquiry, CiFlag true); (FSource, CiNum 0x0FFFFFE); (FOutputPathId, CiNum 9)]%N in
  Forall (ci_call_ok 2) h /\
  inquiry 2 (fold_left updated h blank) =
    [0xF0; 0x7E; 0x7F; 0x0D; 0x70; 2; 0x7E; 0x7F; 0x7F; 0x07; 0x7F; 0x7F; 0x7F; 0x7F; 0x7D; 1; 2; 0; 0; 0; 0; 0; 0; 0; 0;
     0x18; 0; 4; 0; 0; 9; 0xF7]%N.
Proof.
  split; [|reflexivity]. repeat (constructor; [split; [discriminate|first [reflexivity|exact I|split; [reflexivity|repeat constructor]]]|]). constructor.
Qed.

(** ** C37: other buffers *)

(** Reused growable buffers give the same message, whatever they held. *)
Theorem C37_reused : forall v b, v = 1%N \/ v = 2%N -> ci_new_with_buffer v b = ci_new v.
Proof. intros v b Hv. rewrite new_with_buffer_inquiry, new_inquiry by exact Hv. reflexivity. Qed.
Print Assumptions C37_reused.

(** Arrays: construction fails exactly when the array is too short for the
    version's size; otherwise setters and getters behave as above and the rest of
    the array stays zero and outside of the message. *)
Theorem C37_array : forall v n h, v = 1%N \/ v = 2%N -> Forall (ci_call_ok v) h ->
  let m := if (v =? 2)%N then 32 else 31 in
  let s := fold_left updated h blank in
  (n < m -> exists e, ci_try_new v n = Val (Err e)) /\
  (m <= n -> exists b0 b, ci_try_new v n = Val (Ok b0) /\ ci_sets h b0 = Val b
     /\ b = inquiry v s ++ repeat 0%N (n - m) /\ ci_data b = Val (inquiry v s)
     /\ forall f, (since f <= v)%N -> ci_get f b = Val (s f)).
Proof.
  intros v n h Hv Hh m s. pose proof (try_new_inquiry v n Hv) as H. rewrite ci_min_version in H by exact Hv. fold m in H.
  pose proof (typed_history v h blank typed_blank Hh) as T. fold s in T.
  split; intros L.
  - now replace (m <=? n) with false in H by lia.
  - replace (m <=? n) with true in H by lia. eexists _, (inquiry v s ++ repeat 0%N (n - m)). split; [exact H|].
    split; [now apply sets_inquiry|]. split; [reflexivity|]. split; [now apply data_inquiry|]. intros f Hf. now apply get_inquiry.
Qed.
Print Assumptions C37_array.

(** Caller-supplied slices: construction fails exactly when the slice is too
    short; otherwise every byte of the message is that of a new inquiry except
    that the four unassigned bits of the support byte (25) keep what the slice
    held.  When they were clear the message is the new inquiry. *)
Theorem C37_slice : forall v b, v = 1%N \/ v = 2%N ->
  let m := if (v =? 2)%N then 32 else 31 in
  (List.length b < m -> exists e, ci_try_new_with_buffer v b = Val (Err e)) /\
  (m <= List.length b -> exists b', ci_try_new_with_buffer v b = Val (Ok b')
     /\ List.length b' = List.length b
     /\ (forall w, w < m -> w <> 25 -> nth w b' 0%N = nth w (inquiry v blank) 0%N)
     /\ (forall j, N.testbit (nth 25 b' 0%N) j = if ((1 <=? j) && (j <=? 4))%N then false else N.testbit (nth 25 b 0%N) j)
     /\ (forall w, m <= w -> nth w b' 0%N = nth w b 0%N)) /\
  (m <= List.length b -> (forall j, ~ (1 <= j <= 4)%N -> N.testbit (nth 25 b 0%N) j = false) ->
     ci_try_new_with_buffer v b = Val (Ok (inquiry v blank ++ skipn m b))).
Proof.
  intros v b Hv m. pose proof (try_new_with_buffer_inquiry v b Hv) as H. rewrite ci_min_version in H by exact Hv. fold m in H.
  assert (BL : List.length (blank_with v (N.ldiff (nth 25 b 0%N) 0x1E)) = m) by (unfold m; destruct Hv as [-> | ->]; reflexivity).
  assert (TB : forall j, N.testbit 0x1E j = ((1 <=? j) && (j <=? 4))%N).
  { intros j. destruct (N.le_gt_cases j 4).
    - assert (J : (j = 0 \/ j = 1 \/ j = 2 \/ j = 3 \/ j = 4)%N) by lia. destruct J as [-> |[-> |[-> |[-> | ->]]]]; reflexivity.
    - rewrite N.bits_above_log2 by (cbn; lia). lia. }
  split; [|split]; intros L.
  - now replace (m <=? List.length b) with false in H by lia.
  - replace (m <=? List.length b) with true in H by lia. eexists. split; [exact H|]. repeat split.
    + rewrite app_length, BL, skipn_length. lia.
    + intros w Hw N25. rewrite app_nth1 by lia. unfold m in *. clear - Hv Hw N25.
      destruct Hv as [-> | ->]; cbn [N.eqb Pos.eqb] in Hw; do 32 (destruct w as [|w]; [try reflexivity; lia|]); lia.
    + intros j. rewrite app_nth1 by (rewrite BL; unfold m; destruct (v =? 2)%N; lia).
      replace (nth 25 (blank_with _ _) 0%N) with (N.ldiff (nth 25 b 0%N) 0x1E) by (destruct Hv as [-> | ->]; reflexivity).
      rewrite N.ldiff_spec, TB. destruct ((1 <=? j) && (j <=? 4))%N; cbn [negb]; [apply andb_false_r|apply andb_true_r].
    + intros w Hw. rewrite app_nth2 by lia. rewrite nth_skipn, BL. f_equal. lia.
  - intros Z. replace (m <=? List.length b) with true in H by lia. rewrite H.
    replace (N.ldiff (nth 25 b 0%N) 0x1E) with 0%N; [now rewrite blank_with_0|].
    apply N.bits_inj_0 || (symmetry; apply N.bits_inj_0). intros j. rewrite N.ldiff_spec, TB.
    destruct ((1 <=? j) && (j <=? 4))%N eqn:J; cbn [negb]; [apply andb_false_r|]. rewrite Z by lia. reflexivity.
Qed.
Print Assumptions C37_slice.
Example C37_slice_case :
  ci_try_new_with_buffer 1 (repeat 0xFF%N 33) <> Val (Err "BufferOverflow") /\
  (forall j, ~ (1 <= j <= 4)%N -> N.testbit (nth 25 (repeat 0x1E%N 40) 0%N) j = false).
Proof.
  split; [vm_compute; discriminate|]. intros j Hj. change (nth 25 (repeat 0x1E%N 40) 0%N) with 0x1E%N.
  destruct (N.le_gt_cases j 4); [assert (j = 0%N) as -> by lia; reflexivity|]. apply N.bits_above_log2. cbn. lia.
Qed.

(** Refuted: a slice with old contents gives an inquiry with a byte that is not
    a data byte, which ends up in the payload: reading it panics. *)
Theorem C37_slice_refuted : exists b b',
  Forall (fun x => x < 256)%N b /\ ci_try_new_with_buffer 1 b = Val (Ok b')
  /\ nth 25 b' 0%N = 0xE1%N /\ ci_payload b' = Panic.
Proof. exists (repeat 0xFF%N 31). eexists. split; [repeat constructor|]. split; [vm_compute; reflexivity|]. split; reflexivity. Qed.
Print Assumptions C37_slice_refuted.

(** ** C37: parsing *)

(** Parsing never panics.  It succeeds exactly on slices of at least the
    version's size with the fixed bytes of an inquiry, the version's number, the
    broadcast destination and an end byte, and keeps the slice. *)
Theorem C37_parse : forall v b, v = 1%N \/ v = 2%N -> exists r, ci_try_from v b = Val r
  /\ (r = Ok b \/ exists e, r = Err e) /\ (r = Ok b <-> is_inquiry v b).
Proof. exact ci_try_from_spec. Qed.
Print Assumptions C37_parse.
Example C37_parse_case : is_inquiry 1 (inquiry 1 blank ++ [5; 6]%N) /\ ~ is_inquiry 2 (inquiry 1 blank ++ [5; 6]%N).
Proof.
  split.
  - repeat split; try reflexivity; cbn; [lia|tauto].
  - intros (_ & _ & _ & _ & _ & _ & H & _). discriminate H.
Qed.

(** ** C37: any message *)

Lemma bytes_from_in w n w' j : w <= w' < w + n -> (j < 8)%N -> exists s, In s (bytes_from w n) /\ in_seg s w' j.
Proof.
  intros H Hj. exists (Seg w' 0 8). split; [|unfold in_seg; cbn; lia]. unfold bytes_from. apply in_map_iff. exists w'. split; [reflexivity|].
  apply in_seq. lia.
Qed.
Lemma byte_above x j : (x < 256)%N -> ~ (j < 8)%N -> N.testbit x j = false.
Proof. intros H Hj. apply (testbit_above 8); [exact H|lia]. Qed.

(** A setter applied to any message of sufficient length, parsed or built: its
    getter returns the value, the other getters and all other bits of the message
    are unchanged. *)
Theorem C37_set : forall v f x b,
  v = 1%N \/ v = 2%N -> ci_call_ok v (f, x) -> Forall (fun y => y < 256)%N b ->
  (if (v =? 2)%N then 32 else 31) <= List.length b ->
  exists b', ci_set (f, x) b = Val b' /\ ci_get f b' = Val x
    /\ (forall g, g <> f -> (since g <= v)%N -> ci_get g b' = ci_get g b)
    /\ only_changes (places f) b b'.
Proof.
  intros v f x b Hv Hc Hb L. rewrite <- ci_min_version in L by exact Hv. destruct (set_any v f x b Hv Hc L) as (b' & E & L' & Hn).
  exists b'. split; [exact E|]. assert (LM : 31 <= ci_min v) by (destruct Hv as [-> | ->]; cbn; lia).
  split; [|split].
  - apply (get_image v f x b' Hv Hc); [lia|]. destruct (flag_bit f) as [i|] eqn:FB.
    + rewrite Hn. cbn [Nat.eqb]. rewrite bit8_set by (destruct f; inversion FB; lia). now rewrite N.eqb_refl.
    + intros w Hw. rewrite Hn. replace ((start f <=? start f + w) && (start f + w <? start f + List.length (image f x))) with true by lia. f_equal. lia.
  - intros g Ng Hg. apply (get_same v g b b' Hv Hg L L'). destruct Hc as [_ Ht]. cbn [fst snd] in Ht. destruct (flag_bit f) as [i|] eqn:FB.
    + destruct (flag_bit g) as [j|] eqn:GB.
      * rewrite Hn. cbn [Nat.eqb]. rewrite bit8_set by (first [destruct f; inversion FB; lia|destruct g; inversion GB; lia]).
        replace (i =? j)%N with false; [reflexivity|]. symmetry. apply N.eqb_neq. intros ->. apply Ng. destruct f, g; try discriminate; cbn [flag_bit] in FB, GB; congruence.
      * intros w Hw. rewrite Hn. destruct (Nat.eqb_spec w 25) as [->|]; [|reflexivity]. exfalso. destruct g; try discriminate; cbn in Hw; lia.
    + assert (IL : List.length (image f x) = match f with FSource | FMaxSysexSize | FSoftware => 4 | FManufacturer => 3 | FOutputPathId => 1 | _ => 2 end).
      { destruct f, x as [|n|l|fl]; try discriminate; cbn [field_type] in Ht; try contradiction; try reflexivity; apply Ht. }
      assert (D : forall w, nth w b' 0%N <> nth w b 0%N -> start f <= w < start f + List.length (image f x)).
      { intros w. rewrite Hn. destruct (_ && _) eqn:A; [lia|congruence]. }
      destruct (flag_bit g) as [j|] eqn:GB.
      * replace (nth 25 b' 0%N) with (nth 25 b 0%N); [reflexivity|]. rewrite Hn, IL. destruct f; try discriminate; reflexivity.
      * intros w Hw. destruct (N.eq_dec (nth w b' 0%N) (nth w b 0%N)) as [|Nq]; [assumption|]. exfalso. apply D in Nq. rewrite IL in Nq.
        destruct f; try discriminate; destruct g; try discriminate; try congruence; cbn [start] in *; lia.
  - split; [exact L'|]. intros w j H. destruct Hc as [Hs Ht]. cbn [fst snd] in *. rewrite Hn. destruct (flag_bit f) as [i|] eqn:FB.
    + destruct (Nat.eqb_spec w 25) as [->|]; [|reflexivity]. unfold set_bit8. change 1%N with (N.ones 1) at 1. rewrite testbit_replace by (destruct (is_true x); cbn; lia).
      destruct ((7 - i <=? j) && (j <? 7 - i + 1))%N eqn:A; [|reflexivity]. exfalso.
      destruct f; inversion FB; subst i; cbn [places] in H; eapply H; try (left; reflexivity); unfold in_seg; cbn [sg_w sg_lo sg_n]; lia.
    + destruct ((start f <=? w) && (w <? start f + List.length (image f x))) eqn:A; [|reflexivity].
      destruct (N.lt_ge_cases j 8) as [J|J].
      * exfalso. assert (P : places f = bytes_from (start f) (List.length (image f x))).
        { destruct f, x as [|n|l|fl]; try discriminate; cbn [field_type] in Ht; try contradiction; try reflexivity;
            destruct Ht as [Hl _]; cbn [image]; rewrite Hl; reflexivity. }
        destruct (bytes_from_in (start f) (List.length (image f x)) w j ltac:(lia) J) as (s & I & IS). rewrite P in H. exact (H s I IS).
      * rewrite !byte_above; [reflexivity| |lia| |lia].
        -- destruct (Nat.lt_ge_cases w (List.length b)); [|rewrite nth_overflow by lia; lia]. rewrite Forall_forall in Hb. now apply Hb, nth_In.
        -- assert (F : Forall (fun y => y < 128)%N (image f x)).
           { destruct f, x as [|n|l|fl]; try discriminate; cbn [field_type image] in *; try contradiction; try (repeat constructor; apply digit_lt);
               try (destruct Ht as [_ Ht]; exact Ht). constructor; [exact Ht|constructor]. }
           assert (W : w - start f < List.length (image f x)) by lia. rewrite Forall_forall in F. specialize (F _ (nth_In _ 0%N W)). cbn beta in F. lia.
Qed.
Print Assumptions C37_set.
Example C37_set_case : ci_call_ok 2 (FOutputPathId, CiNum 9) /\ 32 <= List.length (repeat 0x9B%N 40)
  /\ Forall (fun y => y < 256)%N (repeat 0x9B%N 40).
Proof. split; [split; [discriminate|reflexivity]|]. split; [cbn; lia|repeat constructor]. Qed.

(** Refuted: the getters of a parsed message do not all return.  A byte outside
    of the seven-bit range and an early end byte are accepted. *)
Theorem C37_getter_refuted : exists b,
  List.length b = 31 /\ Forall (fun x => x < 256)%N b /\ ci_try_from 1 b = Val (Ok b)
  /\ ci_get FManufacturer b = Panic /\ ci_payload b = Panic.
Proof.
  exists (set_nth (inquiry 1 blank) 14 0x80%N). split; [reflexivity|]. split; [repeat constructor|]. split; [reflexivity|]. split; reflexivity.
Qed.
Print Assumptions C37_getter_refuted.
Theorem C37_early_end_refuted : exists b,
  ci_try_from 1 b = Val (Ok b) /\ ci_data b = Val (firstn 7 b) /\ List.length b = 31
  /\ ci_get FSource b = Val (CiNum 0x77).
Proof. exists (set_nth (inquiry 1 blank) 6 0xF7%N). repeat split. Qed.
Print Assumptions C37_early_end_refuted.
(** Refuted: a setter can make a parsed message unparsable and without [data],
    by overwriting its only end byte. *)
Theorem C37_set_end_refuted : exists b b',
  ci_try_from 1 b = Val (Ok b) /\ ci_set (FSource, CiNum 1) b = Val b'
  /\ (exists e, ci_try_from 1 b' = Val (Err e)) /\ ci_data b' = Panic.
Proof.
  exists (set_nth (set_nth (inquiry 1 blank) 6 0xF7%N) 30 0%N). eexists. split; [reflexivity|]. split; [reflexivity|]. split; [eexists; reflexivity|reflexivity].
Qed.
Print Assumptions C37_set_end_refuted.
(** Refuted (C06): the parser of an unassigned version, which compiles, panics on
    short slices. *)
Theorem C06_ci_version_refuted : exists b, ci_try_from 3 b = Panic.
Proof. exists [0xF0; 0xF7]%N. reflexivity. Qed.
Print Assumptions C06_ci_version_refuted.

(** ** C37: rebuffering *)

Lemma position_app (P : N -> bool) b r : existsb P b = true -> position P (b ++ r) = position P b.
Proof.
  induction b as [|x b IH]; [discriminate|]. cbn [existsb app position]. destruct (P x); [reflexivity|]. cbn [orb]. intros H. now rewrite IH.
Qed.
Lemma position_le (P : N -> bool) b : existsb P b = true -> exists k, position P b = Some k /\ k < List.length b.
Proof.
  induction b as [|x b IH]; [discriminate|]. cbn [existsb position List.length]. destruct (P x); [exists 0; split; [reflexivity|lia]|]. cbn [orb]. intros H.
  destruct (IH H) as (k & -> & L). exists (S k). split; [reflexivity|lia].
Qed.
Lemma data_app b r : In 0xF7%N b -> exists d, ci_data b = Val d /\ ci_data (b ++ r) = Val d.
Proof.
  intros H. assert (E : existsb (fun x => x =? 0xF7)%N b = true) by (apply existsb_exists; exists 0xF7%N; split; [exact H|reflexivity]).
  unfold ci_data, data_b, size_b. rewrite position_app by exact E. destruct (position_le _ b E) as (k & -> & L). cbn [bind]. unfold prefix.
  rewrite app_length. replace (S k <=? List.length b) with true by lia. replace (S k <=? List.length b + List.length r) with true by lia.
  eexists. split; [reflexivity|]. f_equal. rewrite firstn_app. replace (S k - List.length b) with 0 by lia. cbn [firstn]. now rewrite app_nil_r.
Qed.

(** Rebuffering, into a [Vec] or an array that is large enough, keeps the message
    and every field; only arrays shorter than the buffer are refused. *)
Theorem C37_rebuffer : forall v b n,
  v = 1%N \/ v = 2%N -> is_inquiry v b ->
  (exists d, ci_data b = Val d /\ ci_data (ci_rebuffer_vec b) = Val d
     /\ forall b', ci_try_rebuffer_array b n = Ok b' -> ci_data b' = Val d) /\
  (forall f, (since f <= v)%N -> ci_get f (ci_rebuffer_vec b) = ci_get f b
     /\ forall b', ci_try_rebuffer_array b n = Ok b' -> ci_get f b' = ci_get f b) /\
  ((exists e, ci_try_rebuffer_array b n = Err e) <-> n < List.length b).
Proof.
  intros v b n Hv Hi. unfold ci_rebuffer_vec, rebuffer_vec, ci_try_rebuffer_array, try_rebuffer_array.
  assert (R : forall b', (if n <? List.length b then Err "BufferOverflow" else Ok (b ++ repeat 0%N (n - List.length b))) = Ok b' ->
    b' = b ++ repeat 0%N (n - List.length b)) by (intros b'; destruct (n <? List.length b); congruence).
  split; [|split].
  - destruct (data_app b (repeat 0%N (n - List.length b))) as (d & D & D'); [apply Hi|]. exists d. split; [exact D|]. split; [exact D|].
    intros b' E. now rewrite (R b' E).
  - intros f Hf. split; [reflexivity|]. intros b' E. rewrite (R b' E). clear R E b'. destruct Hi as [L _].
    assert (X : forall i, i < List.length b -> idx (b ++ repeat 0%N (n - List.length b)) i = idx b i) by (intros i Hx; unfold idx; now rewrite nth_error_app1).
    assert (M : 31 <= List.length b) by (destruct (v =? 2)%N; lia).
    unfold ci_get, ci_read, idx_u7, read14, read28. destruct f; cbn [field_prop Nat.add]; rewrite !X by lia; try reflexivity.
  - destruct (Nat.ltb_spec n (List.length b)); split; eauto; try lia. now intros (e & E).
Qed.
Print Assumptions C37_rebuffer.
Example C37_rebuffer_case : is_inquiry 2 (inquiry 2 blank) /\ exists b', ci_try_rebuffer_array (inquiry 2 blank) 40 = Ok b'.
Proof. split; [repeat split; try reflexivity; try (cbn; lia); cbn; tauto|eexists; reflexivity]. Qed.

(** ** C38: device ids *)

(** The codes of device ids: a code is accepted when it has a meaning among
    channels 1 to 15, group and function block, and means that. *)
Definition device_codes : list (N * device_id) :=
  map (fun c => (c, Channel c)) [0; 1; 2; 3; 4; 5; 6; 7; 8; 9; 10; 11; 12; 13; 14]%N ++ [(0x7E, Group); (0x7F, FunctionBlock)]%N.
Theorem C38_device_id : forall c d,
  device_id_from_u8 c = Ok d <-> In (c, d) device_codes.
Proof.
  intros c d. split.
  - unfold device_id_from_u8, device_codes. rewrite in_app_iff, in_map_iff. cbn [In].
    destruct (N.eqb_spec c 0x7F) as [->|]; [intros [= <-]; auto|]. destruct (N.eqb_spec c 0x7E) as [->|]; [intros [= <-]; auto|].
    destruct (N.ltb_spec c 0x0F); [|discriminate]. intros [= <-]. left. exists c. split; [reflexivity|lia].
  - unfold device_codes. cbn [map app In]. intros H. repeat (destruct H as [H|H]; [injection H as <- <-; reflexivity|]). contradiction.
Qed.
Print Assumptions C38_device_id.
(** Encoding inverts decoding, and decoding encoding except for channel 16. *)
Theorem C38_device_id_inverse :
  (forall c d, device_id_from_u8 c = Ok d -> device_id_to_u8 d = c) /\
  (forall d, match d with Channel c => (c < 15)%N | _ => True end -> device_id_from_u8 (device_id_to_u8 d) = Ok d).
Proof.
  split.
  - intros c d H. apply C38_device_id in H. unfold device_codes in H. cbn in H.
    repeat (destruct H as [H|H]; [injection H as <- <-; reflexivity|]). contradiction.
  - intros d H. apply C38_device_id. unfold device_codes. rewrite in_app_iff. destruct d as [c| |]; cbn [device_id_to_u8]; [left|right; cbn; auto|right; cbn; auto].
    apply in_map_iff. exists c. split; [reflexivity|]. cbn. lia.
Qed.
Print Assumptions C38_device_id_inverse.
(** Refuted: channel 16 is encoded but not decoded. *)
Theorem C38_device_id_refuted : exists c, (c < 16)%N /\ device_id_to_u8 (Channel c) = c /\ exists e, device_id_from_u8 c = Err e.
Proof. exists 15%N. split; [reflexivity|]. split; [reflexivity|eexists; reflexivity]. Qed.
Print Assumptions C38_device_id_refuted.
Example C38_device_id_case : In (14%N, Channel 14) device_codes /\ ~ In (15%N, Channel 15) device_codes.
Proof. split; cbn; [tauto|]. intros H. repeat (destruct H as [H|H]; [discriminate H|]). exact H. Qed.
