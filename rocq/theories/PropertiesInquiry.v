(** C66: discovery inquiries travel as system exclusive messages.  [inquiry_payload] and [says] are defined in SpecInquiry.v,
    the sending and receiving ends of a connection in Gateway.v, [heard] in InquiryClient.v. *)
From Coq Require Import NArith ZArith List String Bool Arith Lia Zify ZifyBool ZifyNat ZifyN.
From Verif Require Import Base BitOps BitLemmas ListLemmas Encode7 Values Props PropLemmas Message SpecFixed Sysex Splice SpecSysex SysexLayout SysexBytes SysexHold
  SysexBridge SysexInit SysexConvert ConvertProofs Ci SpecCi CiLemmas PropertiesCi Aggregate SpecAggregate Packet SpecPacket StreamClient SpecStream Receiver SpecReceiver
  Gateway SpecGateway PropertiesGateway InquiryClient SpecInquiry.
Import ListNotations.
Local Open Scope list_scope.
Local Open Scope nat_scope.

(** ** Reading *)

Lemma long_list n : forall l : list N, n <= List.length l -> exists a r, l = a ++ r /\ List.length a = n.
Proof. intros l H. exists (firstn n l), (skipn n l). split; [symmetry; apply firstn_skipn|]. rewrite firstn_length. lia. Qed.

Lemma payload_inquiry v l : version v -> Forall (is_unit SevenBit) l -> (is_inquiry v (stream_bytes l) <-> inquiry_payload v l).
Proof.
  intros Hv F. unfold is_inquiry, inquiry_payload, stream_bytes. cbn [List.length]. rewrite app_length. cbn [List.length].
  assert (Z : In 0xF7%N (0xF0%N :: l ++ [0xF7%N])) by (right; rewrite in_app_iff; right; now left).
  assert (G : (if (v =? 2)%N then 30 else 29) <= List.length l -> forall i, i < 29 -> nth (S i) (0xF0%N :: l ++ [0xF7%N]) 0%N = nth i l 0%N).
  { intros L i Hi. cbn [nth]. apply app_nth1. destruct Hv as [E|E]; subst v; cbn in L; lia. }
  assert (M : forall i, i < List.length l -> (nth i l 0 mod 128 = nth i l 0)%N).
  { intros i Hi. rewrite Forall_forall in F. apply N.mod_small. exact (F _ (nth_In l 0%N Hi)). }
  split.
  - intros (L & _ & A1 & A2 & A3 & A4 & A5 & B0 & B1 & B2 & B3 & _).
    assert (L' : (if (v =? 2)%N then 30 else 29) <= List.length l) by (destruct Hv as [E|E]; subst v; cbn in L |- *; lia).
    assert (L29 : 29 <= List.length l) by (destruct Hv as [E|E]; subst v; cbn in L'; lia). specialize (G L').
    rewrite G in A1, A2, A3, A4, A5, B0, B1, B2, B3 by lia. rewrite M in B0, B1, B2, B3 by lia.
    split; [exact L'|]. destruct (long_list 13 l ltac:(lia)) as (a & r & -> & La).
    do 14 (destruct a as [|? a]; cbn [List.length] in La; try lia). cbn [nth app] in *. subst. split; reflexivity.
  - intros (L & P & Q).
    assert (L29 : 29 <= List.length l) by (destruct Hv as [E|E]; subst v; cbn in L; lia). specialize (G L).
    rewrite !G by lia. rewrite !M by lia.
    split; [destruct Hv as [E|E]; subst v; cbn in L |- *; lia|]. split; [reflexivity|].
    destruct (long_list 13 l ltac:(lia)) as (a & r & -> & La).
    do 14 (destruct a as [|? a]; cbn [List.length] in La; try lia). cbn [nth app firstn skipn] in *.
    injection P as -> -> -> -> ->. injection Q as -> -> -> ->. repeat split; try reflexivity. exact Z.
Qed.

Lemma says_typed l f : 29 <= List.length l -> Forall (is_unit SevenBit) l -> field_type f (says l f).
Proof.
  intros L F. assert (S0 : forall i, (nth i l 0 < 128)%N).
  { intros i. destruct (Nat.lt_ge_cases i (List.length l)) as [H|H]; [|rewrite nth_overflow by exact H; lia]. rewrite Forall_forall in F. exact (F _ (nth_In l 0%N H)). }
  assert (B : forall i n, i + n <= List.length l -> List.length (bytes_at i n l) = n /\ Forall (fun x => x < 2 ^ 7)%N (bytes_at i n l)).
  { intros i n H. unfold bytes_at. split; [rewrite firstn_length, skipn_length; lia|]. 
    rewrite <- (firstn_skipn i l), Forall_app in F. destruct F as [_ F]. rewrite <- (firstn_skipn n (skipn i l)), Forall_app in F. exact (proj1 F). }
  destruct f; cbn [says field_type number_at]; try exact I; try (apply B; lia); try exact (S0 29);
    repeat match goal with |- context [nth ?i l 0%N] => pose proof (S0 i); generalize dependent (nth i l 0%N); intros end; lia.
Qed.

Lemma skipn_head i : forall (l : list N) x t, skipn i l = x :: t -> skipn (S i) l = t /\ nth i l 0%N = x.
Proof. induction i as [|i IH]; intros [|y l] x t E; try discriminate; [cbn in E; injection E as -> ->; auto|]. exact (IH l x t E). Qed.

Lemma says_get v l r f : version v -> Forall (is_unit SevenBit) l -> (if (v =? 2)%N then 30 else 29) <= List.length l -> (since f <= v)%N ->
  ci_get f (stream_bytes l ++ r) = Val (says l f).
Proof.
  intros Hv F L Hs. assert (L29 : 29 <= List.length l) by (destruct Hv as [E|E]; subst v; cbn in L; lia).
  assert (S0 : forall i, (nth i l 0 < 128)%N).
  { intros i. destruct (Nat.lt_ge_cases i (List.length l)) as [H|H]; [|rewrite nth_overflow by exact H; lia]. rewrite Forall_forall in F. exact (F _ (nth_In l 0%N H)). }
  assert (X : forall i, i < List.length l -> idx (stream_bytes l ++ r) (S i) = Val (nth i l 0%N)).
  { intros i Hi. unfold stream_bytes. rewrite CiLemmas.idx_nth by (rewrite app_length; cbn [List.length]; rewrite app_length; cbn [List.length]; lia).
    f_equal. cbn [nth app]. rewrite <- app_assoc. apply app_nth1. exact Hi. }
  assert (U : forall i, i < List.length l -> idx_u7 (stream_bytes l ++ r) (S i) = Val (nth i l 0%N)).
  { intros i Hi. unfold idx_u7. rewrite X by exact Hi. cbn [bind]. unfold u7_new. pose proof (S0 i). now replace (nth i l 0 <? 128)%N with true by lia. }
  assert (M : forall i, (nth i l 0 mod 128 = nth i l 0)%N) by (intros i; apply N.mod_small, S0).
  assert (Bt : forall i n, i + n <= List.length l -> bytes_at i n l = map (fun j => nth j l 0%N) (seq i n)).
  { intros i n. revert i. unfold bytes_at. induction n as [|n IH]; intros i H; [reflexivity|]. cbn [seq map]. rewrite <- IH by lia.
    destruct (skipn i l) as [|x t] eqn:E; [pose proof (skipn_length i l) as SL; rewrite E in SL; cbn in SL; lia|].
    destruct (skipn_head i l x t E) as [Et En]. rewrite Et. cbn [firstn]. now rewrite En. }
  unfold ci_get. destruct f; cbn [field_prop ci_read says]; unfold read28, read14; cbn [Nat.add];
    rewrite ?X, ?U by (try lia; destruct Hv as [E|E]; subst v; cbn in L, Hs; lia); cbn [bind];
    rewrite ?u28_from_spec, ?CiLemmas.u14_from_spec, ?M, ?bit8_test by lia; try reflexivity; cbn [number_at];
    rewrite ?Bt by lia; try reflexivity; do 2 f_equal; lia.
Qed.

(** Whatever system exclusive message arrives: it is heard as an inquiry of version 1 or 2 exactly if its payload is one, and
    then every field is what the payload says. *)
Theorem C66_heard : forall v k g s l b, v = 1%N \/ v = 2%N -> carries SevenBit k g s l b ->
  exists r, heard v (CSysex7, b) = Val (Some r)
  /\ (r = Ok (stream_bytes l) \/ exists e, r = Err e)
  /\ (r = Ok (stream_bytes l) <-> inquiry_payload v l)
  /\ (inquiry_payload v l -> forall f, (since f <= v)%N -> ci_get f (stream_bytes l) = Val (says l f) /\ field_type f (says l f)).
Proof.
  intros v k g s l b Hv C. pose proof (carries_units _ _ _ _ _ _ C) as F.
  assert (D : data_b (stream_bytes l) = Val (stream_bytes l)).
  { rewrite <- (app_nil_r (stream_bytes l)) at 1. exact (proj1 (septet_reads l [] (septets_no_end l F))). }
  destruct (ci_try_from_spec v (stream_bytes l) Hv) as (r & E & R & I).
  exists (match r with Ok x => Ok (ci_rebuffer_vec x) | Err e => Err e end). split; [|split; [|split]].
  - unfold heard. cbn [fst snd]. rewrite (SysexConvert.from_ump_ok _ _ _ _ _ C). cbn [bind]. rewrite D. cbn [bind]. rewrite E. reflexivity.
  - destruct R as [R|(e & R)]; subst r; [left; reflexivity|right; eauto].
  - rewrite <- (payload_inquiry v l Hv F), <- I. destruct R as [R|(e & R)]; subst r; [|split; discriminate]. tauto.
  - intros P f Hf. split.
    + rewrite <- (app_nil_r (stream_bytes l)). apply (says_get v); auto. apply P.
    + apply says_typed; [|exact F]. destruct P as [P _]. destruct Hv as [Z|Z]; subst v; cbn in P; lia.
Qed.
Print Assumptions C66_heard.

(** ** Sending *)

(** An inquiry built by any calls of setters is a MIDI 1.0 message that the enum of byte messages recognises, and what its
    payload says is what was set. *)
Theorem C66_message : forall v h b0 b, v = 1%N \/ v = 2%N -> Forall (ci_call_ok v) h -> ci_new v = Val b0 -> ci_sets h b0 = Val b ->
  bytes_try_from b = Val (Ok (CSysex7, b)) /\ midi1 (CSysex7, b)
  /\ exists l, b = stream_bytes l /\ Forall (is_unit SevenBit) l /\ inquiry_payload v l
       /\ forall f, (since f <= v)%N -> says l f = fold_left updated h blank f.
Proof.
  intros v h b0 b Hv Hh E0 E. destruct (C37_wire v h b0 b Hv Hh E0 E) as (l & Eb & F & Lb & _ & T).
  destruct (C37_histories v h Hv Hh) as (b0' & b' & N0 & N1 & _ & _ & G & _). rewrite E0 in N0. injection N0 as <-. rewrite E in N1. injection N1 as <-.
  change (0xF0%N :: l ++ [0xF7%N]) with (stream_bytes l) in Eb.
  assert (D : data_b b = Val b). { rewrite Eb. rewrite <- (app_nil_r (stream_bytes l)) at 1. exact (proj1 (septet_reads l [] (septets_no_end l F))). }
  assert (A : try_from_b b = Ok b).
  { apply accepts_b. exists l, []. rewrite app_nil_r. split; [exact (septets_no_end l F)|exact Eb]. }
  assert (W : wf_buf U8 b).
  { rewrite Eb. unfold wf_buf, stream_bytes. constructor; [reflexivity|]. apply Forall_app. split; [|repeat constructor].
    eapply Forall_impl; [|exact F]. intros a Ha. cbn in *. lia. }
  assert (P : inquiry_payload v l).
  { apply (payload_inquiry v l Hv F). destruct (ci_try_from_spec v (stream_bytes l) Hv) as (r & Er & _ & I). apply I. rewrite <- Eb in *. congruence. }
  split; [|split].
  - rewrite Eb. unfold bytes_try_from, stream_bytes. cbn [idx nth_error bind]. rewrite Eb in A. unfold stream_bytes in A.
    cbn - [try_from_b]. unfold wrap. cbn [concrete_try_from]. rewrite A. reflexivity.
  - split; [now left|]. split; [exact W|]. split; [|cbn [fst snd]; exists l; split; [exact F|exact Eb]].
    split; cbn [fst snd concrete_data]; [|exact D]. unfold accepted. cbn [concrete_try_from]. now rewrite A.
  - exists l. split; [exact Eb|]. split; [exact F|]. split; [exact P|]. intros f Hf.
    pose proof (says_get v l [] f Hv F (proj1 P) Hf) as X. rewrite app_nil_r, <- Eb, (G f Hf) in X. congruence.
Qed.
Print Assumptions C66_message.

(** Inquiries among other MIDI 1.0 messages on any number of cables, the packets of the cables in any order on one UMP
    connection: the message comes out in its place, is accepted, and has the fields that were set. *)
Theorem C66_connection : forall v h b0 b before behind g cables pss ps,
  v = 1%N \/ v = 2%N -> Forall (ci_call_ok v) h -> ci_new v = Val b0 -> ci_sets h b0 = Val b ->
  In (g, before ++ (CSysex7, b) :: behind) cables ->
  Forall (fun c => fst c < 16)%N cables -> NoDup (map fst cables) -> Forall (fun c => Forall midi1 (snd c)) cables ->
  Forall2 (fun c q => cable_in (fst c) (stream_of_messages (snd c)) = Val (Ok q)) cables pss ->
  interleaved pss ps ->
  exists st out d, link_out (stream_of_packets ps) = Val (Ok (st, out)) /\ cable_out g out = Val (Ok d)
    /\ read_messages U8 d = Val (Ok (before ++ (CSysex7, b) :: behind))
    /\ ci_try_from v b = Val (Ok b) /\ forall f, (since f <= v)%N -> ci_get f b = Val (fold_left updated h blank f).
Proof.
  intros v h b0 b before behind g cables pss ps Hv Hh E0 E Hin G Nd M F I.
  destruct (C50_cables cables pss ps G Nd M F I) as (st & out & L & _ & O & _). exists st, out. specialize (O _ Hin). cbn [fst snd] in O.
  exists (stream_of_messages (before ++ (CSysex7, b) :: behind)). split; [exact L|]. split; [exact O|].
  rewrite Forall_forall in M. pose proof (M _ Hin) as Mg. cbn [snd] in Mg. split; [exact (parsed_cable _ Mg)|].
  split; [destruct (C37_wire v h b0 b Hv Hh E0 E) as (l & _ & _ & _ & _ & T); exact T|].
  destruct (C37_histories v h Hv Hh) as (b0' & b' & N0 & N1 & _ & _ & X & _). rewrite E0 in N0. injection N0 as <-. rewrite E in N1. injection N1 as <-. exact X.
Qed.
Print Assumptions C66_connection.

(** A version 2 inquiry among a note and a clock, through group 4: six packets of which five are the inquiry's. *)
Example C66_case :
  let h := [(FSource, CiNum 0x0ABCDEF); (FPropertyExchange, CiFlag true); (FManufacturer, CiBytes [0x7D; 1; 2]); (FOutputPathId, CiNum 9)]%N in
  exists b0 b, Forall (ci_call_ok 2) h /\ ci_new 2 = Val b0 /\ ci_sets h b0 = Val b
  /\ (exists q st out, cable_in 4 (b ++ [0xF8])%N = Val (Ok q) /\ List.length q = 6
       /\ link_out (stream_of_packets q) = Val (Ok (st, out)) /\ cable_out 4 out = Val (Ok (b ++ [0xF8]))%N)
  /\ (exists w, sysex7_from_bytes b = Val w /\ heard 2 (CSysex7, w) = Val (Some (Ok b)) /\ exists e, heard 1 (CSysex7, w) = Val (Some (Err e)))
  /\ ci_get FSource b = Val (CiNum 0x0ABCDEF) /\ ci_get FOutputPathId b = Val (CiNum 9).
Proof.
  cbv zeta. eexists _, _. split; [repeat (constructor; [split; [discriminate|first [reflexivity|exact I|split; [reflexivity|repeat constructor]]]|]); constructor|].
  split; [vm_compute; reflexivity|]. split; [vm_compute; reflexivity|].
  split; [eexists _, _, _; split; [vm_compute; reflexivity|]; split; [reflexivity|]; split; vm_compute; reflexivity|].
  split; [eexists; split; [vm_compute; reflexivity|]; split; [vm_compute; reflexivity|]; eexists; vm_compute; reflexivity|].
  split; vm_compute; reflexivity.
Qed.
