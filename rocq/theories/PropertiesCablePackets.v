(** C73: [UmpMessage::try_from] accepts no message before its last packet. *)
From Coq Require Import NArith List String Bool Arith Lia ZifyBool ZifyNat ZifyN.
From Verif Require Import Base BitOps BitLemmas ListLemmas Values Props PropLemmas Message MessageTable SpecLayout Sysex SpecSysex SysexBridge SysexInit Text SpecText TextParse
  Aggregate SpecAggregate AggregateLemmas AggregateMore Packet SpecPacket PacketLemmas PacketMore PacketRead StreamClient SpecStream StreamLemmas SpecCopies Receiver SpecReceiver
  ReceiverLemmas PropertiesReceiver SpecLoss LossLemmas LossMore PropertiesLoss SpecJoin PropertiesJoin SpecCable CableClient.
Import ListNotations.
Local Open Scope list_scope.
Local Open Scope nat_scope.

Lemma first_map {A B} (g : A -> B) n l : firstn n (map g l) = map g (firstn n l).
Proof. revert l. induction n as [|n IH]; intros [|x l]; try reflexivity. cbn. now rewrite IH. Qed.
Lemma first_seq k n : n <= k -> firstn n (seq 0 k) = seq 0 n.
Proof.
  intros H. replace k with (n + (k - n)) by lia. rewrite seq_app, firstn_app, seq_length, Nat.sub_diag. cbn [firstn].
  now rewrite app_nil_r, firstn_all2 by now rewrite seq_length.
Qed.
Lemma first_some {A} {P : A -> Prop} n t : Forall P t -> Forall P (firstn n t).
Proof. revert t. induction n as [|n IH]; intros t H; [constructor|]. destruct H; [constructor|]. cbn [firstn]. auto. Qed.

Lemma front_unmarked l n : well_marked l -> 0 < n < List.length l -> ~ well_marked (firstn n l).
Proof.
  intros W Hn V. apply well_marked_at in W as [_ W]. apply well_marked_at in V as [L V]. rewrite firstn_length, Nat.min_l in * by lia.
  specialize (W (n - 1) ltac:(lia)). specialize (V (n - 1) ltac:(lia)). rewrite nth_firstn_lt in V by lia. rewrite W in V. unfold status_code in V.
  destruct (Nat.eqb_spec (List.length l) 1); [lia|]. destruct (Nat.eqb_spec n 1), (Nat.eqb_spec (n - 1) 0), (Nat.eqb_spec (S (n - 1)) n), (Nat.eqb_spec (S (n - 1)) (List.length l));
    try lia; cbn in V; discriminate.
Qed.

Lemma not_last k n : 0 < n < k -> ~ looks_whole k (seq 0 n).
Proof.
  intros H [[? _]|(mid & _ & E & _)]; [lia|]. assert (I : In (k - 1) (seq 0 n)) by (rewrite E; right; apply in_app_iff; right; now left).
  apply in_seq in I. lia.
Qed.

Lemma sysex_front fm b k n : sound (sysex_family fm) k b -> List.length b = packet_words fm * k -> 0 < n < k ->
  sx_try_from (fmt_of fm) b = Ok b ->
  let a := List.concat (map (fun i => chunk (packet_words fm) i b) (seq 0 n)) in
  sx_try_from (fmt_of fm) a <> Ok a.
Proof.
  intros [L S0] Lb Hn A a A'. set (qs := map (fun i => chunk (packet_words fm) i b) (seq 0 k)).
  assert (Ew : family_words (sysex_family fm) = packet_words fm) by now destruct fm. rewrite Ew in *.
  assert (Wp : 0 < packet_words fm) by (destruct fm; cbn; lia).
  assert (Eb : List.concat qs = b) by (unfold qs; rewrite concat_chunks by lia; now rewrite <- Lb, firstn_all).
  assert (Lq : Forall (fun q => List.length q = packet_words fm) qs).
  { apply Forall_map, Forall_forall. intros i Hi. apply in_seq in Hi. apply chunk_length. rewrite Lb. apply Nat.mul_le_mono_l. lia. }
  assert (Tq : Forall (fun q => type_of fm q 0 = type_code fm) qs).
  { apply Forall_map, Forall_forall. intros i Hi. apply in_seq in Hi. destruct (S0 i ltac:(lia)) as [T _]. apply family_code. rewrite type_bits. unfold type_field.
    rewrite chunk_bits by exact Wp. exact T. }
  assert (Ea : List.concat (firstn n qs) = a) by (unfold a, qs; rewrite first_map, first_seq by lia; reflexivity).
  destruct (parts_accepted fm qs Lq Tq) as [P _]. cbv zeta in P. rewrite Eb in P.
  destruct (parts_accepted fm (firstn n qs)) as [P' _]; [now apply first_some|now apply first_some|]. cbv zeta in P'. rewrite Ea in P'.
  apply P in A as [Wm _]. apply P' in A' as [Wm' _]. rewrite <- first_map in Wm'. revert Wm'. apply front_unmarked; [exact Wm|].
  unfold qs. rewrite !map_length, seq_length. exact Hn.
Qed.

Lemma front_error c b q n : sendable (c, b) -> wf_buf U32 b -> all_packets (c, b) = Val q -> n < List.length q ->
  exists e, ump_try_from (List.concat (map packet_data (firstn n q))) = Val (Err e).
Proof.
  intros (T & M & N0 & [A D]) W P Hn. cbn [fst snd] in *. destruct n as [|n']; [cbn [firstn map List.concat]; eexists; reflexivity|].
  set (n := S n') in *. assert (Hn0 : 0 < n) by (unfold n; lia). clearbody n. clear n'.
  apply in_flat_map in T as (f & _ & T).
  destruct (accepted_sound f c b b T N0 A D) as (k & Hk & S0 & Eb & Mn).
  assert (Lb : List.length b = family_words f * k).
  { apply (f_equal (@List.length N)) in Eb. rewrite firstn_length in Eb. destruct S0 as [L _]. lia. }
  pose proof D as D'. rewrite Eb in D' at 2. destruct (sound_packets f k c b S0 Mn D') as (q' & P' & Eq & _). clear D'.
  rewrite P in P'. injection P' as <-. subst q. rewrite map_length, seq_length in Hn.
  assert (Wp : 0 < family_words f) by (destruct f; cbn; lia).
  rewrite first_map, map_map, first_seq by lia. cbn [packet_data snd].
  set (a := List.concat _).
  assert (Ea : a = arriving (family_words f) (map (pair b) (seq 0 n))) by (unfold a; rewrite arriving_concat, map_map; reflexivity).
  destruct (ump_total a) as ([[c' m']|e] & R); [| |eauto].
  { unfold a. apply Forall_concat, Forall_map, Forall_forall. intros i Hi. unfold chunk. apply Forall_forall. intros x Hx. unfold wf_buf in W. rewrite Forall_forall in W. apply W.
    clear - Hx. apply in_skip with (n := family_words f * i). now apply in_first with (n := family_words f). }
  exfalso. apply ump_iff in R as (T' & M' & R' & A' & ->). apply in_flat_map in T' as (f' & _ & T').
  assert (Fn : Forall (fun p => p < k) (seq 0 n)) by (apply Forall_forall; intros i Hi; apply in_seq in Hi; lia).
  assert (Hw : nth 0 a 0%N = nth 0 b 0%N).
  { unfold a. destruct n as [|j]; [lia|]. cbn [seq map List.concat]. rewrite app_nth1 by (rewrite chunk_length; [exact Wp|rewrite Lb; apply Nat.mul_le_mono_l; lia]).
    unfold chunk. rewrite Nat.mul_0_r. cbn [skipn]. now rewrite nth_firstn_lt by exact Wp. }
  assert (Hh : hd0 a = hd0 b) by (rewrite !hd0_nth; exact Hw).
  assert (Ff : f' = f).
  { pose proof (accepted_family f' c' a T' A') as X. pose proof (accepted_family f c b T A) as Y. unfold bits in X, Y. cbn [sg_w sg_lo sg_n] in X, Y. rewrite Hw in X. congruence. }
  subst f'. destruct (accepted_key f c' a T' A') as (Na & _ & K'). destruct (accepted_key f c b T A) as (Nb & _ & K).
  assert (La : List.length a = family_words f * n).
  { unfold a. rewrite (concat_len (family_words f)); [now rewrite map_length, seq_length|]. apply Forall_map, Forall_forall. intros i Hi. apply in_seq in Hi.
    apply chunk_length. rewrite Lb. apply Nat.mul_le_mono_l. lia. }
  assert (L4 : family_words f <= List.length a). { rewrite La, <- (Nat.mul_1_r (family_words f)) at 1. apply Nat.mul_le_mono_l. lia. }
  destruct c as [m| | |Kt|Kt].
  - (* one packet *)
    cbn [concrete_data concrete_min] in *. unfold data, size in D. apply prefix_ok in D as [_ D]. rewrite Mn in D.
    apply (f_equal (@List.length N)) in D. rewrite firstn_length in D. assert (family_words f * 2 <= family_words f * k) by (apply Nat.mul_le_mono_l; lia). lia.
  - assert (f = Sysex7) by (eapply types_nodup; [exact T|]; cbn; tauto). subst f.
    assert (c' = CSysex7). { cbn in T'. now destruct T' as [<-|[]]. } subst c'. unfold accepted in A, A'. cbn [concrete_try_from] in A, A'.
    refine (sysex_front SevenBit b k n S0 Lb (conj Hn0 Hn) _ _); cbn [fmt_of packet_words]; [congruence|]. change (sx_try_from fmt7 a = Ok a). congruence.
  - assert (f = Sysex8) by (eapply types_nodup; [exact T|]; cbn; tauto). subst f.
    assert (c' = CSysex8). { cbn in T'. now destruct T' as [<-|[]]. } subst c'. unfold accepted in A, A'. cbn [concrete_try_from] in A, A'.
    refine (sysex_front EightBit b k n S0 Lb (conj Hn0 Hn) _ _); cbn [fmt_of packet_words]; [congruence|]. change (sx_try_from fmt8 a = Ok a). congruence.
  - assert (f = FlexData) by now apply (flex_text_family f Kt). subst f. cbn [family_words] in *.
    assert (HK : In Kt flex_texts). { cbn [types_of] in T. apply in_app_iff in T as [T|T]; apply in_map_iff in T as (x & E & Hx); congruence. }
    unfold accepted in A. cbn [concrete_try_from] in A. cbn [concrete_data] in D.
    assert (Ec : c' = CFlexText Kt).
    { rewrite Hh in K'. rewrite K in K' by (intros _; lia). specialize (K' ltac:(intros _; lia)). congruence. }
    subst c'. unfold accepted in A'. cbn [concrete_try_from] in A'. rewrite Ea in A'. apply (flex_arrived Kt b _ HK A D) in A' as [X _].
    + replace (List.length b / 4) with k in X by (rewrite Lb, Nat.mul_comm, Nat.div_mul; lia). revert X. apply not_last. lia.
    + replace (List.length b / 4) with k by (rewrite Lb, Nat.mul_comm, Nat.div_mul; lia). exact Fn.
  - assert (f = UmpStream) by now apply (stream_text_kind f Kt). subst f. cbn [family_words] in *.
    assert (HK : In Kt stream_texts) by now apply (stream_text_family UmpStream).
    unfold accepted in A. cbn [concrete_try_from] in A. cbn [concrete_data] in D.
    assert (Ek : List.length b / 4 = k) by (rewrite Lb, Nat.mul_comm, Nat.div_mul; lia).
    assert (Ec : c' = CStreamText Kt).
    { rewrite Hh in K'. rewrite K in K' by (intros _; lia). specialize (K' ltac:(intros _; lia)). congruence. }
    subst c'. unfold accepted in A'. cbn [concrete_try_from] in A'. rewrite Ea in A'. apply (stream_arrived Kt b _ HK A D) in A' as [X _].
    + rewrite Ek in X. revert X. apply not_last. lia.
    + rewrite Ek. exact Fn.
Qed.

Lemma packets_app : forall l l' held, packet_run held (l ++ l') = (r <- packet_run held l ;; r' <- packet_run (fst r) l' ;; Val (fst r', snd r ++ snd r')).
Proof.
  induction l as [|p l IH]; intros l' held; cbn [app packet_run].
  - cbn [bind fst snd app]. destruct (packet_run held l') as [[h o]|]; reflexivity.
  - destruct (packet_feed held p) as [[h o]|]; cbn [bind fst snd]; [|reflexivity]. rewrite IH.
    destruct (packet_run h l) as [[h1 o1]|]; cbn [bind fst snd]; [|reflexivity].
    destruct (packet_run h1 l') as [[h2 o2]|]; cbn [bind fst snd]; [|reflexivity]. now rewrite app_assoc.
Qed.

Lemma first_more {A} (l : list A) n x : nth_error l n = Some x -> firstn (S n) l = firstn n l ++ [x].
Proof. revert l. induction n as [|n IH]; intros [|y l] H; try discriminate; cbn in *; [congruence|]. now rewrite (IH l H). Qed.

Lemma run_part c b q : sendable (c, b) -> wf_buf U32 b -> all_packets (c, b) = Val q -> forall n, n < List.length q ->
  packet_run [] (map packet_data (firstn n q)) = Val (List.concat (map packet_data (firstn n q)), []).
Proof.
  intros S0 W P. induction n as [|n IH]; intros Hn; [reflexivity|].
  destruct (nth_error q n) as [x|] eqn:E; [|apply nth_error_None in E; lia].
  destruct (front_error c b q (S n) S0 W P Hn) as (e & F). rewrite (first_more q n x E) in *.
  rewrite map_app, concat_app in *. cbn [map List.concat] in *. rewrite app_nil_r in *.
  rewrite packets_app, IH by lia. cbn [bind fst snd packet_run]. unfold packet_feed. rewrite F. reflexivity.
Qed.

Lemma run_message m q : sendable m -> wf_buf U32 (snd m) -> all_packets m = Val q ->
  packet_run [] (map packet_data q) = Val ([], [m]) /\ 0 < List.length q.
Proof.
  intros S0 W P. destruct m as [c b]. cbn [snd] in W.
  assert (O1 : owes [] q [(c, b)]) by (apply sent_owes; [now constructor|exists [q]; split; [constructor; [exact P|constructor]|cbn; now rewrite app_nil_r]]).
  inversion O1 as [|acc qs ps' m' ms' Q Fi C Pp O3 E1 E2 E3]; subst. apply owes_no_packets in O3. subst ps'. rewrite app_nil_r in *.
  cbn [app snd] in C, Pp. destruct (exists_last Q) as (front & x & ->). split; [|rewrite app_length; cbn; lia].
  pose proof (run_part c b _ S0 W P (List.length front) ltac:(rewrite app_length; cbn; lia)) as R.
  rewrite firstn_app, Nat.sub_diag, firstn_all in R. cbn [firstn] in R. rewrite app_nil_r in R.
  rewrite map_app, packets_app, R. cbn [bind fst snd map packet_run app]. unfold packet_feed.
  rewrite map_app, concat_app in C. cbn [map List.concat] in C. rewrite app_nil_r in C. rewrite C, Pp. cbn [bind fst snd].
  destruct S0 as (_ & _ & _ & [_ D]). cbn [fst snd] in D. unfold agg_data. cbn [fst snd]. rewrite D. reflexivity.
Qed.

(** ** The theorem *)

(** No beginning of a message is accepted as a message, and none makes the parser panic. *)
Theorem C73_prefix : forall m ps n, sendable m -> wf_buf U32 (snd m) -> all_packets m = Val ps -> n < List.length ps ->
  exists e, ump_try_from (List.concat (map packet_data (firstn n ps))) = Val (Err e).
Proof. intros [c b] ps n. apply front_error. Qed.
Print Assumptions C73_prefix.

(** After any number of packets the client has the messages whose last packet was among them, and no others.  Between two
    messages it holds nothing. *)
Theorem C73_packets : forall ms ps n,
  Forall sendable ms -> Forall (fun m => wf_buf U32 (snd m)) ms -> packets_of ms ps ->
  exists held, packet_run [] (map packet_data (firstn n ps)) = Val (held, ended packet_count n ms)
    /\ (~ inside packet_count n ms -> held = []).
Proof.
  intros ms ps n S0 W (pss & F & ->). revert n S0 W. induction F as [|m q ms pss P F IH]; intros n S0 W.
  - exists []. cbn [List.concat]. rewrite firstn_nil. now split.
  - inversion S0 as [|? ? Sm S1]; subst. inversion W as [|? ? Wm W1]; subst. cbn [List.concat ended inside].
    destruct (run_message m q Sm Wm P) as [R Lq]. assert (Ec : packet_count m = List.length q) by (unfold packet_count; now rewrite P). rewrite Ec.
    rewrite firstn_app. destruct (Nat.leb_spec (List.length q) n) as [L|L].
    + rewrite firstn_all2 by exact L. destruct (IH (n - List.length q) S1 W1) as (held & R' & Hh). exists held.
      rewrite map_app, packets_app, R. cbn [bind fst snd]. rewrite R'. split; [reflexivity|]. intros X. apply Hh. intros Y. apply X. right. split; [exact L|exact Y].
    + replace (n - List.length q) with 0 by lia. cbn [firstn]. rewrite app_nil_r. destruct m as [c b]. rewrite (run_part c b q Sm Wm P n L).
      eexists. split; [reflexivity|]. intros X. destruct n; [reflexivity|]. exfalso. apply X. left. lia.
Qed.
Print Assumptions C73_packets.

Example C73_case :
  let text := (CFlexText {| fk_name := "Lyrics"; fk_bank := 2; fk_status := 1 |}, [0xD0500201; 0x61626364; 0x65666768; 0x696A6B6C; 0xD0D00201; 0x6D6E0000; 0; 0]%N) in
  let note := (CFixed cv2_note_on, [0x40903C00; 0x80000000]%N) in
  let sysex := (CSysex7, [0x30160102; 0x03040506; 0x30210700; 0; 0x30310800; 0]%N) in
  let ms := [text; note; sysex] in
  exists ps, packets_of ms ps /\ List.length ps = 6
  /\ map (fun n => option_map snd (match packet_run [] (map packet_data (firstn n ps)) with Val r => Some r | Panic => None end)) [1; 2; 3; 5; 6]
     = map Some [[]; [text]; [text; note]; [text; note]; ms]
  /\ Forall sendable ms /\ Forall (fun m => wf_buf U32 (snd m)) ms.
Proof.
  cbn zeta. eexists. split; [eexists; split; [repeat (constructor; [vm_compute; reflexivity|]); constructor|reflexivity]|].
  split; [reflexivity|]. split; [vm_compute; reflexivity|]. split.
  - repeat apply Forall_cons; try apply Forall_nil;
      (split; [vm_compute; tauto|split; [cbn; intuition discriminate|split; [discriminate|split; vm_compute; reflexivity]]]).
  - repeat apply Forall_cons; try apply Forall_nil; cbn; repeat constructor; lia.
Qed.

(** Word by word it does not hold: of a text the words before the last three are accepted, and [data()] of what is accepted
    panics. *)
Theorem C73_words_refuted : exists m n m', sendable m /\ n < List.length (snd m)
  /\ ump_try_from (firstn n (snd m)) = Val (Ok m') /\ agg_data U32 m' = Panic.
Proof.
  exists (CFlexText {| fk_name := "Lyrics"; fk_bank := 2; fk_status := 1 |}, [0xD0500201; 0x61626364; 0x65666768; 0x696A6B6C; 0xD0D00201; 0x6D6E0000; 0; 0]%N), 5.
  eexists. split; [|split; [cbn; lia|split; vm_compute; reflexivity]].
  split; [vm_compute; tauto|split; [cbn; intuition discriminate|split; [discriminate|split; vm_compute; reflexivity]]].
Qed.
Print Assumptions C73_words_refuted.
