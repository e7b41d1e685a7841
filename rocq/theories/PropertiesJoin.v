(** C68: a client that begins to listen in the middle.  From a MIDI 1.0 byte stream joined at any byte, skipping to the next
    status byte and reading on gives exactly the messages that begin after that point.  A receiver of packets that joins
    at any packet gets, of every sender, exactly the messages that begin after that point, preceded by one error if the
    point was inside a message. *)
From Coq Require Import NArith List String Bool Arith Lia ZifyBool ZifyNat ZifyN.
From Verif Require Import Base BitOps BitLemmas ListLemmas Values Props PropLemmas Message MessageTable SpecLayout Sysex SpecSysex SysexBridge SysexInit Text SpecText TextParse
  Aggregate SpecAggregate AggregateLemmas AggregateMore Packet SpecPacket PacketLemmas PacketMore PacketRead StreamClient SpecStream StreamLemmas SpecCopies Receiver SpecReceiver
  ReceiverLemmas PropertiesReceiver SpecLoss LossLemmas LossMore PropertiesLoss SpecJoin JoinClient.
Import ListNotations.
Local Open Scope list_scope.
Local Open Scope nat_scope.

(** ** Byte streams *)

Lemma status_first c s t : (s < 256)%N -> In c byte_types -> accepted U8 c (s :: t) -> (128 <= s /\ s <> 0xF7)%N.
Proof.
  intros Hs T A. pose proof (byte_key c s t Hs T A) as K. pose proof (byte_select_name s Hs) as Nm. rewrite K in Nm. cbn [option_map] in Nm.
  split.
  - destruct (N.ltb_spec s 128) as [L|L]; [|exact L]. exfalso. unfold midi1_type in Nm. replace (s <? 128)%N with true in Nm by lia. discriminate.
  - intros ->. discriminate Nm.
Qed.

Lemma skip_data t rest : Forall (fun x => x < 128 \/ x = 0xF7)%N t -> from_status (t ++ rest) = from_status rest.
Proof.
  induction 1 as [|x t H _ IH]; [reflexivity|]. cbn [app from_status]. replace ((128 <=? x) && negb (x =? 247))%N with false; [exact IH|].
  destruct H as [H| ->]; [|reflexivity]. replace (128 <=? x)%N with false by lia. reflexivity.
Qed.

Lemma skip_some {A} {P : A -> Prop} n t : Forall P t -> Forall P (skipn n t).
Proof. revert t. induction n as [|n IH]; intros t H; [exact H|]. destruct H; [constructor|]. cbn [skipn]. auto. Qed.

Definition streamed (m : aggregate) : Prop := In (fst m) byte_types /\ whole U8 m /\ wf_buf U8 (snd m) /\ one_status (snd m).

Lemma joined_at ms : Forall streamed ms -> forall k,
  from_status (skipn k (stream_of_messages ms)) = stream_of_messages (from_position (fun m => List.length (snd m)) k ms).
Proof.
  unfold stream_of_messages. induction 1 as [|m ms (T & [A _] & W & O) _ IH]; intros k; [now destruct k|].
  cbn [map List.concat from_position]. destruct (snd m) as [|s t] eqn:E; [easy|]. cbn [one_status] in O.
  apply wf_cons in W as [Hs _]. destruct (status_first _ _ _ Hs T A) as [S1 S2].
  destruct k as [|k]; cbn [Nat.eqb].
  - cbn [map List.concat skipn app]. rewrite E. cbn [app from_status]. replace ((128 <=? s) && negb (s =? 247))%N with true; [reflexivity|].
    destruct (N.eqb_spec s 247); [congruence|]. replace (128 <=? s)%N with true by lia. reflexivity.
  - rewrite skipn_app. cbn [skipn List.length]. rewrite skip_data by now apply skip_some. rewrite IH. reflexivity.
Qed.

Lemma from_forall {A} (P : A -> Prop) size ms : Forall P ms -> forall k, Forall P (from_position size k ms).
Proof. induction 1 as [|m ms H F IH]; intros k; [constructor|]. cbn [from_position]. destruct (k =? 0); [now constructor|apply IH]. Qed.

(** Joined at any byte. *)
Theorem C68_bytes : forall ms k,
  Forall (fun m => In (fst m) byte_types /\ whole U8 m /\ wf_buf U8 (snd m) /\ one_status (snd m)) ms ->
  join_bytes (skipn k (stream_of_messages ms)) = Val (Ok (from_position (fun m => List.length (snd m)) k ms)).
Proof.
  intros ms k H. unfold join_bytes. rewrite joined_at by exact H. unfold read_messages. apply bytes_complete; [|lia].
  apply from_forall. eapply Forall_impl; [|exact H]. cbn. tauto.
Qed.
Print Assumptions C68_bytes.

(** What [from_position] leaves out are the messages in front, and no more of them than begin before the position. *)
Lemma from_suffix {A} size (ms : list A) k : exists front, ms = front ++ from_position size k ms
  /\ (forall i m, nth_error front i = Some m -> list_sum (map size (firstn i front)) < k)
  /\ (from_position size k ms <> [] -> k <= list_sum (map size front)).
Proof.
  revert k. induction ms as [|m ms IH]; intros k; [exists []; split; [reflexivity|]; split; [intros [|]; discriminate|easy]|].
  cbn [from_position]. destruct (Nat.eqb_spec k 0) as [->|Hk]; [exists []; split; [reflexivity|]; split; [intros [|]; discriminate|cbn; lia]|].
  destruct (IH (k - size m)) as (fr & E & F1 & F2). exists (m :: fr). split; [cbn [app]; now f_equal|]. split.
  - intros [|i] x Hx; cbn [nth_error firstn map list_sum fold_right] in *; [lia|]. specialize (F1 i x Hx). unfold list_sum in F1. lia.
  - intros Nn. specialize (F2 Nn). cbn [map list_sum fold_right]. unfold list_sum in F2. lia.
Qed.

(** ** Packets *)

Lemma skip_all {A} (l : list A) n : List.length l <= n -> skipn n l = [].
Proof. revert n. induction l as [|x l IH]; intros [|n] H; cbn in *; try reflexivity; [lia|apply IH; lia]. Qed.

(** The result for the messages sent under one key, [n] packets of which were not heard. *)
Fixpoint heard (n : nat) (mq : list (aggregate * list packet)) : list (res aggregate) :=
  match mq with
  | [] => []
  | (m, q) :: t =>
      if n =? 0 then map Ok (map fst mq)
      else if n <? List.length q
        then (match ump_try_from (List.concat (map packet_data (skipn n q))) with Val r => r | Panic => Err ""%string end) :: map Ok (map fst t)
        else heard (n - List.length q) t
  end.

Lemma wf_concat q : forall b, wf_buf U32 b -> List.concat (map packet_data q) = b -> forall n, wf_buf U32 (List.concat (map packet_data (skipn n q))).
Proof.
  induction q as [|p q IH]; intros b W E n; [destruct n; constructor|]. destruct n as [|n]; [cbn [skipn]; now rewrite E|].
  cbn [skipn]. cbn [map List.concat] in E. subst b. apply Forall_app in W as [_ W]. now apply (IH _ W eq_refl).
Qed.

Lemma split_combine {A B} (l : list A) (l' : list B) : List.length l = List.length l' -> map fst (combine l l') = l.
Proof. revert l'. induction l as [|x l IH]; intros [|y l'] H; cbn in *; try congruence. f_equal. apply IH. congruence. Qed.

Lemma heard_owed ms pss : Forall2 (fun m q => all_packets m = Val q) ms pss -> Forall sendable ms -> Forall (fun m => wf_buf U32 (snd m)) ms ->
  forall n, owed [] (skipn n (List.concat pss)) (heard n (combine ms pss)).
Proof.
  induction 1 as [|m q ms pss P F IH]; intros S0 W n; [destruct n; constructor|].
  inversion S0 as [|? ? Sm S1]; subst. inversion W as [|? ? Wm W1]; subst. cbn [combine heard List.concat map fst].
  assert (O2 : owed [] (List.concat pss) (map Ok ms)) by (apply owes_owed, sent_owes; [exact S1|exists pss; auto]).
  assert (Ls : List.length ms = List.length pss) by now apply both_length in F.
  destruct (Nat.eqb_spec n 0) as [->|Hn].
  { cbn [skipn map]. rewrite split_combine by exact Ls. change (Ok m :: map Ok ms) with (map Ok (m :: ms)). apply owes_owed, sent_owes; [exact S0|].
    exists (q :: pss). split; [now constructor|reflexivity]. }
  assert (O1 : owes [] q [m]) by (apply sent_owes; [now constructor|exists [q]; split; [constructor; [exact P|constructor]|cbn; now rewrite app_nil_r]]).
  inversion O1 as [|acc qs ps' m' ms' Q Fi C Pp O3 E1 E2 E3]; subst. apply owes_no_packets in O3. subst ps'. rewrite app_nil_r in *.
  rewrite skipn_app. destruct (Nat.ltb_spec n (List.length qs)) as [L|L].
  - replace (n - List.length qs) with 0 by lia. cbn [skipn]. rewrite split_combine by exact Ls. constructor.
    + intros X. apply (f_equal (@List.length packet)) in X. rewrite skipn_length in X. cbn in X. lia.
    + intros p x Hx. rewrite skipn_length. rewrite nth_error_skipn in Hx. rewrite (Fi (n + p) x Hx). f_equal. apply eq_true_iff_eq. rewrite !Nat.eqb_eq. lia.
    + cbn [app]. destruct (ump_total (List.concat (map packet_data (skipn n qs)))) as (r & X); [|now rewrite X].
      cbn [app] in C. eapply wf_concat; eauto.
    + exact O2.
  - rewrite skip_all by exact L. cbn [app]. now apply IH.
Qed.

(** What remains of a message whose first packets are missing is no message. *)
Lemma tail_unmarked l n : well_marked l -> 0 < n < List.length l -> ~ well_marked (skipn n l).
Proof.
  intros W Hn V. apply well_marked_at in W as [_ W]. apply well_marked_at in V as [L V]. specialize (W n ltac:(lia)). specialize (V 0 ltac:(lia)).
  assert (E : nth 0 (skipn n l) 0%N = nth n l 0%N).
  { clear. revert n. induction l as [|x l IH]; intros [|n]; try reflexivity. cbn [skipn nth]. apply IH. }
  rewrite E, W in V. rewrite skipn_length in V. unfold status_code in V.
  destruct (Nat.eqb_spec (List.length l) 1); [lia|]. destruct (Nat.eqb_spec n 0); [lia|].
  destruct (Nat.eqb_spec (List.length l - n) 1), (Nat.eqb_spec (S n) (List.length l)); cbn in V; discriminate.
Qed.

Lemma skip_seq k n : n <= k -> skipn n (seq 0 k) = seq n (k - n).
Proof.
  intros H. replace k with (n + (k - n)) at 1 by lia. rewrite seq_app, skipn_app, seq_length, Nat.sub_diag, skip_all by now rewrite seq_length. reflexivity.
Qed.

Lemma skip_map {A B} (g : A -> B) n l : skipn n (map g l) = map g (skipn n l).
Proof. revert l. induction n as [|n IH]; intros [|x l]; try reflexivity. apply IH. Qed.

Lemma not_first k n : 0 < n < k -> ~ looks_whole k (seq n (k - n)).
Proof.
  intros H L. destruct (k - n) as [|j] eqn:E; [lia|]. cbn [seq] in L. destruct L as [[_ L]|(mid & _ & L & _)]; injection L; lia.
Qed.

Lemma in_first {A} (x : A) n l : In x (firstn n l) -> In x l.
Proof. revert l. induction n as [|n IH]; intros [|y l] H; cbn in *; try easy. destruct H; auto. Qed.
Lemma in_skip {A} (x : A) n l : In x (skipn n l) -> In x l.
Proof. revert l. induction n as [|n IH]; intros [|y l] H; cbn in *; try easy. auto. Qed.

Lemma sysex_cut fm b k n : sound (sysex_family fm) k b -> List.length b = packet_words fm * k -> 0 < n < k ->
  sx_try_from (fmt_of fm) b = Ok b ->
  let a := List.concat (map (fun i => chunk (packet_words fm) i b) (seq n (k - n))) in
  sx_try_from (fmt_of fm) a <> Ok a.
Proof.
  intros [L S0] Lb Hn A a A'. set (qs := map (fun i => chunk (packet_words fm) i b) (seq 0 k)).
  assert (Ew : family_words (sysex_family fm) = packet_words fm) by now destruct fm. rewrite Ew in *.
  assert (Wp : 0 < packet_words fm) by (destruct fm; cbn; lia).
  assert (Eb : List.concat qs = b) by (unfold qs; rewrite concat_chunks by lia; now rewrite <- Lb, firstn_all).
  assert (Lq : Forall (fun q => List.length q = packet_words fm) qs).
  { apply Forall_map, Forall_forall. intros i Hi. apply in_seq in Hi. apply chunk_length. rewrite Lb. apply Nat.mul_le_mono_l. lia. }
  assert (Tq : Forall (fun q => type_of fm q 0 = type_code fm) qs).
  { apply Forall_map, Forall_forall. intros i Hi. apply in_seq in Hi. destruct (S0 i ltac:(lia)) as [T _]. apply family_code. rewrite type_bits. unfold type_field.
    rewrite chunk_bits by exact Wp. exact T. }
  assert (Ea : List.concat (skipn n qs) = a) by (unfold a, qs; rewrite skip_map, skip_seq by lia; reflexivity).
  destruct (parts_accepted fm qs Lq Tq) as [P _]. cbv zeta in P. rewrite Eb in P.
  destruct (parts_accepted fm (skipn n qs)) as [P' _]; [now apply skip_some|now apply skip_some|]. cbv zeta in P'. rewrite Ea in P'.
  apply P in A as [Wm _]. apply P' in A' as [Wm' _]. rewrite <- skip_map in Wm'. revert Wm'. apply tail_unmarked; [exact Wm|].
  unfold qs. rewrite !map_length, seq_length. exact Hn.
Qed.

Lemma cut_error c b q n : sendable (c, b) -> wf_buf U32 b -> all_packets (c, b) = Val q -> 0 < n < List.length q ->
  exists e, ump_try_from (List.concat (map packet_data (skipn n q))) = Val (Err e).
Proof.
  intros (T & M & N0 & [A D]) W P Hn. cbn [fst snd] in *. apply in_flat_map in T as (f & _ & T).
  destruct (accepted_sound f c b b T N0 A D) as (k & Hk & S0 & Eb & Mn).
  assert (Lb : List.length b = family_words f * k).
  { apply (f_equal (@List.length N)) in Eb. rewrite firstn_length in Eb. destruct S0 as [L _]. lia. }
  pose proof D as D'. rewrite Eb in D' at 2. destruct (sound_packets f k c b S0 Mn D') as (q' & P' & Eq & _). clear D'.
  rewrite P in P'. injection P' as <-. subst q. rewrite map_length, seq_length in Hn.
  assert (Wp : 0 < family_words f) by (destruct f; cbn; lia).
  rewrite skip_map, map_map, skip_seq by lia. cbn [packet_data snd].
  set (a := List.concat _).
  assert (Ea : a = arriving (family_words f) (map (pair b) (seq n (k - n)))) by (unfold a; rewrite arriving_concat, map_map; reflexivity).
  destruct (ump_total a) as ([[c' m']|e] & R); [| |eauto].
  { unfold a. apply Forall_concat, Forall_map, Forall_forall. intros i Hi. unfold chunk. apply Forall_forall. intros x Hx. unfold wf_buf in W. rewrite Forall_forall in W. apply W.
    clear - Hx. apply in_skip with (n := family_words f * i). now apply in_first with (n := family_words f). }
  exfalso. apply ump_iff in R as (T' & M' & R' & A' & ->). apply in_flat_map in T' as (f' & _ & T').
  assert (Fn : Forall (fun p => p < k) (seq n (k - n))) by (apply Forall_forall; intros i Hi; apply in_seq in Hi; lia).
  assert (H0 : forall lo m, bits a (Seg 0 lo m) = bits b (Seg (family_words f * n) lo m)).
  { intros lo m. unfold a. destruct (k - n) as [|j] eqn:Ej; [lia|]. cbn [seq map List.concat]. rewrite <- (chunk_bits (family_words f) n b) by exact Wp.
    unfold bits. cbn [sg_w sg_lo sg_n]. rewrite app_nth1; [reflexivity|]. rewrite chunk_length; [exact Wp|]. rewrite Lb. apply Nat.mul_le_mono_l. lia. }
  assert (Ff : f' = f).
  { pose proof (accepted_family f' c' a T' A') as X. rewrite H0 in X. destruct S0 as [_ S0]. destruct (S0 n ltac:(lia)) as [Y _]. congruence. }
  subst f'. destruct (accepted_key f c' a T' A') as (Na & _ & K'). destruct (accepted_key f c b T A) as (Nb & _ & K).
  assert (La : List.length a = family_words f * (k - n)).
  { unfold a. rewrite (concat_len (family_words f)); [now rewrite map_length, seq_length|]. apply Forall_map, Forall_forall. intros i Hi. apply in_seq in Hi.
    apply chunk_length. rewrite Lb. apply Nat.mul_le_mono_l. lia. }
  assert (L4 : family_words f <= List.length a). { rewrite La, <- (Nat.mul_1_r (family_words f)) at 1. apply Nat.mul_le_mono_l. lia. }
  destruct c as [m| | |Kt|Kt].
  - (* one packet *)
    cbn [concrete_data concrete_min] in *. unfold data, size in D. apply prefix_ok in D as [_ D]. rewrite Mn in D.
    apply (f_equal (@List.length N)) in D. rewrite firstn_length in D. assert (family_words f * 2 <= family_words f * k) by (apply Nat.mul_le_mono_l; lia). lia.
  - assert (f = Sysex7) by (eapply types_nodup; [exact T|]; cbn; tauto). subst f.
    assert (c' = CSysex7). { cbn in T'. now destruct T' as [<-|[]]. } subst c'. unfold accepted in A, A'. cbn [concrete_try_from] in A, A'.
    refine (sysex_cut SevenBit b k n S0 Lb Hn _ _); cbn [fmt_of packet_words]; [congruence|]. change (sx_try_from fmt7 a = Ok a). congruence.
  - assert (f = Sysex8) by (eapply types_nodup; [exact T|]; cbn; tauto). subst f.
    assert (c' = CSysex8). { cbn in T'. now destruct T' as [<-|[]]. } subst c'. unfold accepted in A, A'. cbn [concrete_try_from] in A, A'.
    refine (sysex_cut EightBit b k n S0 Lb Hn _ _); cbn [fmt_of packet_words]; [congruence|]. change (sx_try_from fmt8 a = Ok a). congruence.
  - assert (f = FlexData) by now apply (flex_text_family f Kt). subst f. cbn [family_words] in *.
    assert (HK : In Kt flex_texts). { cbn [types_of] in T. apply in_app_iff in T as [T|T]; apply in_map_iff in T as (x & E & Hx); congruence. }
    unfold accepted in A. cbn [concrete_try_from] in A. cbn [concrete_data] in D.
    assert (Ec : c' = CFlexText Kt).
    { assert (E : right_select FlexData (hd0 a) = right_select FlexData (hd0 b)).
      { cbn [right_select]. f_equal. destruct (proj1 (flex_try_from_ok Kt b b) A) as (_ & _ & _ & BS & _).
        assert (Ek : List.length b / 4 = k) by (rewrite Lb, Nat.mul_comm, Nat.div_mul; lia). rewrite Ek in BS.
        destruct (BS n ltac:(lia)) as [B1 B2]. destruct (BS 0 ltac:(lia)) as [B3 B4]. rewrite Nat.mul_0_r in B3, B4.
        rewrite !word_octets, !hd0_nth, !octet32_bits. 
        change (24 - 2 * 8)%N with 8%N. change (24 - 3 * 8)%N with 0%N. rewrite !H0, B1, B2, B3, B4. reflexivity. }
      rewrite K', K in E; [congruence|intros _; lia|intros _; lia]. }
    subst c'. unfold accepted in A'. cbn [concrete_try_from] in A'. rewrite Ea in A'. apply (flex_arrived Kt b _ HK A D) in A' as [X _].
    + replace (List.length b / 4) with k in X by (rewrite Lb, Nat.mul_comm, Nat.div_mul; lia). revert X. apply not_first. lia.
    + replace (List.length b / 4) with k by (rewrite Lb, Nat.mul_comm, Nat.div_mul; lia). exact Fn.
  - assert (f = UmpStream) by now apply (stream_text_kind f Kt). subst f. cbn [family_words] in *.
    assert (HK : In Kt stream_texts) by now apply (stream_text_family UmpStream). assert (Ho : sk_off Kt <= 1) by now apply stream_text_arm.
    unfold accepted in A. cbn [concrete_try_from] in A. cbn [concrete_data] in D.
    assert (Ek : List.length b / 4 = k) by (rewrite Lb, Nat.mul_comm, Nat.div_mul; lia).
    assert (Ec : c' = CStreamText Kt).
    { assert (E : right_select UmpStream (hd0 a) = right_select UmpStream (hd0 b)).
      { cbn [right_select]. f_equal. destruct (proj1 (stream_try_from_ok Kt b b Ho) A) as (_ & _ & _ & BS & _). rewrite Ek in BS.
        pose proof (BS n ltac:(lia)) as B1. pose proof (BS 0 ltac:(lia)) as B2. rewrite Nat.mul_0_r in B2.
        rewrite !hd0_nth, !stream_status_bits, H0, B1, B2. reflexivity. }
      rewrite K', K in E; [congruence|intros _; lia|intros _; lia]. }
    subst c'. unfold accepted in A'. cbn [concrete_try_from] in A'. rewrite Ea in A'. apply (stream_arrived Kt b _ HK A D) in A' as [X _].
    + rewrite Ek in X. revert X. apply not_first. lia.
    + rewrite Ek. exact Fn.
Qed.

Lemma heard_shape ms pss : Forall2 (fun m q => all_packets m = Val q) ms pss -> Forall sendable ms -> Forall (fun m => wf_buf U32 (snd m)) ms ->
  forall n, (inside packet_count n ms -> exists e, heard n (combine ms pss) = Err e :: map Ok (from_position packet_count n ms))
    /\ (~ inside packet_count n ms -> heard n (combine ms pss) = map Ok (from_position packet_count n ms)).
Proof.
  induction 1 as [|m q ms pss P F IH]; intros S0 W n; [split; [easy|reflexivity]|].
  inversion S0 as [|? ? Sm S1]; subst. inversion W as [|? ? Wm W1]; subst. cbn [combine heard from_position inside map fst].
  assert (Ls : List.length ms = List.length pss) by now apply both_length in F.
  assert (Ep : packet_count m = List.length q) by (unfold packet_count; now rewrite P). rewrite Ep. rewrite split_combine by exact Ls.
  destruct (Nat.eqb_spec n 0) as [->|Hn].
  { split; [|reflexivity]. intros [X|[X _]]; [lia|]. exfalso. destruct m as [c b]. destruct Sm as (T & _ & N0 & Wh). cbn [fst] in *. apply in_flat_map in T as (f & _ & T).
    destruct (sent_packets f c b T N0 Wh) as (k & Hk & P' & _). rewrite P in P'. injection P' as ->. rewrite map_length, seq_length in X. lia. }
  destruct (Nat.ltb_spec n (List.length q)) as [L|L].
  - split; [intros _|intros X; exfalso; apply X; lia]. destruct m as [c b]. destruct (cut_error c b q n Sm Wm P ltac:(lia)) as (e & E). rewrite E. exists e.
    replace (n - List.length q) with 0 by lia. now destruct ms.
  - specialize (IH S1 W1 (n - List.length q)). destruct IH as [I1 I2]. split; [intros [X|[_ X]]; [lia|auto]|]. intros X. apply I2. tauto.
Qed.

Lemma filter_tail {A} (g : A -> bool) l l' : filter g l' = skipn (List.length (filter g l)) (filter g (l ++ l')).
Proof. rewrite filter_app, skipn_app, Nat.sub_diag, skip_all by lia. reflexivity. Qed.

(** Joined at any packet, whatever the messages, the keys and the order in which packets of different keys arrive. *)
Theorem C68_receiver : forall key filed sent early late,
  (forall p, In p late -> key p = Val (filed p)) ->
  (forall k, Forall sendable (sent k) /\ Forall (fun m => wf_buf U32 (snd m)) (sent k)) ->
  (forall k, packets_of (sent k) (filter (fun p => filed p =? k)%N (early ++ late))) ->
  exists st out, receive_all key [] late = Val (st, out)
    /\ (forall k, so_far st k = [])
    /\ forall k, let n := List.length (filter (fun p => filed p =? k)%N early) in
         let later := map Ok (from_position packet_count n (sent k)) in
         (inside packet_count n (sent k) -> exists e, results k out = Err e :: later)
         /\ (~ inside packet_count n (sent k) -> results k out = later).
Proof.
  intros key filed sent early late K Sd P. set (n := fun k => List.length (filter (fun p => filed p =? k)%N early)).
  set (own := fun m => match all_packets m with Val q => q | Panic => [] end).
  set (rs := fun k => heard (n k) (combine (sent k) (map own (sent k)))).
  assert (O : forall k, Forall2 (fun m q => all_packets m = Val q) (sent k) (map own (sent k)) /\ List.concat (map own (sent k)) = filter (fun p => filed p =? k)%N (early ++ late)).
  { intros k. destruct (P k) as (pss & F & ->). assert (E : map own (sent k) = pss).
    { clear - F. induction F as [|m q ms pss H F IH]; [reflexivity|]. cbn [map]. f_equal; [|exact IH]. unfold own. now rewrite H. }
    rewrite E. auto. }
  destruct (receive_any key filed late K [] rs) as (st & out & R & S1 & S2).
  { intros k. destruct (O k) as [F E]. destruct (Sd k) as [S0 W]. rewrite (filter_tail _ early late), <- E. now apply heard_owed. }
  exists st, out. split; [exact R|]. split; [intros k; rewrite S2; now destruct (rs k)|].
  intros k. cbv zeta. rewrite S1. destruct (O k) as [F _]. destruct (Sd k) as [S0 W]. now apply heard_shape.
Qed.
Print Assumptions C68_receiver.

Lemma shifted {A B} (g : A -> B) size size' ms : Forall (fun m => size (g m) = size' m) ms -> forall n,
  from_position size n (map g ms) = map g (from_position size' n ms) /\ (inside size n (map g ms) <-> inside size' n ms).
Proof.
  induction 1 as [|m ms E F IH]; intros n; [split; reflexivity|]. cbn [map from_position inside]. rewrite E. destruct (IH (n - size' m)) as [I1 I2]. split.
  - destruct (n =? 0); [reflexivity|exact I1].
  - now rewrite I2.
Qed.

Lemma count_words fm g s l b : message fm g (match fm with SevenBit => None | EightBit => Some s end) l b -> packet_count (sysex_of fm, b) = List.length b / packet_words fm.
Proof.
  intros Ms. pose proof Ms as (k & C & _ & L). destruct (message_whole _ _ _ _ _ Ms) as [W _].
  destruct (sent_packets (sysex_family fm) (sysex_of fm) b) as (n & Hn & P & Cc & _); [destruct fm; cbn; tauto|destruct fm; discriminate|exact W|].
  unfold packet_count. rewrite P, map_length, seq_length.
  assert (Ew : family_words (sysex_family fm) = packet_words fm) by now destruct fm. rewrite Ew in *. assert (Wp : 0 < packet_words fm) by (destruct fm; cbn; lia).
  assert (X : List.length b = packet_words fm * n).
  { destruct (accepted_sound (sysex_family fm) (sysex_of fm) b b) as (n' & _ & S0 & Eb & Mn); [destruct fm; cbn; tauto|destruct fm; discriminate|apply W|apply W|].
    assert (D := proj2 W). cbn [fst snd] in D. rewrite Eb in D at 2.
    destruct (sound_packets _ n' _ b S0 Mn D) as (q' & P' & Eq & _). rewrite P in P'. assert (E : map (fun i => (variant (sysex_family fm), chunk (packet_words fm) i b)) (seq 0 n) = q') by congruence. rewrite Eq in E.
    apply (f_equal (@List.length packet)) in E. rewrite !map_length, !seq_length in E. subst n'. destruct S0 as [Ln _]. rewrite Ew in Ln, Eb.
    apply (f_equal (@List.length N)) in Eb. rewrite firstn_length in Eb. clear - Eb Ln. lia. }
  rewrite X, Nat.mul_comm, Nat.div_mul by lia. reflexivity.
Qed.

(** Joined at any packet of the system exclusive messages of any number of senders. *)
Theorem C68_sysex : forall ss pss early late, Forall proper ss -> NoDup (map identity ss) ->
  Forall (fun s => Forall (fun m => wf_buf U32 (snd m)) (s_sent s)) ss ->
  Forall2 (fun s q => packets_of (map (fun m => (sysex_of (s_form s), snd m)) (s_sent s)) q) ss pss ->
  interleaved pss (early ++ late) ->
  exists st out, receive_all standard_key [] late = Val (st, out)
    /\ (forall k, so_far st k = [])
    /\ forall s, In s ss ->
         let size := fun m : list N * list N => List.length (snd m) / packet_words (s_form s) in
         let n := List.length (filed_under standard_key (number s) early) in
         let later := map (fun m => Ok (sysex_of (s_form s), snd m)) (from_position size n (s_sent s)) in
         (inside size n (s_sent s) -> exists e, results (number s) out = Err e :: later)
         /\ (~ inside size n (s_sent s) -> results (number s) out = later).
Proof.
  intros ss pss early late Pr Nd Wf F I. set (ps := early ++ late) in *.
  set (filed := fun p => match standard_key p with Val k => k | Panic => 0%N end).
  assert (Keys : forall q s x, In (s, q) (combine ss pss) -> In x q -> standard_key x = Val (number s)).
  { intros q s x H Hx. assert (A : proper s /\ packets_of (map (fun m => (sysex_of (s_form s), snd m)) (s_sent s)) q).
    { clear - Pr F H. induction F as [|s0 q0 ss pss P F IH]; [easy|]. inversion Pr; subst. destruct H as [E|H]; [injection E as <- <-; auto|auto]. }
    destruct A. eapply sender_keys; eauto. }
  assert (NdK : NoDup (map number ss)).
  { clear - Pr Nd. induction ss as [|s ss IH]; [constructor|]. inversion Pr as [|? ? Ps Pr']; subst. cbn [map] in *. inversion Nd as [|? ? N1 N2]; subst. constructor; [|auto].
    intros H. apply N1. apply in_map_iff in H as (s' & E & H). apply in_map_iff. exists s'. split; [|exact H].
    rewrite Forall_forall in Pr'. apply number_identity; auto. }
  assert (FK : Forall2 (fun k l => Forall (fun x => filed x = k) l) (map number ss) pss).
  { clear - F Keys. revert Keys. induction F as [|s q ss pss P F IH]; intros Keys; [constructor|]. cbn [map combine] in *. constructor.
    - apply Forall_forall. intros x Hx. unfold filed. now rewrite (Keys q s x (or_introl eq_refl) Hx).
    - apply IH. intros q' s' x H Hx. exact (Keys q' s' x (or_intror H) Hx). }
  destruct (filter_interleaved filed pss ps I _ FK NdK) as [F1 F2].
  set (sent := fun k => match find (fun s => number s =? k)%N ss with Some s => map (fun m => (sysex_of (s_form s), snd m)) (s_sent s) | None => [] end).
  assert (Fnd : forall s, In s ss -> find (fun s' => number s' =? number s)%N ss = Some s).
  { clear - NdK. induction ss as [|s0 ss IH]; [easy|]. cbn [map] in NdK. inversion NdK as [|? ? N1 N2]; subst. intros s [->|H]; cbn [find].
    - now rewrite N.eqb_refl.
    - destruct (N.eqb_spec (number s0) (number s)) as [E|_]; [|auto]. exfalso. apply N1. rewrite E. now apply in_map. }
  assert (Inp : forall p, In p ps -> standard_key p = Val (filed p)).
  { intros p Hp. destruct (in_interleaved _ _ _ I Hp) as (q & Hq & Hx). apply In_nth_error in Hq as (i & Hi).
    pose proof (both_length _ _ _ F) as L. pose proof (nth_error_Some_length _ _ _ Hi) as Li. rewrite <- L in Li.
    destruct (nth_error ss i) as [s|] eqn:Hs; [|apply nth_error_None in Hs; lia].
    unfold filed. rewrite (Keys q s p); [reflexivity| |exact Hx]. clear - Hi Hs. revert i pss Hi Hs. induction ss as [|s0 ss IH]; intros [|i] [|q0 pss] Hi Hs; try discriminate; cbn [combine nth_error] in *.
    + injection Hi as ->. injection Hs as ->. now left.
    + right. eauto. }
  destruct (C68_receiver standard_key filed sent early late) as (st & out & R & S1 & S2).
  - intros p Hp. apply Inp. apply in_app_iff. now right.
  - intros k. unfold sent. destruct (find _ ss) as [s|] eqn:E; [|split; constructor]. apply find_some in E as [Hs _].
    rewrite Forall_forall in Pr, Wf. destruct (Pr s Hs) as (_ & _ & Ms). specialize (Wf s Hs). split; apply Forall_forall; intros m Hm; apply in_map_iff in Hm as (m0 & <- & Hm).
    2:{ rewrite Forall_forall in Wf. exact (Wf m0 Hm). }
    rewrite Forall_forall in Ms. destruct (message_whole _ _ _ _ _ (Ms m0 Hm)) as [W _].
    split; [|split; [|split; [|exact W]]]; cbn [fst].
    + apply in_flat_map. exists (sysex_family (s_form s)). destruct (s_form s); cbn; tauto.
    + destruct (s_form s); cbn; intuition discriminate.
    + destruct (s_form s); discriminate.
  - intros k. fold ps. unfold sent. destruct (find _ ss) as [s|] eqn:E.
    + apply find_some in E as [Hs E]. apply N.eqb_eq in E. subst k. apply In_nth_error in Hs as (i & Hi).
      destruct (nth_error pss i) as [q|] eqn:Hq.
      2:{ apply nth_error_None in Hq. pose proof (both_length _ _ _ F). pose proof (nth_error_Some_length _ _ _ Hi). lia. }
      rewrite (F1 i (number s) q); [|now rewrite nth_error_map, Hi|exact Hq].
      clear - F Hi Hq. revert i Hi Hq. induction F as [|s0 q0 ss pss P F IH]; intros [|i] Hi Hq; try discriminate; cbn [nth_error] in *; [|eauto].
      injection Hi as ->. injection Hq as ->. exact P.
    + rewrite F2; [exists []; split; [constructor|reflexivity]|]. intros H. apply in_map_iff in H as (s & <- & Hs). rewrite (Fnd s Hs) in E. discriminate.
  - exists st, out. split; [exact R|]. split; [exact S1|]. intros s Hs size n later. specialize (S2 (number s)). cbv zeta in S2. unfold sent in S2. rewrite (Fnd s Hs) in S2.
    assert (En : List.length (filter (fun p => filed p =? number s)%N early) = n).
    { unfold n, filed_under. f_equal. apply filter_ext_in. intros p Hp. rewrite (Inp p); [reflexivity|]. apply in_app_iff. now left. }
    rewrite En in S2. clear En.
    assert (Sz : Forall (fun m => packet_count (sysex_of (s_form s), snd m) = size m) (s_sent s)).
    { rewrite Forall_forall in Pr. destruct (Pr s Hs) as (_ & _ & Ms). eapply Forall_impl; [|exact Ms]. cbv beta. intros m Mm. now apply count_words in Mm. }
    destruct (shifted (B := aggregate) (fun m => (sysex_of (s_form s), snd m)) packet_count size (s_sent s) Sz n) as [Ef Ei]. unfold aggregate in Ef, Ei, S2. rewrite Ef, map_map in S2.
    split; intros X; [apply S2; now apply Ei|apply S2; intros Y; now apply X, Ei].
Qed.
Print Assumptions C68_sysex.

(** ** What is not noticed *)

(** The end of a system exclusive message is lost: the messages behind it up to the next end are taken for its payload, and
    reading that payload panics. *)
Theorem C68_lost_end_refuted : exists m ms m',
  Forall (fun m => In (fst m) byte_types /\ whole U8 m /\ wf_buf U8 (snd m) /\ one_status (snd m)) (m :: ms) /\ 2 <= List.length ms
  /\ join_bytes (removelast (snd m) ++ stream_of_messages ms) = Val (Ok [m'])
  /\ whole U8 m' /\ payload_list_b (snd m') = Panic.
Proof.
  exists (CSysex7, [0xF0; 1; 0xF7]%N), [(CFixed cv1_note_on, [0x90; 0x3C; 0x40]%N); (CSysex7, [0xF0; 2; 0xF7]%N)], (CSysex7, [0xF0; 1; 0x90; 0x3C; 0x40; 0xF0; 2; 0xF7]%N).
  assert (T : forall c b, In c byte_types -> whole U8 (c, b) -> forallb (fun x => x <? 256)%N b = true -> one_status b ->
    In (fst (c, b)) byte_types /\ whole U8 (c, b) /\ wf_buf U8 (snd (c, b)) /\ one_status (snd (c, b))).
  { intros c b H1 H2 H3 H4. split; [exact H1|]. split; [exact H2|]. split; [|exact H4]. apply Forall_forall. rewrite forallb_forall in H3. intros x Hx. specialize (H3 x Hx). cbn. lia. }
  split; [repeat apply Forall_cons; try apply Forall_nil; apply T; try (split; vm_compute; reflexivity); try (vm_compute; reflexivity); try (vm_compute; tauto);
    cbn; repeat constructor; lia|].
  split; [cbn; lia|]. split; [vm_compute; reflexivity|]. split; [split; vm_compute; reflexivity|]. vm_compute. reflexivity.
Qed.
Print Assumptions C68_lost_end_refuted.

(** Universal MIDI packets joined at a word that begins no packet: the rest of a packet may look like another message. *)
Theorem C68_words_refuted : exists m m', sendable m /\ sendable m' /\ fst m <> fst m'
  /\ read_messages U32 (skipn 1 (snd m)) = Val (Ok [m']).
Proof.
  exists (CFixed cv2_note_on, [0x40903C00; 0x20903C40]%N), (CFixed cv1_note_on, [0x20903C40]%N).
  assert (T : forall m b, In (CFixed m) ump_types -> whole U32 (CFixed m, b) -> m_name m <> m_name stream_function_block_discovery -> sendable (CFixed m, b)).
  { intros m b H1 H2 H3. split; [exact H1|]. split; [cbn; intuition discriminate|]. split; [|exact H2]. cbn [fst]. intros E. apply H3. congruence. }
  split; [apply T; [vm_compute; tauto|split; vm_compute; reflexivity|discriminate]|].
  split; [apply T; [vm_compute; tauto|split; vm_compute; reflexivity|discriminate]|]. split; [discriminate|]. vm_compute. reflexivity.
Qed.
Print Assumptions C68_words_refuted.

Example C68_case_bytes : let ms := [(CSysex7, [0xF0; 1; 2; 0xF7]%N); (CFixed cv1_note_on, [0x90; 0x3C; 0x40]%N); (CFixed sys_timing_clock, [0xF8]%N)] in
  map (fun k => join_bytes (skipn k (stream_of_messages ms))) [0; 1; 3; 4; 6; 7; 8]
  = map (fun j => Val (Ok (skipn j ms))) [0; 1; 1; 1; 2; 2; 3].
Proof. vm_compute. reflexivity. Qed.

Example C68_case_packets : let a := [0x30160102; 0x03040506; 0x30310700; 0]%N in let b := [0x30020102; 0]%N in let t := [0x20903C40]%N in
  let late := [(PSysex7, [0x30310700; 0]%N); (PVoice1, t); (PSysex7, b)] in
  receive_all standard_key [] late = Val ([], [(1%N, Err "Expected Complete packet"%string); (0%N, Ok (CFixed cv1_note_on, t)); (1%N, Ok (CSysex7, b))])
  /\ inside (fun m => List.length m / 2) 1 [a; b] /\ from_position (fun m => List.length m / 2) 1 [a; b] = [b].
Proof. split; [vm_compute; reflexivity|]. split; [left; cbn; lia|reflexivity]. Qed.

(** The senders of C46_case, joined after four of their seven packets: one packet of each message is still to come. *)
Example C68_case_senders : let ss := [on_stream 7; on_group; on_stream 8] in
  Forall proper ss /\ NoDup (map identity ss) /\ Forall (fun s => Forall (fun m => wf_buf U32 (snd m)) (s_sent s)) ss
  /\ exists pss early late, Forall2 (fun s q => packets_of (map (fun m => (sysex_of (s_form s), snd m)) (s_sent s)) q) ss pss
       /\ interleaved pss (early ++ late) /\ List.length early = 4 /\ List.length late = 3
       /\ map (fun s => List.length (filed_under standard_key (number s) early)) ss = [1; 2; 1].
Proof.
  cbv zeta. destruct C46_case as (P & Nd & pss & ps & F & I & E). split; [exact P|]. split; [exact Nd|]. split.
  - repeat apply Forall_cons; try apply Forall_nil; repeat apply Forall_cons; try apply Forall_nil; repeat constructor.
  - clear E F I pss ps. eexists [[_; _]; [_; _; _]; [_; _]], [_; _; _; _], [_; _; _]. split; [|split; [|split; [reflexivity|split; [reflexivity|]]]].
    + repeat apply Forall2_cons; try apply Forall2_nil; (eexists; split; [repeat apply Forall2_cons; try apply Forall2_nil; vm_compute; reflexivity|reflexivity]).
    + cbn [app]. next_from 1. next_from 2. next_from 0. next_from 1. next_from 0. next_from 1. next_from 2. apply all_sent. repeat constructor.
    + vm_compute. reflexivity.
Qed.
