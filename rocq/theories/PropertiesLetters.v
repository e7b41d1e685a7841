(** C62: what is written at one end of a connection is read at the other.  The client programs
    are in Letters.v, the vocabulary in SpecLetters.v. *)
From Coq Require Import NArith List String Bool Arith Lia ZifyBool ZifyNat ZifyN.
From Verif Require Import Base BitOps BitLemmas ListLemmas Values Helpers Props PropLemmas Message MessageTable SpecLayout SpecFixed
  MessageLemmas FixedLemmas FixedProofs PropertiesFixed Sysex Splice SpecSysex SpecEdits SysexClient SysexBridge SysexMore SysexInit SysexHistory
  PropertiesSysex Text SpecText TextClient TextUtf8 TextLemmas PropertiesText Aggregate SpecAggregate AggregateLemmas AggregateMore PropertiesAggregate
  Packet SpecPacket PacketLemmas PacketMore PacketRead PropertiesPacket StreamClient SpecStream StreamLemmas PropertiesStream
  Receiver SpecReceiver ReceiverLemmas PropertiesReceiver SpecCopies PropertiesGateway Letters SpecLetters.
Import ListNotations.
Local Open Scope nat_scope.

(** ** One message *)

Lemma fixed_ump m : In m all_messages -> In (CFixed m) ump_types.
Proof.
  intros H. unfold ump_types, families, all_messages in *. cbn [flat_map types_of]. rewrite !app_nil_r, !in_app_iff in *.
  repeat match goal with H : _ \/ _ |- _ => destruct H as [H|H] end; auto 20 using in_map.
Qed.

Lemma kept_all t : t = [] \/ List.length t mod 12 <> 0 -> PropertiesText.kept t = t.
Proof.
  intros H. unfold PropertiesText.kept, fills. destruct (Nat.eqb_spec (List.length t) 0); [reflexivity|]. cbn [negb andb].
  destruct (Nat.eqb_spec (List.length t mod 12) 0); [|reflexivity]. destruct H; [subst; cbn in *; lia|lia].
Qed.

(** The message is one that can be sent, and it answers as it was written. *)
Theorem C62_written : forall l, proper_letter l -> exists a, written l = Val a /\ sendable a /\ as_written l a.
Proof.
  intros [m h|fm es|K h|K h] P; cbn [proper_letter written as_written] in *.
  - destruct P as (Hm & Hn & Hl). destruct (C05_new U32 m Hm eq_refl Hn) as (z & Ez & Lz & Az & Dz & Gz & _).
    assert (Hh : SpecFixed.holds U32 m z).
    { destruct (FixedLemmas.new_fresh U32 m Hm eq_refl Hn) as (z' & Ez' & Fz). assert (z' = z) by congruence. subst z'. apply accepts_holds32; auto. apply Fz. }
    destruct (C09_histories U32 m z h Hm eq_refl Hh Hl) as (b & Eb & Lb & Ab & _ & Gb).
    exists (CFixed m, b). rewrite Ez. cbn [bind]. rewrite Eb. cbn [bind fst snd]. split; [reflexivity|]. split.
    + split; [now apply fixed_ump|]. cbn [fst snd]. split; [cbn; intuition discriminate|].
      split; [intros X; injection X as ->; now apply Hn|]. split; cbn [fst snd].
      * exact (Ab Az).
      * cbn [concrete_data]. rewrite data_ok by lia. f_equal. rewrite <- Lz, <- Lb. apply firstn_all.
    + split; [reflexivity|]. intros f w Hf. rewrite (Gb f w Hf). destruct (last_set f h); [reflexivity|]. now apply Gz.
  - destruct (C34_histories fm es P) as (b0 & b & E0 & E & A & D & L & Z & G & M & _). rewrite E0. cbn [bind]. rewrite E. cbn [bind].
    eexists. split; [reflexivity|]. split; [|cbn [fst snd]; auto].
    split; [destruct fm; cbn; tauto|]. cbn [fst snd]. split; [destruct fm; cbn; intuition discriminate|].
    split; [destruct fm; discriminate|]. split; cbn [fst snd]; destruct fm; cbn [fmt_for] in *; unfold accepted; cbn [concrete_try_from concrete_data]; congruence.
  - destruct P as (HK & Hr & Hh & Hs & Hz & Hf). destruct (C42_flex_histories K h HK Hh) as (b & E & G & C & T & D & _ & A).
    fold (flex_written h) in *. rewrite (kept_all _ Hf) in *. rewrite (without_nul_id _ Hz) in *. specialize (A Hs).
    exists (CFlexText K, b). split.
    { destruct (flex_new K) as [x|]; [|discriminate E]. cbn [bind] in *. now rewrite E. }
    split.
    + split; [apply in_flat_map; exists FlexData; split; [cbn; tauto|apply in_app_iff; right; now apply (in_map CFlexText)]|].
      cbn [fst snd]. split; [exact Hr|]. split; [discriminate|]. split; [exact A|exact D].
    + cbn [fst snd]. split; [reflexivity|]. split; [|auto]. unfold flex_text, text_string. unfold flex_text_bytes in T. rewrite T. cbn [bind].
      apply utf8_spec in Hs. now rewrite Hs.
  - destruct P as (HK & Hh & Hs & Hz & Hb). destruct (C42_stream_histories K h HK Hh) as (b & E & T & B & D & _ & A).
    fold (stream_written K h) in *. rewrite (without_nul_id _ Hz) in *. specialize (A Hs Hb).
    exists (CStreamText K, b). split.
    { destruct (stream_new K) as [x|]; [|discriminate E]. cbn [bind] in *. now rewrite E. }
    split.
    + split; [apply in_flat_map; exists UmpStream; split; [cbn; tauto|apply in_app_iff; right; now apply (in_map CStreamText)]|].
      cbn [fst snd]. split; [cbn; intuition discriminate|]. split; [discriminate|]. split; [exact A|exact D].
    + cbn [fst snd]. split; [reflexivity|]. split; [|auto]. unfold stream_text, text_string. unfold stream_text_bytes in T. rewrite T. cbn [bind].
      apply utf8_spec in Hs. now rewrite Hs.
Qed.
Print Assumptions C62_written.

(** ** Many messages *)

Lemma sent_all ls : Forall proper_letter ls -> exists ms ps,
  Forall2 (fun l a => written l = Val a /\ as_written l a) ls ms /\ Forall sendable ms
  /\ sent ls = Val ps /\ packets_of ms ps /\ Forall sound_packet ps.
Proof.
  induction 1 as [|l ls P _ (ms & ps & F & S0 & E & (pss & F2 & ->) & K)].
  - exists [], []. repeat split; try constructor. exists []. split; [constructor|reflexivity].
  - destruct (C62_written l P) as ([c b] & Ea & Sa & Wa). pose proof Sa as (T & M & N0 & W). cbn [fst snd] in *.
    apply in_flat_map in T as (f & _ & Tf). destruct (sent_packets f c b Tf N0 W) as (n & _ & Pq & _).
    destruct (packets_sound f c b _ Tf N0 W Pq) as [Sq _].
    eexists ((c, b) :: ms), _. split; [constructor; auto|]. split; [constructor; auto|].
    split; [cbn [sent]; rewrite Ea; cbn [bind]; rewrite Pq; cbn [bind]; rewrite E; reflexivity|].
    split; [|apply Forall_app; auto]. eexists (_ :: pss). split; [constructor; [exact Pq|exact F2]|reflexivity].
Qed.

(** The receiver alone. *)
Lemma received_all ms ps : Forall sendable ms -> packets_of ms ps -> Forall sound_packet ps ->
  received (wire_words ps) = Val (Ok (map Ok ms)).
Proof.
  intros S0 P K. unfold received. change (wire_words ps) with (stream_of_packets ps).
  rewrite (C44_packets ps K). cbn [try_bind bind].
  destruct (C46_receiver (fun _ => Val 0%N) (fun _ => 0%N) (fun k => if (k =? 0)%N then ms else []) ps) as (st & out & -> & _ & O).
  + reflexivity.
  + intros k. destruct (k =? 0)%N; [exact S0|constructor].
  + intros k. destruct (N.eqb_spec k 0) as [->|Hk].
    * rewrite filter_all; [exact P|apply Forall_forall; reflexivity].
    * rewrite filter_none; [exists []; split; [constructor|reflexivity]|]. apply Forall_forall. intros x _. apply N.eqb_neq. congruence.
  + cbn [bind snd]. pose proof (O 0%N) as O0. cbn [N.eqb] in O0. do 2 f_equal. rewrite <- O0. f_equal. symmetry. apply filter_all.
    apply Forall_forall. intros [k r] Hk. cbn [fst]. destruct (N.eqb_spec k 0) as [|X]; [reflexivity|]. exfalso.
    specialize (O k). replace (k =? 0)%N with false in O by lia. apply map_eq_nil in O.
    assert (I0 : In (k, r) (filter (fun e => (fst e =? k)%N) out)) by (apply filter_In; split; [exact Hk|apply N.eqb_refl]).
    rewrite O in I0. exact I0.
Qed.

(** The words of all packets, one message after the other: the other end gets every message, in order. *)
Theorem C62_correspondence : forall ls, Forall proper_letter ls ->
  exists ms, correspondence ls = Val (Ok (map Ok ms)) /\ Forall2 as_written ls ms.
Proof.
  intros ls H. destruct (sent_all ls H) as (ms & ps & F & S0 & E & P & K). exists ms. split.
  - unfold correspondence. rewrite E. cbn [bind]. now apply received_all.
  - clear - F. induction F as [|? ? ? ? [_ ?]]; constructor; auto.
Qed.
Print Assumptions C62_correspondence.

(** Several senders at once, whose packets the receiver can tell apart ([filed]) but which arrive in any order:
    each sender's messages arrive as written, in the sender's order, and nothing is left over. *)
Theorem C62_interleaved : forall key filed letters ps,
  (forall p, In p ps -> key p = Val (filed p)) ->
  (forall k, Forall proper_letter (letters k)) ->
  (forall k, sent (letters k) = Val (filter (fun p => filed p =? k)%N ps)) ->
  exists st out, receive_all key [] ps = Val (st, out)
    /\ (forall k, so_far st k = [])
    /\ (forall k, exists ms, map snd (filter (fun e => fst e =? k)%N out) = map Ok ms /\ Forall2 as_written (letters k) ms).
Proof.
  intros key filed letters ps K H S0.
  assert (X : forall k, exists ms, forall m, m = ms -> Forall2 as_written (letters k) m /\ Forall sendable m
    /\ packets_of m (filter (fun p => filed p =? k)%N ps)
    /\ map (fun l => match written l with Val a => a | Panic => (CSysex7, []) end) (letters k) = m).
  { intros k. destruct (sent_all _ (H k)) as (ms & q & F & Sm & E & P & _). exists ms. intros m ->. rewrite (S0 k) in E. injection E as ->.
    split; [clear - F; induction F as [|? ? ? ? [_ ?]]; constructor; auto|]. split; [exact Sm|]. split; [exact P|].
    clear - F. induction F as [|l a ls ms [E _] F IH]; [reflexivity|]. cbn [map]. now rewrite E, IH. }
  set (ms := fun k => map (fun l => match written l with Val a => a | Panic => (CSysex7, []) end) (letters k)).
  assert (Y : forall k, Forall2 as_written (letters k) (ms k) /\ Forall sendable (ms k) /\ packets_of (ms k) (filter (fun p => filed p =? k)%N ps)).
  { intros k. destruct (X k) as (m & Z). destruct (Z m eq_refl) as (A & B & C & D). unfold ms. rewrite D. auto. }
  destruct (C46_receiver key filed ms ps K (fun k => proj1 (proj2 (Y k))) (fun k => proj2 (proj2 (Y k)))) as (st & out & E & St & O).
  exists st, out. split; [exact E|]. split; [exact St|]. intros k. exists (ms k). split; [apply O|apply Y].
Qed.
Print Assumptions C62_interleaved.

(** A note, a composer's name in two packets, a dump of twenty bytes in four packets after an edit, and the name of an
    endpoint. *)
Example C62_case :
  let name := map N.of_nat (seq 65 20) in
  let ls := [Fields cv2_note_on [("note_number", VNum 60); ("velocity", VNum 0x8000); ("group", VNum 3); ("velocity", VNum 0x1234)]%string%N;
             FlexText {| fk_name := "ComposerName"; fk_bank := 1; fk_status := 5 |} [FText name; FChannel (Some 5%N)];
             Exclusive SevenBit [SetPayload (exactly (up 21)); SplicePayload (exactly []) (Included 3) (Excluded 4); SetGroup 7];
             StreamText {| sk_name := "EndpointName"; sk_status := 3; sk_off := 0 |} [SName name]] in
  Forall proper_letter ls
  /\ exists a b c d, correspondence ls = Val (Ok [Ok a; Ok b; Ok c; Ok d])
     /\ get U32 cv2_note_on (snd a) "velocity" = Val (VNum 0x1234)
     /\ flex_text (snd b) = Val name /\ payload_list fmt7 (snd c) = Val ([1; 2; 3] ++ skipn 4 (up 21))%N
     /\ List.length (snd d) = 8.
Proof.
  cbv zeta. split.
  - constructor; [|constructor; [|constructor; [|constructor; [|constructor]]]].
    + split; [unfold all_messages; rewrite !in_app_iff; cbn; auto 20|]. split; [discriminate|].
      repeat constructor; cbn [fst snd]; try (eexists; split; [cbn; auto 20|reflexivity]); eexists; repeat split; reflexivity.
    + split; [cbn; auto 20|]. split; [cbn; intuition discriminate|].
      split; [repeat constructor; intros c X; injection X as <-; reflexivity|].
      cbv zeta. split; [apply utf8_spec; reflexivity|]. split; [repeat constructor; discriminate|]. right. discriminate.
    + cbn. repeat split; try lia; repeat constructor.
    + split; [cbn; auto|]. split; [repeat constructor|].
      cbv zeta. split; [apply utf8_spec; reflexivity|]. split; [repeat constructor; discriminate|]. intros X. discriminate X.
  - do 4 eexists. split; [vm_compute; reflexivity|]. repeat split; vm_compute; reflexivity.
Qed.

(** Two dumps of two packets each, on groups 0 and 1, whose packets arrive alternately. *)
Example C62_interleaved_case :
  let dump g n := Exclusive SevenBit [SetGroup g; SetPayload (exactly (up n))] in
  let letters k := if (k =? 1)%N then [dump 0%N 8; dump 0%N 2] else if (k =? 2)%N then [dump 1%N 9] else [] in
  exists p1 p2 p3 q1 q2 filed,
    let ps := [p1; q1; p2; q2; p3] in
    (forall p, In p ps -> standard_key p = Val (filed p)) /\ (forall k, Forall proper_letter (letters k))
    /\ (forall k, sent (letters k) = Val (filter (fun p => filed p =? k)%N ps))
    /\ sent (letters 1%N) = Val [p1; p2; p3] /\ sent (letters 2%N) = Val [q1; q2].
Proof.
  cbv zeta. do 5 eexists. exists (fun p => match standard_key p with Val k => k | Panic => 0%N end).
  match goal with |- ?a /\ ?b /\ ?c /\ ?d /\ ?e => cut (d /\ e); [intros [D E]|split; vm_compute; reflexivity] end.
  split; [|split; [|split; [|split; [exact D|exact E]]]].
  - intros p H. repeat (destruct H as [<-|H]; [vm_compute; reflexivity|]). destruct H.
  - intros k. destruct (k =? 1)%N; [|destruct (k =? 2)%N]; repeat constructor; cbn; repeat split; try lia; repeat constructor.
  - intros k. destruct (N.eqb_spec k 1) as [->|H1]; [vm_compute; reflexivity|]. destruct (N.eqb_spec k 2) as [->|H2]; [vm_compute; reflexivity|].
    rewrite filter_none; [reflexivity|]. repeat apply Forall_cons; try apply Forall_nil; apply N.eqb_neq, not_eq_sym; [exact H1|exact H2|exact H1|exact H2|exact H1].
Qed.
