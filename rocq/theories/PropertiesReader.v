(** PROPERTY C51: a message that was accepted can be read.  See properties.jsonl;
    vocabulary in Reader.v and SpecReader.v. *)
From Coq Require Import NArith ZArith List String Bool Arith Lia Zify ZifyBool ZifyNat ZifyN.
From Verif Require Import Base BitOps BitLemmas ListLemmas Values Helpers Props Message MessageTable SpecLayout SpecFixed
  PropLemmas PropWrite FixedLemmas Sysex SpecSysex ByteView SysexLayout SysexRead SysexBridge SysexClient PropertiesSysex
  Text SpecText TextLemmas PropertiesText PropertiesFixed
  Aggregate SpecAggregate AggregateLemmas AggregateMore PropertiesAggregate
  Packet SpecPacket PacketLemmas PacketMore PacketRead PropertiesPacket Reader SpecReader.
Import ListNotations.
Local Open Scope string_scope.
Local Open Scope list_scope.
Local Open Scope nat_scope.

Lemma say_val {A} (k : A -> answer) x : (exists a, x = Val a) -> exists r, say k x = Val r.
Proof. intros (a & ->). unfold say. cbn [bind]. eauto. Qed.

Lemma ump_type_family c : In c ump_types -> exists f, In c (types_of f).
Proof. unfold ump_types. rewrite in_flat_map. intros (f & _ & H). eauto. Qed.

Lemma ump_fixed m f : In (CFixed m) (types_of f) -> In m all_messages.
Proof.
  destruct f; cbn [types_of]; rewrite ?in_app_iff; intros H;
    repeat match goal with
    | H : In _ (map CFixed _) |- _ => apply in_fixed in H as (? & E & H); injection E as <-; unfold all_messages; rewrite !in_app_iff; tauto
    | H : In _ (map CFlexText _) |- _ => apply in_map_iff in H as (? & ? & _); discriminate
    | H : In _ (map CStreamText _) |- _ => apply in_map_iff in H as (? & ? & _); discriminate
    | H : _ \/ _ |- _ => destruct H
    | H : In _ [_] |- _ => destruct H as [H|[]]; discriminate
    end.
Qed.

Ltac by_family f H := destruct f; cbn [types_of] in H; rewrite ?in_app_iff in H;
    repeat match goal with
    | H : In _ (map CFixed _) |- _ => apply in_fixed in H as (? & ? & _); discriminate
    | H : In _ (map CFlexText _) |- _ => apply in_map_iff in H as (? & E & H); try discriminate; injection E as <-; exact H
    | H : In _ (map CStreamText _) |- _ => apply in_map_iff in H as (? & E & H); try discriminate; injection E as <-; exact H
    | H : _ \/ _ |- _ => destruct H
    | H : In _ [_] |- _ => destruct H as [H|[]]; discriminate
    end.
Lemma ump_flex k f : In (CFlexText k) (types_of f) -> In k flex_texts.
Proof. intros H. by_family f H. Qed.
Lemma ump_stream k f : In (CStreamText k) (types_of f) -> In k stream_texts.
Proof. intros H. by_family f H. Qed.

Definition readable u m (f : string) :=
  match field_type m f with
  | None | Some TyUnit => true
  | _ => match find (fun fw => String.eqb (fst fw) f) (layout u (m_name m)) with
         | Some (_, w) => settable w || match w with Absent _ => true | _ => false end
         | None => false end
  end.
Lemma all_readable : forallb (fun m => forallb (fun f => (readable U32 m f && (negb (supports U8 m) || readable U8 m f))%bool) (map fst (m_fields m))) all_messages = true.
Proof. vm_compute. reflexivity. Qed.

Lemma readable_wire u m f t : In m all_messages -> supports u m = true -> field_type m f = Some t -> t <> TyUnit ->
  exists w, In (f, w) (layout u (m_name m)) /\ (settable w = true \/ exists d, w = Absent d).
Proof.
  intros Hm Hs Hf Ht. pose proof all_readable as R. rewrite forallb_forall in R. specialize (R m Hm).
  rewrite forallb_forall in R.
  assert (I : In f (map fst (m_fields m))).
  { clear - Hf. unfold field_type in Hf. revert Hf. induction (m_fields m) as [|[g p] l IH]; [discriminate|].
    cbn [field map fst]. destruct (String.eqb_spec f g) as [->|N]; [now left|]. intros Hf. right. auto. }
  specialize (R f I). apply andb_true_iff in R as [R3 R8].
  assert (R : readable u m f = true). { destruct u; [|exact R3]. rewrite Hs in R8. exact R8. }
  unfold readable in R. rewrite Hf in R.
  destruct (find _ _) as [[g w]|] eqn:E.
  2:{ destruct t; easy. }
  apply find_some in E as [E Q]. cbn [fst] in Q. apply String.eqb_eq in Q as ->. exists w. split; [exact E|].
  assert (S : settable w || match w with Absent _ => true | _ => false end = true) by (destruct t; congruence).
  apply orb_true_iff in S as [S|S]; [now left|]. right. destruct w; try discriminate. eauto.
Qed.

Lemma fixed_field u m b f t : In m all_messages -> supports u m = true -> holds u m b -> accepts u m b ->
  field_type m f = Some t -> t <> TyUnit -> exists v, get u m b f = Val v.
Proof.
  intros Hm Hs Hh Ha Hf Ht. destruct (C08_accepted_safe u m b Hm Hs Hh Ha) as (A & B & _).
  destruct (readable_wire u m f t Hm Hs Hf Ht) as (w & I & [S|(d & ->)]).
  - destruct (A f w (conj I S)) as (v & _ & E & _). eauto.
  - destruct (B f d I) as (_ & E & _). eauto.
Qed.

Lemma sysex_carries fm b : accepted U32 (sysex_type fm) b -> List.length b mod packet_words fm = 0 ->
  exists k g s l, carries fm k g (Some s) l b.
Proof.
  intros A M. assert (E : sx_try_from (fmt_of fm) b = Ok b) by (destruct fm; injection A; auto).
  apply (accepts_spec fm b M) in E. destruct E as (k & g & s & l & C & _). eauto.
Qed.

Lemma readable_data c b : In c ump_types -> wf_buf U32 b -> accepted U32 c b -> whole_packets c b ->
  exists d, agg_data U32 (c, b) = Val d.
Proof.
  intros T W A P. destruct (ump_type_family c T) as (f & F). unfold agg_data. cbn [fst snd]. destruct c as [x| | |k|k]; cbn [concrete_data].
  - pose proof (ump_fixed x f F) as I. rewrite data_ok by (apply (accepts_holds32 x b I W A)). eauto.
  - destruct (sysex_carries SevenBit b A P) as (k & g & s & l & C). destruct (carries_reads _ _ _ _ _ _ C) as (E & _). eauto.
  - destruct (sysex_carries EightBit b A P) as (k & g & s & l & C). destruct (carries_reads _ _ _ _ _ _ C) as (E & _). eauto.
  - destruct (C08_flex_text k b) as (n & _ & _ & _ & E & _); [|exact A|exact P|eauto].
    now apply (ump_flex k f).
  - destruct (C08_stream_text k b) as (n & _ & _ & _ & E & _); [|exact A|exact P|eauto].
    now apply (ump_stream k f).
Qed.

Lemma is_discovery m : In m all_messages -> m = stream_function_block_discovery \/ m <> stream_function_block_discovery.
Proof.
  unfold all_messages, utility_messages, system_common_messages, channel_voice1_messages, channel_voice2_messages, flex_data_messages, ump_stream_messages.
  cbn [app]. intros H.
  repeat (destruct H as [<-|H]; [first [right; intros E; apply (f_equal m_name) in E; discriminate E | left; reflexivity]|]). easy.
Qed.

Lemma discovery_stream : In (CFixed stream_function_block_discovery) (types_of UmpStream).
Proof. cbn [types_of]. apply in_or_app. left. apply in_map. unfold ump_stream_messages. cbn [In]. tauto. Qed.

Lemma discovery_packets b : accepted U32 (CFixed stream_function_block_discovery) b ->
  exists ps, all_packets (CFixed stream_function_block_discovery, b) = Val ps.
Proof.
  intros A. pose proof discovery_stream as F.
  destruct (accepted_key _ _ b F A) as (N0 & K & _). destruct b as [|x r]; [easy|]. cbn [code] in K.
  change (hd0 (x :: r)) with x in K.
  unfold all_packets, agg_packets, agg_data. cbn [fst snd concrete_data]. rewrite data_ok by (cbn; lia). cbn [bind].
  change (min_size U32 stream_function_block_discovery) with 1. cbn [firstn].
  change (concrete_min (CFixed stream_function_block_discovery)) with 1.
  change (chunks_exact 1 [x]) with [[x]]. cbn [collect_packets List.length]. unfold packets_next. cbn [hd_error tl packet_of].
  assert (E : exists p, packet_try_from [x] = Val (Ok p)).
  { unfold packet_try_from. cbn [idx nth_error bind]. rewrite K. cbn [kind_type]. cbn [N.eqb Pos.eqb].
    unfold kind_try_from. cbn [List.length kind_needs Nat.ltb Nat.leb idx nth_error bind]. rewrite K. cbn. eauto. }
  destruct E as (p & E). rewrite E. cbn. eauto.
Qed.

Lemma readable_packets c b : In c ump_types -> wf_buf U32 b -> accepted U32 c b -> whole_packets c b ->
  exists ps, all_packets (c, b) = Val ps.
Proof.
  intros T W A P. destruct (ump_type_family c T) as (f & F). destruct (readable_data c b T W A P) as (d & D).
  assert (G : c <> CFixed stream_function_block_discovery -> exists ps, all_packets (c, b) = Val ps).
  { intros N0. destruct (C16_packets f c b d F N0 A D) as (ps & E & _). eauto. }
  destruct c as [m| | |k|k]; try (apply G; discriminate).
  destruct (is_discovery m (ump_fixed m f F)) as [->|N0]; [now apply discovery_packets|]. apply G. intros E. injection E. auto.
Qed.

Lemma in_types f g c b : In c (types_of f) -> In c (types_of g) -> accepted U32 c b -> f = g.
Proof.
  intros F G A. pose proof (accepted_family f c b F A) as E1. pose proof (accepted_family g c b G A) as E2. congruence.
Qed.

(** A slice that [UmpMessage::try_from] accepts, made of whole packets, answers every reading call its type has. *)
Theorem C51_ump_message : forall b c m q, wf_buf U32 b -> ump_try_from b = Val (Ok (c, m)) -> whole_packets c b ->
  offers U32 c q -> exists a, ask U32 q (c, m) = Val a.
Proof.
  intros b c m q W E P Q. apply C12_ump_message in E as (T & A & -> & _). destruct (ump_type_family c T) as (f & F).
  assert (N0 : b <> []) by (destruct (accepted_key f c b F A) as (? & _); assumption).
  assert (Fx : forall m, c = CFixed m -> In m all_messages /\ holds U32 m b /\ accepts U32 m b).
  { intros x ->. pose proof (ump_fixed x f F) as I. split; [exact I|]. assert (A' : accepts U32 x b) by exact A.
    split; [now apply accepts_holds32|exact A']. }
  destruct (readable_data c b T W A P) as (d & D).
  pose proof (readable_packets c b T W A P) as B.
  assert (NE : In c (types_of FlexData) -> d <> []).
  { intros G ->. destruct (accepted_sound FlexData c b [] G) as (n & L & (S1 & _) & Z & _); [|exact A|exact D|].
    - intros ->. pose proof (in_types FlexData UmpStream _ b G discovery_stream A). discriminate.
    - apply (f_equal (@List.length N)) in Z. rewrite firstn_length in Z. cbn [List.length family_words] in *. lia. }
  assert (H16 : (0 < 16)%N) by reflexivity.
  destruct q as [ | | | | | | |x| | | | | | | ]; cbn [offers] in Q; cbn [ask fst snd].
  - apply say_val. eauto.
  - apply say_val. exact B.
  - destruct Q as [_ [<-|[<-|[]]]].
    + destruct (sysex_carries SevenBit b A P) as (k & g & s & l & C). destruct (C16_sysex _ _ _ _ _ _ C) as (ps & E & _ & _ & R & _).
      cbn [sysex_type] in E. rewrite E. cbn [bind]. apply say_val. eauto.
    + destruct (sysex_carries EightBit b A P) as (k & g & s & l & C). destruct (C16_sysex _ _ _ _ _ _ C) as (ps & E & _ & _ & R & _).
      cbn [sysex_type] in E. rewrite E. cbn [bind]. apply say_val. eauto.
  - destruct Q as [_ Q]. apply say_val. apply in_flat_map in Q as (g & Hg & G).
    assert (Hx : In g [SystemCommon; ChannelVoice1; ChannelVoice2; FlexData] \/ g = Sysex7 \/ g = Sysex8).
    { cbn [In] in *. intuition. }
    destruct Hx as [Hx|Hx]; [destruct (C15_group g c b 0%N Hx G W A H16) as (E & _); eauto|].
    assert (S : c = CSysex7 \/ c = CSysex8).
    { destruct Hx as [-> | ->]; cbn [types_of] in G; destruct G as [<-|[]]; auto. }
    destruct b as [|y r]; [easy|]. unfold agg_group. destruct S as [-> | ->]; cbn [fst snd]; unfold Sysex.group; cbn; eauto.
  - apply say_val. apply in_app_iff in Q as [Q|Q].
    + destruct (C15_channel U32 ChannelVoice1 c b 0%N (or_introl eq_refl) Q W A H16) as (E & _). eauto.
    + destruct (C15_channel U32 ChannelVoice2 c b 0%N (or_intror (conj eq_refl eq_refl)) Q W A H16) as (E & _). eauto.
  - destruct Q as [_ Q]. apply say_val. destruct (C15_bank_status c b d Q A D) as (E & _); [now apply NE|eauto].
  - destruct Q as [_ Q]. apply say_val. destruct (C15_bank_status c b d Q A D) as (_ & _ & E); [now apply NE|eauto].
  - destruct Q as (y & t & -> & Hf & Ht). apply say_val. destruct (Fx y eq_refl) as (I & Hh & Ha). eapply fixed_field; eauto.
  - destruct Q as [<-|[<-|[]]]; apply say_val.
    + destruct (sysex_carries SevenBit b A P) as (k & g & s & l & C). destruct (carries_reads _ _ _ _ _ _ C) as (_ & E & _). eauto.
    + destruct (sysex_carries EightBit b A P) as (k & g & s & l & C). destruct (carries_reads _ _ _ _ _ _ C) as (_ & E & _). eauto.
  - destruct Q as [<-|[<-|[]]]; apply say_val.
    + destruct (sysex_carries SevenBit b A P) as (k & g & s & l & C). destruct (carries_reads _ _ _ _ _ _ C) as (_ & _ & E). eauto.
    + destruct (sysex_carries EightBit b A P) as (k & g & s & l & C). destruct (carries_reads _ _ _ _ _ _ C) as (_ & _ & E). eauto.
  - subst c. apply say_val. destruct b as [|y r]; [easy|]. unfold stream_id. cbn [idx nth_error bind]. eauto.
  - destruct Q as [(k & ->)|(k & ->)]; apply say_val.
    + destruct (C08_flex_text k b (ump_flex k f F) A P) as (n & _ & _ & _ & _ & _ & _ & _ & E). eauto.
    + destruct (C08_stream_text k b (ump_stream k f F) A P) as (n & _ & _ & _ & _ & _ & _ & E). eauto.
  - destruct Q as [(k & ->)|(k & ->)]; apply say_val.
    + destruct (C08_flex_text k b (ump_flex k f F) A P) as (n & _ & _ & _ & _ & _ & _ & E & _). eauto.
    + destruct (C08_stream_text k b (ump_stream k f F) A P) as (n & _ & _ & _ & _ & _ & E & _). eauto.
  - destruct Q as (k & ->). apply say_val.
    destruct (C08_flex_text k b (ump_flex k f F) A P) as (n & _ & _ & _ & _ & _ & E & _). eauto.
  - destruct Q as (k & -> & O). apply say_val.
    destruct (C08_stream_text k b (ump_stream k f F) A P) as (n & _ & _ & _ & _ & E & _). eauto.
Qed.
Print Assumptions C51_ump_message.

(** The same for [BytesMessage::try_from]. *)
Theorem C51_bytes_message : forall b c m q, wf_buf U8 b -> bytes_try_from b = Val (Ok (c, m)) -> data_bytes c b ->
  offers U8 c q -> exists a, ask U8 q (c, m) = Val a.
Proof.
  intros b c m q W E P Q. apply (bytes_iff b c m W) in E as (T & A & ->).
  assert (Fx : forall m, c = CFixed m -> In m all_messages /\ supports U8 m = true /\ holds U8 m b /\ accepts U8 m b).
  { intros x ->. destruct (byte_fixed x T) as (I & S). assert (A' : accepts U8 x b) by exact A.
    split; [exact I|]. split; [exact S|]. split; [|exact A']. split; [exact W|]. split; [now apply accepts_length|]. intros _. exact P. }
  assert (Sx : c = CSysex7 -> exists l r, data_b b = Val (stream_bytes l) /\ payload_list_b b = Val l
    /\ payload_size_b b = Val (List.length l) /\ b = stream_bytes l ++ r).
  { intros ->. destruct P as (l & r & Hl & Eb). exists l, r.
    assert (Eb' : b = stream_bytes l ++ r) by (rewrite Eb; unfold stream_bytes; cbn [app]; f_equal; now rewrite <- app_assoc).
    destruct (C26_bytes_accepted_reads l r Hl) as (_ & D & L & Z). rewrite <- Eb' in D, L, Z. auto. }
  assert (B : c = CSysex7 \/ exists m, c = CFixed m).
  { unfold byte_types in T. destruct T as [<-|T]; [now left|]. apply in_fixed in T as (x & -> & _). eauto. }
  destruct q as [ | | | | | | |x| | | | | | | ]; cbn [offers] in Q; cbn [ask fst snd].
  - apply say_val. unfold agg_data. cbn [fst snd]. destruct B as [-> | (x & ->)]; cbn [concrete_data].
    + destruct (Sx eq_refl) as (l & r & E & _). eauto.
    + rewrite data_ok by (apply (Fx x eq_refl)). eauto.
  - discriminate.
  - destruct Q as [Q _]; discriminate.
  - destruct Q as [Q _]; discriminate.
  - apply say_val. apply in_app_iff in Q as [Q|Q].
    + destruct (C15_channel U8 ChannelVoice1 c b 0%N (or_introl eq_refl) Q W A eq_refl) as (E & _). eauto.
    + exfalso. cbn [types_of] in Q. apply in_fixed in Q as (x & -> & Hx). destruct (byte_fixed x T) as (_ & S). clear - Hx S.
      unfold channel_voice2_messages in Hx. repeat (destruct Hx as [<-|Hx]; [discriminate S|]). easy.
  - destruct Q as [Q _]; discriminate.
  - destruct Q as [Q _]; discriminate.
  - destruct Q as (y & t & -> & Hf & Ht). apply say_val. destruct (Fx y eq_refl) as (I & S & Hh & Ha). eapply fixed_field; eauto.
  - destruct B as [-> | (x & ->)]; [|destruct Q as [Q|[Q|[]]]; discriminate]. apply say_val. destruct (Sx eq_refl) as (l & r & _ & E & _). eauto.
  - destruct B as [-> | (x & ->)]; [|destruct Q as [Q|[Q|[]]]; discriminate]. apply say_val. destruct (Sx eq_refl) as (l & r & _ & _ & E & _). eauto.
  - subst c. destruct B as [B | (x & B)]; discriminate.
  - destruct B as [-> | (x & ->)]; destruct Q as [(k & Q)|(k & Q)]; discriminate.
  - destruct B as [-> | (x & ->)]; destruct Q as [(k & Q)|(k & Q)]; discriminate.
  - destruct B as [-> | (x & ->)]; destruct Q as (k & Q); discriminate.
  - destruct B as [-> | (x & ->)]; destruct Q as (k & Q & _); discriminate.
Qed.
Print Assumptions C51_bytes_message.

(** Answers of a tempo message, of a text in two packets and of a byte message. *)
Example C51_case :
  ump_try_from [0xD0100000; 0x02FAF080; 0; 0]%N = Val (Ok (CFixed flex_set_tempo, [0xD0100000; 0x02FAF080; 0; 0]%N))
  /\ offers U32 (CFixed flex_set_tempo) (AskField "number_of_10_nanosecond_units_per_quarter_note")
  /\ ask U32 (AskField "number_of_10_nanosecond_units_per_quarter_note") (CFixed flex_set_tempo, [0xD0100000; 0x02FAF080; 0; 0]%N)
     = Val (Value (VNum 50000000))
  /\ ask U32 AskGroup (CSysex7, [0x35160001; 0x02030405; 0x35310600; 0]%N) = Val (Num 5)
  /\ ask U32 AskPacketPayloads (CSysex7, [0x35160001; 0x02030405; 0x35310600; 0]%N) = Val (Units [0; 1; 2; 3; 4; 5; 6]%N)
  /\ bytes_try_from [0xF0; 1; 2; 0xF7]%N = Val (Ok (CSysex7, [0xF0; 1; 2; 0xF7]%N))
  /\ data_bytes CSysex7 [0xF0; 1; 2; 0xF7]%N
  /\ ask U8 AskPayload (CSysex7, [0xF0; 1; 2; 0xF7]%N) = Val (Units [1; 2]%N).
Proof.
  split; [vm_compute; reflexivity|]. split; [do 2 eexists; split; [reflexivity|]; split; [vm_compute; reflexivity|discriminate]|].
  split; [vm_compute; reflexivity|]. split; [vm_compute; reflexivity|]. split; [vm_compute; reflexivity|]. split; [vm_compute; reflexivity|].
  split; [exists [1; 2]%N, []; split; [repeat constructor|reflexivity]|]. vm_compute; reflexivity.
Qed.

(** Both conditions are needed: an accepted slice ending inside a packet, and an accepted byte stream
    with too few or too large data bytes, have calls that panic. *)
Theorem C51_any_slice_refuted :
  (exists b c q, wf_buf U32 b /\ ump_try_from b = Val (Ok (c, b)) /\ offers U32 c q /\ ask U32 q (c, b) = Panic)
  /\ (exists b q, wf_buf U8 b /\ bytes_try_from b = Val (Ok (CSysex7, b)) /\ offers U8 CSysex7 q /\ ask U8 q (CSysex7, b) = Panic)
  /\ (exists b q, wf_buf U8 b /\ bytes_try_from b = Val (Ok (CFixed sys_song_position_pointer, b))
       /\ offers U8 (CFixed sys_song_position_pointer) q /\ ask U8 q (CFixed sys_song_position_pointer, b) = Panic).
Proof.
  split; [|split].
  - exists [0x30160001; 0x02030405; 0x30300000]%N, CSysex7, AskData. split; [repeat constructor|]. split; [vm_compute; reflexivity|].
    split; [exact I|]. vm_compute; reflexivity.
  - exists [0xF0; 0x80; 0xF7]%N, AskPayload. split; [repeat constructor|]. split; [vm_compute; reflexivity|].
    split; [now left|]. vm_compute; reflexivity.
  - exists [0xF2; 1]%N, (AskField "position"). split; [repeat constructor|]. split; [vm_compute; reflexivity|].
    split; [do 2 eexists; split; [reflexivity|]; split; [vm_compute; reflexivity|discriminate]|]. vm_compute; reflexivity.
Qed.
Print Assumptions C51_any_slice_refuted.
