(** Lemmas: dispatch of the aggregate enums. *)
From Coq Require Import NArith ZArith List String Bool Arith Lia Zify ZifyBool ZifyNat ZifyN.
From Verif Require Import Base BitOps BitLemmas ListLemmas Values Helpers Props Message MessageTable SpecLayout SpecFixed
  PropLemmas PropValidate MessageLemmas FixedLemmas Sysex ByteView SysexLayout SysexBridge
  Text SpecSysex SpecText TextLemmas TextParse TextFresh Aggregate SpecAggregate.
Import ListNotations.
Local Open Scope string_scope.
Local Open Scope list_scope.
Local Open Scope nat_scope.

(** ** Dispatch *)

Lemma wrap_ok u c b c' m : wrap u c b = Val (Ok (c', m)) <-> c' = c /\ concrete_try_from u c b = Val (Ok m).
Proof.
  unfold wrap. destruct (concrete_try_from u c b) as [[a|e]|]; cbn [try_bind]; (split; [intros H; split; congruence | intros [-> H]; congruence]).
Qed.

Lemma dispatch_ok u arms e s b c m :
  dispatch u arms e s b = Val (Ok (c, m)) <-> select arms s = Some c /\ concrete_try_from u c b = Val (Ok m).
Proof.
  unfold dispatch. destruct (select arms s) as [c'|]; [|split; [|intros []]; congruence].
  rewrite wrap_ok. split; intros [E H]; (split; [congruence|]); congruence.
Qed.

Lemma select_in arms s c : select arms s = Some c -> In c (map snd arms).
Proof.
  induction arms as [|[n d] t IH]; cbn; [discriminate|]. destruct (s =? n)%N; [left; congruence|auto].
Qed.

Lemma dispatch_total u arms e s b : (forall c, In c (map snd arms) -> exists r, concrete_try_from u c b = Val r) ->
  exists r, dispatch u arms e s b = Val r.
Proof.
  intros H. unfold dispatch. destruct (select arms s) as [c|] eqn:E; [|eauto].
  destruct (H c (select_in _ _ _ E)) as [r R]. unfold wrap. rewrite R. destruct r; cbn [try_bind]; eauto.
Qed.

(** ** What a concrete type demands of the first word *)

Lemma validate_all_in u fs b f p : validate_all u fs b = Val (Ok tt) -> In (f, p) fs -> prop_validate u p b = Val (Ok tt).
Proof.
  induction fs as [|[g q] t IH]; cbn [validate_all In]; [easy|].
  destruct (prop_validate u q b) as [[[]|e]|] eqn:E; cbn [bind]; try discriminate.
  intros H [X|X]; [|auto]. congruence.
Qed.

Lemma accepts_field u m b f p : accepts u m b -> In (f, p) (m_fields m) -> prop_validate u p b = Val (Ok tt).
Proof.
  unfold accepts, try_from. destruct (List.length b <? min_size u m); [discriminate|].
  destruct (validate_all u (m_fields m) b) as [[[]|e]|] eqn:E; cbn [bind]; try discriminate.
  intros _. now apply validate_all_in.
Qed.

Lemma accepts_length u m b : accepts u m b -> min_size u m <= List.length b.
Proof. unfold accepts, try_from. destruct (Nat.ltb_spec (List.length b) (min_size u m)); [discriminate|lia]. Qed.

Lemma check_val c e : Val (check c e) = Val (Ok tt) -> c = true.
Proof. destruct c; [auto|discriminate]. Qed.

Lemma chunks_hd b f : 4 <= List.length b -> forallb f (chunks_exact 4 b) = true -> f (firstn 4 b) = true.
Proof.
  intros H F. unfold chunks_exact in F. destruct b as [|x b]; [cbn in H; lia|].
  cbn [chunks_exact_aux List.length] in F. cbn [List.length] in H.
  replace (S (List.length b) <? 4) with false in F by lia. cbn [forallb] in F.
  now apply andb_true_iff in F.
Qed.

Lemma need_type u t b : u = U32 -> prop_validate u (PUmpType t) b = Val (Ok tt) -> nibble32 (hd0 b) 0 = t.
Proof.
  intros ->. cbn [prop_validate]. unfold idx. destruct b as [|x b]; cbn [nth_error bind]; [discriminate|].
  intros H. apply check_val, N.eqb_eq in H. exact H.
Qed.
Lemma need_cv u s b : prop_validate u (PCvStatus s) b = Val (Ok tt) ->
  match u with U32 => nibble32 (hd0 b) 2 | U8 => nibble8 (hd0 b) 0 end = s.
Proof.
  cbn [prop_validate]. unfold idx. destruct b as [|x b]; cbn [nth_error bind]; [discriminate|].
  intros H. apply check_val, N.eqb_eq in H. exact H.
Qed.
Lemma need_sys u s b : prop_validate u (PSysStatus s) b = Val (Ok tt) -> sys_status u (hd0 b) = s.
Proof.
  cbn [prop_validate]. unfold idx. destruct b as [|x b]; cbn [nth_error bind]; [discriminate|].
  intros H. apply check_val, N.eqb_eq in H. exact H.
Qed.
Lemma hd0_firstn b n : 0 < n -> hd0 (firstn n b) = hd0 b.
Proof. destruct n; [lia|]. now destruct b. Qed.
Lemma need_flex_status s b : 4 <= List.length b -> prop_validate U32 (PFlexStatus s) b = Val (Ok tt) -> octet32 (hd0 b) 3 = s.
Proof. intros L H. cbn [prop_validate] in H. apply check_val, chunks_hd in H; [|exact L]. rewrite hd0_firstn in H by lia. lia. Qed.
Lemma need_flex_bank s b : 4 <= List.length b -> prop_validate U32 (PFlexBank s) b = Val (Ok tt) -> octet32 (hd0 b) 2 = s.
Proof. intros L H. cbn [prop_validate] in H. apply check_val, chunks_hd in H; [|exact L]. rewrite hd0_firstn in H by lia. lia. Qed.
Lemma need_stream s b : 4 <= List.length b -> prop_validate U32 (PStreamStatus s) b = Val (Ok tt) -> stream_status (hd0 b) = s.
Proof. intros L H. cbn [prop_validate] in H. apply check_val, chunks_hd in H; [|exact L]. rewrite hd0_firstn in H by lia. lia. Qed.

Lemma word_octets x : word32 x 1 = (256 * octet32 x 2 + octet32 x 3)%N.
Proof.
  unfold word32, octet32. change (16 - 1 * 16)%N with 0%N. change (24 - 2 * 8)%N with 8%N. change (24 - 3 * 8)%N with 0%N.
  change 65535%N with (N.ones 16). change 255%N with (N.ones 8). rewrite !N.land_ones, !N.shiftr_0_r, N.shiftr_div_pow2.
  change (2 ^ 16)%N with 65536%N. change (2 ^ 8)%N with 256%N.
  change 65536%N with (256 * 256)%N. rewrite N.mod_mul_r by lia. lia.
Qed.

(** ** The status each family looks at *)

Definition fbd := CFixed stream_function_block_discovery.

(** The flex data table with the three metadata texts at their own statuses. *)
Definition right_flex_arms : list (N * concrete) :=
  map (fun c => match c with
        | CFlexText k => ((256 * fk_bank k + fk_status k)%N, c)
        | _ => (0%N, c) end) (map CFlexText flex_texts)
  ++ [(0, CFixed flex_set_tempo); (1, CFixed flex_set_time_signature); (2, CFixed flex_set_metronome);
      (5, CFixed flex_set_key_signature); (6, CFixed flex_set_chord_name)]%N.


Ltac field := repeat (hnf; first [left; reflexivity | right]).
Ltac table := repeat apply Forall_cons; try apply Forall_nil; (do 3 eexists; split; [field | split; [field|reflexivity]]).

Lemma cv1_table : Forall (fun m => exists k f g, In (f, PCvStatus k) (m_fields m) /\ In (g, PUmpType 2) (m_fields m)
  /\ select cv1_arms k = Some (CFixed m)) channel_voice1_messages.
Proof. table. Qed.
Lemma cv2_table : Forall (fun m => exists k f g, In (f, PCvStatus k) (m_fields m) /\ In (g, PUmpType 4) (m_fields m)
  /\ select cv2_arms k = Some (CFixed m)) channel_voice2_messages.
Proof. table. Qed.
Lemma util_table : Forall (fun m => exists k f g, In (f, PCvStatus k) (m_fields m) /\ In (g, PUmpType 0) (m_fields m)
  /\ select util_arms k = Some (CFixed m)) utility_messages.
Proof. table. Qed.
Lemma sys_table : Forall (fun m => exists k f g, In (f, PSysStatus k) (m_fields m) /\ In (g, PUmpType 1) (m_fields m)
  /\ select sys_arms k = Some (CFixed m)) system_common_messages.
Proof. table. Qed.
Lemma stream_table : Forall (fun m => exists k f g, In (f, PStreamStatus k) (m_fields m) /\ In (g, PUmpType 15) (m_fields m)
  /\ select stream_arms k = Some (CFixed m)) ump_stream_messages.
Proof. table. Qed.
Lemma flex_table : Forall (fun m => exists k f g, (In (f, PFlexStatus k) (m_fields m) /\ exists h j, In (h, PFlexBank j) (m_fields m)
  /\ select right_flex_arms (256 * j + k) = Some (CFixed m)
  /\ select flex_arms (256 * j + k) = Some (CFixed m)) /\ In (g, PUmpType 13) (m_fields m) /\ m_min_ump m = 4) flex_data_messages.
Proof.
  repeat apply Forall_cons; try apply Forall_nil; (do 3 eexists; split; [split; [field|do 2 eexists; split; [field|split; reflexivity]]|split; [field|reflexivity]]).
Qed.

(** ** Each accepted message is found under its status *)

Definition code (f : family) : N :=
  match f with
  | Utility => 0 | SystemCommon => 1 | ChannelVoice1 => 2 | Sysex7 => 3 | ChannelVoice2 => 4
  | Sysex8 => 5 | FlexData => 13 | UmpStream => 15
  end%N.
Lemma family_code f : ump_family (code f) = Some f.
Proof. now destruct f. Qed.
Lemma code_inj f g : code f = code g -> f = g.
Proof. destruct f, g; intros H; try reflexivity; discriminate. Qed.

Definition right_select (f : family) (x : N) : option concrete :=
  match f with
  | Utility => select util_arms (nibble32 x 2)
  | SystemCommon => select sys_arms (sys_status U32 x)
  | ChannelVoice1 => select cv1_arms (nibble32 x 2)
  | ChannelVoice2 => select cv2_arms (nibble32 x 2)
  | Sysex7 => Some CSysex7
  | Sysex8 => Some CSysex8
  | FlexData => select right_flex_arms (word32 x 1)
  | UmpStream => select stream_arms (stream_status x)
  end.

Lemma in_fixed c ms : In c (map CFixed ms) -> exists m, c = CFixed m /\ In m ms.
Proof. rewrite in_map_iff. intros (m & <- & H). eauto. Qed.

Lemma stream_min m : In m ump_stream_messages -> m = stream_function_block_discovery \/ min_size U32 m = 4.
Proof. unfold ump_stream_messages. intros H. repeat (destruct H as [<-|H]; [first [right; reflexivity | left; reflexivity]|]). easy. Qed.

Lemma flex_text_arm k : In k flex_texts -> select right_flex_arms (256 * fk_bank k + fk_status k) = Some (CFlexText k).
Proof. unfold flex_texts. intros H. repeat (destruct H as [<-|H]; [reflexivity|]). easy. Qed.
Lemma stream_text_arm k : In k stream_texts -> select stream_arms (sk_status k) = Some (CStreamText k) /\ sk_off k <= 1.
Proof. unfold stream_texts. intros H. repeat (destruct H as [<-|H]; [split; [reflexivity|cbn; lia]|]). easy. Qed.

Lemma flex_text_key k b v : flex_try_from k b = Val (Ok v) ->
  4 <= List.length b /\ nibble32 (hd0 b) 0 = 13%N /\ word32 (hd0 b) 1 = (256 * fk_bank k + fk_status k)%N.
Proof.
  unfold flex_try_from. destruct (Nat.ltb_spec (List.length b) 4) as [L|L]; [discriminate|].
  destruct (prop_validate U32 (PUmpType 13) b) as [[[]|]|] eqn:T; cbn [try_bind]; try discriminate.
  destruct (consistent_groups b 4 13) as [[]|]; cbn [try_bind]; try discriminate.
  destruct (prop_validate U32 POptChannel b) as [[[]|]|]; cbn [try_bind]; try discriminate.
  destruct (prop_validate U32 (PFlexBank (fk_bank k)) b) as [[[]|]|] eqn:K; cbn [try_bind]; try discriminate.
  destruct (prop_validate U32 (PFlexStatus (fk_status k)) b) as [[[]|]|] eqn:S; cbn [try_bind]; try discriminate.
  intros _. split; [exact L|]. split; [now apply (need_type U32) in T|].
  rewrite word_octets, (need_flex_bank _ _ L K), (need_flex_status _ _ L S). reflexivity.
Qed.
Lemma stream_text_key k b v : stream_try_from k b = Val (Ok v) ->
  4 <= List.length b /\ nibble32 (hd0 b) 0 = 15%N /\ stream_status (hd0 b) = sk_status k.
Proof.
  unfold stream_try_from. destruct (Nat.ltb_spec (List.length b) 4) as [L|L]; [discriminate|].
  destruct (prop_validate U32 (PUmpType 15) b) as [[[]|]|] eqn:T; cbn [try_bind]; try discriminate.
  destruct (prop_validate U32 (PStreamStatus (sk_status k)) b) as [[[]|]|] eqn:S; cbn [try_bind]; try discriminate.
  intros _. split; [exact L|]. split; [now apply (need_type U32) in T|]. now apply need_stream.
Qed.
Lemma sysex_key f b v : sx_try_from f b = Ok v -> b <> [] -> nibble32 (hd0 b) 0 = f_type f.
Proof.
  unfold sx_try_from. destruct (List.length b <? f_words f); [discriminate|]. cbn [app first_error].
  unfold is_packet at 1. intros H _. destruct (N.eqb_spec (nibble32 (hd0 b) 0) (f_type f)); [auto|].
  cbn in H. discriminate.
Qed.

Lemma accepted_key f c b : In c (types_of f) -> accepted U32 c b ->
  b <> [] /\ nibble32 (hd0 b) 0 = code f /\ ((c = fbd -> 4 <= List.length b) -> right_select f (hd0 b) = Some c).
Proof.
  unfold accepted. intros Hc H.
  assert (Fx : forall m, c = CFixed m -> In m all_messages -> b <> []).
  { intros m -> Hm ->. cbn [concrete_try_from] in H. pose proof (accepts_length U32 m [] H) as L. cbn in L.
    clear - Hm L. unfold all_messages, utility_messages, system_common_messages, channel_voice1_messages, channel_voice2_messages,
      flex_data_messages, ump_stream_messages in Hm. cbn [app] in Hm.
    repeat (destruct Hm as [<-|Hm]; [cbn in L; lia|]). easy. }
  destruct f; cbn [types_of] in Hc.
  - apply in_fixed in Hc as (m & -> & Hm). cbn [concrete_try_from] in H.
    pose proof util_table as T. rewrite Forall_forall in T. destruct (T m Hm) as (k & g & h & A & B & C).
    split; [apply (Fx m eq_refl); unfold all_messages; rewrite !in_app_iff; tauto|].
    split; [eapply need_type; [reflexivity|]; exact (accepts_field _ _ _ _ _ H B)|intros _].
    cbn [right_select]. pose proof (need_cv U32 _ b (accepts_field _ _ _ _ _ H A)) as E. cbn in E. now rewrite E.
  - apply in_fixed in Hc as (m & -> & Hm). cbn [concrete_try_from] in H.
    pose proof sys_table as T. rewrite Forall_forall in T. destruct (T m Hm) as (k & g & h & A & B & C).
    split; [apply (Fx m eq_refl); unfold all_messages; rewrite !in_app_iff; tauto|].
    split; [eapply need_type; [reflexivity|]; exact (accepts_field _ _ _ _ _ H B)|intros _].
    cbn [right_select]. now rewrite (need_sys U32 _ b (accepts_field _ _ _ _ _ H A)).
  - apply in_fixed in Hc as (m & -> & Hm). cbn [concrete_try_from] in H.
    pose proof cv1_table as T. rewrite Forall_forall in T. destruct (T m Hm) as (k & g & h & A & B & C).
    split; [apply (Fx m eq_refl); unfold all_messages; rewrite !in_app_iff; tauto|].
    split; [eapply need_type; [reflexivity|]; exact (accepts_field _ _ _ _ _ H B)|intros _].
    cbn [right_select]. pose proof (need_cv U32 _ b (accepts_field _ _ _ _ _ H A)) as E. cbn in E. now rewrite E.
  - destruct Hc as [<-|[]]. cbn [concrete_try_from] in H.
    assert (b <> []) by (intros ->; discriminate). split; [auto|]. split; [|reflexivity].
    apply (sysex_key fmt7 b b); congruence.
  - apply in_fixed in Hc as (m & -> & Hm). cbn [concrete_try_from] in H.
    pose proof cv2_table as T. rewrite Forall_forall in T. destruct (T m Hm) as (k & g & h & A & B & C).
    split; [apply (Fx m eq_refl); unfold all_messages; rewrite !in_app_iff; tauto|].
    split; [eapply need_type; [reflexivity|]; exact (accepts_field _ _ _ _ _ H B)|intros _].
    cbn [right_select]. pose proof (need_cv U32 _ b (accepts_field _ _ _ _ _ H A)) as E. cbn in E. now rewrite E.
  - destruct Hc as [<-|[]]. cbn [concrete_try_from] in H.
    assert (b <> []) by (intros ->; discriminate). split; [auto|]. split; [|reflexivity].
    apply (sysex_key fmt8 b b); congruence.
  - apply in_app_iff in Hc as [Hc|Hc].
    + apply in_fixed in Hc as (m & -> & Hm). cbn [concrete_try_from] in H.
      pose proof flex_table as T. rewrite Forall_forall in T. destruct (T m Hm) as (k & g & h & (A & i & j & D & C & _) & B & M).
      pose proof (accepts_length _ _ _ H) as L. unfold min_size in L. rewrite M in L.
      split; [apply (Fx m eq_refl); unfold all_messages; rewrite !in_app_iff; tauto|].
      split; [eapply need_type; [reflexivity|]; exact (accepts_field _ _ _ _ _ H B)|intros _].
      cbn [right_select]. rewrite word_octets, (need_flex_status _ _ L (accepts_field _ _ _ _ _ H A)),
        (need_flex_bank _ _ L (accepts_field _ _ _ _ _ H D)). exact C.
    + apply in_map_iff in Hc as (k & <- & Hk). cbn [concrete_try_from] in H.
      destruct (flex_text_key _ _ _ H) as (L & T & W). split; [intros ->; cbn in L; lia|]. split; [exact T|intros _].
      cbn [right_select]. rewrite W. now apply flex_text_arm.
  - apply in_app_iff in Hc as [Hc|Hc].
    + apply in_fixed in Hc as (m & -> & Hm). cbn [concrete_try_from] in H.
      pose proof stream_table as T. rewrite Forall_forall in T. destruct (T m Hm) as (k & g & h & A & B & C).
      split; [apply (Fx m eq_refl); unfold all_messages; rewrite !in_app_iff; tauto|].
      split; [eapply need_type; [reflexivity|]; exact (accepts_field _ _ _ _ _ H B)|intros F].
      assert (L : 4 <= List.length b).
      { destruct (stream_min m Hm) as [->|E]; [now apply F|]. pose proof (accepts_length _ _ _ H). lia. }
      cbn [right_select]. now rewrite (need_stream _ _ L (accepts_field _ _ _ _ _ H A)).
    + apply in_map_iff in Hc as (k & <- & Hk). cbn [concrete_try_from] in H.
      destruct (stream_text_key _ _ _ H) as (L & T & W). split; [intros ->; cbn in L; lia|]. split; [exact T|intros _].
      cbn [right_select]. rewrite W. now apply stream_text_arm.
Qed.

(** ** The family enums *)

Definition family_try_from (f : family) (b : list N) : outcome (res aggregate) :=
  match f with
  | Utility => util_try_from b
  | SystemCommon => sys_try_from U32 b
  | ChannelVoice1 => cv1_try_from U32 b
  | Sysex7 => wrap U32 CSysex7 b
  | ChannelVoice2 => cv2_try_from b
  | Sysex8 => wrap U32 CSysex8 b
  | FlexData => flexdata_try_from b
  | UmpStream => umpstream_try_from b
  end.
Definition model_select (f : family) (x : N) : option concrete :=
  match f with FlexData => select flex_arms (word32 x 1) | _ => right_select f x end.

Lemma family_ok f b c m : b <> [] -> family_try_from f b = Val (Ok (c, m)) <->
  model_select f (hd0 b) = Some c /\ concrete_try_from U32 c b = Val (Ok m).
Proof.
  intros Hb. destruct b as [|x b]; [easy|].
  destruct f; cbn [family_try_from model_select right_select hd0 hd]; try apply dispatch_ok;
    rewrite wrap_ok; split; intros [E H]; (split; [congruence|]); congruence.
Qed.

Lemma arms_types f x c : model_select f x = Some c -> In c (types_of f).
Proof.
  destruct f; cbn [model_select right_select]; intros H; try (left; congruence);
    apply select_in in H; cbn [types_of];
    repeat first [destruct H as [<-|H]; [cbn [map app utility_messages In]; solve [repeat (first [left; reflexivity|right])] |] | easy].
Qed.

Lemma select_key arms s c : select arms s = Some c -> In (s, c) arms.
Proof.
  induction arms as [|[n d] t IH]; cbn; [discriminate|]. destruct (N.eqb_spec s n) as [->|]; [left; congruence|auto].
Qed.

(** The flex data table of the crate and the right one. *)
Lemma flex_tables w c : ~ In c misrouted -> select right_flex_arms w = Some c -> select flex_arms w = Some c.
Proof.
  intros M H. apply select_key in H. unfold right_flex_arms in H. cbn [map flex_texts app fk_bank fk_status] in H.
  repeat (destruct H as [H|H]; [injection H as <- <-; first [reflexivity | exfalso; apply M; unfold misrouted; solve [repeat (first [left; reflexivity|right])]]|]).
  easy.
Qed.

Lemma misrouted_never x c : In c misrouted -> model_select FlexData x = Some c -> right_select FlexData x <> Some c.
Proof.
  cbn [model_select right_select]. intros M H. apply select_key in H. revert H. generalize (word32 x 1). intros w H.
  unfold flex_arms in H.
  repeat (destruct H as [H|H]; [injection H as <- <-; first [discriminate | exfalso; cbn in M; intuition discriminate]|]).
  easy.
Qed.

Lemma misrouted_types c : In c misrouted -> In c (types_of FlexData).
Proof.
  unfold misrouted. intros H. apply in_app_iff. right.
  repeat (destruct H as [<-|H]; [cbn [map flex_texts]; solve [repeat (first [left; reflexivity|right])]|]). easy.
Qed.

Lemma types_nodup f g c : In c (types_of f) -> In c (types_of g) -> f = g.
Proof.
  assert (T : forall f c, In c (types_of f) ->
    match c with
    | CFixed m => match m_fields m with (_, PUmpType t) :: _ => t = code f | _ => False end
    | CSysex7 => f = Sysex7 | CSysex8 => f = Sysex8 | CFlexText _ => f = FlexData | CStreamText _ => f = UmpStream
    end).
  { clear. intros f c H. destruct f; cbn [types_of] in H;
    repeat match goal with
    | H : In _ (_ ++ _) |- _ => apply in_app_iff in H as [H|H]
    | H : In _ (map _ _) |- _ => apply in_map_iff in H as (? & <- & H)
    end; try reflexivity; try (destruct H as [<-|[]]; reflexivity);
    repeat (destruct H as [<-|H]; [reflexivity|]); destruct H. }
  intros A B. apply T in A. apply T in B. destruct c; try congruence.
  destruct (m_fields m) as [|[s []] l]; try easy. apply code_inj. congruence.
Qed.

Lemma fbd_family f : In fbd (types_of f) -> f = UmpStream.
Proof. intros H. eapply types_nodup; [exact H|]. unfold fbd. cbn. tauto. Qed.

Lemma stream_text_family f k : In (CStreamText k) (types_of f) -> In k stream_texts.
Proof.
  intros H. destruct f; cbn [types_of] in H; repeat rewrite in_app_iff in H; repeat rewrite in_map_iff in H;
    repeat match goal with H : _ \/ _ |- _ => destruct H | H : exists _, _ |- _ => destruct H as (? & ? & ?) end;
    try discriminate; try (destruct H; easy). congruence.
Qed.

Definition fbd_routed (c : concrete) (b : list N) : Prop :=
  c = CFixed stream_function_block_discovery -> bits b (Seg 0 16 10) = 0x10%N.


Lemma hd0_nth b : hd0 b = nth 0 b 0%N.
Proof. reflexivity. Qed.

(** Exactly when a family's enum returns a given variant. *)
Lemma family_iff f b c m : b <> [] -> family_try_from f b = Val (Ok (c, m)) <->
  In c (types_of f) /\ ~ In c misrouted /\ fbd_routed c b /\ accepted U32 c b /\ m = b.
Proof.
  intros Hb. rewrite family_ok by exact Hb. split.
  - intros [S H]. pose proof (arms_types f _ c S) as T.
    assert (A : accepted U32 c b /\ m = b).
    { unfold accepted. destruct c; cbn [concrete_try_from] in *.
      - unfold try_from in *. destruct (_ <? _); [discriminate|]. destruct (validate_all _ _ _) as [[[]|]|]; cbn [bind] in *; try discriminate.
        split; congruence.
      - unfold sx_try_from in *. destruct (_ <? _); [discriminate|]. destruct (first_error _); [split|]; congruence.
      - unfold sx_try_from in *. destruct (_ <? _); [discriminate|]. destruct (first_error _); [split|]; congruence.
      - pose proof H as H'. apply flex_try_from_ok in H' as [-> _]. auto.
      - assert (E : sk_off k <= 1).
        { now apply stream_text_arm, (stream_text_family f). }
        pose proof H as H'. apply stream_try_from_ok in H' as [-> _]; auto. }
    destruct A as [A ->]. split; [exact T|]. destruct (accepted_key f c b T A) as (_ & _ & K). split; [|split; [|auto]].
    + intros M. assert (f = FlexData) by (eapply types_nodup; [exact T|now apply misrouted_types]). subst f.
      apply (misrouted_never (hd0 b) c M S). apply K. intros ->. cbn in M. intuition discriminate.
    + intros ->. assert (f = UmpStream). { eapply types_nodup; [exact T|]. cbn. tauto. } subst f.
      cbn [model_select right_select] in S. apply select_key in S. rewrite hd0_nth, stream_status_bits in S.
      clear - S. revert S. generalize (bits b (Seg 0 16 10)). intros n S. unfold stream_arms in S.
      repeat (destruct S as [S|S]; [first [discriminate S | injection S as <-; reflexivity]|]). easy.
  - intros (T & M & R & A & ->). split; [|exact A]. destruct (accepted_key f c b T A) as (_ & _ & K).
    destruct f; cbn [model_select]; [apply K; intros ->; exfalso; apply fbd_family in T; discriminate T..| |].
    + apply flex_tables; [exact M|]. apply K. intros ->; exfalso; apply fbd_family in T; discriminate T.
    + destruct (Nat.le_gt_cases 4 (List.length b)); [now apply K|].
      cbn [types_of] in T. apply in_app_iff in T as [T|T].
      * apply in_fixed in T as (m & -> & Hm). destruct (stream_min m Hm) as [->|E].
        -- cbn [right_select]. rewrite hd0_nth, stream_status_bits, (R eq_refl). reflexivity.
        -- pose proof (accepts_length U32 m b A). lia.
      * apply in_map_iff in T as (k & <- & Hk). destruct (stream_text_key _ _ _ A). lia.
Qed.

Lemma accepted_family f c b : In c (types_of f) -> accepted U32 c b -> ump_family (bits b (Seg 0 28 4)) = Some f.
Proof.
  intros T A. destruct (accepted_key f c b T A) as (_ & K & _). rewrite <- (family_code f). f_equal.
  rewrite <- K, hd0_nth. change 28%N with (28 - 0 * 4)%N. now rewrite <- nibble32_bits.
Qed.

Lemma nibble0 x b : nibble32 x 0 = bits (x :: b) (Seg 0 28 4).
Proof. change 28%N with (28 - 0 * 4)%N. rewrite <- (nibble32_bits (x :: b) 0 0). reflexivity. Qed.

Lemma ump_by_family x b : ump_try_from (x :: b) =
  match ump_family (bits (x :: b) (Seg 0 28 4)) with
  | Some f => family_try_from f (x :: b)
  | None => Val (Err "Couldn't interpret ump message type")
  end.
Proof.
  unfold ump_try_from. cbn [idx nth_error bind]. rewrite (nibble0 x b).
  assert (B : (bits (x :: b) (Seg 0 28 4) < 16)%N) by (apply N.mod_lt; discriminate).
  revert B. generalize (bits (x :: b) (Seg 0 28 4)). intros n B.
  assert (C : (n = 0 \/ n = 1 \/ n = 2 \/ n = 3 \/ n = 4 \/ n = 5 \/ n = 6 \/ n = 7 \/ n = 8 \/ n = 9 \/ n = 10 \/ n = 11 \/ n = 12 \/ n = 13 \/ n = 14 \/ n = 15)%N) by lia.
  repeat (destruct C as [->|C]; [reflexivity|]). subst n. reflexivity.
Qed.

Lemma ump_iff b c m : ump_try_from b = Val (Ok (c, m)) <->
  In c ump_types /\ ~ In c misrouted /\ fbd_routed c b /\ accepted U32 c b /\ m = b.
Proof.
  destruct b as [|x b].
  { split; [discriminate|]. intros (T & _ & _ & A & _). unfold ump_types in T. apply in_flat_map in T as (f & _ & T).
    destruct (accepted_key f c [] T A). easy. }
  rewrite ump_by_family. split.
  - destruct (ump_family _) as [f|] eqn:F; [|discriminate]. rewrite family_iff by discriminate.
    intros (T & R). split; [|exact R]. apply in_flat_map. exists f. split; [destruct f; cbn; tauto|exact T].
  - intros (T & R). apply in_flat_map in T as (f & _ & T). rewrite (accepted_family f c) by tauto.
    apply family_iff; [discriminate|tauto].
Qed.

(** At most one message type accepts a slice. *)
Lemma accepted_unique c c' b : In c ump_types -> In c' ump_types -> accepted U32 c b -> accepted U32 c' b -> c = c'.
Proof.
  intros T T' A A'. apply in_flat_map in T as (f & _ & T). apply in_flat_map in T' as (f' & _ & T').
  assert (f = f').
  { pose proof (accepted_family f c b T A). pose proof (accepted_family f' c' b T' A'). congruence. }
  subst f'. destruct (accepted_key f c b T A) as (_ & _ & K). destruct (accepted_key f c' b T' A') as (_ & _ & K').
  destruct (Nat.le_gt_cases 4 (List.length b)) as [L|L].
  { assert (Some c = Some c') by (rewrite <- K, <- K'; auto). congruence. }
  destruct f; try (assert (Some c = Some c') by (rewrite <- K, <- K'; [reflexivity|..]; intros ->; exfalso; first [apply fbd_family in T; discriminate T|apply fbd_family in T'; discriminate T']); congruence).
  assert (S : forall d, In d (types_of UmpStream) -> accepted U32 d b -> d = fbd).
  { intros d Hd Ad. cbn [types_of] in Hd. apply in_app_iff in Hd as [Hd|Hd].
    - apply in_fixed in Hd as (m & -> & Hm). destruct (stream_min m Hm) as [->|E]; [reflexivity|].
      pose proof (accepts_length U32 m b Ad). lia.
    - apply in_map_iff in Hd as (k & <- & Hk). destruct (stream_text_key _ _ _ Ad). lia. }
  rewrite (S c), (S c'); auto.
Qed.
