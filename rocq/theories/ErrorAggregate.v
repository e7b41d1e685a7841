(** Lemmas: which error the enums of messages answer. *)
From Coq Require Import NArith List String Bool Arith Lia ZifyBool ZifyNat ZifyN.
From Verif Require Import Base BitOps Encode7 Values Schema Helpers Props Message MessageTable SpecLayout SpecFixed SpecSysex Sysex Text SpecText
  Aggregate SpecAggregate SpecErrors BitLemmas ListLemmas PropLemmas PropWrite PropValidate MessageLemmas
  SysexBridge TextLemmas AggregateLemmas ErrorLemmas ErrorSysex.
Import ListNotations.
Local Open Scope string_scope.
Local Open Scope nat_scope.
Local Open Scope list_scope.

(** ** Every type *)

Lemma types_fixed f m : In (CFixed m) (types_of f) -> In m all_messages.
Proof.
  unfold all_messages. rewrite ?in_app_iff.
  destruct f; cbn [types_of]; rewrite ?in_app_iff, ?in_map_iff; intros H;
    repeat match goal with H : _ \/ _ |- _ => destruct H as [H|H] | H : exists _, _ |- _ => destruct H as (? & ? & ?) end;
    try discriminate; try (destruct H as [H|[]]; discriminate);
    match goal with H : CFixed _ = CFixed _ |- _ => injection H as <- end; tauto.
Qed.

Lemma concrete_judged f c b : In c (types_of f) -> wf_buf U32 b ->
  exists r, concrete_try_from U32 c b = Val r /\ judged r (type_defects U32 c b).
Proof.
  intros H Hwf. destruct c as [m| | |k|k]; cbn [concrete_try_from type_defects].
  - apply fixed_judged; [eapply types_fixed; exact H|reflexivity|exact Hwf].
  - eexists. split; [reflexivity|]. apply (sysex_judged SevenBit).
  - eexists. split; [reflexivity|]. apply (sysex_judged EightBit).
  - apply flex_text_judged.
  - apply stream_text_judged. eapply stream_text_arm, stream_text_family, H.
Qed.

Lemma wrap_judged u c b l : (exists r, concrete_try_from u c b = Val r /\ judged r l) -> exists r, wrap u c b = Val r /\ judged r l.
Proof.
  intros (r & E & J). unfold wrap. rewrite E. destruct r as [m|e]; cbn [try_bind]; (eexists; split; [reflexivity|exact J]).
Qed.

(** One type of a list is meant. *)
Lemma one_judged {C A} (r : res A) (meant : C -> Prop) (D : C -> list complaint) l c :
  In c l -> meant c -> (forall c', In c' l -> c' = c \/ ~ meant c') -> judged r (D c) ->
  judged r (flat_map (fun c => map (fun d => (fst d, meant c /\ snd d)) (D c)) l).
Proof.
  intros Hin Hc Hu J.
  assert (F : forall c', ~ meant c' -> faultless (map (fun d => (fst d, meant c' /\ snd d)) (D c'))).
  { intros c' N. apply Forall_forall. intros x Hx. apply in_map_iff in Hx as (d & <- & _). cbn. tauto. }
  assert (K : forall d, faultless d -> faultless (map (fun d => (fst d, meant c /\ snd d)) d)).
  { intros d H. apply Forall_forall. intros x Hx. apply in_map_iff in Hx as (y & <- & Hy). cbn.
    unfold faultless in H. rewrite Forall_forall in H. specialize (H y Hy). tauto. }
  destruct r as [a|e]; cbn [judged] in *.
  - clear Hin. induction l as [|x l IH]; cbn [flat_map]; [constructor|]. apply Forall_app. split.
    + destruct (Hu x (or_introl eq_refl)) as [->|N]; [now apply K|now apply F].
    + apply IH. intros c' H'. apply Hu. now right.
  - assert (R : reports (map (fun d => (fst d, meant c /\ snd d)) (D c)) e).
    { destruct J as (pre & P & post & E & HP & HF). rewrite E, map_app. cbn [map fst snd].
      exists (map (fun d => (fst d, meant c /\ snd d)) pre), (meant c /\ P), (map (fun d => (fst d, meant c /\ snd d)) post).
      split; [reflexivity|]. split; [tauto|]. now apply K. }
    induction l as [|x l IH]; cbn [flat_map]; [destruct Hin|].
    destruct (Hu x (or_introl eq_refl)) as [->|N]; [now apply reports_app_l|].
    apply reports_app_r; [now apply F|]. apply IH.
    + destruct Hin as [->|Hin]; [contradiction|exact Hin].
    + intros c' H'. apply Hu. now right.
Qed.
Lemma none_faultless {C} (meant : C -> Prop) (D : C -> list complaint) l : (forall c, In c l -> ~ meant c) ->
  faultless (flat_map (fun c => map (fun d => (fst d, meant c /\ snd d)) (D c)) l).
Proof.
  intros H. apply Forall_forall. intros x Hx. apply in_flat_map in Hx as (c & Hc & Hx). apply in_map_iff in Hx as (d & <- & _).
  cbn. specialize (H c Hc). tauto.
Qed.

(** ** What a type claims *)

Definition keys (m : Message.message) : list (seg * N) :=
  flat_map (fun fw => match fw with
    | (f, SpecLayout.Fixed s v) => if String.eqb f "status" || String.eqb f "bank" then [(s, v)] else []
    | _ => []
    end) (layout U32 (m_name m)).

Lemma claims_keys m b : claims (CFixed m) b <-> Forall (fun k => bits b (fst k) = snd k) (keys m).
Proof.
  cbn [claims]. unfold keys. rewrite Forall_forall. split.
  - intros H [s v] Hk. apply in_flat_map in Hk as ((f & w) & Hw & Hk). destruct w; try contradiction.
    destruct (String.eqb_spec f "status") as [->|N1]; cbn [orb] in Hk;
      [|destruct (String.eqb_spec f "bank") as [->|N2]; [|contradiction]];
      destruct Hk as [E|[]]; injection E as -> ->; cbn [fst snd]; eapply H; eauto.
  - intros H f s v Hin Hf. apply (H (s, v)). apply in_flat_map. exists (f, SpecLayout.Fixed s v). split; [exact Hin|].
    destruct Hf as [-> | ->]; now left.
Qed.

Definition status_bits (f : family) (b : list N) : N :=
  match f with
  | Utility | ChannelVoice1 | ChannelVoice2 => bits b (Seg 0 20 4)
  | SystemCommon => bits b (Seg 0 16 8)
  | FlexData => 256 * bits b (Seg 0 8 8) + bits b (Seg 0 0 8)
  | UmpStream => bits b (Seg 0 16 10)
  | Sysex7 | Sysex8 => 0
  end%N.
Definition arms (f : family) : list (N * concrete) :=
  match f with
  | Utility => util_arms | SystemCommon => sys_arms | ChannelVoice1 => cv1_arms | ChannelVoice2 => cv2_arms
  | FlexData => flex_arms | UmpStream => stream_arms | Sysex7 => [(0%N, CSysex7)] | Sysex8 => [(0%N, CSysex8)]
  end.

Lemma flex_key b k s : (k < 256)%N -> (s < 256)%N ->
  (bits b (Seg 0 8 8) = k /\ bits b (Seg 0 0 8) = s) <-> (256 * bits b (Seg 0 8 8) + bits b (Seg 0 0 8))%N = (256 * k + s)%N.
Proof.
  intros Hk Hs. pose proof (bits_lt b (Seg 0 8 8)) as A. pose proof (bits_lt b (Seg 0 0 8)) as B.
  cbn [sg_n] in A, B. change (2 ^ 8)%N with 256%N in A, B. lia.
Qed.

Lemma claims_arm f b : Forall (fun a => claims (snd a) b <-> status_bits f b = fst a) (arms f).
Proof.
  assert (C : forall m s v, keys m = [(s, v)] -> (claims (CFixed m) b <-> bits b s = v)).
  { intros m s v E. rewrite claims_keys, E. split; [intros H; now inversion H|intros H; constructor; [exact H|constructor]]. }
  assert (C2 : forall m k s, keys m = [(Seg 0 8 8, k); (Seg 0 0 8, s)] -> (k < 256)%N -> (s < 256)%N ->
     (claims (CFixed m) b <-> (256 * bits b (Seg 0 8 8) + bits b (Seg 0 0 8))%N = (256 * k + s)%N)).
  { intros m k s E Hk Hs. rewrite claims_keys, E, <- (flex_key b k s Hk Hs).
    split; [intros H; inversion H as [|? ? H1 H2]; subst; inversion H2; auto|intros []; repeat constructor; assumption]. }
  destruct f; cbn [arms status_bits];
    try (repeat constructor; cbn [snd fst]; apply C; vm_compute; reflexivity);
    try (repeat constructor; cbn; tauto).
  - unfold flex_arms, flex_text_named. repeat (apply Forall_cons; [cbn [snd fst]|]); [..|constructor];
      try (first [refine (C2 _ 0%N 0%N _ _ _)|refine (C2 _ 0%N 1%N _ _ _)|refine (C2 _ 0%N 2%N _ _ _)|refine (C2 _ 0%N 5%N _ _ _)|refine (C2 _ 0%N 6%N _ _ _)]; [vm_compute; reflexivity|reflexivity|reflexivity]);
      cbn [claims fk_bank]; unfold looked_for; cbn [fk_bank fk_status]; cbn [N.eqb N.leb N.compare Pos.eqb Pos.compare Pos.compare_cont andb N.add Pos.add Pos.succ];
      (rewrite flex_key by reflexivity; reflexivity).
  - unfold stream_arms, stream_text_named. repeat (apply Forall_cons; [cbn [snd fst]|]); [..|constructor];
      try (cbn [claims sk_status]; tauto); apply C; vm_compute; reflexivity.
Qed.

Lemma arms_select f : Forall (fun a => select (arms f) (fst a) = Some (snd a)) (arms f).
Proof. destruct f; repeat constructor. Qed.
Lemma types_arms f : Forall (fun c => In c (map snd (arms f))) (types_of f).
Proof.
  destruct f; cbn [types_of arms map snd app]; unfold utility_messages, system_common_messages, channel_voice1_messages,
    channel_voice2_messages, flex_data_messages, ump_stream_messages, flex_texts, stream_texts; cbn [map app];
    repeat (apply Forall_cons; [unfold util_arms, sys_arms, cv1_arms, cv2_arms, flex_arms, stream_arms; cbn [map snd]; solve [repeat (first [left; reflexivity|right])]|]); constructor.
Qed.

Lemma model_select_bits f x b : model_select f x = select (arms f) (status_bits f (x :: b)).
Proof.
  assert (S : sys_status U32 x = bits (x :: b) (Seg 0 16 8)) by exact (octet32_bits (x :: b) 0 1).
  assert (T : stream_status x = bits (x :: b) (Seg 0 16 10)) by exact (stream_status_bits (x :: b) 0).
  assert (V : nibble32 x 2 = bits (x :: b) (Seg 0 20 4)) by exact (nibble32_bits (x :: b) 0 2).
  assert (F : word32 x 1 = (256 * bits (x :: b) (Seg 0 8 8) + bits (x :: b) (Seg 0 0 8))%N).
  { rewrite word_octets. pose proof (octet32_bits (x :: b) 0 2) as A. pose proof (octet32_bits (x :: b) 0 3) as B.
    cbn [nth] in A, B. rewrite A, B. reflexivity. }
  destruct f; cbn [model_select right_select arms status_bits]; rewrite ?S, ?T, ?V, ?F; reflexivity.
Qed.

(** The type that is meant. *)
Lemma meant f x b : (model_select f x = None /\ forall c, In c (types_of f) -> ~ claims c (x :: b))
  \/ exists c, model_select f x = Some c /\ In c (types_of f) /\ claims c (x :: b)
       /\ forall c', In c' (types_of f) -> c' = c \/ ~ claims c' (x :: b).
Proof.
  rewrite (model_select_bits f x b). pose proof (claims_arm f (x :: b)) as K. pose proof (arms_select f) as S. pose proof (types_arms f) as T.
  rewrite Forall_forall in K, S, T. set (n := status_bits f (x :: b)) in *.
  assert (U : forall c', In c' (types_of f) -> claims c' (x :: b) -> select (arms f) n = Some c').
  { intros c' H' C'. apply T in H'. apply in_map_iff in H' as ((k & d) & E & H'). cbn in E. subst d.
    pose proof (K _ H') as E. cbn [fst snd] in E. apply E in C'. rewrite C'. exact (S _ H'). }
  assert (D : forall c', In c' (types_of f) -> claims c' (x :: b) \/ ~ claims c' (x :: b)).
  { intros c' H'. apply T in H'. apply in_map_iff in H' as ((k & d) & E & H'). cbn in E. subst d.
    pose proof (K _ H') as E. cbn [fst snd] in E. destruct (N.eq_dec n k); [left|right]; tauto. }
  destruct (select (arms f) n) as [c|] eqn:E.
  - right. exists c. split; [reflexivity|].
    assert (Hc : In c (types_of f)) by (apply (arms_types f x); rewrite (model_select_bits f x b); exact E).
    split; [exact Hc|]. split.
    + apply select_key in E. exact (proj2 (K _ E) eq_refl).
    + intros c' H'. destruct (D c' H') as [X|X]; [left|now right]. pose proof (U c' H' X). congruence.
  - left. split; [reflexivity|]. intros c H C. pose proof (U c H C). congruence.
Qed.

Lemma family_dispatch f x b : family_try_from f (x :: b) =
  match model_select f x with Some c => wrap U32 c (x :: b) | None => Val (Err (unknown f)) end.
Proof. destruct f; reflexivity. Qed.

Lemma family_judged f b : b <> [] -> wf_buf U32 b -> exists r, family_try_from f b = Val r /\ judged r (family_defects f b).
Proof.
  intros Hb Hwf. destruct b as [|x b]; [easy|]. rewrite family_dispatch. unfold family_defects.
  destruct (meant f x b) as [(-> & H)|(c & -> & Hc & C & U)].
  - eexists. split; [reflexivity|]. now apply judged_here.
  - destruct (wrap_judged U32 c (x :: b) _ (concrete_judged f c (x :: b) Hc Hwf)) as (r & E & J). exists r. split; [exact E|].
    apply judged_skip; [intros H; exact (H c Hc C)|]. now apply (one_judged r (fun c => claims c (x :: b)) _ _ c).
Qed.

Lemma ump_judged b : wf_buf U32 b -> exists r, ump_try_from b = Val r /\ judged r (ump_defects b).
Proof.
  intros Hwf. unfold ump_defects. destruct b as [|x b]; [eexists; split; [reflexivity|now apply judged_here]|].
  rewrite ump_by_family. destruct (ump_family _) as [f|] eqn:F.
  - destruct (family_judged f (x :: b)) as (r & E & J); [discriminate|exact Hwf|]. exists r. split; [exact E|].
    apply judged_skip; [discriminate|]. apply judged_skip; [discriminate|exact J].
  - eexists. split; [reflexivity|]. apply judged_skip; [discriminate|]. now apply judged_here.
Qed.

(** ** Byte streams *)

Definition byte_select (x : N) : option concrete :=
  (if (0x80 <=? x) && (x <=? 0xEF) then select cv1_arms (nibble8 x 0)
   else if x =? 0xF0 then Some CSysex7
   else if (0xF1 <=? x) && (x <=? 0xF6) || (0xF8 <=? x) && (x <=? 0xFF) then select sys_arms x
   else None)%N.
Lemma byte_select_type : forall x, (x < 256)%N -> option_map type_name (byte_select x) = midi1_type x.
Proof. finite 256%nat. Qed.
Lemma byte_select_in x c : byte_select x = Some c -> In c byte_types.
Proof.
  unfold byte_select, byte_types. destruct (_ && _)%bool; [|destruct (_ =? _)%N; [intros [= <-]; now left|destruct (_ || _)%bool; [|discriminate]]];
    intros H; apply select_in in H; right; unfold cv1_arms, sys_arms in H; cbn [map snd] in H;
    unfold system_common_messages, channel_voice1_messages; cbn [map app];
    repeat (destruct H as [<-|H]; [solve [repeat (first [left; reflexivity|right])]|]); destruct H.
Qed.
Lemma byte_names c c' : In c byte_types -> In c' byte_types -> type_name c' = type_name c -> c' = c.
Proof.
  intros H H' E. unfold byte_types, system_common_messages, channel_voice1_messages in *. cbn [map app] in H, H'.
  repeat (destruct H as [<-|H]; [repeat (destruct H' as [<-|H']; [first [reflexivity|vm_compute in E; discriminate E]|]); destruct H'|]).
  destruct H.
Qed.

Lemma byte_concrete c b : In c byte_types -> wf_buf U8 b -> exists r, concrete_try_from U8 c b = Val r /\ judged r (type_defects U8 c b).
Proof.
  intros [<-|H] Hwf.
  - eexists. split; [reflexivity|]. apply byte_sysex_judged.
  - apply in_map_iff in H as (m & <- & H). apply fixed_judged; [|clear Hwf|exact Hwf].
    + unfold all_messages. rewrite !in_app_iff in *. tauto.
    + apply in_app_iff in H. unfold system_common_messages, channel_voice1_messages in H.
      destruct H as [H|H]; repeat (destruct H as [<-|H]; [reflexivity|]); destruct H.
Qed.

Lemma bytes_dispatch x b : (x < 256)%N -> bytes_try_from (x :: b) =
  match byte_select x with
  | Some c => wrap U8 c (x :: b)
  | None => Val (Err (if (x <? 0x80) || (x =? 0xF7) then "Couldn't interpret bytes message type" else "Unknown midi1 channel voice status")%N)
  end.
Proof.
  intros Hx. unfold bytes_try_from, byte_select. cbn [idx nth_error bind].
  destruct (_ && _)%N eqn:A.
  - unfold cv1_try_from, dispatch. cbn [cv1_status idx nth_error bind]. replace ((x <? 128) || (x =? 247))%N with false by lia. reflexivity.
  - destruct (N.eqb_spec x 0xF0); [reflexivity|]. destruct (_ || _)%N eqn:B.
    + unfold sys_try_from, dispatch. cbn [idx nth_error bind sys_status]. replace ((x <? 128) || (x =? 247))%N with false by lia. reflexivity.
    + replace ((x <? 128) || (x =? 247))%N with true by lia. reflexivity.
Qed.

Lemma bytes_judged b : wf_buf U8 b -> exists r, bytes_try_from b = Val r /\ judged r (bytes_defects b).
Proof.
  intros Hwf. unfold bytes_defects. destruct b as [|x b]; [eexists; split; [reflexivity|now apply judged_here]|].
  assert (Hx : (x < 256)%N) by (exact (wf_nth U8 (x :: b) 0 Hwf)).
  rewrite bytes_dispatch by exact Hx. cbn [nth]. pose proof (byte_select_type x Hx) as T.
  destruct (byte_select x) as [c|] eqn:E; cbn [option_map] in T; rewrite <- T.
  - assert (R : ~ (x < 0x80 \/ x = 0xF7)%N).
    { unfold byte_select in E. intros H. destruct ((0x80 <=? x) && (x <=? 0xEF))%N eqn:A; [lia|].
      destruct (N.eqb_spec x 0xF0); [lia|]. destruct (_ || _)%N eqn:B; [lia|discriminate]. }
    pose proof (byte_select_in x c E) as Hc.
    destruct (wrap_judged U8 c (x :: b) _ (byte_concrete c (x :: b) Hc Hwf)) as (r & Er & J). exists r. split; [exact Er|].
    do 3 (apply judged_skip; [try discriminate; exact R|]).
    apply (one_judged r (fun c' => Some (type_name c) = Some (type_name c')) (fun c => type_defects U8 c (x :: b)) _ c); auto.
    intros c' H'. destruct (string_dec (type_name c') (type_name c)) as [D|D]; [left; now apply byte_names|right; congruence].
  - eexists. split; [reflexivity|]. destruct ((x <? 128) || (x =? 247))%N eqn:R.
    + apply judged_skip; [discriminate|]. apply judged_here. lia.
    + apply judged_skip; [discriminate|]. apply judged_skip; [lia|]. now apply judged_here.
Qed.
