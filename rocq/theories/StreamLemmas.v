(** Lemmas: reading slices that hold several messages. *)
From Coq Require Import NArith ZArith List String Bool Arith Lia Zify ZifyBool ZifyNat ZifyN.
From Verif Require Import Base BitOps BitLemmas ListLemmas Values Helpers Props Message MessageTable SpecLayout SpecFixed
  FixedLemmas FixedProofs PropertiesFixed Sysex SpecSysex SysexBridge SysexMore SysexInit SysexNth PropertiesSysex Text Aggregate SpecAggregate AggregateLemmas AggregateMore PropertiesAggregate
  Packet SpecPacket PacketLemmas PacketMore PropertiesPacket StreamClient SpecStream.
Import ListNotations.
Local Open Scope string_scope.
Local Open Scope list_scope.
Local Open Scope nat_scope.

(** ** One iteration *)

Definition parse_one (u : unit_id) (b : list N) : outcome (res aggregate) :=
  match u with U32 => ump_try_from b | U8 => bytes_try_from b end.

(** The units a message takes do not depend on what follows, and it takes some. *)
Lemma skip_app {A} (d t : list A) : skipn (List.length d) (d ++ t) = t.
Proof. rewrite skipn_app, Nat.sub_diag, skipn_all. reflexivity. Qed.

Lemma read_step u n c d t : d <> [] -> parse_one u (d ++ t) = Val (Ok (c, d ++ t)) ->
  concrete_data u c (d ++ t) = Val d ->
  read_loop u (S n) (d ++ t) = (l <-? read_loop u n t ;; Val (Ok ((c, d) :: l))).
Proof.
  intros Hd P D. destruct d as [|x d]; [congruence|]. cbn [read_loop app].
  change (x :: d ++ t) with ((x :: d) ++ t). unfold parse_one in P. rewrite P. cbn [try_bind bind fst].
  unfold agg_data. cbn [fst snd]. rewrite D. cbn [bind]. now rewrite skip_app.
Qed.

Lemma data_min u m : In m all_messages -> supports u m = true -> 1 <= min_size u m.
Proof.
  intros Hm Hs. assert (X : forallb (fun m => (1 <=? min_size U32 m)
     && (negb (supports U8 m) || (1 <=? min_size U8 m))) all_messages = true) by (vm_compute; reflexivity).
  rewrite forallb_forall in X. specialize (X m Hm). destruct u; rewrite ?Hs in X; lia.
Qed.

Lemma data_some u c b d : (u = U32 /\ In c ump_types \/ u = U8 /\ In c byte_types) ->
  concrete_data u c b = Val d -> d <> [].
Proof.
  intros T D. destruct (data_prefix u c b d D) as [(t & ->) _].
  destruct c as [m| | |K|K]; cbn [concrete_data] in D.
  - assert (Hm : In m all_messages /\ supports u m = true).
    { destruct T as [[-> T]|[-> T]]; [|now apply byte_fixed].
      apply in_flat_map in T as (f & _ & T). exact (types_fixed f m T). }
    pose proof (data_min u m (proj1 Hm) (proj2 Hm)). unfold data, size in D. apply prefix_ok in D as [L E].
    intros ->. cbn [app] in *. apply (f_equal (@List.length N)) in E. rewrite firstn_length in E. cbn in E. lia.
  - destruct u.
    + unfold data_b in D. destruct (size_b _) as [k|] eqn:Sz; [|discriminate]. cbn [bind] in D.
      apply prefix_ok in D as [L E]. unfold size_b in Sz. destruct (position _ _) eqn:P; [|discriminate].
      intros ->. apply (f_equal (@List.length N)) in E. rewrite firstn_length in E. cbn in E, L.
      assert (k = S n) by (cbn in Sz; congruence). cbn in L. lia.
    + unfold sx_data, sx_size in D. destruct (position _ _); [|discriminate]. cbn [bind] in D.
      apply prefix_ok in D as [L E]. intros ->. apply (f_equal (@List.length N)) in E. rewrite firstn_length in E. cbn in E, L. lia.
  - unfold sx_data, sx_size in D. destruct (position _ _); [|discriminate]. cbn [bind] in D.
    apply prefix_ok in D as [L E]. intros ->. apply (f_equal (@List.length N)) in E. rewrite firstn_length in E. cbn in E, L. lia.
  - unfold flex_data, dyn_size in D. destruct (position _ _); [|discriminate]. cbn [bind] in D.
    apply prefix_ok in D as [L E]. intros ->. apply (f_equal (@List.length N)) in E. rewrite firstn_length in E. cbn in E, L. lia.
  - unfold stream_data, dyn_size in D. destruct (position _ _); [|discriminate]. cbn [bind] in D.
    apply prefix_ok in D as [L E]. intros ->. apply (f_equal (@List.length N)) in E. rewrite firstn_length in E. cbn in E, L. lia.
Qed.

(** ** Byte streams *)

Lemma wf_cons u x b : wf_buf u (x :: b) -> (x < 2 ^ unit_bits u)%N /\ wf_buf u b.
Proof. intros W. inversion W; auto. Qed.

Lemma enough_more c t t' : enough c t -> enough c (t ++ t').
Proof. destruct c; cbn [enough]; rewrite ?app_length, ?in_app_iff; try tauto. lia. Qed.

Lemma bytes_nonempty c b : In c byte_types -> accepted U8 c b -> b <> [].
Proof.
  intros T A ->. unfold accepted in A. destruct T as [<-|T]; [discriminate A|]. apply in_map_iff in T as (x & <- & H).
  cbn [concrete_try_from] in A. pose proof (accepts_length U8 x [] A) as L. cbn [List.length] in L.
  assert (Hm : In (CFixed x) byte_types) by (right; now apply in_map). destruct (byte_fixed x Hm) as [H1 H2].
  pose proof (data_min U8 x H1 H2). lia.
Qed.

Lemma bytes_extend c d t : In c byte_types -> wf_buf U8 d -> accepted U8 c d -> accepted U8 c (d ++ t).
Proof.
  intros T W A. pose proof (bytes_nonempty c d T A) as Hd. destruct d as [|s d]; [congruence|].
  apply wf_cons in W as [Hs _]. pose proof (byte_key c s d Hs T A) as K. cbn [app].
  apply (byte_accepts s _ c K). apply enough_more. now apply (byte_accepts s _ c K).
Qed.

Lemma position_has {A} (P : A -> bool) l q : position P l = Some q -> exists x, In x l /\ P x = true.
Proof.
  revert q. induction l as [|x l IH]; intros q H; [discriminate|]. cbn [position] in H. destruct (P x) eqn:E.
  - exists x. split; [now left|exact E].
  - destruct (position P l) as [j|] eqn:X; [|discriminate]. destruct (IH j eq_refl) as (y & I & Y). exists y. split; [now right|exact Y].
Qed.

Lemma bytes_trim c b d : In c byte_types -> wf_buf U8 b -> accepted U8 c b -> concrete_data U8 c b = Val d ->
  accepted U8 c d /\ concrete_data U8 c d = Val d.
Proof.
  intros T W A D. split; [|apply (C10_data_prefix U8 c b d D)].
  pose proof (data_some U8 c b d (or_intror (conj eq_refl T)) D) as Hd.
  destruct (data_prefix U8 c b d D) as [(t & E) _]. destruct d as [|s d]; [congruence|]. subst b.
  apply wf_cons in W as [Hs _]. cbn [app] in A. pose proof (byte_key c s _ Hs T A) as K.
  apply (byte_accepts s _ c K). apply (byte_accepts s _ c K) in A.
  destruct c as [m| | |k|k]; cbn [enough] in *.
  - cbn [concrete_data] in D. unfold data, size in D. apply prefix_ok in D as [_ D]. apply (f_equal (@List.length N)) in D.
    rewrite firstn_length in D. cbn [List.length app] in D. rewrite app_length in A, D. lia.
  - pose proof (proj1 (proj2 (C10_data_prefix U8 CSysex7 _ _ D))) as D'. cbn [concrete_data] in D'.
    unfold data_b in D'. destruct (size_b _) as [k|] eqn:Sz; [|discriminate].
    unfold size_b in Sz. destruct (position _ _) as [q|] eqn:P; [|discriminate]. apply position_has in P as (x & [<-|I] & Hx).
    + apply N.eqb_eq in Hx. subst. discriminate K.
    + apply N.eqb_eq in Hx. now subst.
  - exfalso. destruct T as [T|T]; [discriminate|]. apply in_map_iff in T as (? & X & _). discriminate X.
  - exfalso. destruct T as [T|T]; [discriminate|]. apply in_map_iff in T as (? & X & _). discriminate X.
  - exfalso. destruct T as [T|T]; [discriminate|]. apply in_map_iff in T as (? & X & _). discriminate X.
Qed.

Lemma bytes_complete l : Forall (fun m => In (fst m) byte_types /\ whole U8 m /\ wf_buf U8 (snd m)) l ->
  forall n, List.length (stream_of_messages l) <= n -> read_loop U8 n (stream_of_messages l) = Val (Ok l).
Proof.
  induction l as [|[c d] l IH]; intros H n L; [destruct n; reflexivity|]. inversion H as [|? ? (T & (A & D) & W) H']; subst.
  cbn [fst snd] in *. unfold stream_of_messages in *. cbn [map List.concat snd] in *. rewrite app_length in L.
  pose proof (bytes_nonempty c d T A) as Hd. assert (1 <= List.length d) by (destruct d; [congruence|cbn; lia]).
  assert (Wr : wf_buf U8 (List.concat (map snd l))).
  { clear - H'. induction H' as [|[c d] l (_ & _ & W) _ IH]; [constructor|]. cbn [map List.concat snd]. now apply Forall_app. }
  destruct n as [|n]; [lia|]. rewrite (read_step U8 n c d).
  - rewrite IH by (auto; lia). reflexivity.
  - exact Hd.
  - cbn [parse_one]. apply bytes_iff; [now apply Forall_app|]. split; [exact T|]. split; [now apply bytes_extend|reflexivity].
  - apply (data_prefix U8 c d d D).
Qed.

Lemma bytes_sound : forall n b l, wf_buf U8 b -> read_loop U8 n b = Val (Ok l) ->
  b = stream_of_messages l /\ Forall (fun m => In (fst m) byte_types /\ whole U8 m /\ wf_buf U8 (snd m)) l.
Proof.
  induction n as [|n IH]; intros b l W R.
  - destruct b; [|discriminate]. assert (l = []) by (cbn in R; congruence). subst. split; [reflexivity|constructor].
  - destruct b as [|x b]; [assert (l = []) by (cbn in R; congruence); subst; split; [reflexivity|constructor]|].
    cbn [read_loop] in R. remember (x :: b) as b0 eqn:E0. clear E0 x b. rename b0 into b.
    destruct (bytes_try_from b) as [[[c m]|e]|] eqn:P; try discriminate R. cbn [try_bind bind fst] in R.
    apply bytes_iff in P as (T & A & ->); [|exact W]. unfold agg_data in R. cbn [fst snd] in R.
    destruct (concrete_data U8 c b) as [d|] eqn:D; [|discriminate R]. cbn [bind] in R.
    destruct (read_loop U8 n (skipn (List.length d) b)) as [[l'|e]|] eqn:R'; try discriminate R. cbn [try_bind bind] in R.
    assert (l = (c, d) :: l') by congruence. subst l.
    destruct (data_prefix U8 c b d D) as [(t & E) _]. subst b. rewrite skip_app in R'.
    pose proof W as W'. apply Forall_app in W' as [Wd Wt]. destruct (IH t l' Wt R') as [-> F].
    split; [reflexivity|]. constructor; [|exact F]. cbn [fst snd]. split; [exact T|]. split; [|exact Wd].
    exact (bytes_trim c _ d T W A D).
Qed.

Lemma bytes_data_ok c b : In c byte_types -> accepted U8 c b -> exists d, concrete_data U8 c b = Val d.
Proof.
  intros T A. destruct c as [m| | |k|k].
  - cbn [concrete_data]. unfold data, size. apply accepts_length in A. unfold prefix.
    destruct (Nat.leb_spec (min_size U8 m) (List.length b)); [eauto|lia].
  - cbn [concrete_data]. unfold accepted in A. cbn [concrete_try_from] in A.
    assert (A' : try_from_b b = Ok b) by congruence. apply accepts_b in A' as (l & r & Hl & ->).
    pose proof (septet_reads l r Hl) as (D & _). eauto.
  - exfalso. destruct T as [T|T]; [discriminate|]. apply in_map_iff in T as (? & X & _). discriminate X.
  - exfalso. destruct T as [T|T]; [discriminate|]. apply in_map_iff in T as (? & X & _). discriminate X.
  - exfalso. destruct T as [T|T]; [discriminate|]. apply in_map_iff in T as (? & X & _). discriminate X.
Qed.

(** Never a panic, and the fuel is enough. *)
Lemma bytes_loop_total : forall n b, wf_buf U8 b -> exists r, read_loop U8 n b = Val r.
Proof.
  induction n as [|n IH]; intros b W; destruct b as [|x b]; try (eexists; reflexivity).
  cbn [read_loop]. remember (x :: b) as b0 eqn:E0. clear E0 x b. rename b0 into b.
  destruct (bytes_total b W) as ([[c m]|e] & P); rewrite P; cbn [try_bind bind]; [|eauto].
  apply bytes_iff in P as (T & A & ->); [|exact W]. unfold agg_data. cbn [fst snd].
  destruct (bytes_data_ok c b T A) as (d & D). rewrite D. cbn [bind].
  destruct (IH (skipn (List.length d) b)) as ([l|e] & R); [|rewrite R; cbn; eauto|rewrite R; cbn; eauto].
  destruct (data_prefix U8 c b d D) as [(t & ->) _]. rewrite skip_app. now apply Forall_app in W.
Qed.

Lemma loop_fuel u : forall n m b, List.length b <= n -> List.length b <= m -> (u = U32 -> wf_buf U32 b) -> (u = U8 -> wf_buf U8 b) ->
  read_loop u n b = read_loop u m b.
Proof.
  induction n as [|n IH]; intros m b Ln Lm W3 W8.
  - destruct b; [destruct m; reflexivity|cbn in Ln; lia].
  - destruct b as [|x b]; [destruct m; reflexivity|]. destruct m as [|m]; [cbn in Lm; lia|].
    cbn [read_loop]. remember (x :: b) as b0 eqn:E0. assert (b0 <> []) by (subst; discriminate). clear E0 x b. rename b0 into b.
    destruct (match u with U32 => ump_try_from b | U8 => bytes_try_from b end) as [[[c v]|e]|] eqn:P; try reflexivity.
    cbn [try_bind bind]. unfold agg_data. cbn [fst snd].
    assert (T : (u = U32 /\ In c ump_types \/ u = U8 /\ In c byte_types) /\ v = b).
    { destruct u; [apply bytes_iff in P; [|auto]|apply ump_iff in P]; tauto. }
    destruct T as [T ->]. destruct (concrete_data u c b) as [d|] eqn:D; [|reflexivity]. cbn [bind].
    pose proof (data_some u c b d T D) as Hd. destruct (data_prefix u c b d D) as [(t & ->) _]. rewrite skip_app.
    assert (1 <= List.length d) by (destruct d; [congruence|cbn; lia]). rewrite app_length in Ln, Lm.
    rewrite (IH m t); [reflexivity|lia|lia|intros E; specialize (W3 E); now apply Forall_app in W3|intros E; specialize (W8 E); now apply Forall_app in W8].
Qed.

(** ** Universal MIDI Packets *)

Lemma one_packet_in c : one_packet c -> exists m, c = CFixed m /\ In c ump_types /\ In m all_messages
  /\ scans_packets m = false /\ sized U32 m.
Proof.
  unfold one_packet. intros H. rewrite !in_app_iff in H.
  assert (F : exists f, In c (types_of f) /\ In f [Utility; SystemCommon; ChannelVoice1; ChannelVoice2]).
  { destruct H as [H|[H|[H|H]]]; eexists; (split; [exact H|cbn; tauto]). }
  destruct F as (f & T & F). assert (X : exists m, c = CFixed m /\ In m all_messages /\ scans_packets m = false /\ sized U32 m).
  { clear H. assert (G : Forall (fun c => exists m, c = CFixed m /\ In m all_messages /\ scans_packets m = false /\ sized U32 m) (types_of f)).
    { destruct F as [<-|[<-|[<-|[<-|[]]]]]; repeat (apply Forall_cons; [eexists; split; [reflexivity|]; split; [listed|]; split; reflexivity|]); apply Forall_nil. }
    rewrite Forall_forall in G. now apply G. }
  destruct X as (m & E & X). exists m. split; [exact E|]. split; [|exact X].
  apply in_flat_map. exists f. split; [destruct f; cbn; tauto|exact T].
Qed.

Lemma one_packet_routed c : one_packet c -> ~ In c misrouted /\ c <> CFixed stream_function_block_discovery.
Proof.
  intros H. destruct (one_packet_in c H) as (m & -> & _ & _ & Sc & _). split.
  - intros [X|[X|[X|[]]]]; discriminate X.
  - intros X. assert (m = stream_function_block_discovery) by congruence. subst. discriminate Sc.
Qed.

Lemma ump_extend c d t : one_packet c -> wf_buf U32 d -> wf_buf U32 t -> accepted U32 c d -> accepted U32 c (d ++ t).
Proof.
  intros O W Wt A. destruct (one_packet_in c O) as (m & -> & _ & Hm & Sc & _).
  apply C10_trailing_units; auto. now apply accepts_holds32.
Qed.

Lemma ump_trim c b d : one_packet c -> wf_buf U32 b -> accepted U32 c b -> concrete_data U32 c b = Val d ->
  accepted U32 c d /\ concrete_data U32 c d = Val d.
Proof.
  intros O W A D. split; [|apply (C10_data_prefix U32 c b d D)].
  destruct (one_packet_in c O) as (m & -> & _ & Hm & Sc & Z).
  destruct (C10_data_self_contained U32 m b Hm eq_refl W Z A) as (d' & t & _ & D' & _ & A' & _).
  { intros P. unfold scans_packets in Sc. rewrite P, orb_true_r in Sc. discriminate. }
  cbn [concrete_data] in D. assert (d' = d) by congruence. subst. exact A'.
Qed.

Lemma ump_nonempty f c b : In c (types_of f) -> accepted U32 c b -> b <> [].
Proof. intros T A. exact (proj1 (accepted_key f c b T A)). Qed.

(** The last message may be of any type that [UmpMessage] knows. *)
Lemma ump_complete l z : Forall (fun m => one_packet (fst m) /\ whole U32 m /\ wf_buf U32 (snd m)) l ->
  (forall m, z = Some m -> wf_buf U32 (snd m) /\ whole U32 m /\ exists x, ump_try_from (snd m) = Val (Ok (fst m, x))) ->
  let all := l ++ match z with Some m => [m] | None => [] end in
  forall n, List.length (stream_of_messages all) <= n -> read_loop U32 n (stream_of_messages all) = Val (Ok all).
Proof.
  intros H Hz. induction l as [|[c d] l IH]; intros all n L.
  - subst all. destruct z as [[c d]|]; [|destruct n; reflexivity]. destruct (Hz _ eq_refl) as (W & (A & D) & x & P).
    cbn [fst snd] in *. unfold stream_of_messages in *. cbn [map List.concat snd app] in *. rewrite app_nil_r in *.
    apply ump_iff in P as P'. destruct P' as (T & _ & _ & _ & ->).
    assert (Hd : d <> []) by (apply (data_some U32 c d d); [now left|exact D]).
    assert (1 <= List.length d) by (destruct d; [congruence|cbn; lia]). destruct n as [|n]; [lia|].
    pose proof (read_step U32 n c d [] Hd) as R. rewrite app_nil_r in R. rewrite R; auto. destruct n; reflexivity.
  - subst all. inversion H as [|? ? (T & (A & D) & W) H']; subst. specialize (IH H').
    cbn [app] in *. set (all := l ++ _) in *.
    cbn [fst snd] in *. unfold stream_of_messages in *. cbn [map List.concat snd] in *. rewrite app_length in L.
    destruct (one_packet_in c T) as (m & _ & T' & _).
    assert (Hd : d <> []) by (apply (data_some U32 c d d); [now left|exact D]).
    assert (1 <= List.length d) by (destruct d; [congruence|cbn; lia]).
    assert (Wr : wf_buf U32 (List.concat (map snd all))).
    { subst all. rewrite map_app, concat_app. apply Forall_app. split.
      - clear - H'. induction H' as [|[c d] l (_ & _ & W) _ IH]; [constructor|]. cbn [map List.concat snd]. now apply Forall_app.
      - destruct z as [mz|]; [|constructor]. cbn. rewrite app_nil_r. now apply (Hz mz). }
    destruct n as [|n]; [lia|]. rewrite (read_step U32 n c d); [|exact Hd| |apply (data_prefix U32 c d d D)].
    + rewrite IH by lia. reflexivity.
    + cbn [parse_one]. apply ump_iff. destruct (one_packet_routed c T) as [M N0]. split; [exact T'|]. split; [exact M|].
      split; [intros X; congruence|]. split; [now apply ump_extend|reflexivity].
Qed.

Lemma ump_sound : forall n b l, wf_buf U32 b -> read_loop U32 n b = Val (Ok l) ->
  b = stream_of_messages l /\ Forall (fun m => In (fst m) ump_types /\ (one_packet (fst m) -> whole U32 m) /\ wf_buf U32 (snd m)) l.
Proof.
  induction n as [|n IH]; intros b l W R.
  - destruct b; [|discriminate]. assert (l = []) by (cbn in R; congruence). subst. split; [reflexivity|constructor].
  - destruct b as [|x b]; [assert (l = []) by (cbn in R; congruence); subst; split; [reflexivity|constructor]|].
    cbn [read_loop] in R. remember (x :: b) as b0 eqn:E0. clear E0 x b. rename b0 into b.
    destruct (ump_try_from b) as [[[c m]|e]|] eqn:P; try discriminate R. cbn [try_bind bind fst] in R.
    apply ump_iff in P as (T & _ & _ & A & ->). unfold agg_data in R. cbn [fst snd] in R.
    destruct (concrete_data U32 c b) as [d|] eqn:D; [|discriminate R]. cbn [bind] in R.
    destruct (read_loop U32 n (skipn (List.length d) b)) as [[l'|e]|] eqn:R'; try discriminate R. cbn [try_bind bind] in R.
    assert (l = (c, d) :: l') by congruence. subst l.
    destruct (data_prefix U32 c b d D) as [(t & E) _]. subst b. rewrite skip_app in R'.
    pose proof W as W'. apply Forall_app in W' as [Wd Wt]. destruct (IH t l' Wt R') as [-> F].
    split; [reflexivity|]. constructor; [|exact F]. cbn [fst snd]. split; [exact T|]. split; [|exact Wd].
    intros O. exact (ump_trim c _ d O W A D).
Qed.

(** ** Packets *)

Lemma type_field_app d t : d <> [] -> type_field (d ++ t) = type_field d.
Proof. destruct d; [congruence|reflexivity]. Qed.
Lemma valid_codes_app f d t : d <> [] -> valid_codes f (d ++ t) <-> valid_codes f d.
Proof. destruct d; [congruence|]. intros _. destruct f; reflexivity. Qed.
Lemma words_asked_le f : words_asked f <= family_words f.
Proof. destruct f; cbn; lia. Qed.
Lemma fitted_app n d t : List.length d = n -> fitted n (d ++ t) = d.
Proof.
  intros L. rewrite <- (fitted_own n d L) at 2. unfold fitted. apply map_ext_in. intros i Hi. apply in_seq in Hi.
  apply app_nth1. lia.
Qed.

Lemma packets_complete l : Forall sound_packet l ->
  forall n, List.length (stream_of_packets l) <= n -> packet_loop n (stream_of_packets l) = Val (Ok l).
Proof.
  induction l as [|[k d] l IH]; intros H n L; [destruct n; reflexivity|]. inversion H as [|? ? (f & E & T & Ld & V) H']; subst.
  cbn [fst snd] in *. subst k. unfold stream_of_packets in *. cbn [map List.concat snd] in *. rewrite app_length in L.
  pose proof (family_words_pos f). assert (Hd : d <> []) by (destruct d; [cbn in Ld; lia|discriminate]).
  destruct n as [|n]; [lia|]. set (t := List.concat (map snd l)) in *.
  assert (P : packet_try_from (d ++ t) = Val (Ok (variant f, d))).
  { destruct (packet_ok (d ++ t)) as (r & P & R). rewrite P. f_equal. apply R. exists f.
    rewrite type_field_app, valid_codes_app, fitted_app, app_length by auto. pose proof (words_asked_le f).
    split; [lia|auto]. }
  destruct d as [|x d]; [congruence|]. cbn [packet_loop app]. change (x :: d ++ t) with ((x :: d) ++ t). rewrite P.
  cbn [try_bind bind packet_data snd]. rewrite skip_app, IH by (auto; lia). reflexivity.
Qed.

Lemma fitted_sound f b : b <> [] -> ump_family (type_field b) = Some f -> valid_codes f b ->
  sound_packet (variant f, fitted (family_words f) b).
Proof.
  intros Hb T V. exists f. cbn [fst snd]. pose proof (family_words_pos f) as Hw. split; [reflexivity|]. split; [|split].
  - unfold type_field. now rewrite fitted_bits.
  - apply fitted_length.
  - destruct f; cbn [valid_codes] in *; unfold status_field, size_field in *; rewrite ?fitted_bits by (cbn; lia); auto.
Qed.

Lemma fitted_long n b : n <= List.length b -> fitted n b = firstn n b.
Proof.
  intros L. rewrite <- (firstn_skipn n b) at 1. apply fitted_app. rewrite firstn_length. lia.
Qed.
Lemma fitted_pad n b : List.length b <= n -> fitted n b = b ++ repeat 0%N (n - List.length b).
Proof. intros L. rewrite <- copied_fitted. unfold copied. now rewrite firstn_all2. Qed.

Lemma packets_total : forall n b, List.length b <= n ->
  (exists l z, packet_loop n b = Val (Ok l) /\ stream_of_packets l = b ++ repeat 0%N z /\ z < 4 /\ Forall sound_packet l)
  \/ (exists e l t, packet_loop n b = Val (Err e) /\ b = stream_of_packets l ++ t /\ t <> [] /\ Forall sound_packet l
       /\ packet_try_from t = Val (Err e)).
Proof.
  induction n as [|n IH]; intros b L.
  - destruct b; [|cbn in L; lia]. left. exists [], 0. repeat split; [lia|constructor].
  - destruct b as [|x b]; [left; exists [], 0; repeat split; [lia|constructor]|].
    cbn [packet_loop]. remember (x :: b) as b0 eqn:E0. assert (Hb : b0 <> []) by (subst; discriminate). clear E0 x b. rename b0 into b.
    destruct (packet_ok b) as ([p|e] & P & R); rewrite P; cbn [try_bind bind].
    2: { right. exists e, [], b. split; [reflexivity|]. split; [reflexivity|]. split; [exact Hb|]. split; [constructor|exact P]. }
    destruct (proj1 (R p) eq_refl) as (f & Hn & T & V & ->). cbn [packet_data snd]. rewrite fitted_length.
    pose proof (family_words_pos f) as Hw. assert (Hs := fitted_sound f b Hb T V).
    destruct (Nat.le_gt_cases (family_words f) (List.length b)) as [Le|Gt].
    + destruct (IH (skipn (family_words f) b)) as [(l & z & E & St & Hz & F)|(e & l & t & E & St & Ht & F & Pe)]; [rewrite skipn_length; lia| |];
        rewrite E; cbn [try_bind bind].
      * left. eexists. exists z. split; [reflexivity|]. unfold stream_of_packets in *. cbn [map List.concat snd].
        rewrite St, fitted_long, app_assoc, firstn_skipn by exact Le. rewrite fitted_long in Hs by exact Le. auto.
      * right. exists e, ((variant f, fitted (family_words f) b) :: l), t. split; [reflexivity|].
        unfold stream_of_packets in *. cbn [map List.concat snd]. rewrite fitted_long by exact Le.
        rewrite <- app_assoc, <- St, firstn_skipn. rewrite fitted_long in Hs by exact Le. auto.
    + rewrite skipn_all2 by lia. left. exists [(variant f, fitted (family_words f) b)], (family_words f - List.length b).
      assert (packet_loop n [] = Val (Ok [])) as -> by (destruct n; reflexivity). cbn [try_bind bind]. split; [reflexivity|].
      unfold stream_of_packets. cbn [map List.concat snd]. rewrite app_nil_r, fitted_pad by lia. split; [reflexivity|].
      split; [|rewrite fitted_pad in Hs by lia; auto].
      assert (1 <= List.length b) by (destruct b; [congruence|cbn; lia]).
      assert (family_words f <= 4) by (destruct f; cbn; lia). lia.
Qed.
