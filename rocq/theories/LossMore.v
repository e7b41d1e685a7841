(** Lemmas: texts some of whose packets are lost, and a receiver after a disturbance. *)
From Coq Require Import NArith ZArith List String Bool Arith Lia Zify ZifyBool ZifyNat ZifyN.
From Verif Require Import Base BitOps BitLemmas ListLemmas Values Helpers Props PropLemmas PropValidate Message MessageTable SpecLayout SpecFixed
  FixedLemmas Sysex SpecSysex SysexBridge Text SpecText TextParse Aggregate SpecAggregate AggregateLemmas AggregateMore
  Packet SpecPacket PacketLemmas PacketMore PropertiesPacket StreamClient SpecStream Receiver SpecReceiver ReceiverLemmas SpecLoss LossLemmas.
Import ListNotations.
Local Open Scope string_scope.
Local Open Scope list_scope.
Local Open Scope nat_scope.

Ltac Zify.zify_post_hook ::= Z.to_euclidean_division_equations.

(** ** Texts *)

Lemma parts_fields b k ps lo n : List.length b = 4 * k -> Forall (fun p => p < k) ps -> let a := arriving 4 (map (pair b) ps) in
  List.length a = 4 * List.length ps
  /\ forall i, i < List.length ps -> bits a (Seg (4 * i) lo n) = bits b (Seg (4 * nth i ps 0) lo n).
Proof.
  intros Lb F a. unfold a. rewrite arriving_concat, map_map. cbn [fst snd].
  assert (Q : Forall (fun q : list N => List.length q = 4) (map (fun x => packet_no 4 b x) ps)).
  { apply Forall_map. apply Forall_forall. intros p Hp. rewrite Forall_forall in F. pose proof (F p Hp). apply packet_no_len. lia. }
  split; [rewrite (concat_len 4) by exact Q; now rewrite map_length|]. intros i Hi.
  rewrite <- (Nat.add_0_r (4 * i)), (bits_concat 4); [|exact Q|lia|now rewrite map_length].
  rewrite (nth_indep _ [] (packet_no 4 b 0)) by (now rewrite map_length). rewrite (map_nth (fun x => packet_no 4 b x)), bits_packet by lia.
  now rewrite Nat.add_0_r.
Qed.

Lemma whole_leading t a n : List.length a = 4 * n -> (forall i, i < n -> bits a (Seg (4 * i) 28 4) = t) -> leading 4 t a n.
Proof.
  intros L T. unfold leading. rewrite L. replace ((4 * n + 4 - 1) / 4) with n by lia. split; [lia|]. split; [exact T|lia].
Qed.

Lemma arrived_framed b k ps lo : List.length b = 4 * k -> Forall (fun p => p < k) ps ->
  (forall p, p < k -> bits b (Seg (4 * p) lo 2) = status_code k p) ->
  let a := arriving 4 (map (pair b) ps) in
  SpecFixed.framed (fun p => bits a (Seg (4 * p) lo 2)) 0 1 2 3 (List.length ps) <-> looks_whole k ps.
Proof.
  intros Lb F M a. rewrite <- looks_marked, well_marked_at, framed_marks, map_length by exact F.
  assert (E : forall i, i < List.length ps -> bits a (Seg (4 * i) lo 2) = nth i (map (status_code k) ps) 0%N).
  { intros i Hi. unfold a. rewrite (proj2 (parts_fields b k ps lo 2 Lb F)) by exact Hi.
    rewrite (nth_indep _ 0%N (status_code k 0)) by (now rewrite map_length). rewrite (map_nth (status_code k)). apply M.
    rewrite Forall_forall in F. now apply F, nth_In. }
  split; intros [L H]; (split; [exact L|]); intros i Hi; specialize (H i Hi); [rewrite <- E|rewrite E]; auto.
Qed.

Lemma family_flex n : ump_family n = Some FlexData -> n = 0xD%N.
Proof. unfold ump_family. destruct n as [|p]; [discriminate|]. do 4 (destruct p as [p|p|]; try discriminate); try reflexivity. Qed.

Lemma flex_arrived K b ps : In K flex_texts -> flex_try_from K b = Val (Ok b) -> Text.flex_data b = Val b ->
  Forall (fun p => p < List.length b / 4) ps -> let a := arriving 4 (map (pair b) ps) in
  flex_try_from K a = Val (Ok a) <-> looks_whole (List.length b / 4) ps /\ is_string (flex_reading a).
Proof.
  intros HK A D F a.
  destruct (accepted_sound FlexData (CFlexText K) b b) as (k & Hk & S0 & Eb & _); [apply in_app_iff; right; now apply in_map|discriminate| |exact D|].
  { unfold accepted. cbn [concrete_try_from]. now rewrite A. }
  destruct S0 as [L S0]. cbn [family_words] in *.
  assert (Lb : List.length b = 4 * k) . { apply (f_equal (@List.length N)) in Eb. rewrite firstn_length in Eb. lia. }
  replace (List.length b / 4) with k in * by lia.
  assert (T : forall p, p < k -> bits b (Seg (4 * p) 28 4) = 0xD%N) by (intros p Hp; now apply family_flex, (S0 p Hp)).
  apply flex_try_from_ok in A as (_ & _ & _ & BS & Fr & _). replace (List.length b / 4) with k in * by lia.
  destruct (Fr k (whole_leading _ _ _ Lb T)) as [G Fm]. apply framed_marks in Fm as [_ Fm].
  pose proof (arrived_framed b k ps 22 Lb F Fm) as AF. cbv zeta in AF. fold a in AF.
  assert (La : List.length a = 4 * List.length ps) by apply (parts_fields b k ps 0 0 Lb F).
  assert (Fd : forall lo n i, i < List.length ps -> bits a (Seg (4 * i) lo n) = bits b (Seg (4 * nth i ps 0) lo n)).
  { intros lo n. apply (parts_fields b k ps lo n Lb F). }
  assert (In_ : forall i, i < List.length ps -> nth i ps 0 < k) by (intros i Hi; rewrite Forall_forall in F; now apply F, nth_In).
  assert (Ta : forall i, i < List.length ps -> bits a (Seg (4 * i) 28 4) = 0xD%N) by (intros i Hi; rewrite Fd by exact Hi; auto).
  pose proof (whole_leading _ _ _ La Ta) as Ld.
  rewrite flex_try_from_ok. unfold flex_accepts. split.
  - intros (_ & L4 & _ & _ & Fra & Str). split; [|exact Str]. apply AF. now apply Fra.
  - intros [Lw Str]. split; [reflexivity|]. apply AF in Lw. assert (1 <= List.length ps) by (apply framed_marks in Lw; tauto).
    split; [lia|]. split; [exact (Ta 0 ltac:(lia))|]. split; [|split; [|exact Str]].
    + intros p Hp. rewrite La in Hp. replace (4 * List.length ps / 4) with (List.length ps) in Hp by lia. rewrite !Fd by exact Hp. apply BS. auto.
    + intros k' Hk'. rewrite (leading_unique _ _ _ _ _ Hk' Ld). split; [|exact Lw]. intros p Hp _. change 0 with (4 * 0) at 2. rewrite !Fd by lia.
      pose proof (In_ p Hp). pose proof (In_ 0 ltac:(lia)). rewrite !G by lia. reflexivity.
Qed.

Lemma stream_arrived K b ps : In K stream_texts -> stream_try_from K b = Val (Ok b) -> Text.stream_data b = Val b ->
  Forall (fun p => p < List.length b / 4) ps -> let a := arriving 4 (map (pair b) ps) in
  stream_try_from K a = Val (Ok a) <-> looks_whole (List.length b / 4) ps /\ is_string (stream_reading (sk_off K) a).
Proof.
  intros HK A D F a. assert (Ho : sk_off K = 0 \/ sk_off K = 1) by (cbn in HK; intuition (subst; cbn; auto)).
  destruct (accepted_sound UmpStream (CStreamText K) b b) as (k & Hk & S0 & Eb & _); [apply in_app_iff; right; now apply in_map|discriminate| |exact D|].
  { unfold accepted. cbn [concrete_try_from]. now rewrite A. }
  destruct S0 as [L S0]. cbn [family_words] in *.
  assert (Lb : List.length b = 4 * k) by (apply (f_equal (@List.length N)) in Eb; rewrite firstn_length in Eb; lia).
  replace (List.length b / 4) with k in * by lia.
  assert (T : forall p, p < k -> bits b (Seg (4 * p) 28 4) = 0xF%N) by (intros p Hp; now apply family_type, (S0 p Hp)).
  assert (OK : forall b v, stream_try_from K b = Val (Ok v) <-> v = b /\ stream_accepts (sk_status K) (sk_off K) b) by (intros; apply stream_try_from_ok; lia).
  apply OK in A as (_ & _ & _ & BS & Fr & Bl & _). replace (List.length b / 4) with k in * by lia.
  pose proof (Fr k (whole_leading _ _ _ Lb T)) as Fm. apply framed_marks in Fm as [_ Fm].
  pose proof (arrived_framed b k ps 26 Lb F Fm) as AF. cbv zeta in AF. fold a in AF.
  assert (La : List.length a = 4 * List.length ps) by apply (parts_fields b k ps 0 0 Lb F).
  assert (Fd : forall lo n i, i < List.length ps -> bits a (Seg (4 * i) lo n) = bits b (Seg (4 * nth i ps 0) lo n)).
  { intros lo n. apply (parts_fields b k ps lo n Lb F). }
  assert (In_ : forall i, i < List.length ps -> nth i ps 0 < k) by (intros i Hi; rewrite Forall_forall in F; now apply F, nth_In).
  assert (Ta : forall i, i < List.length ps -> bits a (Seg (4 * i) 28 4) = 0xF%N) by (intros i Hi; rewrite Fd by exact Hi; auto).
  pose proof (whole_leading _ _ _ La Ta) as Ld.
  rewrite OK. unfold stream_accepts. split.
  - intros (_ & L4 & _ & _ & Fra & _ & Str). split; [|exact Str]. apply AF. now apply Fra.
  - intros [Lw Str]. split; [reflexivity|]. apply AF in Lw. assert (1 <= List.length ps) by (apply framed_marks in Lw; tauto).
    split; [lia|]. split; [exact (Ta 0 ltac:(lia))|]. rewrite La. replace (4 * List.length ps / 4) with (List.length ps) by lia.
    split; [|split; [|split; [|exact Str]]].
    + intros p Hp. rewrite !Fd by exact Hp. apply BS. auto.
    + intros k' Hk'. now rewrite (leading_unique _ _ _ _ _ Hk' Ld).
    + intros O1 p Hp. change 0 with (4 * 0) at 2. rewrite !Fd by lia. rewrite !(Bl O1) by (apply In_; lia). reflexivity.
Qed.

(** ** A receiver after a disturbance *)

(** With [acc] received, the packets [ps] give the results [rs]. *)
Inductive owed : list N -> list packet -> list (res aggregate) -> Prop :=
| owed_nothing acc : owed acc [] []
| owed_result acc qs ps r rs :
    qs <> [] ->
    (forall p x, nth_error qs p = Some x -> is_final x = Val (S p =? List.length qs)) ->
    ump_try_from (acc ++ List.concat (map packet_data qs)) = Val r ->
    owed [] ps rs -> owed acc (qs ++ ps) (r :: rs).

Lemma owed_step acc p ps rs : owed acc (p :: ps) rs ->
  (is_final p = Val false /\ owed (acc ++ packet_data p) ps rs)
  \/ (is_final p = Val true /\ exists r rs', rs = r :: rs' /\ ump_try_from (acc ++ packet_data p) = Val r /\ owed [] ps rs').
Proof.
  intros H. remember (p :: ps) as l eqn:E. destruct H as [|acc qs ps' r rs Q F P R]; [discriminate|].
  destruct qs as [|q qs]; [congruence|]. cbn [app] in E. injection E as -> <-. pose proof (F 0 p eq_refl) as F0. cbn [List.length] in F0.
  cbn [map List.concat] in P. destruct qs as [|q qs].
  - right. split; [exact F0|]. exists r, rs. split; [reflexivity|]. cbn [map List.concat app] in P. rewrite app_nil_r in P. auto.
  - left. split; [exact F0|]. constructor; [discriminate| | |exact R].
    + intros i x Hi. exact (F (S i) x Hi).
    + rewrite <- app_assoc. exact P.
Qed.

Lemma owed_none acc rs : owed acc [] rs -> rs = [].
Proof. intros H. inversion H as [|acc' qs ps' r rs' Q F P R E1 E2]; [auto|]. destruct qs; [congruence|discriminate]. Qed.

Lemma owes_owed acc ps ms : owes acc ps ms -> owed acc ps (map Ok ms).
Proof. induction 1 as [|acc qs ps m ms Q F C P R IH]; [constructor|]. cbn [map]. constructor; auto. rewrite C. exact P. Qed.

Lemma owes_no_packets acc ps : owes acc ps [] -> ps = [].
Proof. intros H. now inversion H. Qed.

Lemma receive_any key at_ ps : (forall p, In p ps -> key p = Val (at_ p)) -> forall st rs,
  (forall k, owed (so_far st k) (filter (fun p => at_ p =? k)%N ps) (rs k)) ->
  exists st' out, receive_all key st ps = Val (st', out)
    /\ (forall k, results k out = rs k)
    /\ (forall k, so_far st' k = match rs k with [] => so_far st k | _ => [] end).
Proof.
  induction ps as [|p ps IH]; intros K st rs H.
  - exists st, []. split; [reflexivity|]. split; intros k; now rewrite (owed_none _ _ (H k)).
  - set (k := at_ p). cbn [receive_all]. unfold receive. rewrite (K p) by now left. fold k. cbn [bind].
    pose proof (H k) as Hk. cbn [filter] in Hk. fold k in Hk. rewrite N.eqb_refl in Hk.
    assert (Ho : forall j, j <> k -> owed (so_far st j) (filter (fun p => at_ p =? j)%N ps) (rs j)).
    { intros j Hj. pose proof (H j) as X. cbn [filter] in X. fold k in X. replace (k =? j)%N with false in X; [exact X|].
      symmetry. apply N.eqb_neq. congruence. }
    assert (Hr : rs k <> []) by (intros E; rewrite E in Hk; inversion Hk).
    apply owed_step in Hk as [(F & O)|(F & r & rs' & E & P & O)]; rewrite F; cbn [bind].
    + destruct (IH (fun q Hq => K q (or_intror Hq)) ((k, so_far st k ++ packet_data p) :: closed st k) rs) as (st' & out & R & S1 & S2).
      { intros j. cbn [so_far]. destruct (N.eqb_spec k j) as [E0|Nj]; [rewrite <- E0; exact O|]. rewrite so_far_closed.
        replace (k =? j)%N with false by (symmetry; now apply N.eqb_neq). apply Ho. congruence. }
      cbn [fst snd]. rewrite R. cbn [bind fst snd]. exists st', out. split; [reflexivity|]. split; [exact S1|].
      intros j. rewrite S2. destruct (rs j) eqn:Ej; [|reflexivity]. cbn [so_far]. rewrite so_far_closed. destruct (N.eqb_spec k j) as [E0|Nj]; [|reflexivity].
      elim Hr. now rewrite E0.
    + rewrite P. cbn [bind].
      destruct (IH (fun q Hq => K q (or_intror Hq)) (closed st k) (fun j => if (j =? k)%N then rs' else rs j)) as (st' & out & R & S1 & S2).
      { intros j. rewrite so_far_closed, (N.eqb_sym k j). destruct (N.eqb_spec j k) as [E0|Nj]; [rewrite E0; exact O|]. now apply Ho. }
      cbn [fst snd]. rewrite R. cbn [bind fst snd]. exists st', ((k, r) :: out). split; [reflexivity|]. split.
      * intros j. unfold results in *. cbn [filter fst]. specialize (S1 j). rewrite (N.eqb_sym k j). destruct (N.eqb_spec j k) as [E0|Nj]; [rewrite E0 in *|exact S1].
        cbn [map snd]. now rewrite E, S1.
      * intros j. rewrite S2, so_far_closed. destruct (N.eqb_spec j k) as [E0|Nj].
        -- rewrite E0, E, N.eqb_refl. now destruct rs'.
        -- now replace (k =? j)%N with false by (symmetry; apply N.eqb_neq; congruence).
Qed.
