(** Lemmas: messages whose packets arrive interleaved. *)
From Coq Require Import NArith ZArith List String Bool Arith Lia Zify ZifyBool ZifyNat ZifyN.
From Verif Require Import Base BitOps BitLemmas ListLemmas Values Helpers Props PropLemmas PropValidate Message MessageTable SpecLayout SpecFixed
  FixedLemmas FixedProofs PropertiesFixed Sysex SpecSysex SysexBridge SysexMore SysexInit SysexNth PropertiesSysex Text Aggregate SpecAggregate AggregateLemmas AggregateMore PropertiesAggregate
  Packet SpecPacket PacketLemmas PacketMore PropertiesPacket StreamClient SpecStream StreamLemmas Receiver SpecReceiver.
Import ListNotations.
Local Open Scope string_scope.
Local Open Scope list_scope.
Local Open Scope nat_scope.

(** ** Which packet is the last of its message *)

Definition ending (v : N) : bool := ((v =? 0) || (v =? 3))%N.
Definition mark (f : family) (c : list N) : bool :=
  match f with
  | Sysex7 | Sysex8 => ending (nibble32 (hd0 c) 2)
  | FlexData => ending (crumb32 (hd0 c) 4)
  | UmpStream => ending (crumb32 (hd0 c) 2)
  | _ => true
  end.

Lemma ends_code t : ends t = ending (form_code t).
Proof. now destruct t. Qed.

Lemma format_ok c k v : c <> [] -> crumb32 (hd0 c) k = v -> (v < 4)%N ->
  exists t, packet_format k (PFlex, c) = Val t /\ form_code t = v.
Proof.
  intros F E L. unfold packet_format. cbn [snd]. rewrite idx0 by exact F. cbn [bind]. change (nth 0 c 0%N) with (hd0 c). rewrite E.
  assert (X : (v = 0 \/ v = 1 \/ v = 2 \/ v = 3)%N) by lia. destruct X as [->|[->|[->| ->]]]; cbn; eexists; split; reflexivity.
Qed.

Lemma crumb_lt x k : (crumb32 x k < 4)%N.
Proof. unfold crumb32. change 3%N with (N.ones 2). rewrite N.land_ones. apply N.mod_lt. discriminate. Qed.

Lemma status_hd c : status_field c = nibble32 (hd0 c) 2.
Proof. unfold status_field, hd0. now rewrite nibble32_bits. Qed.

Lemma final_mark f c : List.length c = family_words f -> valid_codes f c -> is_final (variant f, c) = Val (mark f c).
Proof.
  intros L V. assert (F : c <> []) by (intros ->; destruct f; discriminate L).
  destruct f; cbn [variant is_final fst mark valid_codes family_words] in *; try reflexivity.
  - unfold status7. cbn [snd]. rewrite status7_cases by exact F. rewrite <- status_hd. destruct V as [V _].
    assert (X : (status_field c = 0 \/ status_field c = 1 \/ status_field c = 2 \/ status_field c = 3)%N) by lia.
    destruct X as [->|[->|[->| ->]]]; reflexivity.
  - destruct (status8_ok c) as (s & E & B & T); [lia|exact V|]. unfold status8. cbn [snd]. rewrite E. cbn [unwrapped bind]. rewrite <- status_hd. f_equal.
    destruct s as [t|v]; [now rewrite ends_code, (T t eq_refl)|]. destruct (proj1 (B v) eq_refl) as (-> & _). reflexivity.
  - destruct (format_ok c 4 _ F eq_refl (crumb_lt _ _)) as (t & E & C). unfold flex_packet_format, packet_format in *. cbn [snd] in *. rewrite E. cbn [bind].
    now rewrite ends_code, C.
  - destruct (format_ok c 2 _ F eq_refl (crumb_lt _ _)) as (t & E & C). unfold stream_packet_format, packet_format in *. cbn [snd] in *. rewrite E. cbn [bind].
    now rewrite ends_code, C.
Qed.

Lemma position_at {A} (P : A -> bool) l q d : position P l = Some q -> P (nth q l d) = true.
Proof.
  revert q. induction l as [|x l IH]; intros q H; [discriminate|]. cbn [position] in H. destruct (P x) eqn:E.
  - injection H as <-. exact E.
  - destruct (position P l) as [j|]; [|discriminate]. injection H as <-. cbn [nth]. now apply IH.
Qed.

Lemma marks_position f (P : list N -> bool) b q w : (forall c, P c = mark f c) -> 0 < w -> position P (chunks_exact w b) = Some q ->
  forall p, p < S q -> mark f (chunk w p b) = (S p =? S q).
Proof.
  intros E Hw Q p Hp. destruct (position_min P _ q Q) as [Lq Mq]. rewrite chunks_exact_spec in * by exact Hw.
  assert (N0 : forall i, i <= q -> nth i (map (fun i => chunk w i b) (seq 0 (List.length b / w))) [] = chunk w i b).
  { intros i Hi. rewrite map_length, seq_length in Lq. rewrite nth_indep with (d' := chunk w 0 b) by (rewrite map_length, seq_length; lia).
    rewrite map_nth with (f := fun i => chunk w i b). now rewrite seq_nth by lia. }
  rewrite <- E. destruct (Nat.eq_dec p q) as [->|X].
  - rewrite Nat.eqb_refl, <- (N0 q) by lia. now apply position_at.
  - replace (S p =? S q) with false by lia. rewrite <- (N0 p) by lia. apply Mq. lia.
Qed.

Lemma flex_format_field : Forall (fun m => exists f, In (f, PFlexFormat 0) (m_fields m)) flex_data_messages.
Proof. repeat apply Forall_cons; try apply Forall_nil; (eexists; field). Qed.
Lemma stream_format_field : Forall (fun m => m = stream_function_block_discovery \/ exists f, In (f, PStreamFormats) (m_fields m)) ump_stream_messages.
Proof. repeat apply Forall_cons; try apply Forall_nil; first [left; reflexivity|right; eexists; field]. Qed.

Lemma flex_text_family f k : In (CFlexText k) (types_of f) -> f = FlexData.
Proof.
  intros H. destruct f; cbn [types_of] in H; repeat rewrite in_app_iff in H; repeat rewrite in_map_iff in H;
    repeat match goal with H : _ \/ _ |- _ => destruct H | H : exists _, _ |- _ => destruct H as (? & ? & ?) end;
    try discriminate; try reflexivity; try (destruct H; easy).
Qed.
Lemma stream_text_kind f k : In (CStreamText k) (types_of f) -> f = UmpStream.
Proof.
  intros H. destruct f; cbn [types_of] in H; repeat rewrite in_app_iff in H; repeat rewrite in_map_iff in H;
    repeat match goal with H : _ \/ _ |- _ => destruct H | H : exists _, _ |- _ => destruct H as (? & ? & ?) end;
    try discriminate; try reflexivity; try (destruct H; easy).
Qed.

Lemma family_type n : ump_family n = Some UmpStream -> n = 0xF%N.
Proof.
  unfold ump_family. destruct n as [|p]; [discriminate|]. do 4 (destruct p as [p|p|]; try discriminate); try reflexivity.
Qed.

(** The packets of a message as it is sent, and which of them is final. *)
Lemma sent_packets f c b : In c (types_of f) -> c <> CFixed stream_function_block_discovery -> whole U32 (c, b) ->
  exists n, 1 <= n /\ all_packets (c, b) = Val (map (fun i => (variant f, chunk (family_words f) i b)) (seq 0 n))
    /\ List.concat (map (fun i => chunk (family_words f) i b) (seq 0 n)) = b
    /\ forall p, p < n -> is_final (variant f, chunk (family_words f) p b) = Val (S p =? n).
Proof.
  intros T N0 [A D]. cbn [fst snd] in *. pose proof (family_words_pos f) as Hw.
  assert (X : exists n, 1 <= n /\ sound f n b /\ b = firstn (family_words f * n) b /\ concrete_min c = family_words f
     /\ forall p, p < n -> mark f (chunk (family_words f) p b) = (S p =? n)).
  { destruct (accepted_sound f c b b T N0 A D) as (n & Hn & S0 & Eb & M). exists n. split; [exact Hn|]. split; [exact S0|]. split; [exact Eb|]. split; [exact M|].
    assert (Len : List.length b = family_words f * n).
    { pose proof (f_equal (@List.length N) Eb) as E. rewrite firstn_length in E. destruct S0 as [L _]. lia. }
    destruct c as [m| | |K|K].
    - (* one packet *)
      assert (n = 1).
      { cbn [concrete_data concrete_min] in *. unfold data, size in D. apply prefix_ok in D as [_ D]. rewrite M in D.
        pose proof (f_equal (@List.length N) D) as E. rewrite firstn_length in E. nia. }
      subst n. intros p Hp. replace p with 0 by lia. clear p Hp. rewrite Nat.mul_1_r in *. unfold chunk. rewrite Nat.mul_0_r. cbn [skipn].
      rewrite <- Len, firstn_all. unfold accepted in A. cbn [concrete_try_from] in A.
      destruct f; try reflexivity; try (cbn in T; destruct T as [T|[]]; discriminate); cbn [types_of family_words mark] in *; apply in_app_iff in T as [T|T];
        try (apply in_map_iff in T as (? & ? & _); discriminate); apply in_fixed in T as (m' & X & Hm); injection X as <-.
      + pose proof (proj1 (Forall_forall _ _) flex_format_field m Hm) as (g & Hg). pose proof (accepts_field U32 m b g _ A Hg) as V.
        cbn [prop_validate] in V. rewrite idx0 in V by (intros ->; discriminate Len). cbn [bind] in V. apply check_val in V. change (nth 0 b 0%N) with (hd0 b) in V. unfold ending. now rewrite V.
      + pose proof (proj1 (Forall_forall _ _) stream_format_field m Hm) as [->|(g & Hg)]; [congruence|].
        pose proof (accepts_field U32 m b g _ A Hg) as V. destruct S0 as [_ S0]. destruct (S0 0 ltac:(lia)) as [Ty _].
        assert (Lg : leading 4 0xF b 1).
        { split; [rewrite Len; cbn; lia|]. split; [|rewrite Len; cbn; lia]. intros i Hi. replace i with 0 by lia.
          apply family_type in Ty. exact Ty. }
        destruct (stream_formats_validate_spec b 1 Lg) as (r & E & R). rewrite V in E. injection E as <-.
        destruct (proj1 R eq_refl) as [[_ Z]|[Z _]]; [|lia]. unfold hd0. rewrite crumb32_bits. unfold ending. cbn in Z |- *. now rewrite Z.
    - assert (f = Sysex7) by (eapply types_nodup; [exact T|]; cbn; tauto). subst f. cbn [concrete_data] in D. unfold sx_data, sx_size in D.
      destruct (position _ _) as [q|] eqn:Q; [|discriminate]. cbn [bind] in D. apply prefix_ok in D as [L Eq].
      assert (n = S q). { pose proof (f_equal (@List.length N) Eq) as E. rewrite firstn_length in E. cbn in *. lia. } subst n.
      apply (marks_position Sysex7 is_last b q 2); [reflexivity|lia|exact Q].
    - assert (f = Sysex8) by (eapply types_nodup; [exact T|]; cbn; tauto). subst f. cbn [concrete_data] in D. unfold sx_data, sx_size in D.
      destruct (position _ _) as [q|] eqn:Q; [|discriminate]. cbn [bind] in D. apply prefix_ok in D as [L Eq].
      assert (n = S q). { pose proof (f_equal (@List.length N) Eq) as E. rewrite firstn_length in E. cbn in *. lia. } subst n.
      apply (marks_position Sysex8 is_last b q 4); [reflexivity|lia|exact Q].
    - assert (f = FlexData) by now apply (flex_text_family f K). subst f. cbn [concrete_data] in D. unfold Text.flex_data, dyn_size in D.
      destruct (position _ _) as [q|] eqn:Q; [|discriminate]. cbn [bind] in D. apply prefix_ok in D as [L Eq].
      assert (n = S q). { pose proof (f_equal (@List.length N) Eq) as E. rewrite firstn_length in E. cbn in *. lia. } subst n.
      eapply (marks_position FlexData _ b q 4); [|lia|exact Q]. reflexivity.
    - assert (f = UmpStream) by now apply (stream_text_kind f K). subst f. cbn [concrete_data] in D. unfold Text.stream_data, dyn_size in D.
      destruct (position _ _) as [q|] eqn:Q; [|discriminate]. cbn [bind] in D. apply prefix_ok in D as [L Eq].
      assert (n = S q). { pose proof (f_equal (@List.length N) Eq) as E. rewrite firstn_length in E. cbn in *. lia. } subst n.
      eapply (marks_position UmpStream _ b q 4); [|lia|exact Q]. reflexivity. }
  destruct X as (n & Hn & S0 & Eb & M & Mk). exists n. split; [exact Hn|].
  rewrite Eb in D at 2. destruct (sound_packets f n c b S0 M D) as (ps & P & -> & _). split; [exact P|].
  destruct S0 as [L S0]. split; [rewrite concat_chunks by auto; now symmetry|].
  intros p Hp. rewrite final_mark; [now rewrite Mk| |].
  - apply chunk_length. assert (family_words f * S p <= family_words f * n) by (apply Nat.mul_le_mono_l; lia). lia.
  - now apply S0.
Qed.

(** ** What is still to come under one key *)

(** With [acc] received, the packets [ps] complete the messages [ms]. *)
Inductive owes : list N -> list packet -> list aggregate -> Prop :=
| owes_nothing : owes [] [] []
| owes_message acc qs ps m ms :
    qs <> [] ->
    (forall p x, nth_error qs p = Some x -> is_final x = Val (S p =? List.length qs)) ->
    acc ++ List.concat (map packet_data qs) = snd m ->
    ump_try_from (snd m) = Val (Ok m) ->
    owes [] ps ms -> owes acc (qs ++ ps) (m :: ms).

Lemma owes_step acc p ps ms : owes acc (p :: ps) ms ->
  (is_final p = Val false /\ owes (acc ++ packet_data p) ps ms)
  \/ (is_final p = Val true /\ exists m ms', ms = m :: ms' /\ ump_try_from (acc ++ packet_data p) = Val (Ok m) /\ owes [] ps ms').
Proof.
  intros H. remember (p :: ps) as l eqn:E. destruct H as [|acc qs ps' m ms' Q F C P R]; [discriminate|].
  destruct qs as [|q qs]; [congruence|]. cbn [app] in E. injection E as -> <-. pose proof (F 0 p eq_refl) as F0. cbn [List.length] in F0.
  cbn [map List.concat] in C. destruct qs as [|q qs].
  - right. split; [exact F0|]. exists m, ms'. split; [reflexivity|]. cbn [map List.concat app] in C. rewrite app_nil_r in C. rewrite C. auto.
  - left. split; [exact F0|]. constructor; [discriminate| | |exact P|exact R].
    + intros i x Hi. exact (F (S i) x Hi).
    + rewrite <- app_assoc. exact C.
Qed.

Lemma owes_none acc ms : owes acc [] ms -> acc = [] /\ ms = [].
Proof. intros H. inversion H as [|acc' qs ps' m ms' Q F C P R E1 E2]; [auto|]. destruct qs; [congruence|discriminate]. Qed.

Lemma nth_error_Some_length {A} (l : list A) n x : nth_error l n = Some x -> n < List.length l.
Proof. intros H. apply nth_error_Some. rewrite H. discriminate. Qed.

Lemma sent_owes ms ps : Forall sendable ms -> packets_of ms ps -> owes [] ps ms.
Proof.
  intros S0 (pss & F & ->). induction F as [|m q ms pss P F IH]; [constructor|].
  inversion S0 as [|? ? (T & M & N0 & W) S1]; subst. cbn [List.concat]. destruct m as [c b]. cbn [fst snd] in *.
  apply in_flat_map in T as T'. destruct T' as (f & _ & Tf). destruct (sent_packets f c b Tf N0 W) as (n & Hn & P' & C & Fi).
  rewrite P in P'. injection P' as ->. constructor.
  - destruct n; [lia|discriminate].
  - intros p x H. rewrite map_length, seq_length. assert (Hp : p < n).
    { apply nth_error_Some_length in H. now rewrite map_length, seq_length in H. }
    rewrite nth_error_map, (nth_error_nth' _ 0) in H by (now rewrite seq_length). rewrite seq_nth in H by exact Hp.
    cbn [option_map Nat.add] in H. injection H as <-. now apply Fi.
  - rewrite map_map. cbn [packet_data snd app]. exact C.
  - apply ump_iff. split; [exact T|]. split; [exact M|]. split; [intros X; congruence|]. destruct W. auto.
  - now apply IH.
Qed.

Lemma so_far_closed st k j : so_far (closed st k) j = if (k =? j)%N then [] else so_far st j.
Proof.
  induction st as [|[i b] st IH]; [now destruct (k =? j)%N|]. cbn [closed filter fst so_far]. fold (closed st k).
  destruct (N.eqb_spec i k) as [->|E]; cbn [negb so_far].
  - rewrite IH. destruct (N.eqb_spec k j); reflexivity.
  - rewrite IH. destruct (N.eqb_spec i j) as [->|]; [|reflexivity]. destruct (N.eqb_spec k j); [congruence|reflexivity].
Qed.

Lemma receive_ok key at_ ps : (forall p, In p ps -> key p = Val (at_ p)) -> forall st sent,
  (forall k, owes (so_far st k) (filter (fun p => at_ p =? k)%N ps) (sent k)) ->
  exists st' out, receive_all key st ps = Val (st', out)
    /\ (forall k, so_far st' k = [])
    /\ (forall k, map snd (filter (fun e => fst e =? k)%N out) = map Ok (sent k)).
Proof.
  induction ps as [|p ps IH]; intros K st sent H.
  - exists st, []. split; [reflexivity|]. split; intros k; destruct (owes_none _ _ (H k)) as [E1 E2]; [exact E1|]. now rewrite E2.
  - set (k := at_ p). cbn [receive_all]. unfold receive. rewrite (K p) by now left. fold k. cbn [bind].
    pose proof (H k) as Hk. cbn [filter] in Hk. fold k in Hk. rewrite N.eqb_refl in Hk.
    assert (Ho : forall j, j <> k -> owes (so_far st j) (filter (fun p => at_ p =? j)%N ps) (sent j)).
    { intros j Hj. pose proof (H j) as X. cbn [filter] in X. fold k in X. replace (k =? j)%N with false in X; [exact X|].
      symmetry. apply N.eqb_neq. congruence. }
    apply owes_step in Hk as [(F & O)|(F & m & ms' & E & P & O)]; rewrite F; cbn [bind].
    + destruct (IH (fun q Hq => K q (or_intror Hq)) ((k, so_far st k ++ packet_data p) :: closed st k) sent) as (st' & out & R & S1 & S2).
      { intros j. cbn [so_far]. destruct (N.eqb_spec k j) as [E0|Nj]; [rewrite <- E0; exact O|]. rewrite so_far_closed.
        replace (k =? j)%N with false by (symmetry; now apply N.eqb_neq). apply Ho. congruence. }
      cbn [fst snd]. rewrite R. cbn [bind fst snd]. eauto.
    + rewrite P. cbn [bind].
      destruct (IH (fun q Hq => K q (or_intror Hq)) (closed st k) (fun j => if (j =? k)%N then ms' else sent j)) as (st' & out & R & S1 & S2).
      { intros j. rewrite so_far_closed, (N.eqb_sym k j). destruct (N.eqb_spec j k) as [E0|Nj]; [rewrite E0; exact O|]. now apply Ho. }
      cbn [fst snd]. rewrite R. cbn [bind fst snd]. exists st', ((k, Ok m) :: out). split; [reflexivity|]. split; [exact S1|].
      intros j. cbn [filter fst]. specialize (S2 j). rewrite (N.eqb_sym k j). destruct (N.eqb_spec j k) as [E0|Nj]; [rewrite E0 in *|exact S2].
      cbn [map snd]. now rewrite E, S2.
Qed.

(** ** Interleaving *)

Lemma filter_all {A} (P : A -> bool) l : Forall (fun x => P x = true) l -> filter P l = l.
Proof. induction 1 as [|x l E _ IH]; [reflexivity|]. cbn [filter]. now rewrite E, IH. Qed.
Lemma filter_none {A} (P : A -> bool) l : Forall (fun x => P x = false) l -> filter P l = [].
Proof. induction 1 as [|x l E _ IH]; [reflexivity|]. cbn [filter]. now rewrite E, IH. Qed.

Lemma both_length {A B} (R : A -> B -> Prop) l l' : Forall2 R l l' -> List.length l = List.length l'.
Proof. induction 1; cbn; congruence. Qed.

(** Lists with a key each, no key twice: filtering by a key undoes the interleaving. *)
Lemma filter_interleaved {A} (at_ : A -> N) (ls : list (list A)) r : interleaved ls r -> forall ks,
  Forall2 (fun k l => Forall (fun x => at_ x = k) l) ks ls -> NoDup ks ->
  (forall i k l, nth_error ks i = Some k -> nth_error ls i = Some l -> filter (fun x => at_ x =? k)%N r = l)
  /\ (forall k, ~ In k ks -> filter (fun x => at_ x =? k)%N r = []).
Proof.
  induction 1 as [ls E|ls1 x l ls2 r _ IH]; intros ks F Nd.
  - split; [|reflexivity]. intros i k l _ Hl. apply nth_error_In in Hl. rewrite Forall_forall in E. now rewrite (E l Hl).
  - apply Forall2_app_inv_r in F as (k1 & k2 & F1 & F2 & ->). inversion F2 as [|k ? ks2 ? Fk F2']; subst.
    inversion Fk as [|? ? Ax Fl]; subst. destruct (IH (k1 ++ at_ x :: ks2)) as [I1 I2]; [apply Forall2_app; auto|exact Nd|].
    split.
    + intros i k l' Hk Hl. cbn [filter]. destruct (Nat.lt_trichotomy i (List.length ls1)) as [C|[C|C]].
      * pose proof (both_length _ _ _ F1) as L1. rewrite nth_error_app1 in Hk by lia. rewrite nth_error_app1 in Hl by lia.
        destruct (N.eqb_spec (at_ x) k) as [<-|_].
        { exfalso. apply NoDup_remove_2 in Nd. apply Nd, in_app_iff. left. eapply nth_error_In; eauto. }
        apply (I1 i); [rewrite nth_error_app1 by lia; exact Hk|rewrite nth_error_app1 by lia; exact Hl].
      * pose proof (both_length _ _ _ F1) as L1. subst i. rewrite nth_error_app2 in Hk by lia. rewrite nth_error_app2 in Hl by lia.
        rewrite L1, Nat.sub_diag in Hk. rewrite Nat.sub_diag in Hl. cbn [nth_error] in Hk, Hl. injection Hk as <-. injection Hl as <-. rewrite N.eqb_refl. f_equal.
        apply (I1 (List.length ls1)); [rewrite nth_error_app2 by lia; now rewrite L1, Nat.sub_diag|rewrite nth_error_app2 by lia; now rewrite Nat.sub_diag].
      * pose proof (both_length _ _ _ F1) as L1. rewrite nth_error_app2 in Hk by lia. rewrite nth_error_app2 in Hl by lia.
        destruct (i - List.length ls1) as [|j] eqn:J; [lia|]. rewrite L1, J in Hk. cbn [nth_error] in Hk, Hl.
        destruct (N.eqb_spec (at_ x) k) as [<-|_].
        { exfalso. apply NoDup_remove_2 in Nd. apply Nd, in_app_iff. right. eapply nth_error_In; eauto. }
        apply (I1 i); [rewrite nth_error_app2 by lia; now rewrite L1, J|rewrite nth_error_app2 by lia; now rewrite J].
    + intros k Hk. cbn [filter]. replace (at_ x =? k)%N with false; [now apply I2|]. symmetry. apply N.eqb_neq. intros <-. apply Hk, in_app_iff. right. now left.
Qed.

Lemma in_interleaved {A} (ls : list (list A)) r x : interleaved ls r -> In x r -> exists l, In l ls /\ In x l.
Proof.
  induction 1 as [|ls1 y l ls2 r _ IH]; [easy|]. intros [<-|H].
  - exists (y :: l). split; [apply in_app_iff; right; now left|now left].
  - destruct (IH H) as (l' & I & X). apply in_app_iff in I as [I|[<-|I]].
    + exists l'. split; [apply in_app_iff; auto|exact X].
    + exists (y :: l). split; [apply in_app_iff; right; now left|now right].
    + exists l'. split; [apply in_app_iff; right; now right|exact X].
Qed.
