(** Lemmas: which error the parsers of system exclusive messages, texts, packets and discovery
    inquiries answer. *)
From Coq Require Import NArith List String Bool Arith Lia ZifyBool ZifyNat ZifyN.
From Verif Require Import Base BitOps Encode7 Values Schema Helpers Props Message MessageTable SpecLayout SpecFixed SpecSysex Sysex Text SpecText
  Aggregate SpecAggregate Packet SpecPacket Ci SpecCi SpecErrors BitLemmas ListLemmas PropLemmas PropWrite PropValidate MessageLemmas
  SysexBridge TextLemmas TextUtf8 TextParse PacketLemmas CiLemmas ErrorLemmas.
Import ListNotations.
Local Open Scope string_scope.
Local Open Scope nat_scope.
Local Open Scope list_scope.

Lemma first_error_judged (l : list (res unit * list complaint)) :
  (forall x, In x l -> judged (fst x) (snd x)) -> judged (first_error (map fst l)) (flat_map snd l).
Proof.
  induction l as [|[r d] l IH]; intros H; [apply judged_nil|]. cbn [map flat_map fst snd first_error].
  pose proof (H (r, d) (or_introl eq_refl)) as J. cbn [fst snd] in J.
  assert (J2 : judged (match r with Ok _ => first_error (map fst l) | Err e => Err e end) (d ++ flat_map snd l)).
  { apply judged_app; [exact J|]. intros _. apply IH. intros x Hx. apply H. now right. }
  destruct r; exact J2.
Qed.

Lemma hd0_nth0 (b : list N) : hd0 b = nth 0 b 0%N. Proof. now destruct b. Qed.

Lemma type_judged (b : list N) t e :
  judged (check (nibble32 (hd0 b) 0 =? t)%N e) [(e, bits b (Seg 0 28 4) <> t)].
Proof.
  rewrite hd0_nth0, (nibble32_bits b 0 0). change (28 - 0 * 4)%N with 28%N.
  destruct (N.eqb_spec (bits b (Seg 0 28 4)) t); apply judged_check; split || idtac; intuition congruence.
Qed.

(** The whole packets before the first one of another type. *)
Lemma lead_whole n t (b : list N) : 0 < n -> exists k, k <= List.length b / n
  /\ take_while (fun c => nibble32 (hd0 c) 0 =? t)%N (chunks_exact n b) = map (fun i => chunk n i b) (seq 0 k)
  /\ (forall i, i < k -> bits b (Seg (n * i) 28 4) = t)
  /\ (k < List.length b / n -> bits b (Seg (n * k) 28 4) <> t).
Proof.
  intros Hn. rewrite chunks_exact_spec by lia. rewrite take_while_map.
  rewrite (take_while_ext _ (fun i => bits b (Seg (n * i) 28 4) =? t)%N).
  2:{ intros i _. rewrite hd0_chunk by auto. now rewrite nibble32_bits. }
  destruct (take_while_seq (fun i => bits b (Seg (n * i) 28 4) =? t)%N 0 (List.length b / n)) as (k & H1 & H0 & H2 & H3).
  exists k. split; [exact H1|]. split; [now rewrite H0|]. split.
  - intros i Hi. specialize (H2 i Hi). now apply N.eqb_eq in H2.
  - intros Hk. specialize (H3 Hk). now apply N.eqb_neq in H3.
Qed.

Lemma same_judged n t (get : N -> N) (field : nat -> N) (b : list N) e : 0 < n ->
  (forall i, get (nth (n * i) b 0%N) = field i) ->
  judged (check (forallb (fun c => get (hd0 c) =? get (hd0 b))%N
                  (take_while (fun c => nibble32 (hd0 c) 0 =? t)%N (chunks_exact n b))) e)
    [(e, disagreement n t field b)].
Proof.
  intros Hn Hg. destruct (lead_whole n t b Hn) as (k & Hk & -> & H1 & H2). rewrite forallb_map.
  assert (G0 : get (hd0 b) = field 0) by (rewrite hd0_nth0, <- Hg; now rewrite Nat.mul_0_r).
  rewrite G0. destruct (forallb _ _) eqn:E; cbn [check judged].
  - constructor; [|constructor]. cbn [snd]. intros (i & Hi & HT & X). rewrite forallb_forall in E.
    assert (i < k).
    { destruct (Nat.lt_ge_cases i k); [assumption|]. exfalso. apply H2; [lia|]. apply HT. lia. }
    specialize (E i ltac:(apply in_seq; lia)). rewrite hd0_chunk, Hg in E by lia. apply N.eqb_eq in E. contradiction.
  - apply reports_here. apply forallb_false in E as (i & Hi & X). apply in_seq in Hi.
    rewrite hd0_chunk, Hg in X by lia. apply N.eqb_neq in X. exists i. split; [lia|]. split; [|exact X].
    intros j Hj. apply H1. lia.
Qed.

Lemma groups_judged n t b : 0 < n ->
  judged (consistent_groups b n t) [("Inconsistent groups across packets", disagreement n t (fun i => bits b (Seg (n * i) 24 4)) b)].
Proof. intros Hn. apply (same_judged n t (fun x => nibble32 x 1)); [exact Hn|]. intros i. exact (nibble32_bits b (n * i) 1). Qed.

(** ** System exclusive *)

Lemma pred_judged (n : nat) (ok : N -> bool) (good : nat -> Prop) (b : list N) e : 0 < n ->
  (forall i, ok (nth (n * i) b 0%N) = true <-> good i) ->
  judged (check (forallb (fun c => ok (hd0 c)) (chunks_exact n b)) e) [(e, exists i, i < List.length b / n /\ ~ good i)].
Proof.
  intros Hn Hg. rewrite chunks_exact_spec, forallb_map by lia. destruct (forallb _ _) eqn:E; cbn [check judged].
  - constructor; [|constructor]. cbn [snd]. intros (i & Hi & X). rewrite forallb_forall in E.
    specialize (E i ltac:(apply in_seq; lia)). rewrite hd0_chunk, Hg in E by lia. contradiction.
  - apply reports_here. apply forallb_false in E as (i & Hi & X). apply in_seq in Hi.
    rewrite hd0_chunk in X by lia. exists i. split; [lia|]. rewrite <- Hg. now rewrite X.
Qed.

Lemma sizes_judged fm b : judged (validate_sizes (fmt_of fm) b)
  [match fm with
   | SevenBit => ("Size field can not exceed 6", exists i, i < List.length b / packet_words fm /\ (6 < bits b (Seg (packet_words fm * i) 16 4))%N)
   | EightBit => ("Invalid number of payload bytes in packet",
                     exists i, i < List.length b / packet_words fm /\ ~ (1 <= bits b (Seg (packet_words fm * i) 16 4) <= 14)%N)
   end].
Proof.
  assert (Nb : forall n i, nibble32 (nth (n * i) b 0%N) 3 = bits b (Seg (n * i) 16 4)) by (intros n i; exact (nibble32_bits b (n * i) 3)).
  unfold validate_sizes, size_ok. destruct fm; cbn [fmt_of fmt7 fmt8 f_seven f_words f_ext f_cap packet_words].
  - eapply judged_iff; [|apply (pred_judged 2 (fun x => ((0 <=? nibble32 x 3) && (nibble32 x 3 <=? 0 + N.of_nat 6)))%N
      (fun i => bits b (Seg (2 * i) 16 4) <= 6)%N); [lia|intros i; rewrite Nb; lia]].
    split; intros (i & Hi & X); exists i; (split; [exact Hi|lia]).
  - apply (pred_judged 4 (fun x => ((1 <=? nibble32 x 3) && (nibble32 x 3 <=? 1 + N.of_nat 13)))%N); [lia|].
    intros i. rewrite Nb. lia.
Qed.

Lemma sysex_judged fm b : judged (sx_try_from (fmt_of fm) b) (sysex_defects fm b).
Proof.
  unfold sx_try_from, sysex_defects. rewrite words_of. assert (W : 0 < packet_words fm) by (destruct fm; cbn; lia).
  destruct (Nat.ltb_spec (List.length b) (packet_words fm)) as [L|L]; [now apply judged_here|].
  apply judged_skip; [lia|].
  set (n := packet_words fm) in *.
  set (l := [ (check (is_packet (fmt_of fm) b) "Incorrect ump message type", [("Incorrect ump message type", bits b (Seg 0 28 4) <> type_code fm)]);
      (validate_statuses_sx (fmt_of fm) b, framing n (type_code fm) (fun i => bits b (Seg (n * i) 20 4)) b);
      (validate_sizes (fmt_of fm) b, [match fm with
   | SevenBit => ("Size field can not exceed 6", exists i, i < List.length b / n /\ (6 < bits b (Seg (n * i) 16 4))%N)
   | EightBit => ("Invalid number of payload bytes in packet",
                     exists i, i < List.length b / n /\ ~ (1 <= bits b (Seg (n * i) 16 4) <= 14)%N)
   end]);
      (consistent_groups b n (type_code fm), [("Inconsistent groups across packets", disagreement n (type_code fm) (fun i => bits b (Seg (n * i) 24 4)) b)]) ]
    ++ (match fm with SevenBit => [] | EightBit =>
        [(validate_stream_id b, [("Inconsistent stream id fields across packets", disagreement n (type_code fm) (fun i => bits b (Seg (n * i) 8 8)) b)])] end)).
  assert (J : judged (first_error (map fst l)) (flat_map snd l)).
  { apply first_error_judged. intros x Hx. apply in_app_iff in Hx as [[<-|[<-|[<-|[<-|[]]]]]|Hx]; cbn [fst snd].
    - unfold is_packet. rewrite type_fmt. apply type_judged.
    - unfold validate_statuses_sx. rewrite words_of, type_fmt. apply (framing_judged b (fun x => nibble32 x 2)); [exact W|].
      intros i. exact (nibble32_bits b (n * i) 2).
    - apply sizes_judged.
    - now apply groups_judged.
    - destruct fm; [destruct Hx|]. destruct Hx as [<-|[]]. cbn [fst snd]. unfold validate_stream_id.
      apply (same_judged 4 5 (fun x => octet32 x 2)); [lia|]. intros i. exact (octet32_bits b (4 * i) 2). }
  match goal with |- judged match first_error ?c with _ => _ end ?d => replace c with (map fst l); [replace d with (flat_map snd l)|] end.
  - exact (judged_ok (first_error (map fst l)) b (flat_map snd l) J).
  - unfold l. rewrite flat_map_app. cbn [flat_map snd app]. rewrite ?app_nil_r, <- ?app_assoc. cbn [app]. destruct fm; reflexivity.
  - unfold l, n. rewrite type_fmt. destruct fm; reflexivity.
Qed.

Lemma byte_sysex_judged b : judged (try_from_b b) (byte_sysex_defects b).
Proof.
  unfold try_from_b, byte_sysex_defects. destruct (Nat.ltb_spec (List.length b) 2) as [L|L]; [now apply judged_here|].
  apply judged_skip; [lia|]. rewrite hd0_nth0. cbn [first_error].
  destruct (N.eqb_spec (nth 0 b 0%N) 0xF0) as [E|E]; cbn [check]; [|now apply judged_here].
  apply judged_skip; [congruence|]. destruct (existsb _ b) eqn:X; cbn [check].
  - apply judged_skip; [|apply judged_nil]. intros H. apply H. apply existsb_exists in X as (x & Hx & Y). apply N.eqb_eq in Y. now subst.
  - apply judged_here. intros H. assert (Y : existsb (fun x => x =? 0xF7)%N b = true) by (apply existsb_exists; exists 0xF7%N; auto). congruence.
Qed.

(** ** Texts *)

Lemma try_judged {A B} (r : res A) (k : outcome (res B)) l l' :
  judged r l -> (exists r', k = Val r' /\ judged r' l') -> exists r', (_ <-? Val r ;; k) = Val r' /\ judged r' (l ++ l').
Proof.
  intros J (r' & -> & J'). exists (match r with Ok _ => r' | Err e => Err e end). split; [now destruct r|]. now apply judged_app.
Qed.

Lemma utf8_judged (t : list N) : judged (check (utf8_ok t) "Payload bytes do not represent a valid utf string")
  [("Payload bytes do not represent a valid utf string", ~ is_string t)].
Proof.
  pose proof (utf8_spec t) as U. apply judged_check.
  - rewrite U. split; [tauto|]. intros H. destruct (utf8_ok t) eqn:E; [now apply U|]. elim H. intros X. apply U in X. discriminate.
  - intros E X. apply U in X. congruence.
Qed.

Lemma flex_text_judged K b : exists r, flex_try_from K b = Val r /\ judged r (flex_text_defects K b).
Proof.
  unfold flex_try_from, flex_text_defects. destruct (Nat.ltb_spec (List.length b) 4) as [L|L].
  { eexists. split; [reflexivity|]. now apply judged_here. }
  enough (H : exists r, (_ <-? prop_validate U32 (PUmpType 0xD) b ;;
  _ <-? Val (consistent_groups b 4 0xD) ;;
  _ <-? prop_validate U32 POptChannel b ;;
  _ <-? prop_validate U32 (PFlexBank (fk_bank K)) b ;;
  _ <-? prop_validate U32 (PFlexStatus (fk_status K)) b ;;
  _ <-? Val (flex_formats_validate b) ;;
  _ <-? text_string_validate flex_form b ;;
  Val (Ok b)) = Val r /\ judged r (tl (flex_text_defects K b))).
  { destruct H as (r & E & J). exists r. split; [exact E|]. apply judged_skip; [lia|exact J]. }
  cbn [prop_validate]. rewrite idx_nth by lia. cbn [bind]. rewrite <- hd0_nth0.
  unfold flex_text_defects. cbn [app tl].
  unfold text_string_validate. pose proof (flex_bytes_any b ltac:(lia)) as E. unfold flex_text_bytes in E. rewrite E. cbn [bind].
  refine (try_judged _ _ [_] _ (type_judged _ _ _) _).
  refine (try_judged _ _ [_] _ (groups_judged 4 _ _ _) _); [lia|].
  refine (try_judged _ _ [] _ (judged_nil _) _).
  refine (try_judged _ _ [_] _ (scan_judged 4 (fun x => octet32 x 2) (fun i => bits b (Seg (4 * i) 8 8)) _ b _ _ _) _); [lia|intros i; exact (octet32_bits b (4 * i) 2)|].
  refine (try_judged _ _ [_] _ (scan_judged 4 (fun x => octet32 x 3) (fun i => bits b (Seg (4 * i) 0 8)) _ b _ _ _) _); [lia|intros i; exact (octet32_bits b (4 * i) 3)|].
  refine (try_judged _ _ (framing 4 0xD (fun i => bits b (Seg (4 * i) 22 2)) b) [_] _ _).
  { apply (framing_judged b (fun x => crumb32 x 4)); [lia|]. intros i. exact (crumb32_bits b (4 * i) 4). }
  refine (try_judged _ _ [_] [] (utf8_judged _) _). eexists. split; [reflexivity|apply judged_nil].
Qed.

Lemma block_judged b : 4 <= List.length b -> exists r, block_validate b = Val r
  /\ judged r [("Inconsistent function block fields", exists i, i < List.length b / 4 /\ bits b (Seg (4 * i) 8 8) <> bits b (Seg 0 8 8))].
Proof.
  intros Hb. unfold block_validate, get_octet. rewrite idx_nth by lia. cbn [bind]. eexists. split; [reflexivity|].
  change (N.of_nat 2) with 2%N. rewrite (octet32_bits b 0 2).
  apply (scan_judged 4 (fun x => octet32 x 2) (fun i => bits b (Seg (4 * i) 8 8))); [lia|]. intros i. exact (octet32_bits b (4 * i) 2).
Qed.

Lemma stream_text_judged K b : sk_off K <= 1 -> exists r, stream_try_from K b = Val r /\ judged r (stream_text_defects K b).
Proof.
  intros Ho. unfold stream_try_from, stream_text_defects. destruct (Nat.ltb_spec (List.length b) 4) as [L|L].
  { eexists. split; [reflexivity|]. now apply judged_here. }
  enough (H : exists r, (_ <-? prop_validate U32 (PUmpType 0xF) b ;;
  _ <-? prop_validate U32 (PStreamStatus (sk_status K)) b ;;
  _ <-? prop_validate U32 PStreamFormats b ;;
  _ <-? (if sk_off K =? 1 then block_validate b else Val (Ok tt)) ;;
  _ <-? text_string_validate (stream_form (sk_off K)) b ;;
  Val (Ok b)) = Val r /\ judged r (tl (stream_text_defects K b))).
  { destruct H as (r & E & J). exists r. split; [exact E|]. apply judged_skip; [lia|exact J]. }
  assert (B : exists r, (if sk_off K =? 1 then block_validate b else Val (Ok tt)) = Val r
    /\ judged r [("Inconsistent function block fields",
        sk_off K = 1 /\ exists i, i < List.length b / 4 /\ bits b (Seg (4 * i) 8 8) <> bits b (Seg 0 8 8))]).
  { destruct (Nat.eqb_spec (sk_off K) 1) as [E|E].
    - destruct (block_judged b L) as (r & Er & J). exists r. split; [exact Er|]. eapply judged_iff; [|exact J]. tauto.
    - eexists. split; [reflexivity|]. apply judged_skip; [tauto|apply judged_nil]. }
  destruct B as (rb & -> & JB).
  cbn [prop_validate]. rewrite idx_nth by lia. cbn [bind]. rewrite <- hd0_nth0.
  unfold stream_text_defects. cbn [app tl].
  unfold text_string_validate. rewrite stream_bytes_any by lia. cbn [bind].
  refine (try_judged _ _ [_] _ (type_judged _ _ _) _).
  refine (try_judged _ _ [_] _ (scan_judged 4 stream_status (fun i => bits b (Seg (4 * i) 16 10)) _ b _ _ _) _); [lia|intros i; exact (stream_status_bits b (4 * i))|].
  refine (try_judged _ _ (framing 4 0xF (fun i => bits b (Seg (4 * i) 26 2)) b) _ _ _).
  { apply (framing_judged b (fun x => crumb32 x 2)); [lia|]. intros i. exact (crumb32_bits b (4 * i) 2). }
  refine (try_judged _ _ [_] _ JB _).
  refine (try_judged _ _ [_] [] (utf8_judged _) _). eexists. split; [reflexivity|apply judged_nil].
Qed.

(** ** Packets *)

Lemma status7_judged b : b <> [] -> exists r, status7_of b = Val r
  /\ judged r [("Invalid SysEx7 status byte", (3 < bits b (Seg 0 20 4))%N)].
Proof.
  intros Hb. unfold status7_of. rewrite idx0 by exact Hb. cbn [bind]. eexists. split; [reflexivity|].
  rewrite (nibble32_bits b 0 2). change (28 - 2 * 4)%N with 20%N. generalize (bits b (Seg 0 20 4)). intros n.
  destruct (N.ltb_spec 3 n) as [H|H].
  - replace (n =? 0)%N with false by lia. replace (n =? 1)%N with false by lia.
    replace (n =? 2)%N with false by lia. replace (n =? 3)%N with false by lia. now apply judged_here.
  - assert (C : (n = 0 \/ n = 1 \/ n = 2 \/ n = 3)%N) by lia.
    destruct C as [->|[->|[->| ->]]]; (apply judged_skip; [lia|apply judged_nil]).
Qed.
Lemma status8_judged b : 4 <= List.length b -> exists r, status8_of b = Val r
  /\ judged r [("Invalid SysEx8 status byte", (3 < bits b (Seg 0 20 4))%N)].
Proof.
  intros Hb. assert (b <> []) by (intros ->; cbn in Hb; lia). unfold status8_of. rewrite idx0 by assumption. cbn [bind].
  rewrite (nibble32_bits b 0 2). change (28 - 2 * 4)%N with 20%N. generalize (bits b (Seg 0 20 4)). intros n.
  replace (List.length b <? 4) with false by lia.
  destruct (N.ltb_spec 3 n) as [H0|H0].
  - replace (n =? 0)%N with false by lia. replace (n =? 1)%N with false by lia.
    replace (n =? 2)%N with false by lia. replace (n =? 3)%N with false by lia. eexists. split; [reflexivity|]. now apply judged_here.
  - assert (C : (n = 0 \/ n = 1 \/ n = 2 \/ n = 3)%N) by lia.
    destruct C as [->|[->|[->| ->]]]; cbn [N.eqb Pos.eqb];
      repeat match goal with |- context [if ?c then Val _ else Val _] => destruct c end;
      (eexists; split; [reflexivity|]; apply judged_skip; [lia|apply judged_nil]).
Qed.

Lemma packet_judged b : exists r, packet_try_from b = Val r /\ judged r (packet_defects b).
Proof.
  unfold packet_defects. destruct b as [|x b].
  { eexists. split; [reflexivity|]. now apply judged_here. }
  rewrite packet_by_family by discriminate. unfold type_field. set (b' := x :: b) in *.
  assert (Hb : b' <> []) by discriminate.
  destruct (ump_family (bits b' (Seg 0 28 4))) as [f|] eqn:F.
  2:{ eexists. split; [reflexivity|]. apply judged_skip; [exact Hb|]. now apply judged_here. }
  apply (proj1 (ump_family_spec _ _)) in F.
  enough (H : exists r, kind_try_from (variant f) b' = Val r /\ judged r
     (("Slice is too short", List.length b' < words_asked f)
       :: match f with
          | Sysex7 => [("Size field can not exceed 6", (6 < bits b' (Seg 0 16 4))%N);
                       ("Invalid SysEx7 status byte", (3 < bits b' (Seg 0 20 4))%N)]
          | Sysex8 => [("Invalid SysEx8 status byte", (3 < bits b' (Seg 0 20 4))%N)]
          | _ => []
          end)).
  { destruct H as (r & E & J). exists r. split; [exact E|]. apply judged_skip; [exact Hb|]. apply judged_skip; [discriminate|exact J]. }
  unfold kind_try_from. rewrite kind_needs_spec.
  destruct (Nat.ltb_spec (List.length b') (words_asked f)) as [L|L].
  { eexists. split; [reflexivity|]. now apply judged_here. }
  rewrite idx0 by exact Hb. cbn [bind]. rewrite (nibble32_bits b' 0 0), (nibble32_bits b' 0 3).
  change (28 - 0 * 4)%N with 28%N. change (28 - 3 * 4)%N with 16%N. rewrite F, N.eqb_refl. cbn [negb].
  destruct f; cbn [variant]; try (eexists; split; [reflexivity|]; apply judged_skip; [lia|apply judged_nil]).
  - destruct (N.ltb_spec 6 (bits b' (Seg 0 16 4))) as [S|S].
    { eexists. split; [reflexivity|]. apply judged_skip; [lia|]. now apply judged_here. }
    destruct (status7_judged b' Hb) as (r & -> & J).
    destruct (try_judged r (Val (Ok (PSysex7, copied (kind_words PSysex7) b'))) _ [] J) as (r' & E & J'); [eexists; split; [reflexivity|apply judged_nil]|].
    exists r'. split; [exact E|]. apply judged_skip; [lia|]. apply judged_skip; [lia|]. exact J'.
  - destruct (status8_judged b' L) as (r & -> & J).
    destruct (try_judged r (Val (Ok (PSysex8, copied (kind_words PSysex8) b'))) _ [] J) as (r' & E & J'); [eexists; split; [reflexivity|apply judged_nil]|].
    exists r'. split; [exact E|]. apply judged_skip; [lia|]. exact J'.
Qed.

(** ** Discovery *)

Lemma discovery_judged v b : version v -> exists r, ci_try_from v b = Val r /\ judged r (discovery_defects v b).
Proof.
  intros Hv. unfold ci_try_from, discovery_defects. rewrite ci_min_version by exact Hv. set (m := if (v =? 2)%N then 32 else 31).
  assert (M : 31 <= m) by (unfold m; destruct (v =? 2)%N; lia).
  destruct (Nat.ltb_spec (List.length b) m) as [L|L]; [eexists; split; [reflexivity|now apply judged_here]|].
  rewrite idx_nth by lia. cbn [bind].
  destruct (N.eqb_spec (nth 5 b 0%N) v) as [E5|E5]; cbn [negb].
  2:{ eexists; split; [reflexivity|]. apply judged_skip; [lia|]. now apply judged_here. }
  unfold try_from_b. replace (List.length b <? 2) with false by lia. cbn [first_error]. rewrite hd0_nth0.
  destruct (N.eqb_spec (nth 0 b 0%N) 0xF0) as [E0|E0]; cbn [check try_bind].
  2:{ eexists; split; [reflexivity|]. apply judged_skip; [lia|]. apply judged_skip; [tauto|]. now apply judged_here. }
  assert (X : existsb (fun x => x =? 0xF7)%N b = true <-> In 0xF7%N b).
  { rewrite existsb_exists. split; [intros (x & Hx & Q); apply N.eqb_eq in Q; now subst|]. intros H. exists 0xF7%N. split; [exact H|reflexivity]. }
  destruct (existsb _ b) eqn:Ex; cbn [check try_bind].
  2:{ eexists; split; [reflexivity|]. do 3 (apply judged_skip; [lia || tauto|]). apply judged_here. intros H. apply X in H. discriminate. }
  assert (In7 : In 0xF7%N b) by now apply X. clear X.
  unfold discovery_query. cbn [ci_validates].
  assert (Q : (1 <=? v)%N = true) by (destruct Hv as [-> | ->]; reflexivity). cbn [prop_version]. rewrite Q.
  cbn [ci_validate]. rewrite !idx_nth by lia. cbn [bind try_bind].
  destruct (N.eqb_spec (nth 1 b 0%N) 0x7E) as [E1|E1]; cbn [check try_bind].
  2:{ eexists; split; [reflexivity|]. do 4 (apply judged_skip; [lia || tauto|]). now apply judged_here. }
  destruct (N.eqb_spec (nth 2 b 0%N) 0x7F) as [E2|E2]; cbn [check try_bind].
  2:{ eexists; split; [reflexivity|]. do 5 (apply judged_skip; [lia || tauto|]). now apply judged_here. }
  destruct (N.eqb_spec (nth 3 b 0%N) 0x0D) as [E3|E3]; cbn [check try_bind].
  2:{ eexists; split; [reflexivity|]. do 6 (apply judged_skip; [lia || tauto|]). now apply judged_here. }
  destruct (N.eqb_spec (nth 4 b 0%N) 0x70) as [E4|E4]; cbn [check try_bind].
  2:{ eexists; split; [reflexivity|]. do 7 (apply judged_skip; [lia || tauto|]). now apply judged_here. }
  unfold read28. rewrite !idx_nth by lia. cbn [bind]. cbn [Nat.add].
  pose proof (broadcast_iff (nth 10 b 0%N) (nth 11 b 0%N) (nth 12 b 0%N) (nth 13 b 0%N)) as B.
  destruct (N.eqb_spec (u28_from_u7s (nth 10 b 0%N) (nth 11 b 0%N) (nth 12 b 0%N) (nth 13 b 0%N)) 0xFFFFFFF) as [E6|E6]; cbn [check try_bind].
  - exists (Ok b). split; [destruct (2 <=? v)%N; reflexivity|]. do 8 (apply judged_skip; [lia || tauto|]).
    apply judged_skip; [|apply judged_nil]. intros (i & Hi & D). apply B in E6.
    assert (C : i = 10 \/ i = 11 \/ i = 12 \/ i = 13) by lia. destruct C as [->|[->|[->| ->]]]; tauto.
  - eexists; split; [reflexivity|]. do 8 (apply judged_skip; [lia || tauto|]). apply judged_here.
    destruct (N.eq_dec (nth 10 b 0%N mod 128) 127) as [D0|D0]; [|exists 10; split; [lia|exact D0]].
    destruct (N.eq_dec (nth 11 b 0%N mod 128) 127) as [D1|D1]; [|exists 11; split; [lia|exact D1]].
    destruct (N.eq_dec (nth 12 b 0%N mod 128) 127) as [D2|D2]; [|exists 12; split; [lia|exact D2]].
    destruct (N.eq_dec (nth 13 b 0%N mod 128) 127) as [D3|D3]; [|exists 13; split; [lia|exact D3]]. tauto.
Qed.
