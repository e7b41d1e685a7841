(** Lemmas: which error a parser answers (SpecErrors.v). *)
From Coq Require Import NArith List String Bool Arith Lia ZifyBool ZifyNat ZifyN.
From Verif Require Import Base BitOps Values Schema Helpers Props Message MessageTable SpecLayout SpecFixed SpecErrors
  BitLemmas ListLemmas PropLemmas PropWrite PropValidate MessageLemmas FixedLemmas.
Import ListNotations.
Local Open Scope string_scope.
Local Open Scope nat_scope.
Local Open Scope list_scope.

(** ** Lists of complaints *)

Definition judged {A} (r : res A) (l : list complaint) : Prop :=
  match r with Ok _ => faultless l | Err e => reports l e end.

Lemma reports_here e (P : Prop) l : P -> reports ((e, P) :: l) e.
Proof. intros H. exists [], P, l. auto. Qed.
Lemma reports_skip e e' (P : Prop) l : ~ P -> reports l e -> reports ((e', P) :: l) e.
Proof.
  intros H (pre & Q & post & -> & HQ & F). exists ((e', P) :: pre), Q, post. split; [reflexivity|]. split; [exact HQ|]. now constructor.
Qed.
Lemma reports_cons e e' (P : Prop) l : reports ((e', P) :: l) e -> (P /\ e = e') \/ (~ P /\ reports l e).
Proof.
  intros ([|c pre] & Q & post & E & HQ & F); cbn in E.
  - injection E as -> -> ->. left. auto.
  - injection E as <- ->. inversion F; subst. right. split; [assumption|]. exists pre, Q, post. auto.
Qed.
Lemma reports_faulty l e : reports l e -> ~ faultless l.
Proof.
  intros (pre & P & post & -> & HP & _) F. apply Forall_app in F as [_ F]. inversion F; subst. auto.
Qed.
Lemma reports_unique l e e' : reports l e -> reports l e' -> e = e'.
Proof.
  induction l as [|[x P] l IH]; intros H H'.
  - destruct H as ([|? ?] & ? & ? & E & _); discriminate.
  - apply reports_cons in H as [[HP ->]|[HP H]]; apply reports_cons in H' as [[HP' ->]|[HP' H']]; tauto || auto.
Qed.
Lemma reports_app_l l l' e : reports l e -> reports (l ++ l') e.
Proof.
  intros (pre & P & post & -> & HP & F). exists pre, P, (post ++ l'). rewrite <- app_assoc. auto.
Qed.
Lemma reports_app_r l l' e : faultless l -> reports l' e -> reports (l ++ l') e.
Proof.
  intros H (pre & P & post & -> & HP & F). exists (l ++ pre), P, post. rewrite <- app_assoc.
  split; [reflexivity|]. split; [exact HP|]. apply Forall_app. auto.
Qed.

Lemma judged_nil {A} (a : A) : judged (Ok a) []. Proof. constructor. Qed.
Lemma judged_here {A} e (P : Prop) l : P -> judged (Err e : res A) ((e, P) :: l).
Proof. apply reports_here. Qed.
Lemma judged_skip {A} (r : res A) e (P : Prop) l : ~ P -> judged r l -> judged r ((e, P) :: l).
Proof. intros H. destruct r; cbn [judged]; [now constructor|now apply reports_skip]. Qed.
Lemma judged_check b e (P : Prop) : (b = true <-> ~ P) -> (b = false -> P) -> judged (check b e) [(e, P)].
Proof.
  intros H H'. destruct b; cbn [check judged].
  - constructor; [now apply H|constructor].
  - now apply reports_here, H'.
Qed.
Lemma judged_app {A B} (r1 : res A) (r2 : res B) l1 l2 : judged r1 l1 -> (faultless l1 -> judged r2 l2) ->
  judged (match r1 with Ok _ => r2 | Err e => Err e end) (l1 ++ l2).
Proof.
  destruct r1 as [a|e]; cbn [judged]; intros H H2.
  - specialize (H2 H). destruct r2; cbn [judged] in *; [now apply Forall_app|now apply reports_app_r].
  - now apply reports_app_l.
Qed.
Lemma judged_ok {A B} (r : res A) (r' : B) l :
  judged r l -> judged (match r with Ok _ => Ok r' | Err e => Err e end) l.
Proof. now destruct r. Qed.
Lemma judged_iff {A} (r : res A) e (P Q : Prop) : (P <-> Q) -> judged r [(e, P)] -> judged r [(e, Q)].
Proof.
  intros H. destruct r as [a|e']; cbn [judged].
  - intros F. inversion F as [|? ? X]; subst. cbn in X. constructor; [cbn; tauto|constructor].
  - intros F. apply reports_cons in F as [[HP ->]|[_ F]]; [apply reports_here; tauto|].
    destruct F as ([|? ?] & ? & ? & E & _); discriminate.
Qed.

Lemma verdict_of {A} (o : outcome (res A)) r l : o = Val r -> judged r l -> verdict o l.
Proof.
  intros -> J. split; [discriminate|]. destruct r as [a|e0]; cbn [judged] in J.
  - split; [split; [auto|eauto]|]. intros e. split; [discriminate|]. intros R. now apply reports_faulty in R.
  - split.
    + split; [intros (a & X); discriminate|]. intros F. now apply reports_faulty in J.
    + intros e. split; [now intros [= ->]|]. intros R. now rewrite (reports_unique _ _ _ J R).
Qed.
Lemma verdict_judged {A} (o : outcome (res A)) l : verdict o l -> exists r, o = Val r /\ judged r l.
Proof.
  intros (P & K & E). destruct o as [r|]; [|now elim P]. exists r. split; [reflexivity|].
  destruct r as [a|e]; cbn [judged]; [apply K; eauto|now apply E].
Qed.

(** ** Framing *)

Lemma rest_cases (fc fe : N -> bool) (g : nat -> N) : forall n a,
  let r := check_rest fc fe (map (fun i => [g i]) (seq a (S n))) in
  (r = Err "Expected Continue packet" /\ exists i, a <= i < a + n /\ fc (g i) = false)
  \/ ((forall i, a <= i < a + n -> fc (g i) = true)
      /\ (fe (g (a + n)) = true /\ r = Ok tt \/ fe (g (a + n)) = false /\ r = Err "Expected End packet")).
Proof.
  induction n as [|n IH]; intros a; cbn zeta.
  - right. split; [intros; lia|]. rewrite Nat.add_0_r. cbn. destruct (fe (g a)); auto.
  - change (seq a (S (S n))) with (a :: seq (S a) (S n)).
    change (check_rest fc fe (map (fun i => [g i]) (a :: seq (S a) (S n)))) with
      (if fc (g a) then check_rest fc fe (map (fun i => [g i]) (seq (S a) (S n)))
       else Err "Expected Continue packet"%string).
    destruct (fc (g a)) eqn:E.
    + destruct (IH (S a)) as [(H & i & Hi & F)|(H & H')].
      * left. split; [exact H|]. exists i. split; [lia|exact F].
      * right. replace (a + S n) with (S a + n) by lia. split; [|exact H'].
        intros i Hi. destruct (Nat.eq_dec i a) as [->|]; [exact E|]. apply H. lia.
    + left. split; [reflexivity|]. exists a. split; [lia|exact E].
Qed.

Lemma lead_chunks stride t b k : 0 < stride -> leading stride t b k ->
  take_while (fun c => nibble32 (hd0 c) 0 =? t)%N (chunks stride b) = map (fun i => chunk stride i b) (seq 0 k).
Proof.
  intros Hs Hl. rewrite chunks_spec by auto. rewrite take_while_map.
  rewrite (take_while_ext _ (fun i => bits b (Seg (stride * i) 28 4) =? t)%N).
  2:{ intros i _. rewrite hd0_chunk by auto. now rewrite nibble32_bits. }
  destruct (take_while_seq (fun i => bits b (Seg (stride * i) 28 4) =? t)%N 0
            ((List.length b + stride - 1) / stride)) as (k' & H1 & H0 & H2 & H3).
  rewrite H0. do 2 f_equal. eapply leading_unique; [|exact Hl]. split; [exact H1|]. split.
  - intros i Hi. specialize (H2 i Hi). cbn beta in H2. now apply N.eqb_eq in H2.
  - intros Hk. specialize (H3 Hk). cbn beta in H3. now apply N.eqb_neq in H3.
Qed.

Lemma framing_judged (b : list N) (fmt : N -> N) (mark : nat -> N) stride t : 0 < stride ->
  (forall i, fmt (nth (stride * i) b 0%N) = mark i) ->
  judged (validate_statuses b (fun x => fmt x =? 0)%N (fun x => fmt x =? 1)%N (fun x => fmt x =? 2)%N
    (fun x => fmt x =? 3)%N stride t) (framing stride t mark b).
Proof.
  intros Hs Hm. destruct (leading_exists stride t b) as (k & Hk). unfold validate_statuses. rewrite (lead_chunks _ _ _ k Hs Hk).
  assert (U : forall j, leading stride t b j -> j = k) by (intros j Hj; eapply leading_unique; eassumption).
  unfold framing. destruct k as [|[|k]].
  - cbn [seq map]. now apply judged_here.
  - cbn [seq map]. rewrite hd0_chunk, Hm by auto. apply judged_skip; [intros H; apply U in H; lia|].
    destruct (N.eqb_spec (mark 0) 0) as [E|E]; cbn [check].
    + repeat apply judged_skip; try (intros (j & H & X); apply U in H; lia); [tauto| |apply judged_nil].
      intros (j & i & H & X). apply U in H. lia.
    + apply judged_here. auto.
  - cbn [seq map]. rewrite hd0_chunk, Hm by auto. apply judged_skip; [intros H; apply U in H; lia|].
    apply judged_skip; [intros [H _]; apply U in H; lia|].
    destruct (N.eqb_spec (mark 0) 1) as [E|E].
    2:{ apply judged_here. exists (S (S k)). split; [exact Hk|]. split; [lia|exact E]. }
    apply judged_skip; [intros (j & _ & _ & X); tauto|].
    rewrite check_rest_heads.
    change (chunk stride 1 b :: map (fun i => chunk stride i b) (seq 2 k)) with (map (fun i => chunk stride i b) (seq 1 (S k))).
    rewrite map_map.
    rewrite (map_ext _ (fun i => [nth (stride * i) b 0%N])) by (intros i; now rewrite hd0_chunk by auto).
    destruct (rest_cases (fun x => fmt x =? 2)%N (fun x => fmt x =? 3)%N (fun i => nth (stride * i) b 0%N) k 1)
      as [(-> & i & Hi & F)|(H & [(L & ->)|(L & ->)])].
    + rewrite Hm in F. apply judged_here. exists (S (S k)), i. split; [exact Hk|]. split; [lia|]. now apply N.eqb_neq.
    + rewrite Hm in L. apply N.eqb_eq in L. apply judged_skip.
      * intros (j & i & Hj & Hi & X). apply U in Hj. subst j. specialize (H i ltac:(lia)). rewrite Hm in H. now apply N.eqb_eq in H.
      * apply judged_skip; [|apply judged_nil]. intros (j & Hj & _ & X). apply U in Hj. subst j. apply X. now replace (S (S k) - 1) with (1 + k) by lia.
    + rewrite Hm in L. apply N.eqb_neq in L. apply judged_skip.
      * intros (j & i & Hj & Hi & X). apply U in Hj. subst j. specialize (H i ltac:(lia)). rewrite Hm in H. now apply N.eqb_eq in H.
      * apply judged_here. exists (S (S k)). split; [exact Hk|]. split; [lia|]. now replace (S (S k) - 1) with (1 + k) by lia.
Qed.

(** ** Fields scanned in all packets *)

Lemma forallb_false {A} (f : A -> bool) l : forallb f l = false <-> exists x, In x l /\ f x = false.
Proof.
  induction l as [|a l IH]; cbn; [split; [discriminate|intros (x & [] & _)]|]. destruct (f a) eqn:E; cbn.
  - rewrite IH. split; [intros (x & H & F); eauto|]. intros (x & [->|H] & F); [congruence|eauto].
  - split; [intros _; exists a; auto|auto].
Qed.

Lemma scan_judged (n : nat) (get : N -> N) (field : nat -> N) v (b : list N) e : 0 < n ->
  (forall i, get (nth (n * i) b 0%N) = field i) ->
  judged (check (forallb (fun c => get (hd0 c) =? v)%N (chunks_exact n b)) e)
    [(e, exists i, i < List.length b / n /\ field i <> v)].
Proof.
  intros Hn Hg. rewrite chunks_exact_spec, forallb_map by lia.
  destruct (forallb _ _) eqn:E; cbn [check judged].
  - constructor; [|constructor]. cbn [snd]. intros (i & Hi & X). rewrite forallb_forall in E.
    specialize (E i ltac:(apply in_seq; lia)). rewrite hd0_chunk, Hg in E by lia. apply N.eqb_eq in E. contradiction.
  - apply reports_here. apply forallb_false in E as (i & Hi & X). apply in_seq in Hi.
    rewrite hd0_chunk, Hg in X by lia. apply N.eqb_neq in X. exists i. split; [lia|exact X].
Qed.

Lemma bits_skipn b k i lo n : bits (skipn k b) (Seg i lo n) = bits b (Seg (k + i) lo n).
Proof. unfold bits. cbn [sg_n sg_lo sg_w]. now rewrite nth_skipn. Qed.

Lemma fixed_none b i lo n v : decode (Fixed (Seg 0 lo n) v) (skipn (4 * i) b) = None <-> bits b (Seg (4 * i) lo n) <> v.
Proof.
  cbn [decode]. rewrite bits_skipn, Nat.add_0_r. destruct (N.eqb_spec (bits b (Seg (4 * i) lo n)) v); split; congruence.
Qed.

(** ** Fixed-size messages *)

(** The text of a property's complaint. *)
Definition text (u : unit_id) (p : prop) : option string :=
  match u, p with
  | U8, PUmpType _ => None
  | _, PUmpType _ => Some "Incorrect ump message type"
  | _, (PCvStatus _ | PFlexStatus _ | PStreamStatus _) => Some "Incorrect message status"
  | _, PSysStatus _ => Some "Incorrect status field"
  | _, PAttribute => Some "Couldn't interpret note attribute"
  | _, PController => Some "Couldn't interpret controller index"
  | _, PFlexBank _ => Some "Incorrect message bank"
  | _, PFlexFormat _ => Some "Incorrect message format"
  | _, PNoChannel => Some "Address field should be non zero."
  | _, PTonic _ => Some "Couldn't interpret Tonic field"
  | _, PChordSF _ => Some "Couldn't interpret Sharps / Flats field"
  | _, PChordType _ => Some "Couldn't interpret Chord field"
  | _, PAlteration _ => Some "Couldn't interpret alteration field"
  | _, PPort => Some "Couldn't interpret midi1 port field"
  | _, PDirection => Some "Couldn't interpret direction field"
  | _, _ => None
  end.

Lemma check_err b e e' : check b e = Err e' -> e' = e.
Proof. destruct b; cbn; congruence. Qed.

Ltac split_code H :=
  repeat match type of H with context [match ?x with _ => _ end] => destruct x; try discriminate H end;
  cbn in H; congruence.
Lemma tonic_err n e : res_unit (tonic_from n) = Err e -> e = "Couldn't interpret Tonic field".
Proof. unfold tonic_from. intros H. split_code H. Qed.
Lemma chord_sf_err n e : res_unit (chord_sf_from n) = Err e -> e = "Couldn't interpret Sharps / Flats field".
Proof. unfold chord_sf_from. intros H. split_code H. Qed.
Lemma chord_type_err n e : res_unit (chord_type_from n) = Err e -> e = "Couldn't interpret Chord field".
Proof. unfold chord_type_from. intros H. split_code H. Qed.
Lemma alteration_err n e : res_unit (alteration_from n) = Err e -> e = "Couldn't interpret alteration field".
Proof. unfold alteration_from. intros H. split_code H. Qed.

Lemma val_inj {A} (a b : A) : Val a = Val b -> a = b. Proof. congruence. Qed.

(** A property complains with its text. *)
Lemma prop_text u p b e : p <> PStreamFormats -> prop_validate u p b = Val (Err e) -> text u p = Some e.
Proof.
  intros Hp. destruct u, p; cbn [prop_validate text]; try discriminate; try congruence;
    unfold at_table; try (destruct (lookup4 _ _) as [[w i]|]; [|discriminate]);
    try (destruct (idx _ _) as [x|]; [|discriminate]); cbn [bind];
    try (destruct (direction_ok _); [|discriminate]); cbn [bind];
    intros H; apply val_inj in H;
    first [apply check_err in H|apply tonic_err in H|apply chord_sf_err in H|apply chord_type_err in H|apply alteration_err in H];
    now subst.
Qed.

Lemma prop_judged u p w b : wf_buf u b -> wire_of u p = Some w ->
  (vstriped p || total_prop p = false -> wire_in (List.length b) w = true) ->
  exists r, prop_validate u p b = Val r
    /\ judged r (match p with
                 | PStreamFormats => framing 4 0xF (fun i => bits b (Seg (4 * i) 26 2)) b
                 | _ => match text u p with
                        | None => []
                        | Some e => [(e, if vstriped p then exists i, i < List.length b / 4 /\ decode w (skipn (4 * i) b) = None
                                         else decode w b = None)]
                        end
                 end).
Proof.
  intros Hwf Hw Hin. destruct (vstriped p) eqn:Hv.
  - pose proof (vstriped_u32 _ _ _ Hv Hw). subst u. destruct p; try discriminate; cbn [wire_of] in Hw; apply some_inj in Hw; subst w.
    + eexists. split; [reflexivity|]. cbn [text]. eapply judged_iff; [|apply (scan_judged 4 (fun x => octet32 x 3) (fun i => bits b (Seg (4 * i) 0 8))); [lia|intros i; exact (octet32_bits b (4 * i) 3)]].
      setoid_rewrite fixed_none. reflexivity.
    + eexists. split; [reflexivity|]. cbn [text]. eapply judged_iff; [|apply (scan_judged 4 (fun x => octet32 x 2) (fun i => bits b (Seg (4 * i) 8 8))); [lia|intros i; exact (octet32_bits b (4 * i) 2)]].
      setoid_rewrite fixed_none. reflexivity.
    + eexists. split; [reflexivity|]. cbn [text]. eapply judged_iff; [|apply (scan_judged 4 stream_status (fun i => bits b (Seg (4 * i) 16 10))); [lia|intros i; exact (stream_status_bits b (4 * i))]].
      setoid_rewrite fixed_none. reflexivity.
    + eexists. split; [reflexivity|]. unfold stream_formats_validate. apply (framing_judged b (fun x => crumb32 x 2)); [lia|].
      intros i. exact (crumb32_bits b (4 * i) 2).
  - destruct (prop_validate_ok u p w b Hwf Hw) as (r & E & R); [now rewrite Hv|]. exists r. split; [exact E|].
    assert (P : p <> PStreamFormats) by (intros ->; discriminate).
    assert (D : is_ok r = true <-> decode w b <> None) by (rewrite R; destruct p; cbn in *; try discriminate; tauto).
    set (l := match text u p with None => [] | Some e => [(e, decode w b = None)] end).
    assert (J : judged r l).
    { destruct r as [[]|e]; cbn [judged].
      - unfold l. destruct (text u p); [|constructor]. constructor; [cbn; now apply D|constructor].
      - unfold l. rewrite (prop_text u p b e P E). apply reports_here.
        destruct (decode w b); [|reflexivity]. destruct D as [_ D]. cbn in D. discriminate D. discriminate. }
    destruct p; try exact J; congruence.
Qed.

(** The table of messages agrees with the complaints of SpecErrors.v. *)
Definition row_texts (u : unit_id) (m : message) : bool :=
  forallb (fun x =>
    let '((f, p), (g, w)) := x in
    String.eqb f g
    && match p with
       | PStreamFormats => String.eqb g "consistent_formats"
       | _ => negb (String.eqb g "consistent_formats")
              && match text u p, complaint_about (m_name m) g w with
                 | None, None => true
                 | Some e, Some e' => String.eqb e e' && eqb (vstriped p) (scanned (m_name m) g)
                 | _, _ => false
                 end
       end) (combine (m_fields m) (layout u (m_name m)))
  && (List.length (m_fields m) =? List.length (layout u (m_name m)))
  && (min_size u m =? demanded u (m_name m)).
Lemma texts_ump : forallb (row_texts U32) all_messages = true.
Proof. vm_compute. reflexivity. Qed.
Lemma texts_bytes : forallb (row_texts U8) (filter (supports U8) all_messages) = true.
Proof. vm_compute. reflexivity. Qed.
Lemma texts u m : In m all_messages -> supports u m = true -> row_texts u m = true.
Proof.
  intros Hm Hs. destruct u.
  - pose proof texts_bytes as H. rewrite forallb_forall in H. apply H. apply filter_In. auto.
  - pose proof texts_ump as H. rewrite forallb_forall in H. now apply H.
Qed.

Lemma fields_judged u m b : wf_buf u b -> In m all_messages -> supports u m = true -> min_size u m <= List.length b ->
  forall fs ws, List.length fs = List.length ws ->
  (forall fp, In fp fs -> In fp (m_fields m)) -> (forall gw, In gw ws -> In gw (layout u (m_name m))) ->
  forallb (fun x =>
    let '((f, p), (g, w)) := x in
    String.eqb f g
    && match p with
       | PStreamFormats => String.eqb g "consistent_formats"
       | _ => negb (String.eqb g "consistent_formats")
              && match text u p, complaint_about (m_name m) g w with
                 | None, None => true
                 | Some e, Some e' => String.eqb e e' && eqb (vstriped p) (scanned (m_name m) g)
                 | _, _ => false
                 end
       end) (combine fs ws) = true ->
  exists r, validate_all u fs b = Val r /\ judged r (flat_map (fun fw => field_defects (m_name m) (fst fw) (snd fw) b) ws).
Proof.
  intros Hwf Hm Hs Hl. induction fs as [|[f p] fs IH]; intros [|[g w] ws] Len If Iw H; try discriminate.
  - exists (Ok tt). split; [reflexivity|apply judged_nil].
  - cbn [combine forallb] in H. apply andb_prop in H as [H H']. apply andb_prop in H as [Hfg H].
    apply String.eqb_eq in Hfg. subst g.
    assert (Fp : In (f, p) (m_fields m)) by (apply If; now left). assert (Fw : In (f, w) (layout u (m_name m))) by (apply Iw; now left).
    destruct (facts_of_layout u m f w Hm Fw) as (p' & F).
    assert (p' = p).
    { pose proof (ff_field _ _ _ _ _ F) as X. pose proof (row u m Hm Hs) as Y. unfold row_ok in Y. repeat (apply andb_prop in Y as [Y ?]).
      apply (in_field f _ p) in Fp; [congruence|exact Y]. }
    subst p'. pose proof (ff_wire _ _ _ _ _ F) as Hw.
    destruct (prop_judged u p w b Hwf Hw) as (r & E & J).
    { intros Hp. destruct (min_covers u m f p Hm Hs Fp Hp) as (w' & E & Hin).
      assert (w' = w) by congruence. subst. eapply wire_in_le; eauto. }
    destruct (IH ws) as (r' & E' & J'); [now injection Len|intros; apply If; now right|intros; apply Iw; now right|exact H'|].
    cbn [validate_all flat_map]. rewrite E. cbn [bind].
    assert (J2 : judged r (field_defects (m_name m) (fst (f, w)) (snd (f, w)) b)).
    { cbn [fst snd]. unfold field_defects. clear - H J.
      destruct p; try (rewrite H; exact J);
        (apply andb_prop in H as [H1 H2]; apply negb_true_iff in H1; rewrite H1;
         destruct (text u _), (complaint_about (m_name m) f w); try discriminate H2; try exact J;
         apply andb_prop in H2 as [H2 H3]; apply String.eqb_eq in H2; apply eqb_prop in H3; subst; rewrite <- H3; exact J). }
    exists (match r with Ok _ => r' | Err e => Err e end). split; [destruct r; [rewrite E'|]; reflexivity|].
    apply judged_app; auto.
Qed.

Lemma fixed_judged u m b : In m all_messages -> supports u m = true -> wf_buf u b ->
  exists r, try_from u m b = Val r /\ judged r (fixed_defects u (m_name m) b).
Proof.
  intros Hm Hs Hwf. pose proof (texts u m Hm Hs) as T. unfold row_texts in T.
  apply andb_prop in T as [T T3]. apply andb_prop in T as [T1 T2]. apply Nat.eqb_eq in T2, T3.
  unfold try_from, fixed_defects. rewrite T3. destruct (Nat.ltb_spec (List.length b) (demanded u (m_name m))) as [L|L].
  - eexists. split; [reflexivity|]. now apply judged_here.
  - destruct (fields_judged u m b Hwf Hm Hs ltac:(lia) (m_fields m) (layout u (m_name m)) T2 ltac:(auto) ltac:(auto) T1) as (r & E & J).
    rewrite E. cbn [bind]. exists (match r with Ok _ => Ok b | Err e => Err e end). split; [now destruct r|].
    apply judged_skip; [lia|]. now apply judged_ok.
Qed.
