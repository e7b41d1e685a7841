(** Remaining lemmas behind the properties of the fixed-size messages. *)
From Coq Require Import NArith List String Bool Arith Lia ZifyBool ZifyNat ZifyN.
From Verif Require Import Base BitOps Encode7 Values Schema Helpers Props Message MessageTable SpecLayout SpecFixed
  BitLemmas ListLemmas PropLemmas PropWrite PropValidate Stripes MessageLemmas InitLemmas FixedLemmas
  ConvertLemmas.
Import ListNotations.
Local Open Scope string_scope.
Local Open Scope N_scope.
Local Open Scope list_scope.

(** Every getter other than the one of the field just set. *)
Lemma get_other u m f w b b' : In m all_messages -> settable_field u m f w -> holds u m b -> holds u m b' ->
  only_changes (occupies w) b b' -> forall g, g <> f -> get u m b' g = get u m b g.
Proof.
  intros Hm Hf Hh Hh' Hc g Hne. pose proof (settable_supports u m f w Hm Hf) as Hs.
  unfold get. destruct (field (m_fields m) g) as [q|] eqn:E; auto.
  apply field_in in E. destruct (facts_of_prop u m g q Hm Hs E) as (x & G).
  pose proof (get_absent u m g) as Habs. unfold get in Habs. rewrite (ff_field _ _ _ _ _ G) in Habs.
  destruct (settable x) eqn:Hset.
  - pose proof (get_settable u m b g x Hm) as H1. pose proof (get_settable u m b' g x Hm) as H2.
    unfold get in H1, H2. rewrite (ff_field _ _ _ _ _ G) in H1, H2.
    assert (Hg : settable_field u m g x) by (split; auto; apply G).
    rewrite H1, H2 by auto. f_equal. apply (frame_decode u m f w g x b b'); auto; [apply Hf|apply G].
  - destruct (field_type_wire u m g x Hm (ff_layout _ _ _ _ _ G)) as [Ht _].
    assert (Hty : prop_ty q = wire_ty x).
    { unfold field_type in Ht. rewrite (ff_field _ _ _ _ _ G) in Ht. cbn in Ht. congruence. }
    destruct x; try discriminate.
    + rewrite !(unit_read u q _ _ Hty (ff_wire _ _ _ _ _ G)). reflexivity.
    + rewrite !(unit_read u q _ _ Hty (ff_wire _ _ _ _ _ G)). reflexivity.
    + rewrite !(Habs v) by (auto; apply G). reflexivity.
Qed.

(** A getter as a function of the units of the message. *)
Lemma get_same u m a b : In m all_messages -> supports u m = true -> holds u m a -> holds u m b ->
  (forall f w, In (f, w) (layout u (m_name m)) -> decode w a = decode w b) ->
  forall g, get u m a g = get u m b g.
Proof.
  intros Hm Hs Ha Hb H g. unfold get. destruct (field (m_fields m) g) as [q|] eqn:E; auto.
  apply field_in in E. destruct (facts_of_prop u m g q Hm Hs E) as (x & G).
  pose proof (get_absent u m g) as Habs. unfold get in Habs. rewrite (ff_field _ _ _ _ _ G) in Habs.
  destruct (settable x) eqn:Hset.
  - pose proof (get_settable u m a g x Hm) as H1. pose proof (get_settable u m b g x Hm) as H2.
    unfold get in H1, H2. rewrite (ff_field _ _ _ _ _ G) in H1, H2.
    assert (Hg : settable_field u m g x) by (split; auto; apply G).
    rewrite H1, H2 by auto. f_equal. apply (H g), G.
  - destruct (field_type_wire u m g x Hm (ff_layout _ _ _ _ _ G)) as [Ht _].
    assert (Hty : prop_ty q = wire_ty x).
    { unfold field_type in Ht. rewrite (ff_field _ _ _ _ _ G) in Ht. cbn in Ht. congruence. }
    destruct x; try discriminate.
    + rewrite !(unit_read u q _ _ Hty (ff_wire _ _ _ _ _ G)). reflexivity.
    + rewrite !(unit_read u q _ _ Hty (ff_wire _ _ _ _ _ G)). reflexivity.
    + rewrite !(Habs v) by (auto; apply G). reflexivity.
Qed.

Lemma holds_app u m b t : holds u m b -> wf_buf u t -> holds u m (b ++ t).
Proof.
  intros (H1 & H2 & H3) Ht. split; [now apply Forall_app|]. rewrite app_length. split; [lia|].
  intros Hu Hn. specialize (H3 Hu Hn). lia.
Qed.

Lemma get_app u m b t : In m all_messages -> supports u m = true -> holds u m b -> wf_buf u t ->
  forall g, get u m (b ++ t) g = get u m b g.
Proof.
  intros Hm Hs Hh Ht. apply get_same; auto; [now apply holds_app|].
  intros f w Hin. eapply app_decode; eauto. now apply holds_room.
Qed.

Lemma get_firstn u m b n : In m all_messages -> supports u m = true -> holds u m b ->
  holds u m (firstn n b) -> forall g, get u m (firstn n b) g = get u m b g.
Proof.
  intros Hm Hs Hh Hh'. apply get_same; auto.
  intros f w Hin. eapply firstn_decode; eauto. apply holds_room in Hh'. rewrite firstn_length in Hh'. lia.
Qed.

(** *** Construction *)

Definition stream_named_check : bool :=
  forallb (fun m => no_striped (m_fields m) || String.prefix "ump_stream::" (m_name m)) all_messages.
Lemma stream_named : stream_named_check = true.
Proof. vm_compute. reflexivity. Qed.

Lemma calm_quiet u m b : In m all_messages -> supports u m = true -> calm m b ->
  quiet u m (skipn (min_size u m) b).
Proof.
  intros Hm Hs Hc. pose proof stream_named as H. unfold stream_named_check in H.
  rewrite forallb_forall in H. specialize (H m Hm). unfold quiet.
  destruct (no_striped (m_fields m)) eqn:En; [now left|right]. cbn [orb] in H.
  rewrite (striped_u32 u m Hm Hs En). now apply Hc.
Qed.

Lemma constructible_room u m : supports u m = true -> constructible u m -> room u m = min_size u m.
Proof.
  intros Hs Hc. unfold room. destruct u; auto. cbn [constructible] in Hc.
  destruct (String.eqb_spec (m_name m) "system_common::SongPositionPointer"); congruence.
Qed.

Lemma fresh_holds u m z : In m all_messages -> supports u m = true -> constructible u m -> fresh u m z ->
  holds u m z.
Proof.
  intros Hm Hs Hc (H1 & H2 & _). split; [exact H2|]. split; [lia|]. intros -> En. now destruct (Hc En).
Qed.

Lemma fresh_get u m z f w : In m all_messages -> constructible u m -> fresh u m z -> settable_field u m f w ->
  get u m z f = Val (default_value w).
Proof.
  intros Hm Hc Hf Hs. pose proof (settable_supports u m f w Hm Hs) as Hsu.
  rewrite (get_settable u m z f w) by (auto; now apply fresh_holds).
  destruct Hf as (_ & _ & _ & H). rewrite (H f w) by apply Hs. reflexivity.
Qed.

Lemma fresh_data u m z t : List.length z = min_size u m -> data u m (z ++ t) = Val z.
Proof.
  intros H. rewrite data_ok by (rewrite app_length; lia). f_equal. rewrite <- H.
  rewrite firstn_app, firstn_all, Nat.sub_diag. cbn. apply app_nil_r.
Qed.

Lemma prop_write_wf u m f p b b' : In m all_messages -> supports u m = true -> In (f, p) (m_fields m) ->
  wf_buf u b -> (room u m <= List.length b)%nat ->
  prop_write u p b (prop_default p) = Val b' -> wf_buf u b' /\ List.length b' = List.length b.
Proof.
  intros Hm Hs Hf Hwf Hr E. destruct (facts_of_prop u m f p Hm Hs Hf) as (w & F).
  destruct (striped p) eqn:Hst.
  - destruct p; try discriminate; destruct u; try discriminate.
    + assert (Hn : s < 2 ^ 10).
      { pose proof (ff_ok _ _ _ _ _ F) as Hok. pose proof (ff_wire _ _ _ _ _ F) as Hw. cbn [wire_of] in Hw.
        apply some_inj in Hw. subst w. unfold wire_ok in Hok. apply andb_prop in Hok as [_ Hok].
        cbn [sg_n] in Hok. lia. }
      destruct (stream_status_write s b Hwf Hn) as (b1 & E1 & H1 & H2 & _).
      cbn [prop_default] in E. assert (b1 = b') by congruence. subst. split; auto. apply H2.
    + cbn [prop_write prop_default] in E.
      destruct (Nat.eq_dec (stream_packet_count b) 0) as [E0|E0].
      { unfold set_format_fields in E. rewrite E0 in E. discriminate. }
      destruct (set_format_fields_spec b Hwf ltac:(lia)) as (b1 & E1 & H1 & H2 & _).
      assert (b1 = b') by congruence. subst. split; auto. apply H2.
  - destruct (prop_write_spec u p w b (prop_default p)) as (b1 & E1 & H1 & H2 & _); auto; try apply F.
    { eapply room_wire_in; [exact Hm|apply F|exact Hr]. }
    assert (b1 = b') by congruence. subst. split; auto. apply H1.
Qed.

Lemma initialise_wf u m : In m all_messages -> supports u m = true ->
  forall fs b b', incl fs (m_fields m) -> wf_buf u b -> (room u m <= List.length b)%nat ->
  initialise u fs b = Val b' -> wf_buf u b'.
Proof.
  intros Hm Hs. induction fs as [|[f p] fs IH]; intros b b' Hi Hwf Hr E.
  - cbn in E. congruence.
  - rewrite initialise_cons in E. apply bind_val in E as (b1 & E1 & E).
    destruct (prop_write_wf u m f p b b1) as [H1 H2]; auto. { apply Hi. now left. }
    apply (IH b1); auto; [|lia]. intros x Hx. apply Hi. now right.
Qed.

(** *** Acceptance of messages whose validation scans packets *)

Definition flex_check : bool :=
  forallb (fun m => negb (String.prefix "flex_data::" (m_name m)) ||
    (existsb (fun fp => match snd fp with PFlexStatus _ => true | _ => false end) (m_fields m)
     && existsb (fun fp => match snd fp with PFlexBank _ => true | _ => false end) (m_fields m)
     && forallb (fun fp => match snd fp with PStreamStatus _ | PStreamFormats => false | _ => true end) (m_fields m)
     && Nat.eqb (min_size U32 m) 4)) all_messages.
Lemma flex_checked : flex_check = true.
Proof. vm_compute. reflexivity. Qed.

Lemma accepts_flex m b : In m all_messages -> String.prefix "flex_data::" (m_name m) = true -> wf_buf U32 b ->
  (accepts U32 m b <-> (4 <= List.length b)%nat /\ meaningful U32 m b /\
     packets_agree 0 8 b /\ packets_agree 8 8 b).
Proof.
  intros Hm Hp Hwf. pose proof flex_checked as H. unfold flex_check in H. rewrite forallb_forall in H.
  specialize (H m Hm). rewrite Hp in H. cbn [negb orb] in H. apply andb_prop in H as [H H4].
  apply andb_prop in H as [H H3]. apply andb_prop in H as [H1 H2]. apply Nat.eqb_eq in H4.
  apply existsb_exists in H1 as ([f1 p1] & I1 & E1). apply existsb_exists in H2 as ([f2 p2] & I2 & E2).
  cbn [snd] in *. destruct p1; try discriminate. destruct p2; try discriminate.
  rewrite forallb_forall in H3. rewrite accepts_iff by auto. rewrite H4.
  assert (Hlen : (4 <= List.length b -> 0 < List.length b / 4)%nat) by lia.
  split.
  - intros [Hl Hall].
    pose proof (Hall f1 _ _ I1 eq_refl) as A1. pose proof (Hall f2 _ _ I2 eq_refl) as A2.
    cbn [prop_ok] in A1, A2. split; [exact Hl|]. split; [|split].
    + intros f w Hin. destruct (facts_of_layout U32 m f w Hm Hin) as (p & F).
      pose proof (Hall f p w (ff_in _ _ _ _ _ F) (ff_wire _ _ _ _ _ F)) as A.
      pose proof (ff_wire _ _ _ _ _ F) as Hw.
      destruct (vstriped p) eqn:Hv; [|now apply prop_ok_plain in A].
      pose proof (H3 (f, p) (ff_in _ _ _ _ _ F)) as Hx. cbn [snd] in Hx.
      destruct p; try discriminate; cbn [wire_of] in Hw; apply some_inj in Hw; subst w; cbn [prop_ok] in A;
        specialize (A 0%nat (Hlen Hl)); change (4 * 0)%nat with 0%nat in A; cbn [decode]; rewrite A, N.eqb_refl;
        discriminate.
    + intros i Hi. rewrite (A1 i Hi). rewrite <- (A1 0%nat (Hlen Hl)). reflexivity.
    + intros i Hi. rewrite (A2 i Hi). rewrite <- (A2 0%nat (Hlen Hl)). reflexivity.
  - intros (Hl & Hmean & G1 & G2). split; [exact Hl|]. intros f p w Hf Hw.
    destruct (facts_of_prop U32 m f p Hm eq_refl Hf) as (w' & F).
    assert (w' = w) by (pose proof (ff_wire _ _ _ _ _ F); congruence). subst w'.
    pose proof (Hmean f w (ff_layout _ _ _ _ _ F)) as Hd.
    destruct (vstriped p) eqn:Hv; [|now apply prop_ok_plain].
    pose proof (H3 (f, p) Hf) as Hx. cbn [snd] in Hx.
    destruct p; try discriminate; cbn [wire_of] in Hw; apply some_inj in Hw; subst w; cbn [prop_ok decode] in *;
      intros i Hi; rewrite ?G1, ?G2 by exact Hi;
      match type of Hd with (if ?x =? ?y then _ else _) <> None => destruct (N.eqb_spec x y); congruence end.
Qed.

Definition stream_check : bool :=
  forallb (fun m => negb (String.prefix "ump_stream::" (m_name m)) ||
    (existsb (fun fp => match snd fp with PStreamStatus _ => true | _ => false end) (m_fields m)
     && existsb (fun fp => match snd fp with PStreamFormats => String.eqb (fst fp) "consistent_formats" | _ => false end) (m_fields m)
     && forallb (fun fp => match snd fp with PFlexStatus _ | PFlexBank _ => false
                           | PStreamFormats => String.eqb (fst fp) "consistent_formats"
                           | _ => negb (String.eqb (fst fp) "consistent_formats") end) (m_fields m)
     && (min_size U32 m <=? 4)%nat)) all_messages.
Lemma stream_checked : stream_check = true.
Proof. vm_compute. reflexivity. Qed.

Lemma accepts_stream m b : In m all_messages -> String.prefix "ump_stream::" (m_name m) = true -> wf_buf U32 b ->
  (4 <= List.length b)%nat ->
  (accepts U32 m b <->
     (forall f w, In (f, w) (layout U32 (m_name m)) -> f <> "consistent_formats" -> decode w b <> None) /\
     packets_agree 16 10 b /\
     (forall k, leading 4 0xF b k -> framed (fun i => bits b (Seg (4 * i) 26 2)) 0 1 2 3 k)).
Proof.
  intros Hm Hp Hwf Hl. pose proof stream_checked as H. unfold stream_check in H. rewrite forallb_forall in H.
  specialize (H m Hm). rewrite Hp in H. cbn [negb orb] in H. apply andb_prop in H as [H H4].
  apply andb_prop in H as [H H3]. apply andb_prop in H as [H1 H2]. apply Nat.leb_le in H4.
  apply existsb_exists in H1 as ([f1 p1] & I1 & E1). apply existsb_exists in H2 as ([f2 p2] & I2 & E2).
  cbn [fst snd] in *. destruct p1; try discriminate. destruct p2; try discriminate.
  rewrite forallb_forall in H3. rewrite accepts_iff by auto.
  assert (Hlen : (0 < List.length b / 4)%nat) by lia.
  split.
  - intros [_ Hall].
    pose proof (Hall f1 _ _ I1 eq_refl) as A1. pose proof (Hall f2 _ _ I2 eq_refl) as A2.
    cbn [prop_ok] in A1, A2. split; [|split; [|exact A2]].
    + intros f w Hin Hne. destruct (facts_of_layout U32 m f w Hm Hin) as (p & F).
      pose proof (Hall f p w (ff_in _ _ _ _ _ F) (ff_wire _ _ _ _ _ F)) as A.
      pose proof (ff_wire _ _ _ _ _ F) as Hw.
      destruct (vstriped p) eqn:Hv; [|now apply prop_ok_plain in A].
      pose proof (H3 (f, p) (ff_in _ _ _ _ _ F)) as Hx. cbn [fst snd] in Hx.
      destruct p; try discriminate; [|apply String.eqb_eq in Hx; congruence].
      cbn [wire_of] in Hw; apply some_inj in Hw; subst w; cbn [prop_ok] in A;
        specialize (A 0%nat Hlen); change (4 * 0)%nat with 0%nat in A; cbn [decode]; rewrite A, N.eqb_refl;
        discriminate.
    + intros i Hi. rewrite (A1 i Hi). rewrite <- (A1 0%nat Hlen). reflexivity.
  - intros (Hmean & G1 & G2). split; [lia|]. intros f p w Hf Hw.
    destruct (facts_of_prop U32 m f p Hm eq_refl Hf) as (w' & F).
    assert (w' = w) by (pose proof (ff_wire _ _ _ _ _ F); congruence). subst w'.
    pose proof (Hmean f w (ff_layout _ _ _ _ _ F)) as Hd.
    pose proof (H3 (f, p) Hf) as Hx. cbn [fst snd] in Hx.
    destruct (vstriped p) eqn:Hv.
    + destruct p; try discriminate; cbn [wire_of] in Hw; apply some_inj in Hw; subst w; cbn [prop_ok decode] in *;
        [|exact G2].
      apply negb_true_iff, String.eqb_neq in Hx. specialize (Hd Hx).
      intros i Hi. rewrite G1 by exact Hi.
      match type of Hd with (if ?x =? ?y then _ else _) <> None => destruct (N.eqb_spec x y); congruence end.
    + apply prop_ok_plain; auto. apply Hd. intros ->.
      destruct p; try discriminate.
Qed.

(** Acceptance and meaning. *)
Lemma accepts_meaningful u m b : In m all_messages -> supports u m = true -> wf_buf u b -> accepts u m b ->
  sized u m -> complete m b -> meaningful u m b.
Proof.
  intros Hm Hs Hwf Ha Hz Hc.
  destruct (scans_packets m) eqn:Hsc.
  2:{ now apply accepts_bare in Ha. }
  assert (Hu : u = U32).
  { destruct u; auto. exfalso.
    assert (H : forallb (fun m => negb (scans_packets m) || negb (supports U8 m)) all_messages = true)
      by (vm_compute; reflexivity).
    rewrite forallb_forall in H. specialize (H m Hm). rewrite Hsc, Hs in H. discriminate. }
  subst u. unfold scans_packets in Hsc. apply orb_prop in Hsc as [Hf|Hst].
  - apply accepts_flex in Ha; auto. tauto.
  - assert (Hl : (4 <= List.length b)%nat).
    { apply accepts_iff in Ha as [H _]; auto. unfold sized, units, units_ump in Hz. rewrite Hst in Hz.
      rewrite orb_true_r in Hz. destruct (String.prefix "channel_voice2::" (m_name m)) eqn:E; [|lia].
      exfalso. assert (H2 : forallb (fun m => negb (String.prefix "channel_voice2::" (m_name m))
        || negb (String.prefix "ump_stream::" (m_name m))) all_messages = true) by (vm_compute; reflexivity).
      rewrite forallb_forall in H2. specialize (H2 m Hm). rewrite E, Hst in H2. discriminate. }
    apply accepts_stream in Ha as (H1 & _); auto. intros f w Hin.
    destruct (String.eqb_spec f "consistent_formats") as [->|]; [|now apply (H1 f)].
    specialize (Hc Hst).
    assert (Ew : w = Fixed (Seg 0 26 2) 0).
    { assert (H2 : forallb (fun m => forallb (fun fw => negb (String.eqb (fst fw) "consistent_formats") ||
          match snd fw with Fixed (Seg 0 26 2) 0 => true | _ => false end) (layout U32 (m_name m))) all_messages = true)
        by (vm_compute; reflexivity).
      rewrite forallb_forall in H2. specialize (H2 m Hm). rewrite forallb_forall in H2.
      specialize (H2 _ Hin). cbn [fst snd] in H2. rewrite String.eqb_refl in H2. cbn [negb orb] in H2.
      destruct w; try discriminate. destruct s as [[|] lo n]; try discriminate.
      destruct lo as [|lo]; try discriminate. repeat (destruct lo; try discriminate).
      destruct n as [|n]; try discriminate. repeat (destruct n; try discriminate).
      destruct c; try discriminate. reflexivity. }
    subst w. cbn [decode]. rewrite Hc. discriminate.
Qed.

(** *** Controllers *)

Lemma controller_to_canonical c c' : reads_back c = Some c' -> controller_to c = controller_to c' /\
  (has_type TyCtl (VCtl c) = true -> has_type TyCtl (VCtl c') = true) /\ representable (VCtl c') = true.
Proof.
  destruct c; cbn [reads_back]; intros H;
    try (apply some_inj in H; subst c'; cbn [has_type controller_fits representable];
         split; [reflexivity|split; [|reflexivity]]; cbn; auto; fail);
    match type of H with (if ?x then _ else _) = _ => destruct x eqn:E end; try discriminate;
    apply some_inj in H; subst c'; cbn [representable]; rewrite E; auto.
Qed.

Lemma controller_to_panics c : reads_back c = None -> controller_to c = Panic.
Proof.
  destruct c; cbn [reads_back]; try discriminate; intros H;
    match type of H with (if ?x then _ else _) = _ => destruct x eqn:E end; try discriminate;
    (destruct index as [|p]; [reflexivity|]; repeat (destruct p; try reflexivity; try discriminate)).
Qed.

(** *** The constructors together *)

Lemma construct_with_buffer u m b : In m all_messages -> supports u m = true -> constructible u m ->
  wf_buf u b -> (min_size u m <= List.length b)%nat -> calm m b ->
  exists z b', new u m = Val z /\ fresh u m z /\
    try_new_with_buffer u m b = Val (Ok b') /\ List.length b' = List.length b /\ holds u m b' /\
    data u m b' = Val z /\
    (forall g, get u m b' g = get u m z g).
Proof.
  intros Hm Hs Hc Hwf Hl Hca. destruct (new_fresh u m Hm Hs Hc) as (z & Ez & Hf).
  destruct (try_new_with_buffer_ok u m z b) as (t & E & El); auto; [now apply calm_quiet|].
  exists z, (z ++ t). split; [exact Ez|]. split; [exact Hf|]. split; [exact E|]. split; [exact El|].
  assert (Hzh : holds u m z) by now apply fresh_holds.
  assert (Hwt : wf_buf u (z ++ t)).
  { unfold try_new_with_buffer, fixed_try_resize, zero_prefix in E.
    destruct (Nat.ltb_spec (List.length b) (min_size u m)); [lia|]. cbn [negb bind] in E.
    apply bind_val in E as (b1 & E1 & E). assert (b1 = z ++ t) by congruence. subst b1.
    eapply (initialise_wf u m Hm Hs (m_fields m)); [apply incl_refl| | |exact E1].
    - apply Forall_app. split; [apply wf_repeat|now apply wf_skipn].
    - rewrite app_length, repeat_length, constructible_room by auto. lia. }
  assert (Hh : holds u m (z ++ t)).
  { apply holds_app; auto. now apply Forall_app in Hwt. }
  split; [exact Hh|]. split.
  - apply fresh_data. apply Hf.
  - apply get_app; auto. now apply Forall_app in Hwt.
Qed.

Lemma construct_array u m n : In m all_messages -> supports u m = true -> constructible u m ->
  (min_size u m <= n)%nat ->
  exists z b', new u m = Val z /\ fresh u m z /\
    array_new u m n = Val b' /\ try_new u m n = Val (Ok b') /\
    List.length b' = n /\ holds u m b' /\ data u m b' = Val z /\
    (forall g, get u m b' g = get u m z g).
Proof.
  intros Hm Hs Hc Hl. destruct (new_fresh u m Hm Hs Hc) as (z & Ez & Hf).
  destruct (array_init u m z n) as (t & E & El); auto.
  assert (Hzh : holds u m z) by now apply fresh_holds.
  assert (Hwt : wf_buf u (z ++ t)).
  { eapply (initialise_wf u m Hm Hs (m_fields m)); [apply incl_refl| | |exact E].
    - apply wf_repeat.
    - rewrite repeat_length, constructible_room by auto. lia. }
  exists z, (z ++ t). split; [exact Ez|]. split; [exact Hf|]. split; [|split].
  - unfold array_new. destruct (Nat.ltb_spec n (min_size u m)); [lia|exact E].
  - unfold try_new, fixed_try_resize. rewrite repeat_length.
    destruct (Nat.ltb_spec n (min_size u m)); [lia|]. cbn [negb]. rewrite E. reflexivity.
  - split; [exact El|]. split; [apply holds_app; auto; now apply Forall_app in Hwt|]. split.
    + apply fresh_data. apply Hf.
    + apply get_app; auto. now apply Forall_app in Hwt.
Qed.

Lemma one_packet n (d : list N) : (0 < n)%nat -> List.length d = n -> chunks_exact n d = [d].
Proof.
  intros Hn <-. rewrite chunks_exact_spec by auto. rewrite Nat.div_same by lia. cbn [seq map].
  unfold chunk. rewrite Nat.mul_0_r. cbn [skipn]. now rewrite firstn_all.
Qed.

Lemma min_size_pos m : In m all_messages -> (0 < min_size U32 m)%nat.
Proof.
  intros Hm. assert (H : forallb (fun m => (0 <? min_size U32 m)%nat) all_messages = true)
    by (vm_compute; reflexivity).
  rewrite forallb_forall in H. specialize (H m Hm). now apply Nat.ltb_lt in H.
Qed.

Lemma sized_check u : forallb (fun m => negb (supports u m) ||
  Bool.eqb (Nat.eqb (min_size u m) (units u (m_name m)))
    (negb (existsb (fun p => match fst p, u with U8, U8 | U32, U32 => String.eqb (snd p) (m_name m) | _, _ => false end)
       odd_sizes))) all_messages = true.
Proof. destruct u; vm_compute; reflexivity. Qed.

Lemma sized_iff u m : In m all_messages -> supports u m = true ->
  (sized u m <-> ~ In (u, m_name m) odd_sizes).
Proof.
  intros Hm Hs. pose proof (sized_check u) as H. rewrite forallb_forall in H. specialize (H m Hm).
  rewrite Hs in H. cbn [negb orb] in H. apply Bool.eqb_prop in H. unfold sized.
  destruct (existsb _ odd_sizes) eqn:E.
  - apply Nat.eqb_neq in H. apply existsb_exists in E as ([v n] & H1 & H2). cbn [fst snd] in H2.
    split; [congruence|]. intros Hn. exfalso. apply Hn.
    destruct v, u; try discriminate; apply String.eqb_eq in H2; subst n; exact H1.
  - apply Nat.eqb_eq in H. split; auto. intros _ Hin.
    match type of E with ?x = false => assert (x = true); [|congruence] end.
    apply existsb_exists. exists (u, m_name m). split; auto. cbn [fst snd]. destruct u; apply String.eqb_refl.
Qed.
