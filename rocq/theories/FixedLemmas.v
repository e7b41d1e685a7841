(** Facts about whole fixed-size messages: edits, acceptance, histories,
    construction, conversion. *)
From Coq Require Import NArith List String Bool Arith Lia ZifyBool ZifyNat ZifyN.
From Verif Require Import Base BitOps Values Schema Helpers Props Message MessageTable SpecLayout SpecFixed
  BitLemmas ListLemmas PropLemmas PropWrite PropValidate Stripes MessageLemmas InitLemmas.
Import ListNotations.
Local Open Scope string_scope.
Local Open Scope N_scope.
Local Open Scope list_scope.

Definition room (u : unit_id) (m : message) : nat :=
  match u with
  | U8 => if String.eqb (m_name m) "system_common::SongPositionPointer" then 3%nat else min_size u m
  | U32 => min_size u m
  end.

Definition room_covers (u : unit_id) (m : message) : bool :=
  forallb (fun fw => wire_in (room u m) (snd fw)) (layout u (m_name m)).

Lemma room_covers_all u : forallb (room_covers u) all_messages = true.
Proof. destruct u; vm_compute; reflexivity. Qed.

Lemma holds_room u m b : holds u m b -> (room u m <= List.length b)%nat.
Proof.
  intros (_ & H1 & H2). unfold room. destruct u; auto.
  destruct (String.eqb_spec (m_name m) "system_common::SongPositionPointer"); auto.
Qed.

Lemma room_wire_in u m f w n : In m all_messages -> In (f, w) (layout u (m_name m)) ->
  (room u m <= n)%nat -> wire_in n w = true.
Proof.
  intros Hm Hin Hn. pose proof (room_covers_all u) as H. rewrite forallb_forall in H.
  specialize (H m Hm). unfold room_covers in H. rewrite forallb_forall in H.
  eapply wire_in_le; [exact (H (f, w) Hin)|exact Hn].
Qed.

Lemma holds_wire_in u m b f w : In m all_messages -> In (f, w) (layout u (m_name m)) ->
  holds u m b -> wire_in (List.length b) w = true.
Proof. intros. eapply room_wire_in; eauto. now apply holds_room. Qed.

Lemma holds_same_length u m b b' : holds u m b -> wf_buf u b' ->
  List.length b' = List.length b -> holds u m b'.
Proof. intros (_ & H1 & H2) Hwf E. unfold holds. rewrite E. auto. Qed.

Lemma layout_unique u m f w w' : In m all_messages ->
  In (f, w) (layout u (m_name m)) -> In (f, w') (layout u (m_name m)) -> w = w'.
Proof.
  intros Hm H1 H2. destruct (facts_of_layout u m f w Hm H1) as (p & F).
  destruct (facts_of_layout u m f w' Hm H2) as (p' & F').
  pose proof (ff_field _ _ _ _ _ F). pose proof (ff_field _ _ _ _ _ F').
  pose proof (ff_wire _ _ _ _ _ F). pose proof (ff_wire _ _ _ _ _ F'). congruence.
Qed.

(** ** Setting a field *)

Lemma set_ok u m b f w v : In m all_messages -> settable_field u m f w -> holds u m b ->
  storable m f v ->
  exists b', set u m b f v = Val b' /\ only_changes (occupies w) b b' /\ holds u m b' /\
             decode w b' = Some v.
Proof.
  intros Hm [Hin Hset] Hh (t & Ht & Hv & Hr).
  destruct (set_written u m f w t b v Hm Hin Hset) as (b' & E & H1 & H2 & H3); auto.
  { apply Hh. } { eapply holds_wire_in; eauto. }
  exists b'. split; [exact E|]. split; [exact H1|]. split.
  - eapply holds_same_length; eauto. apply H1.
  - destruct w; try discriminate; exact H3.
Qed.

Lemma get_settable u m b f w : In m all_messages -> settable_field u m f w -> holds u m b ->
  get u m b f = of_option (decode w b).
Proof.
  intros Hm [Hin Hset] Hh. apply get_decode; auto; [apply Hh|]. eapply holds_wire_in; eauto.
Qed.

Lemma frame_decode u m f w g x b b' : In m all_messages ->
  In (f, w) (layout u (m_name m)) -> In (g, x) (layout u (m_name m)) -> f <> g ->
  only_changes (occupies w) b b' -> decode x b' = decode x b.
Proof.
  intros Hm Hf Hg Hne Hc. destruct (facts_of_layout u m g x Hm Hg) as (q & G).
  eapply decode_frame; [apply G|exact Hc|]. apply (ff_disjoint _ _ _ _ _ G f w); auto.
Qed.

(** Acceptance depends on nothing a setter changes. *)
Lemma stripe_frame b b' w lo n s :
  only_changes (occupies w) b b' -> wire_in 4 w = true ->
  all_disjoint (occupies w) [Seg 0 lo n] = true ->
  ((forall i, (i < List.length b / 4)%nat -> bits b (Seg (4 * i) lo n) = s) <->
   (forall i, (i < List.length b' / 4)%nat -> bits b' (Seg (4 * i) lo n) = s)).
Proof.
  intros Hc Hin Hd.
  assert (E : forall i, bits b' (Seg (4 * i) lo n) = bits b (Seg (4 * i) lo n)).
  { intros i. apply (only_changes_bits _ _ _ _ Hc). apply forallb_forall. intros s' Hs'.
    unfold all_disjoint, wire_in in *. rewrite forallb_forall in Hin, Hd.
    specialize (Hin s' Hs'). specialize (Hd s' Hs'). cbn [forallb] in Hd.
    unfold seg_disjoint in *. cbn [sg_w sg_lo sg_n] in *. destruct i; [|lia]. lia. }
  destruct Hc as [El _]. rewrite El. split; intros H i Hi; specialize (H i Hi); now rewrite E in *.
Qed.

Lemma leading_frame b b' k : List.length b' = List.length b ->
  (forall i, bits b' (Seg (4 * i) 28 4) = bits b (Seg (4 * i) 28 4)) ->
  leading 4 0xF b' k -> leading 4 0xF b k.
Proof.
  unfold leading. intros El E. rewrite El. intros (H1 & H2 & H3). repeat split; auto.
  - intros i Hi. rewrite <- E. auto.
  - intros Hk. rewrite <- E. auto.
Qed.

Lemma stripe_bits b b' w lo n i :
  only_changes (occupies w) b b' -> wire_in 4 w = true ->
  all_disjoint (occupies w) [Seg 0 lo n] = true ->
  bits b' (Seg (4 * i) lo n) = bits b (Seg (4 * i) lo n).
Proof.
  intros Hc Hin Hd. apply (only_changes_bits _ _ _ _ Hc). apply forallb_forall. intros s' Hs'.
  unfold all_disjoint, wire_in in *. rewrite forallb_forall in Hin, Hd.
  specialize (Hin s' Hs'). specialize (Hd s' Hs'). cbn [forallb] in Hd.
  unfold seg_disjoint in *. cbn [sg_w sg_lo sg_n] in *. destruct i; [|lia]. lia.
Qed.

Lemma only_changes_sym l b b' : only_changes l b b' -> only_changes l b' b.
Proof. intros [H1 H2]. split; auto. intros. symmetry. auto. Qed.

Definition packets4 (m : message) : bool :=
  negb (existsb (fun fp => vstriped (snd fp)) (m_fields m)) || Nat.eqb (units U32 (m_name m)) 4.
Lemma packets4_all : forallb packets4 all_messages = true.
Proof. vm_compute. reflexivity. Qed.

Lemma vstriped_units m f p : In m all_messages -> In (f, p) (m_fields m) -> vstriped p = true ->
  units U32 (m_name m) = 4%nat.
Proof.
  intros Hm Hf Hv. pose proof packets4_all as H. rewrite forallb_forall in H. specialize (H m Hm).
  unfold packets4 in H. apply orb_prop in H as [H|H]; [|lia].
  apply negb_true_iff in H. assert (existsb (fun fp => vstriped (snd fp)) (m_fields m) = true); [|congruence].
  apply existsb_exists. eauto.
Qed.

Lemma prop_ok_plain u p w b : vstriped p = false -> (prop_ok u p w b <-> decode w b <> None).
Proof. destruct p; cbn [vstriped prop_ok]; intros; try discriminate; reflexivity. Qed.

(** Messages with packet framing also have a constant UMP type. *)
Definition formats_typed (m : message) : bool :=
  negb (existsb (fun fp => match snd fp with PStreamFormats => true | _ => false end) (m_fields m))
  || existsb (fun fw => String.eqb (fst fw) "ump_type" &&
        match snd fw with Fixed (Seg 0 28 4) 15 => true | _ => false end) (layout U32 (m_name m)).
Lemma formats_typed_all : forallb formats_typed all_messages = true.
Proof. vm_compute. reflexivity. Qed.

Lemma formats_type m f : In m all_messages -> In (f, PStreamFormats) (m_fields m) ->
  In ("ump_type", Fixed (Seg 0 28 4) 15) (layout U32 (m_name m)).
Proof.
  intros Hm Hf. pose proof formats_typed_all as H. rewrite forallb_forall in H. specialize (H m Hm).
  unfold formats_typed in H. apply orb_prop in H as [H|H].
  - apply negb_true_iff in H.
    match type of H with ?x = false => assert (x = true); [|congruence] end.
    apply existsb_exists. eauto.
  - apply existsb_exists in H as ([g x] & Hg & H). cbn [fst snd] in H. apply andb_prop in H as [H1 H2].
    apply String.eqb_eq in H1. subst g.
    destruct x; try discriminate. destruct s as [[|] lo n]; try discriminate.
    destruct lo as [|lo]; try discriminate. repeat (destruct lo; try discriminate).
    destruct n as [|n]; try discriminate. repeat (destruct n; try discriminate).
    destruct c as [|c]; try discriminate. repeat (destruct c; try discriminate).
    exact Hg.
Qed.

Lemma prop_ok_frame1 u m f w g q x b b' : In m all_messages ->
  settable_field u m f w -> In (g, q) (m_fields m) -> wire_of u q = Some x ->
  In (g, x) (layout u (m_name m)) -> f <> g ->
  only_changes (occupies w) b b' -> prop_ok u q x b -> prop_ok u q x b'.
Proof.
  intros Hm [Hf Hset] Hg Hx Hl Hne Hc H.
  destruct (vstriped q) eqn:Hv.
  - assert (u = U32) by (eapply vstriped_u32; eauto). subst u.
    pose proof (vstriped_units m g q Hm Hg Hv) as Hu.
    destruct (facts_of_layout U32 m f w Hm Hf) as (p & F).
    pose proof (ff_units _ _ _ _ _ F) as Hin. rewrite Hu in Hin.
    pose proof (ff_disjoint _ _ _ _ _ F g x Hl Hne) as Hd.
    destruct q; try discriminate; cbn [wire_of] in Hx; apply some_inj in Hx; subst x;
      cbn [occupies] in Hd; cbn [prop_ok] in *.
    1-3: destruct Hc as [El Hc']; rewrite El; intros i Hi;
      rewrite (stripe_bits b b' w) by (try split; auto); now apply H.
    intros k Hk.
    assert (Hd' : all_disjoint (occupies w) [Seg 0 28 4] = true).
    { apply (ff_disjoint _ _ _ _ _ F "ump_type" (Fixed (Seg 0 28 4) 15)).
      - now apply (formats_type m g).
      - intros ->. pose proof (formats_type m g Hm Hg) as Ht.
        pose proof (layout_unique _ _ _ _ _ Hm Hf Ht). subst w. discriminate. }
    assert (Hk' : leading 4 15 b k).
    { apply (leading_frame b b'); [apply Hc| |exact Hk]. intros i. now apply (stripe_bits b b' w). }
    specialize (H k Hk'). unfold framed in *.
    destruct H as [[-> H]|(H1 & H2 & H3 & H4)]; [left|right]; repeat split; auto.
    + now rewrite (stripe_bits b b' w).
    + now rewrite (stripe_bits b b' w).
    + intros i Hi. rewrite (stripe_bits b b' w); auto.
    + now rewrite (stripe_bits b b' w).
  - assert (E : forall c, prop_ok u q x c <-> decode x c <> None)
      by (intros c; now apply prop_ok_plain).
    rewrite E in *. rewrite (frame_decode u m f w g x b b'); auto.
Qed.

(** ** Acceptance *)

Lemma is_ok_iff r : is_ok r = true <-> exists x : list N, r = Ok x.
Proof. destruct r; cbn; split; intros; eauto; try discriminate. now destruct H. Qed.

Lemma accepts_iff u m b : In m all_messages -> supports u m = true -> wf_buf u b ->
  (accepts u m b <-> (min_size u m <= List.length b)%nat /\
     forall f p w, In (f, p) (m_fields m) -> wire_of u p = Some w -> prop_ok u p w b).
Proof.
  intros Hm Hs Hwf. destruct (try_from_spec u m b Hm Hs Hwf) as (r & E & H1 & H2).
  rewrite <- H2. unfold accepts. rewrite E. destruct r as [x|e]; cbn.
  - split; auto. intros _. now rewrite (H1 x eq_refl).
  - split; discriminate.
Qed.

Lemma settable_supports u m f w : In m all_messages -> settable_field u m f w -> supports u m = true.
Proof. intros Hm [H _]. destruct u; auto. eapply layout_supports; eauto. Qed.

Lemma accepts_set u m b b' f w v : In m all_messages -> settable_field u m f w -> holds u m b ->
  storable m f v -> set u m b f v = Val b' -> accepts u m b -> accepts u m b'.
Proof.
  intros Hm Hf Hh Hv E Ha. pose proof (settable_supports u m f w Hm Hf) as Hs.
  destruct (set_ok u m b f w v Hm Hf Hh Hv) as (b1 & E1 & Hc & Hh' & Hd).
  assert (b1 = b') by congruence. subst b1.
  apply accepts_iff in Ha as [H1 H2]; auto; [|apply Hh]. apply accepts_iff; auto; [apply Hh'|].
  split; [destruct Hc; lia|]. intros g q x Hg Hx.
  destruct (facts_of_prop u m g q Hm Hs Hg) as (x' & G).
  assert (x' = x) by (pose proof (ff_wire _ _ _ _ _ G); congruence). subst x'.
  destruct (String.eqb_spec f g) as [->|Hne].
  - destruct Hf as [Hin Hset]. assert (x = w) by (eapply layout_unique; eauto; apply G). subst x.
    pose proof (ff_vstriped _ _ _ _ _ G Hset) as Hv'.
    assert (Hok : prop_ok u q w b' <-> decode w b' <> None)
      by now apply prop_ok_plain.
    rewrite Hok, Hd. discriminate.
  - eapply (prop_ok_frame1 u m f w g q x b b'); eauto. apply G.
Qed.

Lemma accepts_meaning u m b f w : In m all_messages -> settable_field u m f w -> wf_buf u b ->
  accepts u m b -> decode w b <> None.
Proof.
  intros Hm Hf Hwf Ha. pose proof (settable_supports u m f w Hm Hf) as Hs. destruct Hf as [Hin Hset].
  destruct (facts_of_layout u m f w Hm Hin) as (p & F).
  apply accepts_iff in Ha as [_ H]; auto.
  specialize (H f p w (ff_in _ _ _ _ _ F) (ff_wire _ _ _ _ _ F)).
  pose proof (ff_vstriped _ _ _ _ _ F Hset) as Hv.
  now apply prop_ok_plain in H.
Qed.

Lemma accepts_bare u m b : In m all_messages -> supports u m = true -> wf_buf u b -> scans_packets m = false ->
  (accepts u m b <-> (min_size u m <= List.length b)%nat /\ meaningful u m b).
Proof.
  intros Hm Hs Hwf Hsc. rewrite accepts_iff by auto.
  assert (Hv : forall f p, In (f, p) (m_fields m) -> vstriped p = false).
  { assert (H : forallb (fun m => scans_packets m || forallb (fun fp => negb (vstriped (snd fp))) (m_fields m))
                all_messages = true) by (vm_compute; reflexivity).
    rewrite forallb_forall in H. specialize (H m Hm). rewrite Hsc in H. cbn [orb] in H.
    rewrite forallb_forall in H. intros f p Hf. specialize (H (f, p) Hf). cbn in H.
    now destruct (vstriped p). }
  split; intros [H1 H2]; (split; [exact H1|]).
  - intros f w Hin. destruct (facts_of_layout u m f w Hm Hin) as (p & F).
    specialize (H2 f p w (ff_in _ _ _ _ _ F) (ff_wire _ _ _ _ _ F)).
    apply prop_ok_plain in H2; auto. apply (Hv f p), F.
  - intros f p w Hf Hw. destruct (facts_of_prop u m f p Hm Hs Hf) as (w' & F).
    assert (w' = w) by (pose proof (ff_wire _ _ _ _ _ F); congruence). subst.
    pose proof (H2 f w (ff_layout _ _ _ _ _ F)) as H3.
    apply prop_ok_plain; auto. now apply (Hv f p).
Qed.

Lemma in_find_fields name f w l : In (f, w) (find_fields name l) -> exists fs, In (name, fs) l /\ In (f, w) fs.
Proof.
  induction l as [|[n fs] t IH]; cbn; [tauto|].
  destruct (String.eqb_spec name n) as [->|]; intros H; [eauto|].
  destruct (IH H) as (fs' & H1 & H2). eauto.
Qed.

(** One packet exactly. *)
Lemma leading_one b : List.length b = 4%nat -> bits b (Seg 0 28 4) = 0xF ->
  forall k, leading 4 0xF b k -> k = 1%nat.
Proof.
  intros El Ht k (H1 & H2 & H3). rewrite El in *. change ((4 + 4 - 1) / 4)%nat with 1%nat in *.
  destruct k as [|[|k]]; try lia. exfalso. now apply H3; [lia|].
Qed.

Lemma accepts_one u m b : In m all_messages -> supports u m = true -> wf_buf u b ->
  sized u m -> List.length b = units u (m_name m) ->
  (accepts u m b <-> meaningful u m b).
Proof.
  intros Hm Hs Hwf Hz El. unfold sized in Hz.
  destruct (scans_packets m) eqn:Hsc.
  2:{ rewrite accepts_bare by auto. rewrite Hz, El. intuition lia. }
  assert (u = U32).
  { destruct u; auto. exfalso.
    assert (H : forallb (fun m => negb (scans_packets m) || negb (supports U8 m)) all_messages = true)
      by (vm_compute; reflexivity).
    rewrite forallb_forall in H. specialize (H m Hm). rewrite Hsc, Hs in H. discriminate. }
  subst u.
  assert (Hu : units U32 (m_name m) = 4%nat).
  { unfold scans_packets in Hsc. unfold units, units_ump.
    assert (H : forallb (fun m => negb (scans_packets m) || Nat.eqb (units_ump (m_name m)) 4) all_messages = true)
      by (vm_compute; reflexivity).
    rewrite forallb_forall in H. specialize (H m Hm). unfold scans_packets in H at 1. rewrite Hsc in H.
    cbn [negb orb] in H. unfold units_ump in H. apply Nat.eqb_eq in H. exact H. }
  rewrite Hu in *. rewrite accepts_iff by auto. rewrite El.
  split.
  - intros [_ H2] f w Hin. destruct (facts_of_layout U32 m f w Hm Hin) as (p & F).
    specialize (H2 f p w (ff_in _ _ _ _ _ F) (ff_wire _ _ _ _ _ F)).
    pose proof (ff_wire _ _ _ _ _ F) as Hw.
    destruct (vstriped p) eqn:Hv; [|now apply prop_ok_plain in H2].
    destruct p; try discriminate; cbn [wire_of] in Hw; apply some_inj in Hw; subst w; cbn [prop_ok] in H2.
    1-3: specialize (H2 0%nat); rewrite El in H2; change (4 / 4)%nat with 1%nat in H2;
      change (4 * 0)%nat with 0%nat in H2;
      cbn [decode]; rewrite H2 by lia; rewrite N.eqb_refl; discriminate.
    destruct (leading_exists 4 0xF b) as (k & Hk). specialize (H2 k Hk).
    destruct Hk as (Hk & _). rewrite El in Hk. change ((4 + 4 - 1) / 4)%nat with 1%nat in Hk.
    unfold framed in H2. destruct H2 as [[-> H2]|(H2 & _)]; [|lia].
    cbn [decode]. change (4 * 0)%nat with 0%nat in H2. rewrite H2. discriminate.
  - intros H. split; [lia|]. intros f p w Hf Hw. destruct (facts_of_prop U32 m f p Hm Hs Hf) as (w' & F).
    assert (w' = w) by (pose proof (ff_wire _ _ _ _ _ F); congruence). subst w'.
    pose proof (H f w (ff_layout _ _ _ _ _ F)) as H3.
    destruct (vstriped p) eqn:Hv; [|now apply prop_ok_plain].
    destruct p; try discriminate; cbn [wire_of] in Hw; apply some_inj in Hw; subst w; cbn [prop_ok decode] in *.
    1-3: rewrite El; change (4 / 4)%nat with 1%nat; intros i Hi; replace (4 * i)%nat with 0%nat by lia;
      match type of H3 with (if ?x =? ?y then _ else _) <> None => destruct (N.eqb_spec x y); congruence end.
    intros k Hk. pose proof (H "ump_type" _ (formats_type m f Hm Hf)) as Ht. cbn [decode] in Ht.
    destruct (N.eqb_spec (bits b (Seg 0 28 4)) 15) as [Et|]; [|congruence].
    rewrite (leading_one b El Et k Hk). left. split; auto. change (4 * 0)%nat with 0%nat.
    destruct (N.eqb_spec (bits b (Seg 0 26 2)) 0); congruence.
Qed.

(** ** Types of what is read *)

Lemma assoc_in {A} n (l : list (N * A)) a : assoc n l = Some a -> In (n, a) l.
Proof.
  induction l as [|[k x] t IH]; cbn; [discriminate|].
  destruct (N.eqb_spec n k) as [->|]; intros H; [left; congruence|right; auto].
Qed.

Lemma codes_typed k n v : assoc n (codes k) = Some v -> has_type (kind_ty k) v = true.
Proof.
  intros H. apply assoc_in in H.
  assert (A : forallb (fun p => has_type (kind_ty k) (snd p)) (codes k) = true)
    by (destruct k; vm_compute; reflexivity).
  rewrite forallb_forall in A. exact (A (n, v) H).
Qed.

Definition wire_ty (w : wire) : ty :=
  match w with
  | Number s => TyU (sg_n s)
  | Flag _ => TyBool
  | Septets _ _ => TyU 14
  | Array l => TyU7s (List.length l)
  | Code _ k => kind_ty k
  | Attribute _ _ => TyAttr
  | Controller _ _ => TyCtl
  | Guarded _ _ _ => TyOptU 14
  | OptChannel _ _ => TyOptU 4
  | Fixed _ _ | GroupAddress _ _ => TyUnit
  | Absent v => match v with VNum _ => TyU 4 | _ => TyUnit end
  end.

Definition wire_shape (w : wire) : bool :=
  match w with
  | Septets l h | Guarded _ l h => (sg_n l =? 7) && (sg_n h =? 7)
  | Array l => forallb (fun s => sg_n s =? 7) l
  | Attribute _ d => sg_n d =? 16
  | Controller _ d => sg_n d =? 32
  | OptChannel _ c => sg_n c =? 4
  | Absent v => match v with VNum n => n <? 16 | VUnit => true | _ => false end
  | _ => true
  end.

Lemma shapes u : forallb (fun m => forallb (fun fw => wire_shape (snd fw)) (layout u (m_name m)))
  all_messages = true.
Proof. destruct u; vm_compute; reflexivity. Qed.

Lemma types_ump : Forall (fun m => Forall (fun fp =>
  option_map wire_ty (wire_of U32 (snd fp)) = Some (prop_ty (snd fp))) (m_fields m)) all_messages.
Proof. repeat constructor. Qed.
Lemma types_bytes : Forall (fun m => Forall (fun fp =>
  option_map wire_ty (wire_of U8 (snd fp)) = Some (prop_ty (snd fp))) (m_fields m))
  (filter (supports U8) all_messages).
Proof. repeat constructor. Qed.

Lemma field_type_wire u m f w : In m all_messages -> In (f, w) (layout u (m_name m)) ->
  field_type m f = Some (wire_ty w) /\ wire_shape w = true.
Proof.
  intros Hm Hin. split.
  - destruct (facts_of_layout u m f w Hm Hin) as (p & F). unfold field_type.
    rewrite (ff_field _ _ _ _ _ F). cbn [option_map]. 
    assert (E : option_map wire_ty (wire_of u p) = Some (prop_ty p)).
    { pose proof (ff_in _ _ _ _ _ F) as Hf. destruct u.
      - pose proof types_bytes as H. rewrite Forall_forall in H.
        assert (Hm' : In m (filter (supports U8) all_messages)).
        { apply filter_In. split; auto. eapply layout_supports; eauto. }
        specialize (H m Hm'). rewrite Forall_forall in H. exact (H (f, p) Hf).
      - pose proof types_ump as H. rewrite Forall_forall in H.
        specialize (H m Hm). rewrite Forall_forall in H. exact (H (f, p) Hf). }
    rewrite (ff_wire _ _ _ _ _ F) in E. cbn in E. congruence.
  - pose proof (shapes u) as H. rewrite forallb_forall in H. specialize (H m Hm).
    rewrite forallb_forall in H. exact (H (f, w) Hin).
Qed.

Lemma fits_bits b s n : sg_n s = n -> fits n (bits b s) = true.
Proof. intros <-. unfold fits. pose proof (bits_lt b s). lia. Qed.

Lemma fits14 b l h : sg_n l = 7 -> sg_n h = 7 -> fits 14 (bits b l + 128 * bits b h) = true.
Proof.
  intros Hl Hh. unfold fits. pose proof (bits_lt b l). pose proof (bits_lt b h).
  rewrite Hl, Hh in *. change (2 ^ 7) with 128 in *. change (2 ^ 14) with 16384. lia.
Qed.

Lemma decode_typed w b v : wire_shape w = true -> decode w b = Some v -> has_type (wire_ty w) v = true.
Proof.
  intros Hs H. destruct w; cbn [decode wire_ty wire_shape] in *.
  - apply some_inj in H. subst v. now apply fits_bits.
  - apply some_inj in H. now subst v.
  - apply some_inj in H. subst v. cbn [has_type]. apply fits14; lia.
  - apply some_inj in H. subst v. cbn [has_type]. rewrite map_length, Nat.eqb_refl. cbn [andb].
    rewrite forallb_map. rewrite forallb_forall in *. intros s Hin. apply fits_bits.
    specialize (Hs s Hin). lia.
  - eapply codes_typed; eauto.
  - assert (F : fits 16 (bits b data) = true) by (apply fits_bits; lia).
    cbn [assoc] in H. repeat match type of H with (if ?c then _ else _) = _ => destruct c end;
      try discriminate; apply some_inj in H; subst v; auto.
  - assert (F : fits 32 (bits b data) = true) by (apply fits_bits; lia).
    destruct (assoc (bits b index) (rpnc (bits b data))) as [c|] eqn:E; [|discriminate].
    cbn in H. apply some_inj in H. subst v. apply assoc_in in E. cbn [has_type].
    assert (A : forallb (fun p => controller_fits (snd p)) (rpnc (bits b data)) = true).
    { unfold rpnc. cbn [forallb snd controller_fits]. now rewrite F. }
    rewrite forallb_forall in A. exact (A _ E).
  - apply some_inj in H. subst v. cbn [has_type].
    destruct (bits b valid =? 1); auto. apply fits14; lia.
  - apply some_inj in H. subst v. cbn [has_type].
    destruct (bits b addr =? 0); auto. apply fits_bits; lia.
  - destruct (_ =? _); [discriminate|]. apply some_inj in H. now subst v.
  - destruct (_ =? _); [|discriminate]. apply some_inj in H. now subst v.
  - apply some_inj in H. subst v0. destruct v; try discriminate; cbn [has_type]; auto.
Qed.

(** ** Reading an accepted message *)

Lemma accepts_get u m b f w : In m all_messages -> settable_field u m f w -> holds u m b ->
  accepts u m b ->
  exists v t, get u m b f = Val v /\ decode w b = Some v /\ field_type m f = Some t /\ has_type t v = true.
Proof.
  intros Hm Hf Hh Ha. rewrite (get_settable u m b f w) by auto.
  pose proof (accepts_meaning u m b f w Hm Hf (proj1 Hh) Ha) as Hd.
  destruct (decode w b) as [v|] eqn:E; [|congruence].
  destruct (field_type_wire u m f w Hm (proj1 Hf)) as [Ht Hs].
  exists v, (wire_ty w). repeat split; auto. eapply decode_typed; eauto.
Qed.

(** ** Histories *)

Lemma run_sets_ok u m h : In m all_messages -> legal u m h -> forall b, holds u m b ->
  exists b', run_sets u m b h = Val b' /\ holds u m b' /\
    List.length b' = List.length b /\
    (accepts u m b -> accepts u m b') /\
    (forall g w, settable_field u m g w ->
       decode w b' = match last_set g h with Some v => Some v | None => decode w b end) /\
    (forall g w, In (g, w) (layout u (m_name m)) -> settable w = false -> decode w b' = decode w b) /\
    (forall segs, (forall g w, settable_field u m g w -> incl (occupies w) segs) ->
       only_changes segs b b').
Proof.
  intros Hm. induction h as [|[f v] t IH]; intros Hl b Hh.
  - exists b. cbn [run_sets last_set]. do 6 (split; [now auto|]). intros. apply only_changes_refl.
  - inversion Hl as [|? ? [(w & Hf) Hv] Hl']; subst. cbn [fst snd] in *.
    destruct (set_ok u m b f w v Hm Hf Hh Hv) as (b1 & E & Hc & Hh1 & Hd).
    destruct (IH Hl' b1 Hh1) as (b' & E' & Hh' & El & Ha & Hg & Hn & Ho).
    exists b'. cbn [run_sets]. rewrite E. cbn [bind]. split; [exact E'|]. split; [exact Hh'|].
    split; [destruct Hc; congruence|]. split; [|split; [|split]].
    + intros H. apply Ha. exact (accepts_set u m b b1 f w v Hm Hf Hh Hv E H).
    + intros g x Hx. rewrite (Hg g x Hx). cbn [last_set]. destruct (last_set g t); auto.
      destruct (String.eqb_spec f g) as [->|Hne].
      * assert (x = w) by (eapply layout_unique; [exact Hm|apply Hx|apply Hf]). now subst.
      * apply (frame_decode u m f w g x b b1); auto; [apply Hf|apply Hx].
    + intros g x Hx Hns. rewrite (Hn g x Hx Hns). apply (frame_decode u m f w g x b b1); auto; [apply Hf|].
      intros ->. assert (x = w) by (eapply layout_unique; [exact Hm|apply Hx|apply Hf]). subst x.
      destruct Hf. congruence.
    + intros segs Hs. eapply only_changes_trans; [|apply Ho; exact Hs].
      eapply only_changes_weaken; [|exact Hc]. eapply Hs; eauto.
Qed.

(** ** Reading depends on the message's own units only *)

Lemma wire_app_decode u w n b c : wire_ok u w = true -> wire_in n w = true ->
  (forall i, (i < n)%nat -> nth i c 0 = nth i b 0) -> decode w c = decode w b.
Proof.
  intros Hok Hin H. apply (decode_agree u); auto. intros s Hs. unfold bits.
  unfold wire_in in Hin. rewrite forallb_forall in Hin. specialize (Hin s Hs).
  rewrite H; auto. lia.
Qed.

Lemma wf_firstn u n b : wf_buf u b -> wf_buf u (firstn n b).
Proof.
  unfold wf_buf. intros H. rewrite Forall_forall in *. intros x Hx. apply H.
  rewrite <- (firstn_skipn n b). apply in_or_app. now left.
Qed.

Lemma data_ok u m b : (min_size u m <= List.length b)%nat ->
  data u m b = Val (firstn (min_size u m) b).
Proof. unfold data, prefix, size. intros H. destruct (Nat.leb_spec (min_size u m) (List.length b)); [auto|lia]. Qed.

Lemma sized_room u m : In m all_messages -> supports u m = true -> sized u m -> room u m = min_size u m.
Proof.
  intros Hm Hs Hz. unfold room, sized in *. destruct u; auto.
  destruct (String.eqb_spec (m_name m) "system_common::SongPositionPointer") as [E|]; auto.
  rewrite E in Hz. rewrite Hz. reflexivity.
Qed.

Lemma sized_holds u m b : In m all_messages -> supports u m = true -> sized u m -> wf_buf u b ->
  (min_size u m <= List.length b)%nat -> holds u m b.
Proof.
  intros Hm Hs Hz Hwf Hl. split; [exact Hwf|]. split; [exact Hl|]. intros -> E.
  unfold sized in Hz. rewrite E in Hz. change (min_size U8 m = 3%nat) in Hz. lia.
Qed.

Lemma firstn_decode u m f w b n : In m all_messages -> In (f, w) (layout u (m_name m)) ->
  (room u m <= n)%nat -> decode w (firstn n b) = decode w b.
Proof.
  intros Hm Hin Hn. destruct (facts_of_layout u m f w Hm Hin) as (p & F).
  apply (wire_app_decode u w n); [apply F|eapply room_wire_in; eauto|].
  intros i Hi. now apply nth_firstn_lt.
Qed.

Lemma app_decode u m f w b t : In m all_messages -> In (f, w) (layout u (m_name m)) ->
  (room u m <= List.length b)%nat -> decode w (b ++ t) = decode w b.
Proof.
  intros Hm Hin Hn. destruct (facts_of_layout u m f w Hm Hin) as (p & F).
  apply (wire_app_decode u w (List.length b)); [apply F|eapply room_wire_in; eauto|].
  intros i Hi. now apply app_nth1.
Qed.

Lemma data_reparses u m b d : In m all_messages -> supports u m = true -> wf_buf u b ->
  sized u m -> accepts u m b -> meaningful u m b -> data u m b = Val d ->
  List.length d = min_size u m /\ accepts u m d /\ meaningful u m d.
Proof.
  intros Hm Hs Hwf Hz Ha Hmean Hd.
  assert (Hl : (min_size u m <= List.length b)%nat) by (apply accepts_iff in Ha; tauto).
  rewrite data_ok in Hd by auto. assert (d = firstn (min_size u m) b) by congruence. subst d.
  assert (El : List.length (firstn (min_size u m) b) = min_size u m) by (rewrite firstn_length; lia).
  assert (Hmd : meaningful u m (firstn (min_size u m) b)).
  { intros f w Hin. rewrite (firstn_decode u m f) by (auto; rewrite sized_room; auto). now apply (Hmean f). }
  split; [exact El|]. split; [|exact Hmd].
  apply accepts_one; auto. now apply wf_firstn. congruence.
Qed.

Lemma run_sets_meaningful u m b h b' : In m all_messages -> legal u m h -> holds u m b ->
  run_sets u m b h = Val b' -> meaningful u m b -> meaningful u m b'.
Proof.
  intros Hm Hl Hh E Hmean f w Hin.
  destruct (run_sets_ok u m h Hm Hl b Hh) as (b1 & E1 & _ & _ & _ & Hg & Hn & _).
  assert (b1 = b') by congruence. subst b1.
  destruct (settable w) eqn:Hset.
  - rewrite (Hg f w) by (split; auto). destruct (last_set f h); [discriminate|]. now apply (Hmean f).
  - rewrite (Hn f w) by auto. now apply (Hmean f).
Qed.

(** ** Construction *)

Definition fresh (u : unit_id) (m : message) (z : list N) : Prop :=
  List.length z = min_size u m /\ wf_buf u z /\ try_from u m z = Val (Ok z) /\
  forall f w, In (f, w) (layout u (m_name m)) -> decode w z = Some (default_value w).

Definition value_dec (a b : value) : {a = b} + {a <> b}.
Proof. repeat decide equality. Defined.

Definition fresh_check (u : unit_id) (m : message) : bool :=
  match new u m with
  | Panic => false
  | Val z =>
      Nat.eqb (List.length z) (min_size u m) && forallb (fun x => x <? 2 ^ unit_bits u) z
      && (match try_from u m z with
          | Val (Ok y) => if list_eq_dec N.eq_dec y z then true else false
          | _ => false
          end)
      && forallb (fun fw => match decode (snd fw) z with
                            | Some v => if value_dec v (default_value (snd fw)) then true else false
                            | None => false
                            end) (layout u (m_name m))
  end.

Definition buildable (u : unit_id) (m : message) : bool :=
  supports u m &&
  negb (String.eqb (m_name m)
    (match u with U8 => "system_common::SongPositionPointer" | U32 => "ump_stream::FunctionBlockDiscovery" end)).

Lemma fresh_messages u : forallb (fresh_check u) (filter (buildable u) all_messages) = true.
Proof. destruct u; vm_compute; reflexivity. Qed.

Lemma new_fresh u m : In m all_messages -> supports u m = true -> constructible u m ->
  exists z, new u m = Val z /\ fresh u m z.
Proof.
  intros Hm Hs Hc. pose proof (fresh_messages u) as H. rewrite forallb_forall in H.
  assert (Hin : In m (filter (buildable u) all_messages)).
  { apply filter_In. split; auto. unfold buildable. rewrite Hs. cbn [andb]. apply negb_true_iff.
    apply String.eqb_neq. destruct u; exact Hc. }
  specialize (H m Hin). unfold fresh_check in H. destruct (new u m) as [z|]; [|discriminate].
  exists z. split; auto. repeat (apply andb_prop in H as [H ?]).
  split; [now apply Nat.eqb_eq|]. split; [|split].
  - apply Forall_forall. rewrite forallb_forall in H2. intros x Hx. specialize (H2 x Hx). lia.
  - destruct (try_from u m z) as [[y|]|]; try discriminate. destruct (list_eq_dec N.eq_dec y z); [|discriminate].
    congruence.
  - intros f w Hf. rewrite forallb_forall in H0. specialize (H0 (f, w) Hf). cbn [snd] in H0.
    destruct (decode w z) as [v|]; [|discriminate]. destruct (value_dec v (default_value w)); congruence.
Qed.

Lemma vec_resize_nil n : vec_resize [] n = repeat 0 n.
Proof. unfold vec_resize. rewrite firstn_nil. cbn. now rewrite Nat.sub_0_r. Qed.

Definition stream_rows : bool :=
  forallb (fun m => no_striped (m_fields m) ||
    match stream_head m with Some (s, rest) => no_striped rest && (s <? 1024)
                             && (Nat.eqb (min_size U32 m) 4 || negb (buildable U32 m)) | None => false end) all_messages.
Lemma stream_rows_ok : stream_rows = true.
Proof. vm_compute. reflexivity. Qed.

Definition quiet (u : unit_id) (m : message) (t : list N) : Prop :=
  no_striped (m_fields m) = true \/ quiet_tail t.

Lemma striped_u32 u m : In m all_messages -> supports u m = true -> no_striped (m_fields m) = false -> u = U32.
Proof.
  intros Hm Hs Hn. destruct u; auto. exfalso.
  assert (H : forallb (fun m => no_striped (m_fields m) || negb (supports U8 m)) all_messages = true)
    by (vm_compute; reflexivity).
  rewrite forallb_forall in H. specialize (H m Hm). rewrite Hn, Hs in H. discriminate.
Qed.

Lemma initialise_on u m z t : In m all_messages -> supports u m = true -> constructible u m ->
  new u m = Val z -> wf_buf u t -> quiet u m t ->
  exists t', initialise u (m_fields m) (repeat 0 (min_size u m) ++ t) = Val (z ++ t') /\
             List.length t' = List.length t.
Proof.
  intros Hm Hs Hc Hz Hwf Hq. unfold new in Hz. rewrite vec_resize_nil in Hz.
  destruct (no_striped (m_fields m)) eqn:Hn.
  - exists t. split; auto. now apply initialise_app.
  - assert (u = U32) by (eapply striped_u32; eauto). subst u.
    pose proof stream_rows_ok as H. unfold stream_rows in H. rewrite forallb_forall in H.
    specialize (H m Hm). rewrite Hn in H. cbn [orb] in H.
    destruct (stream_head m) as [[s rest]|] eqn:Eh; [|discriminate].
    apply andb_prop in H as [H H3]. apply andb_prop in H as [H1 H2].
    assert (H4 : min_size U32 m = 4%nat).
    { apply orb_prop in H3 as [H3|H3]; [lia|]. exfalso. unfold buildable in H3. cbn [supports andb] in H3.
      rewrite negb_involutive in H3. apply String.eqb_eq in H3. now apply Hc. }
    rewrite H4 in *. destruct Hq as [Hq|Hq]; [unfold quiet in Hq; congruence|].
    eapply init_stream; eauto. change (2 ^ 10) with 1024. lia.
Qed.

Lemma wf_skipn u n b : wf_buf u b -> wf_buf u (skipn n b).
Proof.
  unfold wf_buf. intros H. rewrite Forall_forall in *. intros x Hx. apply H.
  rewrite <- (firstn_skipn n b). apply in_or_app. now right.
Qed.

Lemma try_new_with_buffer_ok u m z b : In m all_messages -> supports u m = true -> constructible u m ->
  new u m = Val z -> wf_buf u b -> (min_size u m <= List.length b)%nat ->
  quiet u m (skipn (min_size u m) b) ->
  exists t, try_new_with_buffer u m b = Val (Ok (z ++ t)) /\
            List.length (z ++ t) = List.length b.
Proof.
  intros Hm Hs Hc Hz Hwf Hl Hq. unfold try_new_with_buffer, fixed_try_resize, zero_prefix.
  destruct (Nat.ltb_spec (List.length b) (min_size u m)); [lia|]. cbn [negb bind].
  destruct (initialise_on u m z (skipn (min_size u m) b) Hm Hs Hc Hz (wf_skipn _ _ _ Hwf) Hq) as (t & E & El).
  rewrite E. cbn [bind]. exists t. split; auto. rewrite app_length, El, skipn_length.
  destruct (new_fresh u m Hm Hs Hc) as (z' & Ez & Hf & _). assert (z' = z) by congruence. subst z'. lia.
Qed.

Lemma wf_repeat u n : wf_buf u (repeat 0 n).
Proof. induction n; constructor; auto. destruct u; reflexivity. Qed.

Lemma nth_repeat0 n i : nth i (repeat 0 n) 0 = 0.
Proof. revert i; induction n; destruct i; cbn; auto. Qed.

Lemma quiet_zeros u m n : quiet u m (repeat 0 n).
Proof. right. right. unfold bits. cbn [sg_w sg_lo sg_n]. rewrite nth_repeat0. discriminate. Qed.

Lemma array_init u m z n : In m all_messages -> supports u m = true -> constructible u m ->
  new u m = Val z -> (min_size u m <= n)%nat ->
  exists t, initialise u (m_fields m) (repeat 0 n) = Val (z ++ t) /\ List.length (z ++ t) = n.
Proof.
  intros Hm Hs Hc Hz Hn.
  destruct (initialise_on u m z (repeat 0 (n - min_size u m)) Hm Hs Hc Hz (wf_repeat _ _) (quiet_zeros _ _ _))
    as (t & E & El).
  exists t. rewrite <- repeat_app in E. replace (min_size u m + (n - min_size u m))%nat with n in E by lia.
  split; auto. rewrite app_length, El, repeat_length.
  destruct (new_fresh u m Hm Hs Hc) as (z' & Ez & Hf & _). assert (z' = z) by congruence. subst z'. lia.
Qed.

Lemma new_with_buffer_eq u m b : new_with_buffer u m b = new u m.
Proof.
  unfold new_with_buffer, new, zero_prefix. rewrite vec_resize_nil.
  assert (El : List.length (vec_resize b (min_size u m)) = min_size u m).
  { unfold vec_resize. rewrite app_length, firstn_length, repeat_length. lia. }
  rewrite El. destruct (Nat.ltb_spec (min_size u m) (min_size u m)); [lia|]. cbn [bind].
  rewrite skipn_all2 by lia. now rewrite app_nil_r.
Qed.

(** ** Conversion *)

Lemma unit_read u p w b : prop_ty p = TyUnit -> wire_of u p = Some w -> prop_read u p b = Val VUnit.
Proof.
  destruct p; cbn [prop_ty prop_read]; intros H Hw; try discriminate; auto;
    try (destruct u; [discriminate Hw|reflexivity]);
    match type of H with sty_ty ?t = _ => destruct t; discriminate end.
Qed.

Lemma convert_cons from to f p fs src dst : convert_properties from to ((f, p) :: fs) src dst =
  bind (v <- prop_read from p src ;; prop_write to p dst v) (convert_properties from to fs src).
Proof.
  unfold convert_properties at 1. cbn [fold_left bind snd].
  destruct (v <- prop_read from p src;; prop_write to p dst v); [reflexivity|]. cbn [bind].
  apply (fold_bind_panic (fun fp b' => v <- prop_read from (snd fp) src ;; prop_write to (snd fp) b' v)).
Qed.

Lemma convert_aux from to m src : In m all_messages -> supports to m = true ->
  forall fs dst, incl fs (m_fields m) -> nodup_names fs = true ->
  (forall f p, In (f, p) fs -> striped p = false /\
     exists v, prop_read from p src = Val v /\ has_type (prop_ty p) v = true /\ representable v = true) ->
  wf_buf to dst -> (room to m <= List.length dst)%nat ->
  exists dst', convert_properties from to fs src dst = Val dst' /\ wf_buf to dst' /\
    only_changes (flat_map (fun fw => occupies (snd fw)) (layout to (m_name m))) dst dst' /\
    (forall f p w v, In (f, p) fs -> In (f, w) (layout to (m_name m)) -> prop_read from p src = Val v ->
       decode w dst' = Some (match w with Absent d => d | _ => v end)) /\
    (forall g x, In (g, x) (layout to (m_name m)) -> ~ In g (map fst fs) -> decode x dst' = decode x dst).
Proof.
  intros Hm Hs. induction fs as [|[f p] fs IH]; intros dst Hincl Hnd Hread Hwf Hroom.
  - exists dst. cbn. split; [reflexivity|]. split; [exact Hwf|]. split; [apply only_changes_refl|].
    split; [intros ? ? ? ? []|]. auto.
  - rewrite convert_cons. cbn [nodup_names] in Hnd. apply andb_prop in Hnd as [Hf Hnd].
    destruct (Hread f p) as (Hst & v & Er & Ht & Hr); [now left|]. rewrite Er. cbn [bind].
    destruct (facts_of_prop to m f p Hm Hs) as (w & F); [apply Hincl; now left|].
    destruct (prop_write_spec to p w dst v) as (d1 & E1 & Hc1 & Hw1 & Hd1); auto; try apply F.
    { eapply room_wire_in; [exact Hm|apply F|exact Hroom]. }
    rewrite E1. cbn [bind].
    destruct (IH d1) as (d2 & E2 & Hw2 & Hc2 & Hd2 & Hn2); auto.
    { intros x Hx. apply Hincl. now right. } { intros g q Hq. apply (Hread g q). now right. }
    { destruct Hc1; lia. }
    assert (Hnf : ~ In f (map fst fs)).
    { intros Hin. apply in_map_iff in Hin as ([g q] & Eg & Hq). cbn in Eg. subst g.
      apply negb_true_iff in Hf. assert (existsb (fun q0 => String.eqb f (fst q0)) fs = true); [|congruence].
      apply existsb_exists. exists (f, q). split; auto. apply String.eqb_refl. }
    exists d2. split; [exact E2|]. split; [exact Hw2|]. split; [|split].
    + eapply only_changes_trans; [|exact Hc2]. eapply only_changes_weaken; [|exact Hc1].
      intros s Hin. apply in_flat_map. exists (f, w). split; [apply F|exact Hin].
    + intros g q x y [Eg|Hg] Hx Hy.
      * inversion Eg; subst g q. assert (x = w) by (eapply layout_unique; [exact Hm|exact Hx|apply F]).
        subst x. assert (y = v) by congruence. subst y. rewrite (Hn2 f w) by (auto; apply F). exact Hd1.
      * eapply Hd2; eauto.
    + intros g x Hx Hnin. cbn [map fst] in Hnin. rewrite (Hn2 g x Hx) by (intros H; apply Hnin; now right).
      apply (frame_decode to m f w g x dst d1); auto; [apply F|]. intros ->. apply Hnin. now left.
Qed.
