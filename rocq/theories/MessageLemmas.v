(** The message table against the layout specification, and the generic facts
    about getters, setters, parsing and construction that follow. *)
From Coq Require Import NArith List String Bool Arith Lia ZifyBool ZifyNat ZifyN.
From Verif Require Import Base BitOps Values Schema Helpers Props Message MessageTable SpecLayout SpecFixed
  BitLemmas ListLemmas PropLemmas PropWrite PropValidate Stripes.
Import ListNotations.
Local Open Scope N_scope.

Fixpoint find_wire (f : string) (l : fields) : option wire :=
  match l with
  | [] => None
  | (g, w) :: t => if String.eqb f g then Some w else find_wire f t
  end.

Fixpoint nodup_names {A} (l : list (string * A)) : bool :=
  match l with
  | [] => true
  | (f, _) :: t => negb (existsb (fun q => String.eqb f (fst q)) t) && nodup_names t
  end.

Lemma find_wire_in f l w : find_wire f l = Some w -> In (f, w) l.
Proof.
  induction l as [|[g x] t IH]; cbn; [discriminate|].
  destruct (String.eqb_spec f g) as [->|]; intros H.
  - left. congruence.
  - right. auto.
Qed.

Lemma in_find_wire f l w : nodup_names l = true -> In (f, w) l -> find_wire f l = Some w.
Proof.
  induction l as [|[g x] t IH]; cbn; intros Hn Hin; [tauto|].
  apply andb_prop in Hn as [H1 H2].
  destruct Hin as [E|Hin].
  - inversion E; subst. now rewrite String.eqb_refl.
  - destruct (String.eqb_spec f g) as [->|]; auto. exfalso.
    apply negb_true_iff in H1. assert (existsb (fun q => String.eqb g (fst q)) t = true); [|congruence].
    apply existsb_exists. exists (g, w). split; auto. apply String.eqb_refl.
Qed.

Lemma field_in f l p : field l f = Some p -> In (f, p) l.
Proof.
  induction l as [|[g x] t IH]; cbn; [discriminate|].
  destruct (String.eqb_spec f g) as [->|]; intros H.
  - left. congruence.
  - right. auto.
Qed.

Lemma in_field f l p : nodup_names l = true -> In (f, p) l -> field l f = Some p.
Proof.
  induction l as [|[g x] t IH]; cbn; intros Hn Hin; [tauto|].
  apply andb_prop in Hn as [H1 H2].
  destruct Hin as [E|Hin].
  - inversion E; subst. now rewrite String.eqb_refl.
  - destruct (String.eqb_spec f g) as [->|]; auto. exfalso.
    apply negb_true_iff in H1. assert (existsb (fun q => String.eqb g (fst q)) t = true); [|congruence].
    apply existsb_exists. exists (g, p). split; auto. apply String.eqb_refl.
Qed.

Definition unit_type (t : ty) : bool := match t with TyUnit => true | _ => false end.

(** What is checked of each row of the table, by computation. *)
Definition row_ok (u : unit_id) (m : message) : bool :=
  nodup_names (m_fields m) && nodup_names (layout u (m_name m))
  && forallb (fun fw => existsb (fun fp => String.eqb (fst fw) (fst fp)) (m_fields m))
       (layout u (m_name m))
  && forallb (fun fw => wire_ok u (snd fw) && wire_in (units u (m_name m)) (snd fw)
         && forallb (fun gx => String.eqb (fst fw) (fst gx)
                               || all_disjoint (occupies (snd fw)) (occupies (snd gx)))
              (layout u (m_name m)))
       (layout u (m_name m))
  && forallb (fun fp =>
        match wire_of u (snd fp) with
        | Some w => (negb (settable w) || negb (unit_type (prop_ty (snd fp))))
                    && (negb (striped (snd fp)) || negb (settable w))
                    && (negb (vstriped (snd fp)) || negb (settable w))
                    && has_type (prop_ty (snd fp)) (prop_default (snd fp))
                    && representable (prop_default (snd fp))
        | None => false
        end) (m_fields m).

Lemma rows_ump : forallb (row_ok U32) all_messages = true.
Proof. vm_compute. reflexivity. Qed.
Lemma rows_bytes : forallb (row_ok U8) (filter (supports U8) all_messages) = true.
Proof. vm_compute. reflexivity. Qed.

Lemma rows_wires_ump : Forall (fun m => Forall (fun fp =>
  find_wire (fst fp) (layout U32 (m_name m)) = wire_of U32 (snd fp)) (m_fields m)) all_messages.
Proof. repeat constructor. Qed.
Lemma rows_wires_bytes : Forall (fun m => Forall (fun fp =>
  find_wire (fst fp) (layout U8 (m_name m)) = wire_of U8 (snd fp)) (m_fields m))
  (filter (supports U8) all_messages).
Proof. repeat constructor. Qed.

Lemma row u m : In m all_messages -> supports u m = true -> row_ok u m = true.
Proof.
  intros Hm Hs. destruct u.
  - pose proof rows_bytes as H. rewrite forallb_forall in H. apply H. apply filter_In. auto.
  - pose proof rows_ump as H. rewrite forallb_forall in H. now apply H.
Qed.

Lemma row_wires u m f p : In m all_messages -> supports u m = true -> In (f, p) (m_fields m) ->
  find_wire f (layout u (m_name m)) = wire_of u p.
Proof.
  intros Hm Hs Hf. destruct u.
  - pose proof rows_wires_bytes as H. rewrite Forall_forall in H.
    assert (Hin : In m (filter (supports U8) all_messages)) by (apply filter_In; auto).
    specialize (H m Hin). rewrite Forall_forall in H. exact (H (f, p) Hf).
  - pose proof rows_wires_ump as H. rewrite Forall_forall in H. specialize (H m Hm).
    rewrite Forall_forall in H. exact (H (f, p) Hf).
Qed.

(** Everything known about one field of one message. *)
Record field_facts (u : unit_id) (m : message) (f : string) (p : prop) (w : wire) : Prop := {
  ff_field : field (m_fields m) f = Some p;
  ff_in : In (f, p) (m_fields m);
  ff_layout : In (f, w) (layout u (m_name m));
  ff_wire : wire_of u p = Some w;
  ff_ok : wire_ok u w = true;
  ff_units : wire_in (units u (m_name m)) w = true;
  ff_disjoint : forall g x, In (g, x) (layout u (m_name m)) -> f <> g ->
                all_disjoint (occupies w) (occupies x) = true;
  ff_ty : settable w = true -> prop_ty p <> TyUnit;
  ff_striped : settable w = true -> striped p = false;
  ff_vstriped : settable w = true -> vstriped p = false;
  ff_default : has_type (prop_ty p) (prop_default p) = true;
  ff_default_rep : representable (prop_default p) = true
}.

Lemma facts_of_prop u m f p : In m all_messages -> supports u m = true -> In (f, p) (m_fields m) ->
  exists w, field_facts u m f p w.
Proof.
  intros Hm Hs Hf. pose proof (row u m Hm Hs) as H. unfold row_ok in H.
  repeat (apply andb_prop in H as [H ?]).
  pose proof (row_wires u m f p Hm Hs Hf) as Hw.
  rewrite forallb_forall in H0. specialize (H0 (f, p) Hf). cbn [snd] in H0.
  destruct (wire_of u p) as [w|] eqn:E; [|discriminate]. exists w.
  repeat (apply andb_prop in H0 as [H0 ?]).
  apply find_wire_in in Hw as Hl. rewrite forallb_forall in H1. specialize (H1 (f, w) Hl).
  cbn [fst snd] in H1. repeat (apply andb_prop in H1 as [H1 ?]).
  constructor; auto.
  - now apply in_field.
  - unfold wire_ok. now rewrite H1, H11, H10.
  - intros g x Hg Hne. rewrite forallb_forall in H8. specialize (H8 (g, x) Hg). cbn [fst snd] in H8.
    destruct (String.eqb_spec f g); [congruence|]. exact H8.
  - intros Hset. rewrite Hset in *. destruct (prop_ty p); cbn in *; congruence.
  - intros Hset. rewrite Hset in *. destruct (striped p); cbn in *; congruence.
  - intros Hset. rewrite Hset in *. destruct (vstriped p); cbn in *; congruence.
Qed.

Lemma layout_supports m f w : In m all_messages -> In (f, w) (layout U8 (m_name m)) ->
  supports U8 m = true.
Proof.
  intros Hm Hin.
  assert (H : forallb (fun m => supports U8 m || match layout U8 (m_name m) with [] => true | _ => false end)
              all_messages = true) by (vm_compute; reflexivity).
  rewrite forallb_forall in H. specialize (H m Hm).
  destruct (supports U8 m); auto. cbn [orb] in H. destruct (layout U8 (m_name m)); [destruct Hin|discriminate].
Qed.

Lemma facts_of_layout u m f w : In m all_messages -> In (f, w) (layout u (m_name m)) ->
  exists p, field_facts u m f p w.
Proof.
  intros Hm Hin.
  assert (Hs : supports u m = true) by (destruct u; [now apply (layout_supports m f w)|reflexivity]).
  pose proof (row u m Hm Hs) as H. unfold row_ok in H. repeat (apply andb_prop in H as [H ?]).
  rewrite forallb_forall in H2. specialize (H2 (f, w) Hin). apply existsb_exists in H2 as ([g p] & Hp & E).
  cbn in E. apply String.eqb_eq in E. subst g.
  destruct (facts_of_prop u m f p Hm Hs Hp) as (w' & F). exists p.
  assert (w' = w); [|subst; exact F].
  pose proof (in_find_wire _ _ _ H3 Hin). pose proof (row_wires u m f p Hm Hs Hp).
  pose proof (ff_wire _ _ _ _ _ F). congruence.
Qed.

Lemma wire_in_le n k w : wire_in n w = true -> (n <= k)%nat -> wire_in k w = true.
Proof.
  unfold wire_in. intros H Hle. rewrite forallb_forall in *. intros s Hs. specialize (H s Hs). lia.
Qed.

(** *** Getters and setters *)

Lemma get_decode u m f w b : In m all_messages -> In (f, w) (layout u (m_name m)) ->
  settable w = true -> wf_buf u b -> wire_in (List.length b) w = true ->
  get u m b f = of_option (decode w b).
Proof.
  intros Hm Hin Hset Hwf Hlen. destruct (facts_of_layout u m f w Hm Hin) as (p & F).
  unfold get. rewrite (ff_field _ _ _ _ _ F).
  apply prop_read_decode; [exact Hwf|apply F|now apply F|exact Hlen].
Qed.

(** Fields that do not exist in this form read as their constant. *)
Lemma get_absent u m f d b : In m all_messages -> In (f, Absent d) (layout u (m_name m)) ->
  get u m b f = Val d.
Proof.
  intros Hm Hin. destruct (facts_of_layout u m f _ Hm Hin) as (p & F).
  unfold get. rewrite (ff_field _ _ _ _ _ F). pose proof (ff_wire _ _ _ _ _ F) as Hw.
  destruct p, u; cbn [wire_of prop_read] in *; try discriminate;
    try (inversion Hw; subst; reflexivity);
    unfold ump_wire, bytes_wire, code_wire in Hw;
    repeat match type of Hw with context [match ?x with _ => _ end] => destruct x end;
    discriminate.
Qed.

Lemma set_written u m f w t b v : In m all_messages -> In (f, w) (layout u (m_name m)) ->
  settable w = true -> wf_buf u b -> wire_in (List.length b) w = true ->
  field_type m f = Some t -> has_type t v = true -> representable v = true ->
  exists b', set u m b f v = Val b' /\ written u w b v b'.
Proof.
  intros Hm Hin Hset Hwf Hlen Ht Hv Hr. destruct (facts_of_layout u m f w Hm Hin) as (p & F).
  unfold set. rewrite (ff_field _ _ _ _ _ F).
  unfold field_type in Ht. rewrite (ff_field _ _ _ _ _ F) in Ht. cbn in Ht. injection Ht as <-.
  apply prop_write_spec; auto; try apply F; auto.
Qed.

(** *** Acceptance *)

(** Wires whose every bit pattern has a meaning: validation cannot fail and
    reads nothing. *)
Definition total_prop (p : prop) : bool :=
  match p with PHybrid _ _ _ | PUmp _ _ => true | _ => false end.

Lemma total_validate u p w b : total_prop p = true -> wire_of u p = Some w ->
  prop_validate u p b = Val (Ok tt) /\ decode w b <> None.
Proof.
  intros Hp Hw. destruct p; try discriminate; cbn [wire_of] in Hw; (split; [reflexivity|]); destruct u;
    unfold ump_wire, bytes_wire in Hw;
    repeat match type of Hw with context [match ?x with _ => _ end] => destruct x; try discriminate end;
    apply some_inj in Hw; subst; cbn [decode]; discriminate.
Qed.


Definition prop_ok (u : unit_id) (p : prop) (w : wire) (b : list N) : Prop :=
  match p with
  | PFlexStatus s => forall i, (i < List.length b / 4)%nat -> bits b (Seg (4 * i) 0 8) = s
  | PFlexBank s => forall i, (i < List.length b / 4)%nat -> bits b (Seg (4 * i) 8 8) = s
  | PStreamStatus s => forall i, (i < List.length b / 4)%nat -> bits b (Seg (4 * i) 16 10) = s
  | PStreamFormats => forall k, leading 4 0xF b k ->
      framed (fun i => bits b (Seg (4 * i) 26 2)) 0 1 2 3 k
  | _ => decode w b <> None
  end.

Lemma vstriped_u32 u p w : vstriped p = true -> wire_of u p = Some w -> u = U32.
Proof. destruct p, u; cbn; intros; try discriminate; auto. Qed.

Lemma prop_validate_ok u p w b : wf_buf u b -> wire_of u p = Some w ->
  (vstriped p || total_prop p = false -> wire_in (List.length b) w = true) ->
  exists r, prop_validate u p b = Val r /\ (is_ok r = true <-> prop_ok u p w b).
Proof.
  intros Hwf Hw Hin. destruct (vstriped p) eqn:Hv.
  - pose proof (vstriped_u32 _ _ _ Hv Hw). subst u. destruct p; try discriminate.
    + apply flex_status_validate.
    + apply flex_bank_validate.
    + apply stream_status_validate.
    + destruct (leading_exists 4 0xF b) as (k & Hk).
      destruct (stream_formats_validate_spec b k Hk) as (r & H1 & H2). exists r. split; auto.
      rewrite H2. cbn [prop_ok]. split; [|auto]. intros H k' Hk'.
      now rewrite (leading_unique _ _ _ _ _ Hk' Hk).
  - assert (E : prop_ok u p w b <-> decode w b <> None) by (destruct p; cbn in *; try discriminate; tauto).
    destruct (total_prop p) eqn:Ht.
    + destruct (total_validate u p w b Ht Hw) as [H1 H2]. exists (Ok tt). split; auto. rewrite E. cbn. tauto.
    + destruct (prop_validate_spec u p w b Hwf Hw (Hin eq_refl) Hv) as (r & H1 & H2). exists r.
      split; auto. rewrite E, H2. destruct (decode w b); cbn; split; congruence.
Qed.

Lemma validate_all_ok u fs b : wf_buf u b ->
  (forall f p, In (f, p) fs -> exists w, wire_of u p = Some w /\
     (vstriped p || total_prop p = false -> wire_in (List.length b) w = true)) ->
  exists r, validate_all u fs b = Val r /\
    (is_ok r = true <-> forall f p w, In (f, p) fs -> wire_of u p = Some w -> prop_ok u p w b).
Proof.
  intros Hwf. induction fs as [|[f p] t IH]; intros H.
  - eexists; split; [reflexivity|]. cbn. split; auto. intros _ f p w [].
  - cbn [validate_all]. destruct (H f p) as (w & Hw & Hin); [now left|].
    destruct (prop_validate_ok u p w b Hwf Hw Hin) as (r & E & Hr). rewrite E. cbn [bind].
    destruct r as [[]|e].
    + destruct IH as (r' & E' & Hr'). { intros g q Hq. apply (H g q). now right. }
      exists r'. split; auto. rewrite Hr'. split.
      * intros Hall g q x [Eq|Hq] Hx; [|eauto]. inversion Eq; subst g q.
        assert (x = w) by congruence. subst. now apply Hr.
      * intros Hall g q x Hq Hx. apply (Hall g q x); [now right|exact Hx].
    + eexists; split; [reflexivity|]. cbn. split; [discriminate|]. intros Hall. exfalso.
      assert (false = true); [|discriminate]. apply Hr. apply (Hall f p w); [now left|exact Hw].
Qed.


Definition min_size_covers (u : unit_id) (m : message) : bool :=
  forallb (fun fp => vstriped (snd fp) || total_prop (snd fp) ||
     match wire_of u (snd fp) with Some w => wire_in (min_size u m) w | None => false end) (m_fields m).

Lemma min_covers_ump : forallb (min_size_covers U32) all_messages = true.
Proof. vm_compute. reflexivity. Qed.
Lemma min_covers_bytes : forallb (min_size_covers U8) (filter (supports U8) all_messages) = true.
Proof. vm_compute. reflexivity. Qed.

Lemma min_covers u m f p : In m all_messages -> supports u m = true -> In (f, p) (m_fields m) ->
  vstriped p || total_prop p = false -> exists w, wire_of u p = Some w /\ wire_in (min_size u m) w = true.
Proof.
  intros Hm Hs Hf Hp.
  assert (H : min_size_covers u m = true).
  { destruct u.
    - pose proof min_covers_bytes as H. rewrite forallb_forall in H. apply H. apply filter_In. auto.
    - pose proof min_covers_ump as H. rewrite forallb_forall in H. now apply H. }
  unfold min_size_covers in H. rewrite forallb_forall in H. specialize (H (f, p) Hf). cbn [snd] in H.
  rewrite Hp in H. cbn [orb] in H. destruct (wire_of u p) as [w|]; [|discriminate]. eauto.
Qed.

(** [try_from] never panics and accepts exactly the slices described by
    [prop_ok]; it returns the slice unchanged. *)
Lemma try_from_spec u m b : In m all_messages -> supports u m = true -> wf_buf u b ->
  exists r, try_from u m b = Val r /\ (forall b', r = Ok b' -> b' = b) /\
    (is_ok r = true <-> (min_size u m <= List.length b)%nat /\
       forall f p w, In (f, p) (m_fields m) -> wire_of u p = Some w -> prop_ok u p w b).
Proof.
  intros Hm Hs Hwf. unfold try_from.
  destruct (Nat.ltb_spec (List.length b) (min_size u m)) as [Hl|Hl].
  - eexists; split; [reflexivity|]. split; [discriminate|]. cbn. split; [discriminate|]. lia.
  - destruct (validate_all_ok u (m_fields m) b Hwf) as (r & E & Hr).
    { intros f p Hf. destruct (facts_of_prop u m f p Hm Hs Hf) as (w & F). exists w.
      split; [apply F|]. intros Hp. destruct (min_covers u m f p Hm Hs Hf Hp) as (w' & E & Hin).
      assert (w' = w) by (pose proof (ff_wire _ _ _ _ _ F); congruence). subst.
      eapply wire_in_le; eauto. }
    rewrite E. cbn [bind]. destruct r as [x|e].
    + eexists; split; [reflexivity|]. split; [congruence|]. cbn. cbn in Hr. tauto.
    + eexists; split; [reflexivity|]. split; [discriminate|]. cbn. cbn in Hr.
      split; [discriminate|]. intros [_ H]. now apply Hr.
Qed.
