(** Lemmas for C53: built messages hold nothing but their fields. *)
From Coq Require Import NArith List String Bool Arith Lia ZifyBool.
From Verif Require Import Base BitOps Encode7 Values Schema Helpers Props Message MessageTable SpecLayout SpecFixed
  BitLemmas ListLemmas PropLemmas PropWrite PropValidate MessageLemmas FixedLemmas FixedProofs ConvertLemmas
  ConvertProofs SpecRebuild.
Import ListNotations.
Local Open Scope string_scope.
Local Open Scope N_scope.

(** ** Tidiness is about the field's bits *)

Lemma tidy_agree u w a b : wire_ok u w = true ->
  (forall s, In s (occupies w) -> bits a s = bits b s) -> tidy w a -> tidy w b.
Proof.
  intros Hok H. assert (Hd : decode w a = decode w b) by (apply (decode_agree u); auto).
  destruct w; cbn [tidy occupies] in *; auto.
  - rewrite <- Hd. rewrite (H s) by (now left). auto.
  - rewrite (H ty), (H data) by (cbn; auto). auto.
  - rewrite (H valid), (H (Seg (sg_w lsb) (sg_lo lsb) 8)), (H (Seg (sg_w msb) (sg_lo msb) 8)) by (cbn; auto). auto.
  - rewrite (H addr), (H chan) by (cbn; auto). auto.
  - rewrite (H addr), (H chan) by (cbn; auto). auto.
Qed.

Lemma tidy_frame u m f w g x b b' : In m all_messages ->
  In (f, w) (layout u (m_name m)) -> In (g, x) (layout u (m_name m)) -> f <> g ->
  only_changes (occupies w) b b' -> tidy x b -> tidy x b'.
Proof.
  intros Hm Hf Hg Hne Hc. destruct (facts_of_layout u m g x Hm Hg) as (q & G).
  pose proof (ff_disjoint _ _ _ _ _ G f w Hf) as Hd. specialize (Hd ltac:(congruence)).
  apply (tidy_agree u); [apply G|]. intros s Hs. symmetry.
  eapply only_changes_bits; eauto. unfold all_disjoint in Hd. rewrite forallb_forall in Hd. auto.
Qed.

(** ** Tidy fields with equal values have equal bits *)

Definition flag_shape (w : wire) : bool :=
  match w with
  | Flag s => sg_n s =? 1
  | Guarded v _ _ => sg_n v =? 1
  | Controller i d => sg_n d =? 32
  | _ => true
  end.
Lemma flag_shapes u : forallb (fun m => forallb (fun fw => flag_shape (snd fw)) (layout u (m_name m)))
  all_messages = true.
Proof. destruct u; vm_compute; reflexivity. Qed.

Lemma flag_shape_of u m f w : In m all_messages -> In (f, w) (layout u (m_name m)) -> flag_shape w = true.
Proof.
  intros Hm Hin. pose proof (flag_shapes u) as H. rewrite forallb_forall in H. specialize (H m Hm).
  rewrite forallb_forall in H. exact (H (f, w) Hin).
Qed.

(** The code of an enumerated value. *)
Definition code_value (v : value) : N :=
  match v with
  | VTonic t => tonic_into t
  | VKeySF s => match key_sf_into s with Val n => n | Panic => 0 end
  | VChordSF s => chord_sf_into s
  | VChordType s => chord_type_into s
  | VAlt o => alteration_into o
  | VUiHint h => ui_hint_into h
  | VPort o => port_into o
  | VDir d => direction_into d
  | _ => 0
  end.

Lemma codes_inverse k n v : assoc n (codes k) = Some v -> v <> VAlt None -> n = code_value v.
Proof.
  intros H Hv. apply assoc_in in H.
  assert (A : forallb (fun p => if value_dec (snd p) (VAlt None) then true else fst p =? code_value (snd p))
                (codes k) = true) by (destruct k; vm_compute; reflexivity).
  rewrite forallb_forall in A. specialize (A (n, v) H). cbn [fst snd] in A.
  destruct (value_dec v (VAlt None)); [congruence|]. now apply N.eqb_eq.
Qed.

Definition controller_index (c : controller) : N :=
  match controller_to c with Val (i, _) => i | Panic => 95 end.
Definition controller_data (c : controller) : N :=
  match c with
  | Modulation d | Breath d | Pitch7_25 d | Volume d | Balance d | Pan d | Expression d
  | SoundVariation d | Timbre d | ReleaseTime d | AttackTime d | Brightness d | DecayTime d
  | VebratoRate d | VebratoDepth d | VebratoDelay d | Undefined d | ReverbSendLevel d | ChorusSendLevel d => d
  | SoundController _ d | EffectDepth _ d => d
  end.

Lemma rpnc_inverse i d c : assoc i (rpnc d) = Some c -> i = controller_index c /\ d = controller_data c.
Proof.
  intros H. apply assoc_in in H. unfold rpnc in H. cbn [In] in H.
  repeat (destruct H as [H|H]; [injection H as <- <-; split; reflexivity|]). destruct H.
Qed.

Lemma assoc_attribute n d v :
  assoc n [ (0, VAttr None); (1, VAttr (Some (ManufacturerSpecific d)));
            (2, VAttr (Some (ProfileSpecific d))); (3, VAttr (Some (Pitch7_9 d))) ] = Some v ->
  (n = 0 /\ v = VAttr None) \/ (n = 1 /\ v = VAttr (Some (ManufacturerSpecific d))) \/
  (n = 2 /\ v = VAttr (Some (ProfileSpecific d))) \/ (n = 3 /\ v = VAttr (Some (Pitch7_9 d))).
Proof.
  intros H. apply assoc_in in H. cbn [In] in H.
  repeat (destruct H as [H|H]; [injection H as <- <-; auto 8|]). destruct H.
Qed.

Lemma bit_of x : x < 2 ^ 1 -> x = 0 \/ x = 1.
Proof. change (2 ^ 1) with 2. lia. Qed.

Lemma byte_small b w lo : bits b (Seg w lo 8) < 128 -> bits b (Seg w lo 8) = bits b (Seg w lo 7).
Proof. intros H. rewrite <- bits_mod128. symmetry. now apply N.mod_small. Qed.

Lemma tidy_inj w a b : wire_shape w = true -> flag_shape w = true ->
  decode w a <> None -> decode w a = decode w b -> tidy w a -> tidy w b ->
  forall s, In s (occupies w) -> bits a s = bits b s.
Proof.
  intros Hsh Hfl Hn E Ta Tb s Hs.
  destruct w as [x|x|l h|l|x k|t d|i d|v l h|ad c|ad c|x c|v];
    cbn [decode occupies wire_shape flag_shape tidy] in *.
  - destruct Hs as [<-|[]]. congruence.
  - destruct Hs as [<-|[]]. apply N.eqb_eq in Hfl. pose proof (bits_lt a x) as La. pose proof (bits_lt b x) as Lb.
    rewrite Hfl in La, Lb. injection E as E. destruct (bit_of _ La), (bit_of _ Lb); rewrite H, H0 in *; auto; discriminate.
  - apply andb_prop in Hsh as [H1 H2]. apply N.eqb_eq in H1, H2.
    assert (E' : bits a l + 128 * bits a h = bits b l + 128 * bits b h) by congruence.
    pose proof (bits_lt a l) as La. pose proof (bits_lt b l) as Lb. rewrite H1 in La, Lb.
    apply septets_eq in E' as [E1 E2]; auto. destruct Hs as [<-|[<-|[]]]; auto.
  - injection E as E. clear Hsh Hn Hfl Ta Tb. induction l as [|y l IH]; [destruct Hs|].
    cbn [map] in E. injection E as E1 E2. destruct Hs as [<-|Hs]; auto.
  - destruct Hs as [<-|[]]. destruct (assoc (bits a x) (codes k)) as [v|] eqn:Ea; [|congruence].
    symmetry in E. destruct (value_dec v (VAlt None)) as [->|Hv].
    + rewrite Ta, Tb; auto.
    + apply codes_inverse in Ea, E; auto. congruence.
  - match type of Hn with ?o <> None => destruct o as [v|] eqn:Ea; [|congruence] end.
    symmetry in E. apply assoc_attribute in Ea, E.
    destruct Ea as [(A1 & A2)|[(A1 & A2)|[(A1 & A2)|(A1 & A2)]]];
    destruct E as [(B1 & B2)|[(B1 & B2)|[(B1 & B2)|(B1 & B2)]]]; subst v; try discriminate;
    destruct Hs as [<-|[<-|[]]]; try congruence.
    rewrite Ta, Tb; auto.
  - destruct (assoc (bits a i) (rpnc (bits a d))) as [x|] eqn:Ea; [|cbn in Hn; congruence]. cbn [option_map] in E.
    destruct (assoc (bits b i) (rpnc (bits b d))) as [y|] eqn:Eb; [|discriminate]. cbn [option_map] in E.
    injection E as <-. apply rpnc_inverse in Ea as [A1 A2], Eb as [B1 B2].
    destruct Hs as [<-|[<-|[]]]; congruence.
  - apply andb_prop in Hsh as [H1 H2]. apply N.eqb_eq in H1, H2, Hfl. destruct l as [wl ll nl], h as [wh lh nh].
    cbn [sg_w sg_lo sg_n] in *. subst nl nh. destruct Ta as (A1 & A2 & A3), Tb as (B1 & B2 & B3).
    pose proof (bits_lt a v) as La. pose proof (bits_lt b v) as Lb. rewrite Hfl in La, Lb.
    destruct (bit_of _ La) as [Va|Va], (bit_of _ Lb) as [Vb|Vb]; rewrite Va, Vb in *;
      change (0 =? 1) with false in *; change (1 =? 1) with true in *; try discriminate.
    + destruct (A3 eq_refl), (B3 eq_refl). destruct Hs as [<-|[<-|[<-|[]]]]; congruence.
    + injection E as E. pose proof (bits_lt a (Seg wl ll 7)) as Pa. pose proof (bits_lt b (Seg wl ll 7)) as Pb.
      cbn [sg_n] in Pa, Pb. apply septets_eq in E as [E1 E2]; auto.
      destruct Hs as [<-|[<-|[<-|[]]]]; [congruence| |]; rewrite !byte_small by assumption; auto.
  - destruct (N.eqb_spec (bits a ad) 0), (N.eqb_spec (bits b ad) 0); try discriminate.
    + injection E as E. destruct Hs as [<-|[<-|[]]]; congruence.
    + destruct Ta as [?|[? ?]], Tb as [?|[? ?]]; try congruence. destruct Hs as [<-|[<-|[]]]; congruence.
  - destruct Ta, Tb. destruct Hs as [<-|[<-|[]]]; congruence.
  - destruct Hs as [<-|[]]. destruct (N.eqb_spec (bits a x) c), (N.eqb_spec (bits b x) c); congruence.
  - destruct Hs.
Qed.

Lemma decode_constant w a b : settable w = false -> decode w a <> None -> decode w b <> None ->
  decode w a = decode w b.
Proof.
  destruct w; try discriminate; cbn [decode]; intros _ Ha Hb; auto.
  - destruct (_ =? _), (_ =? _); congruence.
  - destruct (_ =? _), (_ =? _); congruence.
Qed.

Lemma tidy_determined u m a b : In m all_messages -> wf_buf u a -> wf_buf u b ->
  tidy_message u m a -> tidy_message u m b -> meaningful u m a ->
  (forall f w, In (f, w) (layout u (m_name m)) -> decode w a = decode w b) -> a = b.
Proof.
  intros Hm Wa Wb (La & Ra & Ta) (Lb & Rb & Tb) Ma E.
  apply nth_ext with (d := 0) (d' := 0); [congruence|].
  intros i Hi. apply N.bits_inj. intros j. destruct (N.ltb_spec j (unit_bits u)) as [Hj|Hj].
  - destruct (seg_or_not (layout_segs u m) i j) as [(s & Hsg & Hin)|Hn].
    + apply layout_seg in Hsg as (f & x & H1 & H2).
      rewrite !(testbit_of_bits _ s i j Hin). f_equal.
      destruct (field_type_wire u m f x Hm H1) as [_ Hsh].
      apply (tidy_inj x); eauto. eapply flag_shape_of; eauto.
    + assert (Hn' : forall f x s, In (f, x) (layout u (m_name m)) -> In s (occupies x) -> ~ in_seg s i j).
      { intros f x s H1 H2. apply Hn. apply layout_seg. eauto. }
      rewrite Ra, Rb; auto; lia.
  - rewrite !(testbit_above (unit_bits u)); auto; now apply (wf_nth u).
Qed.

(** ** Setters write tidily *)

Definition is_attribute (w : wire) : bool := match w with Attribute _ _ => true | _ => false end.

Lemma plainly_tidy w b : match w with Code _ KAlteration | Attribute _ _ | Guarded _ _ _ | OptChannel _ _ | GroupAddress _ _ => False | _ => True end ->
  tidy w b.
Proof.
  destruct w; cbn [tidy]; try contradiction; auto. intros Hk H. cbn [decode] in H. apply assoc_in in H.
  assert (A : forallb (fun p => if value_dec (snd p) (VAlt None) then false else true) (codes k) = true)
    by (destruct k; try contradiction; vm_compute; reflexivity).
  rewrite forallb_forall in A. specialize (A _ H). cbn [snd] in A. destruct (value_dec (VAlt None) (VAlt None)); congruence.
Qed.

Lemma ump_wire_plain t m w : ump_wire t m = Some w ->
  match w with Code _ KAlteration | Attribute _ _ | Guarded _ _ _ | OptChannel _ _ | GroupAddress _ _ => False | _ => True end.
Proof.
  unfold ump_wire. destruct (lookup4 m (ump_table t)) as [[k i]|]; [|discriminate].
  destruct t; intros H; injection H as <-; exact I.
Qed.
Lemma bytes_wire_plain t m w : bytes_wire t m = Some w ->
  match w with Code _ KAlteration | Attribute _ _ | Guarded _ _ _ | OptChannel _ _ | GroupAddress _ _ => False | _ => True end.
Proof.
  unfold bytes_wire. destruct (lookup3 m (bytes_table t)) as [[k i]|]; [|discriminate].
  destruct t; intros H; try discriminate; injection H as <-; exact I.
Qed.

Lemma bits_put b s v t : (sg_w s < List.length b)%nat -> v < 2 ^ sg_n s -> seg_disjoint t s = true ->
  bits (put b s v) t = bits b t.
Proof.
  intros H1 H2 H3. eapply (only_changes_bits [s]); [apply put_only_changes; auto|]. cbn [forallb].
  now rewrite H3.
Qed.

Lemma bits_put_zero b s w lo n : (sg_w s < List.length b)%nat -> w = sg_w s -> sg_lo s <= lo -> lo + n <= sg_lo s + sg_n s ->
  bits (put b s 0) (Seg w lo n) = 0.
Proof.
  intros H1 -> H2 H3. apply N.bits_inj_0. intros j. unfold bits. cbn [sg_w sg_lo sg_n]. rewrite testbit_field.
  destruct (N.ltb_spec j n); cbn [andb]; auto. rewrite put_testbit; auto.
  2:{ apply N.neq_0_lt_0, N.pow_nonzero. discriminate. }
  unfold in_segb in *. rewrite Nat.eqb_refl. 
  replace (sg_lo s <=? lo + j) with true by lia. replace (lo + j <? sg_lo s + sg_n s) with true by lia.
  cbn [andb]. apply N.bits_0.
Qed.

Lemma write_tidy u p w b v b' : wf_buf u b -> wire_of u p = Some w -> wire_in (List.length b) w = true ->
  has_type (prop_ty p) v = true -> settable w = true -> is_attribute w = false ->
  prop_write u p b v = Val b' -> tidy w b'.
Proof.
  intros Hwf Hw Hin Ht Hset Hat E.
  destruct p; cbn [wire_of] in Hw;
    try (destruct u; try discriminate; apply some_inj in Hw; subst w; try discriminate; try exact I;
         apply plainly_tidy; exact I);
    try (destruct u; try discriminate; unfold code_wire in Hw;
         match type of Hw with (match ?x with _ => _ end) = _ => destruct x as [[k i]|]; [|discriminate] end;
         apply some_inj in Hw; subst w; apply plainly_tidy; exact I).
  - apply plainly_tidy. destruct u; [eapply bytes_wire_plain|eapply ump_wire_plain]; eauto.
  - destruct u; [apply some_inj in Hw; subst w; discriminate|]. apply plainly_tidy. eapply ump_wire_plain; eauto.
  - (* PProgramBank *)
    destruct u; [discriminate|]. destruct v; cbn [has_type prop_ty] in Ht; try discriminate.
    apply some_inj in Hw; subst; open_hyps. cbn [prop_write] in E. cbn [tidy sg_w sg_lo].
    destruct o as [n|].
    + rewrite u14_to_spec in E. revert E. upds. intros E. injection E as <-.
      pose proof (mod128_lt n). pose proof (mod128_lt (n / 128)). change (2 ^ 7) with 128 in *.
      set (ps := [(Seg 1 8 8, n mod 128); (Seg 1 0 8, (n / 128) mod 128); (Seg 0 0 1, 1)]).
      assert (Hok : puts_ok (List.length b) ps).
      { repeat (apply Forall_cons; [split; cbn [fst snd sg_w sg_n]; [lia|try (change (2 ^ 8) with 256; lia); try reflexivity]|]).
        apply Forall_nil. }
      change (put (put (put b _ _) _ _) _ _) with (puts b ps).
      rewrite (puts_bits ps b (Seg 1 8 8) (n mod 128)); auto; [|now left].
      rewrite (puts_bits ps b (Seg 1 0 8) ((n / 128) mod 128)); auto; [|right; now left].
      rewrite (puts_bits ps b (Seg 0 0 1) 1); auto; [|right; right; now left].
      split; [assumption|]. split; [assumption|]. discriminate.
    + revert E. upds. intros E. injection E as <-.
      change (Seg 1 (16 - 1 * 16) 16) with (Seg 1 0 16).
      rewrite !bits_put_zero by (rewrite ?put_length; cbn [sg_w sg_lo sg_n]; lia). repeat split; reflexivity.
  - (* POptChannel *)
    destruct u; [discriminate|]. destruct v; cbn [has_type prop_ty] in Ht; try discriminate.
    apply some_inj in Hw; subst; open_hyps. cbn [prop_write] in E. cbn [tidy].
    destruct o as [n|]; revert E; upds; intros E; injection E as <-.
    + left. rewrite bits_put; [|rewrite put_length; cbn; lia|exact (fits_lt 4 n Ht)|reflexivity].
      change (Seg 0 (30 - 5 * 2) 2) with (Seg 0 20 2). apply put_bits_same; [cbn; lia|reflexivity].
    + right. split.
      * rewrite bits_put; [|rewrite put_length; cbn; lia|reflexivity|reflexivity].
        change (Seg 0 (30 - 5 * 2) 2) with (Seg 0 20 2). apply put_bits_same; [cbn; lia|reflexivity].
      * change (Seg 0 (28 - 3 * 4) 4) with (Seg 0 16 4). apply put_bits_same; [rewrite put_length; cbn; lia|reflexivity].
  - (* PAlteration *)
    destruct u; [discriminate|]. destruct v; cbn [has_type prop_ty] in Ht; try discriminate.
    cbn [prop_write] in E. unfold code_wire in Hw. unfold at_table in E.
    destruct (lookup4 m alteration_table) as [[k i]|]; [|discriminate]. apply some_inj in Hw; subst w.
    unfold wire_in in Hin; cbn [occupies forallb sg_w] in Hin. revert E. upds. intros E. injection E as <-.
    destruct (alteration_code o Ht) as [Hc Ha].
    cbn [tidy decode]. rewrite put_bits_same by (cbn [sg_w sg_n]; auto; lia). rewrite Ha. intros H. injection H as ->. reflexivity.
Qed.

Lemma write_attribute_none b b' : wf_buf U32 b -> (1 < List.length b)%nat -> prop_write U32 PAttribute b (VAttr None) = Val b' ->
  bits b' (Seg 1 0 16) = bits b (Seg 1 0 16).
Proof.
  intros Hwf Hl. cbn [prop_write]. upds.
  match goal with |- (_ <- prefix ?x 2 ;; _) = _ -> _ => destruct (prefix x 2); [|discriminate] end.
  cbn [bind]. intros E. injection E as <-. apply bits_put; [cbn; lia|reflexivity|reflexivity].
Qed.

(** ** Histories *)

Lemma set_tidy u m b f w v b' : In m all_messages -> settable_field u m f w -> holds u m b -> storable m f v ->
  set u m b f v = Val b' -> is_attribute w = false -> tidy w b'.
Proof.
  intros Hm [Hin Hset] Hh (t & Ht & Hv & _) E Ha. destruct (facts_of_layout u m f w Hm Hin) as (p & F).
  unfold set in E. rewrite (ff_field _ _ _ _ _ F) in E. unfold field_type in Ht. rewrite (ff_field _ _ _ _ _ F) in Ht.
  cbn in Ht. injection Ht as <-. eapply write_tidy; eauto; [apply Hh|apply F|]. eapply holds_wire_in; eauto.
Qed.

Lemma attribute_wire u p t d : wire_of u p = Some (Attribute t d) -> u = U32 /\ p = PAttribute /\ t = Seg 0 0 8 /\ d = Seg 1 0 16.
Proof.
  intros H. destruct p; cbn [wire_of] in H; try (destruct u; discriminate H);
    try (destruct u; [discriminate|]; unfold code_wire in H;
         match type of H with (match ?x with _ => _ end) = _ => destruct x as [[? ?]|]; discriminate end).
  - exfalso. destruct u; [apply bytes_wire_plain in H|apply ump_wire_plain in H]; exact H.
  - exfalso. destruct u; [discriminate|apply ump_wire_plain in H]; exact H.
  - destruct u; [discriminate|]. injection H as <- <-. auto.
Qed.

(** Without an attribute being set to something, its data bits stay. *)
Lemma run_sets_attribute u m f t d h : In m all_messages -> In (f, Attribute t d) (layout u (m_name m)) ->
  legal u m h -> (forall a, ~ In (f, VAttr (Some a)) h) -> forall b b', holds u m b ->
  run_sets u m b h = Val b' -> bits b' d = bits b d.
Proof.
  intros Hm Hin. destruct (facts_of_layout u m f _ Hm Hin) as (p & F).
  destruct (attribute_wire u p t d (ff_wire _ _ _ _ _ F)) as (-> & -> & -> & ->).
  induction h as [|[g v] h IH]; intros Hl Hn b b' Hh E; cbn [run_sets] in E; [congruence|].
  inversion Hl as [|? ? [(w & Hf) Hv] Hl']; subst. cbn [fst snd] in *.
  destruct (set_ok U32 m b g w v Hm Hf Hh Hv) as (b1 & E1 & Hc & Hh1 & _). rewrite E1 in E. cbn [bind] in E.
  rewrite (IH Hl' (fun a H => Hn a (or_intror H)) b1 b' Hh1 E).
  destruct (string_dec g f) as [->|Hne].
  - assert (w = Attribute (Seg 0 0 8) (Seg 1 0 16)) by (eapply layout_unique; [exact Hm|apply Hf|exact Hin]). subst w.
    destruct Hv as (ty & Ht & Hv & _). unfold field_type in Ht. rewrite (ff_field _ _ _ _ _ F) in Ht. cbn in Ht.
    injection Ht as <-. destruct v; try discriminate. destruct o as [a|]; [destruct (Hn a); now left|].
    unfold set in E1. rewrite (ff_field _ _ _ _ _ F) in E1. apply write_attribute_none; auto; [apply Hh|].
    pose proof (holds_wire_in U32 m b f _ Hm Hin Hh) as Hw. unfold wire_in in Hw. cbn [occupies forallb sg_w] in Hw. lia.
  - eapply only_changes_bits; [exact Hc|].
    pose proof (ff_disjoint _ _ _ _ _ F g w (proj1 Hf) ltac:(congruence)) as Hd. unfold all_disjoint in Hd.
    rewrite forallb_forall in Hd. apply Hd. right. now left.
Qed.

Lemma run_sets_tidy_plain u m g x h : In m all_messages -> In (g, x) (layout u (m_name m)) -> is_attribute x = false ->
  legal u m h -> forall b b', holds u m b -> run_sets u m b h = Val b' -> tidy x b -> tidy x b'.
Proof.
  intros Hm Hg Ha. induction h as [|[f v] h IH]; intros Hl b b' Hh E Ht; cbn [run_sets] in E; [congruence|].
  inversion Hl as [|? ? [(w & Hf) Hv] Hl']; subst. cbn [fst snd] in *.
  destruct (set_ok u m b f w v Hm Hf Hh Hv) as (b1 & E1 & Hc & Hh1 & _). rewrite E1 in E. cbn [bind] in E.
  apply (IH Hl' b1 b' Hh1 E). destruct (string_dec f g) as [->|Hne].
  - assert (x = w) by (eapply layout_unique; [exact Hm|exact Hg|apply Hf]). subst w. exact (set_tidy u m b g x v b1 Hm Hf Hh Hv E1 Ha).
  - eapply (tidy_frame u m f w g x b b1); eauto. apply Hf.
Qed.

(** Fresh messages are tidy. *)
Definition tidyb (w : wire) (b : list N) : bool :=
  match w with
  | Code s k => match decode (Code s k) b with Some (VAlt None) => bits b s =? 0 | _ => true end
  | Attribute t d => bits b d =? 0
  | Guarded v l h => (bits b (Seg (sg_w l) (sg_lo l) 8) =? 0) && (bits b (Seg (sg_w h) (sg_lo h) 8) =? 0)
  | OptChannel a c | GroupAddress a c => (bits b a =? 1) && (bits b c =? 0)
  | _ => true
  end.
Lemma tidyb_tidy w b : tidyb w b = true -> tidy w b.
Proof.
  destruct w; cbn [tidyb tidy]; auto; intros H; try (apply andb_prop in H as [H H1]; apply N.eqb_eq in H, H1).
  - intros E. rewrite E in H. now apply N.eqb_eq.
  - intros _. now apply N.eqb_eq.
  - rewrite H, H1. repeat split; reflexivity.
  - auto.
  - auto.
Qed.
Definition fresh_tidy_check (u : unit_id) (m : message) : bool :=
  match new u m with
  | Panic => true
  | Val z => forallb (fun fw => tidyb (snd fw) z
                                && match snd fw with Attribute _ d => bits z d =? 0 | _ => true end) (layout u (m_name m))
  end.
Lemma fresh_tidy_checks u : forallb (fresh_tidy_check u) all_messages = true.
Proof. destruct u; vm_compute; reflexivity. Qed.
Lemma new_tidy u m z f w : In m all_messages -> new u m = Val z -> In (f, w) (layout u (m_name m)) ->
  tidy w z /\ (forall t d, w = Attribute t d -> bits z d = 0).
Proof.
  intros Hm Ez Hin. pose proof (fresh_tidy_checks u) as H. rewrite forallb_forall in H. specialize (H m Hm).
  unfold fresh_tidy_check in H. rewrite Ez, forallb_forall in H. specialize (H (f, w) Hin). cbn [snd] in H.
  apply andb_prop in H as [H1 H2]. split; [now apply tidyb_tidy|]. intros t d ->. now apply N.eqb_eq.
Qed.

Lemma last_set_none f h : last_set f h = None -> forall v, ~ In (f, v) h.
Proof.
  induction h as [|[g x] h IH]; cbn [last_set]; intros H v; [intros []|].
  destruct (last_set f h) eqn:E; [discriminate|]. destruct (String.eqb_spec g f); [discriminate|].
  intros [Hv|Hv]; [congruence|]. eapply IH; eauto.
Qed.

Lemma built_tidy u m z h b : In m all_messages -> supports u m = true -> constructible u m -> new u m = Val z ->
  legal u m h -> run_sets u m z h = Val b ->
  (forall f w, In (f, w) (layout u (m_name m)) -> is_attribute w = false -> tidy w b) /\
  (never_withdrawn h -> tidy_message u m b).
Proof.
  intros Hm Hs Hc Ez Hl E. destruct (new_fresh u m Hm Hs Hc) as (z1 & E1 & Hf). assert (z1 = z) by congruence. subst z1.
  pose proof (fresh_holds u m z Hm Hs Hc Hf) as Hh.
  destruct (run_sets_ok u m h Hm Hl z Hh) as (b1 & E2 & Hh' & El & _ & Hg & _). assert (b1 = b) by congruence. subst b1.
  assert (Hp : forall f w, In (f, w) (layout u (m_name m)) -> is_attribute w = false -> tidy w b).
  { intros f w Hin Ha. apply (run_sets_tidy_plain u m f w h Hm Hin Ha Hl z b Hh E). exact (proj1 (new_tidy u m z f w Hm Ez Hin)). }
  split; [exact Hp|]. intros Hw. split; [destruct Hf; congruence|]. split.
  { apply (run_sets_reserved u m z h b Hm Hl Hh E). now apply new_reserved. }
  intros f w Hin. destruct (is_attribute w) eqn:Ha; [|eauto]. destruct w; try discriminate. cbn [tidy]. intros Ht.
  destruct (new_tidy u m z f _ Hm Ez Hin) as [_ Hz]. specialize (Hz _ _ eq_refl).
  assert (Hno : forall a, ~ In (f, VAttr (Some a)) h).
  { assert (Hsf : settable_field u m f (Attribute ty data)) by (split; auto). pose proof (Hg f _ Hsf) as Hd.
    destruct (last_set f h) as [v|] eqn:El'.
    - cbn [decode] in Hd. rewrite Ht in Hd. cbn [assoc] in Hd. change (0 =? 0) with true in Hd. cbv iota in Hd.
      injection Hd as <-. exact (Hw f El').
    - intros a. now apply last_set_none. }
  rewrite <- Hz. exact (run_sets_attribute u m f ty data h Hm Hin Hl Hno z b Hh E).
Qed.

(** ** Copying field by field *)

Lemma copy_history u m names a z : (forall f, In f names -> exists v, get u m a f = Val v) ->
  exists h, copy_fields u m names a z = run_sets u m z h /\ map fst h = names /\
    forall f v, In (f, v) h -> get u m a f = Val v.
Proof.
  revert z. induction names as [|f t IH]; intros z H.
  - exists []. repeat split; auto. intros f v [].
  - destruct (H f) as (v & E); [now left|]. cbn [copy_fields]. rewrite E. cbn [bind].
    destruct (set u m z f v) as [z'|] eqn:Es.
    + destruct (IH z') as (h & E1 & E2 & E3); [intros g Hg; apply H; now right|].
      exists ((f, v) :: h). cbn [run_sets map fst]. rewrite Es. cbn [bind]. split; [exact E1|]. split; [congruence|].
      intros g x [Hx|Hx]; [congruence|auto].
    + destruct (IH z) as (h & E1 & E2 & E3); [intros g Hg; apply H; now right|].
      exists ((f, v) :: h). cbn [run_sets map fst]. rewrite Es. cbn [bind]. split; [reflexivity|]. split; [congruence|].
      intros g x [Hx|Hx]; [congruence|auto].
Qed.

Lemma last_set_in f h v : last_set f h = Some v -> In (f, v) h.
Proof.
  induction h as [|[g x] h IH]; cbn [last_set]; [discriminate|].
  destruct (last_set f h) eqn:E; [intros H; right; auto|].
  destruct (String.eqb_spec g f); [|discriminate]. intros [= ->]. subst. now left.
Qed.

(** ** Accepted messages of exactly their size *)

Lemma stream_typed : forallb (fun m => negb (String.prefix "ump_stream::" (m_name m)) ||
  existsb (fun fw => String.eqb (fst fw) "ump_type" &&
     match snd fw with Fixed (Seg 0 28 4) 15 => true | _ => false end) (layout U32 (m_name m))) all_messages = true.
Proof. vm_compute. reflexivity. Qed.

Lemma accepted_meaningful u m b : In m all_messages -> supports u m = true -> constructible u m -> wf_buf u b ->
  accepts u m b -> List.length b = min_size u m -> meaningful u m b.
Proof.
  intros Hm Hs Hc Hwf Ha Hl. destruct (scans_packets m) eqn:Hsc.
  2:{ now apply accepts_bare in Ha. }
  assert (Hu : u = U32).
  { destruct u; auto. exfalso.
    assert (H : forallb (fun m => negb (scans_packets m) || negb (supports U8 m)) all_messages = true)
      by (vm_compute; reflexivity).
    rewrite forallb_forall in H. specialize (H m Hm). rewrite Hsc, Hs in H. discriminate. }
  subst u.
  assert (Hz : sized U32 m).
  { apply sized_iff; auto. cbn [odd_sizes In]. intros [H|[H|[H|[H|[]]]]]; try discriminate. injection H as H. now apply Hc. }
  apply accepts_meaningful; auto. intros Hp.
  assert (H4 : List.length b = 4%nat).
  { rewrite Hl, Hz. cbn [units]. unfold units_ump. rewrite Hp.
    destruct (String.prefix "channel_voice2::" (m_name m)) eqn:Ev; [|now rewrite orb_true_r].
    exfalso. assert (H : forallb (fun m => negb (String.prefix "channel_voice2::" (m_name m)) ||
      negb (String.prefix "ump_stream::" (m_name m))) all_messages = true) by (vm_compute; reflexivity).
    rewrite forallb_forall in H. specialize (H m Hm). rewrite Ev, Hp in H. discriminate. }
  apply accepts_stream in Ha; auto; [|lia]. destruct Ha as (Hd & _ & Hf).
  pose proof stream_typed as H. rewrite forallb_forall in H. specialize (H m Hm). rewrite Hp in H. cbn [negb orb] in H.
  apply existsb_exists in H as ([f w] & Hin & H). cbn [fst snd] in H. apply andb_prop in H as [H1 H2].
  apply String.eqb_eq in H1. subst f. specialize (Hd "ump_type" w Hin ltac:(discriminate)).
  destruct w as [x|x|l h|l|x k|t d|i d|v l h|ad c|ad c|x c|v]; try discriminate H2.
  assert (x = Seg 0 28 4 /\ c = 15) as [-> ->].
  { destruct x as [sw lo n]. revert H2. destruct sw; [|discriminate]. 
    destruct (N.eq_dec lo 28) as [->|N1]; [destruct (N.eq_dec n 4) as [->|N2]; [destruct (N.eq_dec c 15) as [->|N3]; auto|]|];
      intros H2; exfalso; 
      repeat match type of H2 with (match ?e with _ => _ end) = true => destruct e; try discriminate H2 end; congruence. }
  cbn [decode] in Hd. destruct (N.eqb_spec (bits b (Seg 0 28 4)) 15) as [Et|]; [|congruence].
  assert (Hk : leading 4 15 b 1).
  { unfold leading. rewrite H4. split; [cbn; lia|]. split; [|cbn; lia].
    intros i Hi. assert (i = 0)%nat by lia. subst i. exact Et. }
  specialize (Hf 1%nat Hk). destruct Hf as [[_ Hf]|[Hf _]]; [exact Hf|lia].
Qed.

Lemma exact_holds u m b : constructible u m -> wf_buf u b -> List.length b = min_size u m -> holds u m b.
Proof. intros Hc Hwf Hl. split; [exact Hwf|]. split; [lia|]. intros -> En. now destruct (Hc En). Qed.
