(** Byte-stream <-> UMP conversion, reserved bits, clean byte messages. *)
From Coq Require Import NArith List String Bool Arith Lia ZifyBool ZifyNat ZifyN.
From Verif Require Import Base BitOps Values Schema Helpers Props Message MessageTable SpecLayout SpecFixed
  BitLemmas ListLemmas PropLemmas PropWrite PropValidate Stripes MessageLemmas InitLemmas FixedLemmas.
Import ListNotations.
Local Open Scope string_scope.
Local Open Scope N_scope.
Local Open Scope list_scope.

Definition plain (w : wire) : bool :=
  match w with Number _ | Septets _ _ | Fixed _ _ | Absent _ => true | _ => false end.

Lemma plain_check u : forallb (fun m => negb (supports U8 m) ||
  (negb (scans_packets m) && no_striped (m_fields m) && forallb (fun fw => plain (snd fw)) (layout u (m_name m))))
  all_messages = true.
Proof. destruct u; vm_compute; reflexivity. Qed.

Lemma plain_message u m : In m all_messages -> supports U8 m = true ->
  scans_packets m = false /\ no_striped (m_fields m) = true /\
  forall f w, In (f, w) (layout u (m_name m)) -> plain w = true.
Proof.
  intros Hm Hs. pose proof (plain_check u) as H. rewrite forallb_forall in H. specialize (H m Hm).
  rewrite Hs in H. cbn [negb orb] in H. apply andb_prop in H as [H H3]. apply andb_prop in H as [H1 H2].
  split; [now destruct (scans_packets m)|]. split; auto.
  rewrite forallb_forall in H3. intros f w Hin. exact (H3 (f, w) Hin).
Qed.

Lemma supports_any u m : supports U8 m = true -> supports u m = true.
Proof. destruct u; auto. Qed.

Lemma readable u m src f p : In m all_messages -> supports U8 m = true -> holds u m src -> accepts u m src ->
  In (f, p) (m_fields m) ->
  exists v, prop_read u p src = Val v /\ has_type (prop_ty p) v = true /\ representable v = true /\
    (forall w, In (f, w) (layout u (m_name m)) -> decode w src = Some v).
Proof.
  intros Hm Hs Hh Ha Hf. pose proof (supports_any u m Hs) as Hsu.
  destruct (facts_of_prop u m f p Hm Hsu Hf) as (w & F).
  destruct (plain_message u m Hm Hs) as (_ & _ & Hp). specialize (Hp f w (ff_layout _ _ _ _ _ F)).
  destruct (field_type_wire u m f w Hm (ff_layout _ _ _ _ _ F)) as [Ht Hsh].
  assert (Hty : prop_ty p = wire_ty w).
  { unfold field_type in Ht. rewrite (ff_field _ _ _ _ _ F) in Ht. cbn in Ht. congruence. }
  destruct (settable w) eqn:Hset.
  - destruct (accepts_get u m src f w Hm) as (v & t & E & Hd & _ & _); auto.
    { split; auto. apply F. }
    exists v. unfold get in E. rewrite (ff_field _ _ _ _ _ F) in E. split; [exact E|]. rewrite Hty.
    split; [now apply (decode_typed w src)|]. split.
    + destruct w; try discriminate; cbn [decode] in Hd; apply some_inj in Hd; now subst v.
    + intros w' Hw'. rewrite (layout_unique u m f w' w Hm Hw' (ff_layout _ _ _ _ _ F)). exact Hd.
  - destruct w; try discriminate.
    + exists VUnit. rewrite (unit_read u p _ src Hty (ff_wire _ _ _ _ _ F)). rewrite Hty.
      repeat split; auto. intros w' Hw'.
      rewrite (layout_unique u m f w' _ Hm Hw' (ff_layout _ _ _ _ _ F)).
      apply accepts_bare in Ha; auto; [|apply Hh|now apply (plain_message u m)].
      destruct Ha as [_ Ha]. specialize (Ha f _ (ff_layout _ _ _ _ _ F)). cbn [decode] in *.
      destruct (_ =? _); congruence.
    + exists v. pose proof (get_absent u m f v src Hm (ff_layout _ _ _ _ _ F)) as E.
      unfold get in E. rewrite (ff_field _ _ _ _ _ F) in E. split; [exact E|]. rewrite Hty.
      split; [now apply (decode_typed (Absent v) src)|].
      split; [destruct v; try discriminate; reflexivity|]. intros w' Hw'.
      now rewrite (layout_unique u m f w' _ Hm Hw' (ff_layout _ _ _ _ _ F)).
Qed.

Lemma get_any u m src f w : In m all_messages -> holds u m src -> In (f, w) (layout u (m_name m)) ->
  (settable w = true \/ exists d, w = Absent d) -> get u m src f = of_option (decode w src).
Proof.
  intros Hm Hh Hin [Hset|(d & ->)].
  - apply get_settable; auto. split; auto.
  - rewrite (get_absent u m f d src Hm Hin). reflexivity.
Qed.

(** What a conversion produces. *)
Definition converted (from to : unit_id) (m : message) (src dst dst' : list N) : Prop :=
  holds to m dst' /\ List.length dst' = List.length dst /\ accepts to m dst' /\ meaningful to m dst' /\
  only_changes (flat_map (fun fw => occupies (snd fw)) (layout to (m_name m))) dst dst' /\
  (forall f w x, settable_field to m f w -> In (f, x) (layout from (m_name m)) ->
      decode w dst' = decode x src).

Lemma convert_ok from to m src dst : In m all_messages -> supports U8 m = true ->
  holds from m src -> accepts from m src -> wf_buf to dst -> (room to m <= List.length dst)%nat ->
  exists dst', convert_properties from to (m_fields m) src dst = Val dst' /\
               converted from to m src dst dst'.
Proof.
  intros Hm Hs Hh Ha Hwf Hroom.
  destruct (plain_message to m Hm Hs) as (Hsc & Hns & Hpl).
  pose proof (supports_any to m Hs) as Hst.
  pose proof (row to m Hm Hst) as Hrow. unfold row_ok in Hrow.
  assert (Hnd : nodup_names (m_fields m) = true).
  { do 4 apply andb_prop in Hrow as [Hrow _]. exact Hrow. }
  destruct (convert_aux from to m src Hm Hst (m_fields m) dst) as (d & E & Hw & Hc & Hd & _); auto.
  { apply incl_refl. }
  { intros f p Hf. split.
    - unfold no_striped in Hns. rewrite forallb_forall in Hns. specialize (Hns (f, p) Hf). cbn in Hns.
      now destruct (striped p).
    - destruct (readable from m src f p Hm Hs Hh Ha Hf) as (v & H1 & H2 & H3 & _). eauto. }
  exists d. split; [exact E|].
  assert (Hval : forall f w, In (f, w) (layout to (m_name m)) -> exists v, decode w d = Some v).
  { intros f w Hin. destruct (facts_of_layout to m f w Hm Hin) as (p & F).
    destruct (readable from m src f p Hm Hs Hh Ha (ff_in _ _ _ _ _ F)) as (v & H1 & _).
    eexists. eapply Hd; [apply F|exact Hin|exact H1]. }
  assert (Hholds : holds to m d).
  { destruct Hc as [El _]. split; [exact Hw|]. unfold room in Hroom. split.
    - destruct to; [|lia]. destruct (String.eqb_spec (m_name m) "system_common::SongPositionPointer") as [En|]; [|lia].
      assert (Hm2 : forallb (fun m => negb (String.eqb (m_name m) "system_common::SongPositionPointer")
                             || (min_size U8 m <=? 3)%nat) all_messages = true) by (vm_compute; reflexivity).
      rewrite forallb_forall in Hm2. specialize (Hm2 m Hm). rewrite En, String.eqb_refl in Hm2. cbn [negb orb] in Hm2.
      rewrite El. apply Nat.leb_le in Hm2. lia.
    - intros -> En. rewrite En, String.eqb_refl in Hroom. lia. }
  assert (Hmean : meaningful to m d).
  { intros f w Hin. destruct (Hval f w Hin) as (v & Ev). rewrite Ev. discriminate. }
  split; [exact Hholds|]. split; [apply Hc|]. split; [|split; [exact Hmean|split; [exact Hc|]]].
  - apply accepts_bare; auto. split; [apply Hholds|exact Hmean].
  - intros f w x [Hin Hset] Hx. destruct (facts_of_layout to m f w Hm Hin) as (p & F).
    destruct (readable from m src f p Hm Hs Hh Ha (ff_in _ _ _ _ _ F)) as (v & H1 & _ & _ & H4).
    rewrite (H4 x Hx). rewrite (Hd f p w v (ff_in _ _ _ _ _ F) Hin H1). destruct w; try discriminate; reflexivity.
Qed.

Lemma convert_app from to fs src dst d t : no_striped fs = true ->
  convert_properties from to fs src dst = Val d ->
  convert_properties from to fs src (dst ++ t) = Val (d ++ t).
Proof.
  revert dst; induction fs as [|[f p] fs IH]; intros dst Hs H.
  - cbn in *. congruence.
  - cbn [no_striped forallb snd] in Hs. apply andb_prop in Hs as [Hp Hs].
    rewrite convert_cons in *. destruct (prop_read from p src) as [v|]; [|discriminate]. cbn [bind] in *.
    apply bind_val in H as (d1 & H1 & H).
    rewrite (prop_write_app to p dst v d1 t); auto; [|now destruct (striped p)]. cbn [bind]. now apply IH.
Qed.

(** ** Reserved bits *)

Definition in_segb (s : seg) (w : nat) (j : N) : bool :=
  Nat.eqb w (sg_w s) && (sg_lo s <=? j) && (j <? sg_lo s + sg_n s).

Lemma in_segb_spec s w j : in_segb s w j = true <-> in_seg s w j.
Proof.
  unfold in_segb, in_seg. destruct (Nat.eqb_spec w (sg_w s)); cbn [andb]; split; intros H; try lia.
Qed.

Definition layout_segs (u : unit_id) (m : message) : list seg :=
  flat_map (fun fw => occupies (snd fw)) (layout u (m_name m)).

Lemma seg_or_not (l : list seg) w j :
  {s | In s l /\ in_seg s w j} + {forall s, In s l -> ~ in_seg s w j}.
Proof.
  induction l as [|s l IH]; [right; intros ? []|].
  destruct (in_segb s w j) eqn:E.
  - left. exists s. split; [now left|]. now apply in_segb_spec.
  - destruct IH as [(s' & H1 & H2)|H]; [left; exists s'; split; auto; now right|].
    right. intros s' [<-|Hs']; auto. rewrite <- in_segb_spec. congruence.
Defined.

Lemma layout_seg u m s : In s (layout_segs u m) <-> exists f x, In (f, x) (layout u (m_name m)) /\ In s (occupies x).
Proof.
  unfold layout_segs. rewrite in_flat_map. split.
  - intros ([f x] & H1 & H2). eauto.
  - intros (f & x & H1 & H2). exists (f, x). auto.
Qed.

Lemma testbit_of_bits b s w j : in_seg s w j -> N.testbit (nth w b 0) j = N.testbit (bits b s) (j - sg_lo s).
Proof.
  intros [-> H]. unfold bits. rewrite testbit_field. replace (j - sg_lo s <? sg_n s) with true by lia.
  cbn [andb]. f_equal. lia.
Qed.

Lemma septets_eq a b c d : a < 128 -> c < 128 -> a + 128 * b = c + 128 * d -> a = c /\ b = d.
Proof. intros. lia. Qed.

(** Two buffers whose plain fields decode to the same values agree in the bits
    of those fields. *)
Lemma plain_inj w a b : plain w = true -> wire_shape w = true -> decode w a <> None -> decode w a = decode w b ->
  forall s, In s (occupies w) -> bits a s = bits b s.
Proof.
  intros Hp Hsh Hn E s Hs. destruct w; try discriminate; cbn [decode occupies wire_shape] in *.
  - destruct Hs as [<-|[]]. congruence.
  - apply andb_prop in Hsh as [H1 H2]. apply N.eqb_eq in H1, H2.
    assert (E' : bits a lsb + 128 * bits a msb = bits b lsb + 128 * bits b msb) by congruence.
    pose proof (bits_lt a lsb) as La. pose proof (bits_lt b lsb) as Lb. rewrite H1 in La, Lb.
    apply septets_eq in E' as [E1 E2]; auto. destruct Hs as [<-|[<-|[]]]; auto.
  - destruct Hs as [<-|[]]. destruct (N.eqb_spec (bits a s0) c); [|congruence].
    destruct (N.eqb_spec (bits b s0) c); congruence.
  - destruct Hs.
Qed.

Lemma only_changes_reserved u m b b' : only_changes (layout_segs u m) b b' ->
  reserved_zero u m b -> reserved_zero u m b'.
Proof.
  intros [_ H] Hr w j Hw Hj Hn. rewrite H; [now apply Hr|].
  intros s Hs. apply layout_seg in Hs as (f & x & H1 & H2). eauto.
Qed.

Lemma reserved_zeros u m n : reserved_zero u m (repeat 0 n).
Proof. intros w j _ _ _. rewrite nth_repeat0. apply N.bits_0. Qed.

Lemma reserved_prefix u m a b : (forall i, (i < min_size u m)%nat -> nth i a 0 = nth i b 0) ->
  reserved_zero u m a -> reserved_zero u m b.
Proof. intros H Hr w j Hw Hj Hn. rewrite <- H by auto. now apply Hr. Qed.

(** ** Clean byte messages *)

Definition clean_check (m : message) : bool :=
  (1 <=? min_size U8 m)%nat &&
  forallb (fun s => Nat.eqb (sg_w s) 0 || (sg_lo s + sg_n s <=? 7)) (layout_segs U8 m) &&
  existsb (fun fw => match snd fw with
                     | Fixed (Seg 0 lo n) c => (lo + n =? 8) && (2 ^ (n - 1) <=? c) && (0 <? n)
                     | _ => false end) (layout U8 (m_name m)).

Lemma clean_checks : forallb clean_check (filter (supports U8) all_messages) = true.
Proof. vm_compute. reflexivity. Qed.

Lemma top_bit x n lo c : lo + n = 8 -> 0 < n -> 2 ^ (n - 1) <= c -> (x / 2 ^ lo) mod 2 ^ n = c -> 128 <= x.
Proof.
  intros H1 H2 H3 H4.
  assert (2 ^ (n - 1) <= x / 2 ^ lo).
  { rewrite <- H4 in H3. etransitivity; [exact H3|]. apply N.mod_le. apply N.pow_nonzero. discriminate. }
  assert (E : 128 = 2 ^ (n - 1) * 2 ^ lo).
  { rewrite <- N.pow_add_r. replace (n - 1 + lo) with 7 by lia. reflexivity. }
  rewrite E. etransitivity; [apply N.mul_le_mono_r; exact H|]. rewrite N.mul_comm.
  apply N.mul_div_le. apply N.pow_nonzero. discriminate.
Qed.

Lemma clean_data m b : In m all_messages -> supports U8 m = true -> holds U8 m b ->
  meaningful U8 m b -> reserved_zero U8 m b ->
  clean_bytes (firstn (min_size U8 m) b).
Proof.
  intros Hm Hs Hh Hmean Hr. pose proof clean_checks as H. rewrite forallb_forall in H.
  specialize (H m). assert (Hin : In m (filter (supports U8) all_messages)) by (apply filter_In; auto).
  specialize (H Hin). unfold clean_check in H. apply andb_prop in H as [H H3]. apply andb_prop in H as [H1 H2].
  apply Nat.leb_le in H1. destruct Hh as (Hwf & Hl & _).
  assert (Hnth : forall i, (i < min_size U8 m)%nat -> nth i b 0 < 2 ^ 8).
  { intros i Hi. apply (wf_nth U8). exact Hwf. }
  destruct b as [|x b]; [cbn [List.length] in Hl; lia|].
  destruct (min_size U8 m) as [|k] eqn:Ek; [lia|]. cbn [firstn]. exists x, (firstn k b).
  split; [reflexivity|]. split.
  - split; [|exact (Hnth 0%nat (Nat.lt_0_succ k))].
    apply existsb_exists in H3 as ([f w] & Hf & H3). cbn [snd] in H3.
    destruct w; try discriminate. destruct s as [[|] lo n]; try discriminate.
    apply andb_prop in H3 as [H3 H6]. apply andb_prop in H3 as [H4 H5].
    pose proof (Hmean f _ Hf) as Hd. cbn [decode] in Hd.
    destruct (N.eqb_spec (bits (x :: b) (Seg 0 lo n)) c) as [E|]; [|congruence].
    unfold bits in E. cbn [sg_w sg_lo sg_n nth] in E. apply N.eqb_eq in H4. apply N.leb_le in H5. apply N.ltb_lt in H6. now apply (top_bit x n lo c).
  - apply Forall_forall. intros y Hy. apply (In_nth _ _ 0) in Hy as (i & Hi & <-).
    rewrite firstn_length in Hi. rewrite nth_firstn_lt by lia.
    change (nth i b 0) with (nth (S i) (x :: b) 0). change 128 with (2 ^ 7).
    apply lt_pow2_bits. intros j Hj. destruct (N.ltb_spec j 8) as [Hj8|Hj8].
    + apply Hr; [lia|exact Hj8|]. intros f z s Hz Hsz [Hw Hseg].
      rewrite forallb_forall in H2. assert (Hs' : In s (layout_segs U8 m)) by (apply layout_seg; eauto).
      specialize (H2 s Hs'). lia.
    + apply (testbit_above 8); [apply Hnth; lia|exact Hj8].
Qed.

(** Setters keep reserved bits. *)
Lemma run_sets_reserved u m b h b' : In m all_messages -> legal u m h -> holds u m b ->
  run_sets u m b h = Val b' -> reserved_zero u m b -> reserved_zero u m b'.
Proof.
  intros Hm Hl Hh E. destruct (run_sets_ok u m h Hm Hl b Hh) as (b1 & E1 & _ & _ & _ & _ & _ & Ho).
  assert (b1 = b') by congruence. subst b1. apply only_changes_reserved. apply Ho.
  intros g w [Hg _] s Hs. apply layout_seg. eauto.
Qed.

Definition reserved_check (u : unit_id) (m : message) (z : list N) : bool :=
  forallb (fun w => forallb (fun j =>
      existsb (fun s => in_segb s w (N.of_nat j)) (layout_segs u m)
      || negb (N.testbit (nth w z 0) (N.of_nat j))) (seq 0 (N.to_nat (unit_bits u))))
    (seq 0 (min_size u m)).

Lemma new_reserved_checks u : forallb (fun m => match new u m with Val z => reserved_check u m z | Panic => true end)
  all_messages = true.
Proof. destruct u; vm_compute; reflexivity. Qed.

Lemma new_reserved u m z : In m all_messages -> new u m = Val z -> reserved_zero u m z.
Proof.
  intros Hm Hz. pose proof (new_reserved_checks u) as H. rewrite forallb_forall in H. specialize (H m Hm).
  rewrite Hz in H. unfold reserved_check in H. intros w j Hw Hj Hn.
  rewrite forallb_forall in H. specialize (H w). rewrite in_seq in H. specialize (H ltac:(lia)).
  rewrite forallb_forall in H. specialize (H (N.to_nat j)). rewrite in_seq in H. specialize (H ltac:(lia)).
  rewrite N2Nat.id in H. apply orb_prop in H as [H|H]; [|now destruct (N.testbit (nth w z 0) j)].
  exfalso. apply existsb_exists in H as (s & H1 & H2). apply layout_seg in H1 as (f & x & H3 & H4).
  apply in_segb_spec in H2. eapply Hn; eauto.
Qed.
