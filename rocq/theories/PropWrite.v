(** Every setter writes exactly its wire field. *)
From Coq Require Import NArith List String Bool Arith Lia ZifyBool ZifyNat ZifyN.
From Verif Require Import Base BitOps Encode7 Values Schema Helpers Props SpecLayout
  BitLemmas ListLemmas PropLemmas.
Import ListNotations.
Local Open Scope N_scope.

Lemma only_changes_cover l l' b b' :
  (forall s x j, In s l -> in_seg s x j -> exists t, In t l' /\ in_seg t x j) ->
  only_changes l b b' -> only_changes l' b b'.
Proof.
  intros Hc [H1 H2]. split; auto. intros w j Hn. apply H2. intros s Hs Hin.
  destruct (Hc s w j Hs Hin) as (t & Ht & Hin'). exact (Hn t Ht Hin').
Qed.

(** The effect of writing [v] to the field represented by [w]. *)
Definition written (u : unit_id) (w : wire) (b : list N) (v : value) (b' : list N) : Prop :=
  only_changes (occupies w) b b' /\ wf_buf u b' /\
  decode w b' = Some (match w with Absent d => d | _ => v end).

Lemma puts_written u w b v ps :
  wf_buf u b -> puts_ok (List.length b) ps -> pairwise_disjoint (map fst ps) = true ->
  forallb (seg_fits (unit_bits u)) (map fst ps) = true ->
  incl (map fst ps) (occupies w) ->
  ((forall s x, In (s, x) ps -> bits (puts b ps) s = x) ->
   decode w (puts b ps) = Some (match w with Absent d => d | _ => v end)) ->
  written u w b v (puts b ps).
Proof.
  intros Hwf Hok Hd Hf Hi Hdec. split; [|split].
  - eapply only_changes_weaken; [exact Hi|]. now apply puts_only_changes.
  - apply puts_wf; auto. now rewrite forallb_map in Hf.
  - apply Hdec. intros s x Hin. now apply puts_bits.
Qed.

Lemma upd_put b w f lo n v : (w < List.length b)%nat ->
  (forall y, f y = replace_bits y (N.ones n) lo v) -> upd b w f = Val (put b (Seg w lo n) v).
Proof. intros H E. rewrite upd_nth by auto. unfold put. cbn [sg_w sg_lo sg_n]. now rewrite E. Qed.

Lemma upd_bit32 b w i (v : bool) : (w < List.length b)%nat ->
  upd b w (fun y => set_bit32 y i v) = Val (put b (Seg w (31 - i) 1) (N.b2n v)).
Proof. intros. apply upd_put; auto. Qed.
Lemma upd_crumb32 b w i v : (w < List.length b)%nat ->
  upd b w (fun y => set_crumb32 y i v) = Val (put b (Seg w (30 - i * 2) 2) v).
Proof. intros. apply upd_put; auto. Qed.
Lemma upd_nibble32 b w i v : (w < List.length b)%nat ->
  upd b w (fun y => set_nibble32 y i v) = Val (put b (Seg w (28 - i * 4) 4) v).
Proof. intros. apply upd_put; auto. Qed.
Lemma upd_septet32 b w i v : (w < List.length b)%nat ->
  upd b w (fun y => set_septet32 y i v) = Val (put b (Seg w (24 - i * 8) 7) v).
Proof. intros. apply upd_put; auto. Qed.
Lemma upd_octet32 b w i v : (w < List.length b)%nat ->
  upd b w (fun y => set_octet32 y i v) = Val (put b (Seg w (24 - i * 8) 8) v).
Proof. intros. apply upd_put; auto. Qed.
Lemma upd_word32 b w i v : (w < List.length b)%nat ->
  upd b w (fun y => set_word32 y i v) = Val (put b (Seg w (16 - i * 16) 16) v).
Proof. intros. apply upd_put; auto. Qed.
Lemma upd_nibble8 b w i v : (w < List.length b)%nat ->
  upd b w (fun y => set_nibble8 y i v) = Val (put b (Seg w (4 - i * 4) 4) v).
Proof. intros. apply upd_put; auto. Qed.
Lemma upd_septet8 b w v : (w < List.length b)%nat ->
  upd b w (fun y => set_septet8 y v) = Val (put b (Seg w 0 7) v).
Proof.
  intros. apply upd_put; auto. intros y. unfold set_septet8, replace_bits.
  now rewrite !N.shiftl_0_r.
Qed.
Lemma upd_low20 b w v : (w < List.length b)%nat ->
  upd b w (fun y => N.lor (N.ldiff y 0x000FFFFF) v) = Val (put b (Seg w 0 20) v).
Proof.
  intros. apply upd_put; auto. intros y. unfold replace_bits. now rewrite !N.shiftl_0_r.
Qed.
Lemma upd_full u b w v : wf_buf u b -> (w < List.length b)%nat -> v < 2 ^ unit_bits u ->
  upd b w (fun _ => v) = Val (put b (Seg w 0 (unit_bits u)) v).
Proof.
  intros Hwf Hw Hv. rewrite upd_nth by auto. unfold put. cbn [sg_w sg_lo sg_n].
  rewrite replace_full; auto. now apply wf_nth.
Qed.

Lemma fits_lt k x : fits k x = true -> x < 2 ^ k.
Proof. unfold fits. apply N.ltb_lt. Qed.

Lemma b2n_lt2 x : N.b2n x < 2 ^ 1.
Proof. now destruct x. Qed.

Lemma b2n_flag x : (N.b2n x =? 1) = x.
Proof. now destruct x. Qed.

Lemma mod128_lt x : x mod 128 < 2 ^ 7.
Proof. apply N.mod_lt. discriminate. Qed.

Lemma u14_to_spec x : u14_to_u7s x = [x mod 128; (x / 128) mod 128].
Proof.
  unfold u14_to_u7s. rewrite !byte_of_mod, N.shiftr_div_pow2. reflexivity.
Qed.

Lemma some_inj {A} (x y : A) : Some x = Some y -> x = y.
Proof. now intros [= ->]. Qed.

Ltac len := first [assumption | lia].

(** Rewrite a chain of [upd]s into [put]s. *)
Ltac upds :=
  repeat (first
    [ rewrite upd_bit32 by (rewrite ?put_length; len)
    | rewrite upd_crumb32 by (rewrite ?put_length; len)
    | rewrite upd_nibble32 by (rewrite ?put_length; len)
    | rewrite upd_septet32 by (rewrite ?put_length; len)
    | rewrite upd_octet32 by (rewrite ?put_length; len)
    | rewrite upd_word32 by (rewrite ?put_length; len)
    | rewrite upd_nibble8 by (rewrite ?put_length; len)
    | rewrite upd_septet8 by (rewrite ?put_length; len)
    | rewrite upd_low20 by (rewrite ?put_length; len) ]; cbn [bind]).

Ltac open_hyps :=
  unfold wire_ok, wire_in in *;
  cbn [occupies forallb pairwise_disjoint andb] in *;
  cbn [sg_w sg_lo sg_n] in *;
  repeat match goal with
  | H : _ && _ = true |- _ => apply andb_prop in H; destruct H
  | H : fits _ _ = true |- _ => apply fits_lt in H
  | H : (_ <? _)%nat = true |- _ => apply Nat.ltb_lt in H
  | H : true = true |- _ => clear H
  end.

Ltac seg_facts :=
  cbn [map fst forallb pairwise_disjoint andb];
  repeat match goal with H : seg_disjoint ?a ?b = true |- context [seg_disjoint ?a ?b] => rewrite H
         | H : seg_fits ?a ?b = true |- context [seg_fits ?a ?b] => rewrite H end;
  try reflexivity.

Ltac do_puts u w b v ps :=
  eexists; split; [reflexivity|];
  apply (puts_written u w b v ps);
  [ assumption
  | repeat (apply Forall_cons; [split; cbn [fst snd sg_w sg_n]; [len|]|]); try apply Forall_nil
  | seg_facts
  | seg_facts
  | cbn [map fst occupies]; intros ? Hin; cbn in *; tauto
  | let Hb := fresh "Hb" in intros Hb; cbn [decode] ].

Lemma ump_write_spec t m w b v :
  wf_buf U32 b -> ump_wire t m = Some w -> wire_ok U32 w = true ->
  wire_in (List.length b) w = true -> has_type (sty_ty t) v = true ->
  exists b', ump_write t m b v = Val b' /\ written U32 w b v b'.
Proof.
  unfold ump_wire, ump_write. intros Hwf Hw Hok Hin Ht.
  destruct (lookup4 m (ump_table t)) as [[k i]|]; [|discriminate].
  destruct t; try discriminate; apply some_inj in Hw; subst w; destruct v; cbn [sty_ty has_type] in Ht; try discriminate;
    open_hyps.
  - upds. do_puts U32 (Flag (Seg k (31 - i) 1)) b (VBool b0) [(Seg k (31 - i) 1, N.b2n b0)].
    + apply b2n_lt2.
    + rewrite (Hb _ (N.b2n b0)) by (now left). now rewrite b2n_flag.
  - upds. do_puts U32 (Number (Seg k (28 - i * 4) 4)) b (VNum n) [(Seg k (28 - i * 4) 4, n)]; auto.
    rewrite (Hb _ n) by (now left). reflexivity.
  - upds. do_puts U32 (Number (Seg k (24 - i * 8) 7)) b (VNum n) [(Seg k (24 - i * 8) 7, n)]; auto.
    rewrite (Hb _ n) by (now left). reflexivity.
  - upds. do_puts U32 (Number (Seg k (24 - i * 8) 8)) b (VNum n) [(Seg k (24 - i * 8) 8, n)]; auto.
    rewrite (Hb _ n) by (now left). reflexivity.
  - rewrite u14_to_spec. upds.
    do_puts U32 (Septets (Seg k (24 - 2 * i * 8) 7) (Seg k (24 - (2 * i + 1) * 8) 7)) b (VNum n)
      [(Seg k (24 - 2 * i * 8) 7, n mod 128); (Seg k (24 - (2 * i + 1) * 8) 7, (n / 128) mod 128)];
      auto using mod128_lt.
    rewrite (Hb _ (n mod 128)) by (now left).
    rewrite (Hb _ ((n / 128) mod 128)) by (right; now left).
    now rewrite septets_join.
  - upds. do_puts U32 (Number (Seg k (16 - i * 16) 16)) b (VNum n) [(Seg k (16 - i * 16) 16, n)]; auto.
    rewrite (Hb _ n) by (now left). reflexivity.
  - rewrite (upd_full U32) by (auto; lia).
    do_puts U32 (Number (Seg k 0 32)) b (VNum n) [(Seg k 0 32, n)]; auto.
    rewrite (Hb _ n) by (now left). reflexivity.
  - destruct l as [|x0 [|x1 [|x2 [|]]]]; try discriminate. open_hyps. upds.
    do_puts U32 (Array [Seg k (24 - i * 8) 7; Seg k (24 - (i + 1) * 8) 7; Seg k (24 - (i + 2) * 8) 7])
      b (VNums [x0; x1; x2])
      [(Seg k (24 - i * 8) 7, x0); (Seg k (24 - (i + 1) * 8) 7, x1); (Seg k (24 - (i + 2) * 8) 7, x2)];
      auto.
    cbn [map]. rewrite (Hb _ x0) by (now left). rewrite (Hb _ x1) by (right; now left).
    rewrite (Hb _ x2) by (right; right; now left). reflexivity.
  - destruct l as [|x0 [|x1 [|x2 [|x3 [|]]]]]; try discriminate. open_hyps. upds.
    do_puts U32 (Array [Seg k (24 - i * 8) 7; Seg k (24 - (i + 1) * 8) 7; Seg k (24 - (i + 2) * 8) 7;
                        Seg k (24 - (i + 3) * 8) 7])
      b (VNums [x0; x1; x2; x3])
      [(Seg k (24 - i * 8) 7, x0); (Seg k (24 - (i + 1) * 8) 7, x1); (Seg k (24 - (i + 2) * 8) 7, x2);
       (Seg k (24 - (i + 3) * 8) 7, x3)]; auto.
    cbn [map]. rewrite (Hb _ x0) by (now left). rewrite (Hb _ x1) by (right; now left).
    rewrite (Hb _ x2) by (right; right; now left).
    rewrite (Hb _ x3) by (right; right; right; now left). reflexivity.
Qed.

Lemma bytes_write_spec t m w b v :
  wf_buf U8 b -> bytes_wire t m = Some w -> wire_ok U8 w = true ->
  wire_in (List.length b) w = true -> has_type (sty_ty t) v = true ->
  exists b', bytes_write t m b v = Val b' /\ written U8 w b v b'.
Proof.
  unfold bytes_wire, bytes_write. intros Hwf Hw Hok Hin Ht.
  destruct (lookup3 m (bytes_table t)) as [[k i]|]; [|discriminate].
  destruct t; try discriminate; apply some_inj in Hw; subst w; destruct v; cbn [sty_ty has_type] in Ht; try discriminate;
    open_hyps.
  - upds. do_puts U8 (Number (Seg k (4 - i * 4) 4)) b (VNum n) [(Seg k (4 - i * 4) 4, n)]; auto.
    rewrite (Hb _ n) by (now left). reflexivity.
  - upds. do_puts U8 (Number (Seg k 0 7)) b (VNum n) [(Seg k 0 7, n)]; auto.
    rewrite (Hb _ n) by (now left). reflexivity.
  - rewrite u14_to_spec. upds.
    do_puts U8 (Septets (Seg k 0 7) (Seg (k + 1) 0 7)) b (VNum n)
      [(Seg k 0 7, n mod 128); (Seg (k + 1) 0 7, (n / 128) mod 128)]; auto using mod128_lt.
    rewrite (Hb _ (n mod 128)) by (now left).
    rewrite (Hb _ ((n / 128) mod 128)) by (right; now left).
    now rewrite septets_join.
Qed.

(** *** Codes of enumerated values *)

Definition code_of_ok (k : kind) (n : N) (v : value) (c : N) : Prop :=
  c < 2 ^ n /\ assoc c (codes k) = Some v.

Lemma tonic_code t : code_of_ok KTonic 4 (VTonic t) (tonic_into t).
Proof. destruct t; split; reflexivity. Qed.
Lemma chord_sf_code t : code_of_ok KChordSF 4 (VChordSF t) (chord_sf_into t).
Proof. destruct t; split; reflexivity. Qed.
Lemma chord_type_code t : code_of_ok KChordType 8 (VChordType t) (chord_type_into t).
Proof. destruct t; split; reflexivity. Qed.
Lemma ui_hint_code t : code_of_ok KUiHint 2 (VUiHint t) (ui_hint_into t).
Proof. destruct t; split; reflexivity. Qed.
Lemma port_code t : code_of_ok KPort 2 (VPort t) (port_into t).
Proof. destruct t as [[]|]; split; reflexivity. Qed.
Lemma direction_code t : code_of_ok KDirection 2 (VDir t) (direction_into t).
Proof. destruct t; split; reflexivity. Qed.

Lemma alteration_code t : has_type TyAlt (VAlt t) = true ->
  code_of_ok KAlteration 8 (VAlt t) (alteration_into t).
Proof.
  destruct t as [[d|d|d|d]|]; [| | | |split; reflexivity];
    cbn [has_type]; intros H; apply fits_lt in H; revert d H;
    match goal with |- forall n, n < _ -> @?P n =>
      apply (all_below P 16); cbn; repeat constructor end.
Qed.

Lemma key_sf_code t : has_type TyKeySF (VKeySF t) = true -> representable (VKeySF t) = true ->
  exists c, key_sf_into t = Val c /\ code_of_ok KKeySF 4 (VKeySF t) c.
Proof.
  destruct t as [d|d|]; cbn [has_type representable]; intros H Hr.
  - apply fits_lt in H; revert d H Hr;
    match goal with |- forall n, n < _ -> @?P n =>
      apply (all_below P 8); cbn; repeat constructor end;
      intros; try discriminate; eexists; split; try split; reflexivity.
  - apply fits_lt in H; clear Hr; revert d H;
    match goal with |- forall n, n < _ -> @?P n =>
      apply (all_below P 8); cbn; repeat constructor end;
      intros; try discriminate; eexists; split; try split; reflexivity.
  - eexists; split; try split; reflexivity.
Qed.

Lemma controller_code c : has_type TyCtl (VCtl c) = true -> representable (VCtl c) = true ->
  exists i d, controller_to c = Val (i, d) /\ i < 2 ^ 8 /\ d < 2 ^ 32 /\ assoc i (rpnc d) = Some c.
Proof.
  destruct c as [d|d|d|d|d|d|d|d|d|d|d|d|d|d|d|d|d|d|d|n d|n d];
    cbn [has_type representable controller_fits]; intros H Hr; try discriminate;
    try (apply fits_lt in H; do 2 eexists; repeat split; try eassumption; reflexivity).
  - apply andb_prop in H as [_ H]. apply fits_lt in H.
    apply andb_prop in Hr as [Hr1 Hr2].
    assert (Hn : n < 11) by lia. revert n Hn Hr1 Hr2.
    match goal with |- forall n, n < _ -> @?P n => apply (all_below P 11); cbn [map seq N.of_nat] end.
    cbn [Pos.of_succ_nat Pos.succ].
    repeat constructor; intros; try discriminate;
      do 2 eexists; repeat split; try eassumption; reflexivity.
  - apply andb_prop in H as [_ H]. apply fits_lt in H.
    apply andb_prop in Hr as [Hr1 Hr2].
    assert (Hn : n < 5) by lia. revert n Hn Hr1 Hr2.
    match goal with |- forall n, n < _ -> @?P n => apply (all_below P 5); cbn [map seq N.of_nat] end.
    cbn [Pos.of_succ_nat Pos.succ].
    repeat constructor; intros; try discriminate;
      do 2 eexists; repeat split; try eassumption; reflexivity.
Qed.

Lemma code_write b w lo n k v c :
  wf_buf U32 b -> wire_ok U32 (Code (Seg w lo n) k) = true -> (w < List.length b)%nat ->
  code_of_ok k n v c -> written U32 (Code (Seg w lo n) k) b v (put b (Seg w lo n) c).
Proof.
  intros Hwf Hok Hw [Hc Ha]. open_hyps.
  apply (puts_written U32 (Code (Seg w lo n) k) b v [(Seg w lo n, c)]); auto.
  - repeat constructor; auto.
  - cbn [map fst forallb andb]. now rewrite andb_true_r.
  - intros x. cbn. tauto.
  - intros Hb. cbn [decode]. rewrite (Hb _ c) by (now left). exact Ha.
Qed.

(** Properties whose setter reaches beyond the first packet. *)
Definition striped (p : prop) : bool :=
  match p with PStreamStatus _ | PStreamFormats => true | _ => false end.

Ltac code_case tbl m H lemma :=
  let k := fresh "k" in let i := fresh "i" in
  unfold code_wire in H; unfold at_table;
  destruct (lookup4 m tbl) as [[k i]|]; [|discriminate];
  apply some_inj in H; subst;
  match goal with Hin : wire_in _ _ = true |- _ =>
    unfold wire_in in Hin; cbn [occupies forallb sg_w] in Hin end;
  upds; eexists; (split; [reflexivity|]); apply code_write; auto; [lia|];
  apply lemma; auto.

Lemma prop_write_spec u p w b v :
  wf_buf u b -> wire_of u p = Some w -> wire_ok u w = true ->
  wire_in (List.length b) w = true -> has_type (prop_ty p) v = true ->
  representable v = true -> striped p = false ->
  exists b', prop_write u p b v = Val b' /\ written u w b v b'.
Proof.
  intros Hwf Hw Hok Hin Ht Hr Hs.
  destruct p; cbn [striped] in Hs; try discriminate; clear Hs;
    cbn [wire_of prop_write prop_ty] in *.
  - (* PUmpType *)
    destruct v; cbn in Ht; try discriminate. destruct u; apply some_inj in Hw; subst; open_hyps.
    + eexists; split; [reflexivity|]. repeat split; auto.
    + upds. do_puts U32 (Fixed (Seg 0 28 4) t) b VUnit [(Seg 0 28 4, t)]; [lia|].
      rewrite (Hb _ t) by (now left). now rewrite N.eqb_refl.
  - (* PCvStatus *)
    destruct v; cbn in Ht; try discriminate. destruct u; apply some_inj in Hw; subst; open_hyps.
    + upds. do_puts U8 (Fixed (Seg 0 4 4) s) b VUnit [(Seg 0 4 4, s)]; [lia|].
      rewrite (Hb _ s) by (now left). now rewrite N.eqb_refl.
    + upds. do_puts U32 (Fixed (Seg 0 20 4) s) b VUnit [(Seg 0 20 4, s)]; [lia|].
      rewrite (Hb _ s) by (now left). now rewrite N.eqb_refl.
  - (* PSysStatus *)
    destruct v; cbn in Ht; try discriminate. destruct u; apply some_inj in Hw; subst; open_hyps.
    + rewrite (upd_full U8) by (cbn [unit_bits]; auto; lia).
      do_puts U8 (Fixed (Seg 0 0 8) s) b VUnit [(Seg 0 0 8, s)]; [lia|].
      rewrite (Hb _ s) by (now left). now rewrite N.eqb_refl.
    + upds. do_puts U32 (Fixed (Seg 0 16 8) s) b VUnit [(Seg 0 16 8, s)]; [lia|].
      rewrite (Hb _ s) by (now left). now rewrite N.eqb_refl.
  - (* PHybrid *)
    destruct u; [apply (bytes_write_spec t mb) | apply (ump_write_spec t mu)]; auto.
  - (* PUmp *)
    destruct u; [|now apply (ump_write_spec t m)].
    apply some_inj in Hw; subst. eexists; split; [reflexivity|]. repeat split; auto.
  - (* PTime16 *)
    destruct u; [discriminate|]. destruct v; cbn [has_type] in Ht; try discriminate.
    apply some_inj in Hw; subst; open_hyps. upds.
    do_puts U32 (Number (Seg 0 0 16)) b (VNum n) [(Seg 0 0 16, n)]; auto.
    rewrite (Hb _ n) by (now left). reflexivity.
  - (* PTime20 *)
    destruct u; [discriminate|]. destruct v; cbn [has_type] in Ht; try discriminate.
    apply some_inj in Hw; subst; open_hyps. upds.
    do_puts U32 (Number (Seg 0 0 20)) b (VNum n) [(Seg 0 0 20, n)]; auto.
    rewrite (Hb _ n) by (now left). reflexivity.
  - (* PAttribute *)
    destruct u; [discriminate|]. destruct v; cbn [has_type] in Ht; try discriminate.
    apply some_inj in Hw; subst; open_hyps.
    assert (P2 : forall b', List.length b' = List.length b -> prefix b' 2 = Val (firstn 2 b')).
    { intros b' E. unfold prefix. rewrite E. destruct (Nat.leb_spec 2 (List.length b)); auto; lia. }
    destruct o as [[d|d|d]|]; cbn [attribute_fits] in Ht; open_hyps; upds;
      rewrite P2 by (now rewrite !put_length); cbn [bind].
    + do_puts U32 (Attribute (Seg 0 0 8) (Seg 1 0 16)) b (VAttr (Some (ManufacturerSpecific d)))
        [(Seg 0 0 8, 1); (Seg 1 0 16, d)]; auto; [reflexivity|].
      rewrite (Hb _ 1) by (now left). rewrite (Hb _ d) by (right; now left). reflexivity.
    + do_puts U32 (Attribute (Seg 0 0 8) (Seg 1 0 16)) b (VAttr (Some (ProfileSpecific d)))
        [(Seg 0 0 8, 2); (Seg 1 0 16, d)]; auto; [reflexivity|].
      rewrite (Hb _ 2) by (now left). rewrite (Hb _ d) by (right; now left). reflexivity.
    + do_puts U32 (Attribute (Seg 0 0 8) (Seg 1 0 16)) b (VAttr (Some (Pitch7_9 d)))
        [(Seg 0 0 8, 3); (Seg 1 0 16, d)]; auto; [reflexivity|].
      rewrite (Hb _ 3) by (now left). rewrite (Hb _ d) by (right; now left). reflexivity.
    + do_puts U32 (Attribute (Seg 0 0 8) (Seg 1 0 16)) b (VAttr None) [(Seg 0 0 8, 0)];
        auto; [reflexivity|].
      rewrite (Hb _ 0) by (now left). reflexivity.
  - (* PController *)
    destruct u; [discriminate|]. destruct v; try discriminate.
    apply some_inj in Hw; subst; open_hyps.
    destruct (controller_code c Ht Hr) as (i & d & E & Hi & Hd & Ha).
    rewrite E. cbn [bind fst snd]. upds.
    rewrite (upd_full U32); [| |rewrite put_length; lia|exact Hd].
    2:{ apply put_wf; auto; cbn; lia. }
    do_puts U32 (Controller (Seg 0 0 8) (Seg 1 0 32)) b (VCtl c)
      [(Seg 0 0 8, i); (Seg 1 0 32, d)]; auto.
    rewrite (Hb _ i) by (now left). rewrite (Hb _ d) by (right; now left). now rewrite Ha.
  - (* PProgramBank *)
    destruct u; [discriminate|]. destruct v; cbn [has_type] in Ht; try discriminate.
    apply some_inj in Hw; subst; open_hyps.
    destruct o as [n|].
    + apply fits_lt in Ht. rewrite u14_to_spec. upds.
      pose proof (mod128_lt n). pose proof (mod128_lt (n / 128)).
      change (2 ^ 7) with 128 in *.
      do_puts U32 (Guarded (Seg 0 0 1) (Seg 1 8 7) (Seg 1 0 7)) b (VOptNum (Some n))
        [(Seg 1 8 8, n mod 128); (Seg 1 0 8, (n / 128) mod 128); (Seg 0 0 1, 1)];
        try (change (2 ^ 8) with 256; lia); try reflexivity.
      assert (B7 : forall b w lo, bits b (Seg w lo 7) = bits b (Seg w lo 8) mod 128)
        by (intros; now rewrite bits_mod128).
      rewrite (B7 _ 1%nat 8), (B7 _ 1%nat 0).
      rewrite (Hb _ 1) by (right; right; now left).
      rewrite (Hb _ (n mod 128)) by (now left).
      rewrite (Hb _ ((n / 128) mod 128)) by (right; now left).
      rewrite !N.mod_mod by discriminate.
      now rewrite septets_join.
    + upds. eexists; split; [reflexivity|].
      set (ps := [(Seg 0 0 1, 0); (Seg 1 0 16, 0)]).
      assert (Hok : puts_ok (List.length b) ps).
      { repeat (apply Forall_cons; [split; cbn [fst snd sg_w sg_n]; [lia|reflexivity]|]).
        apply Forall_nil. }
      split; [|split].
      * apply (only_changes_cover (map fst ps)); [|exact (puts_only_changes ps b Hok)].
        cbn. unfold in_seg. intros s x j [<-|[<-|[]]] [Hx Hj]; cbn in *.
        -- exists (Seg 0 0 1). split; auto.
        -- destruct (N.ltb_spec j 8).
           ++ exists (Seg 1 0 8). cbn. split; auto. split; auto. lia.
           ++ exists (Seg 1 8 8). cbn. split; auto. split; auto. lia.
      * exact (puts_wf U32 ps b Hwf Hok eq_refl).
      * cbn [decode]. change (put (put b _ _) _ _) with (puts b ps).
        rewrite (puts_bits ps b (Seg 0 0 1) 0); auto. now left.
  - (* PFlexStatus *)
    destruct u; [discriminate|]. destruct v; cbn in Ht; try discriminate.
    apply some_inj in Hw; subst; open_hyps. upds.
    do_puts U32 (Fixed (Seg 0 0 8) s) b VUnit [(Seg 0 0 8, s)]; [lia|].
    rewrite (Hb _ s) by (now left). now rewrite N.eqb_refl.
  - (* PFlexBank *)
    destruct u; [discriminate|]. destruct v; cbn in Ht; try discriminate.
    apply some_inj in Hw; subst; open_hyps. upds.
    do_puts U32 (Fixed (Seg 0 8 8) k) b VUnit [(Seg 0 8 8, k)]; [lia|].
    rewrite (Hb _ k) by (now left). now rewrite N.eqb_refl.
  - (* PFlexFormat *)
    destruct u; [discriminate|]. destruct v; cbn in Ht; try discriminate.
    apply some_inj in Hw; subst; open_hyps. upds.
    do_puts U32 (Fixed (Seg 0 22 2) f) b VUnit [(Seg 0 22 2, f)]; [lia|].
    rewrite (Hb _ f) by (now left). now rewrite N.eqb_refl.
  - (* POptChannel *)
    destruct u; [discriminate|]. destruct v; cbn [has_type] in Ht; try discriminate.
    apply some_inj in Hw; subst; open_hyps.
    destruct o as [c|]; open_hyps; upds.
    + do_puts U32 (OptChannel (Seg 0 20 2) (Seg 0 16 4)) b (VOptNum (Some c))
        [(Seg 0 20 2, 0); (Seg 0 16 4, c)]; auto; [reflexivity|].
      rewrite (Hb _ 0) by (now left). rewrite (Hb _ c) by (right; now left). reflexivity.
    + do_puts U32 (OptChannel (Seg 0 20 2) (Seg 0 16 4)) b (VOptNum None)
        [(Seg 0 20 2, 1); (Seg 0 16 4, 0)]; auto; try reflexivity.
      rewrite (Hb _ 1) by (now left). reflexivity.
  - (* PNoChannel *)
    destruct u; [discriminate|]. destruct v; cbn in Ht; try discriminate.
    apply some_inj in Hw; subst; open_hyps. upds.
    do_puts U32 (GroupAddress (Seg 0 20 2) (Seg 0 16 4)) b VUnit
      [(Seg 0 20 2, 1); (Seg 0 16 4, 0)]; auto; try reflexivity.
    rewrite (Hb _ 1) by (now left). reflexivity.
  - (* PTonic *)
    destruct u; [discriminate|]. destruct v; cbn [has_type] in Ht; try discriminate.
    code_case tonic_table m Hw tonic_code.
  - (* PKeySF *)
    destruct u; [discriminate|]. destruct v as [| | | | | | | |k| | | | | |]; try discriminate.
    apply some_inj in Hw; subst. destruct (key_sf_code k Ht Hr) as (c & E & Hc).
    unfold wire_in in Hin; cbn [occupies forallb sg_w] in Hin.
    rewrite E; cbn [bind]. upds. eexists; split; [reflexivity|]. apply code_write; auto. lia.
  - (* PChordSF *)
    destruct u; [discriminate|]. destruct v; cbn [has_type] in Ht; try discriminate.
    code_case chord_sf_table m Hw chord_sf_code.
  - (* PChordType *)
    destruct u; [discriminate|]. destruct v; cbn [has_type] in Ht; try discriminate.
    code_case chord_type_table m Hw chord_type_code.
  - (* PAlteration *)
    destruct u; [discriminate|]. destruct v; try discriminate.
    code_case alteration_table m Hw alteration_code.
  - (* PUiHint *)
    destruct u; [discriminate|]. destruct v; cbn [has_type] in Ht; try discriminate.
    apply some_inj in Hw; subst. unfold wire_in in Hin; cbn [occupies forallb sg_w] in Hin.
    upds. eexists; split; [reflexivity|]. apply code_write; auto; [lia|]. apply ui_hint_code.
  - (* PPort *)
    destruct u; [discriminate|]. destruct v; cbn [has_type] in Ht; try discriminate.
    apply some_inj in Hw; subst. unfold wire_in in Hin; cbn [occupies forallb sg_w] in Hin.
    upds. eexists; split; [reflexivity|]. apply code_write; auto; [lia|]. apply port_code.
  - (* PDirection *)
    destruct u; [discriminate|]. destruct v; cbn [has_type] in Ht; try discriminate.
    apply some_inj in Hw; subst. unfold wire_in in Hin; cbn [occupies forallb sg_w] in Hin.
    upds. eexists; split; [reflexivity|]. apply code_write; auto; [lia|]. apply direction_code.
Qed.

(** A field's value depends only on its own bits. *)
Lemma decode_agree u w b b' : wire_ok u w = true ->
  (forall s, In s (occupies w) -> bits b' s = bits b s) -> decode w b' = decode w b.
Proof.
  destruct w; intros Hok H;
  try (cbn [occupies decode] in *;
       repeat match goal with
       | |- context [bits b' ?s] => rewrite (H s) by (cbn; auto)
       end; reflexivity).
  - cbn [decode]. do 2 f_equal. apply map_ext_in. auto.
  - destruct lsb as [w1 l1 n1], msb as [w2 l2 n2]. open_hyps.
    cbn [decode occupies sg_w sg_lo] in *.
    assert (n1 = 7) by lia. assert (n2 = 7) by lia. subst.
    rewrite (H valid) by (now left).
    rewrite <- (bits_mod128 b' w1), <- (bits_mod128 b' w2).
    rewrite (H (Seg w1 l1 8)) by (right; now left).
    rewrite (H (Seg w2 l2 8)) by (right; right; now left).
    now rewrite !bits_mod128.
Qed.

Lemma decode_frame u w b b' l : wire_ok u w = true ->
  only_changes l b b' -> all_disjoint (occupies w) l = true -> decode w b' = decode w b.
Proof.
  intros Hok Hc Hd. apply (decode_agree u); auto. intros s Hs.
  eapply only_changes_bits; eauto. unfold all_disjoint in Hd. rewrite forallb_forall in Hd. auto.
Qed.
