(** What every [validate] accepts. *)
From Coq Require Import NArith List String Bool Arith Lia ZifyBool ZifyNat ZifyN.
From Verif Require Import Base BitOps Encode7 Values Schema Helpers Props SpecLayout SpecFixed
  BitLemmas ListLemmas PropLemmas PropWrite.
Import ListNotations.
Local Open Scope N_scope.

(** Properties whose [validate] looks at every packet of the slice. *)
Definition vstriped (p : prop) : bool :=
  match p with
  | PFlexStatus _ | PFlexBank _ | PStreamStatus _ | PStreamFormats => true
  | _ => false
  end.

Definition accepted (r : outcome (res unit)) : Prop := r = Val (Ok tt).
Definition no_panic {A} (r : outcome A) : Prop := r <> Panic.

Lemma check_ok b e : check b e = Ok tt <-> b = true.
Proof. destruct b; cbn; split; congruence. Qed.

Definition is_ok {A} (r : res A) : bool := match r with Ok _ => true | Err _ => false end.

Lemma is_ok_tt (r : res unit) : is_ok r = true <-> r = Ok tt.
Proof. destruct r as [[]|]; cbn; split; congruence. Qed.

Definition has {A} (o : option A) : bool := match o with Some _ => true | None => false end.

Lemma attribute_ok_codes d : forall n, n < 256 -> attribute_type_ok n =
  has (assoc n [ (0, VAttr None); (1, VAttr (Some (ManufacturerSpecific d)));
                 (2, VAttr (Some (ProfileSpecific d))); (3, VAttr (Some (Pitch7_9 d))) ]).
Proof. finite 256%nat. Qed.
Lemma controller_ok_codes d : forall n, n < 256 -> controller_index_ok n =
  has (option_map VCtl (assoc n (rpnc d))).
Proof. finite 256%nat. Qed.
Lemma tonic_ok_codes : forall n, n < 16 -> is_ok (res_unit (tonic_from n)) = has (assoc n (codes KTonic)).
Proof. finite 16%nat. Qed.
Lemma chord_sf_ok_codes : forall n, n < 16 ->
  is_ok (res_unit (chord_sf_from n)) = has (assoc n (codes KChordSF)).
Proof. finite 16%nat. Qed.
Lemma chord_type_ok_codes : forall n, n < 256 ->
  is_ok (res_unit (chord_type_from n)) = has (assoc n (codes KChordType)).
Proof. finite 256%nat. Qed.
Lemma alteration_ok_codes : forall n, n < 256 ->
  is_ok (res_unit (alteration_from n)) = has (assoc n (codes KAlteration)).
Proof. finite 256%nat. Qed.
Lemma key_sf_ok_codes : forall n, n < 16 -> true = has (assoc n (codes KKeySF)).
Proof. finite 16%nat. Qed.
Lemma ui_hint_ok_codes : forall n, n < 4 -> true = has (assoc n (codes KUiHint)).
Proof. finite 4%nat. Qed.
Lemma port_ok_codes : forall n, n < 4 -> port_ok n = has (assoc n (codes KPort)).
Proof. finite 4%nat. Qed.
Lemma direction_ok_codes : forall n, n < 4 ->
  direction_ok n = Val (has (assoc n (codes KDirection))).
Proof. finite 4%nat. Qed.

Lemma is_ok_check b e : is_ok (check b e) = b.
Proof. now destruct b. Qed.

Lemma has_if (b : bool) {A} (x : A) : has (if b then Some x else None) = b.
Proof. now destruct b. Qed.

Ltac bl := match goal with |- bits ?b ?s < _ => apply (bits_lt b s) end.

Ltac code_valid tbl m H lemma :=
  let k := fresh "k" in let i := fresh "i" in
  unfold code_wire in H; unfold at_table;
  destruct (lookup4 m tbl) as [[k i]|]; [|discriminate];
  apply some_inj in H; subst;
  match goal with Hin : wire_in _ _ = true |- _ =>
    unfold wire_in in Hin; cbn [occupies forallb sg_w] in Hin end;
  rewrite idx_nth by lia; cbn [bind]; rewrite ?nibble32_bits, ?octet32_bits;
  eexists; (split; [reflexivity|]); apply lemma; bl.

Lemma prop_validate_spec u p w b :
  wf_buf u b -> wire_of u p = Some w -> wire_in (List.length b) w = true -> vstriped p = false ->
  exists r, prop_validate u p b = Val r /\ is_ok r = has (decode w b).
Proof.
  intros Hwf Hw Hin Hs.
  destruct p; cbn [vstriped] in Hs; try discriminate; clear Hs; cbn [wire_of prop_validate] in *.
  - destruct u; apply some_inj in Hw; subst; open_hyps.
    + eexists; split; reflexivity.
    + rewrite idx_nth by lia. cbn [bind]. eexists; split; [reflexivity|].
      cbn [decode]. now rewrite is_ok_check, has_if, nibble32_bits.
  - destruct u; apply some_inj in Hw; subst; open_hyps;
      rewrite idx_nth by lia; cbn [bind]; eexists; (split; [reflexivity|]);
      cbn [decode]; rewrite is_ok_check, has_if, ?nibble32_bits, ?nibble8_bits; reflexivity.
  - destruct u; apply some_inj in Hw; subst; open_hyps;
      rewrite idx_nth by lia; cbn [bind]; eexists; (split; [reflexivity|]);
      cbn [decode sys_status]; rewrite is_ok_check, has_if, ?octet32_bits; [|reflexivity].
    rewrite (bits_full b 0 8); [reflexivity|apply (wf_nth U8 b 0 Hwf)].
  - eexists; split; [reflexivity|].
    destruct u; unfold ump_wire, bytes_wire in Hw.
    + destruct (lookup3 _ _) as [[? ?]|]; [|discriminate].
      destruct t; try discriminate; apply some_inj in Hw; subst; reflexivity.
    + destruct (lookup4 _ _) as [[? ?]|]; [|discriminate].
      apply some_inj in Hw; subst. destruct t; reflexivity.
  - eexists; split; [reflexivity|].
    destruct u; unfold ump_wire in Hw.
    + apply some_inj in Hw; subst; reflexivity.
    + destruct (lookup4 _ _) as [[? ?]|]; [|discriminate].
      apply some_inj in Hw; subst. destruct t; reflexivity.
  - destruct u; [discriminate|]. apply some_inj in Hw; subst. eexists; split; reflexivity.
  - destruct u; [discriminate|]. apply some_inj in Hw; subst. eexists; split; reflexivity.
  - destruct u; [discriminate|]. apply some_inj in Hw; subst; open_hyps.
    rewrite idx_nth by lia; cbn [bind]; eexists; split; [reflexivity|].
    cbn [decode]. rewrite is_ok_check, octet32_bits. apply attribute_ok_codes. bl.
  - destruct u; [discriminate|]. apply some_inj in Hw; subst; open_hyps.
    rewrite idx_nth by lia; cbn [bind]; eexists; split; [reflexivity|].
    cbn [decode]. rewrite is_ok_check, octet32_bits. apply controller_ok_codes. bl.
  - destruct u; [discriminate|]. apply some_inj in Hw; subst. eexists; split; reflexivity.
  - destruct u; [discriminate|]. apply some_inj in Hw; subst; open_hyps.
    rewrite idx_nth by lia; cbn [bind]; eexists; split; [reflexivity|].
    cbn [decode]. now rewrite is_ok_check, has_if, crumb32_bits.
  - destruct u; [discriminate|]. apply some_inj in Hw; subst. eexists; split; reflexivity.
  - destruct u; [discriminate|]. apply some_inj in Hw; subst; open_hyps.
    rewrite idx_nth by lia; cbn [bind]; eexists; split; [reflexivity|].
    cbn [decode]. rewrite is_ok_check, crumb32_bits.
    change (30 - 5 * 2) with 20. now destruct (bits b (Seg 0 20 2) =? 0).
  - destruct u; [discriminate|]. code_valid tonic_table m Hw tonic_ok_codes.
  - destruct u; [discriminate|]. apply some_inj in Hw; subst. eexists; split; [reflexivity|].
    apply key_sf_ok_codes. bl.
  - destruct u; [discriminate|]. code_valid chord_sf_table m Hw chord_sf_ok_codes.
  - destruct u; [discriminate|]. code_valid chord_type_table m Hw chord_type_ok_codes.
  - destruct u; [discriminate|]. code_valid alteration_table m Hw alteration_ok_codes.
  - destruct u; [discriminate|]. apply some_inj in Hw; subst. eexists; split; [reflexivity|].
    apply ui_hint_ok_codes. bl.
  - destruct u; [discriminate|]. apply some_inj in Hw; subst; open_hyps.
    rewrite idx_nth by lia; cbn [bind]; eexists; split; [reflexivity|].
    rewrite is_ok_check, crumb32_bits. apply port_ok_codes. bl.
  - destruct u; [discriminate|]. apply some_inj in Hw; subst; open_hyps.
    rewrite idx_nth by lia; cbn [bind]. rewrite crumb32_bits, direction_ok_codes by bl.
    cbn [bind]. eexists; split; [reflexivity|]. now rewrite is_ok_check.
Qed.

(** *** Striped properties *)

Lemma heads_forallb (f : N -> bool) b :
  forallb (fun c => f (hd0 c)) (chunks_exact 4 b) = true <->
  forall i, (i < List.length b / 4)%nat -> f (nth (4 * i) b 0) = true.
Proof.
  rewrite chunks_exact_spec by lia. rewrite forallb_map, forallb_forall. split.
  - intros H i Hi. rewrite <- hd0_chunk by lia. apply H. apply in_seq. lia.
  - intros H i Hi. apply in_seq in Hi. rewrite hd0_chunk by lia. apply H. lia.
Qed.

Lemma flex_status_validate s b : exists r,
  prop_validate U32 (PFlexStatus s) b = Val r /\
  (is_ok r = true <-> forall i, (i < List.length b / 4)%nat -> bits b (Seg (4 * i) 0 8) = s).
Proof.
  eexists; split; [reflexivity|]. rewrite is_ok_check, (heads_forallb (fun x => octet32 x 3 =? s)).
  split; intros H i Hi; specialize (H i Hi).
  - rewrite octet32_bits in H. now apply N.eqb_eq.
  - rewrite octet32_bits. now apply N.eqb_eq.
Qed.

Lemma flex_bank_validate s b : exists r,
  prop_validate U32 (PFlexBank s) b = Val r /\
  (is_ok r = true <-> forall i, (i < List.length b / 4)%nat -> bits b (Seg (4 * i) 8 8) = s).
Proof.
  eexists; split; [reflexivity|]. rewrite is_ok_check, (heads_forallb (fun x => octet32 x 2 =? s)).
  split; intros H i Hi; specialize (H i Hi).
  - rewrite octet32_bits in H. now apply N.eqb_eq.
  - rewrite octet32_bits. now apply N.eqb_eq.
Qed.

Lemma stream_status_validate s b : exists r,
  prop_validate U32 (PStreamStatus s) b = Val r /\
  (is_ok r = true <-> forall i, (i < List.length b / 4)%nat -> bits b (Seg (4 * i) 16 10) = s).
Proof.
  eexists; split; [reflexivity|]. rewrite is_ok_check, (heads_forallb (fun x => stream_status x =? s)).
  split; intros H i Hi; specialize (H i Hi).
  - rewrite stream_status_bits in H. now apply N.eqb_eq.
  - rewrite stream_status_bits. now apply N.eqb_eq.
Qed.

Lemma check_rest_spec (fc fe : N -> bool) (g : nat -> N) a n : (0 < n)%nat ->
  check_rest fc fe (map (fun i => [g i]) (seq a n)) = Ok tt <->
  (forall i, (a <= i < a + n - 1)%nat -> fc (g i) = true) /\ fe (g (a + n - 1)%nat) = true.
Proof.
  revert a; induction n as [|n IH]; intros a Hn; [lia|].
  destruct n as [|n].
  - cbn. rewrite check_ok. replace (a + 1 - 1)%nat with a by lia. split.
    + intros H. split; auto. intros; lia.
    + tauto.
  - change (seq a (S (S n))) with (a :: seq (S a) (S n)).
    change (map (fun i => [g i]) (a :: seq (S a) (S n))) with
      ([g a] :: map (fun i => [g i]) (seq (S a) (S n))).
    change (check_rest fc fe ([g a] :: map (fun i => [g i]) (seq (S a) (S n)))) with
      (if fc (g a) then check_rest fc fe (map (fun i => [g i]) (seq (S a) (S n)))
       else Err "Expected Continue packet"%string).
    destruct (fc (g a)) eqn:E.
    + rewrite IH by lia. replace (S a + S n - 1)%nat with (a + S (S n) - 1)%nat by lia.
      split; intros [H1 H2]; split; auto; intros i Hi.
      * destruct (Nat.eq_dec i a) as [->|]; auto. apply H1. lia.
      * apply H1. lia.
    + split; [discriminate|]. intros [H _]. rewrite H in E by lia. discriminate.
Qed.

Lemma check_rest_heads fc fe l :
  check_rest fc fe l = check_rest fc fe (map (fun c => [hd0 c]) l).
Proof.
  induction l as [|c l IH]; auto. destruct l as [|d l]; auto.
  cbn [map]. cbn [map] in IH.
  change (check_rest fc fe (c :: d :: l)) with
    (if fc (hd0 c) then check_rest fc fe (d :: l) else Err "Expected Continue packet"%string).
  rewrite IH. reflexivity.
Qed.

Lemma leading_exists stride t b : exists k, leading stride t b k.
Proof.
  unfold leading.
  destruct (take_while_seq (fun i => bits b (Seg (stride * i) 28 4) =? t) 0
              ((List.length b + stride - 1) / stride)) as (k & H1 & _ & H2 & H3).
  exists k. split; [exact H1|]. split.
  - intros i Hi. specialize (H2 i Hi). cbn beta in H2. now apply N.eqb_eq in H2.
  - intros Hk. specialize (H3 Hk). cbn beta in H3. now apply N.eqb_neq in H3.
Qed.

Lemma leading_unique stride t b k k' : leading stride t b k -> leading stride t b k' -> k = k'.
Proof.
  unfold leading. intros (A1 & A2 & A3) (B1 & B2 & B3).
  destruct (Nat.lt_trichotomy k k') as [H|[H|H]]; auto; exfalso.
  - apply A3; [lia|]. now apply B2.
  - apply B3; [lia|]. now apply A2.
Qed.

Lemma validate_statuses_spec (b : list N) (fmt : N -> N) c s m e stride t k :
  (0 < stride)%nat -> leading stride t b k ->
  validate_statuses b (fun x => fmt x =? c) (fun x => fmt x =? s) (fun x => fmt x =? m)
    (fun x => fmt x =? e) stride t = Ok tt
  <-> framed (fun i => fmt (nth (stride * i) b 0)) c s m e k.
Proof.
  intros Hs Hl. unfold validate_statuses.
  assert (E : take_while (fun c0 => nibble32 (hd0 c0) 0 =? t) (chunks stride b)
              = map (fun i => chunk stride i b) (seq 0 k)).
  { rewrite chunks_spec by auto. rewrite take_while_map.
    rewrite (take_while_ext _ (fun i => bits b (Seg (stride * i) 28 4) =? t)).
    2:{ intros i _. rewrite hd0_chunk by auto. now rewrite nibble32_bits. }
    destruct (take_while_seq (fun i => bits b (Seg (stride * i) 28 4) =? t) 0
              ((List.length b + stride - 1) / stride)) as (k' & H1 & H0 & H2 & H3).
    rewrite H0. do 2 f_equal. eapply leading_unique; [|exact Hl]. split; [exact H1|]. split.
    - intros i Hi. specialize (H2 i Hi). cbn beta in H2. now apply N.eqb_eq in H2.
    - intros Hk. specialize (H3 Hk). cbn beta in H3. now apply N.eqb_neq in H3. }
  rewrite E. unfold framed.
  destruct k as [|[|k]].
  - cbn. split; [discriminate|]. intros [[? _]|[? _]]; lia.
  - cbn [seq map]. rewrite check_ok, hd0_chunk by auto. rewrite N.eqb_eq. split; [intros H; left; auto|].
    intros [[_ H]|[H _]]; auto. lia.
  - cbn [seq map]. rewrite hd0_chunk by auto.
    rewrite check_rest_heads.
    change (chunk stride 1 b :: map (fun i => chunk stride i b) (seq 2 k)) with
      (map (fun i => chunk stride i b) (seq 1 (S k))).
    rewrite map_map.
    rewrite (map_ext _ (fun i => [nth (stride * i) b 0])) by (intros; now rewrite hd0_chunk).
    destruct (N.eqb_spec (fmt (nth (stride * 0) b 0)) s) as [E0|E0].
    + rewrite check_rest_spec by lia.
      replace (1 + S k - 1)%nat with (S (S k) - 1)%nat by lia. rewrite N.eqb_eq. split.
      * intros [H1 H2]. right. repeat split; auto; [lia|].
        intros i Hi. apply N.eqb_eq. apply H1. lia.
      * intros [[? _]|(_ & _ & H1 & H2)]; [lia|]. split; auto.
        intros i Hi. apply N.eqb_eq. apply H1. lia.
    + split; [discriminate|]. intros [[? _]|(_ & H & _)]; [lia|congruence].
Qed.

Lemma stream_formats_validate_spec b k : leading 4 0xF b k ->
  exists r, prop_validate U32 PStreamFormats b = Val r /\
  (is_ok r = true <-> framed (fun i => bits b (Seg (4 * i) 26 2)) 0 1 2 3 k).
Proof.
  intros Hl. eexists; split; [reflexivity|]. rewrite is_ok_tt.
  unfold stream_formats_validate.
  rewrite (validate_statuses_spec b (fun x => crumb32 x 2) 0 1 2 3 4 0xF k) by (auto; lia).
  unfold framed. rewrite !crumb32_bits.
  split; (intros [H|(H1 & H2 & H3 & H4)]; [left; exact H|right; repeat split; auto; intros i Hi];
          specialize (H3 i Hi)); rewrite crumb32_bits in *; exact H3.
Qed.
