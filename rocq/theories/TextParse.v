(** Lemmas: parsing and reading arbitrary buffers as text messages. *)
From Coq Require Import NArith ZArith List String Bool Arith Lia Zify ZifyBool ZifyNat ZifyN.
From Verif Require Import Base BitOps BitLemmas ListLemmas Values Helpers Props Message SpecLayout SpecFixed
  PropLemmas PropValidate Sysex ByteView SysexLayout SysexBridge
  Text SpecSysex SpecText TextLemmas TextHeader TextFlex TextFlexMore TextUtf8.
Import ListNotations.
Local Open Scope nat_scope.

Lemma oct_slice b p o n : 16 * p + n <= 4 * List.length b -> o < n ->
  nth o (firstn n (skipn (16 * p) (all_bytes b))) 0%N = oct b (16 * p + o).
Proof.
  intros H Ho. rewrite nth_firstn. replace (o <? n) with true by lia. rewrite nth_skipn, all_bytes_nth. reflexivity.
Qed.

Lemma area_slice_length head b p : head <= 16 -> p < List.length b / 4 ->
  List.length (skipn head (firstn 16 (skipn (16 * p) (all_bytes b)))) = 16 - head.
Proof.
  intros Hh Hp. pose proof (Nat.div_mod (List.length b) 4 ltac:(lia)).
  rewrite skipn_length, firstn_length, skipn_length, all_bytes_length. lia.
Qed.

Lemma blocks_length' (g : nat -> list N) n a k : (forall p, a <= p < a + k -> List.length (g p) = n) ->
  List.length (flat_map g (seq a k)) = n * k.
Proof.
  revert a. induction k as [|k IH]; intros a H; cbn [seq flat_map]; [cbn; lia|].
  rewrite app_length, H, IH by (intros; try apply H; lia). lia.
Qed.
Lemma blocks_nth' (g : nat -> list N) n a k p o : (forall p, a <= p < a + k -> List.length (g p) = n) -> p < k -> o < n ->
  nth (n * p + o) (flat_map g (seq a k)) 0%N = nth o (g (a + p)) 0%N.
Proof.
  revert a p. induction k as [|k IH]; intros a p H Hp Ho; [lia|]. cbn [seq flat_map].
  destruct p as [|p].
  - rewrite Nat.mul_0_r, !Nat.add_0_r, Nat.add_0_l, app_nth1 by (rewrite H; lia). reflexivity.
  - rewrite app_nth2 by (rewrite H; lia). rewrite H by lia.
    replace (n * S p + o - n) with (n * p + o) by lia. rewrite IH by (auto; try (intros; apply H); lia).
    f_equal. f_equal. lia.
Qed.

Lemma text_area_length head b : head <= 16 ->
  List.length (text_area head b) = (16 - head) * (List.length b / 4).
Proof. intros Hh. apply blocks_length'. intros p Hp. apply area_slice_length; lia. Qed.

Lemma text_area_nth f b i : okt f -> i < tf_cap f * (List.length b / 4) ->
  nth i (text_area (tf_head f) b) 0%N = area f b i.
Proof.
  intros H Hi. pose proof (okt_facts f H) as F.
  pose proof (Nat.div_mod i (tf_cap f) ltac:(lia)) as D. pose proof (Nat.mod_upper_bound i (tf_cap f) ltac:(lia)).
  assert (P : i / tf_cap f < List.length b / 4) by (apply Nat.div_lt_upper_bound; lia).
  pose proof (Nat.div_mod (List.length b) 4 ltac:(lia)).
  unfold area, text_area. rewrite D at 1.
  replace (tf_cap f) with (16 - tf_head f) at 1 by lia.
  rewrite blocks_nth'; [|intros p Hp; apply area_slice_length; lia|lia|lia].
  cbn [Nat.add]. rewrite nth_skipn. rewrite oct_slice by lia. f_equal. lia.
Qed.

Lemma upcoming_area f b : okt f ->
  upcoming f b 0 = without_nul (firstn (reach f (List.length b)) (text_area (tf_head f) b)).
Proof. intros H. apply upcoming_text; auto. intros i Hi. symmetry. now apply text_area_nth. Qed.

Lemma flex_bytes_any b : 4 <= List.length b -> flex_text_bytes b = Val (flex_reading b).
Proof.
  intros Hb. unfold flex_text_bytes. rewrite collect_all by (auto; apply okt_flex). f_equal.
  rewrite upcoming_area by apply okt_flex. unfold flex_reading. f_equal.
  change (tf_head flex_form) with 4. rewrite removelast_firstn_len. f_equal.
  rewrite text_area_length by lia. unfold reach. cbn [tf_cap tf_early flex_form]. lia.
Qed.

Lemma stream_bytes_any off b : off <= 1 -> 4 <= List.length b ->
  ti_collect (stream_form off) (text_bytes b) = Val (stream_reading off b).
Proof.
  intros Ho Hb. assert (OK : okt (stream_form off)) by (apply okt_stream; lia).
  rewrite collect_all by auto. f_equal. rewrite upcoming_area by auto. unfold stream_reading. f_equal.
  change (tf_head (stream_form off)) with (2 + off). apply firstn_all2.
  rewrite text_area_length by lia. unfold reach. cbn [tf_cap tf_early stream_form]. lia.
Qed.

(** ** Parsing *)

Lemma lead_exact b t k : leading 4 t b k ->
  take_while (fun c => (nibble32 (hd0 c) 0 =? t)%N) (chunks_exact 4 b)
  = map (fun i => chunk 4 i b) (seq 0 (Nat.min k (List.length b / 4))).
Proof.
  intros (A & B & C). rewrite chunks_exact_spec by lia. rewrite take_while_map. f_equal.
  destruct (take_while_seq (fun i => (nibble32 (hd0 (chunk 4 i b)) 0 =? t)%N) 0 (List.length b / 4))
    as (n & H1 & -> & H2 & H3). cbn [Nat.add] in *. f_equal.
  assert (T : forall i, i < List.length b / 4 -> (nibble32 (hd0 (chunk 4 i b)) 0) = bits b (Seg (4 * i) 28 4)).
  { intros i Hi. rewrite hd0_chunk by lia. exact (nibble32_bits b (4 * i) 0). }
  pose proof (Nat.div_mod (List.length b) 4 ltac:(lia)). pose proof (Nat.mod_upper_bound (List.length b) 4 ltac:(lia)).
  assert (L : List.length b / 4 <= (List.length b + 4 - 1) / 4) by (apply Nat.div_le_mono; lia).
  destruct (Nat.lt_trichotomy n (Nat.min k (List.length b / 4))) as [X|[X|X]]; auto; exfalso.
  - specialize (H3 ltac:(lia)). rewrite T in H3 by lia. rewrite B in H3 by lia. now rewrite N.eqb_refl in H3.
  - assert (K : k < n) by lia. specialize (H2 k K). cbn beta in H2. rewrite T in H2 by lia.
    apply N.eqb_eq in H2. apply C; [lia|exact H2].
Qed.

Lemma groups_spec b k : leading 4 0xD b k -> consistent_groups b 4 0xD = Ok tt <->
  (forall p, p < k -> p < List.length b / 4 -> bits b (Seg (4 * p) 24 4) = bits b (Seg 0 24 4)).
Proof.
  intros H. unfold consistent_groups. rewrite check_ok, (lead_exact b 0xD k H), forallb_map, forallb_forall.
  assert (E0 : nibble32 (hd0 b) 1 = bits b (Seg 0 24 4)).
  { unfold hd0. change (hd 0%N b) with (hd 0%N b). replace (hd 0%N b) with (nth 0 b 0%N) by now destruct b.
    exact (nibble32_bits b 0 1). }
  assert (T : forall i, i < List.length b / 4 -> (nibble32 (hd0 (chunk 4 i b)) 1) = bits b (Seg (4 * i) 24 4)).
  { intros i Hi. rewrite hd0_chunk by lia. exact (nibble32_bits b (4 * i) 1). }
  rewrite E0. split.
  - intros X p H1 H2. specialize (X p ltac:(apply in_seq; lia)). rewrite T in X by lia. now apply N.eqb_eq.
  - intros X p Hp. apply in_seq in Hp. rewrite T by lia. apply N.eqb_eq. apply X; lia.
Qed.

Lemma flex_formats_spec b k : leading 4 0xD b k -> flex_formats_validate b = Ok tt <->
  SpecFixed.framed (fun p => bits b (Seg (4 * p) 22 2)) 0 1 2 3 k.
Proof.
  intros H. unfold flex_formats_validate.
  rewrite (validate_statuses_spec b (fun x => crumb32 x 4) 0 1 2 3 4 0xD k) by (auto; lia).
  unfold SpecFixed.framed. setoid_rewrite crumb32_bits. reflexivity.
Qed.

Lemma check_cases b e : check b e = (if b then Ok tt else Err e).
Proof. reflexivity. Qed.

Lemma try_ok {A} (r : res unit) (k : outcome (res A)) v :
  (_ <-? Val r ;; k) = Val (Ok v) <-> r = Ok tt /\ k = Val (Ok v).
Proof. destruct r as [[]|e]; cbn; split; intuition congruence. Qed.

Lemma try_total {A} (r : res unit) (k : outcome (res A)) :
  (exists x, k = Val x) -> exists x, (_ <-? Val r ;; k) = Val x.
Proof. intros (x & ->). destruct r as [[]|e]; cbn; eauto. Qed.

Lemma flex_try_from_total K b : exists r, flex_try_from K b = Val r.
Proof.
  unfold flex_try_from. destruct (Nat.ltb_spec (List.length b) 4); [eauto|].
  cbn [prop_validate]. rewrite idx_nth by lia. cbn [bind]. repeat apply try_total.
  unfold text_string_validate. pose proof (flex_bytes_any b ltac:(lia)) as E. unfold flex_text_bytes in E. rewrite E.
  cbn [bind]. apply try_total. eauto.
Qed.

Lemma flex_try_from_ok K b v : flex_try_from K b = Val (Ok v) <->
  v = b /\ flex_accepts (fk_bank K) (fk_status K) b.
Proof.
  unfold flex_try_from, flex_accepts. destruct (Nat.ltb_spec (List.length b) 4) as [L|L].
  { split; [discriminate|intros (_ & H & _); lia]. }
  destruct (flex_bank_validate (fk_bank K) b) as (r1 & E1 & R1). rewrite E1.
  destruct (flex_status_validate (fk_status K) b) as (r2 & E2 & R2). rewrite E2.
  rewrite is_ok_tt in R1, R2.
  cbn [prop_validate]. rewrite idx_nth by lia. cbn [bind].
  unfold text_string_validate. pose proof (flex_bytes_any b ltac:(lia)) as E. unfold flex_text_bytes in E. rewrite E.
  cbn [bind]. rewrite !try_ok, !check_ok, utf8_spec, R1, R2.
  rewrite N.eqb_eq. rewrite (nibble32_bits b 0 0). change (28 - 0 * 4)%N with 28%N.
  destruct (leading_exists 4 0xD b) as (k & Hk). rewrite (groups_spec b k Hk), (flex_formats_spec b k Hk).
  split.
  - intros (A1 & A2 & _ & A3 & A4 & A5 & A6 & A7). split; [congruence|].
    split; [lia|]. split; [auto|]. split; [intros p Hp; auto|]. split; [|auto].
    intros k' Hk'. rewrite (leading_unique _ _ _ _ _ Hk' Hk). auto.
  - intros (-> & _ & A2 & A3 & A4 & A5). destruct (A4 k Hk). 
    split; [auto|]. split; [auto|]. split; [auto|]. split; [intros p Hp; now apply A3|].
    split; [intros p Hp; now apply A3|]. auto.
Qed.

Lemma block_spec b : 4 <= List.length b -> exists r, block_validate b = Val r /\
  (r = Ok tt <-> forall p, p < List.length b / 4 -> bits b (Seg (4 * p) 8 8) = bits b (Seg 0 8 8)).
Proof.
  intros Hb. unfold block_validate. rewrite get_octet_ok by lia. cbn [bind].
  eexists. split; [reflexivity|]. rewrite check_ok.
  replace (oct b (4 * 0 + 2)) with (octet32 (nth 0 b 0%N) 2) by (rewrite oct_word by lia; reflexivity).
  rewrite (heads_forallb (fun x => octet32 x 2 =? octet32 (nth 0 b 0) 2)%N).
  rewrite (octet32_bits b 0 2). change (24 - 2 * 8)%N with 8%N.
  split; intros X p Hp; specialize (X p Hp).
  - apply N.eqb_eq in X. rewrite (octet32_bits b (4 * p) 2) in X. exact X.
  - apply N.eqb_eq. rewrite (octet32_bits b (4 * p) 2). exact X.
Qed.

Lemma stream_try_from_total K b : sk_off K <= 1 -> exists r, stream_try_from K b = Val r.
Proof.
  intros Ho. unfold stream_try_from. destruct (Nat.ltb_spec (List.length b) 4); [eauto|].
  cbn [prop_validate]. rewrite idx_nth by lia. cbn [bind]. repeat apply try_total.
  assert (B : exists r, (if sk_off K =? 1 then block_validate b else Val (Ok tt)) = Val r).
  { destruct (sk_off K =? 1); [|eauto]. destruct (block_spec b ltac:(lia)) as (r & E & _). eauto. }
  destruct B as (r & ->). apply try_total.
  unfold text_string_validate. rewrite stream_bytes_any by lia. cbn [bind]. apply try_total. eauto.
Qed.

Lemma stream_try_from_ok K b v : sk_off K <= 1 -> stream_try_from K b = Val (Ok v) <->
  v = b /\ stream_accepts (sk_status K) (sk_off K) b.
Proof.
  intros Ho. unfold stream_try_from, stream_accepts. destruct (Nat.ltb_spec (List.length b) 4) as [L|L].
  { split; [discriminate|intros (_ & H & _); lia]. }
  destruct (stream_status_validate (sk_status K) b) as (r1 & E1 & R1). rewrite E1.
  destruct (leading_exists 4 0xF b) as (k & Hk).
  destruct (stream_formats_validate_spec b k Hk) as (r2 & E2 & R2). rewrite E2.
  rewrite is_ok_tt in R1, R2.
  cbn [prop_validate]. rewrite idx_nth by lia. cbn [bind].
  unfold text_string_validate. rewrite stream_bytes_any by lia. cbn [bind].
  assert (B : exists r, (if sk_off K =? 1 then block_validate b else Val (Ok tt)) = Val r /\
    (r = Ok tt <-> (sk_off K = 1 -> forall p, p < List.length b / 4 -> bits b (Seg (4 * p) 8 8) = bits b (Seg 0 8 8)))).
  { destruct (Nat.eqb_spec (sk_off K) 1) as [E|E].
    - destruct (block_spec b ltac:(lia)) as (r & Er & Hr). exists r. split; [exact Er|]. rewrite Hr. tauto.
    - exists (Ok tt). split; [reflexivity|]. tauto. }
  destruct B as (r3 & -> & R3). rewrite !try_ok, !check_ok, utf8_spec, R1, R2, R3.
  rewrite N.eqb_eq. rewrite (nibble32_bits b 0 0). change (28 - 0 * 4)%N with 28%N.
  split.
  - intros (A1 & A2 & A3 & A4 & A5 & A6). split; [congruence|].
    split; [lia|]. split; [auto|]. split; [auto|]. split; [|auto].
    intros k' Hk'. rewrite (leading_unique _ _ _ _ _ Hk' Hk). auto.
  - intros (-> & _ & A2 & A3 & A4 & A5 & A6). specialize (A4 k Hk). auto 10.
Qed.

(** [data] of a framed run. *)
Lemma framed_size c b t k lo : List.length b mod 4 = 0 -> leading 4 t b k ->
  (forall x, crumb32 (nth x b 0%N) c = bits b (Seg x lo 2)) ->
  SpecFixed.framed (fun p => bits b (Seg (4 * p) lo 2)) 0 1 2 3 k ->
  dyn_size c b = Val (4 * k) /\ 1 <= k /\ 4 * k <= List.length b.
Proof.
  intros M Hl Hc F.
  assert (K1 : 1 <= k) by (destruct F as [[-> _]|[? _]]; lia).
  assert (K4 : 4 * k <= List.length b).
  { destruct Hl as (A & _). pose proof (Nat.div_mod (List.length b) 4 ltac:(lia)) as D. rewrite M in D.
    replace (List.length b + 4 - 1) with (3 + (List.length b / 4) * 4) in A by lia.
    rewrite Nat.div_add in A by lia. cbn [Nat.add] in A. change (3 / 4) with 0 in A. lia. }
  split; [|lia]. apply dyn_size_ok; auto. intros w Hw. rewrite Hc. unfold status_code.
  destruct F as [[-> F]|(H1 & F0 & Fm & Fe)].
  - assert (w = 0) by lia. subst w. exact F.
  - replace (k =? 1) with false by lia. destruct (Nat.eqb_spec w 0) as [->|]; [exact F0|].
    destruct (Nat.eqb_spec (S w) k).
    + replace w with (k - 1) by lia. exact Fe.
    + apply Fm. lia.
Qed.
