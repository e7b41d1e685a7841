(** Lemmas on machine arithmetic: the operations the editing algorithm uses. *)
From Coq Require Import NArith List String Bool Arith Lia ZifyBool.
From Verif Require Import Base BitOps BitLemmas ListLemmas ByteView Schema Props Helpers Message Machine Sysex Splice MachineSysex MachineLemmas.
Import ListNotations.
Local Open Scope list_scope.
Local Open Scope nat_scope.

(** ** Single bytes *)
Lemma set_byte_refines bd f b v i : std f -> 16 * List.length b + 64 <= usize_values bd ->
  refines (set_byte f b v i) (set_byte_m bd f b v i).
Proof.
  intros F R. pose proof (std_words f F). pose proof (head_le f F). unfold set_byte, set_byte_m. generalize (List.length b) at 1 2. intros fuel.
  generalize 0 as p. revert i. induction fuel as [|k IH]; intros i p; cbn [set_byte_aux set_byte_aux_m].
  all: intros r E; destruct (bind_val _ _ _ E) as (x & X & E1); pose proof (idx_in _ _ _ X) as I.
  all: destruct (bind_val _ _ _ E1) as (s & S & E2); pose proof (packet_size_le _ _ _ S) as S15.
  all: rewrite mmul_ok by lia; cbn [bind]; rewrite X; cbn [bind]; rewrite (packet_size8_refines bd f x _ S); cbn [bind].
  all: destruct (Nat.ltb_spec i s).
  1, 3: rewrite madd_ok by lia; cbn [bind]; pose proof (put_unit_in _ _ _ _ _ _ E2) as [W _]; rewrite madd_ok by lia; exact E2.
  - discriminate.
  - rewrite madd_ok by nia. cbn [bind]. rewrite Nat.add_1_r. now apply IH.
Qed.
Lemma set_byte_b_refines bd b v i : List.length b < usize_values bd -> refines (set_byte_b b v i) (set_byte_b_m bd b v i).
Proof.
  intros R r E. unfold set_byte_b, set_byte_b_m in *. pose proof (upd_in _ _ _ _ E) as [I _]. rewrite madd_ok by lia. exact E.
Qed.

(** ** Resizing *)
Lemma buffer_size_le f n : std f -> buffer_size f n <= n + 4.
Proof.
  intros F. unfold buffer_size. destruct (n mod f_cap f =? 0).
  - destruct (n =? 0). { pose proof (std_words f F). lia. }
    destruct F as [-> | ->]; cbn [f_words f_cap fmt7 fmt8].
    + transitivity n; [|lia]. apply Nat.div_le_upper_bound; lia.
    + transitivity n; [|lia]. apply Nat.div_le_upper_bound; lia.
  - destruct F as [-> | ->]; cbn [f_words f_cap fmt7 fmt8].
    + pose proof (Nat.mul_div_le n 6). lia.
    + pose proof (Nat.mul_div_le n 13). lia.
Qed.
Definition needs (f : fmt) (n : nat) : nat := if f_seven f then n + 8 else 4 * n + 8.
Lemma buffer_size_m_ok bd f n : std f -> needs f n <= usize_values bd -> buffer_size_m bd f n = Val (buffer_size f n).
Proof.
  intros F L. unfold needs in L. unfold buffer_size_m, buffer_size. destruct (Nat.eqb_spec (n mod f_cap f) 0) as [Z|Z].
  - destruct (n =? 0); [reflexivity|]. destruct F as [-> | ->]; cbn [f_seven f_words f_cap fmt7 fmt8] in *.
    + f_equal. pose proof (Nat.div_mod_eq n 6) as D. rewrite Z in D. rewrite D at 1 2.
      replace (6 * (n / 6) + 0) with ((2 * (n / 6)) * 3) by lia. rewrite Nat.div_mul by lia.
      replace (2 * (n / 6) * 3 * 2) with ((2 * (n / 6)) * 6) by lia. now rewrite Nat.div_mul by lia.
    + rewrite mmul_ok by lia. reflexivity.
  - assert (H : f_words f * (n / f_cap f + 1) < usize_values bd /\ n / f_cap f + 1 < usize_values bd).
    { destruct F as [-> | ->]; cbn [f_words f_cap f_seven fmt7 fmt8] in *; [pose proof (Nat.mul_div_le n 6)|pose proof (Nat.mul_div_le n 13)]; lia. }
    destruct H as [H1 H2]. rewrite madd_ok by exact H2. cbn [bind]. now rewrite mmul_ok.
Qed.

Lemma zero_tail_len f i r b b' : zero_tail f i r b = Val b' -> List.length b' = List.length b.
Proof.
  unfold zero_tail. intros E.
  refine (fold_keeps (fun a => List.length a = List.length b)
    (fun j a => put_octet a (f_words f * i + (j + f_head f) / 4) ((j + f_head f) mod 4) 0) _ _ (Val b) _ b' E).
  - intros j a a' A P. apply put_octet_in in P. lia.
  - intros a [= <-]. reflexivity.
Qed.
Lemma head_packet_len f k n g i b b' : head_packet f k n g i b = Val b' -> List.length b' = List.length b.
Proof.
  unfold head_packet. cbv zeta. intros E. destruct (bind_val _ _ _ E) as (b1 & E1 & K1). apply upd_in in E1.
  destruct (bind_val _ _ _ K1) as (b2 & E2 & K2).
  assert (L2 : List.length b2 = List.length b).
  { destruct (i =? 0); [injection E2 as <-; lia|]. apply upd_in in E2. lia. }
  destruct (S i <? k); [apply upd_in in K2; lia|]. destruct (i =? 0).
  { destruct (bind_val _ _ _ K2) as (s & _ & K3). apply upd_in in K3. lia. }
  destruct (n mod f_cap f =? 0); [apply upd_in in K2; lia|].
  destruct (bind_val _ _ _ K2) as (s & _ & K3). destruct (bind_val _ _ _ K3) as (b3 & E3 & K4). apply upd_in in E3. apply zero_tail_len in K4. lia.
Qed.
Lemma head_packet_refines bd f k n g i b : refines (head_packet f k n g i b) (head_packet_m bd f k n g i b).
Proof.
  unfold head_packet, head_packet_m. cbv zeta. apply refines_bind; [apply refines_refl|]. intros b1 _.
  apply refines_bind; [apply refines_refl|]. intros b2 _. destruct (S i <? k); [apply refines_refl|].
  destruct (i =? 0); [|apply refines_refl]. intros r E. destruct (bind_val _ _ _ E) as (s & S & E1). unfold u4_new in S.
  destruct (N.ltb_spec (N.of_nat n mod 256 + f_ext f) 16); [|discriminate].
  unfold madd8. destruct (N.ltb_spec (N.of_nat n mod 256 + f_ext f) 256); [|lia]. cbn [bind]. unfold u4_new.
  destruct (N.ltb_spec (N.of_nat n mod 256 + f_ext f) 16); [|lia]. injection S as <-. exact E1.
Qed.

(** Rewriting the headers leaves the length alone. *)
Lemma heads_len f packets n b b' :
  fold_left (fun acc i => b' <- acc ;; g <- idx b' 0 ;; head_packet f packets n (nibble32 g 1) i b') (seq 0 packets) (Val b) = Val b' ->
  List.length b' = List.length b.
Proof.
  intros E. refine (fold_keeps (fun a => List.length a = List.length b)
    (fun i a => g <- idx a 0 ;; head_packet f packets n (nibble32 g 1) i a) _ _ (Val b) _ b' E).
  - intros j a a' A P. destruct (bind_val _ _ _ P) as (g & _ & P1). apply head_packet_len in P1. lia.
  - intros a [= <-]. reflexivity.
Qed.
Lemma heads_refines bd f packets n b :
  refines (fold_left (fun acc i => b' <- acc ;; g <- idx b' 0 ;; head_packet f packets n (nibble32 g 1) i b') (seq 0 packets) (Val b))
    (fold_left (fun acc i => b' <- acc ;; g <- idx b' 0 ;; head_packet_m bd f packets n (nibble32 g 1) i b') (seq 0 packets) (Val b)).
Proof.
  apply (fold_refines (fun _ => True) (fun i a => g <- idx a 0 ;; head_packet f packets n (nibble32 g 1) i a)
    (fun i a => g <- idx a 0 ;; head_packet_m bd f packets n (nibble32 g 1) i a)); auto; try apply refines_refl.
  intros i a _ _. apply refines_bind; [apply refines_refl|]. intros. apply head_packet_refines.
Qed.

Definition plain (k : room) : Prop := k = Growable \/ k = Fixed \/ k = Untouched.

Lemma try_resize_refines bd f k b n : std f -> plain k -> needs f n <= usize_values bd -> 16 * List.length b + 64 <= usize_values bd ->
  refines (try_resize f k b n) (try_resize_m bd f k b n).
Proof.
  intros F K N R. unfold try_resize, try_resize_m. rewrite buffer_size_m_ok by assumption. cbn [bind].
  destruct (request k b (buffer_size f n)) as [b1 ok] eqn:Q.
  assert (B : ok = false -> b1 = b).
  { intros ->. destruct K as [-> | [-> | ->]]; cbn [request] in Q; inversion Q; reflexivity. }
  eapply refines_step with (a := if ok then n else List.length b1 / f_words f * f_cap f).
  - destruct ok; [reflexivity|]. rewrite (B eq_refl). apply mmul_ok.
    destruct F as [-> | ->]; cbn [f_words f_cap fmt7 fmt8]; [pose proof (Nat.mul_div_le (List.length b) 2)|pose proof (Nat.mul_div_le (List.length b) 4)]; lia.
  - apply refines_bind; [apply heads_refines|]. intros. apply refines_refl.
Qed.
Lemma try_resize_len f k b n b' : std f -> plain k -> try_resize f k b n = Val (b', None) ->
  List.length b' <= max (List.length b) (n + 4).
Proof.
  intros F K. unfold try_resize. destruct (request k b (buffer_size f n)) as [b1 ok] eqn:Q. intros E.
  destruct (bind_val _ _ _ E) as (b2 & H & E1). apply heads_len in H. injection E1 as <- _. rewrite H. pose proof (buffer_size_le f n F).
  destruct K as [-> | [-> | ->]]; cbn [request] in Q; inversion Q; subst.
  - rewrite vec_resize_length. lia.
  - lia.
  - lia.
Qed.
Lemma try_resize_untouched f b n b' o : try_resize f Untouched b n = Val (b', o) -> List.length b' = List.length b.
Proof.
  unfold try_resize. cbn [request]. intros E. destruct (bind_val _ _ _ E) as (b2 & H & E1). apply heads_len in H. injection E1 as <- _. exact H.
Qed.
Lemma buffer_size_over f q n r : std f -> r < f_words f -> q * f_cap f < n -> f_words f * q + r < buffer_size f n.
Proof.
  intros F R L. unfold buffer_size. destruct (Nat.eqb_spec (n mod f_cap f) 0) as [Z|Z].
  - destruct (Nat.eqb_spec n 0); [lia|].
    pose proof (Nat.div_mod_eq n (f_cap f)) as D. rewrite Z in D.
    assert (C : 0 < f_cap f) by (destruct F as [-> | ->]; cbn; lia).
    replace (n * f_words f) with ((n / f_cap f * f_words f) * f_cap f) by nia. rewrite Nat.div_mul by lia.
    assert (q < n / f_cap f) by nia. nia.
  - assert (C : 0 < f_cap f) by (destruct F as [-> | ->]; cbn; lia).
    assert (q <= n / f_cap f) by (apply Nat.div_le_lower_bound; lia). nia.
Qed.
Lemma try_resize_fail f k b n b' sz : std f -> plain k -> try_resize f k b n = Val (b', Some sz) ->
  List.length b' = List.length b /\ sz <= 8 * List.length b
  /\ forall b2 n2 r, List.length b2 = List.length b -> sz < n2 -> try_resize f k b2 n2 = Val r ->
       snd r = Some sz /\ List.length (fst r) = List.length b.
Proof.
  intros F K. unfold try_resize at 1. destruct (request k b (buffer_size f n)) as [b1 ok] eqn:Q. intros E.
  destruct (bind_val _ _ _ E) as (b2 & H & E1). apply heads_len in H. destruct ok; [discriminate|]. inversion E1; subst; clear E1.
  destruct K as [-> | [-> | ->]]; cbn [request] in Q; inversion Q; subst; clear Q.
  pose proof (std_words f F) as W. split; [exact H|]. split.
  { destruct F as [-> | ->]; cbn [f_words f_cap fmt7 fmt8]; [pose proof (Nat.mul_div_le (List.length b1) 2)|pose proof (Nat.mul_div_le (List.length b1) 4)]; lia. }
  intros b2 n2 r L2 N2 R2. unfold try_resize in R2. cbn [request] in R2.
  assert (W0 : f_words f <> 0) by lia.
  pose proof (buffer_size_over f _ _ (List.length b1 mod f_words f) F (Nat.mod_upper_bound _ _ W0) N2) as O.
  rewrite <- Nat.div_mod_eq in O.
  assert (T : fixed_try_resize b2 (buffer_size f n2) = false).
  { unfold fixed_try_resize. rewrite L2. destruct (Nat.ltb_spec (List.length b1) (buffer_size f n2)); [reflexivity|lia]. }
  rewrite T in R2. destruct (bind_val _ _ _ R2) as (b3 & H3 & E3). apply heads_len in H3. inversion E3; subst. cbn [fst snd]. split; [now rewrite L2|lia].
Qed.

(** ** Writing and moving *)
Lemma write_datum_in f b v i b' : std f -> write_datum f b v i = Val b' -> i <= 8 * List.length b /\ List.length b' = List.length b.
Proof.
  intros F E. unfold write_datum in E. apply put_unit_in in E. destruct E as [I L]. split; [|exact L].
  destruct F as [-> | ->]; cbn [f_words f_cap f_head fmt7 fmt8] in I.
  - pose proof (Nat.div_mod_eq i 6). pose proof (Nat.mod_upper_bound i 6).
    pose proof (Nat.div_mod_eq (i mod 6 + 2) 4). pose proof (Nat.mod_upper_bound (i mod 6 + 2) 4). lia.
  - pose proof (Nat.div_mod_eq i 13). pose proof (Nat.mod_upper_bound i 13).
    pose proof (Nat.div_mod_eq (i mod 13 + 3) 4). pose proof (Nat.mod_upper_bound (i mod 13 + 3) 4). lia.
Qed.

Lemma byte_index_ge f i : i <= byte_index f i.
Proof. unfold byte_index. apply Nat.le_add_r. Qed.
Lemma byte_index_m_ok bd f i : std f -> byte_index f i < usize_values bd -> byte_index_m bd f i = Val (byte_index f i).
Proof.
  intros F L. unfold byte_index in L. unfold byte_index_m.
  assert (H : 1 <= f_head f) by (destruct F as [-> | ->]; cbn; lia).
  rewrite madd_ok by nia. cbn [bind]. rewrite mmul_ok by lia. cbn [bind]. rewrite madd_ok by lia. reflexivity.
Qed.
Lemma copy_byte_in f b s d b' : copy_byte f b s d = Val b' ->
  byte_index f s < 4 * List.length b /\ byte_index f d < 4 * List.length b /\ List.length b' = List.length b.
Proof.
  unfold copy_byte. intros E. destruct (bind_val _ _ _ E) as (v & G & P). apply get_octet_in in G. apply put_octet_in in P.
  pose proof (Nat.div_mod_eq (byte_index f s) 4). pose proof (Nat.mod_upper_bound (byte_index f s) 4).
  pose proof (Nat.div_mod_eq (byte_index f d) 4). pose proof (Nat.mod_upper_bound (byte_index f d) 4). lia.
Qed.
Lemma copy_byte_refines bd f b s d : std f -> 16 * List.length b + 64 <= usize_values bd ->
  refines (copy_byte f b s d) (copy_byte_m bd f b s d).
Proof.
  intros F R b' E. pose proof (copy_byte_in _ _ _ _ _ E) as (S & D & _). unfold copy_byte_m.
  rewrite byte_index_m_ok by (auto; lia). cbn [bind]. rewrite byte_index_m_ok by (auto; lia). exact E.
Qed.
Lemma move_tail_len f b t to b' : move_tail f b t to = Val b' -> List.length b' = List.length b.
Proof.
  unfold move_tail. destruct (negb (is_compact f b)); [discriminate|]. intros E. destruct (bind_val _ _ _ E) as (n & _ & E1).
  destruct (t <? to).
  - destruct (bind_val _ _ _ E1) as (e & _ & E2).
    refine (fold_keeps (fun a => List.length a = List.length b) (fun i a => copy_byte f a i (i + (to - t))) _ _ (Val b) _ b' E2).
    + intros j a a' A P. apply copy_byte_in in P. lia.
    + intros a [= <-]. reflexivity.
  - destruct (to <? t); [|injection E1 as <-; reflexivity].
    refine (fold_keeps (fun a => List.length a = List.length b) (fun i a => copy_byte f a i (i - (t - to))) _ _ (Val b) _ b' E1).
    + intros j a a' A P. apply copy_byte_in in P. lia.
    + intros a [= <-]. reflexivity.
Qed.
Lemma move_tail_refines bd f b t to : std f -> 16 * List.length b + 64 <= usize_values bd ->
  refines (move_tail f b t to) (move_tail_m bd f b t to).
Proof.
  intros F R. unfold move_tail, move_tail_m. destruct (is_compact f b); cbn [negb massert bind]; [|apply refines_panic].
  apply refines_bind; [apply payload_size_refines; [exact F|lia]|]. intros n _. destruct (Nat.ltb_spec t to).
  - apply refines_bind; [apply msub_refines|]. intros e _.
    apply (fold_refines (fun a => List.length a = List.length b) (fun i a => copy_byte f a i (i + (to - t)))
      (fun i a => j <- madd bd i (to - t) ;; copy_byte_m bd f a i j)).
    + intros i a _ A a' E. pose proof (copy_byte_in _ _ _ _ _ E) as (_ & D & _). pose proof (byte_index_ge f (i + (to - t))).
      rewrite madd_ok by lia. cbn [bind]. apply copy_byte_refines; [exact F|now rewrite A|exact E].
    + intros i a a' A P. apply copy_byte_in in P. lia.
    + intros a [= <-]. reflexivity.
    + apply refines_refl.
  - destruct (Nat.ltb_spec to t); [|apply refines_refl].
    apply (fold_refines (fun a => List.length a = List.length b) (fun i a => copy_byte f a i (i - (t - to)))
      (fun i a => j <- msub bd i (t - to) ;; copy_byte_m bd f a i j)).
    + intros i a I A a' E. apply in_seq in I.
      rewrite msub_ok by lia. cbn [bind]. apply copy_byte_refines; [exact F|now rewrite A|exact E].
    + intros i a a' A P. apply copy_byte_in in P. lia.
    + intros a [= <-]. reflexivity.
    + apply refines_refl.
Qed.

(** ** Compaction *)
Lemma compact_packet_len f src : forall count b i dp di b' dp' di',
  compact_packet f b src i count dp di = Val (b', dp', di') -> List.length b' = List.length b.
Proof.
  induction count as [|c IH]; intros b i dp di b' dp' di'; cbn [compact_packet]; [intros [= <- _ _]; reflexivity|].
  intros E. destruct (bind_val _ _ _ E) as (v & _ & E1). destruct (bind_val _ _ _ E1) as (b1 & P & E2). apply put_octet_in in P.
  destruct (S di =? f_cap f); apply IH in E2; lia.
Qed.
Lemma compact_loop_refines bd f : std f -> forall fuel b src dp di, List.length b + 1 < usize_values bd ->
  refines (compact_loop fuel f b src dp di) (compact_loop_m fuel bd f b src dp di).
Proof.
  intros F. pose proof (std_words f F). induction fuel as [|k IH]; intros b src dp di R; cbn [compact_loop compact_loop_m].
  all: intros r E; destruct (bind_val _ _ _ E) as (x & X & E1); pose proof (idx_in _ _ _ X) as I; rewrite mmul_ok by lia; cbn [bind]; rewrite X; cbn [bind].
  all: cbv zeta in *; destruct (nibble32 x 2 =? 0)%N; [exact E1|].
  all: destruct (bind_val _ _ _ E1) as (s & S & E2); rewrite (packet_size8_refines bd f x _ S); cbn [bind].
  all: destruct (bind_val _ _ _ E2) as (r0 & P & E3); rewrite P; cbn [bind]; destruct r0 as [[b1 dp1] di1]; destruct (nibble32 x 2 =? 3)%N; [exact E3|].
  - discriminate.
  - rewrite madd_ok by nia. cbn [bind]. rewrite Nat.add_1_r. apply IH; [|exact E3]. apply compact_packet_len in P. lia.
Qed.
Lemma compact_loop_len f : forall fuel b src dp di b', compact_loop fuel f b src dp di = Val b' -> List.length b' = List.length b.
Proof.
  induction fuel as [|k IH]; intros b src dp di b'; cbn [compact_loop]; intros E; destruct (bind_val _ _ _ E) as (x & _ & E1); cbv zeta in E1.
  all: destruct (nibble32 x 2 =? 0)%N; [injection E1 as <-; reflexivity|].
  all: destruct (bind_val _ _ _ E1) as (s & _ & E2); destruct (bind_val _ _ _ E2) as (r0 & P & E3); destruct r0 as [[b1 dp1] di1]; apply compact_packet_len in P.
  all: destruct (nibble32 x 2 =? 3)%N; [injection E3 as <-; exact P|].
  - discriminate.
  - apply IH in E3. lia.
Qed.
Lemma compact_len f b b' : compact f b = Val b' -> List.length b' = List.length b.
Proof.
  unfold compact. destruct (is_compact f b); [intros [= <-]; reflexivity|]. intros E. destruct (bind_val _ _ _ E) as (n & _ & E1).
  destruct (bind_val _ _ _ E1) as (b1 & C & E2). destruct (bind_val _ _ _ E2) as ([b2 o] & T & E3). apply compact_loop_len in C. apply try_resize_untouched in T.
  destruct o; [discriminate|]. injection E3 as <-. lia.
Qed.
Lemma compact_refines bd f b : std f -> 16 * List.length b + 64 <= usize_values bd -> refines (compact f b) (compact_m bd f b).
Proof.
  intros F R. unfold compact, compact_m. destruct (is_compact f b); [apply refines_refl|].
  apply refines_bind; [apply payload_size_refines; [exact F|lia]|]. intros n N.
  assert (Nd : needs f n <= usize_values bd).
  { destruct F as [-> | ->]; unfold needs; cbn [f_seven fmt7 fmt8]; [apply payload_size_le in N; [|now left]|apply payload_size_le8 in N]; lia. }
  apply refines_bind; [apply compact_loop_refines; [exact F|lia]|]. intros b1 C. apply compact_loop_len in C.
  apply refines_bind; [apply try_resize_refines; [exact F|now right; right|exact Nd|rewrite C; lia]|]. intros. apply refines_refl.
Qed.

(** ** The byte form *)
Lemma payload_b_in b it : payload_b b = Val it -> List.length (ib_data it) + 2 <= List.length b /\ ib_index it = 0.
Proof.
  unfold payload_b. intros E. destruct (bind_val _ _ _ E) as (d & D & E1). destruct (bind_val _ _ _ E1) as (e & S & E2).
  apply sub_chk_ok in S. destruct S as [S ->]. unfold data_b in D. destruct (bind_val _ _ _ D) as (n & _ & P). unfold prefix in P.
  destruct (Nat.leb_spec n (List.length b)); [|discriminate]. assert (L : List.length d = n) by (injection P as <-; rewrite firstn_length; lia).
  destruct (Nat.ltb_spec (List.length d - 1) 1); [discriminate|]. destruct (Nat.ltb_spec (List.length b) (List.length d - 1)); [discriminate|].
  cbn [orb] in E2. injection E2 as <-. cbn [ib_data ib_index]. pose proof (firstn_length (List.length d - 1 - 1) (skipn 1 b)) as FL. rewrite skipn_length in FL. split; [|reflexivity]. cbn [skipn] in FL. lia.
Qed.
Lemma payload_size_b_le b n : payload_size_b b = Val n -> n + 2 <= List.length b.
Proof.
  unfold payload_size_b. intros E. destruct (bind_val _ _ _ E) as (it & P & L). apply payload_b_in in P. unfold ib_len in L. apply sub_chk_ok in L. lia.
Qed.
Lemma resize_b_refines bd b n : n + 2 < usize_values bd -> List.length b + 64 <= usize_values bd -> refines (resize_b b n) (resize_b_m bd b n).
Proof.
  intros N R. unfold resize_b, resize_b_m. eapply refines_step; [apply madd_ok; lia|].
  apply refines_bind; [apply refines_refl|]. intros old O. apply payload_size_b_le in O. cbv zeta.
  apply refines_bind.
  - destruct (old <? n); [|apply refines_refl]. eapply refines_step; [apply madd_ok; lia|]. apply refines_refl.
  - intros b2 _. eapply refines_step; [apply msub_ok; lia|]. apply refines_refl.
Qed.
Lemma resize_b_len b n b' : resize_b b n = Val b' -> List.length b' = n + 2.
Proof.
  unfold resize_b. intros E. destruct (bind_val _ _ _ E) as (old & _ & E1). cbv zeta in E1. destruct (bind_val _ _ _ E1) as (b2 & P & U). apply upd_in in U.
  destruct (old <? n).
  - apply upd_in in P. rewrite vec_resize_length in P. lia.
  - injection P as <-. rewrite vec_resize_length in U. lia.
Qed.
Lemma try_resize_bytes_refines bd b n : n + 2 < usize_values bd -> List.length b + 64 <= usize_values bd ->
  refines (try_resize_bytes Fixed b n) (try_resize_bytes_m bd Fixed b n).
Proof.
  intros N R. unfold try_resize_bytes, try_resize_bytes_m. apply refines_bind; [apply refines_refl|]. intros old O. apply payload_size_b_le in O.
  eapply refines_step; [apply madd_ok; lia|]. destruct (request Fixed b (n + 2)) as [b0 ok].
  apply refines_bind.
  - destruct (old <? _); [|apply refines_refl]. eapply refines_step; [apply madd_ok; lia|]. apply refines_refl.
  - intros b1 _. apply refines_bind; [apply msub_refines|]. intros. apply refines_refl.
Qed.
Lemma try_resize_bytes_shape b n r : try_resize_bytes Fixed b n = Val r -> List.length (fst r) = List.length b
  /\ snd r = if List.length b <? n + 2 then Some (List.length b - 2) else None.
Proof.
  unfold try_resize_bytes. cbn [request]. intros E. destruct (bind_val _ _ _ E) as (old & _ & E1).
  destruct (bind_val _ _ _ E1) as (b1 & B1 & E2). destruct (bind_val _ _ _ E2) as (e & _ & E3). destruct (bind_val _ _ _ E3) as (b2 & B2 & E4).
  apply upd_in in B2. inversion E4; subst; clear E4. cbn [fst snd].
  assert (L : List.length b1 = List.length b).
  { destruct (old <? _); [apply upd_in in B1; lia|]. injection B1 as <-. reflexivity. }
  split; [lia|]. unfold fixed_try_resize. destruct (List.length b <? n + 2); reflexivity.
Qed.
Lemma write_datum_b_in b v i b' : write_datum_b b v i = Val b' -> i + 1 < List.length b /\ List.length b' = List.length b.
Proof. apply upd_in. Qed.
Lemma copy_within_len b s e d b' : copy_within b s e d = Val b' -> List.length b' = List.length b.
Proof.
  unfold copy_within. destruct (Nat.ltb_spec e s); [discriminate|]. destruct (Nat.ltb_spec (List.length b) e); [discriminate|].
  destruct (Nat.ltb_spec (List.length b) (d + (e - s))); [discriminate|]. cbn [orb]. intros [= <-].
  rewrite !app_length, !firstn_length, !skipn_length. lia.
Qed.
Lemma move_tail_b_len b t to b' : move_tail_b b t to = Val b' -> List.length b' = List.length b.
Proof.
  unfold move_tail_b. intros E. destruct (bind_val _ _ _ E) as (n & _ & E1). destruct (t <? to); [now apply copy_within_len in E1|].
  destruct (to <? t); [now apply copy_within_len in E1|]. injection E1 as <-. reflexivity.
Qed.
Lemma move_tail_b_refines bd b t to : t + List.length b + 2 < usize_values bd -> to + 1 < usize_values bd ->
  refines (move_tail_b b t to) (move_tail_b_m bd b t to).
Proof.
  intros T O. unfold move_tail_b, move_tail_b_m. apply refines_bind; [apply refines_refl|]. intros n N. apply payload_size_b_le in N.
  destruct (t <? to).
  - eapply refines_step; [apply madd_ok; lia|]. eapply refines_step; [apply madd_ok; lia|]. eapply refines_step; [apply madd_ok; lia|]. apply refines_refl.
  - destruct (to <? t); [|apply refines_refl].
    eapply refines_step; [apply madd_ok; lia|]. eapply refines_step; [apply madd_ok; lia|]. eapply refines_step; [apply madd_ok; lia|]. apply refines_refl.
Qed.
