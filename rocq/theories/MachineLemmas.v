(** Lemmas on machine arithmetic: reading and the operations on buffers. *)
From Coq Require Import NArith List String Bool Arith Lia ZifyBool.
From Verif Require Import Base BitOps BitLemmas ListLemmas ByteView Schema Props Helpers Message Machine Sysex Splice MachineSysex.
Import ListNotations.
Local Open Scope list_scope.
Local Open Scope nat_scope.

(** ** Refinement: whenever the first does not panic, the second agrees with it *)
Definition refines {A} (d r : outcome A) : Prop := forall v, d = Val v -> r = Val v.

Lemma refines_refl {A} (d : outcome A) : refines d d.
Proof. intros v H. exact H. Qed.
Lemma refines_panic {A} (r : outcome A) : refines Panic r.
Proof. intros v H. discriminate. Qed.
Lemma refines_bind {A B} (d r : outcome A) (k q : A -> outcome B) : refines d r ->
  (forall v, d = Val v -> refines (k v) (q v)) -> refines (bind d k) (bind r q).
Proof.
  intros H K v E. destruct d as [a|]; [|discriminate]. cbn [bind] in E.
  rewrite (H a eq_refl). cbn [bind]. exact (K a eq_refl v E).
Qed.
Lemma refines_step {A B} a (r : outcome A) (d : outcome B) (q : A -> outcome B) : r = Val a ->
  refines d (q a) -> refines d (bind r q).
Proof. intros -> H. exact H. Qed.
Lemma refines_eq {A} (d r : outcome A) : d = r -> refines d r.
Proof. intros ->. apply refines_refl. Qed.
Lemma bind_val {A B} (d : outcome A) (k : A -> outcome B) v : bind d k = Val v -> exists a, d = Val a /\ k a = Val v.
Proof. destruct d as [a|]; [|discriminate]. intros H. exists a. now split. Qed.

(** A loop that updates one value. *)
Lemma fold_refines {A} (P : A -> Prop) (f g : nat -> A -> outcome A) l : 
  (forall i a, In i l -> P a -> refines (f i a) (g i a)) ->
  (forall i a a', P a -> f i a = Val a' -> P a') ->
  forall d r, (forall a, d = Val a -> P a) -> refines d r ->
  refines (fold_left (fun acc i => b <- acc ;; f i b) l d) (fold_left (fun acc i => b <- acc ;; g i b) l r).
Proof.
  induction l as [|i l IH]; cbn [fold_left]; intros F K d r D R; [exact R|].
  apply IH; [intros j a J; apply F; now right|exact K| |].
  - intros a E. destruct (bind_val _ _ _ E) as (a0 & E0 & E1). exact (K i a0 a (D _ E0) E1).
  - apply refines_bind; [exact R|]. intros a E. apply F; [now left|exact (D _ E)].
Qed.
Lemma fold_keeps {A} (P : A -> Prop) (f : nat -> A -> outcome A) l :
  (forall i a a', P a -> f i a = Val a' -> P a') ->
  forall d, (forall a, d = Val a -> P a) ->
  forall a, fold_left (fun acc i => b <- acc ;; f i b) l d = Val a -> P a.
Proof.
  induction l as [|i l IH]; cbn [fold_left]; intros K d D a E; [now apply D|].
  apply (IH K _) in E; [exact E|]. intros a' E'. destruct (bind_val _ _ _ E') as (a0 & E0 & E1). exact (K i a0 a' (D _ E0) E1).
Qed.

(** ** Arithmetic *)
Lemma madd_ok bd a b : a + b < usize_values bd -> madd bd a b = Val (a + b).
Proof. intros H. unfold madd. destruct (Nat.ltb_spec (a + b) (usize_values bd)); [reflexivity|lia]. Qed.
Lemma msub_ok bd a b : b <= a -> msub bd a b = Val (a - b).
Proof. intros H. unfold msub. destruct (Nat.leb_spec b a); [reflexivity|lia]. Qed.
Lemma mmul_ok bd a b : a * b < usize_values bd -> mmul bd a b = Val (a * b).
Proof. intros H. unfold mmul. destruct (Nat.ltb_spec (a * b) (usize_values bd)); [reflexivity|lia]. Qed.
Lemma msub_refines bd a b : refines (sub_chk a b) (msub bd a b).
Proof.
  intros v. unfold sub_chk. destruct (Nat.ltb_spec a b); [discriminate|]. intros [= <-]. now apply msub_ok.
Qed.
Lemma sub_chk_ok a b v : sub_chk a b = Val v -> b <= a /\ v = a - b.
Proof. unfold sub_chk. destruct (Nat.ltb_spec a b); [discriminate|]. intros [= <-]. split; [lia|reflexivity]. Qed.

(** ** Buffers *)
Definition std (f : fmt) : Prop := f = fmt7 \/ f = fmt8.
Lemma std_words f : std f -> 2 <= f_words f <= 4.
Proof. intros [-> | ->]; cbn; lia. Qed.

Lemma idx_in b i x : idx b i = Val x -> i < List.length b.
Proof. unfold idx. destruct (nth_error b i) eqn:E; [|discriminate]. intros _. apply nth_error_Some. congruence. Qed.
Lemma upd_in b i g b' : upd b i g = Val b' -> i < List.length b /\ List.length b' = List.length b.
Proof.
  unfold upd. destruct (nth_error b i) eqn:E; [|discriminate]. intros [= <-]. split; [apply nth_error_Some; congruence|apply set_nth_length].
Qed.
Lemma put_octet_in b w o v b' : put_octet b w o v = Val b' -> w < List.length b /\ List.length b' = List.length b.
Proof. apply upd_in. Qed.
Lemma put_unit_in f b w o v b' : put_unit f b w o v = Val b' -> w < List.length b /\ List.length b' = List.length b.
Proof. apply upd_in. Qed.
Lemma get_octet_in b w o v : get_octet b w o = Val v -> w < List.length b.
Proof. unfold get_octet. intros E. destruct (bind_val _ _ _ E) as (x & X & _). exact (idx_in _ _ _ X). Qed.
Lemma get_unit_in f b w o v : get_unit f b w o = Val v -> w < List.length b.
Proof. unfold get_unit. intros E. destruct (bind_val _ _ _ E) as (x & X & _). exact (idx_in _ _ _ X). Qed.
Lemma nib_lt x i : (nibble32 x i < 16)%N.
Proof. rewrite nibble_bits. apply N.mod_lt. discriminate. Qed.
Lemma chunks_count w b : 0 < w -> List.length (chunks_exact w b) = List.length b / w.
Proof. intros H. rewrite chunks_exact_spec by exact H. now rewrite map_length, seq_length. Qed.

(** ** Packet sizes *)
Lemma packet_size_le f c s : packet_size f c = Val s -> s <= 15.
Proof.
  unfold packet_size. pose proof (nib_lt (hd0 c) 3). destruct (N.ltb_spec (nibble32 (hd0 c) 3) (f_ext f)); [discriminate|].
  intros [= <-]. lia.
Qed.
Lemma packet_size_refines bd f c : refines (packet_size f c) (packet_size_m bd f c).
Proof.
  intros v. unfold packet_size, packet_size_m. destruct (N.ltb_spec (nibble32 (hd0 c) 3) (f_ext f)); [discriminate|].
  intros [= <-]. rewrite msub_ok by lia. f_equal. lia.
Qed.
Lemma packet_size8_refines bd f x : refines (packet_size f [x]) (packet_size8_m bd f x).
Proof.
  intros v. unfold packet_size, packet_size8_m. cbv zeta; change (hd0 [x]) with x. destruct (N.ltb_spec (nibble32 x 3) (f_ext f)); [discriminate|].
  intros [= <-]. unfold msub8. destruct (N.leb_spec (f_ext f) (nibble32 x 3)); [reflexivity|lia].
Qed.
Lemma sum_sizes_le f l s : sum_sizes f l = Val s -> s <= 15 * List.length l.
Proof.
  revert s. induction l as [|c l IH]; cbn [sum_sizes List.length]; intros s E; [inversion E; lia|].
  destruct (bind_val _ _ _ E) as (a & A & E1). destruct (bind_val _ _ _ E1) as (r & R & Z0). injection Z0 as <-.
  apply packet_size_le in A. apply IH in R. lia.
Qed.
Lemma sum_sizes_m_ok bd f l : forall s acc, sum_sizes f l = Val s -> acc + s < usize_values bd ->
  sum_sizes_m bd f l acc = Val (acc + s).
Proof.
  induction l as [|c l IH]; cbn [sum_sizes sum_sizes_m]; intros s acc E L; [inversion E; f_equal; lia|].
  destruct (bind_val _ _ _ E) as (a & A & E1). destruct (bind_val _ _ _ E1) as (r & R & Z0). injection Z0 as <-.
  rewrite (packet_size_refines bd f c _ A). cbn [bind]. rewrite madd_ok by lia. cbn [bind].
  rewrite (IH r) by (auto; lia). f_equal. lia.
Qed.

Lemma data_le f b d : sx_data f b = Val d -> List.length d <= List.length b.
Proof.
  unfold sx_data. intros E. destruct (bind_val _ _ _ E) as (n & _ & P). unfold prefix in P.
  destruct (Nat.leb_spec n (List.length b)); [|discriminate]. injection P as <-. rewrite firstn_length. lia.
Qed.
Lemma payload_le f b it : std f -> payload f b = Val it -> it_left it <= 8 * List.length b /\ it_data it = b.
Proof.
  intros F. unfold payload. intros E. destruct (bind_val _ _ _ E) as (d & D & E1). destruct (bind_val _ _ _ E1) as (s & S & Z0). injection Z0 as <-.
  cbn [it_left it_data]. split; [|reflexivity]. apply data_le in D. apply sum_sizes_le in S. pose proof (std_words f F) as W.
  rewrite chunks_count in S by lia. pose proof (Nat.mul_div_le (List.length d) (f_words f)). nia.
Qed.
Lemma payload_size_le f b n : std f -> payload_size f b = Val n -> n <= 8 * List.length b.
Proof.
  intros F E. destruct (bind_val _ _ _ E) as (it & P & Z0). injection Z0 as <-. exact (proj1 (payload_le f b it F P)).
Qed.
Lemma payload_size_le8 b n : payload_size fmt8 b = Val n -> n <= 4 * List.length b.
Proof.
  intros E. destruct (bind_val _ _ _ E) as (it & P & Z0). injection Z0 as <-. unfold payload in P.
  destruct (bind_val _ _ _ P) as (d & D & E1). destruct (bind_val _ _ _ E1) as (s & S & Z0). injection Z0 as <-. cbn [it_len it_left].
  apply data_le in D. apply sum_sizes_le in S. rewrite chunks_count in S by (cbn; lia). cbn [f_words fmt8] in S.
  pose proof (Nat.mul_div_le (List.length d) 4). lia.
Qed.
Lemma payload_refines bd f b : std f -> 8 * List.length b < usize_values bd -> refines (payload f b) (payload_m bd f b).
Proof.
  intros F L it E. pose proof (proj1 (payload_le f b it F E)) as B. unfold payload, payload_m in *.
  destruct (bind_val _ _ _ E) as (d & D & E1). destruct (bind_val _ _ _ E1) as (s & S & E2). injection E2 as <-. cbn [it_left] in B.
  rewrite D. cbn [bind]. rewrite (sum_sizes_m_ok bd f _ s 0 S) by lia. reflexivity.
Qed.
Lemma payload_size_refines bd f b : std f -> 8 * List.length b < usize_values bd ->
  refines (payload_size f b) (payload_size_m bd f b).
Proof.
  intros F L. unfold payload_size, payload_size_m. apply refines_bind; [now apply payload_refines|]. intros. apply refines_refl.
Qed.

(** ** Iterators *)
Section Iter.
  Context (bd : build) (f : fmt) (F : std f).
  Definition roomy (it : iter) : Prop := 16 * List.length (it_data it) + 64 <= usize_values bd.

  Lemma current_size_in it s : current_size f it = Val s ->
    it_packet it * f_words f + f_words f <= List.length (it_data it) /\ s <= 15.
  Proof.
    unfold current_size. destruct (Nat.ltb_spec (List.length (it_data it)) (it_packet it * f_words f + f_words f)); [discriminate|].
    intros E. split; [assumption|exact (packet_size_le _ _ _ E)].
  Qed.
  Lemma current_size_refines it : roomy it -> refines (current_size f it) (current_size_m bd f it).
  Proof.
    intros R s E. pose proof (current_size_in it s E) as [L _]. unfold roomy in R. unfold current_size, current_size_m in *.
    rewrite mmul_ok by lia. cbn [bind]. rewrite madd_ok by lia. cbn [bind].
    destruct (Nat.ltb_spec (List.length (it_data it)) (it_packet it * f_words f + f_words f)); [discriminate|].
    destruct (Nat.ltb_spec (it_packet it * f_words f + f_words f) (it_packet it * f_words f)); [lia|]. cbn [orb].
    replace (it_packet it * f_words f + f_words f - it_packet it * f_words f) with (f_words f) by lia.
    now apply packet_size_refines.
  Qed.

  Lemma skip_refines fuel : forall it, roomy it -> refines (it_skip_aux fuel f it) (it_skip_aux_m fuel bd f it).
  Proof.
    induction fuel as [|k IH]; intros it R; cbn [it_skip_aux it_skip_aux_m]; destruct (it_left it =? 0); try apply refines_refl;
      (apply refines_bind; [now apply current_size_refines|]); intros s E; destruct (s =? 0); try apply refines_refl.
    pose proof (current_size_in it s E) as [L _]. pose proof (std_words f F). unfold roomy in R.
    eapply refines_step; [apply madd_ok; nia|]. rewrite Nat.add_1_r. now apply IH.
  Qed.
  Lemma skip_data fuel : forall it it', it_skip_aux fuel f it = Val it' -> it_data it' = it_data it.
  Proof.
    induction fuel as [|k IH]; intros it it'; cbn [it_skip_aux]; destruct (it_left it =? 0); try (intros [= <-]; reflexivity);
      intros E; destruct (bind_val _ _ _ E) as (s & _ & E1); destruct (s =? 0); try (injection E1 as <-; reflexivity); try discriminate.
    exact (IH _ _ E1).
  Qed.

  Lemma value_in it v : it_value f it = Val v -> it_packet it * f_words f < List.length (it_data it)
    /\ it_payload it <= 4 * List.length (it_data it).
  Proof.
    unfold it_value. intros E. apply get_unit_in in E. pose proof (Nat.div_mod_eq (it_payload it + f_head f) 4).
    pose proof (Nat.mod_upper_bound (it_payload it + f_head f) 4). lia.
  Qed.
  Lemma head_le : f_head f <= 3.
  Proof. destruct F as [-> | ->]; cbn; lia. Qed.
  Lemma value_refines it : roomy it -> refines (it_value f it) (it_value_m bd f it).
  Proof.
    intros R v E. pose proof (value_in it v E) as [A B]. unfold it_value in E. pose proof (get_unit_in _ _ _ _ _ E) as L. unfold roomy in R.
    pose proof head_le. unfold it_value_m. rewrite mmul_ok by lia. cbn [bind]. rewrite madd_ok by lia. cbn [bind].
    rewrite madd_ok by lia. exact E.
  Qed.

  Lemma advance_refines it : roomy it -> it_payload it <= 4 * List.length (it_data it) ->
    refines (it_advance f it) (it_advance_m bd f it).
  Proof.
    intros R P. unfold it_advance, it_advance_m. cbv zeta. unfold roomy in R. eapply refines_step; [apply madd_ok; lia|].
    rewrite Nat.add_1_r. eapply refines_step with (a := if it_left it =? 0 then 0 else it_left it - 1).
    { destruct (Nat.eqb_spec (it_left it) 0); [reflexivity|]. apply msub_ok. lia. }
    apply refines_bind; [now apply current_size_refines|]. intros s E. pose proof (current_size_in it s E) as [L _].
    pose proof (std_words f F). generalize (if f_seven f then S (it_payload it) =? s else s <=? S (it_payload it)). intros at_end.
    eapply refines_step with (a := if at_end then S (it_packet it) else it_packet it).
    { destruct at_end; [|reflexivity]. rewrite madd_ok by nia. f_equal. lia. }
    destruct (f_seven f); [|apply refines_refl]. unfold it_skip, it_skip_m. cbn [it_data]. apply skip_refines. exact R.
  Qed.

  Lemma next_refines it : roomy it -> refines (it_next f it) (it_next_m bd f it).
  Proof.
    intros R. unfold it_next, it_next_m. destruct (it_left it =? 0); [apply refines_refl|].
    apply refines_bind; [now apply skip_refines|]. intros it1 E1. pose proof (skip_data _ _ _ E1) as D1.
    assert (R1 : roomy it1) by (unfold roomy; now rewrite D1).
    apply refines_bind; [now apply value_refines|]. intros v V. pose proof (value_in it1 v V) as [_ P].
    apply refines_bind; [now apply advance_refines|]. intros. apply refines_refl.
  Qed.

  Lemma nth_loop_refines l : forall it k n, roomy it -> it_packet it + k + List.length l < usize_values bd ->
    refines (nth_loop f it l k n) (nth_loop_m bd f it l k n).
  Proof.
    induction l as [|c l IH]; intros it k n R L; cbn [nth_loop nth_loop_m]; [apply refines_refl|]. cbn [List.length] in L.
    apply refines_bind; [apply packet_size_refines|]. intros s _. destruct (n <? s).
    - eapply refines_step; [apply madd_ok; lia|]. apply refines_bind; [apply msub_refines|]. intros. apply refines_refl.
    - apply refines_bind; [apply msub_refines|]. intros left _. apply IH; [exact R|]. cbn [it_packet]. lia.
  Qed.
  Lemma nth_loop_data l : forall it k n it', nth_loop f it l k n = Val (Some it') -> it_data it' = it_data it.
  Proof.
    induction l as [|c l IH]; intros it k n it'; cbn [nth_loop]; [discriminate|]. intros E.
    destruct (bind_val _ _ _ E) as (s & _ & E1). destruct (n <? s); destruct (bind_val _ _ _ E1) as (l0 & _ & E2).
    - injection E2 as <-. reflexivity.
    - apply IH in E2. exact E2.
  Qed.

  Lemma nth_refines it n : roomy it -> refines (it_nth f it n) (it_nth_m bd f it n).
  Proof.
    intros R. unfold it_nth, it_nth_m. pose proof R as R'. unfold roomy in R'. pose proof (std_words f F).
    destruct (Nat.ltb_spec (List.length (it_data it)) (it_packet it * f_words f)) as [|L]; [apply refines_panic|].
    eapply refines_step; [apply mmul_ok; lia|].
    destruct (Nat.ltb_spec (List.length (it_data it)) (it_packet it * f_words f)); [lia|].
    pose proof (chunks_count (f_words f) (skipn (it_packet it * f_words f) (it_data it)) ltac:(lia)) as C.
    destruct (chunks_exact (f_words f) (skipn (it_packet it * f_words f) (it_data it))) as [|c rest]; [apply refines_refl|].
    apply refines_bind; [apply packet_size_refines|]. intros s S. pose proof (packet_size_le _ _ _ S).
    apply refines_bind; [apply msub_refines|]. intros rem Q. destruct (sub_chk_ok _ _ _ Q) as [Q1 ->].
    destruct (Nat.ltb_spec n (s - it_payload it)).
    - eapply refines_step; [apply madd_ok; lia|]. apply refines_bind; [apply msub_refines|]. intros left _.
      apply refines_bind; [apply next_refines; exact R|]. intros. apply refines_refl.
    - apply refines_bind; [apply msub_refines|]. intros left _. apply refines_bind.
      + apply nth_loop_refines; [exact R|]. cbn [it_packet]. cbn [List.length] in C.
        assert (List.length (skipn (it_packet it * f_words f) (it_data it)) / f_words f <= List.length (it_data it)).
        { rewrite skipn_length. etransitivity; [apply Nat.div_le_upper_bound with (q := List.length (it_data it)); nia|]. lia. }
        nia.
      + intros o O. destruct o as [it'|]; [|apply refines_refl].
        apply refines_bind; [|intros; apply refines_refl]. apply next_refines. apply nth_loop_data in O. unfold roomy. rewrite O. exact R.
  Qed.
End Iter.
