(** Lemmas on [chunks_exact], [chunks] and [take_while]. *)
From Coq Require Import NArith List Bool Arith Lia.
From Verif Require Import Base.
Import ListNotations.

Definition chunk (n i : nat) (b : list N) : list N := firstn n (skipn (n * i) b).

Lemma skipn_skipn' {A} a b (l : list A) : skipn a (skipn b l) = skipn (b + a) l.
Proof.
  revert l; induction b; cbn; intros; auto. destruct l; cbn; auto.
  now rewrite !skipn_nil.
Qed.

Lemma chunk_skipn n i j b : chunk n i (skipn (n * j) b) = chunk n (j + i) b.
Proof. unfold chunk. rewrite skipn_skipn'. do 2 f_equal. lia. Qed.

Lemma chunks_exact_aux_spec n b fuel : (0 < n)%nat -> (List.length b <= fuel)%nat ->
  chunks_exact_aux fuel n b = map (fun i => chunk n i b) (seq 0 (List.length b / n)).
Proof.
  intros Hn. revert b; induction fuel as [|f IH]; intros b H; cbn [chunks_exact_aux].
  - replace (List.length b) with 0 by lia. rewrite Nat.div_0_l by lia. reflexivity.
  - destruct (Nat.ltb_spec (List.length b) n) as [Hl|Hl].
    + rewrite Nat.div_small by lia. reflexivity.
    + rewrite IH by (rewrite skipn_length; lia).
      rewrite skipn_length.
      assert (E : (List.length b / n = S ((List.length b - n) / n))%nat).
      { replace (List.length b) with ((List.length b - n) + 1 * n)%nat at 1 by lia.
        rewrite Nat.div_add by lia. lia. }
      rewrite E. cbn [seq map]. f_equal.
      * unfold chunk. now rewrite Nat.mul_0_r.
      * rewrite <- seq_shift, map_map. apply map_ext. intros i.
        unfold chunk. rewrite skipn_skipn'. do 2 f_equal. lia.
Qed.

Lemma chunks_exact_spec n b : (0 < n)%nat ->
  chunks_exact n b = map (fun i => chunk n i b) (seq 0 (List.length b / n)).
Proof. intros. now apply chunks_exact_aux_spec. Qed.

Lemma chunks_aux_spec n b fuel : (0 < n)%nat -> (List.length b <= fuel)%nat ->
  chunks_aux fuel n b = map (fun i => chunk n i b) (seq 0 ((List.length b + n - 1) / n)).
Proof.
  intros Hn. revert b; induction fuel as [|f IH]; intros b H; cbn [chunks_aux].
  - replace (List.length b) with 0 by lia. rewrite Nat.div_small by lia. reflexivity.
  - destruct b as [|x b]; [cbn; rewrite Nat.div_small by lia; reflexivity|].
    cbn [List.length] in *.
    + rewrite IH by (rewrite skipn_length; cbn [List.length]; lia).
      rewrite skipn_length. cbn [List.length].
      assert (E : ((S (List.length b) + n - 1) / n
                   = S ((S (List.length b) - n + n - 1) / n))%nat).
      { destruct (Nat.le_gt_cases n (S (List.length b))) as [Hc|Hc].
        - replace (S (List.length b) + n - 1)%nat
            with ((S (List.length b) - n + n - 1) + 1 * n)%nat by lia.
          rewrite Nat.div_add by lia. lia.
        - replace (S (List.length b) - n + n - 1)%nat with (n - 1)%nat by lia.
          rewrite (Nat.div_small (n - 1)) by lia.
          symmetry. apply Nat.div_unique with (S (List.length b) - 1)%nat; lia. }
      rewrite E. cbn [seq map]. f_equal.
      * unfold chunk. now rewrite Nat.mul_0_r.
      * rewrite <- seq_shift, map_map. apply map_ext. intros i.
        unfold chunk. rewrite skipn_skipn'. do 2 f_equal. lia.
Qed.

Lemma chunks_spec n b : (0 < n)%nat ->
  chunks n b = map (fun i => chunk n i b) (seq 0 ((List.length b + n - 1) / n)).
Proof. intros. now apply chunks_aux_spec. Qed.

Lemma nth_skipn {A} a (l : list A) i d : nth i (skipn a l) d = nth (a + i) l d.
Proof. revert l; induction a; cbn; intros; auto. destruct l; cbn; auto. now destruct i. Qed.

Lemma nth_firstn {A} n (l : list A) i d : nth i (firstn n l) d = if i <? n then nth i l d else d.
Proof.
  revert l i; induction n; intros l i.
  - cbn. now destruct i.
  - destruct l as [|x l], i as [|i]; cbn [firstn nth]; auto.
    + now destruct (S i <? S n).
    + rewrite IHn. reflexivity.
Qed.

Lemma hd0_chunk n i b : (0 < n)%nat -> hd0 (chunk n i b) = nth (n * i) b 0%N.
Proof.
  intros. unfold hd0, chunk. rewrite nth_firstn, nth_skipn.
  destruct (Nat.ltb_spec 0 n); [|lia]. f_equal. lia.
Qed.

Lemma nth_chunk n i b j : (j < n)%nat -> nth j (chunk n i b) 0%N = nth (n * i + j) b 0%N.
Proof.
  intros. unfold chunk. rewrite nth_firstn, nth_skipn.
  destruct (Nat.ltb_spec j n); [|lia]. reflexivity.
Qed.

Lemma chunk_length n i b : (n * S i <= List.length b)%nat -> List.length (chunk n i b) = n.
Proof. intros. unfold chunk. rewrite firstn_length, skipn_length. lia. Qed.

(** Number of leading elements satisfying [f]. *)
Fixpoint span {A} (f : A -> bool) (l : list A) : nat :=
  match l with [] => 0 | x :: t => if f x then S (span f t) else 0 end.

Lemma take_while_span {A} (f : A -> bool) l : take_while f l = firstn (span f l) l.
Proof. induction l; cbn; auto. destruct (f a); cbn; auto. now f_equal. Qed.

Lemma span_le {A} (f : A -> bool) l : (span f l <= List.length l)%nat.
Proof. induction l; cbn; auto. destruct (f a); lia. Qed.

Lemma take_while_length {A} (f : A -> bool) l : List.length (take_while f l) = span f l.
Proof. rewrite take_while_span, firstn_length. pose proof (span_le f l). lia. Qed.

Lemma take_while_forall {A} (f : A -> bool) l : Forall (fun x => f x = true) (take_while f l).
Proof. induction l; cbn; auto. destruct (f a) eqn:E; auto. Qed.

Lemma take_while_map {A B} (g : A -> B) (f : B -> bool) l :
  take_while f (map g l) = map g (take_while (fun x => f (g x)) l).
Proof. induction l; cbn; auto. destruct (f (g a)); cbn; auto. now f_equal. Qed.

Lemma take_while_ext {A} (f g : A -> bool) l :
  (forall x, In x l -> f x = g x) -> take_while f l = take_while g l.
Proof.
  induction l; cbn; intros H; auto. rewrite H by auto. destruct (g a); auto.
  f_equal. apply IHl. auto.
Qed.

Lemma forallb_ext {A} (f g : A -> bool) l :
  (forall x, In x l -> f x = g x) -> forallb f l = forallb g l.
Proof. induction l; cbn; intros H; auto. rewrite H, IHl; auto. Qed.

Lemma forallb_map {A B} (g : A -> B) (f : B -> bool) l :
  forallb f (map g l) = forallb (fun x => f (g x)) l.
Proof. induction l; cbn; auto. now rewrite IHl. Qed.

Lemma firstn_map {A B} (g : A -> B) n l : firstn n (map g l) = map g (firstn n l).
Proof. revert l; induction n; destruct l; cbn; auto. now f_equal. Qed.

Lemma firstn_seq k a n : firstn k (seq a n) = seq a (min k n).
Proof. revert a n; induction k; destruct n; cbn; auto. now f_equal. Qed.

Lemma take_while_seq (f : nat -> bool) a n :
  exists k, (k <= n)%nat /\ take_while f (seq a n) = seq a k
    /\ (forall i, (i < k)%nat -> f (a + i)%nat = true)
    /\ ((k < n)%nat -> f (a + k)%nat = false).
Proof.
  revert a; induction n as [|n IH]; intros a; cbn.
  - exists 0%nat. repeat split; auto; lia.
  - destruct (f a) eqn:E.
    + destruct (IH (S a)) as (k & H1 & H2 & H3 & H4).
      exists (S k). repeat split; try lia.
      * cbn. now f_equal.
      * intros [|i] Hi; [now rewrite Nat.add_0_r|].
        replace (a + S i)%nat with (S a + i)%nat by lia. apply H3. lia.
      * intros Hk. replace (a + S k)%nat with (S a + k)%nat by lia. apply H4. lia.
    + exists 0%nat. repeat split; auto; try lia. intros _. now rewrite Nat.add_0_r.
Qed.
