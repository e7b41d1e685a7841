(** Lemmas: SpliceUnannounced.v in terms of lists and of the rooms made. *)
From Coq Require Import NArith List Bool Arith Lia ZifyBool.
From Verif Require Import Base Sysex Splice ListLemmas SpliceLemmas SpliceUnannounced SpecUnannounced.
Import ListNotations.
Local Open Scope nat_scope.

Lemma pow_pos k : 1 <= 2 ^ k.
Proof. induction k; cbn [Nat.pow]; lia. Qed.
Lemma pow_le j k : j <= k -> 2 ^ j <= 2 ^ k.
Proof. apply Nat.pow_le_mono_r. lia. Qed.
Lemma pow_gt k : k < 2 ^ k.
Proof. induction k; cbn [Nat.pow]; lia. Qed.

Lemma reach_enough A K n : forall fuel j k, n <= room_after A k -> room_after A k <= K ->
  reach fuel (room_after A j) (2 ^ j) K n = None.
Proof.
  unfold room_after. induction fuel as [|f IH]; intros j k H1 H2; [reflexivity|]. cbn [reach].
  destruct (Nat.leb_spec n (A + (2 ^ j - 1))) as [|Lt]; [reflexivity|].
  assert (Jk : S j <= k). { destruct (Nat.le_gt_cases k j) as [X|X]; [|lia]. apply pow_le in X. lia. }
  pose proof (pow_pos j). apply pow_le in Jk. cbn [Nat.pow] in Jk. replace (A + (2 ^ j - 1) + 2 ^ j <=? K) with true by lia.
  replace (A + (2 ^ j - 1) + 2 ^ j) with (A + (2 ^ S j - 1)) by (cbn [Nat.pow]; lia).
  replace (2 ^ j * 2) with (2 ^ S j) by (cbn [Nat.pow]; lia). now apply (IH (S j) k).
Qed.

Lemma reach_full A K n k : room_after A k < n -> room_after A k <= K -> K < room_after A (S k) ->
  forall fuel j, j <= k -> k < j + fuel -> reach fuel (room_after A j) (2 ^ j) K n = Some (room_after A k).
Proof.
  unfold room_after. intros H1 H2 H3. induction fuel as [|f IH]; intros j Hj Hf; [lia|]. cbn [reach].
  pose proof (pow_le _ _ Hj) as Pj. pose proof (pow_pos j). replace (n <=? A + (2 ^ j - 1)) with false by lia.
  destruct (Nat.eq_dec j k) as [->|Ne].
  - cbn [Nat.pow] in H3. replace (A + (2 ^ k - 1) + 2 ^ k <=? K) with false by lia. reflexivity.
  - assert (Jk : S j <= k) by lia. pose proof (pow_le _ _ Jk) as P2. cbn [Nat.pow] in P2. replace (A + (2 ^ j - 1) + 2 ^ j <=? K) with true by lia.
    replace (A + (2 ^ j - 1) + 2 ^ j) with (A + (2 ^ S j - 1)) by (cbn [Nat.pow]; lia).
    replace (2 ^ j * 2) with (2 ^ S j) by (cbn [Nat.pow]; lia). apply IH; lia.
Qed.

(** One of the cases applies. *)
Lemma room_cases A K n : A < n -> n <= K ->
  (exists k, n <= room_after A k <= K) \/ (exists k, room_after A k < n <= K /\ K < room_after A (S k)).
Proof.
  intros H1 H2. assert (X : forall m, (exists k, n <= room_after A k <= K) \/ (exists k, room_after A k < n <= K /\ K < room_after A (S k)) \/ room_after A m < n).
  { induction m as [|m [X|[X|X]]]; [right; right; unfold room_after; cbn; lia|now left|right; now left|].
    destruct (Nat.le_gt_cases n (room_after A (S m))) as [Y|Y]; [|right; now right].
    destruct (Nat.le_gt_cases (room_after A (S m)) K); [left; eauto|right; left; eauto]. }
  destruct (X n) as [Y|[Y|Y]]; [now left|now right|]. unfold room_after in Y. pose proof (pow_gt n). lia.
Qed.

Lemma list_is (p q : list N) : List.length p = List.length q -> (forall i, i < List.length p -> nth i p 0%N = nth i q 0%N) -> p = q.
Proof.
  revert q. induction p as [|x p IH]; intros [|y q] L H; try discriminate; [reflexivity|]. f_equal; [exact (H 0 ltac:(cbn; lia))|].
  apply IH; [cbn in L; lia|]. intros i Hi. exact (H (S i) ltac:(cbn; lia)).
Qed.
Lemma nth_cut {A} (l : list A) x i d : i < x -> nth i (firstn x l) d = nth i l d.
Proof. revert l i; induction x as [|x IH]; intros [|y l] [|i] H; cbn; try lia; auto. apply IH. lia. Qed.

(** A list in pieces. *)
Lemma piece (p : list N) x y : x <= y -> skipn x p = firstn (y - x) (skipn x p) ++ skipn y p.
Proof.
  intros H. rewrite <- (firstn_skipn (y - x) (skipn x p)) at 1. f_equal. rewrite skipn_both. f_equal. lia.
Qed.
Lemma piece_is (p q : list N) x y : y <= List.length p -> List.length q = y - x -> x <= y ->
  (forall i, i < y - x -> nth (x + i) p 0%N = nth i q 0%N) -> firstn (y - x) (skipn x p) = q.
Proof.
  intros H1 H2 H3 H. apply list_is.
  - rewrite firstn_length, skipn_length. lia.
  - intros i Hi. rewrite firstn_length, skipn_length in Hi. rewrite nth_cut by lia. rewrite nth_skipn. apply H. lia.
Qed.

Lemma spoilt_pieces l a e items w K p :
  a < e -> e <= List.length l -> w < List.length items -> List.length items <= K -> e - a <= K ->
  List.length p = List.length l - (e - a) + List.length items ->
  (forall i, i < a -> nth i p 0%N = nth i l 0%N) ->
  (forall i, i < List.length items -> i < K - (e - a) \/ w <= i -> nth (a + i) p 0%N = nth i items 0%N) ->
  (forall i, K - (e - a) + i < w -> i < List.length l - e -> nth (a + (K - (e - a)) + i) p 0%N = nth (e + i) l 0%N) ->
  (forall i, (e - a) + i < List.length l - e -> nth (a + List.length items + i) p 0%N = nth (e + (e - a) + i) l 0%N) ->
  spoilt_payload l a e items w K p.
Proof.
  intros Hae Hel Hw HnK HdK Lp H1 H2 H3 H4. unfold spoilt_payload. set (d := e - a) in *. set (n := List.length items) in *.
  set (x := Nat.min w (K - d)).
  exists (firstn (a + w - (a + x)) (skipn (a + x) p)), (skipn (a + n + (List.length l - e - d)) p).
  split; [|split; [|split]].
  - rewrite <- (firstn_skipn a p) at 1. f_equal.
    { apply list_is; [rewrite !firstn_length; lia|]. intros i Hi. rewrite firstn_length in Hi. rewrite !nth_cut by lia. apply H1. lia. }
    rewrite (piece p a (a + x)) by lia. f_equal.
    { replace (a + x - a) with x by lia. rewrite <- (piece_is p (firstn x items) a (a + x)); [f_equal; lia| | | |].
      - lia. - rewrite firstn_length. fold n. lia. - lia.
      - intros i Hi. rewrite nth_cut by lia. apply H2; lia. }
    rewrite (piece p (a + x) (a + w)) at 1 by lia. f_equal.
    rewrite (piece p (a + w) (a + n)) by lia. f_equal.
    { apply piece_is; [lia|rewrite skipn_length; fold n; lia|lia|]. intros i Hi. rewrite nth_skipn. rewrite <- Nat.add_assoc. rewrite H2 by lia. f_equal; lia. }
    rewrite (piece p (a + n) (a + n + (List.length l - e - d))) at 1 by lia. f_equal.
    apply piece_is; [lia|rewrite !skipn_length; lia|lia|]. intros i Hi. rewrite !nth_skipn. rewrite H4 by lia. f_equal; lia.
  - rewrite firstn_length, skipn_length. lia.
  - apply list_is; rewrite !firstn_length, ?skipn_length; [lia|]. intros i Hi. rewrite !nth_cut by lia. rewrite !nth_skipn.
    replace x with (K - d) by lia. rewrite H3 by lia. f_equal; lia.
  - rewrite !skipn_length. lia.
Qed.
