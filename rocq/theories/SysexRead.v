(** Lemmas: reading a system exclusive message of any packet sizes. *)
From Coq Require Import NArith List Bool Arith Lia ZifyBool ZifyNat ZifyN.
From Verif Require Import Base BitOps SpecLayout BitLemmas ListLemmas Helpers Message Sysex
  ByteView SysexLayout SysexEdit SpliceLemmas.
Import ListNotations.
Local Open Scope nat_scope.

(** Payload units of packet [p]. *)
Definition cnt (f : fmt) (b : list N) (p : nat) : nat := N.to_nat (oct b (pb f * p + 1) mod 16 - f_ext f).
Definition unit_at (f : fmt) (b : list N) (p q : nat) : N := keep f (oct b (pb f * p + f_head f + q)).
Definition units (f : fmt) (b : list N) (p : nat) : list N := map (unit_at f b p) (seq 0 (cnt f b p)).
Definition span_units (f : fmt) (b : list N) (p n : nat) : list N := flat_map (units f b) (seq p n).

(** The first [k] packets lie in the buffer and have legal sizes. *)
Definition sized (f : fmt) (b : list N) (k : nat) : Prop :=
  f_words f * k <= List.length b /\
  forall p, p < k -> (f_ext f <= oct b (pb f * p + 1) mod 16 <= f_ext f + N.of_nat (f_cap f))%N.

Lemma sized_le f b k k' : sized f b k -> k' <= k -> sized f b k'.
Proof. intros [A B] H. split; [nia|]. intros p Hp. apply B. lia. Qed.

Lemma cnt_le f b k p : sized f b k -> p < k -> cnt f b p <= f_cap f.
Proof. intros [_ S] Hp. specialize (S p Hp). unfold cnt. lia. Qed.

Lemma packet_size_cnt f b k p : okf f -> sized f b k -> p < k ->
  forall c, hd0 c = nth (f_words f * p) b 0%N -> packet_size f c = Val (cnt f b p).
Proof.
  intros H [_ S] Hp c E. specialize (S p Hp). pose proof (okf_facts f H).
  assert (X : nibble32 (hd0 c) 3 = (oct b (pb f * p + 1) mod 16)%N).
  { rewrite nibble32_3, E. unfold pb.
    replace (4 * f_words f * p + 1) with (4 * (f_words f * p) + 1) by lia.
    now rewrite oct_word by lia. }
  unfold packet_size. rewrite X. unfold cnt.
  destruct (N.ltb_spec (oct b (pb f * p + 1) mod 16) (f_ext f)); [lia|reflexivity].
Qed.

Lemma units_length f b p : List.length (units f b p) = cnt f b p.
Proof. unfold units. now rewrite map_length, seq_length. Qed.

Lemma span_units_S f b p n : span_units f b p (S n) = units f b p ++ span_units f b (S p) n.
Proof. reflexivity. Qed.

Lemma span_units_length f b p n :
  List.length (span_units f b p n) = list_sum (map (cnt f b) (seq p n)).
Proof.
  revert p; induction n as [|n IH]; intros p; [reflexivity|].
  rewrite span_units_S, app_length, units_length, IH. reflexivity.
Qed.

Lemma sum_sizes_cnt f b k : okf f -> sized f b k ->
  sum_sizes f (chunks_exact (f_words f) (firstn (f_words f * k) b))
  = Val (List.length (span_units f b 0 k)).
Proof.
  intros H S. pose proof (okf_facts f H) as F. destruct S as [HL S].
  rewrite chunks_exact_spec by lia. rewrite firstn_length, Nat.min_l by lia.
  rewrite (Nat.mul_comm (f_words f)), Nat.div_mul by lia.
  rewrite (sum_sizes_map f _ (cnt f b)).
  - now rewrite span_units_length.
  - intros i Hi. apply in_seq in Hi. apply packet_size_cnt with (k := k); [auto|split; auto|lia|].
    rewrite chunk_firstn by nia. now rewrite hd0_chunk by lia.
Qed.

(** ** The iterator *)

(** What the iterator still has to yield when the message has [k] packets. *)
Definition remaining (f : fmt) (k : nat) (it : iter) : list N :=
  skipn (it_payload it) (span_units f (it_data it) (it_packet it) (k - it_packet it)).
Definition cursor (f : fmt) (b : list N) (k : nat) (it : iter) : Prop :=
  it_data it = b /\ it_packet it <= k
  /\ (it_payload it = 0 \/ (it_packet it < k /\ it_payload it < cnt f b (it_packet it)))
  /\ it_left it = List.length (remaining f k it).

Lemma current_size_ok f b k it : okf f -> sized f b k -> it_data it = b -> it_packet it < k ->
  current_size f it = Val (cnt f b (it_packet it)).
Proof.
  intros H S E Hp. pose proof (okf_facts f H). pose proof S as [HL _]. unfold current_size. rewrite E.
  destruct (Nat.ltb_spec (List.length b) (it_packet it * f_words f + f_words f)); [nia|].
  eapply packet_size_cnt; eauto. unfold hd0. rewrite nth_firstn, nth_skipn.
  replace (0 <? f_words f) with true by lia. f_equal. lia.
Qed.

Lemma remaining_cons f b k p q l : p < k -> 
  remaining f k {| it_data := b; it_payload := q; it_packet := p; it_left := l |}
  = skipn q (units f b p ++ span_units f b (S p) (k - S p)).
Proof.
  intros. unfold remaining. cbn [it_data it_payload it_packet].
  replace (k - p) with (S (k - S p)) by lia. reflexivity.
Qed.

(** Skipping empty packets. *)
Lemma skip_ok f b k : okf f -> sized f b k ->
  forall fuel it, cursor f b k it -> 0 < it_left it -> k - it_packet it <= fuel ->
  exists it', it_skip_aux fuel f it = Val it' /\ cursor f b k it'
    /\ it_packet it' < k /\ it_payload it' < cnt f b (it_packet it')
    /\ remaining f k it' = remaining f k it /\ it_left it' = it_left it.
Proof.
  intros H S. induction fuel as [|fuel IH]; intros it C HL HF; pose proof C as (Ed & Ep & Eq & El).
  - exfalso. unfold remaining in El. replace (k - it_packet it) with 0 in El by lia.
    cbn in El. rewrite skipn_nil in El. cbn in El. lia.
  - assert (Hp : it_packet it < k).
    { destruct (Nat.eq_dec (it_packet it) k) as [E|]; [|lia]. exfalso.
      unfold remaining in El. rewrite E, Nat.sub_diag in El. cbn in El. rewrite skipn_nil in El.
      cbn in El. lia. }
    cbn [it_skip_aux]. replace (it_left it =? 0) with false by lia.
    rewrite (current_size_ok f b k it H S Ed Hp). cbn [bind].
    destruct (Nat.eqb_spec (cnt f b (it_packet it)) 0) as [E0|E0].
    + assert (Q : it_payload it = 0) by lia.
      assert (R : remaining f k {| it_data := it_data it; it_payload := 0;
                    it_packet := Datatypes.S (it_packet it); it_left := it_left it |} = remaining f k it).
      { unfold remaining. cbn [it_data it_payload it_packet]. rewrite Q, Ed.
        replace (k - it_packet it) with (Datatypes.S (k - Datatypes.S (it_packet it))) by lia.
        rewrite span_units_S. unfold units. rewrite E0. reflexivity. }
      destruct (IH {| it_data := it_data it; it_payload := 0;
                      it_packet := Datatypes.S (it_packet it); it_left := it_left it |})
        as (it' & E & C' & P1 & P2 & P3 & P4).
      * split; [exact Ed|]. cbn [it_packet it_payload it_left]. split; [lia|]. split; [now left|].
        now rewrite R.
      * exact HL.
      * cbn [it_packet]. lia.
      * exists it'. rewrite R in P3. exact (conj E (conj C' (conj P1 (conj P2 (conj P3 P4))))).
    + exists it. split; [reflexivity|]. split; [exact C|]. split; [exact Hp|].
      split; [lia|]. auto.
Qed.

Lemma it_skip_ok f b k it : okf f -> sized f b k -> cursor f b k it -> 0 < it_left it ->
  exists it', it_skip f it = Val it' /\ cursor f b k it'
    /\ it_packet it' < k /\ it_payload it' < cnt f b (it_packet it')
    /\ remaining f k it' = remaining f k it /\ it_left it' = it_left it.
Proof.
  intros H S C HL. unfold it_skip. eapply skip_ok; eauto.
  destruct C as (Ed & _). destruct S as [A _]. rewrite Ed. pose proof (okf_facts f H). nia.
Qed.

Lemma skip_zero f it : it_left it = 0 -> it_skip f it = Val it.
Proof.
  intros E. unfold it_skip. destruct (List.length (it_data it)); cbn [it_skip_aux];
    rewrite E; reflexivity.
Qed.

Lemma skipn_cons_nth (l : list N) q : q < List.length l -> skipn q l = nth q l 0%N :: skipn (S q) l.
Proof.
  revert q; induction l as [|x l IH]; intros [|q] Hq; cbn [List.length] in Hq; try lia; [reflexivity|].
  cbn [skipn nth]. apply IH. lia.
Qed.

(** The unit under the cursor. *)
Lemma value_ok f b k it : okf f -> sized f b k -> it_data it = b -> it_packet it < k ->
  it_payload it < cnt f b (it_packet it) ->
  it_value f it = Val (unit_at f b (it_packet it) (it_payload it)).
Proof.
  intros H S Ed Hp Hq. pose proof (okf_facts f H) as F. pose proof (cnt_le f b k _ S Hp) as Hc.
  destruct S as [HL _]. unfold it_value. rewrite Ed.
  set (q := it_payload it + f_head f).
  pose proof (Nat.div_mod q 4 ltac:(lia)) as D. pose proof (Nat.mod_upper_bound q 4 ltac:(lia)) as M.
  rewrite get_unit_ok; [| |exact M].
  - unfold unit_at. do 2 f_equal.
    replace (4 * (it_packet it * f_words f + q / 4) + q mod 4) with (pb f * it_packet it + q)
      by (unfold pb; lia). f_equal. unfold q. lia.
  - assert (q / 4 < f_words f) by (apply Nat.div_lt_upper_bound; [lia|]; unfold q, pb in *; lia).
    nia.
Qed.

Lemma next_ok f b k it : okf f -> sized f b k -> cursor f b k it ->
  match remaining f k it with
  | [] => it_next f it = Val (None, it)
  | v :: t => exists it', it_next f it = Val (Some v, it') /\ cursor f b k it' /\ remaining f k it' = t
  end.
Proof.
  intros H S C. pose proof C as (Ed & Ep & Eq & El). unfold it_next.
  destruct (Nat.eqb_spec (it_left it) 0) as [E0|E0].
  - destruct (remaining f k it); [reflexivity|]. cbn [List.length] in El. lia.
  - destruct (it_skip_ok f b k it H S C ltac:(lia)) as (it1 & E1 & C1 & Hp & Hq & R1 & L1).
    rewrite <- R1 in *. rewrite E1. cbn [bind]. clear E1 R1 C Ed Ep Eq.
    destruct C1 as (Ed & Ep & Eq & El1).
    rewrite (value_ok f b k it1 H S Ed Hp Hq). cbn [bind].
    destruct it1 as [d q p l]. cbn [it_data it_payload it_packet it_left] in *. subst d.
    rewrite remaining_cons in * by auto.
    assert (U : skipn q (units f b p ++ span_units f b (Datatypes.S p) (k - Datatypes.S p))
      = unit_at f b p q :: skipn (Datatypes.S q) (units f b p ++ span_units f b (Datatypes.S p) (k - Datatypes.S p))).
    { pose proof (units_length f b p) as UL.
      rewrite (skipn_cons_nth _ q) by (rewrite app_length; lia). f_equal.
      rewrite app_nth1 by lia. unfold units. rewrite (nth_indep _ _ (unit_at f b p 0)) by (rewrite map_length, seq_length; lia).
      rewrite map_nth, seq_nth by lia. reflexivity. }
    rewrite U in *. cbn [List.length] in El1.
    (* advance *)
    unfold it_advance. cbn [it_data it_payload it_packet it_left].
    replace (l =? 0) with false by lia.
    rewrite (current_size_ok f b k {| it_data := b; it_payload := q; it_packet := p; it_left := l |} H S eq_refl Hp).
    cbn [bind it_packet].
    assert (A : (if f_seven f then Datatypes.S q =? cnt f b p else cnt f b p <=? Datatypes.S q)
              = (Datatypes.S q =? cnt f b p)) by (destruct (f_seven f); lia).
    rewrite A. clear A.
    set (it2 := {| it_data := b; it_payload := if Datatypes.S q =? cnt f b p then 0 else Datatypes.S q;
                   it_packet := if Datatypes.S q =? cnt f b p then Datatypes.S p else p;
                   it_left := l - 1 |}).
    assert (R2 : remaining f k it2
      = skipn (Datatypes.S q) (units f b p ++ span_units f b (Datatypes.S p) (k - Datatypes.S p))).
    { unfold it2. destruct (Nat.eqb_spec (Datatypes.S q) (cnt f b p)) as [E|E].
      - unfold remaining. cbn [it_data it_payload it_packet].
        rewrite skipn_app, units_length, E, Nat.sub_diag.
        rewrite (skipn_all2 (units f b p)) by (rewrite units_length; lia). reflexivity.
      - now rewrite remaining_cons by auto. }
    assert (C2 : cursor f b k it2).
    { split; [reflexivity|]. split; [|split].
      - unfold it2. cbn [it_packet]. destruct (_ =? _); lia.
      - unfold it2. cbn [it_packet it_payload]. destruct (Nat.eqb_spec (Datatypes.S q) (cnt f b p)); lia.
      - rewrite R2. unfold it2. cbn [it_left]. lia. }
    destruct (f_seven f).
    + destruct (Nat.eq_dec (it_left it2) 0) as [Z|Z].
      * rewrite (skip_zero f it2 Z). cbn [bind]. exists it2. auto.
      * destruct (it_skip_ok f b k it2 H S C2 ltac:(lia)) as (it3 & E3 & C3 & _ & _ & R3 & _).
        rewrite E3. cbn [bind]. exists it3. split; [reflexivity|]. split; [exact C3|]. congruence.
    + cbn [bind]. exists it2. auto.
Qed.

(** Draining. *)
Lemma collect_ok f b k : okf f -> sized f b k ->
  forall fuel it, cursor f b k it -> List.length (remaining f k it) < fuel ->
  it_collect fuel f it = Val (remaining f k it).
Proof.
  intros H S. induction fuel as [|fuel IH]; intros it C HF; [lia|].
  cbn [it_collect]. pose proof (next_ok f b k it H S C) as N.
  destruct (remaining f k it) as [|v t] eqn:E.
  - rewrite N. reflexivity.
  - destruct N as (it' & E' & C' & R'). rewrite E'. cbn [bind].
    rewrite IH; [|exact C'|rewrite R'; cbn [List.length] in HF; lia]. cbn [bind]. now rewrite R'.
Qed.

Lemma span_units_bound f b k : okf f -> sized f b k ->
  forall n p, p + n <= k -> List.length (span_units f b p n) <= f_cap f * n.
Proof.
  intros H S. induction n as [|n IH]; intros p Hp; [cbn; lia|].
  rewrite span_units_S, app_length, units_length. pose proof (cnt_le f b k p S ltac:(lia)).
  specialize (IH (Datatypes.S p) ltac:(lia)). lia.
Qed.

(** [payload] when [size] is [k] packets. *)
Lemma payload_at f b k : okf f -> sized f b k -> sx_size f b = Val (f_words f * k) ->
  payload f b = Val {| it_data := b; it_payload := 0; it_packet := 0;
                       it_left := List.length (span_units f b 0 k) |}
  /\ cursor f b k {| it_data := b; it_payload := 0; it_packet := 0;
                       it_left := List.length (span_units f b 0 k) |}
  /\ remaining f k {| it_data := b; it_payload := 0; it_packet := 0;
                       it_left := List.length (span_units f b 0 k) |} = span_units f b 0 k.
Proof.
  intros H S E. pose proof S as [HL _].
  assert (R : remaining f k {| it_data := b; it_payload := 0; it_packet := 0;
                       it_left := List.length (span_units f b 0 k) |} = span_units f b 0 k).
  { unfold remaining. cbn [it_data it_payload it_packet skipn]. now rewrite Nat.sub_0_r. }
  split; [|split; [|exact R]].
  - unfold payload, sx_data. rewrite E. cbn [bind]. unfold prefix.
    replace (f_words f * k <=? List.length b) with true by lia. cbn [bind].
    rewrite sum_sizes_cnt by auto. reflexivity.
  - split; [reflexivity|]. cbn [it_packet it_payload it_left]. split; [lia|]. split; [now left|].
    now rewrite R.
Qed.

Lemma payload_list_at f b k : okf f -> sized f b k -> sx_size f b = Val (f_words f * k) ->
  payload_list f b = Val (span_units f b 0 k)
  /\ payload_size f b = Val (List.length (span_units f b 0 k)).
Proof.
  intros H S E. destruct (payload_at f b k H S E) as (P & C & R).
  unfold payload_list, payload_size. rewrite P. cbn [bind]. split; [|reflexivity].
  rewrite (collect_ok f b k H S); [now rewrite R|exact C|].
  rewrite R. pose proof (span_units_bound f b k H S k 0 ltac:(lia)).
  destruct S as [HL _]. pose proof (okf_facts f H). nia.
Qed.
