(** Lemmas: the byte-stream form of [Sysex7] implements the operations of the
    editing algorithm ([SpliceLemmas.laws]). *)
From Coq Require Import NArith List Bool Arith Lia ZifyBool ZifyNat ZifyN.
From Verif Require Import Base BitOps SpecLayout BitLemmas ListLemmas Helpers Message Sysex Splice
  ByteView SysexLayout SpliceLemmas.
Import ListNotations.
Local Open Scope nat_scope.

(** [b] starts with 0xF0, [n] bytes other than 0xF7, and 0xF7. *)
Record sealed (n : nat) (b : list N) : Prop := {
  se_len : n + 2 <= List.length b;
  se_begin : nth 0 b 0%N = 0xF0%N;
  se_end : nth (n + 1) b 0%N = 0xF7%N;
  se_body : forall i, i < n -> nth (i + 1) b 0%N <> 0xF7%N
}.
(** No other 0xF7 in the buffer. *)
Definition single (n : nat) (b : list N) : Prop :=
  forall j, n + 1 < j -> nth j b 0%N <> 0xF7%N.

Definition bytes_inv (k : room) (len n : nat) (b : list N) : Prop :=
  sealed n b /\ match k with Growable => List.length b = n + 2
                | _ => List.length b = len /\ single n b end.
Definition bytes_done (k : room) (len n : nat) (b : list N) : Prop :=
  sealed n b /\ match k with Growable => List.length b = n + 2 | _ => List.length b = len end.
Definition rd_b (b : list N) (i : nat) : N := nth (i + 1) b 0%N.
Definition septet (v : N) : Prop := (v < 128)%N.

Lemma position_nth (P : N -> bool) (l : list N) k : k < List.length l ->
  (forall i, i < k -> P (nth i l 0%N) = false) -> P (nth k l 0%N) = true -> position P l = Some k.
Proof.
  revert k; induction l as [|x l IH]; intros k Hk Hf Ht; cbn [List.length] in Hk; [lia|].
  cbn [position]. destruct k as [|k].
  - cbn [nth] in Ht. now rewrite Ht.
  - pose proof (Hf 0 ltac:(lia)) as H0. cbn [nth] in H0, Ht. rewrite H0.
    rewrite (IH k); [reflexivity|lia| |exact Ht].
    intros i Hi. apply (Hf (S i)). lia.
Qed.

Lemma sealed_size n b : sealed n b -> size_b b = Val (n + 2).
Proof.
  intros [HL H0 H1 Hb]. unfold size_b. rewrite (position_nth _ b (n + 1)).
  - f_equal. lia.
  - lia.
  - intros i Hi. apply N.eqb_neq. destruct i as [|i]; [rewrite H0; discriminate|].
    replace (S i) with (i + 1) by lia. apply Hb. lia.
  - rewrite H1. reflexivity.
Qed.

Lemma sealed_payload n b : sealed n b ->
  payload_b b = Val {| ib_data := firstn n (skipn 1 b); ib_index := 0 |}.
Proof.
  intros S. pose proof (se_len _ _ S) as HL. unfold payload_b, data_b.
  rewrite (sealed_size n b S). cbn [bind]. unfold prefix.
  replace (n + 2 <=? List.length b) with true by lia. cbn [bind].
  rewrite firstn_length, Nat.min_l by lia. unfold sub_chk.
  replace (n + 2 <? 1) with false by lia. cbn [bind].
  replace ((n + 2 - 1 <? 1) || (List.length b <? n + 2 - 1)) with false by lia.
  do 2 f_equal. f_equal. lia.
Qed.

Lemma sealed_payload_size n b : sealed n b -> payload_size_b b = Val n.
Proof.
  intros S. pose proof (se_len _ _ S) as HL. unfold payload_size_b. rewrite (sealed_payload n b S).
  cbn [bind]. unfold ib_len. cbn [ib_data ib_index]. rewrite firstn_length, skipn_length.
  replace (min n (List.length b - 1)) with n by lia. unfold sub_chk.
  replace (n <? 0) with false by lia. f_equal. lia.
Qed.

(** Draining the iterator. *)
Lemma ib_collect_ok data : Forall septet data -> forall fuel i, i <= List.length data ->
  List.length data - i < fuel ->
  ib_collect fuel {| ib_data := data; ib_index := i |} = Val (skipn i data).
Proof.
  intros Hv. induction fuel as [|k IH]; intros i Hi Hf; [lia|].
  cbn [ib_collect]. unfold ib_next. cbn [ib_data ib_index].
  destruct (Nat.leb_spec (List.length data) i).
  - cbn [bind]. rewrite skipn_all2 by lia. reflexivity.
  - rewrite idx_nth by lia. cbn [bind]. unfold u7_new.
    rewrite Forall_forall in Hv. pose proof (Hv _ (nth_In data 0%N H)) as X. unfold septet in X.
    replace (nth i data 0%N <? 128)%N with true by lia. cbn [bind].
    rewrite IH by lia. cbn [bind]. f_equal.
    assert (exists y t, skipn i data = y :: t) as (y & t & E).
    { destruct (skipn i data) eqn:E; [|eauto]. pose proof (skipn_length i data) as X'.
      rewrite E in X'. cbn [List.length] in X'. lia. }
    assert (nth i data 0%N = y).
    { replace i with (i + 0) by lia. rewrite <- nth_skipn, E. reflexivity. }
    rewrite E. f_equal; [assumption|]. replace (S i) with (i + 1) by lia.
    rewrite <- skipn_skipn', E. reflexivity.
Qed.

Lemma holds_payload_b l b : holds sealed rd_b l b -> Forall septet l ->
  payload_list_b b = Val l.
Proof.
  intros [S R] Hv. pose proof (se_len _ _ S) as HL. unfold payload_list_b.
  rewrite (sealed_payload _ b S). cbn [bind].
  assert (E : firstn (List.length l) (skipn 1 b) = l).
  { apply nth_ext with (d := 0%N) (d' := 0%N).
    - rewrite firstn_length, skipn_length. lia.
    - intros i Hi. rewrite firstn_length, skipn_length in Hi. rewrite nth_firstn, nth_skipn.
      replace (i <? List.length l) with true by lia. rewrite <- R by lia. unfold rd_b. f_equal. lia. }
  rewrite E. rewrite ib_collect_ok; [reflexivity|exact Hv|lia|lia].
Qed.

(** Resizing. *)
Lemma grow_bytes n b m : bytes_inv Growable 0 n b ->
  exists b', resize_b b m = Val b' /\ bytes_inv Growable 0 m b'
    /\ forall i, i < n -> i < m -> rd_b b' i = rd_b b i.
Proof.
  intros [S Len]. pose proof S as [HL H0 H1 Hb]. unfold resize_b.
  rewrite (sealed_payload_size n b S). cbn [bind].
  set (b1 := vec_resize b (m + 2)).
  assert (L1 : List.length b1 = m + 2) by apply vec_resize_length.
  assert (N1 : forall j, nth j b1 0%N = if j <? m + 2 then nth j b 0%N else 0%N)
    by (intros j; apply vec_resize_nth).
  assert (exists b2, (if n <? m then upd b1 (n + 1) (fun _ => 0%N) else Val b1) = Val b2
    /\ List.length b2 = m + 2
    /\ forall j, nth j b2 0%N = if (n <? m) && (j =? n + 1) then 0%N else nth j b1 0%N)
    as (b2 & E2 & L2 & N2).
  { destruct (Nat.ltb_spec n m).
    - rewrite upd_nth by lia. eexists. split; [reflexivity|].
      split; [now rewrite set_nth_length|]. intros j. rewrite nth_set_nth by lia. reflexivity.
    - exists b1. auto. }
  rewrite E2. cbn [bind]. rewrite upd_nth by lia.
  eexists. split; [reflexivity|].
  assert (N3 : forall j, nth j (set_nth b2 (m + 2 - 1) 0xF7%N) 0%N
    = if j =? m + 1 then 0xF7%N else nth j b2 0%N).
  { intros j. rewrite nth_set_nth by lia. now replace (m + 2 - 1) with (m + 1) by lia. }
  split; [split; [constructor|rewrite set_nth_length; lia]|].
  - rewrite set_nth_length. lia.
  - rewrite N3, N2, N1. replace (0 =? m + 1) with false by lia. replace (0 =? n + 1) with false by lia.
    rewrite andb_false_r. replace (0 <? m + 2) with true by lia. exact H0.
  - rewrite N3, Nat.eqb_refl. reflexivity.
  - intros i Hi. rewrite N3, N2, N1. replace (i + 1 =? m + 1) with false by lia.
    destruct (_ && _) eqn:X; [discriminate|]. replace (i + 1 <? m + 2) with true by lia.
    destruct (Nat.lt_ge_cases i n); [now apply Hb|].
    rewrite nth_overflow by lia. discriminate.
  - intros i Hn Hm. unfold rd_b. rewrite N3, N2, N1. replace (i + 1 =? m + 1) with false by lia.
    replace ((n <? m) && (i + 1 =? n + 1)) with false by lia.
    replace (i + 1 <? m + 2) with true by lia. reflexivity.
Qed.

(** The fixed buffer: the effect of [try_resize_b], and its answer. *)
Lemma resize_fixed len n b m : sealed n b -> List.length b = len ->
  let sz := if m + 2 <=? len then m else len - 2 in
  exists b', try_resize_b b m = Val (b', if m + 2 <=? len then None else Some (len - 2))
    /\ List.length b' = len
    /\ forall j, nth j b' 0%N = if j =? sz + 1 then 0xF7%N
                                else if (n <? sz + 2) && (j =? n + 1) then 0%N else nth j b 0%N.
Proof.
  intros S Len sz. pose proof S as [HL H0 H1 Hb]. unfold try_resize_b, try_resize_bytes, request.
  rewrite (sealed_payload_size n b S). cbn [bind].
  unfold fixed_try_resize. rewrite Len.
  replace (negb (len <? m + 2)) with (m + 2 <=? len) by lia.
  replace (if m + 2 <=? len then m + 2 else len) with (sz + 2)
    by (unfold sz; destruct (Nat.leb_spec (m + 2) len); lia).
  assert (Hsz : sz + 2 <= len) by (unfold sz; destruct (Nat.leb_spec (m + 2) len); lia).
  assert (exists b2, (if n <? sz + 2 then upd b (n + 1) (fun _ => 0%N) else Val b) = Val b2
    /\ List.length b2 = len
    /\ forall j, nth j b2 0%N = if (n <? sz + 2) && (j =? n + 1) then 0%N else nth j b 0%N)
    as (b2 & E2 & L2 & N2).
  { destruct (Nat.ltb_spec n (sz + 2)).
    - rewrite upd_nth by lia. eexists. split; [reflexivity|].
      split; [now rewrite set_nth_length|]. intros j. rewrite nth_set_nth by lia. reflexivity.
    - exists b. auto. }
  rewrite E2. cbn [bind]. unfold sub_chk. replace (sz + 2 <? 1) with false by lia. cbn [bind].
  rewrite upd_nth by lia. cbn [bind]. eexists. split; [reflexivity|].
  split; [now rewrite set_nth_length|]. intros j. rewrite nth_set_nth by lia.
  replace (sz + 2 - 1) with (sz + 1) by lia. destruct (j =? sz + 1); auto.
Qed.

Lemma resized_fixed len n b sz b' : sealed n b -> List.length b' = len -> sz + 2 <= len ->
  (n < sz -> single n b) ->
  (forall j, nth j b' 0%N = if j =? sz + 1 then 0xF7%N
                            else if (n <? sz + 2) && (j =? n + 1) then 0%N else nth j b 0%N) ->
  bytes_done Fixed len sz b' /\ (n <= sz -> single n b -> bytes_inv Fixed len sz b')
  /\ forall i, i < n -> i < sz -> rd_b b' i = rd_b b i.
Proof.
  intros S L' Hsz Hs N'. pose proof S as [HL H0 H1 Hb].
  assert (S' : sealed sz b').
  { constructor.
    - lia.
    - rewrite N'. replace (0 =? sz + 1) with false by lia.
      replace (0 =? n + 1) with false by lia. now rewrite andb_false_r.
    - rewrite N', Nat.eqb_refl. reflexivity.
    - intros i Hi. rewrite N'. replace (i + 1 =? sz + 1) with false by lia.
      destruct (_ && _) eqn:X; [discriminate|].
      destruct (Nat.lt_ge_cases i n); [now apply Hb|].
      apply Hs; lia. }
  split; [split; auto|]. split.
  - intros Hn Hs'. split; [exact S'|]. split; [exact L'|]. intros j Hj. rewrite N'.
    replace (j =? sz + 1) with false by lia. destruct (_ && _); [discriminate|]. apply Hs'. lia.
  - intros i Hn Hi. unfold rd_b. rewrite N'. replace (i + 1 =? sz + 1) with false by lia.
    replace (i + 1 =? n + 1) with false by lia. now rewrite andb_false_r.
Qed.

(** Writing and moving. *)
Lemma bytes_edit k len n b b' : bytes_inv k len n b -> List.length b' = List.length b ->
  (forall i, i < n -> nth (i + 1) b' 0%N <> 0xF7%N) ->
  (forall j, j = 0 \/ n < j -> nth j b' 0%N = nth j b 0%N) -> bytes_inv k len n b'.
Proof.
  intros [[HL H0 H1 Hb] K] L' Hb' Ho. split.
  - constructor; [lia| | |exact Hb']; rewrite Ho by lia; auto.
  - rewrite L'. destruct k; auto; (destruct K as [A B]; split; auto; intros j Hj; rewrite Ho by lia;
      now apply B).
Qed.

Lemma write_bytes k len n b v i : bytes_inv k len n b -> i < n -> septet v ->
  exists b', write_datum_b b v i = Val b' /\ bytes_inv k len n b'
    /\ forall j, j < n -> rd_b b' j = if j =? i then v else rd_b b j.
Proof.
  intros HI Hi Hv. pose proof HI as [[HL H0 H1 Hb] K]. unfold write_datum_b.
  rewrite upd_nth by lia. eexists. split; [reflexivity|]. split.
  - eapply bytes_edit; eauto; [apply set_nth_length| |].
    + intros j Hj. rewrite nth_set_nth by lia. destruct (_ =? _); [unfold septet in Hv; lia|auto].
    + intros j Hj. rewrite nth_set_nth by lia. now replace (j =? i + 1) with false by lia.
  - intros j Hj. unfold rd_b. rewrite nth_set_nth by lia. now replace (j + 1 =? i + 1) with (j =? i) by lia.
Qed.

Lemma copy_within_ok (b : list N) from to dest : from <= to -> to <= List.length b ->
  dest + (to - from) <= List.length b ->
  exists b', copy_within b from to dest = Val b' /\ List.length b' = List.length b
    /\ forall j, nth j b' 0%N = if (dest <=? j) && (j <? dest + (to - from))
                                then nth (j - dest + from) b 0%N else nth j b 0%N.
Proof.
  intros A B C. unfold copy_within.
  replace ((to <? from) || (List.length b <? to) || (List.length b <? dest + (to - from)))
    with false by lia.
  eexists. split; [reflexivity|]. split.
  - rewrite !app_length, !firstn_length, !skipn_length. lia.
  - intros j. assert (Ld : List.length (firstn dest b) = dest) by (rewrite firstn_length; lia).
    assert (Lm : List.length (firstn (to - from) (skipn from b)) = to - from)
      by (rewrite firstn_length, skipn_length; lia).
    destruct (Nat.leb_spec dest j); cbn [andb].
    + rewrite app_nth2 by lia. rewrite Ld. destruct (Nat.ltb_spec j (dest + (to - from))).
      * rewrite app_nth1 by lia. rewrite nth_firstn, nth_skipn.
        replace (j - dest <? to - from) with true by lia. f_equal. lia.
      * rewrite app_nth2 by lia. rewrite Lm, nth_skipn. f_equal. lia.
    + rewrite app_nth1 by lia. rewrite nth_firstn. now replace (j <? dest) with true by lia.
Qed.

Lemma move_bytes k len n b tail to : bytes_inv k len n b ->
  (tail < to /\ to <= n) \/ (to < tail /\ tail <= n) \/ tail = to ->
  exists b', move_tail_b b tail to = Val b' /\ bytes_inv k len n b'
    /\ forall j, j < n -> rd_b b' j =
        if tail <? to then if to <=? j then rd_b b (j - (to - tail)) else rd_b b j
        else if (to <=? j) && (j <? n - (tail - to)) then rd_b b (j + (tail - to)) else rd_b b j.
Proof.
  intros HI D. pose proof HI as [S K]. pose proof S as [HL H0 H1 Hb]. unfold move_tail_b.
  rewrite (sealed_payload_size n b S). cbn [bind].
  destruct (Nat.ltb_spec tail to) as [Lt|Ge].
  - destruct (copy_within_ok b (1 + tail) (1 + tail + (n - to)) (to + 1)) as (b' & E & L' & N');
      [lia|lia|lia|].
    exists b'. split; [exact E|]. split.
    + eapply bytes_edit; eauto.
      * intros i Hi. rewrite N'. destruct (_ && _) eqn:X; [|auto].
        replace (i + 1 - (to + 1) + (1 + tail)) with (i - to + tail + 1) by lia. apply Hb. lia.
      * intros j Hj. rewrite N'.
        now replace ((to + 1 <=? j) && (j <? to + 1 + (1 + tail + (n - to) - (1 + tail)))) with false by lia.
    + intros j Hj. unfold rd_b. rewrite N'.
      replace ((to + 1 <=? j + 1) && (j + 1 <? to + 1 + (1 + tail + (n - to) - (1 + tail))))
        with (to <=? j) by lia.
      destruct (Nat.leb_spec to j); [|reflexivity]. f_equal. lia.
  - destruct (Nat.ltb_spec to tail) as [Lt|Ge'].
    + destruct (copy_within_ok b (1 + tail) (1 + n) (to + 1)) as (b' & E & L' & N'); [lia|lia|lia|].
      exists b'. split; [exact E|]. split.
      * eapply bytes_edit; eauto.
        -- intros i Hi. rewrite N'. destruct (_ && _) eqn:X; [|auto].
           replace (i + 1 - (to + 1) + (1 + tail)) with (i - to + tail + 1) by lia. apply Hb. lia.
        -- intros j Hj. rewrite N'.
           now replace ((to + 1 <=? j) && (j <? to + 1 + (1 + n - (1 + tail)))) with false by lia.
      * intros j Hj. unfold rd_b. rewrite N'.
        replace ((to + 1 <=? j + 1) && (j + 1 <? to + 1 + (1 + n - (1 + tail))))
          with ((to <=? j) && (j <? n - (tail - to))) by lia.
        destruct (_ && _) eqn:X; [|reflexivity]. f_equal. lia.
    + exists b. split; [reflexivity|]. split; [exact HI|]. intros j Hj.
      replace (tail - to) with 0 by lia. rewrite Nat.add_0_r. destruct (_ && _); reflexivity.
Qed.

Lemma bytes_laws_growable :
  laws (bytes_ops Growable) (bytes_inv Growable 0) (bytes_done Growable 0) rd_b septet None true.
Proof.
  constructor; cbn [bytes_ops o_compact o_payload_size o_resize o_write o_move].
  - reflexivity.
  - intros n b [S _]. now apply sealed_payload_size.
  - intros. exact I.
  - intros n b m HI _ _. destruct (grow_bytes n b m HI) as (b' & E & A & R).
    rewrite E. cbn [bind]. eauto.
  - discriminate.
  - intros n b m HI _. destruct (grow_bytes n b m HI) as (b' & E & A & R).
    rewrite E. cbn [bind]. exists b'. split; [reflexivity|]. split; [exact A|]. split; [auto|exact R].
  - intros n b v i. apply write_bytes.
  - intros n b tail to HI A B.
    destruct (move_bytes Growable 0 n b tail to HI) as (b' & E & I' & R); [auto|].
    exists b'. split; [exact E|]. split; [exact I'|]. intros j Hj. rewrite R by auto.
    now replace (tail <? to) with true by lia.
  - intros n b tail to HI A B.
    destruct (move_bytes Growable 0 n b tail to HI) as (b' & E & I' & R); [auto|].
    exists b'. split; [exact E|]. split; [exact I'|]. intros j Hj. rewrite R by auto.
    now replace (tail <? to) with false by lia.
  - intros n b t [S _]. unfold move_tail_b. rewrite (sealed_payload_size n b S). cbn [bind].
    now rewrite Nat.ltb_irrefl.
Qed.

Lemma bytes_laws_fixed len :
  laws (bytes_ops Fixed) (bytes_inv Fixed len) (bytes_done Fixed len) rd_b septet
    (Some (len - 2)) false.
Proof.
  constructor; cbn [bytes_ops o_compact o_payload_size o_resize o_write o_move fits_in].
  - reflexivity.
  - intros n b [S _]. now apply sealed_payload_size.
  - intros n b [S [Len _]]. pose proof (se_len _ _ S). lia.
  - intros n b m [S [Len Sg]] [X|X] Hm; [discriminate|]. pose proof (se_len _ _ S) as HL.
    destruct (resize_fixed len n b m S Len) as (b' & E & L' & N').
    replace (m + 2 <=? len) with true in * by lia.
    destruct (resized_fixed len n b m b' S L' ltac:(lia) ltac:(auto) N') as (_ & A & R).
    exists b'. split; [exact E|]. split; [auto|exact R].
  - intros n b m c [S [Len Sg]] [= <-] Hm. pose proof (se_len _ _ S) as HL.
    destruct (resize_fixed len n b m S Len) as (b' & E & L' & N').
    replace (m + 2 <=? len) with false in * by lia.
    destruct (resized_fixed len n b (len - 2) b' S L' ltac:(lia) ltac:(auto) N') as (_ & A & R).
    exists b'. split; [exact E|]. split; [apply A; [lia|exact Sg]|]. intros i Hi. apply R; lia.
  - intros n b m [S [Len Sg]] Hm. pose proof (se_len _ _ S) as HL.
    destruct (resize_fixed len n b m S Len) as (b' & E & L' & N').
    replace (m + 2 <=? len) with true in * by lia.
    destruct (resized_fixed len n b m b' S L' ltac:(lia) ltac:(auto) N') as (A & B & R).
    exists b'. auto 6.
  - intros n b v i. apply write_bytes.
  - intros n b tail to HI A B.
    destruct (move_bytes Fixed len n b tail to HI) as (b' & E & I' & R); [auto|].
    exists b'. split; [exact E|]. split; [exact I'|]. intros j Hj. rewrite R by auto.
    now replace (tail <? to) with true by lia.
  - intros n b tail to HI A B.
    destruct (move_bytes Fixed len n b tail to HI) as (b' & E & I' & R); [auto|].
    exists b'. split; [exact E|]. split; [exact I'|]. intros j Hj. rewrite R by auto.
    now replace (tail <? to) with false by lia.
  - intros n b t [S _]. unfold move_tail_b. rewrite (sealed_payload_size n b S). cbn [bind].
    now rewrite Nat.ltb_irrefl.
Qed.
