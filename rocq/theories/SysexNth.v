(** Lemmas: [nth] on the payload iterators of the packet form. *)
From Coq Require Import NArith List String Bool Arith Lia ZifyBool ZifyNat ZifyN.
From Verif Require Import Base BitOps BitLemmas ListLemmas Helpers Message Sysex
  ByteView SysexLayout SysexEdit SpliceLemmas SysexRead.
Import ListNotations.
Local Open Scope nat_scope.

Lemma hd_skip f b p i : okf f ->
  hd0 (chunk (f_words f) i (skipn (p * f_words f) b)) = nth (f_words f * (p + i)) b 0%N.
Proof.
  intros H. pose proof (okf_facts f H). rewrite hd0_chunk by lia. rewrite nth_skipn. f_equal. lia.
Qed.

Lemma skip_packets f (b : list N) p : okf f -> p * f_words f <= List.length b ->
  List.length (skipn (p * f_words f) b) / f_words f = List.length b / f_words f - p.
Proof.
  intros H Hp. pose proof (okf_facts f H). rewrite skipn_length.
  symmetry. apply Nat.div_unique with (r := List.length b mod f_words f).
  - apply Nat.mod_upper_bound. lia.
  - pose proof (Nat.div_mod (List.length b) (f_words f) ltac:(lia)).
    assert (p <= List.length b / f_words f) by (apply Nat.div_le_lower_bound; lia). nia.
Qed.

(** The loop, when the item is among the [k] packets of the message. *)
Lemma nth_loop_in f b k : okf f -> sized f b k ->
  forall m j p q l n, p + j + m = List.length b / f_words f -> k <= p + j + m -> p + j <= k ->
  l = List.length (span_units f b (p + j) (k - (p + j))) -> n < l ->
  exists it', nth_loop f {| it_data := b; it_payload := q; it_packet := p; it_left := l |}
      (map (fun i => chunk (f_words f) i (skipn (p * f_words f) b)) (seq j m)) j n = Val (Some it')
    /\ cursor f b k it' /\ remaining f k it' = skipn n (span_units f b (p + j) (k - (p + j))).
Proof.
  intros H S. pose proof (okf_facts f H) as F.
  induction m as [|m IH]; intros j p q l n Hm Hk Hj El Hn.
  - exfalso. replace (k - (p + j)) with 0 in El by lia. cbn in El. lia.
  - destruct (Nat.eq_dec (p + j) k) as [E|E].
    { exfalso. replace (k - (p + j)) with 0 in El by lia. cbn in El. lia. }
    cbn [seq map nth_loop].
    rewrite (packet_size_cnt f b k (p + j) H S ltac:(lia)) by now rewrite hd_skip.
    cbn [bind it_left it_data it_payload it_packet].
    assert (U : span_units f b (p + j) (k - (p + j))
      = units f b (p + j) ++ span_units f b (Datatypes.S (p + j)) (k - Datatypes.S (p + j))).
    { replace (k - (p + j)) with (Datatypes.S (k - Datatypes.S (p + j))) by lia. reflexivity. }
    rewrite U in *. rewrite app_length, units_length in El.
    destruct (Nat.ltb_spec n (cnt f b (p + j))) as [L|G].
    + unfold sub_chk. replace (l <? n) with false by lia. cbn [bind].
      eexists. split; [reflexivity|].
      assert (R : remaining f k {| it_data := b; it_payload := n; it_packet := p + j; it_left := l - n |}
         = skipn n (units f b (p + j) ++ span_units f b (Datatypes.S (p + j)) (k - Datatypes.S (p + j))))
        by (apply remaining_cons; lia).
      split; [|exact R]. split; [reflexivity|]. cbn [it_packet it_payload it_left].
      split; [lia|]. split; [right; lia|]. rewrite R, skipn_length, app_length, units_length. lia.
    + unfold sub_chk. replace (l <? cnt f b (p + j)) with false by lia. cbn [bind].
      destruct (IH (Datatypes.S j) p q (l - cnt f b (p + j)) (n - cnt f b (p + j)))
        as (it' & E' & C' & R'); try lia.
      { replace (p + Datatypes.S j) with (Datatypes.S (p + j)) by lia. lia. }
      exists it'. split; [exact E'|]. split; [exact C'|]. rewrite R'.
      replace (p + Datatypes.S j) with (Datatypes.S (p + j)) by lia.
      rewrite skipn_app, units_length, (skipn_all2 (units f b (p + j))) by (rewrite units_length; lia).
      reflexivity.
Qed.

(** The loop, when the item is past the end and the buffer ends with the message. *)
Lemma nth_loop_past f b k : okf f -> sized f b k -> k = List.length b / f_words f ->
  forall m j p q l n, p + j + m = k ->
  l = List.length (span_units f b (p + j) m) -> l <= n ->
  nth_loop f {| it_data := b; it_payload := q; it_packet := p; it_left := l |}
      (map (fun i => chunk (f_words f) i (skipn (p * f_words f) b)) (seq j m)) j n = Val None.
Proof.
  intros H S Ek. induction m as [|m IH]; intros j p q l n Hm El Hn; [reflexivity|].
  cbn [seq map nth_loop].
  rewrite (packet_size_cnt f b k (p + j) H S ltac:(lia)) by now rewrite hd_skip.
  cbn [bind it_left it_data it_payload it_packet].
  rewrite span_units_S, app_length, units_length in El.
  replace (n <? cnt f b (p + j)) with false by lia.
  unfold sub_chk. replace (l <? cnt f b (p + j)) with false by lia. cbn [bind].
  apply IH; [lia| |lia]. replace (p + Datatypes.S j) with (Datatypes.S (p + j)) by lia. lia.
Qed.

Lemma remaining_split f b k p q l : p < k -> q <= cnt f b p ->
  List.length (remaining f k {| it_data := b; it_payload := q; it_packet := p; it_left := l |})
  = cnt f b p - q + List.length (span_units f b (S p) (k - S p)).
Proof.
  intros Hp Hq. rewrite remaining_cons by auto. rewrite skipn_length, app_length, units_length. lia.
Qed.

(** [nth] inside the payload. *)
Lemma nth_in f b k it n : okf f -> sized f b k -> cursor f b k it ->
  n < List.length (remaining f k it) ->
  exists it', it_nth f it n = Val (Some (nth n (remaining f k it) 0%N), it')
    /\ cursor f b k it' /\ remaining f k it' = skipn (S n) (remaining f k it).
Proof.
  intros H S C Hn. pose proof (okf_facts f H) as F. pose proof S as [HL _].
  pose proof C as (Ed & Ep & Eq & El). destruct it as [d q p l].
  cbn [it_data it_payload it_packet it_left] in *. subst d.
  assert (Hp : p < k).
  { destruct (Nat.eq_dec p k) as [->|]; [|lia]. exfalso. unfold remaining in Hn.
    cbn [it_data it_payload it_packet] in Hn. rewrite Nat.sub_diag in Hn. cbn in Hn.
    rewrite skipn_nil in Hn. cbn in Hn. lia. }
  assert (Hq : q <= cnt f b p) by lia.
  assert (Hk : k <= List.length b / f_words f) by (apply Nat.div_le_lower_bound; lia).
  set (rem := remaining f k {| it_data := b; it_payload := q; it_packet := p; it_left := l |}) in *.
  (* finishing with [next] *)
  assert (Fin : forall it1, cursor f b k it1 -> remaining f k it1 = skipn n rem ->
     exists it', it_next f it1 = Val (Some (nth n rem 0%N), it') /\ cursor f b k it'
       /\ remaining f k it' = skipn (Datatypes.S n) rem).
  { intros it1 C1 R1. pose proof (next_ok f b k it1 H S C1) as N. rewrite R1 in N.
    rewrite (skipn_cons_nth rem n Hn) in N. exact N. }
  unfold it_nth. cbn [it_data it_payload it_packet it_left].
  destruct (Nat.ltb_spec (List.length b) (p * f_words f)); [nia|].
  rewrite chunks_exact_spec by lia. rewrite skip_packets by (auto; nia).
  replace (List.length b / f_words f - p) with (Datatypes.S (List.length b / f_words f - Datatypes.S p)) by lia.
  cbn [seq map].
  rewrite (packet_size_cnt f b k p H S Hp) by (rewrite hd_skip by auto; f_equal; lia).
  cbn [bind]. unfold sub_chk at 1. replace (cnt f b p <? q) with false by lia. cbn [bind].
  pose proof (remaining_split f b k p q l Hp Hq) as RL. fold rem in RL.
  destruct (Nat.ltb_spec n (cnt f b p - q)) as [L|G].
  - unfold sub_chk. replace (l <? n) with false by lia. cbn [bind].
    assert (R1 : remaining f k {| it_data := b; it_payload := q + n; it_packet := p; it_left := l - n |}
               = skipn n rem).
    { unfold rem. rewrite !remaining_cons by auto. rewrite skipn_skipn'. f_equal. }
    destruct (Fin {| it_data := b; it_payload := q + n; it_packet := p; it_left := l - n |})
      as (it' & E' & C' & R').
    + split; [reflexivity|]. cbn [it_packet it_payload it_left]. split; [lia|]. split; [lia|].
      rewrite R1, skipn_length. lia.
    + exact R1.
    + rewrite E'. cbn [bind]. exists it'. auto.
  - unfold sub_chk at 1. replace (l <? cnt f b p - q) with false by lia. cbn [bind].
    destruct (nth_loop_in f b k H S (List.length b / f_words f - Datatypes.S p) 1 p q
       (l - (cnt f b p - q)) (n - (cnt f b p - q))) as (it1 & E1 & C1 & R1); try lia.
    { replace (p + 1) with (Datatypes.S p) by lia. lia. }
    rewrite E1. cbn [bind].
    destruct (Fin it1 C1) as (it' & E' & C' & R').
    + rewrite R1. unfold rem. rewrite remaining_cons by auto.
      rewrite skipn_skipn'.
      replace (q + n) with (List.length (units f b p) + (n - (cnt f b p - q))) by (rewrite units_length; lia).
      rewrite skipn_app, (skipn_all2 (units f b p)) by lia.
      replace (List.length (units f b p) + (n - (cnt f b p - q)) - List.length (units f b p))
        with (n - (cnt f b p - q)) by lia.
      cbn [app]. replace (p + 1) with (Datatypes.S p) by lia. reflexivity.
    + rewrite E'. cbn [bind]. exists it'. auto.
Qed.

(** An iterator that has nothing left. *)
Definition spent (it : iter) : Prop := it_left it = 0.

(** [nth] past the payload, when the buffer ends with the message. *)
Lemma nth_past f b k it n : okf f -> sized f b k -> k = List.length b / f_words f ->
  cursor f b k it -> List.length (remaining f k it) <= n ->
  it_nth f it n = Val (None, it_exhausted it).
Proof.
  intros H S Ek C Hn. pose proof (okf_facts f H) as F. pose proof S as [HL _].
  pose proof C as (Ed & Ep & Eq & El). destruct it as [d q p l].
  cbn [it_data it_payload it_packet it_left] in *. subst d.
  unfold it_nth. cbn [it_data it_payload it_packet it_left].
  assert (HP : p * f_words f <= List.length b).
  { rewrite (Nat.mul_comm p). etransitivity; [|exact HL]. now apply Nat.mul_le_mono_l. }
  destruct (Nat.ltb_spec (List.length b) (p * f_words f)); [lia|].
  rewrite chunks_exact_spec by lia. rewrite skip_packets by auto.
  destruct (Nat.eq_dec p k) as [->|Hne].
  - replace (List.length b / f_words f - k) with 0 by lia. reflexivity.
  - assert (Hp : p < k) by lia. assert (Hq : q <= cnt f b p) by lia.
    replace (List.length b / f_words f - p) with (Datatypes.S (List.length b / f_words f - Datatypes.S p)) by lia.
    cbn [seq map].
    rewrite (packet_size_cnt f b k p H S Hp) by (rewrite hd_skip by auto; f_equal; lia).
    cbn [bind]. unfold sub_chk at 1. replace (cnt f b p <? q) with false by lia. cbn [bind].
    pose proof (remaining_split f b k p q l Hp Hq) as RL. rewrite RL in *.
    replace (n <? cnt f b p - q) with false by lia.
    unfold sub_chk at 1. replace (l <? cnt f b p - q) with false by lia. cbn [bind].
    rewrite (nth_loop_past f b k H S Ek); [reflexivity|lia| |lia].
    replace (p + 1) with (Datatypes.S p) by lia.
    replace (List.length b / f_words f - Datatypes.S p) with (k - Datatypes.S p) by lia. lia.
Qed.
