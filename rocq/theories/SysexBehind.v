(** Lemmas: edits of messages in growable buffers with anything behind them. *)
From Coq Require Import NArith List Bool Arith Lia ZifyN ZifyNat ZifyBool.
From Verif Require Import Base BitOps Message Sysex Splice SpecSysex SpecEdits SpecBehind SysexClient
  BitLemmas ListLemmas ByteView SysexLayout SysexRead SysexEdit SpliceLemmas SysexLaws
  SysexBridge SysexHold SysexMore SysexHistory SysexCompact SysexLoose.
Import ListNotations.
Local Open Scope nat_scope.

(** What [is_compact] tests. *)
Definition reached (fm : form) (b : list N) (p : nat) : Prop :=
  forall q, q <= p -> examined fm q -> (oct b (pb (fmt_of fm) * q) / 16 = f_type (fmt_of fm))%N.
Definition tidy_reached (fm : form) (b : list N) : Prop :=
  forall p, packet_words fm * p + 4 <= List.length b -> examined fm p -> reached fm b p -> tid (fmt_of fm) b p.

(** The packet at the head of chunk [i]. *)
Definition packet_at (fm : form) (i : nat) : nat := match fm with SevenBit => 2 * i | EightBit => i end.

Lemma packet_at_examined fm i : examined fm (packet_at fm i).
Proof. intros ->. apply Nat.even_spec. now exists i. Qed.
Lemma examined_at fm p : examined fm p -> exists i, p = packet_at fm i.
Proof.
  destruct fm; intros Ex; [|now exists p]. specialize (Ex eq_refl). apply Nat.even_spec in Ex.
  destruct Ex as [i ->]. now exists i.
Qed.
Lemma packet_at_words fm i : packet_words fm * packet_at fm i = f_check (fmt_of fm) * i.
Proof. destruct fm; cbn [packet_words packet_at fmt_of fmt7 fmt8 f_check]; lia. Qed.
Lemma check_four fm : f_check (fmt_of fm) = 4. Proof. destruct fm; reflexivity. Qed.
Lemma packet_at_mono fm i j : packet_at fm i <= packet_at fm j <-> i <= j.
Proof. destruct fm; cbn; lia. Qed.
Lemma packet_at_in fm (b : list N) i : packet_words fm * packet_at fm i + 4 <= List.length b <-> i < List.length b / 4.
Proof.
  rewrite packet_at_words, check_four. split; intros X.
  - apply Nat.div_le_lower_bound; lia.
  - pose proof (Nat.mul_div_le (List.length b) 4 ltac:(lia)). lia.
Qed.

Lemma head_octet fm b i k : (k < 4)%N ->
  octet32 (hd0 (chunk (f_check (fmt_of fm)) i b)) k = oct b (pb (fmt_of fm) * packet_at fm i + N.to_nat k).
Proof.
  intros Hk. rewrite hd0_chunk by (destruct fm; cbn; lia).
  replace (pb (fmt_of fm) * packet_at fm i + N.to_nat k) with (4 * (f_check (fmt_of fm) * i) + N.to_nat k)
    by (rewrite <- packet_at_words, <- words_of; unfold pb; lia).
  rewrite oct_word by lia. now rewrite N2Nat.id.
Qed.

Lemma is_packet_at fm b i : is_packet (fmt_of fm) (chunk (f_check (fmt_of fm)) i b) = true
  <-> (oct b (pb (fmt_of fm) * packet_at fm i) / 16 = f_type (fmt_of fm))%N.
Proof.
  unfold is_packet. rewrite nibble32_0, head_octet by lia. rewrite Nat.add_0_r. apply N.eqb_eq.
Qed.

Lemma compact_iff fm b : is_compact (fmt_of fm) b = true <-> tidy_reached fm b.
Proof.
  unfold is_compact. rewrite chunks_exact_spec by (destruct fm; cbn; lia). rewrite take_while_map, forallb_map.
  destruct (take_while_seq (fun i => is_packet (fmt_of fm) (chunk (f_check (fmt_of fm)) i b)) 0
              (List.length b / f_check (fmt_of fm))) as (k & Hk & -> & Ht & Hf). cbn [Nat.add] in Ht, Hf.
  rewrite check_four in Hk, Hf. rewrite forallb_forall.
  assert (Body : forall i, negb (((nibble32 (hd0 (chunk (f_check (fmt_of fm)) i b)) 2 =? 1)
       || (nibble32 (hd0 (chunk (f_check (fmt_of fm)) i b)) 2 =? 2))
     && negb (nibble32 (hd0 (chunk (f_check (fmt_of fm)) i b)) 3 =? N.of_nat (f_cap (fmt_of fm)) + f_ext (fmt_of fm)))%N = true
     <-> ((oct b (pb (fmt_of fm) * packet_at fm i + 1) / 16 = 1 \/ oct b (pb (fmt_of fm) * packet_at fm i + 1) / 16 = 2)%N ->
       (oct b (pb (fmt_of fm) * packet_at fm i + 1) mod 16 = f_ext (fmt_of fm) + N.of_nat (f_cap (fmt_of fm)))%N)).
  { intros i. rewrite nibble32_2, nibble32_3, head_octet by lia. change (N.to_nat 1) with 1.
    set (x := (oct b (pb (fmt_of fm) * packet_at fm i + 1) / 16)%N).
    set (y := (oct b (pb (fmt_of fm) * packet_at fm i + 1) mod 16)%N).
    clearbody x y. rewrite (N.add_comm (f_ext _)). set (z := (N.of_nat (f_cap (fmt_of fm)) + f_ext (fmt_of fm))%N). clearbody z.
    lia. }
  split.
  - intros A p Hp Ex Re Ty. destruct (examined_at fm p Ex) as [i ->]. apply packet_at_in in Hp.
    apply Body. apply A. apply in_seq. split; [lia|]. cbn [Nat.add].
    destruct (Nat.lt_ge_cases i k) as [L|G]; [exact L|exfalso].
    assert (Kl : k < List.length b / 4) by lia. specialize (Hf Kl).
    assert (X := Re (packet_at fm k) (proj2 (packet_at_mono fm k i) G) (packet_at_examined fm k)).
    apply is_packet_at in X. rewrite check_four in X. congruence.
  - intros T i Hi. apply in_seq in Hi. apply Body. intros St. apply T.
    + apply packet_at_in. lia.
    + apply packet_at_examined.
    + intros q Hq Ex. destruct (examined_at fm q Ex) as [j ->]. apply packet_at_mono in Hq.
      apply is_packet_at, Ht. lia.
    + apply is_packet_at, Ht. lia.
    + exact St.
Qed.

Lemma compact_heads fm b b' : same_heads (fmt_of fm) b b' -> is_compact (fmt_of fm) b = true ->
  is_compact (fmt_of fm) b' = true.
Proof.
  intros [L S] C. apply compact_iff. apply compact_iff in C. pose proof (okf_facts _ (okf_of fm)) as F.
  assert (H0 : forall p, oct b' (pb (fmt_of fm) * p) = oct b (pb (fmt_of fm) * p)).
  { intros p. pose proof (S p 0 ltac:(lia)) as X. now rewrite Nat.add_0_r in X. }
  intros p Hp Ex Re. rewrite L in Hp. unfold tid. rewrite H0, S by lia. apply C; auto.
  intros q Hq Eq. rewrite <- H0. now apply Re.
Qed.

(** States while editing. *)
Definition slack (fm : form) (g : N) (n : nat) (b : list N) : Prop :=
  (exists c, lay fm g c n b) /\ is_compact (fmt_of fm) b = true.

Lemma loose_slack fm g k len n b : loose fm g k len n b -> slack fm g n b.
Proof. intros (Ly & T & _). split; [exact Ly|]. now apply tidy_from_compact. Qed.

Lemma slack_heads fm g n b b' : same_heads (fmt_of fm) b b' -> slack fm g n b -> slack fm g n b'.
Proof.
  intros S ((c & Ly) & T). split; [exists c; now apply (lay_heads fm g c n b)|]. now apply (compact_heads fm b).
Qed.

Lemma slack_write fm g n b v i : slack fm g n b -> i < n -> unit_ok (fmt_of fm) v ->
  exists b', write_datum (fmt_of fm) b v i = Val b' /\ slack fm g n b'
    /\ forall j, j < n -> rd (fmt_of fm) b' j = if j =? i then v else rd (fmt_of fm) b j.
Proof.
  intros HI Hi Hv. pose proof HI as ((c & Ly) & _). pose proof (lay_len _ _ _ _ _ Ly) as HL.
  pose proof (okf_of fm) as H. set (f := fmt_of fm) in *.
  destruct (write_datum_ok f n b v i H HL Hi Hv) as (b' & x & E & L' & K & K7 & O).
  exists b'. split; [exact E|]. split.
  - apply (slack_heads fm g n b b'); auto. eapply same_heads_pos; eauto.
  - intros j Hj. unfold rd. rewrite O. destruct (Nat.eqb_spec j i) as [->|Hn].
    + now rewrite Nat.eqb_refl.
    + destruct (Nat.eqb_spec (pos f j) (pos f i)) as [X|X]; [|reflexivity].
      apply pos_inj in X; auto. lia.
Qed.

Lemma slack_move fm g n b tail to : (g < 16)%N -> slack fm g n b ->
  (tail < to /\ to <= n) \/ (to < tail /\ tail <= n) \/ tail = to ->
  exists b', move_tail (fmt_of fm) b tail to = Val b' /\ slack fm g n b'
    /\ forall j, j < n -> rd (fmt_of fm) b' j =
        if tail <? to then if to <=? j then rd (fmt_of fm) b (j - (to - tail)) else rd (fmt_of fm) b j
        else if (to <=? j) && (j <? n - (tail - to)) then rd (fmt_of fm) b (j + (tail - to)) else rd (fmt_of fm) b j.
Proof.
  intros Hg HI D. pose proof HI as ((c & Ly) & T). pose proof (lay_len _ _ _ _ _ Ly) as HL.
  pose proof (okf_of fm) as H. unfold move_tail. rewrite T. cbn [negb].
  rewrite (lay_size fm g c n b Hg Ly). cbn [bind]. set (f := fmt_of fm) in *.
  destruct (Nat.ltb_spec tail to) as [Lt|Ge].
  - unfold sub_chk. replace (n <? to - tail) with false by lia. cbn [bind].
    destruct (move_right_fold f n b (to - tail) tail (n - (to - tail)) H HL) as (b' & E & Sh & Q & O);
      [lia|lia|].
    exists b'. split; [exact E|]. split; [now apply (slack_heads fm g n b b')|].
    intros j Hj. unfold rd. rewrite O by auto.
    replace ((tail + (to - tail) <=? j) && (j <? n - (to - tail) + (to - tail))) with (to <=? j) by lia.
    destruct (to <=? j); reflexivity.
  - destruct (Nat.ltb_spec to tail) as [Lt|Ge'].
    + destruct (move_left_fold f n b (tail - to) tail H HL) as (b' & E & Sh & Q & O); [lia|lia|lia|].
      exists b'. split; [exact E|]. split; [now apply (slack_heads fm g n b b')|].
      intros j Hj. unfold rd. rewrite O by auto.
      replace (tail - (tail - to) <=? j) with (to <=? j) by lia.
      destruct (_ && _); reflexivity.
    + exists b. split; [reflexivity|]. split; [exact HI|]. intros j Hj.
      replace (tail - to) with 0 by lia. rewrite Nat.add_0_r. destruct (_ && _); reflexivity.
Qed.

Lemma slack_laws fm g : (g < 16)%N ->
  laws (ump_ops (fmt_of fm) Growable) (slack fm g) (loose_done fm g Growable 0)
    (rd (fmt_of fm)) (unit_ok (fmt_of fm)) None true.
Proof.
  intros Hg. constructor; cbn [ump_ops o_compact o_payload_size o_resize o_write o_move].
  - intros n b (_ & T). unfold compact. now rewrite T.
  - intros n b ((c & Ly) & _). now apply (lay_size fm g c n b).
  - intros. exact I.
  - intros n b m ((c & Ly) & _) _ _. destruct (lay_facts _ _ _ _ _ Hg Ly) as (A & B & C & D).
    destruct (loose_grow fm g b m Hg A C) as (b' & E & [X _] & R). apply loose_slack in X. eauto.
  - discriminate.
  - intros n b m ((c & Ly) & _) _. destruct (lay_facts _ _ _ _ _ Hg Ly) as (A & B & C & D).
    destruct (loose_grow fm g b m Hg A C) as (b' & E & X & R).
    exists b'. split; [exact E|]. split; [exact X|]. split; [intros _; eapply loose_slack; apply X|auto].
  - intros n b v i. now apply slack_write.
  - intros n b tail to HI A B.
    destruct (slack_move fm g n b tail to Hg HI) as (b' & E & I' & R); [auto|].
    exists b'. split; [exact E|]. split; [exact I'|]. intros j Hj. rewrite R by auto.
    now replace (tail <? to) with true by lia.
  - intros n b tail to HI A B.
    destruct (slack_move fm g n b tail to Hg HI) as (b' & E & I' & R); [auto|].
    exists b'. split; [exact E|]. split; [exact I'|]. intros j Hj. rewrite R by auto.
    now replace (tail <? to) with false by lia.
  - intros n b t ((c & Ly) & T). unfold move_tail. rewrite T. cbn [negb].
    rewrite (lay_size fm g c n b Hg Ly). cbn [bind]. now rewrite Nat.ltb_irrefl.
Qed.

Lemma needed_le fm k g s l b : carries fm k g s l b -> np (fmt_of fm) (List.length l) <= k.
Proof.
  intros C. pose proof (okf_of fm) as H. pose proof (okf_facts _ H) as F. pose proof (ca_some _ _ _ _ _ _ C) as K1.
  pose proof (carries_sized _ _ _ _ _ _ C) as S0.
  pose proof (ca_payload _ _ _ _ _ _ C) as El. rewrite payload_span in El.
  assert (Ln : List.length l <= f_cap (fmt_of fm) * k).
  { rewrite <- El. apply (span_units_bound _ b k H S0 k 0). lia. }
  destruct (Nat.eq_dec (List.length l) 0) as [->|Hn0]; [cbn; lia|].
  destruct (np_bounds _ (List.length l) H) as [_ B]. specialize (B ltac:(lia)). nia.
Qed.

(** Whether the compacted buffer can be edited in place. *)
Lemma way_cases fm k g s l b b0 c : carries fm k g s l b -> List.length b0 = List.length b ->
  lay fm g c (List.length l) b0 ->
  (forall p, np (fmt_of fm) (List.length l) <= p -> oct b0 (pb (fmt_of fm) * p) = oct b (pb (fmt_of fm) * p)
        /\ oct b0 (pb (fmt_of fm) * p + 1) = oct b (pb (fmt_of fm) * p + 1)) ->
  (is_compact (fmt_of fm) b0 = true <-> ~ in_the_way fm (List.length l) b).
Proof.
  intros C L0 Ly Hd. assert (Hg : (g < 16)%N) by (eapply carries_group_lt; eauto).
  pose proof (np_le_lay _ _ _ _ _ Ly) as Nc. rewrite compact_iff. split.
  - intros T (p & A & B & Ex & St & Sz & Ty). rewrite needed_of in A. apply Sz.
    assert (X : tid (fmt_of fm) b0 p).
    { apply T; [now rewrite L0|exact Ex|]. intros q Hq Eq. destruct (Nat.lt_ge_cases q (np (fmt_of fm) (List.length l))) as [G|G].
      - apply (lay_type fm g c (List.length l)); auto. lia.
      - rewrite (proj1 (Hd q G)). specialize (Ty q Hq Eq). unfold type_of in Ty. now rewrite byte_oct, <- pb_of, <- type_fmt in Ty. }
    destruct (Hd p A) as [Y Z]. apply (tid_eq _ b0 b) in X; auto. apply tid_of in X; auto.
  - intros W p Hp Ex Re. destruct (Nat.lt_ge_cases p c) as [G|G]; [now apply (lay_tid fm g c (List.length l))|].
    destruct (Hd p ltac:(lia)) as [Y Z]. apply (tid_eq _ b b0); auto. apply tid_of. intros Ty St.
    destruct (N.eq_dec (size_nibble fm b p) (size_bias fm + N.of_nat (packet_room fm))) as [E|E]; [exact E|exfalso].
    apply W. exists p. rewrite needed_of. split; [lia|]. split; [now rewrite <- L0|]. split; [exact Ex|]. split; [exact St|].
    split; [exact E|]. intros q Hq Eq. destruct (Nat.lt_ge_cases q (np (fmt_of fm) (List.length l))) as [V|V].
    + apply (ca_type _ _ _ _ _ _ C). pose proof (needed_le fm k g s l b C). lia.
    + pose proof (Re q Hq Eq) as X. rewrite (proj1 (Hd q V)) in X. unfold type_of. now rewrite byte_oct, <- pb_of, <- type_fmt.
Qed.

Lemma splice_behind fm k g s l b src lo hi : carries fm k g s l b -> noticed fm k b ->
  Forall (is_unit fm) (s_items src) ->
  range_begin lo <= range_end hi (List.length l) <= List.length l ->
  range_end hi (List.length l) - range_begin lo < announced src \/ ~ in_the_way fm (List.length l) b ->
  exists b', splice (ump_ops (fmt_of fm) Growable) b src lo hi = Val b'
    /\ message fm g None (replaced l (range_begin lo) (range_end hi (List.length l)) (s_items src)) b'.
Proof.
  intros C Nt Hv [A B] HT.
  destruct (Nat.lt_ge_cases (range_end hi (List.length l) - range_begin lo) (announced src)) as [G|G].
  { apply (splice_loose fm k g s l b); auto. }
  destruct HT as [HT|HT]; [lia|].
  destruct (compacted fm k g s l b C Nt) as (b0 & c & E0 & L0 & Ly & Sz & R0 & Hd).
  assert (Hg : (g < 16)%N) by (eapply carries_group_lt; eauto).
  set (a := range_begin lo) in *. set (e := range_end hi (List.length l)) in *.
  pose proof (slack_laws fm g Hg) as L.
  assert (T : is_compact (fmt_of fm) b0 = true) by (now apply (way_cases fm k g s l b b0 c)).
  destruct (splice_detail_ok _ _ _ _ _ None true L (fun i => nth i l 0%N) (List.length l) a e (s_items src)
        A B (units_ok fm _ Hv) b0 src lo hi) as (b' & ok & E & R); auto.
  { split; eauto. }
  rewrite <- (compact_again _ b b0) in E; [|exact E0|cbn [ump_ops o_compact]; unfold compact; now rewrite T].
  destruct ok.
  - destruct R as (_ & (_ & FR & LE) & _ & T'). exists b'. split; [unfold splice; now rewrite E|].
    change (replaced l a e (s_items src)) with (edited l a e (s_items src)).
    change (framed (fmt_of fm) g (List.length l - (e - a) + List.length (s_items src)) b') in FR.
    change (List.length b' = packet_words fm * np (fmt_of fm) (List.length l - (e - a) + List.length (s_items src))) in LE.
    rewrite <- (edited_length l a e (s_items src) A B) in FR, LE.
    destruct (framed_full fm g (edited l a e (s_items src)) b' Hg FR) as [C' F'].
    { now apply spliced_reads. }
    eexists. split; [exact C'|]. split; [exact F'|]. exact LE.
  - destruct R as (? & X & _). discriminate.
Qed.

Lemma splice_in_the_way fm k g s l b src lo hi : carries fm k g s l b -> noticed fm k b ->
  range_begin lo <= range_end hi (List.length l) <= List.length l ->
  announced src <= range_end hi (List.length l) - range_begin lo ->
  in_the_way fm (List.length l) b ->
  splice (ump_ops (fmt_of fm) Growable) b src lo hi = Panic.
Proof.
  intros C Nt [A B] An W. destruct (compacted fm k g s l b C Nt) as (b0 & c & E0 & L0 & Ly & Sz & R0 & Hd).
  assert (IC : is_compact (fmt_of fm) b0 = false).
  { destruct (is_compact (fmt_of fm) b0) eqn:E; [|reflexivity]. exfalso.
    now apply (way_cases fm k g s l b b0 c) in E. }
  unfold splice, splice_detail. cbn [ump_ops o_compact o_payload_size o_resize o_move]. rewrite E0. cbn [bind]. rewrite Sz. cbn [bind].
  change (begin_of lo) with (range_begin lo). change (end_of hi (List.length l)) with (range_end hi (List.length l)).
  set (a := range_begin lo) in *. set (e := range_end hi (List.length l)) in *.
  unfold sub_chk at 1. replace (e <? a) with false by lia. cbn [bind]. rewrite estimate_announced.
  replace (e <? e + announced src - (e - a)) with false by lia. cbn [bind]. unfold move_tail at 1.
  now rewrite IC.
Qed.

Lemma edit_behind fm k e b g s l : carries fm k g s l b -> noticed fm k b -> legal fm e l ->
  ~ (in_place e l /\ in_the_way fm (List.length l) b) ->
  exists b', apply_edit fm e b = Val b' /\ (exists k', carries fm k' (new_group e g) None (new_payload e l) b')
    /\ (resizes e -> message fm g None (new_payload e l) b').
Proof.
  intros C Nt Lg Nw.
  assert (Sp : forall src lo hi, legal fm (SplicePayload src lo hi) l ->
     ~ (announced src - (range_end hi (List.length l) - range_begin lo) = 0 /\ in_the_way fm (List.length l) b) ->
     exists b', splice (ump_ops (fmt_of fm) Growable) b src lo hi = Val b'
       /\ message fm g None (new_payload (SplicePayload src lo hi) l) b').
  { intros src lo hi [Hv R] X. apply (splice_behind fm k g s l b src lo hi C Nt Hv R).
    destruct (Nat.lt_ge_cases (range_end hi (List.length l) - range_begin lo) (announced src)) as [G|G]; [now left|right].
    intros Y. apply X. split; [lia|exact Y]. }
  pose proof (carries_reads _ _ _ _ _ _ C) as (_ & _ & Z).
  assert (Fin : forall b' l', message fm g None l' b' -> exists k', carries fm k' g None l' b')
    by (intros b' l' (k' & M & _); eauto).
  assert (Cn : carries fm k g None l b) by (destruct C; constructor; auto; intros; exact Logic.I).
  destruct e as [src|src lo hi|src i|src|v|v i|g']; cbn [apply_edit new_group new_payload in_place room_made resizes] in *;
    change (fmt_for fm) with (fmt_of fm).
  - destruct (set_payload_any fm b src None false) as (b' & E & M & _); auto; try discriminate.
    { now left. } { intros _. exact Logic.I. }
    rewrite (ca_group _ _ _ _ _ _ C 0) in M by apply C.
    exists b'. split; [exact E|]. split; [now apply Fin|auto].
  - destruct (Sp src lo hi Lg Nw) as (b' & E & M). exists b'. split; [exact E|]. split; [now apply Fin|auto].
  - destruct (Sp src (Included i) (Excluded i)) as (b' & E & M).
    { destruct Lg. split; [assumption|]. cbn. lia. }
    { cbn [range_begin range_end]. now rewrite Nat.sub_diag, Nat.sub_0_r. }
    exists b'. split; [exact E|]. split; [now apply Fin|auto].
  - unfold append_payload. cbn [ump_ops o_payload_size]. rewrite Z. cbn [bind].
    destruct (Sp src (Included (List.length l)) (Excluded (List.length l))) as (b' & E & M).
    { split; [assumption|]. cbn. lia. }
    { cbn [range_begin range_end]. now rewrite Nat.sub_diag, Nat.sub_0_r. }
    cbn [new_payload range_begin range_end] in M. rewrite replaced_end in M.
    exists b'. split; [exact E|]. split; [now apply Fin|auto].
  - unfold append_byte, append_payload. cbn [ump_ops o_payload_size]. rewrite Z. cbn [bind].
    destruct (Sp {| s_items := [v]; s_hint := (1, Some 1) |} (Included (List.length l)) (Excluded (List.length l))) as (b' & E & M).
    { split; [repeat constructor; assumption|]. cbn. lia. }
    { cbn [range_begin range_end announced s_hint]. rewrite Nat.sub_diag. intros [X _]. discriminate. }
    cbn [new_payload range_begin range_end s_items] in M. rewrite replaced_end in M.
    exists b'. split; [exact E|]. split; [now apply Fin|auto].
  - destruct Lg as [Hv Hi]. destruct (set_byte_carries fm k g None l b v i Cn Hi Hv) as (b' & E & M & _).
    exists b'. split; [exact E|]. split; [eauto|tauto].
  - destruct (set_group_packets fm b g' Lg) as (b' & E & _).
    destruct (set_group_carries fm k g None l b g' b' Cn Lg E) as (M & _).
    exists b'. split; [exact E|]. split; [eauto|tauto].
Qed.

Lemma edit_in_the_way fm k e b g s l : carries fm k g s l b -> noticed fm k b -> legal fm e l ->
  in_place e l -> in_the_way fm (List.length l) b -> apply_edit fm e b = Panic.
Proof.
  intros C Nt Lg Ip W.
  assert (Sp : forall src lo hi, range_begin lo <= range_end hi (List.length l) <= List.length l ->
     announced src - (range_end hi (List.length l) - range_begin lo) = 0 ->
     splice (ump_ops (fmt_of fm) Growable) b src lo hi = Panic).
  { intros src lo hi R X. apply (splice_in_the_way fm k g s l b); auto. lia. }
  pose proof (carries_reads _ _ _ _ _ _ C) as (_ & _ & Z).
  destruct e as [src|src lo hi|src i|src|v|v i|g']; cbn [apply_edit in_place room_made legal] in *;
    change (fmt_for fm) with (fmt_of fm); try tauto.
  - apply Sp; tauto.
  - apply Sp; [cbn; lia|]. cbn [range_begin range_end]. now rewrite Nat.sub_diag, Nat.sub_0_r.
  - unfold append_payload. cbn [ump_ops o_payload_size]. rewrite Z. cbn [bind].
    apply Sp; [cbn; lia|]. cbn [range_begin range_end]. now rewrite Nat.sub_diag, Nat.sub_0_r.
  - discriminate.
Qed.

(** A message of full packets, followed by a packet of another kind at an examined
    position, or by less than a packet. *)
Lemma clear_way fm k g s l b : carries fm k g s l b -> full_packets fm k b ->
  (k < List.length b / packet_words fm -> type_of fm b k <> type_code fm) -> examined fm k ->
  ~ in_the_way fm (List.length l) b.
Proof.
  intros C [Fu _] Nk Ek (p & A & B & Ex & St & Sz & Ty).
  destruct (Nat.lt_ge_cases p k) as [L|G].
  - apply Sz. assert (T : tid (fmt_of fm) b p) by (apply (tidy_packet fm k g s l b); auto).
    apply tid_of in T; auto.
  - assert (X : k < List.length b / packet_words fm).
    { apply Nat.div_le_lower_bound; [pose proof (words_pos fm); lia|]. destruct fm; cbn [packet_words] in *; lia. }
    apply Nk in X. apply X. apply Ty; auto.
Qed.
