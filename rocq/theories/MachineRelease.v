(** Lemmas on builds without debug assertions: moving the tail of the payload does
    not look at the packets behind the message, so no edit is blocked by them.
    Nothing here models code: [move_r] is the tail move of Sysex.v without its
    assertion, a step between Sysex.v and MachineSysex.v. *)
From Coq Require Import NArith List Bool Arith Lia ZifyN ZifyNat ZifyBool.
From Verif Require Import Base BitOps Message Sysex Splice SpecSysex SpecEdits SysexClient
  BitLemmas ListLemmas ByteView SysexLayout SysexRead SysexEdit SpliceLemmas SysexLaws SysexBytes
  SysexBridge SysexHold SysexMore SysexNth SysexInit SysexHistory SysexConvert SysexCompact
  SysexFixedBytes SysexIds SysexLoose.
From Verif Require Import Machine MachineSysex MachineLemmas MachineOps MachineSplice MachineClient SpecMachine MachineEdits.
Import ListNotations.
Local Open Scope nat_scope.

Definition move_r (f : fmt) (b : list N) (tail to : nat) : outcome (list N) :=
  n <- payload_size f b ;;
  if tail <? to then
    e <- sub_chk n (to - tail) ;;
    fold_left (fun acc i => b' <- acc ;; copy_byte f b' i (i + (to - tail)))
      (rev (seq tail (e - tail))) (Val b)
  else if to <? tail then
    fold_left (fun acc i => b' <- acc ;; copy_byte f b' i (i - (tail - to)))
      (seq tail (n - tail)) (Val b)
  else Val b.
Definition ops_r (f : fmt) (k : room) : ops :=
  {| o_compact := compact f; o_payload_size := payload_size f;
     o_resize := try_resize f k; o_write := write_datum f; o_move := move_r f |}.
(** Without compaction, for buffers that have been compacted. *)
Definition ops_q (f : fmt) (k : room) : ops :=
  {| o_compact := fun b => Val b; o_payload_size := payload_size f;
     o_resize := try_resize f k; o_write := write_datum f; o_move := move_r f |}.

(** ** Agreement with machine arithmetic *)
Lemma move_r_refines bd f b t to : std f -> debug_assertions bd = false -> 16 * List.length b + 64 <= usize_values bd ->
  refines (move_r f b t to) (move_tail_m bd f b t to).
Proof.
  intros F D R. unfold move_r, move_tail_m.
  assert (As : massert bd (is_compact f b) = Val tt) by (unfold massert; rewrite D; now destruct (is_compact f b)).
  rewrite As. cbn [bind].
  apply refines_bind; [apply payload_size_refines; [exact F|lia]|]. intros n _. destruct (Nat.ltb_spec t to).
  - apply refines_bind; [apply msub_refines|]. intros e _.
    apply (fold_refines (fun a => List.length a = List.length b) (fun i a => copy_byte f a i (i + (to - t)))
      (fun i a => j <- madd bd i (to - t) ;; copy_byte_m bd f a i j)).
    + intros i a _ A a' E. pose proof (copy_byte_in _ _ _ _ _ E) as (_ & Di & _). pose proof (byte_index_ge f (i + (to - t))).
      rewrite madd_ok by lia. cbn [bind]. apply copy_byte_refines; [exact F|now rewrite A|exact E].
    + intros i a a' A P. apply copy_byte_in in P. lia.
    + intros a [= <-]. reflexivity.
    + apply refines_refl.
  - destruct (Nat.ltb_spec to t); [|apply refines_refl].
    apply (fold_refines (fun a => List.length a = List.length b) (fun i a => copy_byte f a i (i - (t - to)))
      (fun i a => j <- msub bd i (t - to) ;; copy_byte_m bd f a i j)).
    + intros i a I A a' E. apply in_seq in I.
      rewrite msub_ok by lia. cbn [bind]. apply copy_byte_refines; [exact F|now rewrite A|exact E].
    + intros i a a' A P. apply copy_byte_in in P. lia.
    + intros a [= <-]. reflexivity.
    + apply refines_refl.
Qed.
Lemma move_r_len f b t to b' : move_r f b t to = Val b' -> List.length b' = List.length b.
Proof.
  unfold move_r. intros E. destruct (bind_val _ _ _ E) as (n & _ & E1).
  destruct (t <? to).
  - destruct (bind_val _ _ _ E1) as (e & _ & E2).
    refine (fold_keeps (fun a => List.length a = List.length b) (fun i a => copy_byte f a i (i + (to - t))) _ _ (Val b) _ b' E2).
    + intros j a a' A P. apply copy_byte_in in P. lia.
    + intros a [= <-]. reflexivity.
  - destruct (to <? t); [|injection E1 as <-; reflexivity].
    refine (fold_keeps (fun a => List.length a = List.length b) (fun i a => copy_byte f a i (i - (t - to))) _ _ (Val b) _ b' E1).
    + intros j a a' A P. apply copy_byte_in in P. lia.
    + intros a [= <-]. reflexivity.
Qed.
Lemma release_agree bd f k size : std f -> debug_assertions bd = false -> k = Growable \/ k = Fixed ->
  16 * size + 64 <= usize_values bd -> agree size (ops_r f k) (ump_ops_m bd f k).
Proof.
  intros F D K R. destruct (ump_agree bd f k size F K R) as [A1 A2 A3 A4 A5 A6 A7 A8 A9 A10 A11 A12].
  constructor; try assumption; cbn [ops_r ump_ops_m o_move].
  - intros. apply move_r_refines; [exact F|exact D|lia].
  - intros b t to b' E. now apply move_r_len in E.
Qed.

(** ** The laws of editing *)
Lemma main_loop_q f k : forall fuel b data begin_ splice initial written est tail extra,
  main_loop fuel (ops_r f k) b data begin_ splice initial written est tail extra
  = main_loop fuel (ops_q f k) b data begin_ splice initial written est tail extra.
Proof.
  assert (Fi : forall data b a w r, fill (ops_r f k) b data a w r = fill (ops_q f k) b data a w r).
  { induction data as [|v t IH]; intros b a w r; cbn [fill]; [reflexivity|]. destruct (w <? r); [|reflexivity].
    cbn [ops_r ops_q o_write]. destruct (write_datum f b v (a + w)); [|reflexivity]. apply IH. }
  induction fuel as [|n IH]; intros; [reflexivity|]. cbn [main_loop]. rewrite Fi.
  destruct (fill (ops_q f k) b data begin_ written est) as [[[[b1 w] rest] dry]|]; [|reflexivity]. cbn [bind].
  destruct dry; [reflexivity|]. destruct (negb (w =? est)); [reflexivity|]. destruct rest as [|x rest]; [reflexivity|].
  destruct (sub_chk (est + extra + initial) splice); [|reflexivity]. cbn [bind].
  cbn [ops_r ops_q o_resize o_move].
  destruct (if tail <? begin_ + (est + extra) then _ else _) as [[[b2 e2] t2]|]; [|reflexivity]. cbn [bind].
  destruct (move_r f b2 tail t2); [|reflexivity]. cbn [bind]. destruct (e2 <=? w); [reflexivity|]. apply IH.
Qed.
Lemma detail_q f k b b0 src lo hi : compact f b = Val b0 ->
  splice_detail (ops_r f k) b src lo hi = splice_detail (ops_q f k) b0 src lo hi.
Proof.
  intros E. unfold splice_detail. cbn [ops_r ops_q o_compact o_payload_size o_resize o_move]. rewrite E. cbn [bind].
  destruct (payload_size f b0); [|reflexivity]. cbn [bind]. destruct (sub_chk _ _); [|reflexivity]. cbn [bind].
  destruct (if _ <? _ then _ else _) as [[b1 e1]|]; [|reflexivity]. cbn [bind].
  destruct (move_r f b1 _ _); [|reflexivity]. cbn [bind]. now rewrite main_loop_q.
Qed.

Definition ragged (fm : form) (g : N) (k : room) (len n : nat) (b : list N) : Prop :=
  (exists c, lay fm g c n b) /\ match k with Growable => True | _ => List.length b = len end.
Definition ragged_done (fm : form) (g : N) (k : room) (len n : nat) (b : list N) : Prop :=
  ragged fm g k len n b /\ framed (fmt_of fm) g n b
  /\ match k with Growable => List.length b = packet_words fm * np (fmt_of fm) n | _ => True end.

Lemma done_ragged fm g k len n b : loose_done fm g k len n b -> ragged_done fm g k len n b.
Proof. intros ((L & _ & Z) & F & Q). split; [split; assumption|]. split; assumption. Qed.
Lemma ragged_fit fm g b m : (g < 16)%N -> packet_words fm <= List.length b -> (oct b 0 mod 16)%N = g ->
  m <= room_in fm (List.length b) ->
  exists b', try_resize (fmt_of fm) Fixed b m = Val (b', None) /\ ragged_done fm g Fixed (List.length b) m b'
    /\ forall i, i < m -> rd (fmt_of fm) b' i = rd (fmt_of fm) b i.
Proof.
  intros Hg Hb G0 Hm. pose proof (okf_of fm) as H. set (f := fmt_of fm) in *.
  rewrite <- capacity_of in Hm. rewrite <- words_of in Hb. fold f in Hm, Hb. apply fits_np in Hm; [|exact H|exact Hb].
  destruct (resize_at f Fixed b m b g H Hg) as (b' & E & L' & O').
  { cbn [request]. f_equal. unfold fixed_try_resize. rewrite buffer_size_np by auto. lia. }
  { lia. } { exact G0. }
  exists b'. split; [exact E|].
  assert (FR : framed f g m b') by (eapply reheaded_framed; eauto; lia).
  split; [split; [split|split]|].
  - exists (np f m). now apply framed_lay.
  - exact L'.
  - exact FR.
  - exact Logic.I.
  - intros i Hi. unfold rd. now rewrite O', reheaded_pos by auto.
Qed.
Lemma ragged_heads fm g k len n b b' : same_heads (fmt_of fm) b b' -> ragged fm g k len n b -> ragged fm g k len n b'.
Proof.
  intros S ((c & Ly) & Z). split; [exists c; now apply (lay_heads fm g c n b)|].
  destruct S as [L _]. destruct k; [exact Z| | |]; now rewrite L.
Qed.
Lemma ragged_write fm g k len n b v i : ragged fm g k len n b -> i < n -> unit_ok (fmt_of fm) v ->
  exists b', write_datum (fmt_of fm) b v i = Val b' /\ ragged fm g k len n b'
    /\ forall j, j < n -> rd (fmt_of fm) b' j = if j =? i then v else rd (fmt_of fm) b j.
Proof.
  intros HI Hi Hv. pose proof HI as ((c & Ly) & _). pose proof (lay_len _ _ _ _ _ Ly) as HL.
  pose proof (okf_of fm) as H. set (f := fmt_of fm) in *.
  destruct (write_datum_ok f n b v i H HL Hi Hv) as (b' & x & E & L' & K & K7 & O).
  exists b'. split; [exact E|]. split.
  - apply (ragged_heads fm g k len n b b'); auto. eapply same_heads_pos; eauto.
  - intros j Hj. unfold rd. rewrite O. destruct (Nat.eqb_spec j i) as [->|Hn].
    + now rewrite Nat.eqb_refl.
    + destruct (Nat.eqb_spec (pos f j) (pos f i)) as [X|X]; [|reflexivity].
      apply pos_inj in X; auto. lia.
Qed.
Lemma ragged_move fm g k len n b tail to : (g < 16)%N -> ragged fm g k len n b ->
  (tail < to /\ to <= n) \/ (to < tail /\ tail <= n) \/ tail = to ->
  exists b', move_r (fmt_of fm) b tail to = Val b' /\ ragged fm g k len n b'
    /\ forall j, j < n -> rd (fmt_of fm) b' j =
        if tail <? to then if to <=? j then rd (fmt_of fm) b (j - (to - tail)) else rd (fmt_of fm) b j
        else if (to <=? j) && (j <? n - (tail - to)) then rd (fmt_of fm) b (j + (tail - to)) else rd (fmt_of fm) b j.
Proof.
  intros Hg HI D. pose proof HI as ((c & Ly) & _). pose proof (lay_len _ _ _ _ _ Ly) as HL.
  pose proof (okf_of fm) as H. unfold move_r.
  rewrite (lay_size fm g c n b Hg Ly). cbn [bind]. set (f := fmt_of fm) in *.
  destruct (Nat.ltb_spec tail to) as [Lt|Ge].
  - unfold sub_chk. replace (n <? to - tail) with false by lia. cbn [bind].
    destruct (move_right_fold f n b (to - tail) tail (n - (to - tail)) H HL) as (b' & E & Sh & Q & O);
      [lia|lia|].
    exists b'. split; [exact E|]. split; [now apply (ragged_heads fm g k len n b b')|].
    intros j Hj. unfold rd. rewrite O by auto.
    replace ((tail + (to - tail) <=? j) && (j <? n - (to - tail) + (to - tail))) with (to <=? j) by lia.
    destruct (to <=? j); reflexivity.
  - destruct (Nat.ltb_spec to tail) as [Lt|Ge'].
    + destruct (move_left_fold f n b (tail - to) tail H HL) as (b' & E & Sh & Q & O); [lia|lia|lia|].
      exists b'. split; [exact E|]. split; [now apply (ragged_heads fm g k len n b b')|].
      intros j Hj. unfold rd. rewrite O by auto.
      replace (tail - (tail - to) <=? j) with (to <=? j) by lia.
      destruct (_ && _); reflexivity.
    + exists b. split; [reflexivity|]. split; [exact HI|]. intros j Hj.
      replace (tail - to) with 0 by lia. rewrite Nat.add_0_r. destruct (_ && _); reflexivity.
Qed.
Lemma ragged_laws_growable fm g : (g < 16)%N ->
  laws (ops_q (fmt_of fm) Growable) (ragged fm g Growable 0) (ragged_done fm g Growable 0)
    (rd (fmt_of fm)) (unit_ok (fmt_of fm)) None true.
Proof.
  intros Hg. constructor; cbn [ops_q o_compact o_payload_size o_resize o_write o_move].
  - reflexivity.
  - intros n b ((c & Ly) & _). now apply (lay_size fm g c n b).
  - intros. exact I.
  - intros n b m ((c & Ly) & _) _ _. destruct (lay_facts _ _ _ _ _ Hg Ly) as (A & B & C & D).
    destruct (loose_grow fm g b m Hg A C) as (b' & E & X & R). apply done_ragged in X. destruct X as [X _]. eauto.
  - discriminate.
  - intros n b m ((c & Ly) & _) _. destruct (lay_facts _ _ _ _ _ Hg Ly) as (A & B & C & D).
    destruct (loose_grow fm g b m Hg A C) as (b' & E & X & R). apply done_ragged in X.
    exists b'. split; [exact E|]. split; [exact X|]. split; [intros _; apply X|auto].
  - intros n b v i. now apply ragged_write.
  - intros n b tail to HI A B.
    destruct (ragged_move fm g Growable 0 n b tail to Hg HI) as (b' & E & I' & R); [auto|].
    exists b'. split; [exact E|]. split; [exact I'|]. intros j Hj. rewrite R by auto.
    now replace (tail <? to) with true by lia.
  - intros n b tail to HI A B.
    destruct (ragged_move fm g Growable 0 n b tail to Hg HI) as (b' & E & I' & R); [auto|].
    exists b'. split; [exact E|]. split; [exact I'|]. intros j Hj. rewrite R by auto.
    now replace (tail <? to) with false by lia.
  - intros n b t ((c & Ly) & _). unfold move_r.
    rewrite (lay_size fm g c n b Hg Ly). cbn [bind]. now rewrite Nat.ltb_irrefl.
Qed.
Lemma ragged_laws_fixed fm g len : (g < 16)%N ->
  laws (ops_q (fmt_of fm) Fixed) (ragged fm g Fixed len) (ragged_done fm g Fixed len)
    (rd (fmt_of fm)) (unit_ok (fmt_of fm)) (Some (room_in fm len)) true.
Proof.
  intros Hg. constructor; cbn [ops_q o_compact o_payload_size o_resize o_write o_move fits_in].
  - reflexivity.
  - intros n b ((c & Ly) & _). now apply (lay_size fm g c n b).
  - intros n b ((c & Ly) & <-). now apply (lay_facts fm g c n b).
  - intros n b m ((c & Ly) & <-) _ Hm. destruct (lay_facts _ _ _ _ _ Hg Ly) as (A & B & C & D).
    destruct (ragged_fit fm g b m Hg B C Hm) as (b' & E & [X _] & R). eauto.
  - intros n b m c' ((c & Ly) & <-) [= <-] Hm. destruct (lay_facts _ _ _ _ _ Hg Ly) as (A & B & C & D).
    destruct (loose_full fm g b m Hg B C Hm) as (b' & E & X & R). apply done_ragged in X. destruct X as [X _].
    exists b'. split; [exact E|]. split; [exact X|]. intros i Hi. apply R. lia.
  - intros n b m ((c & Ly) & <-) Hm. destruct (lay_facts _ _ _ _ _ Hg Ly) as (A & B & C & D).
    destruct (ragged_fit fm g b m Hg B C Hm) as (b' & E & X & R).
    exists b'. split; [exact E|]. split; [exact X|]. split; [intros _; apply X|auto].
  - intros n b v i. now apply ragged_write.
  - intros n b tail to HI A B.
    destruct (ragged_move fm g Fixed len n b tail to Hg HI) as (b' & E & I' & R); [auto|].
    exists b'. split; [exact E|]. split; [exact I'|]. intros j Hj. rewrite R by auto.
    now replace (tail <? to) with true by lia.
  - intros n b tail to HI A B.
    destruct (ragged_move fm g Fixed len n b tail to Hg HI) as (b' & E & I' & R); [auto|].
    exists b'. split; [exact E|]. split; [exact I'|]. intros j Hj. rewrite R by auto.
    now replace (tail <? to) with false by lia.
  - intros n b t ((c & Ly) & _). unfold move_r.
    rewrite (lay_size fm g c n b Hg Ly). cbn [bind]. now rewrite Nat.ltb_irrefl.
Qed.

(** ** Splicing *)
Lemma splice_r fm k g s l b src lo hi : carries fm k g s l b -> noticed fm k b ->
  Forall (is_unit fm) (s_items src) ->
  range_begin lo <= range_end hi (List.length l) <= List.length l ->
  exists b', splice (ops_r (fmt_of fm) Growable) b src lo hi = Val b'
    /\ message fm g None (replaced l (range_begin lo) (range_end hi (List.length l)) (s_items src)) b'.
Proof.
  intros C Nt Hv [A B]. destruct (compacted fm k g s l b C Nt) as (b0 & c & E0 & L0 & Ly & Sz & R0 & Hd).
  assert (Hg : (g < 16)%N) by (eapply carries_group_lt; eauto).
  set (a := range_begin lo) in *. set (e := range_end hi (List.length l)) in *.
  pose proof (ragged_laws_growable fm g Hg) as L.
  destruct (splice_detail_ok _ _ _ _ _ None true L (fun i => nth i l 0%N) (List.length l) a e (s_items src)
        A B (units_ok fm _ Hv) b0 src lo hi) as (b' & ok & E & R); auto.
  { split; [eauto|exact Logic.I]. }
  destruct ok.
  - destruct R as (_ & (_ & FR & LE) & _ & T).
    change (framed (fmt_of fm) g (List.length l - (e - a) + List.length (s_items src)) b') in FR.
    change (List.length b' = packet_words fm * np (fmt_of fm) (List.length l - (e - a) + List.length (s_items src))) in LE. exists b'. split; [unfold splice; now rewrite (detail_q _ _ b b0), E|].
    change (replaced l a e (s_items src)) with (edited l a e (s_items src)).
    rewrite <- (edited_length l a e (s_items src) A B) in FR, LE.
    destruct (framed_full fm g (edited l a e (s_items src)) b' Hg FR) as [C' F'].
    { now apply spliced_reads. }
    eexists. split; [exact C'|]. split; [exact F'|]. exact LE.
  - destruct R as (? & X & _). discriminate.
Qed.

Definition packed (fm : form) (g : N) (l : list N) (b : list N) : Prop :=
  exists k, carries fm k g None l b /\ full_packets fm k b.
Lemma done_packed fm g len l b : (g < 16)%N -> ragged_done fm g Fixed len (List.length l) b ->
  (forall i, i < List.length l -> rd (fmt_of fm) b i = nth i l 0%N) -> packed fm g l b /\ List.length b = len.
Proof.
  intros Hg ((_ & Len) & FR & _) R. split; [|exact Len].
  destruct (framed_full fm g l b Hg FR R) as [C F]. eexists. split; [exact C|exact F].
Qed.
Lemma try_splice_r fm k g s l b src lo hi : carries fm k g s l b -> noticed fm k b ->
  Forall (is_unit fm) (s_items src) ->
  range_begin lo <= range_end hi (List.length l) <= List.length l ->
  range_begin lo = range_end hi (List.length l) \/ List.length (s_items src) <= announced src ->
  let l' := replaced l (range_begin lo) (range_end hi (List.length l)) (s_items src) in
  let fits := List.length l' <=? room_in fm (List.length b) in
  exists b', try_splice (ops_r (fmt_of fm) Fixed) b src lo hi = Val (b', fits)
    /\ packed fm g (if fits then l' else []) b' /\ List.length b' = List.length b.
Proof.
  intros C Nt Hv [A B] HC. destruct (compacted fm k g s l b C Nt) as (b0 & c & E0 & L0 & Ly & Sz & R0 & Hd).
  assert (Hg : (g < 16)%N) by (eapply carries_group_lt; eauto).
  set (a := range_begin lo) in *. set (e := range_end hi (List.length l)) in *.
  set (len := List.length b) in *. set (cap := room_in fm len).
  pose proof (ragged_laws_fixed fm g len Hg) as L. fold cap in L.
  destruct (splice_detail_ok _ _ _ _ _ (Some cap) true L (fun i => nth i l 0%N) (List.length l) a e (s_items src)
        A B (units_ok fm _ Hv) b0 src lo hi) as (b' & ok & E & R); auto.
  { split; [eauto|exact L0]. }
  { rewrite estimate_announced. tauto. }
  change (replaced l a e (s_items src)) with (edited l a e (s_items src)).
  intros l' fits. assert (Ll : List.length l' = List.length l - (e - a) + List.length (s_items src))
    by (unfold l'; now rewrite edited_length).
  unfold try_splice. rewrite (detail_q _ _ b b0) by exact E0. rewrite E. cbn [bind]. destruct ok.
  - destruct R as (F & D & _ & T). cbn [fits_in] in F.
    change (List.length l - (e - a) + List.length (s_items src) <= cap) in F.
    change (ragged_done fm g Fixed len (List.length l - (e - a) + List.length (s_items src)) b') in D. assert (Ef : fits = true) by (unfold fits; fold cap; lia). rewrite Ef.
    exists b'. split; [reflexivity|]. rewrite <- Ll in D.
    apply done_packed; auto. now apply spliced_reads.
  - destruct R as (c' & [= <-] & F & ((c1 & Ly1) & L1)). change (cap < List.length l - (e - a) + List.length (s_items src)) in F. assert (Ef : fits = false) by (unfold fits; fold cap; lia). rewrite Ef.
    destruct (lay_facts _ _ _ _ _ Hg Ly1) as (Q1 & Q2 & Q3 & Q4).
    destruct (ragged_fit fm g b' 0 Hg Q2 Q3 ltac:(lia)) as (b2 & E2 & D2 & _).
    cbn [ops_r o_resize]. rewrite E2. cbn [bind fst]. exists b2. split; [reflexivity|]. rewrite L1 in D2.
    apply done_packed; auto. cbn. lia.
Qed.

(** ** All edits *)
Lemma message_uneven fm g l b : message fm g None l b -> exists k, carries fm k g None l b /\ noticed fm k b.
Proof.
  intros (k & C & [Fu _] & _). exists k. split; [exact C|]. intros p Hp Nu. now destruct (Nu (Fu p Hp)).
Qed.
Lemma packed_uneven fm g l b : packed fm g l b -> exists k, carries fm k g None l b /\ noticed fm k b.
Proof.
  intros (k & C & [Fu _]). exists k. split; [exact C|]. intros p Hp Nu. now destruct (Nu (Fu p Hp)).
Qed.
Lemma set_byte_uneven fm k g l b v i : carries fm k g None l b -> noticed fm k b -> i < List.length l -> is_unit fm v ->
  exists b', set_byte (fmt_of fm) b v i = Val b' /\ carries fm k g None (with_unit l i v) b' /\ noticed fm k b'
    /\ List.length b' = List.length b.
Proof.
  intros C Nt Hi Hv. destruct (set_byte_carries fm k g None l b v i C Hi Hv) as (b' & E & C' & L & _).
  exists b'. split; [exact E|]. split; [exact C'|]. split; [|exact L].
  pose proof (carries_sized _ _ _ _ _ _ C) as Sz. pose proof (okf_facts _ (okf_of fm)) as F.
  pose proof (ca_payload _ _ _ _ _ _ C) as P. rewrite payload_span in P.
  pose proof (ca_fits _ _ _ _ _ _ C). pose proof (words_pos fm).
  destruct (set_byte_aux_ok (fmt_of fm) b v k (okf_of fm) Sz (proj2 (unit_ok_of fm v) Hv)
     (List.length b) 0 i) as (p & q & b2 & _ & Hp & Hq & Ei & E2 & UE); [lia|nia|now rewrite Nat.sub_0_r, P|].
  unfold set_byte in E. rewrite E in E2. injection E2 as <-.
  pose proof (cnt_le _ b k p Sz Hp) as Hc.
  assert (Hh : forall p' r, r < 2 -> byte b' (packet_bytes fm * p' + r) = byte b (packet_bytes fm * p' + r)).
  { intros p' r Hr. rewrite !byte_oct, <- pb_of.
    apply (unit_edit_head (fmt_of fm) (okf_of fm) b b' p q v); [lia|exact UE|lia]. }
  destruct (same_packets fm k b b' L) as [X Y]; [| | |auto].
  - intros p'. unfold type_of. pose proof (Hh p' 0 ltac:(lia)) as Z. rewrite Nat.add_0_r in Z. now rewrite Z.
  - intros p'. unfold status_nibble. now rewrite Hh by lia.
  - intros p'. unfold size_nibble. now rewrite Hh by lia.
Qed.
Lemma set_group_uneven fm k g l b g' : carries fm k g None l b -> noticed fm k b -> (g' < 16)%N ->
  exists b', set_group (fmt_of fm) b g' = Val b' /\ carries fm k g' None l b' /\ noticed fm k b' /\ List.length b' = List.length b.
Proof.
  intros C Nt Hg. destruct (set_group_packets fm b g' Hg) as (b' & E & L & T & G & X).
  exists b'. split; [exact E|].
  destruct (set_group_carries fm k g None l b g' b' C Hg E) as (C' & _). split; [exact C'|]. split; [|exact L].
  destruct (same_packets fm k b b' L T) as [A B]; [| |auto]; intros p; now apply payload_of_ext.
Qed.

Lemma release_edit bd fm k e b g l : debug_assertions bd = false -> fits_machine bd (List.length b) e ->
  carries fm k g None l b -> noticed fm k b -> legal fm e l ->
  exists b', apply_edit_m bd fm e b = Val b'
    /\ (exists k', carries fm k' (new_group e g) None (new_payload e l) b' /\ noticed fm k' b')
    /\ (resizes e -> message fm g None (new_payload e l) b').
Proof.
  intros D Fm C Nt Lg. pose proof (fits_span _ _ _ Fm) as R.
  pose proof (release_agree bd (fmt_of fm) Growable _ (std_for fm) D (or_introl eq_refl) R) as A.
  assert (Fin : forall b' l', message fm g None l' b' -> exists k', carries fm k' g None l' b' /\ noticed fm k' b') by (intros; now apply message_uneven).
  pose proof (carries_reads _ _ _ _ _ _ C) as (_ & _ & Z).
  destruct e as [src|src lo hi|src i|src|v|v i|g']; cbn [new_group new_payload legal resizes] in *.
  - destruct (set_payload_any fm b src None false) as (b' & E & M & _); auto; try discriminate.
    { now left. } { intros _. exact Logic.I. }
    rewrite (ca_group _ _ _ _ _ _ C 0) in M by apply C.
    exists b'. split; [now apply (apply_edit_refines bd fm (SetPayload src) b Fm)|]. split; [now apply Fin|auto].
  - destruct (splice_r fm k g None l b src lo hi C Nt (proj1 Lg) (proj2 Lg)) as (b' & E & M).
    exists b'. split; [|split; [now apply Fin|auto]].
    apply (proj1 (splice_call bd _ _ _ b src lo hi A R ltac:(unfold span; cbn [asked]; lia))). exact E.
  - destruct (splice_r fm k g None l b src (Included i) (Excluded i) C Nt (proj1 Lg)) as (b' & E & M); [cbn; lia|].
    exists b'. split; [|split; [now apply Fin|auto]].
    apply (proj1 (insert_call bd _ _ _ b src i A R ltac:(unfold span; cbn [asked]; lia))). exact E.
  - destruct (splice_r fm k g None l b src (Included (List.length l)) (Excluded (List.length l)) C Nt Lg) as (b' & E & M); [cbn; lia|].
    cbn [range_begin range_end] in M. rewrite replaced_end in M.
    exists b'. split; [|split; [now apply Fin|auto]].
    apply (proj1 (append_call bd _ _ _ b src A R ltac:(unfold span; cbn [asked]; lia))).
    unfold append_payload. cbn [ops_r o_payload_size]. rewrite Z. exact E.
  - destruct (splice_r fm k g None l b {| s_items := [v]; s_hint := (1, Some 1) |} (Included (List.length l)) (Excluded (List.length l)) C Nt) as (b' & E & M);
      [repeat constructor; assumption|cbn; lia|].
    cbn [range_begin range_end s_items] in M. rewrite replaced_end in M.
    exists b'. split; [|split; [now apply Fin|auto]].
    apply (proj1 (append_call bd _ _ _ b {| s_items := [v]; s_hint := (1, Some 1) |} A R ltac:(unfold span; cbn; lia))).
    unfold append_payload. cbn [ops_r o_payload_size]. rewrite Z. exact E.
  - destruct Lg as [Hv Hi]. destruct (set_byte_uneven fm k g l b v i C Nt Hi Hv) as (b' & E & C' & N' & _).
    exists b'. split; [now apply (apply_edit_refines bd fm (SetByte v i) b Fm)|]. split; [eauto|tauto].
  - destruct (set_group_uneven fm k g l b g' C Nt Lg) as (b' & E & C' & N' & _).
    exists b'. split; [now apply (apply_edit_refines bd fm (SetGroup g') b Fm)|]. split; [eauto|tauto].
Qed.

Lemma release_try_edit bd fm k e b g l : debug_assertions bd = false -> fits_machine bd (List.length b) e ->
  carries fm k g None l b -> noticed fm k b -> legal fm e l -> announced_enough e l ->
  let '(l', ok) := fixed_outcome (room_in fm (List.length b)) e l in
  exists b', try_edit_m bd fm e b = Val (b', ok) /\ List.length b' = List.length b
    /\ (exists k', carries fm k' (new_group e g) None l' b' /\ noticed fm k' b')
    /\ (resizes e -> exists k', carries fm k' g None l' b' /\ full_packets fm k' b').
Proof.
  intros D Fm C Nt Lg An. pose proof (fits_span _ _ _ Fm) as R.
  pose proof (release_agree bd (fmt_of fm) Fixed _ (std_for fm) D (or_intror eq_refl) R) as A.
  assert (Fin : forall b' l', packed fm g l' b' -> exists k', carries fm k' g None l' b' /\ noticed fm k' b') by (intros; now apply packed_uneven).
  pose proof (carries_reads _ _ _ _ _ _ C) as (_ & _ & Z).
  assert (Room : List.length l <= room_in fm (List.length b)).
  { destruct (compacted fm k g None l b C Nt) as (b0 & c & _ & L0 & Ly & _).
    rewrite <- L0. apply (lay_facts fm g c (List.length l) b0); auto. eapply carries_group_lt; eauto. }
  unfold fixed_outcome.
  destruct e as [src|src lo hi|src i|src|v|v i|g']; cbn [new_group legal resizes announced_enough] in *.
  - cbn [new_payload].
    destruct (try_reset_loose fm k g None l b C) as (b1 & E1 & L1 & C1 & N1 & _).
    destruct (try_splice_r fm 1 g None [] b1 src (Included 0) (Excluded 0) C1 N1 Lg) as (b' & E & M & L');
      [cbn; lia|now left|].
    cbn [range_begin range_end List.length] in E, M. unfold replaced in E, M. cbn [firstn skipn app] in E, M.
    rewrite app_nil_r in E, M. rewrite L1 in E, M, L'.
    assert (Em : try_edit_m bd fm (SetPayload src) b = Val (b', List.length (s_items src) <=? room_in fm (List.length b))).
    { apply (proj2 (set_call bd _ _ _ b src A R ltac:(unfold span; cbn [asked]; lia))).
      unfold try_set_payload. cbn [ops_r o_resize]. rewrite E1. exact E. }
    destruct (_ <=? _); exists b'; auto.
  - destruct (try_splice_r fm k g None l b src lo hi C Nt (proj1 Lg) (proj2 Lg) An) as (b' & E & M & L').
    apply (proj2 (splice_call bd _ _ _ b src lo hi A R ltac:(unfold span; cbn [asked]; lia))) in E.
    cbn [new_payload]. destruct (_ <=? _); exists b'; auto.
  - destruct (try_splice_r fm k g None l b src (Included i) (Excluded i) C Nt (proj1 Lg)) as (b' & E & M & L'); [cbn; lia|now left|].
    apply (proj2 (insert_call bd _ _ _ b src i A R ltac:(unfold span; cbn [asked]; lia))) in E.
    cbn [new_payload range_begin range_end] in *. destruct (_ <=? _); exists b'; auto.
  - destruct (try_splice_r fm k g None l b src (Included (List.length l)) (Excluded (List.length l)) C Nt Lg) as (b' & E & M & L'); [cbn; lia|now left|].
    cbn [range_begin range_end] in E, M. rewrite replaced_end in E, M. cbn [new_payload].
    assert (Em : try_edit_m bd fm (AppendPayload src) b = Val (b', List.length (l ++ s_items src) <=? room_in fm (List.length b))).
    { apply (proj2 (append_call bd _ _ _ b src A R ltac:(unfold span; cbn [asked]; lia))).
      unfold try_append_payload. cbn [ops_r o_payload_size]. rewrite Z. exact E. }
    destruct (_ <=? _); exists b'; auto.
  - destruct (try_splice_r fm k g None l b {| s_items := [v]; s_hint := (1, Some 1) |} (Included (List.length l)) (Excluded (List.length l)) C Nt) as (b' & E & M & L');
      [repeat constructor; assumption|cbn; lia|now left|].
    cbn [range_begin range_end s_items] in E, M. rewrite replaced_end in E, M. cbn [new_payload].
    assert (Em : try_edit_m bd fm (AppendByte v) b = Val (b', List.length (l ++ [v]) <=? room_in fm (List.length b))).
    { apply (proj2 (append_call bd _ _ _ b {| s_items := [v]; s_hint := (1, Some 1) |} A R ltac:(unfold span; cbn; lia))).
      unfold try_append_payload. cbn [ops_r o_payload_size]. rewrite Z. exact E. }
    destruct (_ <=? _); exists b'; auto.
  - destruct Lg as [Hv Hi]. destruct (set_byte_uneven fm k g l b v i C Nt Hi Hv) as (b' & E & C' & N' & L'). cbn [new_payload].
    assert (Lw : List.length (with_unit l i v) = List.length l).
    { unfold with_unit. rewrite app_length. cbn [List.length]. rewrite firstn_length, skipn_length. lia. }
    replace (List.length (with_unit l i v) <=? room_in fm (List.length b)) with true by lia.
    exists b'. split; [apply (try_edit_refines bd fm (SetByte v i) b Fm); cbn [try_edit]; change (fmt_for fm) with (fmt_of fm); now rewrite E|].
    split; [exact L'|]. split; [eauto|tauto].
  - destruct (set_group_uneven fm k g l b g' C Nt Lg) as (b' & E & C' & N' & L'). cbn [new_payload].
    replace (List.length l <=? room_in fm (List.length b)) with true by lia.
    exists b'. split; [apply (try_edit_refines bd fm (SetGroup g') b Fm); cbn [try_edit]; change (fmt_for fm) with (fmt_of fm); now rewrite E|].
    split; [exact L'|]. split; [eauto|tauto].
Qed.
