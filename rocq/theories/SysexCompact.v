(** Compaction: messages whose packets are not all full. *)
From Coq Require Import NArith List Bool Arith Lia ZifyN ZifyNat ZifyBool.
From Verif Require Import Base BitOps Message Sysex Splice SpecSysex SpecEdits SysexClient
  BitLemmas ListLemmas ByteView SysexLayout SysexRead SysexEdit SpliceLemmas SysexLaws
  SysexBridge SysexHold SysexMore SysexInit SysexHistory.
Import ListNotations.
Local Open Scope nat_scope.

(** [b'] is [b] with the bytes [L] written at the front of the payload space. *)
Definition packed (f : fmt) (b b' : list N) (L : list N) : Prop :=
  List.length b' = List.length b
  /\ (forall i, i < List.length L -> oct b' (pos f i) = nth i L 0%N)
  /\ (forall j, (forall i, i < List.length L -> j <> pos f i) -> oct b' j = oct b j).

Lemma packed_head f b b' L p h : okf f -> packed f b b' L -> h < f_head f ->
  oct b' (pb f * p + h) = oct b (pb f * p + h).
Proof. intros H (_ & _ & R) Hh. apply R. intros i _ X. symmetry in X. now apply (pos_ge_head f i p h). Qed.

Lemma pos_at f p i : okf f -> i < f_cap f -> pos f (f_cap f * p + i) = pb f * p + f_head f + i.
Proof.
  intros H Hi. unfold pos. pose proof (okf_facts f H). 
  destruct (div_mod_unique_small p i (f_cap f) Hi) as [A B]. rewrite A, B. lia.
Qed.

Lemma pos_word f i : okf f -> pos f i / 4 < f_words f * S (i / f_cap f).
Proof.
  intros H. unfold pos. pose proof (okf_facts f H) as F. destruct F as (F1 & F2 & F3 & F4 & F5 & F6 & F7 & _).
  pose proof (Nat.mod_upper_bound i (f_cap f) ltac:(lia)). unfold pb in *.
  apply Nat.div_lt_upper_bound; [lia|]. nia.
Qed.

Lemma word_of f p q : okf f -> 4 * (p * f_words f + (q + f_head f) / 4) + (q + f_head f) mod 4
  = pb f * p + f_head f + q.
Proof. intros H. pose proof (Nat.div_mod (q + f_head f) 4 ltac:(lia)). unfold pb. lia. Qed.

Lemma compact_packet_ok f b p k : okf f -> f_words f * k <= List.length b -> p < k ->
  forall count b' L i, packed f b b' L -> List.length L <= f_cap f * p + i -> i + count <= f_cap f ->
  exists b'' m, m = List.length L + count
    /\ compact_packet f b' p i count (List.length L / f_cap f) (List.length L mod f_cap f)
       = Val (b'', m / f_cap f, m mod f_cap f)
    /\ packed f b b'' (L ++ map (fun q => oct b (pb f * p + f_head f + q)) (seq i count)).
Proof.
  intros H Hk Hp. pose proof (okf_facts f H) as F. destruct F as (F1 & F2 & F3 & F4 & F5 & F6 & F7 & _).
  induction count as [|c IH]; intros b' L i P Hm Hi; cbn [compact_packet seq map].
  - exists b', (List.length L). split; [lia|]. split; [reflexivity|]. now rewrite app_nil_r.
  - destruct P as (PL & PR & PO).
    set (m := List.length L) in *.
    assert (Hw : p * f_words f + (i + f_head f) / 4 < List.length b').
    { rewrite PL. pose proof (Nat.div_mod (i + f_head f) 4 ltac:(lia)).
      assert ((i + f_head f) / 4 < f_words f) by (apply Nat.div_lt_upper_bound; unfold pb in *; lia). nia. }
    rewrite get_octet_ok; [|exact Hw|apply Nat.mod_upper_bound; lia]. cbn [bind]. rewrite word_of by exact H.
    assert (V : oct b' (pb f * p + f_head f + i) = oct b (pb f * p + f_head f + i)).
    { apply PO. intros i0 Hi0 X. rewrite <- pos_at in X by (auto; lia). apply pos_inj in X; [|exact H]. lia. }
    rewrite V.
    assert (Dm : m / f_cap f <= p).
    { apply Nat.lt_succ_r, Nat.div_lt_upper_bound; [lia|]. nia. }
    destruct (put_octet_ok b' (m / f_cap f * f_words f + (m mod f_cap f + f_head f) / 4)
      ((m mod f_cap f + f_head f) mod 4) (oct b (pb f * p + f_head f + i))) as (b1 & E1 & L1 & R1).
    { pose proof (Nat.mod_upper_bound m (f_cap f) ltac:(lia)).
      assert ((m mod f_cap f + f_head f) / 4 < f_words f) by (apply Nat.div_lt_upper_bound; unfold pb in *; lia). nia. }
    { apply Nat.mod_upper_bound. lia. }
    { apply oct_lt. }
    rewrite E1. cbn [bind].
    assert (P1 : packed f b b1 (L ++ [oct b (pb f * p + f_head f + i)])).
    { rewrite word_of in R1 by exact H.
      assert (XP : pb f * (m / f_cap f) + f_head f + m mod f_cap f = pos f m) by (unfold pos; lia).
      rewrite XP in R1. split; [lia|]. rewrite app_length. cbn [List.length]. split.
      - intros j Hj. rewrite R1. destruct (Nat.eqb_spec (pos f j) (pos f m)) as [X|X].
        + apply pos_inj in X; [|exact H]. subst j. rewrite app_nth2 by lia. unfold m. now rewrite Nat.sub_diag.
        + assert (j <> m) by (intros ->; auto). rewrite app_nth1 by lia. apply PR. lia.
      - intros j Hj. rewrite R1. destruct (Nat.eqb_spec j (pos f m)) as [X|X].
        + exfalso. apply (Hj m); [lia|exact X].
        + apply PO. intros i0 Hi0. apply Hj. lia. }
    specialize (IH b1 _ (S i) P1). rewrite app_length in IH. cbn [List.length] in IH.
    destruct IH as (b2 & m2 & Em & E2 & P2); [lia|lia|]. fold m in Em, E2.
    replace (m + 1) with (S m) in * by lia.
    exists b2, m2. split; [lia|]. split.
    + pose proof (Nat.div_mod m (f_cap f) ltac:(lia)) as DM.
      pose proof (Nat.mod_upper_bound m (f_cap f) ltac:(lia)) as MB.
      destruct (Nat.eqb_spec (S (m mod f_cap f)) (f_cap f)) as [X|X].
      * assert (D : S m / f_cap f = S (m / f_cap f)) by (symmetry; apply (Nat.div_unique _ _ _ 0); lia).
        assert (M : S m mod f_cap f = 0) by (symmetry; apply (Nat.mod_unique _ _ (S (m / f_cap f))); lia).
        now rewrite D, M in E2.
      * assert (D : S m / f_cap f = m / f_cap f) by (symmetry; apply (Nat.div_unique _ _ _ (S (m mod f_cap f))); lia).
        assert (M : S m mod f_cap f = S (m mod f_cap f)) by (symmetry; apply (Nat.mod_unique _ _ (m / f_cap f)); lia).
        now rewrite D, M in E2.
    + rewrite <- app_assoc in P2. exact P2.
Qed.

(** The raw bytes of [n] packets. *)
Definition raws (f : fmt) (b : list N) (p n : nat) : list N :=
  flat_map (fun p => map (fun q => oct b (pb f * p + f_head f + q)) (seq 0 (cnt f b p))) (seq p n).

Lemma raws_units f b : forall n p, map (keep f) (raws f b p n) = span_units f b p n.
Proof.
  induction n as [|n IH]; intros p; unfold raws, span_units; cbn [seq flat_map map]; [reflexivity|].
  rewrite map_app, map_map. f_equal. apply IH.
Qed.
Lemma raws_length f b p n : List.length (raws f b p n) = List.length (span_units f b p n).
Proof. now rewrite <- raws_units, map_length. Qed.
Lemma raws_snoc f b p n : raws f b p (S n) = raws f b p n
  ++ map (fun q => oct b (pb f * (p + n) + f_head f + q)) (seq 0 (cnt f b (p + n))).
Proof. unfold raws. rewrite seq_S, flat_map_app. cbn [flat_map]. now rewrite app_nil_r. Qed.

Lemma compact_loop_ok fm k g s l b : carries fm k g s l b -> 1 < k ->
  forall fuel p b', p < k -> k <= p + fuel + 1 -> packed (fmt_of fm) b b' (raws (fmt_of fm) b 0 p) ->
  exists b'', compact_loop fuel (fmt_of fm) b' p
      (List.length (raws (fmt_of fm) b 0 p) / f_cap (fmt_of fm))
      (List.length (raws (fmt_of fm) b 0 p) mod f_cap (fmt_of fm)) = Val b''
    /\ packed (fmt_of fm) b b'' (raws (fmt_of fm) b 0 k).
Proof.
  intros C K1. pose proof (okf_of fm) as H. set (f := fmt_of fm) in *.
  pose proof (okf_facts f H) as F. destruct F as (F1 & F2 & F3 & F4 & F5 & F6 & F7 & _).
  pose proof (carries_sized _ _ _ _ _ _ C) as S0. fold f in S0.
  induction fuel as [|fuel IH]; intros p b' Hp Hf P.
  all: assert (LB : p * f_words f < List.length b') by (rewrite (proj1 P); destruct S0; nia).
  all: cbn [compact_loop]; rewrite idx_nth by exact LB; cbn [bind].
  all: assert (X0 : nth (p * f_words f) b' 0%N = nth (packet_words fm * p) b' 0%N) by
      (unfold f; rewrite words_of; f_equal; lia); rewrite X0.
  all: assert (O1 : byte b' (packet_bytes fm * p + 1) = byte b (packet_bytes fm * p + 1)) by
      (rewrite !byte_oct, <- !pb_of; apply (packed_head f b b' _ p 1 H P); lia).
  all: assert (ST : nibble32 (nth (packet_words fm * p) b' 0%N) 2 = status_code k p) by
      (rewrite status_nib; unfold status_nibble; rewrite O1; apply (ca_status _ _ _ _ _ _ C p Hp)).
  all: rewrite ST.
  all: assert (PS : packet_size f [nth (packet_words fm * p) b' 0%N] = Val (cnt f b p)) by
      (apply packet_size_ok; [exact H|]; change (hd0 [nth (packet_words fm * p) b' 0%N]) with (nth (packet_words fm * p) b' 0%N); rewrite size_nib; unfold size_nibble; rewrite O1;
       pose proof (ca_size _ _ _ _ _ _ C p Hp) as Z; unfold size_nibble in Z; unfold f; rewrite ext_of;
       unfold cnt; rewrite pb_of, ext_of, <- byte_oct; lia).
  all: assert (Z0 : (status_code k p =? 0)%N = false) by
      (unfold status_code; replace (k =? 1) with false by lia; destruct (p =? 0); [reflexivity|];
       destruct (S p =? k); reflexivity).
  all: rewrite Z0, PS; cbn [bind].
  all: destruct (compact_packet_ok f b p k H (proj1 S0) Hp (cnt f b p) b' _ 0 P) as (b2 & m & Em & E2 & P2);
      [rewrite raws_length; pose proof (span_units_bound f b k H S0 p 0 ltac:(lia)); lia
      |pose proof (cnt_le f b k p S0 Hp); lia|].
  all: rewrite E2; cbn [bind].
  all: pose proof (raws_snoc f b 0 p) as RS; cbn [Nat.add] in RS; rewrite <- RS in P2.
  all: assert (Lm : m = List.length (raws f b 0 (S p))) by
      (rewrite RS, app_length, map_length, seq_length; exact Em).
  all: assert (SE : (status_code k p =? 3)%N = (S p =? k)) by
      (unfold status_code; replace (k =? 1) with false by lia; destruct (Nat.eqb_spec p 0) as [->|Np];
       [replace (1 =? k) with false by lia; reflexivity|destruct (S p =? k); reflexivity]).
  all: rewrite SE; destruct (Nat.eqb_spec (S p) k) as [X|X].
  - exists b2. split; [reflexivity|]. now rewrite X in P2.
  - lia.
  - exists b2. split; [reflexivity|]. now rewrite X in P2.
  - rewrite Lm. apply IH; [lia|lia|exact P2].
Qed.

(** Where the payload is when every packet but the last is full. *)
Lemma full_reads fm k g s l b : carries fm k g s l b ->
  (forall p, S p < k -> units_in fm b p = packet_room fm) ->
  List.length l <= packet_room fm * k
  /\ forall i, i < List.length l -> rd (fmt_of fm) b i = nth i l 0%N.
Proof.
  intros C Fu. pose proof (okf_of fm) as H. set (f := fmt_of fm) in *.
  pose proof (okf_facts f H) as F. destruct F as (F1 & F2 & F3 & F4 & F5 & F6 & F7 & _).
  pose proof (carries_sized _ _ _ _ _ _ C) as S0. fold f in S0.
  pose proof (ca_payload _ _ _ _ _ _ C) as El. rewrite payload_span in El. fold f in El.
  pose proof (ca_some _ _ _ _ _ _ C) as K1.
  split.
  { rewrite <- El, <- cap_of. apply (span_units_bound f b k H S0 k 0). lia. }
  intros i Hi. rewrite <- El in *. destruct k as [|k]; [lia|].
  assert (Fu' : forall j, j < k -> cnt f b (0 + j) = f_cap f).
  { intros j Hj. cbn [Nat.add]. unfold f. rewrite <- units_in_cnt, cap_of. apply Fu. lia. }
  pose proof (cnt_le f b _ k S0 ltac:(lia)) as Ck.
  rewrite (nth_span f b (f_cap f) ltac:(lia) k 0 i Fu').
  - unfold rd, unit_at, pos. cbn [Nat.add]. reflexivity.
  - rewrite span_snoc, app_length, units_length in Hi. cbn [Nat.add] in *.
    pose proof (span_units_bound f b _ H S0 k 0 ltac:(lia)). lia.
  - exact Ck.
Qed.

(** What [is_compact] finds. *)
Lemma compact_finds fm k g s l b p : carries fm k g s l b -> S p < k -> units_in fm b p <> packet_room fm ->
  (fm = SevenBit -> Nat.even p = true) -> is_compact (fmt_of fm) b = false.
Proof.
  intros C Hp Np Ev. destruct (is_compact (fmt_of fm) b) eqn:E; [|reflexivity]. exfalso. apply Np.
  pose proof (okf_of fm) as H.
  unfold is_compact in E. rewrite forallb_forall in E.
  set (cw := f_check (fmt_of fm)) in *.
  assert (Q : exists q, packet_words fm * p = cw * q /\ q < List.length b / cw
      /\ (forall i, i <= q -> exists p', p' < k /\ cw * i = packet_words fm * p')).
  { pose proof (ca_fits _ _ _ _ _ _ C) as Fi. destruct fm; cbn [fmt_of fmt7 fmt8 f_check packet_words] in *; unfold cw.
    - specialize (Ev eq_refl). apply Nat.even_spec in Ev. destruct Ev as [q Eq]. exists q.
      split; [lia|]. split; [apply Nat.div_le_lower_bound; lia|]. intros i Hi. exists (2 * i). lia.
    - exists p. split; [reflexivity|]. split; [apply Nat.div_le_lower_bound; lia|]. intros i Hi. exists i. lia. }
  destruct Q as (q & Eq & Hq & HQ).
  assert (Cw : 0 < cw) by (unfold cw; destruct fm; cbn; lia).
  set (c := chunk cw q b).
  assert (In1 : In c (take_while (is_packet (fmt_of fm)) (chunks_exact cw b))).
  { rewrite chunks_exact_spec by exact Cw. unfold c. rewrite take_while_map.
    assert (TW : forall n a, a <= q -> q < a + n ->
      In q (take_while (fun i => is_packet (fmt_of fm) (chunk cw i b)) (seq a n))).
    { induction n as [|n IH]; intros a A B; [lia|]. cbn [seq take_while].
      assert (T : is_packet (fmt_of fm) (chunk cw a b) = true).
      { destruct (HQ a A) as (p' & Hp' & Ep'). unfold is_packet. rewrite hd0_chunk by exact Cw.
        rewrite Ep', type_nib, (ca_type _ _ _ _ _ _ C p' Hp'), type_fmt. apply N.eqb_refl. }
      rewrite T. destruct (Nat.eq_dec a q) as [->|Hn]; [now left|right]. apply IH; lia. }
    apply (in_map (fun i => chunk cw i b)), TW; lia. }
  specialize (E _ In1). unfold c in E. rewrite hd0_chunk in E by exact Cw. rewrite <- Eq in E.
  rewrite status_nib, size_nib, (ca_status _ _ _ _ _ _ C p ltac:(lia)) in E.
  assert (ST : ((status_code k p =? 1) || (status_code k p =? 2))%N = true).
  { unfold status_code. replace (k =? 1) with false by lia. destruct (p =? 0); [reflexivity|].
    replace (S p =? k) with false by lia. reflexivity. }
  rewrite ST in E. cbn [andb] in E. rewrite negb_involutive in E. apply N.eqb_eq in E.
  unfold units_in. rewrite E, cap_of, ext_of. lia.
Qed.

(** Compaction keeps the message and fills the packets, if it notices that there
    is something to do. *)
Lemma compact_ok fm k g s l b : carries fm k g s l b ->
  (fm = SevenBit -> (forall p, S p < k -> units_in fm b p = packet_room fm)
     \/ exists p, S p < k /\ Nat.even p = true /\ units_in fm b p <> packet_room fm) ->
  exists b' k', compact (fmt_of fm) b = Val b' /\ List.length b' = List.length b
    /\ k' <= k /\ carries fm k' g s l b'
    /\ (forall p, S p < k' -> units_in fm b' p = packet_room fm)
    /\ (fm = EightBit -> forall p, stream_of fm b' p = stream_of fm b p)
    /\ (b' = b \/ is_compact (fmt_of fm) b = false /\ k' = np (fmt_of fm) (List.length l)
        /\ forall p h, k' <= p -> h < 2 -> oct b' (packet_bytes fm * p + h) = oct b (packet_bytes fm * p + h)).
Proof.
  intros C N7. pose proof (okf_of fm) as H. unfold compact.
  destruct (is_compact (fmt_of fm) b) eqn:IC.
  { exists b, k. split; [reflexivity|]. split; [reflexivity|]. split; [lia|]. split; [exact C|]. split; [|split; [reflexivity|now left]].
    intros p Hp. destruct (Nat.eq_dec (units_in fm b p) (packet_room fm)) as [X|X]; [exact X|].
    destruct fm.
    - destruct (N7 eq_refl) as [A|(p' & Hp' & Ev & Np)]; [now apply A|].
      rewrite (compact_finds SevenBit k g s l b p' C Hp' Np ltac:(auto)) in IC. discriminate.
    - rewrite (compact_finds EightBit k g s l b p C Hp X ltac:(discriminate)) in IC. discriminate. }
  set (f := fmt_of fm) in *.
  pose proof (okf_facts f H) as F. destruct F as (F1 & F2 & F3 & F4 & F5 & F6 & F7 & _).
  destruct (carries_reads _ _ _ _ _ _ C) as (_ & _ & PSz). fold f in PSz. rewrite PSz. cbn [bind].
  pose proof (carries_sized _ _ _ _ _ _ C) as S0. fold f in S0.
  pose proof (ca_payload _ _ _ _ _ _ C) as El. rewrite payload_span in El. fold f in El.
  pose proof (ca_some _ _ _ _ _ _ C) as K1.
  assert (Ln : List.length l <= f_cap f * k).
  { rewrite <- El. apply (span_units_bound f b k H S0 k 0). lia. }
  (* the copied payload *)
  assert (CL : exists b1, compact_loop (List.length b) f b 0 0 0 = Val b1
    /\ List.length b1 = List.length b
    /\ (forall p h, h < f_head f -> oct b1 (pb f * p + h) = oct b (pb f * p + h))
    /\ forall i, i < List.length l -> rd f b1 i = nth i l 0%N).
  { destruct (Nat.eq_dec k 1) as [->|Nk].
    - exists b. split; [|split; [reflexivity|split; [reflexivity|]]].
      + assert (LB : 0 < List.length b) by (destruct S0; lia).
        destruct (List.length b) as [|n] eqn:Lb; [lia|]. cbn [compact_loop Nat.mul].
        rewrite idx_nth by lia. cbn [bind].
        pose proof (ca_status _ _ _ _ _ _ C 0 ltac:(lia)) as ST. rewrite <- status_nib in ST.
        rewrite Nat.mul_0_r in ST. rewrite ST. reflexivity.
      + apply (full_reads fm 1 g s l b C). lia.
    - pose proof (compact_loop_ok fm k g s l b C ltac:(lia) (List.length b) 0 b ltac:(lia)) as X.
      fold f in X. cbn [raws seq flat_map List.length] in X.
      assert (D0 : 0 / f_cap f = 0) by (apply Nat.div_0_l; lia).
      assert (M0 : 0 mod f_cap f = 0) by (apply Nat.mod_0_l; lia). rewrite D0, M0 in X.
      destruct X as (b1 & E1 & P1).
      { destruct S0. nia. }
      { split; [reflexivity|]. split; [cbn; lia|reflexivity]. }
      exists b1. split; [exact E1|]. split; [apply P1|]. split.
      + intros p h Hh. now apply (packed_head f b b1 _ p h H P1).
      + intros i Hi. destruct P1 as (_ & R & _). unfold rd.
        assert (Hr : i < List.length (raws f b 0 k)) by (rewrite raws_length, El; exact Hi).
        rewrite R by exact Hr. rewrite <- El, <- raws_units.
        rewrite (nth_indep (map (keep f) _) 0%N (keep f 0%N)) by (rewrite map_length; exact Hr).
        now rewrite map_nth. }
  destruct CL as (b1 & E1 & L1 & Hd & R1). rewrite E1. cbn [bind].
  assert (Hnp : np f (List.length l) <= k).
  { destruct (Nat.eq_dec (List.length l) 0) as [->|Nz]; [cbn; lia|].
    pose proof (np_bounds f (List.length l) H) as [_ B]. specialize (B ltac:(lia)). nia. }
  assert (Hg : (g < 16)%N) by (eapply carries_group_lt; eauto).
  assert (G1 : (oct b1 0 mod 16)%N = g).
  { pose proof (Hd 0 0 ltac:(lia)) as X. rewrite Nat.mul_0_r in X. cbn [Nat.add] in X. rewrite X.
    pose proof (ca_group _ _ _ _ _ _ C 0 ltac:(lia)) as Y. unfold group_of in Y. rewrite Nat.mul_0_r, byte_oct in Y. exact Y. }
  destruct (resize_at f Untouched b1 (List.length l) b1 g H Hg eq_refl) as (b2 & E2 & L2 & R2).
  { rewrite L1. destruct S0. nia. }
  { exact G1. }
  rewrite E2. cbn [bind]. exists b2, (np f (List.length l)).
  assert (FR : framed f g (List.length l) b2).
  { apply (reheaded_framed f _ g b1); auto. rewrite L1. destruct S0. nia. }
  assert (ID : fm = EightBit -> forall p, oct b2 (packet_bytes fm * p + 2) = oct b (packet_bytes fm * p + 2)).
  { intros Ef p. assert (S7 : f_seven f = false) by (unfold f; now apply eight_of).
    rewrite <- pb_of. fold f. rewrite R2, reheaded_id by auto. apply Hd. unfold f. rewrite Ef. cbn. lia. }
  destruct (framed_carries fm g s (List.length l) b2 Hg FR) as [C2 Fu2].
  { intros Ef p Hp. fold f in Hp. rewrite ID by exact Ef. 
    pose proof (ca_stream _ _ _ _ _ _ C p ltac:(lia) Ef) as X. unfold stream_of in X.
    now rewrite byte_oct in X. }
  fold f in C2, Fu2.
  split; [reflexivity|]. split; [lia|]. split; [exact Hnp|].
  split; [|split; [apply Fu2|split; [intros Ef p; unfold stream_of; rewrite !byte_oct; now apply ID|right; split; [reflexivity|split; [reflexivity|]]]]].
  2: { intros p h Hp Hh. rewrite R2. rewrite <- pb_of. fold f. unfold reheaded.
       replace (pb f * p + h <? pb f * np f (List.length l)) with false by nia. apply Hd. lia. }
  assert (El2 : map (rd f b2) (seq 0 (List.length l)) = l).
  { apply (nth_ext _ _ 0%N 0%N); [now rewrite map_length, seq_length|].
    intros i Hi. rewrite map_length, seq_length in Hi.
    rewrite (nth_indep _ 0%N (rd f b2 0)) by (rewrite map_length, seq_length; exact Hi).
    rewrite map_nth, seq_nth by exact Hi. cbn [Nat.add].
    rewrite <- R1 by exact Hi. unfold rd. f_equal. rewrite R2. now apply reheaded_pos. }
  now rewrite El2 in C2.
Qed.

(** Growing splice from any message. *)
Lemma splice_compact fm k g s l b src lo hi : carries fm k g s l b -> kept s ->
  (fm = SevenBit -> (forall p, S p < k -> units_in fm b p = packet_room fm)
     \/ exists p, S p < k /\ Nat.even p = true /\ units_in fm b p <> packet_room fm) ->
  Forall (is_unit fm) (s_items src) ->
  range_begin lo <= range_end hi (List.length l) <= List.length l ->
  range_end hi (List.length l) - range_begin lo < announced src ->
  (fm = EightBit -> List.length b mod packet_words fm = 0
     /\ forall p, p < List.length b / packet_words fm -> in_stream s (stream_of fm b p)) ->
  exists b', splice (ump_ops (fmt_of fm) Growable) b src lo hi = Val b'
    /\ message fm g s (replaced l (range_begin lo) (range_end hi (List.length l)) (s_items src)) b'.
Proof.
  intros C K N7 Hv [A B] An Ids. destruct (compact_ok fm k g s l b C N7) as (b0 & k0 & E0 & L0 & Hk0 & C0 & Fu0 & St0 & _).
  pose proof (okf_of fm) as H. set (f := fmt_of fm) in *.
  pose proof (okf_facts f H) as F. destruct F as (F1 & F2 & F3 & F4 & F5 & F6 & F7 & _).
  destruct (carries_reads _ _ _ _ _ _ C0) as (_ & _ & PSz). fold f in PSz.
  destruct (full_reads fm k0 g s l b0 C0 Fu0) as (Ln & R0). fold f in R0. rewrite <- cap_of in Ln. fold f in Ln.
  assert (Hg : (g < 16)%N) by (eapply carries_group_lt; eauto).
  set (a := range_begin lo) in *. set (e := range_end hi (List.length l)) in *.
  set (m := estimate (s_hint src) + List.length l - (e - a)).
  assert (Es : estimate (s_hint src) = announced src).
  { unfold estimate, announced. destruct (s_hint src) as [x [y|]]; reflexivity. }
  assert (Hm : List.length l < m) by (unfold m; rewrite Es; lia).
  pose proof (carries_sized _ _ _ _ _ _ C0) as S0. fold f in S0.
  pose proof (ca_some _ _ _ _ _ _ C0) as K1.
  assert (LB : 0 < f_words f * np f m) by (pose proof (np_pos f m H); nia).
  destruct (resize_at f Growable b0 m (vec_resize b0 (buffer_size f m)) g H Hg eq_refl) as (b1 & E1 & L1 & R1).
  { rewrite vec_resize_length, buffer_size_np by exact H. lia. }
  { rewrite oct_vec_resize, buffer_size_np by exact H. replace (0 <? 4 * (f_words f * np f m)) with true by lia.
    pose proof (ca_group _ _ _ _ _ _ C0 0 ltac:(lia)) as Y. unfold group_of in Y. now rewrite Nat.mul_0_r, byte_oct in Y. }
  rewrite vec_resize_length, buffer_size_np in L1 by exact H.
  assert (FR : framed f g m b1).
  { apply (reheaded_framed f _ g (vec_resize b0 (buffer_size f m))); auto;
      rewrite vec_resize_length, buffer_size_np by exact H; lia. }
  assert (I1 : ump_inv f g s false Growable 0 m b1).
  { split; [exact FR|]. split; [now apply (framed_exact_tidy f g m)|]. split; [|split; [discriminate|split]].
    - intros S7 p v Hp Ev. rewrite R1, reheaded_id by auto. rewrite oct_vec_resize, buffer_size_np by exact H.
      assert (Ef : fm = EightBit) by (now apply eight_of).
      destruct (Nat.ltb_spec (pb f * p + 2) (4 * (f_words f * np f m))) as [X|X].
      + destruct (Nat.lt_ge_cases p (List.length b / packet_words fm)) as [Y|Y].
        * pose proof (proj2 (Ids Ef) p Y) as Z. rewrite <- St0 in Z by exact Ef. unfold stream_of in Z.
          rewrite byte_oct, <- pb_of in Z. subst s. exact Z.
        * rewrite oct_beyond; [destruct K as [->| ->]; [discriminate|now injection Ev]|].
          rewrite L0. pose proof (Nat.div_mod (List.length b) (packet_words fm)) as D. destruct (Ids Ef) as [Md _].
          assert (packet_words fm = 4) by (rewrite Ef; reflexivity).
          assert (pb f = 16) by (unfold f; rewrite Ef; reflexivity).
          lia.
      + destruct K as [->| ->]; [discriminate|now injection Ev].
    - exact K.
    - rewrite L1, Nat.mul_comm. apply Nat.mod_mul. lia. }
  destruct (splice_detail_grow (ump_ops f Growable) _ _ _ _ None true
    (ump_laws_growable f g s false H Hg) (fun i => nth i l 0%N) (List.length l) a e (s_items src)
    A B (units_ok fm _ Hv) b b0 b1 src lo hi) as (b' & ok & E' & R').
  { exact E0. } { exact PSz. } { reflexivity. } { reflexivity. } { reflexivity. }
  { now rewrite Es. } { auto. }
  { cbn [ump_ops o_resize]. exact E1. } { exact I1. }
  { intros i Hi. rewrite <- R0 by exact Hi. unfold rd. f_equal. rewrite R1, reheaded_pos by (auto; lia).
    rewrite oct_vec_resize, buffer_size_np by exact H.
    assert (P : pos f i < pb f * np f m) by (apply pos_lt; auto; lia). unfold pb in P.
    replace (pos f i <? 4 * (f_words f * np f m)) with true by lia. reflexivity. }
  destruct ok.
  - destruct R' as (_ & W' & _ & T'). exists b'. split; [unfold splice; now rewrite E'|].
    apply (done_message fm g s _ b' false Hg). split.
    + change (replaced l a e (s_items src)) with (edited l a e (s_items src)). rewrite edited_length by auto. exact W'.
    + intros i. change (replaced l a e (s_items src)) with (edited l a e (s_items src)).
      rewrite edited_length by auto. intros Hi. rewrite T' by exact Hi. unfold target. now rewrite edited_nth by auto.
  - destruct R' as (c & X & _). discriminate.
Qed.
