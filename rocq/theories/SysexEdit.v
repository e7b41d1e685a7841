(** Lemmas: resizing, writing and moving payload, in the byte view. *)
From Coq Require Import NArith List Bool Arith Lia.
From Verif Require Import Base BitOps SpecLayout BitLemmas ListLemmas Helpers Message Sysex ByteView
  SysexLayout.
Import ListNotations.
Local Open Scope nat_scope.

(** Updating a word so that only its first two bytes change. *)
Lemma upd_head b w (F : N -> N) h0 h1 : w < List.length b ->
  octet32 (F (nth w b 0%N)) 0 = h0 -> octet32 (F (nth w b 0%N)) 1 = h1 ->
  octet32 (F (nth w b 0%N)) 2 = octet32 (nth w b 0%N) 2 ->
  octet32 (F (nth w b 0%N)) 3 = octet32 (nth w b 0%N) 3 ->
  exists b', upd b w F = Val b' /\ List.length b' = List.length b /\
    forall j, oct b' j = if j =? 4 * w then h0 else if j =? 4 * w + 1 then h1 else oct b j.
Proof.
  intros Hw H0 H1 H2 H3. rewrite upd_nth by auto. eexists. split; [reflexivity|].
  split; [apply set_nth_length|]. intros j. rewrite oct_set_nth by auto.
  pose proof (Nat.mod_upper_bound j 4 ltac:(lia)) as Hm.
  pose proof (Nat.div_mod j 4 ltac:(lia)) as Hd.
  destruct (Nat.eqb_spec (j / 4) w) as [E|E].
  - destruct (Nat.eqb_spec j (4 * w)) as [Ej|Ej].
    { replace (j mod 4) with 0 by lia. exact H0. }
    destruct (Nat.eqb_spec j (4 * w + 1)) as [Ek|Ek].
    { replace (j mod 4) with 1 by lia. exact H1. }
    unfold oct. rewrite E.
    assert (C : j mod 4 = 2 \/ j mod 4 = 3) by lia.
    destruct C as [-> | ->]; [exact H2|exact H3].
  - destruct (Nat.eqb_spec j (4 * w)); [lia|].
    destruct (Nat.eqb_spec j (4 * w + 1)); [lia|]. reflexivity.
Qed.

Ltac nib := rewrite ?octet_set_nibble by lia; cbn [N.eqb N.mul N.add Pos.eqb Pos.mul Pos.add Pos.succ].

Lemma recompose x : (x / 16 * 16 + x mod 16 = x)%N.
Proof. rewrite (N.div_mod x 16) at 3 by discriminate. lia. Qed.

Lemma halves_div a c : (c < 16)%N -> ((a * 16 + c) / 16 = a)%N.
Proof. intros. now apply byte_halves. Qed.
Lemma halves_mod a c : (c < 16)%N -> ((a * 16 + c) mod 16 = c)%N.
Proof. intros. now apply byte_halves. Qed.

(** Zeroing the unused end of packet [i]. *)
Lemma zero_tail_ok f b i r : okf f -> f_words f * S i <= List.length b -> r <= f_cap f ->
  exists b', zero_tail f i r b = Val b' /\ List.length b' = List.length b /\
    forall j, oct b' j =
      if (pb f * i + f_head f + r <=? j) && (j <? pb f * S i) then 0%N else oct b j.
Proof.
  intros H HL Hr. pose proof (okf_facts f H) as F. unfold zero_tail.
  assert (G : forall m b0, List.length b0 = List.length b -> r + m <= f_cap f ->
    exists b', fold_left (fun acc j => b' <- acc ;;
        put_octet b' (f_words f * i + (j + f_head f) / 4) ((j + f_head f) mod 4) 0)
        (seq r m) (Val b0) = Val b' /\ List.length b' = List.length b /\
      forall j, oct b' j =
        if (pb f * i + f_head f + r <=? j) && (j <? pb f * i + f_head f + r + m)
        then 0%N else oct b0 j).
  { induction m as [|m IH]; intros b0 Hb Hm.
    - exists b0. split; [reflexivity|]. split; [auto|]. intros j.
      replace ((pb f * i + f_head f + r <=? j) && (j <? pb f * i + f_head f + r + 0)) with false by lia.
      reflexivity.
    - rewrite seq_S, fold_left_app. destruct (IH b0 Hb ltac:(lia)) as (b1 & E & L1 & O1).
      rewrite E. cbn [fold_left bind].
      assert (Hw : f_words f * i + (r + m + f_head f) / 4 < List.length b1).
      { rewrite L1. assert ((r + m + f_head f) / 4 < f_words f)
          by (apply Nat.div_lt_upper_bound; okf_lia H). nia. }
      destruct (put_octet_ok b1 _ ((r + m + f_head f) mod 4) 0%N Hw
                  (Nat.mod_upper_bound _ 4 ltac:(lia)) ltac:(lia)) as (b2 & E2 & L2 & O2).
      exists b2. split; [exact E2|]. split; [congruence|]. intros j. rewrite O2, O1.
      pose proof (Nat.div_mod (r + m + f_head f) 4 ltac:(lia)) as D.
      replace (4 * (f_words f * i + (r + m + f_head f) / 4) + (r + m + f_head f) mod 4)
        with (pb f * i + f_head f + r + m) by (unfold pb; lia).
      destruct (Nat.eqb_spec j (pb f * i + f_head f + r + m)).
      + replace ((pb f * i + f_head f + r <=? j) && (j <? pb f * i + f_head f + r + S m))
          with true by lia. reflexivity.
      + replace (j <? pb f * i + f_head f + r + S m) with (j <? pb f * i + f_head f + r + m) by lia.
        reflexivity. }
  destruct (G (f_cap f - r) b eq_refl ltac:(lia)) as (b' & E & L & O).
  exists b'. split; [exact E|]. split; [exact L|]. intros j. rewrite O.
  replace (pb f * i + f_head f + r + (f_cap f - r)) with (pb f * S i) by (okf_lia H). reflexivity.
Qed.

(** What rewriting the header of packet [i] does to byte [j], for a message of
    [n] bytes in [np f n] packets. *)
Definition rehead1 (f : fmt) (n : nat) (g : N) (i : nat) (b : list N) (j : nat) : N :=
  if j =? pb f * i then (f_type f * 16 + g)%N
  else if j =? pb f * i + 1 then (status_of f n i * 16 + (f_ext f + N.of_nat (count_of f n i)))%N
  else if (S i =? np f n) && negb (i =? 0) && (pb f * i + f_head f + count_of f n i <=? j)
          && (j <? pb f * S i) then 0%N
  else oct b j.

Lemma mod_count f n i : okf f -> S i = np f n -> 0 < i ->
  n mod f_cap f = (if count_of f n i =? f_cap f then 0 else count_of f n i).
Proof.
  intros H E Hi. pose proof (okf_facts f H) as F. destruct (np_bounds f n H) as [A B].
  assert (0 < n). { destruct (Nat.eq_dec n 0) as [->|]; [|lia]. unfold np in E; cbn in E. lia. }
  specialize (B ltac:(lia)). replace (np f n - 1) with i in B by lia.
  assert (C : count_of f n i = n - f_cap f * i).
  { unfold count_of. destruct (Nat.ltb_spec (S i) (np f n)); lia. }
  rewrite C. destruct (Nat.eqb_spec (n - f_cap f * i) (f_cap f)).
  - replace n with (S i * f_cap f) by lia. apply Nat.mod_mul. lia.
  - replace n with (n - f_cap f * i + i * f_cap f) at 1 by lia.
    rewrite Nat.mod_add by lia. apply Nat.mod_small. nia.
Qed.

Lemma head_packet_ok f n g i b : okf f -> (g < 16)%N -> i < np f n ->
  f_words f * S i <= List.length b -> (i = 0 -> (oct b 0 mod 16)%N = g) ->
  exists b', head_packet f (np f n) n g i b = Val b' /\ List.length b' = List.length b /\
    forall j, oct b' j = rehead1 f n g i b j.
Proof.
  intros H Hg Hi HL H0. pose proof (okf_facts f H) as F.
  pose proof (count_of_le f n i H Hi) as C.
  destruct F as (Fpb & Fh & Fh3 & Fc & Fc13 & Fw & Fw4 & Fe & Ft & Ft0 & Fe1 & Fk).
  set (w := f_words f * i). assert (Hw : w < List.length b) by (unfold w; nia).
  assert (W0 : 4 * w = pb f * i) by (unfold w, pb; lia).
  unfold head_packet. fold w.
  (* type *)
  destruct (upd_head b w (fun x => set_nibble32 x 0 (f_type f))
              (f_type f * 16 + oct b (pb f * i) mod 16) (oct b (pb f * i + 1)) Hw)
    as (b1 & E1 & L1 & O1).
  { nib. rewrite <- W0. replace (4 * w) with (4 * w + 0) by lia. rewrite oct_word by lia. reflexivity. }
  { nib. rewrite recompose, <- W0, oct_word by lia. reflexivity. }
  { nib. apply recompose. } { nib. apply recompose. }
  rewrite E1. cbn [bind].
  (* group *)
  assert (G : exists b2, (if i =? 0 then Val b1 else upd b1 w (fun x => set_nibble32 x 1 g)) = Val b2
     /\ List.length b2 = List.length b
     /\ forall j, oct b2 j = if j =? pb f * i then (f_type f * 16 + g)%N else oct b j).
  { destruct (Nat.eqb_spec i 0) as [Ei|Ei].
    - exists b1. split; [reflexivity|]. split; [exact L1|]. intros j. rewrite O1, W0.
      destruct (Nat.eqb_spec j (pb f * i)) as [Ej|Ej].
      + rewrite Ei, Nat.mul_0_r. now rewrite H0.
      + destruct (Nat.eqb_spec j (pb f * i + 1)) as [Ek|Ek]; [now rewrite Ek|reflexivity].
    - destruct (upd_head b1 w (fun x => set_nibble32 x 1 g)
              (f_type f * 16 + g) (oct b (pb f * i + 1)) ltac:(lia))
        as (b2 & E2 & L2 & O2).
      { nib. f_equal. f_equal. change 0%N with (N.of_nat 0). rewrite <- oct_word by lia.
        rewrite O1. replace (4 * w + 0 =? 4 * w) with true by lia. apply halves_div, N.mod_lt; discriminate. }
      { nib. rewrite recompose. change 1%N with (N.of_nat 1). rewrite <- oct_word by lia.
        rewrite O1. replace (4 * w + 1 =? 4 * w) with false by lia.
        rewrite Nat.eqb_refl. reflexivity. }
      { nib. apply recompose. } { nib. apply recompose. }
      exists b2. split; [exact E2|]. split; [congruence|]. intros j. rewrite O2, O1, W0.
      destruct (Nat.eqb_spec j (pb f * i)) as [Ej|Ej]; [reflexivity|].
      destruct (Nat.eqb_spec j (pb f * i + 1)) as [Ek|Ek]; [now rewrite Ek|reflexivity]. }
  destruct G as (b2 & E2 & L2 & O2). rewrite E2. cbn [bind].
  (* status and size *)
  assert (S3 : forall s c, (s < 16)%N -> (c < 16)%N ->
    exists b3, upd b2 w (fun x => set_nibble32 (set_nibble32 x 2 s) 3 c) = Val b3
      /\ List.length b3 = List.length b
      /\ forall j, oct b3 j = if j =? pb f * i then (f_type f * 16 + g)%N
                              else if j =? pb f * i + 1 then (s * 16 + c)%N else oct b j).
  { intros s c Hs Hc.
    destruct (upd_head b2 w (fun x => set_nibble32 (set_nibble32 x 2 s) 3 c)
              (f_type f * 16 + g) (s * 16 + c) ltac:(lia)) as (b3 & E3 & L3 & O3).
    { nib. rewrite !recompose. change 0%N with (N.of_nat 0). rewrite <- oct_word by lia.
      rewrite O2. replace (4 * w + 0 =? pb f * i) with true by lia. reflexivity. }
    { nib. rewrite halves_div by (apply N.mod_lt; discriminate). reflexivity. }
    { nib. rewrite !recompose. reflexivity. } { nib. rewrite !recompose. reflexivity. }
    exists b3. split; [exact E3|]. split; [congruence|]. intros j. rewrite O3, O2, W0.
    destruct (Nat.eqb_spec j (pb f * i)); reflexivity. }
  unfold rehead1.
  assert (St : (status_of f n i < 16)%N).
  { destruct (status_of_cases f n i H Hi) as [(->&_)|[(->&_)|[(->&_)|(->&_)]]]; lia. }
  destruct (Nat.ltb_spec (S i) (np f n)) as [Lt|Ge].
  - destruct (S3 (if Nat.eqb i 0 then 1%N else 2%N) (N.of_nat (f_cap f) + f_ext f)%N) as (b3 & E3 & L3 & O3).
    { destruct (i =? 0); lia. } { lia. }
    exists b3. split; [exact E3|]. split; [exact L3|]. intros j. rewrite O3.
    replace (S i =? np f n) with false by lia. cbn [andb].
    replace (count_of f n i) with (f_cap f)
      by (unfold count_of; destruct (Nat.ltb_spec (S i) (np f n)); lia).
    rewrite (N.add_comm (N.of_nat _)).
    replace (status_of f n i) with (if Nat.eqb i 0 then 1%N else 2%N).
    2: { unfold status_of. destruct (Nat.eqb_spec (np f n) 1); [lia|].
         destruct (i =? 0); [reflexivity|].
         destruct (Nat.ltb_spec (S i) (np f n)); [reflexivity|lia]. }
    reflexivity.
  - assert (Sk : S i = np f n) by lia. replace (S i =? np f n) with true by lia.
    destruct (Nat.eqb_spec i 0) as [Ei|Ei].
    + assert (Cn : count_of f n i = n).
      { unfold count_of. destruct (Nat.ltb_spec (S i) (np f n)); [lia|]. nia. }
      assert (Hn : n <= f_cap f) by lia.
      rewrite N.mod_small by lia. unfold u4_new.
      destruct (N.ltb_spec (N.of_nat n + f_ext f) 16); [|lia]. cbn [bind].
      assert (Ew : 0 = w) by (unfold w; nia).
      destruct (S3 0%N (N.of_nat n + f_ext f)%N) as (b3 & E3 & L3 & O3); [lia|lia|].
      exists b3. split; [rewrite Ew; exact E3|]. split; [exact L3|]. intros j. rewrite O3.
      cbn [andb negb]. rewrite Cn, (N.add_comm (N.of_nat _)).
      replace (status_of f n i) with 0%N; [reflexivity|].
      unfold status_of. replace (np f n =? 1) with true by lia. reflexivity.
    + rewrite (mod_count f n i H Sk ltac:(lia)). 
      assert (Es : status_of f n i = 3%N).
      { destruct (status_of_cases f n i H Hi) as [?|[?|[?|(->&_)]]]; lia. }
      pose proof (count_of_pos f n i H) as Cp.
      assert (0 < n). { destruct (Nat.eq_dec n 0) as [->|]; [|lia]. unfold np in Sk; cbn in Sk. lia. }
      specialize (Cp ltac:(lia) Hi). rewrite Es.
      destruct (Nat.eqb_spec (count_of f n i) (f_cap f)) as [Ec|Ec].
      * cbn [Nat.eqb].
        destruct (S3 3%N (N.of_nat (f_cap f) + f_ext f)%N) as (b3 & E3 & L3 & O3); [lia|lia|].
        exists b3. split; [exact E3|]. split; [exact L3|]. intros j. rewrite O3.
        cbn [andb negb]. rewrite Ec, (N.add_comm (N.of_nat _)).
        replace (pb f * i + f_head f + f_cap f) with (pb f * S i) by lia.
        replace ((pb f * S i <=? j) && (j <? pb f * S i)) with false by lia. reflexivity.
      * replace (count_of f n i =? 0) with false by lia.
        unfold u4_new. destruct (N.ltb_spec (N.of_nat (count_of f n i) + f_ext f) 16); [|lia].
        cbn [bind].
        destruct (S3 3%N (N.of_nat (count_of f n i) + f_ext f)%N) as (b3 & E3 & L3 & O3); [lia|lia|].
        rewrite E3. cbn [bind].
        destruct (zero_tail_ok f b3 i (count_of f n i) H ltac:(lia) ltac:(lia)) as (b4 & E4 & L4 & O4).
        exists b4. split; [exact E4|]. split; [congruence|]. intros j. rewrite O4, O3.
        cbn [andb negb]. rewrite (N.add_comm (N.of_nat _)).
        destruct (Nat.eqb_spec j (pb f * i)).
        { replace (pb f * i + f_head f + count_of f n i <=? j) with false by lia. reflexivity. }
        destruct (Nat.eqb_spec j (pb f * i + 1)).
        { replace (pb f * i + f_head f + count_of f n i <=? j) with false by lia. reflexivity. }
        reflexivity.
Qed.

(** What rewriting all headers does to byte [j]. *)
Definition reheaded (f : fmt) (n : nat) (g : N) (b : list N) (j : nat) : N :=
  if j <? pb f * np f n then rehead1 f n g (j / pb f) b j else oct b j.

Lemma rehead_fold f n g b : okf f -> (g < 16)%N -> f_words f * np f n <= List.length b ->
  (oct b 0 mod 16)%N = g ->
  exists b', fold_left (fun acc i => b' <- acc ;;
          x <- idx b' 0 ;; head_packet f (np f n) n (nibble32 x 1) i b')
          (seq 0 (np f n)) (Val b) = Val b' /\ List.length b' = List.length b /\
    forall j, oct b' j = reheaded f n g b j.
Proof.
  intros H Hg HL H0. pose proof (okf_facts f H) as F.
  assert (G : forall m, m <= np f n ->
    exists b', fold_left (fun acc i => b' <- acc ;;
          x <- idx b' 0 ;; head_packet f (np f n) n (nibble32 x 1) i b')
          (seq 0 m) (Val b) = Val b' /\ List.length b' = List.length b /\
      forall j, oct b' j = if j <? pb f * m then rehead1 f n g (j / pb f) b j else oct b j).
  { induction m as [|m IH]; intros Hm.
    - exists b. split; [reflexivity|]. split; [reflexivity|]. intros j. now rewrite Nat.mul_0_r.
    - rewrite seq_S, fold_left_app. destruct (IH ltac:(lia)) as (b1 & E & L1 & O1).
      rewrite E. cbn [fold_left bind Nat.add].
      assert (pb f * m + pb f <= 4 * List.length b) by (unfold pb; nia).
      rewrite idx_nth by (rewrite L1; unfold pb in *; nia). cbn [bind].
      assert (Gr : (oct b1 0 mod 16)%N = g).
      { rewrite O1. destruct (Nat.ltb_spec 0 (pb f * m)); [|exact H0].
        rewrite Nat.div_0_l by (unfold pb; lia). unfold rehead1. rewrite Nat.mul_0_r. cbn [Nat.eqb].
        now apply halves_mod. }
      assert (Ng : nibble32 (nth 0 b1 0%N) 1 = g).
      { rewrite nibble32_1. change (octet32 (nth 0 b1 0%N) 0) with (oct b1 0). exact Gr. }
      rewrite Ng.
      destruct (head_packet_ok f n g m b1 H Hg ltac:(lia) ltac:(rewrite L1; nia) (fun _ => Gr))
        as (b2 & E2 & L2 & O2).
      exists b2. split; [exact E2|]. split; [congruence|]. intros j. rewrite O2.
      assert (Hpb : 0 < pb f) by (unfold pb; lia).
      destruct (Nat.ltb_spec j (pb f * S m)) as [Lj|Lj].
      + destruct (Nat.lt_ge_cases j (pb f * m)) as [Lm|Lm].
        * unfold rehead1 at 1.
          destruct (Nat.eqb_spec j (pb f * m)); [lia|].
          destruct (Nat.eqb_spec j (pb f * m + 1)); [lia|].
          replace (pb f * m + f_head f + count_of f n m <=? j) with false by lia.
          rewrite andb_false_r. cbn [andb]. rewrite O1.
          destruct (Nat.ltb_spec j (pb f * m)); [reflexivity|lia].
        * replace (j / pb f) with m.
          2: { apply (Nat.div_unique _ _ _ (j - pb f * m)); lia. }
          unfold rehead1. rewrite O1. destruct (Nat.ltb_spec j (pb f * m)); [lia|]. reflexivity.
      + unfold rehead1.
        destruct (Nat.eqb_spec j (pb f * m)); [lia|].
        destruct (Nat.eqb_spec j (pb f * m + 1)); [lia|].
        replace (j <? pb f * S m) with false by lia. rewrite andb_false_r. rewrite O1.
        destruct (Nat.ltb_spec j (pb f * m)); [lia|]. reflexivity. }
  destruct (G (np f n) ltac:(lia)) as (b' & E & L & O). exists b'. auto.
Qed.

(** Consequences for a buffer with rewritten headers. *)
Lemma reheaded_framed f n g b b' : okf f -> f_words f * np f n <= List.length b ->
  List.length b' = List.length b -> (forall j, oct b' j = reheaded f n g b j) ->
  framed f g n b'.
Proof.
  intros H HL L O. pose proof (okf_facts f H) as F. assert (Hpb : 2 < pb f) by (unfold pb; lia).
  constructor.
  - lia.
  - intros p Hp. rewrite O. unfold reheaded.
    destruct (Nat.ltb_spec (pb f * p) (pb f * np f n)); [|nia].
    rewrite (Nat.mul_comm (pb f) p), Nat.div_mul by lia. unfold rehead1.
    rewrite (Nat.mul_comm p), Nat.eqb_refl. reflexivity.
  - intros p Hp. rewrite O. unfold reheaded.
    destruct (Nat.ltb_spec (pb f * p + 1) (pb f * np f n)); [|nia].
    destruct (div_mod_unique_small p 1 (pb f) ltac:(lia)) as [-> _]. unfold rehead1.
    replace (pb f * p + 1 =? pb f * p) with false by lia. rewrite Nat.eqb_refl. reflexivity.
Qed.

Lemma reheaded_tidy f n g b b' : okf f -> (g < 16)%N -> tidy f b ->
  List.length b' = List.length b -> (forall j, oct b' j = reheaded f n g b j) -> tidy f b'.
Proof.
  intros H Hg T L O p Hp Ht Hs. pose proof (okf_facts f H) as F.
  assert (Hpb : 2 < pb f) by (unfold pb; lia). rewrite L in Hp.
  rewrite O in Ht, Hs |- *. unfold reheaded in *.
  destruct (Nat.ltb_spec (pb f * p + 1) (pb f * np f n)) as [A|A].
  - destruct (div_mod_unique_small p 1 (pb f) ltac:(lia)) as [D _].
    rewrite D in *. unfold rehead1 in *.
    replace (pb f * p + 1 =? pb f * p) with false in * by lia. rewrite Nat.eqb_refl in *.
    assert (Lp : p < np f n) by nia.
    pose proof (count_of_le f n p H Lp).
    rewrite halves_div in Hs by lia. rewrite halves_mod by lia.
    destruct (status_of_cases f n p H Lp) as [(E&?)|[(E&?)|[(E&?)|(E&?)]]];
      rewrite E in Hs; try lia; unfold count_of;
      destruct (Nat.ltb_spec (S p) (np f n)); lia.
  - destruct (Nat.ltb_spec (pb f * p) (pb f * np f n)) as [B|B].
    { exfalso. assert (S p <= np f n) by nia. assert (pb f * S p <= pb f * np f n) by nia. lia. }
    apply T; auto.
Qed.

(** Payload bytes below [n], and every byte that is neither in the first two of
    a packet nor past the payload, are kept. *)
Lemma reheaded_keep f n g b j : okf f -> 2 <= j mod pb f ->
  (j < pb f * (np f n - 1) + f_head f + (n - f_cap f * (np f n - 1)) \/ np f n = 1) ->
  reheaded f n g b j = oct b j.
Proof.
  intros H Hm Hj. pose proof (okf_facts f H) as F. unfold reheaded.
  assert (Hpb : 2 < pb f) by (unfold pb; lia).
  destruct (Nat.ltb_spec j (pb f * np f n)); auto. unfold rehead1.
  pose proof (Nat.div_mod j (pb f) ltac:(lia)) as D.
  destruct (Nat.eqb_spec j (pb f * (j / pb f))); [lia|].
  destruct (Nat.eqb_spec j (pb f * (j / pb f) + 1)); [lia|].
  destruct (Nat.eqb_spec (S (j / pb f)) (np f n)) as [E|E]; cbn [andb]; auto.
  destruct (Nat.eqb_spec (j / pb f) 0) as [E0|E0]; cbn [andb negb]; auto.
  destruct (Nat.leb_spec (pb f * (j / pb f) + f_head f + count_of f n (j / pb f)) j) as [G|G];
    cbn [andb]; auto.
  exfalso. unfold count_of in G. destruct (Nat.ltb_spec (S (j / pb f)) (np f n)); [lia|].
  destruct Hj as [Hj|Hj]; [|lia].
  replace (np f n - 1) with (j / pb f) in Hj by lia. lia.
Qed.

Lemma pos_mod_ge f i : okf f -> 2 <= pos f i mod pb f.
Proof. intros H. pose proof (okf_facts f H). destruct (pos_div f i H) as [_ ->]. lia. Qed.

Lemma pos_below f i n : okf f -> i < n ->
  pos f i < pb f * (np f n - 1) + f_head f + (n - f_cap f * (np f n - 1)).
Proof.
  intros H L. pose proof (okf_facts f H) as F. pose proof (div_lt_np f i n H L) as D.
  pose proof (Nat.mod_upper_bound i (f_cap f) ltac:(lia)) as M.
  pose proof (Nat.div_mod i (f_cap f) ltac:(lia)) as DM.
  destruct (np_bounds f n H) as [A B]. specialize (B ltac:(lia)).
  unfold pos. destruct (Nat.eq_dec (i / f_cap f) (np f n - 1)) as [E|E]; [rewrite E in *; lia|].
  assert (pb f * (i / f_cap f) + pb f <= pb f * (np f n - 1)) by nia. lia.
Qed.

Lemma reheaded_pos f n g b i : okf f -> i < n -> reheaded f n g b (pos f i) = oct b (pos f i).
Proof.
  intros H L. apply reheaded_keep; auto using pos_mod_ge. left. now apply pos_below.
Qed.

Lemma framed_group f g n b : okf f -> (g < 16)%N -> framed f g n b -> (oct b 0 mod 16)%N = g.
Proof.
  intros H Hg I. pose proof (fr_h0 _ _ _ _ I 0 (np_pos f n H)) as E.
  rewrite Nat.mul_0_r in E. rewrite E. now apply halves_mod.
Qed.

(** ** Resizing *)

Lemma min_div a b : Nat.min a b = a <-> a <= b.
Proof. lia. Qed.

(** [b] as it is after the buffer request. *)
Lemma resize_at f k b n b1 g : okf f -> (g < 16)%N ->
  request k b (buffer_size f n) = (b1, true) -> f_words f * np f n <= List.length b1 ->
  (oct b1 0 mod 16)%N = g ->
  exists b', try_resize f k b n = Val (b', None) /\ List.length b' = List.length b1 /\
    forall j, oct b' j = reheaded f n g b1 j.
Proof.
  intros H Hg R HL G. pose proof (okf_facts f H) as F. unfold try_resize. rewrite R.
  rewrite buffer_size_np by auto.
  rewrite (Nat.mul_comm (f_words f) (np f n)), Nat.div_mul by lia.
  rewrite Nat.min_l by (apply Nat.div_le_lower_bound; lia).
  destruct (rehead_fold f n g b1 H Hg HL G) as (b' & E & L & O).
  exists b'. rewrite E. cbn [bind]. auto.
Qed.

Lemma resize_fail_at f k b n b1 g c : okf f -> (g < 16)%N ->
  request k b (buffer_size f n) = (b1, false) -> f_words f <= List.length b1 ->
  (oct b1 0 mod 16)%N = g -> c = List.length b1 / f_words f * f_cap f ->
  exists b', try_resize f k b n = Val (b', Some c) /\ List.length b' = List.length b1 /\
    forall j, oct b' j = reheaded f c g b1 j.
Proof.
  intros H Hg R HL G Ec. pose proof (okf_facts f H) as F. unfold try_resize. rewrite R.
  assert (Kp : np f c = List.length b1 / f_words f).
  { assert (1 <= List.length b1 / f_words f) by (apply Nat.div_le_lower_bound; lia).
    apply np_unique; auto; rewrite Ec; nia. }
  rewrite Nat.min_id. rewrite <- Ec, <- Kp.
  destruct (rehead_fold f c g b1 H Hg) as (b' & E & L & O); auto.
  { rewrite Kp. apply Nat.mul_div_le. lia. }
  exists b'. rewrite E. cbn [bind]. auto.
Qed.

(** ** Writing one payload unit *)

Lemma write_pos f i : okf f ->
  4 * (f_words f * (i / f_cap f) + (i mod f_cap f + f_head f) / 4) + (i mod f_cap f + f_head f) mod 4
  = pos f i.
Proof.
  intros H. unfold pos, pb.
  pose proof (Nat.div_mod (i mod f_cap f + f_head f) 4 ltac:(lia)). lia.
Qed.

Lemma word_in f i n (b : list N) : okf f -> f_words f * np f n <= List.length b -> i < n ->
  pos f i / 4 < List.length b.
Proof.
  intros H HL L. pose proof (pos_lt f i n H L). apply Nat.div_lt_upper_bound; [lia|].
  unfold pb in *. lia.
Qed.

Lemma write_word f i : okf f ->
  f_words f * (i / f_cap f) + (i mod f_cap f + f_head f) / 4 = pos f i / 4
  /\ (i mod f_cap f + f_head f) mod 4 = pos f i mod 4.
Proof.
  intros H. rewrite <- (write_pos f i H).
  pose proof (Nat.mod_upper_bound (i mod f_cap f + f_head f) 4 ltac:(lia)).
  rewrite div4_pos, mod4_pos by auto. auto.
Qed.

Lemma write_datum_ok f n b v i : okf f -> f_words f * np f n <= List.length b -> i < n ->
  unit_ok f v ->
  exists b' x, write_datum f b v i = Val b' /\ List.length b' = List.length b /\
    keep f x = v /\ (f_seven f = true -> (x / 128 = oct b (pos f i) / 128)%N) /\
    forall j, oct b' j = if j =? pos f i then x else oct b j.
Proof.
  intros H HL L Hv. unfold write_datum.
  destruct (write_word f i H) as [E1 E2]. rewrite E1, E2.
  destruct (put_unit_ok f b (pos f i / 4) (pos f i mod 4) v) as (b' & x & E & L' & K & _ & K7 & O); auto.
  { eapply word_in; eauto. } { apply Nat.mod_upper_bound. lia. }
  pose proof (Nat.div_mod (pos f i) 4 ltac:(lia)) as D.
  rewrite <- D in *. exists b', x. auto.
Qed.

(** Changing only payload positions keeps framing and tidiness. *)
Definition same_heads (f : fmt) (b b' : list N) : Prop :=
  List.length b' = List.length b /\
  forall p k, k < f_head f -> oct b' (pb f * p + k) = oct b (pb f * p + k).

Lemma same_heads_framed f g n b b' : okf f -> same_heads f b b' -> framed f g n b -> framed f g n b'.
Proof.
  intros H [L S] [A B C]. pose proof (okf_facts f H) as F. constructor.
  - lia.
  - intros p Hp. specialize (S p 0 ltac:(lia)). rewrite Nat.add_0_r in S. rewrite S. now apply B.
  - intros p Hp. rewrite (S p 1) by lia. now apply C.
Qed.

Lemma same_heads_tidy f b b' : okf f -> same_heads f b b' -> tidy f b -> tidy f b'.
Proof.
  intros H [L S] T p Hp. pose proof (okf_facts f H) as F. pose proof (S p 0 ltac:(lia)) as S0. rewrite Nat.add_0_r in S0.
  rewrite S0, (S p 1) by lia. rewrite L in Hp. now apply T.
Qed.

Lemma same_heads_trans f a b c : same_heads f a b -> same_heads f b c -> same_heads f a c.
Proof. intros [L1 S1] [L2 S2]. split; [congruence|]. intros. now rewrite S2, S1. Qed.

Lemma same_heads_refl f b : same_heads f b b.
Proof. split; auto. Qed.

Lemma same_heads_pos f b b' x i : okf f -> List.length b' = List.length b ->
  (forall j, oct b' j = if j =? pos f i then x else oct b j) -> same_heads f b b'.
Proof.
  intros H L O. split; auto. intros p k Hk. rewrite O.
  destruct (Nat.eqb_spec (pb f * p + k) (pos f i)) as [E|E]; auto.
  exfalso. symmetry in E. revert E. now apply pos_ge_head.
Qed.

(** ** Moving payload *)

Lemma copy_byte_ok f n b src dst : okf f -> f_words f * np f n <= List.length b ->
  src < n -> dst < n ->
  exists b', copy_byte f b src dst = Val b' /\ List.length b' = List.length b /\
    forall j, oct b' j = if j =? pos f dst then oct b (pos f src) else oct b j.
Proof.
  intros H HL Hs Hd. unfold copy_byte. rewrite !byte_index_pos by auto.
  rewrite get_octet_ok; [|eapply word_in; eauto|apply Nat.mod_upper_bound; lia].
  cbn [bind]. rewrite <- (Nat.div_mod (pos f src) 4) by lia.
  destruct (put_octet_ok b (pos f dst / 4) (pos f dst mod 4) (oct b (pos f src)))
    as (b' & E & L & O).
  { eapply word_in; eauto. } { apply Nat.mod_upper_bound. lia. } { apply oct_lt. }
  rewrite <- (Nat.div_mod (pos f dst) 4) in O by lia. exists b'. auto.
Qed.

(** Moving right: [dst = src + d], from the last byte down. *)
Lemma move_right_fold f n b d tail e : okf f -> f_words f * np f n <= List.length b ->
  0 < d -> e + d <= n ->
  exists b', fold_left (fun acc i => b' <- acc ;; copy_byte f b' i (i + d))
      (rev (seq tail (e - tail))) (Val b) = Val b'
    /\ same_heads f b b'
    /\ (forall j, (forall i, i < n -> j <> pos f i) -> oct b' j = oct b j)
    /\ forall i, i < n -> oct b' (pos f i)
        = if (tail + d <=? i) && (i <? e + d) then oct b (pos f (i - d)) else oct b (pos f i).
Proof.
  intros H HL Hd He.
  assert (G : forall m a, a + m + d <= n ->
    forall b0, f_words f * np f n <= List.length b0 ->
    exists b', fold_left (fun acc i => b' <- acc ;; copy_byte f b' i (i + d))
      (rev (seq a m)) (Val b0) = Val b'
    /\ same_heads f b0 b'
    /\ (forall j, (forall i, i < n -> j <> pos f i) -> oct b' j = oct b0 j)
    /\ forall i, i < n -> oct b' (pos f i)
        = if (a + d <=? i) && (i <? a + m + d) then oct b0 (pos f (i - d)) else oct b0 (pos f i)).
  { induction m as [|m IH]; intros a Ha b0 HL0.
    - exists b0. split; [reflexivity|]. split; [apply same_heads_refl|]. split; [auto|].
      intros i Hi. replace ((a + d <=? i) && (i <? a + 0 + d)) with false by lia. reflexivity.
    - rewrite seq_S, rev_app_distr. cbn [rev app fold_left bind].
      destruct (copy_byte_ok f n b0 (a + m) (a + m + d) H HL0 ltac:(lia) ltac:(lia))
        as (b1 & E1 & L1 & O1).
      rewrite E1. destruct (IH a ltac:(lia) b1 ltac:(lia)) as (b' & E & Sh & Q & O).
      exists b'. split; [exact E|].
      assert (S1 : same_heads f b0 b1) by (eapply same_heads_pos; eauto).
      split; [eapply same_heads_trans; eauto|].
      split.
      { intros j Hj. rewrite Q by auto. rewrite O1.
        destruct (Nat.eqb_spec j (pos f (a + m + d))); auto. exfalso. eapply Hj; [|eassumption]. lia. }
      intros i Hi. rewrite O by auto.
      rewrite !O1.
      destruct (Nat.eqb_spec (pos f (i - d)) (pos f (a + m + d))) as [X|X];
        [apply pos_inj in X; auto|];
        (destruct (Nat.eqb_spec (pos f i) (pos f (a + m + d))) as [Y|Y];
         [apply pos_inj in Y; auto|assert (i <> a + m + d) by congruence]).
      + replace ((a + d <=? i) && (i <? a + m + d)) with false by lia.
        replace ((a + d <=? i) && (i <? a + S m + d)) with true by lia. do 2 f_equal. lia.
      + replace ((a + d <=? i) && (i <? a + m + d)) with false by lia.
        replace ((a + d <=? i) && (i <? a + S m + d)) with false by lia. reflexivity.
      + replace ((a + d <=? i) && (i <? a + m + d)) with false by lia.
        replace ((a + d <=? i) && (i <? a + S m + d)) with true by lia. do 2 f_equal. lia.
      + replace (i <? a + S m + d) with (i <? a + m + d) by lia. reflexivity. }
  destruct (Nat.le_gt_cases tail e) as [Le|Gt].
  - destruct (G (e - tail) tail ltac:(lia) b HL) as (b' & E & Sh & Q & O).
    exists b'. split; [exact E|]. split; [exact Sh|]. split; [exact Q|]. intros i Hi.
    rewrite O by auto. replace (tail + (e - tail) + d) with (e + d) by lia. reflexivity.
  - replace (e - tail) with 0 by lia. cbn [seq rev fold_left]. exists b. split; [reflexivity|].
    split; [apply same_heads_refl|]. split; [auto|]. intros i Hi.
    replace ((tail + d <=? i) && (i <? e + d)) with false by lia. reflexivity.
Qed.

(** Moving left: [dst = src - d], from the first byte up. *)
Lemma move_left_fold f n b d tail : okf f -> f_words f * np f n <= List.length b ->
  0 < d -> d <= tail -> tail <= n ->
  exists b', fold_left (fun acc i => b' <- acc ;; copy_byte f b' i (i - d))
      (seq tail (n - tail)) (Val b) = Val b'
    /\ same_heads f b b'
    /\ (forall j, (forall i, i < n -> j <> pos f i) -> oct b' j = oct b j)
    /\ forall i, i < n -> oct b' (pos f i)
        = if (tail - d <=? i) && (i <? n - d) then oct b (pos f (i + d)) else oct b (pos f i).
Proof.
  intros H HL Hd Hdt Ht.
  assert (G : forall m, tail + m <= n ->
    exists b', fold_left (fun acc i => b' <- acc ;; copy_byte f b' i (i - d))
      (seq tail m) (Val b) = Val b'
    /\ same_heads f b b'
    /\ (forall j, (forall i, i < n -> j <> pos f i) -> oct b' j = oct b j)
    /\ forall i, i < n -> oct b' (pos f i)
        = if (tail - d <=? i) && (i <? tail + m - d) then oct b (pos f (i + d)) else oct b (pos f i)).
  { induction m as [|m IH]; intros Hm.
    - exists b. split; [reflexivity|]. split; [apply same_heads_refl|]. split; [auto|].
      intros i Hi. replace ((tail - d <=? i) && (i <? tail + 0 - d)) with false by lia. reflexivity.
    - rewrite seq_S, fold_left_app. destruct (IH ltac:(lia)) as (b1 & E1 & S1 & Q1 & O1).
      rewrite E1. cbn [fold_left bind].
      destruct (copy_byte_ok f n b1 (tail + m) (tail + m - d) H) as (b2 & E2 & L2 & O2).
      { destruct S1. lia. } { lia. } { lia. }
      exists b2. split; [exact E2|].
      split; [eapply same_heads_trans; [exact S1|eapply same_heads_pos; eauto]|].
      split.
      { intros j Hj. rewrite O2. destruct (Nat.eqb_spec j (pos f (tail + m - d))) as [X|X].
        - exfalso. eapply Hj; [|exact X]. lia.
        - auto. }
      intros i Hi. rewrite O2.
      destruct (Nat.eqb_spec (pos f i) (pos f (tail + m - d))) as [X|X].
      + apply pos_inj in X; auto. rewrite O1 by lia.
        replace ((tail - d <=? tail + m) && (tail + m <? tail + m - d)) with false by lia.
        replace ((tail - d <=? i) && (i <? tail + S m - d)) with true by lia. do 2 f_equal. lia.
      + assert (i <> tail + m - d) by congruence. rewrite O1 by auto.
        replace ((tail - d <=? i) && (i <? tail + S m - d))
          with ((tail - d <=? i) && (i <? tail + m - d)) by lia. reflexivity. }
  destruct (G (n - tail) ltac:(lia)) as (b' & E & Sh & Q & O).
  exists b'. split; [exact E|]. split; [exact Sh|]. split; [exact Q|]. intros i Hi.
  rewrite O by auto. replace (tail + (n - tail) - d) with (n - d) by lia. reflexivity.
Qed.
