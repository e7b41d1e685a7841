(** Lemmas: the counters of Meter.v, over growable buffers and in arrays that have room. *)
From Coq Require Import NArith List Bool Arith Lia ZifyBool.
From Verif Require Import Base Sysex Splice ListLemmas SpecSysex SpecEdits SpliceLemmas SpecCost Meter.
Import ListNotations.
Local Open Scope nat_scope.

Lemma metering_costed {A} k b (f : cost -> list N -> outcome A) : metering (costed k b) f = f k b.
Proof. destruct k as [k1 k2 k3 k4 k5]. unfold metering, costed. cbn [resizings headings peak moved stored]. now rewrite !Nat2N.id. Qed.

Lemma skip_none {A} k (l : list A) : skipn k l = [] <-> List.length l <= k.
Proof. split; [intros E; pose proof (skipn_length k l) as L; rewrite E in L; cbn in L; lia|apply skipn_all2]. Qed.
Lemma skip_twice {A} j k (l : list A) : skipn j (skipn k l) = skipn (k + j) l.
Proof. revert l. induction k as [|k IH]; intros l; [reflexivity|]. destruct l; [now rewrite !skipn_nil|]. cbn [Nat.add skipn]. apply IH. Qed.

Lemma sub_ok x y : y <= x -> sub_chk x y = Val (x - y).
Proof. intros H. unfold sub_chk. now replace (x <? y) with false by lia. Qed.

Lemma fits_less lim x y : fits_in lim y -> x <= y -> fits_in lim x.
Proof. unfold fits_in. destruct lim; lia. Qed.

Section Cost.
  Context (hd : nat -> nat) (Hhd : forall x y, x <= y -> hd x <= hd y) (o : ops) (I W : nat -> list N -> Prop) (rd : list N -> nat -> N) (okv : N -> Prop)
    (lim : option nat) (shr : bool) (L : laws o I W rd okv lim shr).

  Lemma meter_resize k b n b' : o_resize o b n = Val (b', None) ->
    o_resize (metered hd o) (costed k b) n = Val (costed (plus_resize hd n k) b', None).
  Proof. intros E. cbn [metered o_resize]. rewrite metering_costed, E. reflexivity. Qed.
  Lemma meter_move k b n tail to b' : o_payload_size o b = Val n -> o_move o b tail to = Val b' ->
    o_move (metered hd o) (costed k b) tail to
      = Val (costed (plus_move (if tail =? to then 0 else n - Nat.max tail to) k) b').
  Proof. intros S E. cbn [metered o_move]. rewrite metering_costed, S. cbn [bind]. rewrite E. reflexivity. Qed.

  (** Any move within the payload. *)
  Lemma any_move n b tail to : I n b -> tail <= n -> to <= n -> exists b', o_move o b tail to = Val b' /\ I n b'.
  Proof.
    intros HI Ht Hu. destruct (Nat.lt_trichotomy tail to) as [X|[X|X]].
    - destruct (l_right _ _ _ _ _ _ _ L n b tail to HI X Hu) as (b' & E & I' & _). eauto.
    - subst. exists b. split; [exact (l_same _ _ _ _ _ _ _ L n b to HI)|exact HI].
    - destruct (l_left _ _ _ _ _ _ _ L n b tail to HI X Ht) as (b' & E & I' & _). eauto.
  Qed.

  Lemma fill_cost n data : forall k b a w room, I n b -> Forall okv data -> w <= room -> a + room <= n ->
    let c := min (room - w) (List.length data) in
    exists b', fill o b data a w room = Val (b', w + c, skipn c data, List.length data <? room - w)
      /\ fill (metered hd o) (costed k b) data a w room
         = Val (costed {| resizings := resizings k; headings := headings k; peak := peak k; moved := moved k; stored := stored k + c |} b',
                w + c, skipn c data, List.length data <? room - w)
      /\ I n b'.
  Proof.
    induction data as [|v t IH]; intros k b a w room HI Hv Hw Hn c; unfold c.
    - rewrite Nat.min_0_r. cbn [fill List.length skipn]. exists b. rewrite !Nat.add_0_r.
      replace {| resizings := resizings k; headings := headings k; peak := peak k; moved := moved k; stored := stored k |} with k by now destruct k.
      destruct (Nat.ltb_spec w room), (Nat.ltb_spec 0 (room - w)); try lia; auto.
    - inversion Hv as [|? ? V1 V2]; subst. cbn [fill List.length]. destruct (Nat.ltb_spec w room) as [X|X].
      + destruct (l_write _ _ _ _ _ _ _ L n b v (a + w) HI ltac:(lia) V1) as (b1 & E1 & I1 & _). rewrite E1. cbn [bind].
        cbn [metered o_write]. rewrite metering_costed, E1. cbn [bind].
        set (k1 := plus_write k).
        destruct (IH k1 b1 a (S w) room I1 V2 ltac:(lia) Hn) as (b2 & E2 & E3 & I2). exists b2.
        replace (min (room - w) (S (List.length t))) with (S (min (room - S w) (List.length t))) by lia. cbn [skipn].
        replace (w + S (min (room - S w) (List.length t))) with (S w + min (room - S w) (List.length t)) by lia.
        replace (S (List.length t) <? room - w) with (List.length t <? room - S w) by lia.
        split; [exact E2|]. split; [|exact I2]. fold (metered hd o). rewrite E3. unfold k1. cbn [resizings headings peak moved stored plus_resize plus_move plus_write].
        do 4 f_equal. f_equal. f_equal. lia.
      + replace (min (room - w) (S (List.length t))) with 0 by lia. cbn [skipn]. exists b. rewrite !Nat.add_0_r.
        replace {| resizings := resizings k; headings := headings k; peak := peak k; moved := moved k; stored := stored k |} with k by now destruct k.
        replace (S (List.length t) <? room - w) with false by lia. auto.
  Qed.

  Context (n a e : nat) (data : list N) (Hae : a <= e) (Hen : e <= n) (Hdata : Forall okv data).

  Lemma loop_cost est0 : forall fuel k b sz w est extra, I sz b -> est + (n - (e - a)) <= sz -> w <= est -> w <= List.length data ->
    0 < extra -> S est = est0 + extra -> (est0 < List.length data -> fits_in lim (n - (e - a) + (2 * List.length data - est0 - 1))) ->
    (est0 < List.length data -> shr = true) ->
    1 <= fuel -> List.length data - w + (if w <? est then 0 else 1) <= fuel ->
    exists b' est' sz' j p' h', let k' := {| resizings := resizings k + j; headings := h'; peak := p'; moved := moved k + j * (n - e); stored := stored k + (List.length data - w) |} in
      main_loop fuel o b (skipn w data) a (e - a) n w est (a + est) extra = Val (Done b' (List.length data) (a + est'))
      /\ main_loop fuel (metered hd o) (costed k b) (skipn w data) a (e - a) n w est (a + est) extra
         = Val (Done (costed k' b') (List.length data) (a + est'))
      /\ I sz' b' /\ List.length data <= est' /\ est' + (n - (e - a)) <= sz'
      /\ peak k <= p' <= Nat.max (peak k) (n - (e - a) + (2 * List.length data - est0 - 1))
      /\ headings k <= h' <= headings k + j * hd (n - (e - a) + (2 * List.length data - est0 - 1))
      /\ (j = 0 -> sz' = sz /\ est' = est /\ p' = peak k)
      /\ (0 < j -> est < List.length data /\ extra * 2 ^ (j - 1) <= List.length data - est0 /\ sz' = est' + (n - (e - a))).
  Proof.
    induction fuel as [|fu IH]; intros k b sz w est extra HI Hsz Hw Hwd Hx Hest Hfit Hshr H1 HF; [lia|].
    cbn [main_loop]. destruct (fill_cost sz (skipn w data) k b a w est HI) as (b1 & E1 & M1 & I1).
    { apply Forall_forall. intros x Hx'. rewrite Forall_forall in Hdata. apply Hdata.
      rewrite <- (firstn_skipn w data). apply in_or_app. now right. }
    { lia. } { lia. }
    rewrite skipn_length in *. set (c := min (est - w) (List.length data - w)) in *.
    rewrite E1, M1. cbn [bind].
    destruct (Nat.ltb_spec (List.length data - w) (est - w)) as [Dry|Wet].
    { exists b1, est, sz, 0, (peak k), (headings k). cbn zeta. rewrite !Nat.add_0_r.
      replace (w + c) with (List.length data) by lia. replace (List.length data - w) with c by lia.
      split; [reflexivity|]. split; [reflexivity|]. split; [exact I1|]. lia. }
    assert (Ewc : w + c = est) by lia. rewrite Ewc. rewrite Nat.eqb_refl. cbn [negb].
    assert (Es : skipn c (skipn w data) = skipn est data) by (rewrite skip_twice; f_equal; lia). rewrite Es.
    destruct (skipn est data) as [|y rest] eqn:Er.
    { apply skip_none in Er. exists b1, est, sz, 0, (peak k), (headings k). cbn zeta. rewrite !Nat.add_0_r.
      assert (est = List.length data) by lia. replace (List.length data - w) with c by lia.
      split; [congruence|]. split; [congruence|]. split; [exact I1|]. lia. }
    assert (Hlong : est < List.length data).
    { destruct (Nat.le_gt_cases (List.length data) est) as [X|X]; [|lia].
      apply skip_none in X. rewrite X in Er. discriminate. }
    rewrite <- Er in *. clear y rest Er Es.
    rewrite (sub_ok (est + extra + n) (e - a)) by lia. cbn [bind].
    replace (a + est <? a + (est + extra)) with true by lia.
    assert (Hk : 1 <= fu /\ List.length data - est <= fu) by (destruct (Nat.ltb_spec w est); lia).
    set (m := est + extra + n - (e - a)). assert (Hm : m = est + extra + (n - (e - a))) by (unfold m; lia).
    destruct (l_grow _ _ _ _ _ _ _ L sz b1 m I1 ltac:(left; apply Hshr; clear - Hest Hlong Hx; lia) ltac:(apply (fits_less lim _ _ (Hfit ltac:(clear - Hest Hlong Hx; lia))); clear - Hm Hest Hlong; lia)) as (b2 & E2 & I2 & _).
    rewrite E2. rewrite (meter_resize _ _ _ _ E2). cbn [bind resizings headings peak moved stored plus_resize plus_move plus_write].
    destruct (any_move m b2 (a + est) (a + (est + extra)) I2) as (b3 & E3 & I3); [lia|lia|].
    rewrite E3. rewrite (meter_move _ _ _ _ _ _ (l_size _ _ _ _ _ _ _ L _ _ I2) E3). cbn [bind resizings headings peak moved stored plus_resize plus_move plus_write].
    replace (a + est =? a + (est + extra)) with false by lia.
    replace (m - Nat.max (a + est) (a + (est + extra))) with (n - e) by lia.
    replace (est + extra <=? est) with false by lia.
    set (k3 := {| resizings := S (resizings k); headings := headings k + hd m; peak := Nat.max (peak k) m; moved := moved k + (n - e); stored := stored k + c |}).
    destruct (IH k3 b3 m est (est + extra) (extra * 2) I3) as (b' & est' & sz' & j & p' & h' & A1 & A2 & A3 & A4 & A5 & A6 & A9 & A7 & A8); try exact Hfit; try exact Hshr; try (clear Hfit Hshr; lia).
    { replace (est <? est + extra) with true by lia. lia. }
    cbn zeta in *. unfold k3 in A2, A6, A7, A9. cbn [resizings headings peak moved stored plus_resize plus_move plus_write] in *.
    exists b', est', sz', (S j), p', h'. split; [exact A1|]. split.
    { unfold plus_move, plus_resize. cbn [resizings headings peak moved stored]. rewrite A2. do 2 f_equal. f_equal. f_equal; lia. }
    split; [exact A3|]. split; [exact A4|]. split; [exact A5|].
    split; [clear - A6 Hm Hest Hlong; lia|].
    split; [pose proof (Hhd m (n - (e - a) + (2 * List.length data - est0 - 1)) ltac:(clear - Hm Hest Hlong; lia)) as Y; rewrite Nat.mul_succ_l; clear - A9 Y; lia|]. split; [discriminate|].
    intros _. split; [exact Hlong|]. destruct j as [|j].
    - destruct (A7 eq_refl) as (-> & -> & _). cbn [Nat.sub Nat.pow]. lia.
    - destruct (A8 ltac:(lia)) as (_ & B & C). split; [|exact C]. cbn [Nat.sub] in *. rewrite Nat.sub_0_r in *.
      rewrite Nat.pow_succ_r'. lia.
  Qed.

  (** One splice. *)
  Lemma splice_cost k b src lo hi : s_items src = data -> begin_of lo = a -> end_of hi n = e -> I n b ->
    fits_in lim (n - (e - a) + (if List.length data <=? announced src then announced src else 2 * List.length data - announced src - 1)) ->
    (announced src < List.length data -> shr = true) ->
    exists b' k', splice_detail o b src lo hi = Val (b', true) /\ splice_detail (metered hd o) (costed k b) src lo hi = Val (costed k' b', true) /\ W (n - (e - a) + List.length data) b'
      /\ let j := if List.length data <=? announced src then 0 else 1 + Nat.log2 (List.length data - announced src) in
         exists r, resizings k' = resizings k + r /\ 1 <= r <= 2 + j
         /\ peak k' <= Nat.max (peak k) (n - (e - a) + (if List.length data <=? announced src then announced src else 2 * List.length data - announced src - 1))
         /\ n - (e - a) + List.length data <= peak k'
         /\ headings k + hd (n - (e - a) + List.length data) <= headings k' <= headings k + r * hd (n - (e - a) + (if List.length data <=? announced src then announced src else 2 * List.length data - announced src - 1))
         /\ peak k <= peak k'
         /\ (e - a < announced src -> n - (e - a) + announced src <= peak k')
         /\ moved k' <= moved k + (2 + j) * (n - e) + (e - a)
         /\ stored k' = stored k + List.length data.
  Proof.
    intros Es Ea Ee HI Hfit Hshr. assert (Est : estimate (s_hint src) = announced src) by reflexivity.
    unfold splice_detail. rewrite Es.
    rewrite (l_compact _ _ _ _ _ _ _ L _ _ HI). cbn [bind]. rewrite (l_size _ _ _ _ _ _ _ L _ _ HI).
    assert (C1 : o_compact (metered hd o) (costed k b) = Val (costed k b)).
    { cbn [metered o_compact]. rewrite metering_costed, (l_compact _ _ _ _ _ _ _ L _ _ HI). reflexivity. }
    assert (C2 : o_payload_size (metered hd o) (costed k b) = Val n).
    { cbn [metered o_payload_size]. rewrite metering_costed. exact (l_size _ _ _ _ _ _ _ L _ _ HI). }
    rewrite C1. cbn [bind]. rewrite C2. cbn [bind]. rewrite Ea, Ee, Est. set (est := announced src) in *.
    rewrite (sub_ok e a) by lia. cbn [bind].
    (* the first resize and the first move *)
    assert (S1 : exists b2 k2 sz j0,
       (st <- (if e <? e + est - (e - a) then
           m <- sub_chk (est + n) (e - a) ;; q <- o_resize o b m ;;
           match q with (b1, None) => Val (b1, est) | (b1, Some sz) => d <- sub_chk n (e - a) ;; Val (b1, sz - d) end
         else Val (b, est)) ;; let '(b1, est) := st in b2 <- o_move o b1 e (e + est - (e - a)) ;; Val (b2, est)) = Val (b2, est)
       /\ (st <- (if e <? e + est - (e - a) then
           m <- sub_chk (est + n) (e - a) ;; q <- o_resize (metered hd o) (costed k b) m ;;
           match q with (b1, None) => Val (b1, est) | (b1, Some sz) => d <- sub_chk n (e - a) ;; Val (b1, sz - d) end
         else Val (costed k b, est)) ;; let '(b1, est) := st in b2 <- o_move (metered hd o) b1 e (e + est - (e - a)) ;; Val (b2, est)) = Val (costed k2 b2, est)
       /\ I sz b2 /\ est + (n - (e - a)) <= sz /\ sz <= Nat.max n (est + (n - (e - a)))
       /\ (resizings k2 = resizings k + j0 /\ j0 <= 1) /\ peak k <= peak k2 <= Nat.max (peak k) (n - (e - a) + est)
       /\ (e - a < est -> n - (e - a) + est <= peak k2 /\ sz = est + (n - (e - a)))
       /\ moved k2 <= moved k + (n - e) /\ stored k2 = stored k
       /\ headings k <= headings k2 <= headings k + j0 * hd (n - (e - a) + est)).
    { destruct (Nat.ltb_spec e (e + est - (e - a))) as [G|G].
      - rewrite (sub_ok (est + n) (e - a)) by lia. cbn [bind].
        destruct (l_grow _ _ _ _ _ _ _ L n b (est + n - (e - a)) HI ltac:(right; clear - G Hae Hen; lia) ltac:(apply (fits_less lim _ _ Hfit); clear - Hae Hen; destruct (Nat.leb_spec (List.length data) est); lia)) as (b1 & E1 & I1 & _).
        rewrite E1, (meter_resize _ _ _ _ E1). cbn [bind].
        destruct (any_move (est + n - (e - a)) b1 e (e + est - (e - a)) I1) as (b2 & E2 & I2); [lia|lia|].
        rewrite E2, (meter_move _ _ _ _ _ _ (l_size _ _ _ _ _ _ _ L _ _ I1) E2). cbn [bind resizings headings peak moved stored plus_resize plus_move plus_write].
        replace (e =? e + est - (e - a)) with false by lia.
        eexists _, _, _, 1. split; [reflexivity|]. split; [reflexivity|]. split; [exact I2|]. cbn [resizings headings peak moved stored plus_resize plus_move plus_write].
        pose proof (Hhd (est + n - (e - a)) (n - (e - a) + est) ltac:(lia)) as Y. rewrite Nat.mul_1_l. clear - Y G Hae Hen. lia.
      - cbn [bind]. destruct (any_move n b e (e + est - (e - a)) HI) as (b2 & E2 & I2); [lia|lia|].
        rewrite E2, (meter_move _ _ _ _ _ _ (l_size _ _ _ _ _ _ _ L _ _ HI) E2). cbn [bind].
        eexists _, _, _, 0. split; [reflexivity|]. split; [reflexivity|]. split; [exact I2|]. cbn [resizings headings peak moved stored plus_resize plus_move plus_write].
        rewrite Nat.mul_0_l. clear - G Hae Hen.
        destruct (Nat.eqb_spec e (e + est - (e - a))); lia. }
    destruct S1 as (b2 & k2 & sz & j0 & X1 & X2 & I2 & Z1 & Z2 & R1 & P1 & P2 & M1 & W1 & H1).
    assert (D1 : forall {A B C} (x : outcome (A * B)) (f : A -> B -> outcome A) (h : A -> B -> outcome C) r s,
       (st <- x ;; let '(b1, t) := st in b2 <- f b1 t ;; Val (b2, t)) = Val (r, s) ->
       (st <- x ;; let '(b1, t) := st in b2 <- f b1 t ;; h b2 t) = h r s).
    { intros A B C x f h r s H. destruct x as [[x1 x2]|]; [|discriminate]. cbn [bind] in *.
      destruct (f x1 x2) as [y|]; [|discriminate]. cbn [bind] in *. congruence. }
    destruct (loop_cost est (S (List.length data)) k2 b2 sz 0 est 1 I2 Z1) as (b3 & est3 & sz3 & j & p3 & h3 & A1 & A2 & A3 & A4 & A5 & A6 & A9 & A7 & A8);
      try exact Hshr; try (clear Hfit Hshr; lia).
    { intros X. revert Hfit. replace (List.length data <=? est) with false by (clear - X; lia). auto. }
    { clear Hfit Hshr. destruct (0 <? est); lia. }
    cbn zeta in *. cbn [skipn] in A1, A2. rewrite Nat.sub_0_r in *.
    assert (Ej : j <= if List.length data <=? est then 0 else 1 + Nat.log2 (List.length data - est)).
    { destruct j as [|j]; [lia|]. destruct (A8 ltac:(lia)) as (B1 & B2 & _). destruct (Nat.leb_spec (List.length data) est); [lia|].
      cbn [Nat.sub] in B2. rewrite Nat.sub_0_r, Nat.mul_1_l in B2. pose proof (proj1 (Nat.log2_le_pow2 (List.length data - est) j ltac:(lia)) B2). lia. }
    set (J := if List.length data <=? est then 0 else 1 + Nat.log2 (List.length data - est)) in *.
    (* the last move and the last resize *)
    destruct (any_move sz3 b3 (a + est3) (a + List.length data) A3) as (b4 & E4 & I4); [lia|lia|].
    destruct (l_final _ _ _ _ _ _ _ L sz3 b4 (List.length data + n - (e - a)) I4 ltac:(apply (fits_less lim _ _ Hfit); clear - Hae Hen; destruct (Nat.leb_spec (List.length data) est); lia)) as (b5 & E5 & W5 & _).
    exists b5. eexists. split; [|split; [|split]].
    - rewrite (D1 _ _ _ _ (fun b1 est => o_move o b1 e (e + est - (e - a)))
        (fun b2 est => l <- main_loop (S (List.length data)) o b2 data a (e - a) n 0 est (e + est - (e - a)) 1 ;;
           match l with Overflow b3 => Val (b3, false) | Done b3 w tail' => b4 <- o_move o b3 tail' (a + w) ;; m <- sub_chk (w + n) (e - a) ;;
             q <- o_resize o b4 m ;; match q with (b5, None) => Val (b5, true) | (b5, Some _) => Val (b5, false) end end) _ _ X1).
      replace (e + est - (e - a)) with (a + est) by lia. rewrite A1. cbn [bind]. rewrite E4. cbn [bind].
      rewrite (sub_ok (List.length data + n) (e - a)) by lia. cbn [bind]. rewrite E5. reflexivity.
    - rewrite (D1 _ _ _ _ (fun b1 est => o_move (metered hd o) b1 e (e + est - (e - a)))
        (fun b2 est => l <- main_loop (S (List.length data)) (metered hd o) b2 data a (e - a) n 0 est (e + est - (e - a)) 1 ;;
           match l with Overflow b3 => Val (b3, false) | Done b3 w tail' => b4 <- o_move (metered hd o) b3 tail' (a + w) ;; m <- sub_chk (w + n) (e - a) ;;
             q <- o_resize (metered hd o) b4 m ;; match q with (b5, None) => Val (b5, true) | (b5, Some _) => Val (b5, false) end end) _ _ X2).
      replace (e + est - (e - a)) with (a + est) by lia. rewrite A2. cbn [bind].
      rewrite (meter_move _ _ _ _ _ _ (l_size _ _ _ _ _ _ _ L _ _ A3) E4). cbn [bind].
      rewrite (sub_ok (List.length data + n) (e - a)) by lia. cbn [bind]. rewrite (meter_resize _ _ _ _ E5). reflexivity.
    - replace (n - (e - a) + List.length data) with (List.length data + n - (e - a)) by lia. exact W5.
    - cbn [resizings headings peak moved stored plus_resize plus_move plus_write].
      assert (Mv : (if a + est3 =? a + List.length data then 0 else sz3 - Nat.max (a + est3) (a + List.length data)) <= (n - e) + (e - a)).
      { destruct j as [|j].
        - destruct (A7 eq_refl) as (-> & -> & _). destruct (Nat.le_gt_cases est (e - a)) as [Q|Q].
          + destruct (Nat.eqb_spec (a + est) (a + List.length data)); lia.
          + destruct (P2 Q) as [_ Es']. destruct (Nat.eqb_spec (a + est) (a + List.length data)); lia.
        - destruct (A8 ltac:(lia)) as (_ & _ & ->). destruct (Nat.eqb_spec (a + est3) (a + List.length data)); lia. }
      assert (Jm : j * (n - e) <= J * (n - e)) by (apply Nat.mul_le_mono_r; exact Ej).
      assert (Pk : p3 <= Nat.max (peak k) (n - (e - a) + (if List.length data <=? est then est else 2 * List.length data - est - 1))).
      { destruct (Nat.leb_spec (List.length data) est) as [Q|Q].
        - destruct j as [|j]; [|clear - A8 Q; destruct (A8 ltac:(lia)); lia]. destruct (A7 eq_refl) as (_ & _ & ->). clear - P1. lia.
        - clear - A6 P1 Q. lia. }
      assert (Pl : n - (e - a) + est <= peak k2 \/ est <= e - a) by (destruct (Nat.le_gt_cases est (e - a)) as [Q|Q]; [now right|left; apply P2; exact Q]).
      clear A7 A8 A1 A2 P2 X1 X2. destruct R1 as [R1 R2]. exists (j0 + j + 1). split; [clear - R1; lia|]. split; [clear - R2 Ej; lia|].
      split; [clear - Pk Hae Hen; destruct (Nat.leb_spec (List.length data) est); lia|]. split; [clear - Hae Hen; lia|].
      split.
      { set (P := n - (e - a) + (if List.length data <=? est then est else 2 * List.length data - est - 1)).
        assert (Y1 : hd (n - (e - a) + est) <= hd P) by (apply Hhd; unfold P; clear; destruct (Nat.leb_spec (List.length data) est); lia).
        assert (Y2 : j * hd (n - (e - a) + (2 * List.length data - est - 1)) <= j * hd P).
        { destruct j as [|j]; [lia|]. apply Nat.mul_le_mono_l, Hhd. unfold P. clear - Ej J.
          unfold J in Ej. destruct (Nat.leb_spec (List.length data) est); lia. }
        assert (Y3 : hd (List.length data + n - (e - a)) <= hd P) by (apply Hhd; unfold P; clear - Hae Hen; destruct (Nat.leb_spec (List.length data) est); lia).
        pose proof (Nat.mul_le_mono_l _ _ j0 Y1) as Y4.
        replace (n - (e - a) + List.length data) with (List.length data + n - (e - a)) by (clear - Hae Hen; lia).
        rewrite !Nat.mul_add_distr_r, Nat.mul_1_l. clear - H1 A9 Y2 Y3 Y4. lia. }
      split; [clear - A6 P1; lia|]. split; [clear - Pl A6; intros Q; lia|]. split; [|clear - W1; lia].
      rewrite Nat.mul_add_distr_r. clear - Mv Jm M1. lia.
  Qed.
End Cost.

(** Every payload edit, after others. *)
Lemma try_cost hd o I W rd okv lim shr : (forall x y, x <= y -> hd x <= hd y) -> laws o I W rd okv lim shr ->
  forall fm e l b k0, I (List.length l) b -> (forall v, is_unit fm v -> okv v) -> resizes e -> legal fm e l ->
  fits_in lim (peak (limit hd e l)) ->
  (shr = true \/ items e <= announced (given e) /\ match e with SetPayload _ => l = [] | _ => True end) ->
  exists b' k, try_over o e b = Val (b', true) /\ try_over (metered hd o) e (costed k0 b) = Val (costed k b', true)
    /\ within k (both k0 (limit hd e l)) /\ resizings k0 < resizings k
    /\ headings k0 + hd (kept_before e l + kept_behind e l + items e) <= headings k
    /\ kept_before e l + kept_behind e l + items e <= peak k
    /\ (replaced_by e l < announced (given e) -> kept_before e l + kept_behind e l + announced (given e) <= peak k).
Proof.
  intros Hhd L fm e l b k0 HI Hok Rz Lg Hft Hsh.
  assert (F : forall d, Forall (is_unit fm) d -> Forall okv d) by (intros d; apply Forall_impl; auto).
  assert (SP : forall k1 b1 l1 src lo hi, I (List.length l1) b1 -> Forall (is_unit fm) (s_items src) ->
    range_begin lo <= range_end hi (List.length l1) <= List.length l1 ->
    let e' := SplicePayload src lo hi in fits_in lim (peak (limit hd e' l1)) ->
    (announced src < List.length (s_items src) -> shr = true) ->
    exists b' k, try_splice o b1 src lo hi = Val (b', true) /\ try_splice (metered hd o) (costed k1 b1) src lo hi = Val (costed k b', true)
      /\ (exists r, resizings k = resizings k1 + r /\ 1 <= r <= raises e' + 2 /\ headings k <= headings k1 + r * hd (peak (limit hd e' l1)))
      /\ peak k1 <= peak k <= Nat.max (peak k1) (peak (limit hd e' l1)) /\ moved k <= moved k1 + moved (limit hd e' l1)
      /\ stored k = stored k1 + items e'
      /\ headings k1 + hd (kept_before e' l1 + kept_behind e' l1 + items e') <= headings k
      /\ kept_before e' l1 + kept_behind e' l1 + items e' <= peak k
      /\ (replaced_by e' l1 < announced src -> kept_before e' l1 + kept_behind e' l1 + announced src <= peak k)).
  { intros k1 b1 l1 src lo hi I1 Hv [A0 B0] e' Hf Hs.
    destruct (splice_cost hd Hhd o I W rd okv lim shr L (List.length l1) (range_begin lo) (range_end hi (List.length l1)) (s_items src) A0 B0 (F _ Hv)
      k1 b1 src lo hi eq_refl eq_refl eq_refl I1
      ltac:(apply (fits_less lim _ _ Hf); unfold e', limit, items; cbn [peak kept_before kept_behind given]; clear - A0 B0; lia) Hs) as (b' & k & A & B & _ & r & C1 & C2 & C3 & C4 & C5 & C6 & C7 & C8 & C9).
    exists b', k. unfold try_splice. rewrite A, B. split; [reflexivity|]. split; [reflexivity|].
    unfold e', limit, raises, items. cbn [kept_before kept_behind replaced_by given resizings headings peak moved stored].
    set (n := List.length l1) in *. set (x := range_begin lo) in *. set (y := range_end hi n) in *.
    replace (n - (y - x)) with (x + (n - y)) in * by (clear - A0 B0; lia).
    split; [exists r; split; [exact C1|]; split; [clear - C2; lia|apply C5]|].
    split; [clear - C3 C6; lia|]. split; [clear - C8; lia|]. split; [exact C9|]. split; [apply C5|]. split; [exact C4|exact C7]. }
  assert (FIN : forall b' k, (exists r, resizings k = resizings k0 + r /\ 1 <= r <= resizings (limit hd e l) /\ headings k <= headings k0 + r * hd (peak (limit hd e l))) ->
    peak k <= Nat.max (peak k0) (peak (limit hd e l)) -> moved k <= moved k0 + moved (limit hd e l) -> stored k = stored k0 + items e ->
    headings k0 + hd (kept_before e l + kept_behind e l + items e) <= headings k ->
    kept_before e l + kept_behind e l + items e <= peak k ->
    (replaced_by e l < announced (given e) -> kept_before e l + kept_behind e l + announced (given e) <= peak k) ->
    try_over o e b = Val (b', true) -> try_over (metered hd o) e (costed k0 b) = Val (costed k b', true) ->
    exists b' k, try_over o e b = Val (b', true) /\ try_over (metered hd o) e (costed k0 b) = Val (costed k b', true)
    /\ within k (both k0 (limit hd e l)) /\ resizings k0 < resizings k
    /\ headings k0 + hd (kept_before e l + kept_behind e l + items e) <= headings k
    /\ kept_before e l + kept_behind e l + items e <= peak k
    /\ (replaced_by e l < announced (given e) -> kept_before e l + kept_behind e l + announced (given e) <= peak k)).
  { intros b' k (r & R1 & R2 & R3) P M St H1 H2 H3 E1 E2. exists b', k. split; [exact E1|]. split; [exact E2|].
    split; [|split; [clear - R1 R2; lia|auto]]. unfold within, both. cbn [resizings headings peak moved stored].
    split; [clear - R1 R2; lia|]. split; [|split; [exact P|split; [exact M|exact St]]].
    apply (Nat.le_trans _ _ _ R3), Nat.add_le_mono_l. unfold limit. cbn [headings resizings peak] in *.
    apply Nat.mul_le_mono_r. apply R2. }
  assert (Hs : announced (given e) < List.length (s_items (given e)) -> shr = true).
  { unfold items in Hsh. intros X. destruct Hsh as [Hs|[Hs _]]; [exact Hs|lia]. }
  destruct e as [src|src lo hi|src i|src|v|v i|g']; cbn [legal resizes] in *; try contradiction.
  - destruct (l_grow _ _ _ _ _ _ _ L _ b 0 HI) as (b1 & E & I1 & _); [destruct Hsh as [Hsh|[_ ->]]; [now left|right; cbn; lia]|apply (fits_less lim _ _ Hft); lia|].
    destruct (SP (plus_resize hd 0 k0) b1 [] src (Included 0) (Excluded 0) I1 Lg ltac:(cbn; lia) ltac:(exact Hft) Hs)
      as (b' & k & A & B & (r & R1 & R2 & R3) & P & M & St & H1 & H2 & H3).
    unfold limit, raises, items in *. cbn [kept_before kept_behind replaced_by given resizings headings peak moved stored plus_resize range_begin range_end List.length Nat.sub Nat.add] in *.
    rewrite ?Nat.mul_0_r, ?Nat.add_0_l in *.
    apply (FIN b' k); clear FIN SP.
    + exists (S r). set (p := if _ <=? _ then _ else _ - _ - 1) in *. pose proof (Hhd 0 p ltac:(lia)) as Y. cbn [Nat.mul]. clear - R1 R2 R3 Y. lia.
    + clear - P. lia.
    + clear - M. lia.
    + exact St.
    + clear - H1. lia.
    + exact H2.
    + exact H3.
    + cbn [try_over]. unfold try_set_payload. rewrite E. cbn [bind]. exact A.
    + cbn [try_over]. unfold try_set_payload. rewrite (meter_resize hd o k0 b 0 b1 E). cbn [bind]. exact B.
  - destruct (SP k0 b l src lo hi HI (proj1 Lg) (proj2 Lg) Hft Hs) as (b' & k & A & B & R & P & M & St & H1 & H2 & H3).
    apply (FIN b' k); auto. apply P.
  - destruct Lg as [Hv Hi]. destruct (SP k0 b l src (Included i) (Excluded i) HI Hv ltac:(cbn; lia) ltac:(exact Hft) Hs) as (b' & k & A & B & R & P & M & St & H1 & H2 & H3).
    apply (FIN b' k); unfold limit, raises, items in *; cbn [kept_before kept_behind replaced_by given resizings headings peak moved stored range_begin range_end] in *; auto.
    + apply P.
    + clear - M. lia.
    + clear - H3. intros Q. apply H3. lia.
  - destruct (SP k0 b l src (Included (List.length l)) (Excluded (List.length l)) HI Lg ltac:(cbn; lia) ltac:(unfold limit; cbn [peak kept_before kept_behind range_begin range_end]; rewrite Nat.sub_diag; exact Hft) Hs) as (b' & k & A & B & R & P & M & St & H1 & H2 & H3).
    assert (C0 : o_payload_size (metered hd o) (costed k0 b) = Val (List.length l)).
    { cbn [metered o_payload_size]. rewrite metering_costed. exact (l_size _ _ _ _ _ _ _ L _ _ HI). }
    apply (FIN b' k); unfold limit, raises, items in *; cbn [kept_before kept_behind replaced_by given resizings headings peak moved stored range_begin range_end] in *;
      rewrite ?Nat.sub_diag in *; auto.
    + apply P.
    + cbn [try_over]. unfold try_append_payload. rewrite (l_size _ _ _ _ _ _ _ L _ _ HI). exact A.
    + cbn [try_over]. unfold try_append_payload. rewrite C0. exact B.
  - set (src := {| s_items := [v]; s_hint := (1, Some 1) |}).
    destruct (SP k0 b l src (Included (List.length l)) (Excluded (List.length l)) HI ltac:(repeat constructor; exact Lg) ltac:(cbn; lia) ltac:(unfold limit; cbn [peak kept_before kept_behind range_begin range_end]; rewrite Nat.sub_diag; exact Hft) Hs) as (b' & k & A & B & R & P & M & St & H1 & H2 & H3).
    assert (C0 : o_payload_size (metered hd o) (costed k0 b) = Val (List.length l)).
    { cbn [metered o_payload_size]. rewrite metering_costed. exact (l_size _ _ _ _ _ _ _ L _ _ HI). }
    apply (FIN b' k); unfold limit, raises, items in *; cbn [kept_before kept_behind replaced_by given resizings headings peak moved stored range_begin range_end] in *;
      fold src; rewrite ?Nat.sub_diag in *; auto.
    + apply P.
    + cbn [try_over]. unfold try_append_byte, try_append_payload. fold src. rewrite (l_size _ _ _ _ _ _ _ L _ _ HI). exact A.
    + cbn [try_over]. unfold try_append_byte, try_append_payload. fold src. rewrite C0. exact B.
Qed.

(** The same calls on growable buffers. *)
Lemma over_of_try o e b b' : try_over o e b = Val (b', true) -> edit_over o e b = Val b'.
Proof.
  assert (S : forall b src lo hi, try_splice o b src lo hi = Val (b', true) -> splice o b src lo hi = Val b').
  { intros b0 src lo hi. unfold try_splice, splice. destruct (splice_detail o b0 src lo hi) as [[b1 [|]]|]; cbn [bind]; try discriminate.
    - intros [= <-]. reflexivity.
    - destruct (o_resize o b1 0); cbn [bind]; discriminate. }
  destruct e as [src|src lo hi|src i|src|v|v i|g]; cbn [try_over edit_over]; try discriminate.
  - unfold try_set_payload, set_payload. destruct (o_resize o b 0) as [[b1 [sz|]]|]; cbn [bind fst]; try discriminate. apply S.
  - apply S.
  - apply S.
  - unfold try_append_payload, append_payload. destruct (o_payload_size o b); cbn [bind]; try discriminate. apply S.
  - unfold try_append_byte, append_byte, try_append_payload, append_payload. destruct (o_payload_size o b); cbn [bind]; try discriminate. apply S.
Qed.

Lemma edit_cost hd o I W rd okv : (forall x y, x <= y -> hd x <= hd y) -> laws o I W rd okv None true ->
  forall fm e l b k0, I (List.length l) b -> (forall v, is_unit fm v -> okv v) -> resizes e -> legal fm e l ->
  exists b' k, edit_over o e b = Val b' /\ edit_over (metered hd o) e (costed k0 b) = Val (costed k b')
    /\ within k (both k0 (limit hd e l)) /\ resizings k0 < resizings k
    /\ headings k0 + hd (kept_before e l + kept_behind e l + items e) <= headings k
    /\ kept_before e l + kept_behind e l + items e <= peak k
    /\ (replaced_by e l < announced (given e) -> kept_before e l + kept_behind e l + announced (given e) <= peak k).
Proof.
  intros Hhd L fm e l b k0 HI Hok Rz Lg.
  destruct (try_cost hd o I W rd okv None true Hhd L fm e l b k0 HI Hok Rz Lg Logic.I (or_introl eq_refl)) as (b' & k & A & B & C).
  exists b', k. split; [exact (over_of_try _ _ _ _ A)|]. split; [exact (over_of_try _ _ _ _ B)|]. exact C.
Qed.
