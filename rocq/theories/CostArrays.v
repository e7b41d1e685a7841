(** Lemmas: the counters of Meter.v in arrays that have no room for an edit. *)
From Coq Require Import NArith List Bool Arith Lia ZifyBool.
From Verif Require Import Base Sysex Splice ListLemmas SpecSysex SpecEdits SpliceLemmas SpecCost Meter CostLemmas.
Import ListNotations.
Local Open Scope nat_scope.

Lemma meter_refused hd o k b n b' c : o_resize o b n = Val (b', Some c) ->
  o_resize (metered hd o) (costed k b) n = Val (costed (plus_refused hd n c k) b', Some c).
Proof. intros E. cbn [metered o_resize]. rewrite metering_costed, E. reflexivity. Qed.

(** One splice whose iterator does not yield more than it announces: the first resize
    fills the array, all that fits is written, the next resize gives up. *)
Lemma splice_refused_cost hd o I W rd okv c shr : laws o I W rd okv (Some c) shr ->
  forall n a e data k b src lo hi, a <= e -> e <= n -> Forall okv data ->
  s_items src = data -> begin_of lo = a -> end_of hi n = e -> I n b ->
  List.length data <= announced src -> c < n - (e - a) + List.length data ->
  exists b' k', splice_detail o b src lo hi = Val (b', false)
    /\ splice_detail (metered hd o) (costed k b) src lo hi = Val (costed k' b', false) /\ I c b'
    /\ resizings k' = resizings k + 2 /\ headings k' = headings k + 2 * hd c
    /\ peak k' = Nat.max (peak k) (n - (e - a) + announced src)
    /\ moved k' <= moved k + 2 * (n - e) /\ stored k' = stored k + (c - (n - (e - a))).
Proof.
  intros L n a e data k b src lo hi Hae Hen Hd Es Ea Ee HI An Hc.
  assert (Est : estimate (s_hint src) = announced src) by reflexivity.
  pose proof (l_le _ _ _ _ _ _ _ L _ _ HI) as Hn. cbn [fits_in] in Hn.
  unfold splice_detail. rewrite Es.
  rewrite (l_compact _ _ _ _ _ _ _ L _ _ HI). cbn [bind]. rewrite (l_size _ _ _ _ _ _ _ L _ _ HI).
  assert (C1 : o_compact (metered hd o) (costed k b) = Val (costed k b)).
  { cbn [metered o_compact]. rewrite metering_costed, (l_compact _ _ _ _ _ _ _ L _ _ HI). reflexivity. }
  assert (C2 : o_payload_size (metered hd o) (costed k b) = Val n).
  { cbn [metered o_payload_size]. rewrite metering_costed. exact (l_size _ _ _ _ _ _ _ L _ _ HI). }
  rewrite C1. cbn [bind]. rewrite C2. cbn [bind]. rewrite Ea, Ee, Est. set (est := announced src) in *.
  rewrite (sub_ok e a) by lia. cbn [bind].
  replace (e <? e + est - (e - a)) with true by lia.
  rewrite (sub_ok (est + n) (e - a)) by lia. cbn [bind].
  destruct (l_full _ _ _ _ _ _ _ L n b (est + n - (e - a)) c HI eq_refl ltac:(lia)) as (b1 & E1 & I1 & _).
  rewrite E1, (meter_refused hd o _ _ _ _ _ E1). cbn [bind]. rewrite (sub_ok n (e - a)) by lia. cbn [bind].
  set (m := c - (n - (e - a))). assert (Hm : m + (n - (e - a)) = c /\ e - a <= m /\ m < List.length data) by (unfold m; lia).
  replace (e + m - (e - a)) with (a + m) by lia.
  destruct (any_move o I W rd okv (Some c) shr L c b1 e (a + m) I1 ltac:(lia) ltac:(lia)) as (b2 & E2 & I2).
  rewrite E2, (meter_move hd o _ _ _ _ _ _ (l_size _ _ _ _ _ _ _ L _ _ I1) E2). cbn [bind].
  cbn [main_loop].
  set (k2 := plus_move _ _).
  destruct (fill_cost hd o I W rd okv (Some c) shr L c data k2 b2 a 0 m I2 Hd ltac:(lia) ltac:(lia)) as (b3 & E3 & M3 & I3).
  rewrite Nat.sub_0_r in *. replace (min m (List.length data)) with m in * by lia. rewrite Nat.add_0_l in *.
  rewrite E3, M3. cbn [bind]. replace (List.length data <? m) with false by lia. rewrite Nat.eqb_refl. cbn [negb].
  destruct (skipn m data) as [|y rest] eqn:Er.
  { apply skip_none in Er. lia. }
  rewrite (sub_ok (m + 1 + n) (e - a)) by lia. cbn [bind]. replace (a + m <? a + (m + 1)) with true by lia.
  destruct (l_full _ _ _ _ _ _ _ L c b3 (m + 1 + n - (e - a)) c I3 eq_refl ltac:(lia)) as (b4 & E4 & I4 & _).
  rewrite E4, (meter_refused hd o _ _ _ _ _ E4). cbn [bind]. rewrite (sub_ok n (e - a)) by lia. cbn [bind]. fold m.
  rewrite (sub_ok (a + m) (e - a)) by lia. cbn [bind].
  destruct (any_move o I W rd okv (Some c) shr L c b4 (a + m) (a + m - (e - a)) I4 ltac:(lia) ltac:(lia)) as (b5 & E5 & I5).
  rewrite E5, (meter_move hd o _ _ _ _ _ _ (l_size _ _ _ _ _ _ _ L _ _ I4) E5). cbn [bind].
  rewrite Nat.leb_refl. exists b5. eexists. split; [reflexivity|]. split; [reflexivity|]. split; [exact I5|].
  unfold k2. cbn [plus_move plus_refused resizings headings peak moved stored].
  split; [lia|]. split; [lia|]. split; [lia|]. split; [|lia].
  destruct (Nat.eqb_spec e (a + m)), (Nat.eqb_spec (a + m) (a + m - (e - a))); lia.
Qed.

(** Every payload edit. *)
Lemma try_refused_cost hd o I W rd okv c shr : laws o I W rd okv (Some c) shr ->
  forall fm e l b k0, I (List.length l) b -> (forall v, is_unit fm v -> okv v) -> resizes e -> legal fm e l ->
  items e <= announced (given e) -> c < kept_before e l + kept_behind e l + items e ->
  (shr = true \/ match e with SetPayload _ => l = [] | _ => True end) ->
  exists b' k, try_over o e b = Val (b', false) /\ try_over (metered hd o) e (costed k0 b) = Val (costed k b', false)
    /\ resizings k = resizings k0 + (match e with SetPayload _ => 4 | _ => 3 end)
    /\ headings k = headings k0 + 2 * hd c + (match e with SetPayload _ => 2 | _ => 1 end) * hd 0
    /\ peak k = Nat.max (peak k0) (kept_before e l + kept_behind e l + announced (given e))
    /\ moved k <= moved k0 + 2 * kept_behind e l
    /\ stored k = stored k0 + (c - (kept_before e l + kept_behind e l)).
Proof.
  intros L fm e l b k0 HI Hok Rz Lg An Hc Hsh.
  assert (F : forall d, Forall (is_unit fm) d -> Forall okv d) by (intros d; apply Forall_impl; auto).
  assert (SP : forall k1 b1 (l1 : list N) src lo hi, I (List.length l1) b1 -> Forall (is_unit fm) (s_items src) ->
    range_begin lo <= range_end hi (List.length l1) <= List.length l1 ->
    let x := range_begin lo + (List.length l1 - range_end hi (List.length l1)) in
    List.length (s_items src) <= announced src -> c < x + List.length (s_items src) ->
    exists b' k, try_splice o b1 src lo hi = Val (b', false) /\ try_splice (metered hd o) (costed k1 b1) src lo hi = Val (costed k b', false)
      /\ resizings k = resizings k1 + 3 /\ headings k = headings k1 + 2 * hd c + hd 0
      /\ peak k = Nat.max (peak k1) (x + announced src)
      /\ moved k <= moved k1 + 2 * (List.length l1 - range_end hi (List.length l1))
      /\ stored k = stored k1 + (c - x)).
  { intros k1 b1 l1 src lo hi I1 Hv [A0 B0] x Hx Hcx. set (n := List.length l1) in *.
    destruct (splice_refused_cost hd o I W rd okv c shr L n (range_begin lo) (range_end hi n) (s_items src) k1 b1 src lo hi A0 B0 (F _ Hv) eq_refl eq_refl eq_refl I1 Hx
      ltac:(unfold x in Hcx; lia)) as (b' & k & A & B & I' & C1 & C2 & C3 & C4 & C5).
    destruct (l_final _ _ _ _ _ _ _ L c b' 0 I' ltac:(cbn; lia)) as (b2 & E2 & _).
    exists b2. eexists. unfold try_splice. rewrite A, B. cbn [bind]. rewrite E2, (meter_resize hd o _ _ _ _ E2). cbn [bind fst].
    split; [reflexivity|]. split; [reflexivity|]. cbn [plus_resize resizings headings peak moved stored].
    rewrite C1, C2, C3, C5. replace (n - (range_end hi n - range_begin lo)) with x by (unfold x; lia).
    split; [lia|]. split; [lia|]. split; [lia|]. split; [exact C4|reflexivity]. }
  destruct e as [src|src lo hi|src i|src|v|v i|g']; cbn [legal resizes] in *; try contradiction.
  - destruct (l_grow _ _ _ _ _ _ _ L _ b 0 HI ltac:(destruct Hsh as [Hsh| ->]; [now left|right; cbn; lia]) ltac:(cbn; lia)) as (b1 & E & I1 & _).
    destruct (SP (plus_resize hd 0 k0) b1 [] src (Included 0) (Excluded 0) I1 Lg ltac:(cbn; lia) An Hc)
      as (b' & k & A & B & C1 & C2 & C3 & C4 & C5).
    exists b', k. cbn [try_over]. unfold try_set_payload. rewrite E, (meter_resize hd o _ _ _ _ E). cbn [bind].
    split; [exact A|]. split; [exact B|].
    cbn [plus_resize resizings headings peak moved stored kept_before kept_behind given range_begin range_end List.length Nat.sub Nat.add] in *.
    split; [lia|]. split; [lia|]. split; [lia|]. split; [lia|]. lia.
  - destruct (SP k0 b l src lo hi HI (proj1 Lg) (proj2 Lg) An Hc) as (b' & k & A & B & C1 & C2 & C3 & C4 & C5).
    exists b', k. split; [exact A|]. split; [exact B|]. cbn [kept_before kept_behind given]. split; [lia|]. split; [lia|]. auto.
  - destruct Lg as [Hv Hi]. destruct (SP k0 b l src (Included i) (Excluded i) HI Hv ltac:(cbn; lia) An Hc) as (b' & k & A & B & C1 & C2 & C3 & C4 & C5).
    exists b', k. split; [exact A|]. split; [exact B|]. cbn [kept_before kept_behind given range_begin range_end] in *. split; [lia|]. split; [lia|]. auto.
  - destruct (SP k0 b l src (Included (List.length l)) (Excluded (List.length l)) HI Lg ltac:(cbn; lia) An
      ltac:(cbn [range_begin range_end]; rewrite Nat.sub_diag; exact Hc)) as (b' & k & A & B & C1 & C2 & C3 & C4 & C5).
    assert (C0 : o_payload_size (metered hd o) (costed k0 b) = Val (List.length l)).
    { cbn [metered o_payload_size]. rewrite metering_costed. exact (l_size _ _ _ _ _ _ _ L _ _ HI). }
    exists b', k. cbn [try_over]. unfold try_append_payload. rewrite C0, (l_size _ _ _ _ _ _ _ L _ _ HI). cbn [bind].
    split; [exact A|]. split; [exact B|]. cbn [kept_before kept_behind given range_begin range_end] in *. rewrite Nat.sub_diag in *. split; [lia|]. split; [lia|]. auto.
  - set (src := {| s_items := [v]; s_hint := (1, Some 1) |}).
    destruct (SP k0 b l src (Included (List.length l)) (Excluded (List.length l)) HI ltac:(repeat constructor; exact Lg) ltac:(cbn; lia) An
      ltac:(cbn [range_begin range_end]; rewrite Nat.sub_diag; exact Hc)) as (b' & k & A & B & C1 & C2 & C3 & C4 & C5).
    assert (C0 : o_payload_size (metered hd o) (costed k0 b) = Val (List.length l)).
    { cbn [metered o_payload_size]. rewrite metering_costed. exact (l_size _ _ _ _ _ _ _ L _ _ HI). }
    exists b', k. cbn [try_over]. unfold try_append_byte, try_append_payload. fold src. rewrite C0, (l_size _ _ _ _ _ _ _ L _ _ HI). cbn [bind].
    split; [exact A|]. split; [exact B|]. cbn [kept_before kept_behind given range_begin range_end] in *. fold src. rewrite Nat.sub_diag in *. split; [lia|]. split; [lia|]. auto.
Qed.
