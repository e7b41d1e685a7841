(** C52: the byte-stream form of system exclusive messages over any buffer type of the client's own with room for [cap] bytes
    ([bounded_buffer], SpecCustom.v), whether it shrinks on request or not. *)
From Coq Require Import NArith List String Bool Arith Lia ZifyBool ZifyNat ZifyN.
From Verif Require Import Base BitOps Helpers Message Sysex Splice SpecSysex SpecEdits SysexClient
  BitLemmas ListLemmas ByteView SysexLayout SysexRead SysexBridge SysexMore SysexInit SpliceLemmas SysexBytes SysexHold SysexHistory SysexConvert SysexFixedBytes
  PropertiesSysex CustomBuffer SpecCustom BoundedSplice CustomLemmas CustomMore PropertiesCustomSysex.
Import ListNotations.
Local Open Scope nat_scope.

Definition any_inv (cap n : nat) (b : list N) : Prop := sealed n b /\ single n b /\ List.length b <= cap.
Definition any_less (n m : nat) : Prop := m < n.

Lemma any_bytes cap n b : any_inv cap n b <-> bytes_inv Fixed (List.length b) n b /\ List.length b <= cap.
Proof. unfold any_inv, bytes_inv. tauto. Qed.

(** What a granted request does to the bytes. *)
Lemma granted cap answer b n : bounded_buffer cap answer -> List.length b <= cap -> n <= cap ->
  exists b', answer b n = (b', true) /\ n <= List.length b' <= cap
    /\ (forall i, i < n -> nth i b' 0%N = nth i b 0%N) /\ (forall i, nth i b' 0%N = nth i b 0%N \/ nth i b' 0%N = 0%N).
Proof.
  intros HB Lb Hn. specialize (HB b n Lb). replace (n <=? cap) with true in HB by lia. destruct HB as [E|[L E]]; rewrite E; eexists; (split; [reflexivity|]).
  - unfold resized. split; [rewrite app_length, firstn_length, repeat_length; lia|].
    assert (X : forall i, nth i (firstn n b ++ repeat 0%N (n - List.length b)) 0%N = if i <? n then nth i b 0%N else 0%N).
    { intros i. destruct (Nat.ltb_spec i (min n (List.length b))) as [H|H].
      - rewrite app_nth1 by (rewrite firstn_length; lia). rewrite nth_firstn. reflexivity.
      - rewrite app_nth2 by (rewrite firstn_length; lia). rewrite firstn_length.
        assert (Z : forall j k, nth j (repeat 0%N k) 0%N = 0%N) by (clear; intros j k; revert j; induction k; intros [|j]; cbn; auto).
        rewrite Z. destruct (Nat.ltb_spec i n); [|reflexivity]. now rewrite nth_overflow by lia. }
    split; intros i; rewrite X; [intros H; now replace (i <? n) with true by lia|]. destruct (i <? n); auto.
  - split; [lia|]. split; auto.
Qed.

Lemma any_fit cap answer n b m : bounded_buffer cap answer -> any_inv cap n b -> m + 2 <= cap -> n <= m ->
  exists b', try_resize_bytes (Custom answer) b m = Val (b', None) /\ any_inv cap m b' /\ forall i, i < n -> rd_b b' i = rd_b b i.
Proof.
  intros HB (S & Si & Lb) Hm Hn. pose proof S as [HL H0 H1 Hb]. unfold try_resize_bytes. rewrite (sealed_payload_size n b S). cbn [bind request].
  destruct (granted cap answer b (m + 2) HB Lb Hm) as (b1 & E & L1 & R1 & R2). rewrite E. replace (n <? m + 2) with true by lia.
  rewrite upd_nth by lia. cbn [bind]. unfold sub_chk. replace (m + 2 <? 1) with false by lia. cbn [bind].
  rewrite upd_nth by (rewrite set_nth_length; lia). cbn [bind].
  eexists. split; [reflexivity|].
  assert (X : forall j, nth j (set_nth (set_nth b1 (n + 1) 0%N) (m + 2 - 1) 247%N) 0%N = if j =? m + 1 then 247%N else if j =? n + 1 then 0%N else nth j b1 0%N).
  { intros j. rewrite !nth_set_nth by (rewrite ?set_nth_length; lia). now replace (m + 2 - 1) with (m + 1) by lia. }
  split; [split; [constructor|split]|].
  - rewrite !set_nth_length. lia.
  - rewrite X. replace (0 =? m + 1) with false by lia. replace (0 =? n + 1) with false by lia. rewrite R1 by lia. exact H0.
  - rewrite X. now rewrite Nat.eqb_refl.
  - intros i Hi. rewrite X. replace (i + 1 =? m + 1) with false by lia. destruct (Nat.eqb_spec (i + 1) (n + 1)); [discriminate|].
    destruct (Nat.ltb_spec i n) as [Q|Q]; [rewrite R1 by lia; now apply Hb|]. destruct (R2 (i + 1)) as [-> | ->]; [apply Si; lia|discriminate].
  - intros j Hj. rewrite X. replace (j =? m + 1) with false by lia. destruct (j =? n + 1); [discriminate|].
    destruct (R2 j) as [-> | ->]; [apply Si; lia|discriminate].
  - rewrite !set_nth_length. lia.
  - intros i Hi. unfold rd_b. rewrite X. replace (i + 1 =? m + 1) with false by lia. replace (i + 1 =? n + 1) with false by lia. apply R1. lia.
Qed.

Lemma any_full cap answer n b m : bounded_buffer cap answer -> any_inv cap n b -> cap < m + 2 ->
  exists b' c, try_resize_bytes (Custom answer) b m = Val (b', Some c) /\ n <= c /\ any_inv cap c b' /\ forall i, i < n -> rd_b b' i = rd_b b i.
Proof.
  intros HB (S & Si & Lb) Hm. pose proof S as [HL H0 H1 Hb]. unfold try_resize_bytes. rewrite (sealed_payload_size n b S). cbn [bind request].
  pose proof (HB b (m + 2) Lb) as E. replace (m + 2 <=? cap) with false in E by lia. rewrite E. replace (n <? List.length b) with true by lia.
  rewrite upd_nth by lia. cbn [bind]. unfold sub_chk. replace (List.length b <? 1) with false by lia. cbn [bind].
  rewrite upd_nth by (rewrite set_nth_length; lia). cbn [bind]. exists (set_nth (set_nth b (n + 1) 0%N) (List.length b - 1) 247%N), (List.length b - 2).
  split; [reflexivity|]. split; [lia|].
  assert (X : forall j, nth j (set_nth (set_nth b (n + 1) 0%N) (List.length b - 1) 247%N) 0%N = if j =? List.length b - 1 then 247%N else if j =? n + 1 then 0%N else nth j b 0%N).
  { intros j. now rewrite !nth_set_nth by (rewrite ?set_nth_length; lia). }
  split; [split; [constructor|split]|].
  - rewrite !set_nth_length. lia.
  - rewrite X. replace (0 =? List.length b - 1) with false by lia. replace (0 =? n + 1) with false by lia. exact H0.
  - rewrite X. now replace (List.length b - 2 + 1 =? List.length b - 1) with true by lia.
  - intros i Hi. rewrite X. replace (i + 1 =? List.length b - 1) with false by lia. destruct (Nat.eqb_spec (i + 1) (n + 1)); [discriminate|].
    destruct (Nat.ltb_spec i n) as [Q|Q]; [now apply Hb|apply Si; lia].
  - intros j Hj. rewrite nth_overflow; [discriminate|]. rewrite !set_nth_length. lia.
  - rewrite !set_nth_length. lia.
  - intros i Hi. unfold rd_b. rewrite X. replace (i + 1 =? List.length b - 1) with false by lia. now replace (i + 1 =? n + 1) with false by lia.
Qed.

Lemma any_bytes_bounded cap answer : 2 <= cap -> bounded_buffer cap answer ->
  bounded (bytes_ops (Custom answer)) (any_inv cap) rd_b septet (cap - 2) any_less.
Proof.
  intros Hc HB. constructor; cbn [bytes_ops o_compact o_payload_size o_resize o_write o_move].
  - reflexivity.
  - intros n b [S _]. now apply sealed_payload_size.
  - intros n b ([HL _ _ _] & _ & H). lia.
  - unfold any_less. lia.
  - intros n b m HI Hm Hb. unfold any_less in Hb. destruct (any_fit cap answer n b m HB HI ltac:(lia) ltac:(lia)) as (b' & E & I' & R). exists b'. auto.
  - intros n b m HI Hm. apply (any_full cap answer n b m HB HI). lia.
  - intros n b v i HI Hi Hv. apply any_bytes in HI as [HI Lb]. destruct (write_bytes _ _ n b v i HI Hi Hv) as (b' & E & I' & R).
    exists b'. split; [exact E|]. split; [|exact R]. pose proof I' as [_ [L' _]]. apply any_bytes. rewrite L' in *. auto.
  - intros n b tail to HI A B. apply any_bytes in HI as [HI Lb]. destruct (move_bytes _ _ n b tail to HI) as (b' & E & I' & R); [auto|].
    exists b'. split; [exact E|]. pose proof I' as [_ [L' _]]. split; [apply any_bytes; rewrite L' in *; auto|]. intros j Hj. rewrite R by auto.
    now replace (tail <? to) with true by lia.
  - intros n b tail to HI A B. apply any_bytes in HI as [HI Lb]. destruct (move_bytes _ _ n b tail to HI) as (b' & E & I' & R); [auto|].
    exists b'. split; [exact E|]. pose proof I' as [_ [L' _]]. split; [apply any_bytes; rewrite L' in *; auto|]. intros j Hj. rewrite R by auto.
    now replace (tail <? to) with false by lia.
  - intros n b t [S _]. unfold move_tail_b. rewrite (sealed_payload_size n b S). cbn [bind]. now rewrite Nat.ltb_irrefl.
Qed.

(** Emptying the payload, as is done after an overflow. *)
Lemma any_empty cap answer n b : bounded_buffer cap answer -> any_inv cap n b -> 2 <= cap -> n <> 1 ->
  exists r, try_resize_bytes (Custom answer) b 0 = Val (stream_bytes [] ++ r, None) /\ List.length (stream_bytes [] ++ r) <= cap.
Proof.
  intros HB (S & Si & Lb) Hc N1. pose proof S as [HL H0 H1 Hb]. unfold try_resize_bytes. rewrite (sealed_payload_size n b S). cbn [bind request].
  destruct (granted cap answer b (0 + 2) HB Lb ltac:(lia)) as (b1 & E & L1 & R1 & R2). rewrite E. cbn [Nat.add] in *.
  pose proof (R1 0 ltac:(lia)) as Z0. rewrite H0 in Z0. destruct b1 as [|x0 [|x1 r]]; cbn [List.length] in L1; try lia. cbn [nth] in Z0. subst x0.
  exists r. destruct (Nat.ltb_spec n 2) as [Q|Q]; [assert (n = 0) by lia; subst n|]; cbn; (split; [reflexivity|lia]).
Qed.

Lemma any_holds cap l r : Forall septet l -> lone_end r -> List.length (stream_bytes l ++ r) <= cap -> holds (any_inv cap) rd_b l (stream_bytes l ++ r).
Proof.
  intros Hl Hr Lc. destruct (stream_sealed l r (septets_no_end l Hl)) as [S R]. split; [|exact R]. split; [exact S|]. split; [|exact Lc].
  intros j Hj. destruct (Nat.ltb_spec j (List.length (stream_bytes l ++ r))) as [Q|Q]; [|rewrite nth_overflow by lia; discriminate].
  rewrite app_length, stream_bytes_length in Q. rewrite app_nth2 by (rewrite stream_bytes_length; lia). rewrite stream_bytes_length.
  unfold lone_end in Hr. rewrite Forall_forall in Hr. apply Hr, nth_In. lia.
Qed.
Lemma holds_any cap l b : holds (any_inv cap) rd_b l b -> exists r, b = stream_bytes l ++ r /\ lone_end r /\ List.length b <= cap.
Proof.
  intros [(S & Si & Lb) R]. exists (skipn (List.length l + 2) b). pose proof (sealed_stream l b (conj S R)) as E. split; [exact E|]. split; [|exact Lb].
  apply Forall_forall. intros x Hx. apply (In_nth _ _ 0%N) in Hx as (j & Hj & <-).
  assert (X : nth j (skipn (List.length l + 2) b) 0%N = nth (List.length l + 2 + j) b 0%N).
  { rewrite E at 2. rewrite app_nth2 by (rewrite stream_bytes_length; lia). f_equal. rewrite stream_bytes_length. lia. }
  rewrite X. apply Si. lia.
Qed.

Section Any.
  Context (cap : nat) (answer : list N -> nat -> list N * bool) (Hc : 5 <= cap) (HB : bounded_buffer cap answer).

  Definition any_result (t : outcome (list N * bool)) (l : list N) : Prop :=
    let fits := List.length l + 2 <=? cap in
    exists r, t = Val (stream_bytes (if fits then l else []) ++ r, fits)
      /\ List.length (stream_bytes (if fits then l else []) ++ r) <= cap /\ (fits = true -> lone_end r).

  Lemma any_splice l b src lo hi a e : holds (any_inv cap) rd_b l b -> Forall septet (s_items src) ->
    begin_of lo = a -> end_of hi (List.length l) = e -> a <= e -> e <= List.length l -> exact src -> e - a <= List.length (s_items src) ->
    any_result (try_splice (bytes_ops (Custom answer)) b src lo hi) (replaced l a e (s_items src)).
  Proof.
    intros H Hv Ha He A B Ex Sh. set (l' := replaced l a e (s_items src)).
    assert (Ln : List.length l <= List.length l') by (unfold l', replaced; rewrite !app_length, firstn_length, skipn_length; lia).
    destruct (ksplice _ _ _ _ _ _ (any_bytes_bounded cap answer ltac:(lia) HB) b l src lo hi a e H Hv Ha He A B) as (b' & ok & E & R & X & _).
    { auto. } { right. split; [exact Ex|]. unfold any_less. fold l'. lia. }
    specialize (X Ex). fold l' in R, X. unfold any_result, try_splice. rewrite E. cbn [bind].
    replace (List.length l' <=? cap - 2) with (List.length l' + 2 <=? cap) in X by lia. rewrite <- X. destruct ok.
    - destruct R as [_ R]. destruct (holds_any cap l' b' R) as (r & -> & Hr & Lr). exists r. auto.
    - destruct R as [c [Ic Lic]]. destruct (any_empty cap answer c b' HB Ic ltac:(lia) ltac:(lia)) as (r & E2 & L2).
      cbn [bytes_ops o_resize]. rewrite E2. cbn [bind fst]. exists r. split; [reflexivity|]. split; [exact L2|discriminate].
  Qed.

  Lemma any_append l b src : holds (any_inv cap) rd_b l b -> Forall septet (s_items src) -> exact src ->
    any_result (try_append_payload (bytes_ops (Custom answer)) b src) (l ++ s_items src).
  Proof.
    intros H Hv Ex. unfold try_append_payload. cbn [bytes_ops o_payload_size]. rewrite (sealed_payload_size (List.length l)) by (apply H). cbn [bind].
    pose proof (any_splice l b src (Included (List.length l)) (Excluded (List.length l)) (List.length l) (List.length l)
      H Hv eq_refl eq_refl ltac:(lia) ltac:(lia) Ex ltac:(lia)) as S. unfold replaced in S.
    rewrite firstn_all, skipn_all, app_nil_r in S. exact S.
  Qed.

  Lemma any_step e l r : Forall septet l -> lone_end r -> List.length (stream_bytes l ++ r) <= cap -> legal SevenBit e l -> not_shrinking e l ->
    any_result (custom_edit_b (Custom answer) e (stream_bytes l ++ r)) (new_payload e l).
  Proof.
    intros Hl Hr Lc Lg G. pose proof (any_holds cap l r Hl Hr Lc) as H.
    assert (Lc' : List.length l + 2 <= cap) by (rewrite app_length, stream_bytes_length in Lc; lia).
    destruct e as [src|src lo hi|src i|src|v|v i|g']; cbn [custom_edit_b new_payload legal not_shrinking] in *.
    - destruct G as [-> Ex]. unfold try_set_payload. cbn [bytes_ops o_resize].
      destruct (any_fit cap answer 0 (stream_bytes [] ++ r) 0 HB (proj1 H) ltac:(lia) ltac:(lia)) as (b1 & E1 & I1 & _). rewrite E1. cbn [bind].
      assert (H1 : holds (any_inv cap) rd_b [] b1) by (split; [exact I1|cbn; lia]).
      pose proof (any_splice [] b1 src (Included 0) (Excluded 0) 0 0 H1 Lg eq_refl eq_refl ltac:(lia) ltac:(cbn; lia) Ex ltac:(lia)) as S.
      unfold replaced in S. cbn [firstn skipn app] in S. rewrite app_nil_r in S. exact S.
    - destruct Lg as (Hv & A & B), G as [G1 G2]. now apply any_splice.
    - destruct Lg as (Hv & A). apply any_splice; auto. lia.
    - now apply any_append.
    - apply (any_append l _ {| s_items := [v]; s_hint := (1, Some 1) |} H); [|reflexivity]. constructor; [exact Lg|constructor].
    - destruct Lg as [Hv Hi]. rewrite (set_byte_stream l v i r Hl Hv Hi). cbn [bind].
      assert (Lw : List.length (with_unit l i v) = List.length l).
      { unfold with_unit. rewrite app_length. cbn [List.length]. rewrite firstn_length, skipn_length. lia. }
      unfold any_result. rewrite Lw. replace (List.length l + 2 <=? cap) with true by lia. exists r. split; [reflexivity|]. split; [|auto].
      rewrite app_length, stream_bytes_length in *. lia.
    - unfold any_result. replace (List.length l + 2 <=? cap) with true by lia. exists r. auto.
  Qed.

  Lemma any_history : forall es l r, Forall septet l -> lone_end r -> List.length (stream_bytes l ++ r) <= cap -> growing SevenBit es l ->
    List.length (final_payload es l) + 2 <= cap ->
    exists r', run_tries (custom_edit_b (Custom answer)) es (stream_bytes l ++ r) = Val (stream_bytes (final_payload es l) ++ r', map (fun _ => true) es)
      /\ lone_end r' /\ List.length (stream_bytes (final_payload es l) ++ r') <= cap /\ Forall septet (final_payload es l).
  Proof.
    induction es as [|e es IH]; intros l r Hl Hr Lc G Fit; cbn [run_tries final_payload map] in *; [exists r; auto|].
    destruct G as (G1 & G2 & G3). pose proof (any_step e l r Hl Hr Lc G1 G2) as (r1 & E1 & L1 & R1).
    assert (Hn : Forall septet (new_payload e l)) by now apply (new_payload_units SevenBit).
    assert (Mono : List.length (new_payload e l) <= List.length (final_payload es (new_payload e l))).
    { clear - G3. revert G3. generalize (new_payload e l) as k. clear. induction es as [|e es IH]; intros k G; cbn [final_payload growing] in *; [lia|].
      destruct G as (G1 & G2 & G3). etransitivity; [|now apply IH]. destruct e; cbn [new_payload not_shrinking legal] in *;
        unfold replaced, with_unit; rewrite ?app_length, ?firstn_length, ?skipn_length; cbn [List.length]; rewrite ?skipn_length; try lia.
      destruct G2 as [-> _]. cbn. lia. }
    replace (List.length (new_payload e l) + 2 <=? cap) with true in * by lia. rewrite E1. cbn [bind fst snd].
    destruct (IH _ r1 Hn (R1 eq_refl) L1 G3 Fit) as (r' & E & Q). rewrite E. cbn [bind fst snd]. exists r'. auto.
  Qed.
End Any.

(** ** The theorems *)

(** One call that does not make the payload shorter, on a message with other bytes behind it in the buffer.  It succeeds exactly
    when the result has room, and otherwise leaves an empty message. *)
Theorem C52_bytes_any : forall cap answer e l r, 5 <= cap -> bounded_buffer cap answer ->
  Forall (is_unit SevenBit) l -> Forall (fun x => x <> 0xF7%N) r -> List.length (stream_bytes l ++ r) <= cap ->
  legal SevenBit e l -> not_shrinking e l ->
  let fits := List.length (new_payload e l) + 2 <=? cap in
  exists r', custom_edit_b (Custom answer) e (stream_bytes l ++ r) = Val (stream_bytes (if fits then new_payload e l else []) ++ r', fits)
    /\ List.length (stream_bytes (if fits then new_payload e l else []) ++ r') <= cap
    /\ (fits = true -> Forall (fun x => x <> 0xF7%N) r').
Proof. intros cap answer e l r Hc HB. now apply any_step. Qed.
Print Assumptions C52_bytes_any.

(** From [try_new] on, with any default length [k]. *)
Theorem C52_bytes_any_histories : forall cap answer k es, 5 <= cap -> bounded_buffer cap answer -> k <= cap ->
  growing SevenBit es [] -> List.length (final_payload es []) + 2 <= cap ->
  exists b0 r, custom_new_b (Custom answer) (repeat 0%N k) = Val (Ok b0)
    /\ run_tries (custom_edit_b (Custom answer)) es b0 = Val (stream_bytes (final_payload es []) ++ r, map (fun _ => true) es)
    /\ List.length (stream_bytes (final_payload es []) ++ r) <= cap
    /\ data_b (stream_bytes (final_payload es []) ++ r) = Val (stream_bytes (final_payload es []))
    /\ forall e, legal SevenBit e (final_payload es []) -> not_shrinking e (final_payload es []) ->
         cap < List.length (new_payload e (final_payload es [])) + 2 ->
         exists r', custom_edit_b (Custom answer) e (stream_bytes (final_payload es []) ++ r) = Val (stream_bytes [] ++ r', false).
Proof.
  intros cap answer k es Hc HB Hk G Fit. unfold custom_new_b. cbn [request].
  assert (Zn : forall j k, nth j (repeat 0%N k) 0%N = 0%N) by (clear; intros j k; revert j; induction k; intros [|j]; cbn; auto).
  destruct (granted cap answer (repeat 0%N k) 2 HB ltac:(rewrite repeat_length; lia) ltac:(lia)) as (b1 & E & L1 & R1 & R2). rewrite E.
  destruct b1 as [|x0 [|x1 r0]]; cbn [List.length] in L1; try lia. unfold init_b. cbn [upd bind].
  assert (Z : lone_end r0).
  { apply Forall_forall. intros x Hx. apply (In_nth _ _ 0%N) in Hx as (j & Hj & <-). specialize (R2 (S (S j))). cbn [nth] in R2. rewrite Zn in R2. destruct R2 as [-> | ->]; discriminate. }
  destruct (any_history cap answer Hc HB es [] r0 ltac:(constructor) Z ltac:(cbn; lia) G Fit) as (r & E1 & Z1 & L2 & F).
  exists (stream_bytes [] ++ r0), r. split; [reflexivity|]. split; [exact E1|]. split; [exact L2|]. split.
  - destruct (stream_sealed _ r (septets_no_end _ F)) as [S _]. unfold data_b. rewrite (sealed_size _ _ S). cbn [bind]. unfold prefix.
    replace (_ <=? _) with true by (rewrite app_length, stream_bytes_length; lia). f_equal. rewrite <- stream_bytes_length, firstn_app, Nat.sub_diag, firstn_all. apply app_nil_r.
  - intros e Lg Sh Ov. destruct (any_step cap answer Hc HB e _ r F Z1 L2 Lg Sh) as (r' & E' & _).
    replace (_ <=? cap) with false in E' by lia. eauto.
Qed.
Print Assumptions C52_bytes_any_histories.

Example C52_bytes_any_case :
  let es := [SetPayload (exactly (up 4)); AppendByte 7; SplicePayload (exactly (up 3)) (Included 0) (Excluded 2); SetByte 9 0] in
  growing SevenBit es [] /\ final_payload es [] = [9; 2; 3; 3; 4; 7]%N
  /\ bounded_buffer 12 (arena 12) /\ bounded_buffer 12 (lazy_arena 12)
  /\ run_tries (custom_edit_b (Custom (lazy_arena 12))) es (stream_bytes [] ++ repeat 0%N 10) = Val (stream_bytes [9; 2; 3; 3; 4; 7]%N ++ repeat 0%N 4, [true; true; true; true])
  /\ run_tries (custom_edit_b (Custom (arena 12))) es (stream_bytes [] ++ repeat 0%N 10) = Val (stream_bytes [9; 2; 3; 3; 4; 7]%N, [true; true; true; true]).
Proof.
  cbn zeta. split; [vm_compute; repeat split; try (repeat constructor); lia|]. split; [reflexivity|]. split; [apply arena_bounded|]. split; [apply lazy_arena_bounded|].
  split; vm_compute; reflexivity.
Qed.

(** In a buffer that does not shrink on request, an end byte stays behind when the payload becomes shorter by two bytes or more.
    The next insertion reads it as the end of the message and loses bytes. *)
Theorem C52_bytes_lazy_refuted : exists es b r,
  bounded_buffer 40 (lazy_arena 40) /\ arena_history 38 es [] /\ fixed_history 38 es [] = (up 20 ++ up 3, [true; true; true])
  /\ run_tries (custom_edit_b (Custom (lazy_arena 40))) es (stream_bytes []) = Val (b, [true; true; true])
  /\ payload_list_b b = Val r /\ r <> up 20 ++ up 3.
Proof.
  exists [SetPayload (exactly (up 20)); SetPayload (exactly (up 3)); InsertPayload (exactly (up 20)) 0].
  do 2 eexists. split; [apply lazy_arena_bounded|].
  split; [vm_compute; repeat split; try (repeat constructor); try lia; intros X; discriminate|].
  split; [vm_compute; reflexivity|]. split; [vm_compute; reflexivity|]. split; [vm_compute; reflexivity|]. vm_compute. discriminate.
Qed.
Print Assumptions C52_bytes_lazy_refuted.
