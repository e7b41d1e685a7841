(** Lemmas: messages over a buffer type of the client's own (CustomBuffer.v). *)
From Coq Require Import NArith List String Bool Arith Lia ZifyBool ZifyNat ZifyN.
From Verif Require Import Base BitOps SpecLayout BitLemmas ListLemmas Helpers Schema Props Message Sysex Splice Text
  ByteView SysexLayout SysexEdit SpliceLemmas SysexLaws SysexBytes SysexRead SpecSysex SpecEdits
  SysexBridge SysexHold SysexMore SysexNth SysexInit SysexClient SysexHistory SysexConvert BoundedSplice CustomBuffer SpecCustom.
Import ListNotations.
Local Open Scope nat_scope.

Lemma resized_vec b n : resized b n = vec_resize b n. Proof. reflexivity. Qed.

(** ** On a buffer of fixed size these are the functions of the other files *)

Lemma fixed_new_with_buffer u m b : custom_new_with_buffer Fixed u m b = try_new_with_buffer u m b.
Proof.
  unfold custom_new_with_buffer, try_new_with_buffer. cbn [request].
  destruct (fixed_try_resize b (min_size u m)); reflexivity.
Qed.
Lemma fixed_edit fm e b : custom_edit Fixed fm e b = try_edit fm e b.
Proof. destruct e; reflexivity. Qed.
Lemma fixed_edit_b e b : custom_edit_b Fixed e b = try_edit_b e b.
Proof. destruct e; reflexivity. Qed.

(** ** UMP buffers *)

Definition whole (f : fmt) (s : option N) (b : list N) : Prop :=
  s = None \/ (s = Some 0%N /\ List.length b mod f_words f = 0).
Definition c_inv (f : fmt) (g : N) (s : option N) (cl : bool) (cap n : nat) (b : list N) : Prop :=
  ump_inv f g s cl Fixed (List.length b) n b /\ List.length b <= cap /\ whole f s b.

Lemma c_fit f g s cl cap answer n b m : okf f -> (g < 16)%N -> bounded_buffer cap answer ->
  c_inv f g s cl cap n b -> m <= capacity f cap ->
  exists b', try_resize f (Custom answer) b m = Val (b', None) /\ c_inv f g s cl cap m b'
    /\ forall i, i < n -> i < m -> rd f b' i = rd f b i.
Proof.
  intros H Hg HB (HI & Lc & Wh) Hm. pose proof HI as (FR & T & ID & CL & _). pose proof (okf_facts f H) as F.
  pose proof (fr_len _ _ _ _ FR) as HL. pose proof (np_pos f n H) as Nn. pose proof (np_pos f m H) as Nm.
  apply fits_np in Hm; auto; [|nia].
  pose proof (HB b (buffer_size f m) Lc) as An.
  assert (Eb : buffer_size f m = f_words f * np f m) by now apply buffer_size_np.
  replace (buffer_size f m <=? cap) with true in An by lia. destruct An as [An|[Le An]].
  - set (b1 := resized b (buffer_size f m)) in An.
    assert (L1 : List.length b1 = f_words f * np f m)
      by (unfold b1; rewrite resized_vec, vec_resize_length; exact Eb).
    assert (O1 : forall j, oct b1 j = if j <? 4 * (f_words f * np f m) then oct b j else 0%N)
      by (intros j; unfold b1; rewrite resized_vec, oct_vec_resize, Eb; reflexivity).
    destruct (resize_at f (Custom answer) b m b1 g H Hg An ltac:(lia)) as (b' & E & L' & O').
    { rewrite O1. replace (0 <? 4 * (f_words f * np f m)) with true by nia.
      now apply (framed_group f g n b). }
    assert (FR' : framed f g m b') by (eapply reheaded_framed; eauto; lia).
    assert (LE : List.length b' = f_words f * np f m) by lia.
    assert (Mo : List.length b' mod f_words f = 0) by (rewrite LE, Nat.mul_comm; apply Nat.mod_mul; lia).
    exists b'. split; [exact E|]. split; [split; [|split; [lia|]]|].
    + split; [exact FR'|]. split; [eapply framed_exact_tidy; eauto|]. split; [|split; [|reflexivity]].
      * intros H7 p v Hp Hv. destruct Wh as [Wh|[Wh M]]; [congruence|].
        assert (v = 0%N) by congruence. subst v. rewrite O', reheaded_id by auto. rewrite O1.
        destruct (Nat.ltb_spec (pb f * p + 2) (4 * (f_words f * np f m))); auto.
        destruct (Nat.lt_ge_cases p (List.length b / f_words f)) as [X|X]; [now apply ID|].
        apply oct_beyond. apply Nat.div_exact in M; [|lia]. rewrite M. unfold pb. nia.
      * intros Hc H7 j Hj. rewrite O'.
        destruct (reheaded_body f m g b1 j H Hj) as [->| ->]; [|lia].
        rewrite O1. destruct (j <? _); [apply CL; auto|lia].
    + destruct Wh as [Wh|[Wh _]]; [now left|right; auto].
    + intros i Hn Hi. unfold rd. rewrite O', reheaded_pos, O1 by auto.
      pose proof (pos_lt f i m H Hi). unfold pb in *.
      replace (pos f i <? 4 * (f_words f * np f m)) with true by lia. reflexivity.
  - destruct (resize_at f (Custom answer) b m b g H Hg An ltac:(lia)) as (b' & E & L' & O').
    { now apply (framed_group f g n b). }
    destruct (keep_ump f g s cl _ n b m b' H Hg HI ltac:(lia) L' O') as [A B].
    exists b'. split; [exact E|]. split; [|auto]. unfold c_inv, whole. rewrite L'. auto.
Qed.

Lemma c_full f g s cl cap answer n b m : okf f -> (g < 16)%N -> bounded_buffer cap answer ->
  c_inv f g s cl cap n b -> capacity f cap < m ->
  exists b' c, try_resize f (Custom answer) b m = Val (b', Some c) /\ n <= c /\ c_inv f g s cl cap c b'
    /\ forall i, i < n -> rd f b' i = rd f b i.
Proof.
  intros H Hg HB (HI & Lc & Wh) Hm. pose proof HI as (FR & T & ID & CL & _). pose proof (okf_facts f H) as F.
  pose proof (fr_len _ _ _ _ FR) as HL. pose proof (np_pos f n H) as Nn.
  pose proof (framed_le_capacity f g n b H FR) as Hc.
  assert (Hw : f_words f <= cap) by nia.
  pose proof (HB b (buffer_size f m) Lc) as An.
  assert (Eb : buffer_size f m = f_words f * np f m) by now apply buffer_size_np.
  replace (buffer_size f m <=? cap) with false in An.
  2: { symmetry. apply Nat.leb_gt. rewrite Eb. apply Nat.nle_gt. intros X. apply fits_np in X; auto. lia. }
  set (c := capacity f (List.length b)) in *.
  destruct (resize_fail_at f (Custom answer) b m b g c H Hg An) as (b' & E & L' & O').
  { nia. } { now apply (framed_group f g n b). } { reflexivity. }
  destruct (keep_ump f g s cl _ n b c b' H Hg HI) as [A B]; auto.
  { apply fits_np; auto. nia. }
  exists b', c. split; [exact E|]. split; [exact Hc|]. split; [unfold c_inv, whole; rewrite L'; auto|].
  intros i Hi. apply B. lia.
Qed.

Lemma c_edit f g s cl cap n b b' : List.length b' = List.length b -> 
  ump_inv f g s cl Fixed (List.length b) n b' -> c_inv f g s cl cap n b -> c_inv f g s cl cap n b'.
Proof. intros L A (_ & B & C). unfold c_inv, whole in *. rewrite L. auto. Qed.

Lemma ump_bounded f g s cl cap answer : okf f -> (g < 16)%N -> bounded_buffer cap answer ->
  bounded (ump_ops f (Custom answer)) (c_inv f g s cl cap) (rd f) (unit_ok f) (capacity f cap) (fun _ _ => False).
Proof.
  intros H Hg HB. pose proof (okf_facts f H) as F.
  constructor; cbn [ump_ops o_compact o_payload_size o_resize o_write o_move].
  - intros n b ((FR & T & _) & _). unfold compact. now rewrite tidy_compact.
  - intros n b ((FR & _) & _). eapply framed_payload_size; eauto.
  - intros n b ((FR & _) & Lc & _). pose proof (framed_le_capacity f g n b H FR) as X.
    eapply Nat.le_trans; [exact X|]. unfold capacity. apply Nat.mul_le_mono_r, Nat.div_le_mono; lia.
  - intros n m [].
  - intros n b m HI Hm _. now apply c_fit.
  - intros n b m HI Hm. now apply c_full.
  - intros n b v i HI Hi Hv.
    destruct (write_ump f g s cl Fixed _ n b v i H (proj1 HI) Hi Hv) as (b' & E & I' & R).
    exists b'. split; [exact E|]. split; [|exact R]. apply (c_edit f g s cl cap n b b'); auto. apply I'.
  - intros n b tail to HI A B.
    destruct (move_ump f g s cl Fixed _ n b tail to H (proj1 HI)) as (b' & E & I' & R); [auto|].
    exists b'. split; [exact E|]. split; [apply (c_edit f g s cl cap n b b'); auto; apply I'|]. intros j Hj. rewrite R by auto.
    now replace (tail <? to) with true by lia.
  - intros n b tail to HI A B.
    destruct (move_ump f g s cl Fixed _ n b tail to H (proj1 HI)) as (b' & E & I' & R); [auto|].
    exists b'. split; [exact E|]. split; [apply (c_edit f g s cl cap n b b'); auto; apply I'|]. intros j Hj. rewrite R by auto.
    now replace (tail <? to) with false by lia.
  - intros n b t ((FR & T & _) & _). unfold move_tail. rewrite tidy_compact by auto. cbn [negb].
    rewrite (framed_payload_size f g n b H FR). cbn [bind]. now rewrite Nat.ltb_irrefl.
Qed.

(** ** Edits *)

(** What [try_splice] does before an overflow empties the message. *)
Lemma ksplice o I rd okv lim bad (L : bounded o I rd okv lim bad) b l src lo hi a e :
  holds I rd l b -> Forall okv (s_items src) ->
  begin_of lo = a -> end_of hi (List.length l) = e -> a <= e -> e <= List.length l ->
  a = e \/ exact src ->
  let r := replaced l a e (s_items src) in
  (forall x y, ~ bad x y) \/ (exact src /\ ~ bad (List.length l) (List.length r)) ->
  exists b' ok, splice_detail o b src lo hi = Val (b', ok)
    /\ (if ok then List.length r <= lim /\ holds I rd r b' else exists c, I c b' /\ lim <= 2 * c)
    /\ (exact src -> ok = (List.length r <=? lim))
    /\ (a = e -> announced src <= List.length (s_items src) ->
        List.length l + 2 * List.length (s_items src) <= lim -> ok = true).
Proof.
  intros [HI Hu] Hd Hlo Hhi Hae Hel HC r HB.
  assert (Lr : List.length r = ktotal (List.length l) a e (s_items src))
    by (change r with (edited l a e (s_items src)); now rewrite edited_length).
  destruct (ksplice_detail o I rd okv lim bad L (fun i => nth i l 0%N) (List.length l) a e
     (s_items src) Hae Hel Hd b src lo hi HI Hu eq_refl Hlo Hhi) as (b' & ok & E & H & X & Y).
  - destruct HC as [|HC]; [now left|right]. now symmetry.
  - destruct HB as [|[HB1 HB2]]; [now left|right]. rewrite Lr in HB2. split; [now symmetry|exact HB2].
  - exists b', ok. split; [exact E|]. rewrite Lr. split; [|split; [intros Z; apply X; now symmetry|exact Y]].
    destruct ok; [|exact H]. destruct H as (A & B & C). split; [exact A|]. split; [now rewrite Lr|].
    intros i Hi. rewrite Lr in Hi. rewrite C by exact Hi. unfold ktarget.
    change r with (edited l a e (s_items src)). now rewrite edited_nth by auto.
Qed.

Section Total.
  Context (o : ops) (I : nat -> list N -> Prop) (rd : list N -> nat -> N)
    (okv : N -> Prop) (lim : nat) (L : bounded o I rd okv lim (fun _ _ => False)).

  Definition settled_at (l r : list N) (ins : bool) (src : source) (t : outcome (list N * bool)) : Prop :=
    exists b' ok, t = Val (b', ok)
      /\ (ok = true -> List.length r <= lim)
      /\ holds I rd (if ok then r else []) b'
      /\ (exact src -> ok = (List.length r <=? lim))
      /\ (ins = true -> announced src <= List.length (s_items src) ->
          List.length l + 2 * List.length (s_items src) <= lim -> ok = true).

  Lemma ktry_splice b l src lo hi a e : holds I rd l b -> Forall okv (s_items src) ->
    begin_of lo = a -> end_of hi (List.length l) = e -> a <= e -> e <= List.length l -> a = e \/ exact src ->
    settled_at l (replaced l a e (s_items src)) (a =? e) src (try_splice o b src lo hi).
  Proof.
    intros H Hv Ha He A B C.
    destruct (ksplice o I rd okv lim _ L b l src lo hi a e H Hv Ha He A B C) as (b1 & ok & E & R & X & Y); [left; auto|].
    assert (Y' : (a =? e) = true -> announced src <= List.length (s_items src) ->
      List.length l + 2 * List.length (s_items src) <= lim -> ok = true) by (intros Z; apply Y; lia).
    unfold try_splice, settled_at. rewrite E. cbn [bind]. destruct ok.
    - exists b1, true. split; [reflexivity|]. split; [intros _; apply R|]. split; [apply R|auto].
    - destruct R as [c [Ic _]]. destruct (k_fit _ _ _ _ _ _ L _ b1 0 Ic ltac:(lia) ltac:(auto)) as (b2 & E2 & I2 & _).
      rewrite E2. cbn [bind fst]. exists b2, false. split; [reflexivity|]. split; [discriminate|].
      split; [split; [exact I2|cbn; lia]|auto].
  Qed.

  Lemma ktry_insert b l src i : holds I rd l b -> Forall okv (s_items src) -> i <= List.length l ->
    settled_at l (replaced l i i (s_items src)) true src (try_insert_payload o b src i).
  Proof. intros H Hv A. rewrite <- (Nat.eqb_refl i). apply ktry_splice; auto. Qed.

  Lemma ktry_append b l src : holds I rd l b -> Forall okv (s_items src) ->
    settled_at l (l ++ s_items src) true src (try_append_payload o b src).
  Proof.
    intros H Hv. unfold try_append_payload. rewrite (k_size _ _ _ _ _ _ L _ _ (proj1 H)). cbn [bind].
    pose proof (ktry_insert b l src (List.length l) H Hv ltac:(lia)) as X.
    unfold replaced in X. now rewrite firstn_all, skipn_all, app_nil_r in X.
  Qed.

  Lemma ktry_set b l src : holds I rd l b -> Forall okv (s_items src) ->
    settled_at [] (s_items src) true src (try_set_payload o b src).
  Proof.
    intros [H _] Hv. unfold try_set_payload.
    destruct (k_fit _ _ _ _ _ _ L _ b 0 H ltac:(lia) ltac:(auto)) as (b1 & E & I1 & _).
    rewrite E. cbn [bind].
    assert (H1 : holds I rd [] b1) by (split; [exact I1|cbn; lia]).
    pose proof (ktry_insert b1 [] src 0 H1 Hv ltac:(cbn; lia)) as X.
    unfold replaced in X. cbn [firstn skipn app] in X. now rewrite app_nil_r in X.
  Qed.
End Total.

Lemma message_in_c fm g s l b cl cap : message_in fm g s l b -> (cl = true -> clean_bytes fm b) ->
  List.length b <= cap -> whole_packets fm s b ->
  holds (c_inv (fmt_of fm) g s cl cap) (rd (fmt_of fm)) l b /\ (g < 16)%N.
Proof.
  intros M Cl Lc Wh. destruct (message_in_inv fm g s l b cl M Cl) as [[HI R] Hg].
  split; [|exact Hg]. split; [|exact R]. split; [exact HI|]. split; [exact Lc|].
  unfold whole. now rewrite words_of.
Qed.
Lemma c_message_in fm g s l b cl cap : (g < 16)%N ->
  holds (c_inv (fmt_of fm) g s cl cap) (rd (fmt_of fm)) l b ->
  message_in fm g s l b /\ (cl = true -> clean_bytes fm b) /\ List.length b <= cap /\ whole_packets fm s b.
Proof.
  intros Hg [(HI & Lc & Wh) R].
  destruct (inv_message_in fm g s l b cl (List.length b) Hg) as (A & B & _); [split; auto|].
  unfold whole in Wh. rewrite words_of in Wh. auto.
Qed.

Lemma custom_step_cl fm cl cap answer e b g s l : bounded_buffer cap answer ->
  message_in fm g s l b -> List.length b <= cap -> whole_packets fm s b -> (cl = true -> clean_bytes fm b) ->
  legal fm e l -> settled e l ->
  exists b' ok, custom_edit (Custom answer) fm e b = Val (b', ok)
    /\ (ok = true -> List.length (new_payload e l) <= room_in fm cap)
    /\ message_in fm (new_group e g) s (if ok then new_payload e l else []) b'
    /\ List.length b' <= cap /\ whole_packets fm s b' /\ (cl = true -> clean_bytes fm b')
    /\ (announced_exactly e -> ok = (List.length (new_payload e l) <=? room_in fm cap))
    /\ (roomy (room_in fm cap) e l -> ok = true).
Proof.
  intros HB M Lc Wh Cl Lg Se.
  destruct (message_in_c fm g s l b cl cap M Cl Lc Wh) as [H Hg].
  pose proof (ump_bounded (fmt_of fm) g s cl cap answer (okf_of fm) Hg HB) as L.
  assert (Hc : List.length l <= room_in fm cap).
  { rewrite <- capacity_of. exact (k_le _ _ _ _ _ _ L _ _ (proj1 H)). }
  assert (UP : forall l0 src r ins t, settled_at (c_inv (fmt_of fm) g s cl cap) (rd (fmt_of fm)) (capacity (fmt_of fm) cap) l0 r ins src t ->
    exists b' ok, t = Val (b', ok) /\ (ok = true -> List.length r <= room_in fm cap)
      /\ message_in fm g s (if ok then r else []) b'
      /\ List.length b' <= cap /\ whole_packets fm s b' /\ (cl = true -> clean_bytes fm b')
      /\ (exact src -> ok = (List.length r <=? room_in fm cap))
      /\ (ins = true -> announced src <= List.length (s_items src) ->
          List.length l0 + 2 * List.length (s_items src) <= room_in fm cap -> ok = true)).
  { intros l0 src r ins t (b' & ok & E & F & R & X & Y). rewrite capacity_of in *.
    destruct (c_message_in fm g s _ b' cl cap Hg R) as (A1 & A2 & A3 & A4). exists b', ok. auto 10. }
  destruct e as [src|src lo hi|src i|src|v|v i|g']; cbn [custom_edit new_group new_payload legal announced_exactly settled roomy] in *;
    rewrite ?fmt_for_of.
  - destruct (UP _ src _ _ _ (ktry_set _ _ _ _ _ L b l src H (units_ok _ _ Lg))) as (b' & ok & Q & Q1 & Q2 & Q3 & Q4 & Q5 & Q6 & Q7).
    exists b', ok. repeat (split; [assumption|]). intros [Z1 Z2]. now apply Q7.
  - destruct Lg as (Hv & A & B).
    destruct (UP _ src _ _ _ (ktry_splice _ _ _ _ _ L b l src lo hi _ _ H (units_ok _ _ Hv) eq_refl eq_refl A B Se))
      as (b' & ok & Q & Q1 & Q2 & Q3 & Q4 & Q5 & Q6 & Q7).
    exists b', ok. repeat (split; [assumption|]). intros [].
  - destruct Lg as (Hv & A).
    destruct (UP _ src _ _ _ (ktry_insert _ _ _ _ _ L b l src i H (units_ok _ _ Hv) A)) as (b' & ok & Q & Q1 & Q2 & Q3 & Q4 & Q5 & Q6 & Q7).
    exists b', ok. repeat (split; [assumption|]). intros [Z1 Z2]. now apply Q7.
  - destruct (UP _ src _ _ _ (ktry_append _ _ _ _ _ L b l src H (units_ok _ _ Lg))) as (b' & ok & Q & Q1 & Q2 & Q3 & Q4 & Q5 & Q6 & Q7).
    exists b', ok. repeat (split; [assumption|]). intros [Z1 Z2]. now apply Q7.
  - set (src := {| s_items := [v]; s_hint := (1, Some 1) |}).
    destruct (UP l src (l ++ [v]) true (try_append_byte (ump_ops (fmt_of fm) (Custom answer)) b v)) as (b' & ok & E & F & A1 & A2 & A3 & A4 & A5 & _).
    + apply (ktry_append _ _ _ _ _ L b l src H). apply units_ok. cbn. auto.
    + exists b', ok. repeat (split; [assumption|]). split; [|intros []]. intros _. apply A5. reflexivity.
  - destruct Lg as [Hv Hi]. destruct M as [(k & C & F) Sc].
    destruct (set_byte_carries fm k g s l b v i C Hi Hv) as (b' & E & C' & Len' & F' & Sc' & Cl').
    rewrite E. cbn [bind]. exists b', true.
    assert (Lw : List.length (with_unit l i v) = List.length l).
    { unfold with_unit. rewrite app_length. cbn [List.length]. rewrite firstn_length, skipn_length. lia. }
    rewrite Lw. split; [reflexivity|]. split; [auto|]. split; [split; [exists k; auto|auto]|].
    split; [lia|]. split; [unfold whole_packets in *; now rewrite Len'|]. split; [intros X; apply Cl'; auto|].
    split; [|intros []]. intros _. lia.
  - destruct M as [(k & C & F) Sc]. destruct (set_group_ok fm b g' Lg) as (b' & E).
    destruct (set_group_carries fm k g s l b g' b' C Lg E) as (C' & Len' & F' & Sc' & Cl').
    rewrite E. cbn [bind]. exists b', true. split; [reflexivity|]. split; [auto|]. split; [split; [exists k; auto|auto]|].
    split; [lia|]. split; [unfold whole_packets in *; now rewrite Len'|]. split; [intros X; apply Cl'; auto|].
    split; [|intros []]. intros _. lia.
Qed.

Lemma custom_step fm cap answer e b g s l : bounded_buffer cap answer ->
  message_in fm g s l b -> List.length b <= cap -> whole_packets fm s b -> legal fm e l -> settled e l ->
  exists b' ok, custom_edit (Custom answer) fm e b = Val (b', ok)
    /\ (ok = true -> List.length (new_payload e l) <= room_in fm cap)
    /\ message_in fm (new_group e g) s (if ok then new_payload e l else []) b'
    /\ List.length b' <= cap /\ whole_packets fm s b' /\ (clean_bytes fm b -> clean_bytes fm b')
    /\ (announced_exactly e -> ok = (List.length (new_payload e l) <=? room_in fm cap))
    /\ (roomy (room_in fm cap) e l -> ok = true).
Proof.
  intros HB M Lc Wh Lg Se.
  destruct (custom_step_cl fm false cap answer e b g s l HB M Lc Wh ltac:(discriminate) Lg Se)
    as (b' & ok & E & A1 & A2 & A3 & A4 & _ & A5).
  exists b', ok. repeat (split; [assumption|]). split; [|exact A5]. intros Cl.
  destruct (custom_step_cl fm true cap answer e b g s l HB M Lc Wh ltac:(auto) Lg Se)
    as (b2 & ok2 & E2 & _ & _ & _ & _ & Cl2 & _ & _).
  rewrite E in E2. injection E2 as <- _. auto.
Qed.

Lemma exact_settled e l : announced_exactly e -> settled e l.
Proof. destruct e; cbn; auto. Qed.

Lemma custom_history fm s cap answer : bounded_buffer cap answer -> forall es b g l,
  message_in fm g s l b -> List.length b <= cap -> whole_packets fm s b ->
  exact_history fm (room_in fm cap) es l ->
  exists b', run_tries (custom_edit (Custom answer) fm) es b
      = Val (b', snd (fixed_history (room_in fm cap) es l))
    /\ message_in fm (final_group es g) s (fst (fixed_history (room_in fm cap) es l)) b'
    /\ List.length b' <= cap /\ whole_packets fm s b' /\ (clean_bytes fm b -> clean_bytes fm b').
Proof.
  intros HB. induction es as [|e es IH]; intros b g l M Lc Wh Lg; cbn [run_tries fixed_history final_group fst snd].
  - exists b. auto.
  - destruct Lg as (L1 & L2 & L3).
    destruct (custom_step fm cap answer e b g s l HB M Lc Wh L1 (exact_settled _ _ L2))
      as (b1 & ok1 & E1 & _ & M1 & Lc1 & Wh1 & C1 & X1 & _).
    rewrite E1. cbn [bind fst snd]. specialize (X1 L2).
    assert (Y1 : fixed_outcome (room_in fm cap) e l = (if ok1 then new_payload e l else [], ok1))
      by (unfold fixed_outcome; cbv zeta; rewrite <- X1; destruct ok1; reflexivity).
    rewrite Y1 in *. cbn [fst] in L3.
    destruct (IH b1 _ _ M1 Lc1 Wh1 L3) as (b' & E & M' & Lc' & Wh' & C').
    destruct (fixed_history (room_in fm cap) es _) as [l2 oks] eqn:Y. cbn [fst snd] in *.
    rewrite E. cbn [bind fst snd]. exists b'. auto 10.
Qed.

(** ** Byte streams in an arena *)

Definition a_inv (cap n : nat) (b : list N) : Prop := bytes_inv Growable 0 n b /\ n + 2 <= cap.
(** Shrinking the payload by exactly one byte indexes out of bounds. *)
Definition by_one (n m : nat) : Prop := n = m + 1.

Lemma a_fit cap n b m : a_inv cap n b -> m + 2 <= cap -> ~ by_one n m ->
  exists b', try_resize_bytes (Custom (arena cap)) b m = Val (b', None) /\ a_inv cap m b'
    /\ forall i, i < n -> i < m -> rd_b b' i = rd_b b i.
Proof.
  intros [HI Hn] Hm Hb. unfold by_one in Hb.
  destruct (grow_bytes n b m HI) as (b' & E & I' & R). exists b'. split; [|split; [split; auto|exact R]].
  unfold resize_b in E. unfold try_resize_bytes. pose proof HI as [S Len].
  rewrite (sealed_payload_size n b S) in *. cbn [bind request] in *. unfold arena.
  replace (m + 2 <=? cap) with true by lia. rewrite resized_vec. cbv zeta.
  set (b1 := vec_resize b (m + 2)) in *.
  assert (L1 : List.length b1 = m + 2) by apply vec_resize_length.
  unfold sub_chk. replace (m + 2 <? 1) with false by lia.
  destruct (Nat.ltb_spec n m) as [X|X].
  - replace (n <? m + 2) with true by lia.
    destruct (upd b1 (n + 1) (fun _ => 0%N)) as [b2|]; cbn [bind] in *; [|discriminate].
    rewrite E. reflexivity.
  - destruct (Nat.ltb_spec n (m + 2)) as [Y|Y].
    + assert (n = m) by lia. subst n. rewrite upd_nth by lia. cbn [bind] in *.
      rewrite upd_nth in * by (rewrite ?set_nth_length; lia). cbn [bind]. do 2 f_equal.
      injection E as <-. apply nth_ext with (d := 0%N) (d' := 0%N).
      * now rewrite !set_nth_length.
      * intros j _. rewrite !nth_set_nth by (rewrite ?set_nth_length; lia).
        replace (m + 2 - 1) with (m + 1) by lia. now destruct (j =? m + 1).
    + cbn [bind] in *. rewrite E. reflexivity.
Qed.

Lemma a_full cap n b m : a_inv cap n b -> cap < m + 2 ->
  try_resize_bytes (Custom (arena cap)) b m = Val (b, Some n).
Proof.
  intros [[S Len] Hn] Hm. pose proof S as [HL H0 H1 Hb]. unfold try_resize_bytes.
  rewrite (sealed_payload_size n b S). cbn [bind request]. unfold arena.
  replace (m + 2 <=? cap) with false by lia. rewrite Len.
  replace (n <? n + 2) with true by lia. rewrite upd_nth by lia. cbn [bind].
  unfold sub_chk. replace (n + 2 <? 1) with false by lia. cbn [bind].
  rewrite upd_nth by (rewrite set_nth_length; lia). cbn [bind]. f_equal. f_equal; [|f_equal; lia].
  apply nth_ext with (d := 0%N) (d' := 0%N); [now rewrite !set_nth_length|].
  intros j _. rewrite !nth_set_nth by (rewrite ?set_nth_length; lia).
  replace (n + 2 - 1) with (n + 1) by lia. destruct (Nat.eqb_spec j (n + 1)) as [->|]; auto.
Qed.

Lemma a_panic cap m b : a_inv cap (m + 1) b -> try_resize_bytes (Custom (arena cap)) b m = Panic.
Proof.
  intros [[S Len] Hn]. unfold try_resize_bytes. rewrite (sealed_payload_size _ b S). cbn [bind request]. unfold arena.
  replace (m + 2 <=? cap) with true by lia. rewrite resized_vec. cbv zeta.
  replace (m + 1 <? m + 2) with true by lia. rewrite upd_panic by (rewrite vec_resize_length; lia). reflexivity.
Qed.

Lemma arena_bytes_bounded cap : 2 <= cap ->
  bounded (bytes_ops (Custom (arena cap))) (a_inv cap) rd_b septet (cap - 2) by_one.
Proof.
  intros Hc. constructor; cbn [bytes_ops o_compact o_payload_size o_resize o_write o_move].
  - reflexivity.
  - intros n b [[S _] _]. now apply sealed_payload_size.
  - intros n b [_ H]. lia.
  - unfold by_one. lia.
  - intros n b m HI Hm Hb. apply (a_fit cap n b m); auto. lia.
  - intros n b m HI Hm. exists b, n. split; [apply a_full; auto; lia|]. auto.
  - intros n b v i [HI Hn] Hi Hv. destruct (write_bytes Growable 0 n b v i HI Hi Hv) as (b' & E & I' & R).
    exists b'. unfold a_inv. auto.
  - intros n b tail to [HI Hn] A B.
    destruct (move_bytes Growable 0 n b tail to HI) as (b' & E & I' & R); [auto|].
    exists b'. split; [exact E|]. split; [split; auto|]. intros j Hj. rewrite R by auto.
    now replace (tail <? to) with true by lia.
  - intros n b tail to [HI Hn] A B.
    destruct (move_bytes Growable 0 n b tail to HI) as (b' & E & I' & R); [auto|].
    exists b'. split; [exact E|]. split; [split; auto|]. intros j Hj. rewrite R by auto.
    now replace (tail <? to) with false by lia.
  - intros n b t [[S _] _]. unfold move_tail_b. rewrite (sealed_payload_size n b S). cbn [bind].
    now rewrite Nat.ltb_irrefl.
Qed.

Lemma a_stream cap l : Forall septet l -> List.length l + 2 <= cap -> holds (a_inv cap) rd_b l (stream_bytes l).
Proof. intros H Hc. destruct (stream_inv l (septets_no_end l H)) as [A B]. split; [split; auto|exact B]. Qed.
Lemma stream_a cap l b : holds (a_inv cap) rd_b l b -> b = stream_bytes l.
Proof. intros [[[S Len] _] R]. apply done_stream. split; [split; auto|exact R]. Qed.

Lemma arena_splice cap l src lo hi a e : Forall septet l -> List.length l + 2 <= cap -> Forall septet (s_items src) ->
  begin_of lo = a -> end_of hi (List.length l) = e -> a <= e -> e <= List.length l -> exact src ->
  let r := replaced l a e (s_items src) in List.length l <> List.length r + 1 ->
  let t := try_splice (bytes_ops (Custom (arena cap))) (stream_bytes l) src lo hi in
  if List.length r + 2 <=? cap then t = Val (stream_bytes r, true)
  else (t = Panic /\ cap < 5) \/ t = Val (stream_bytes [], false).
Proof.
  intros Hl Hc Hv Ha He A B Ex r Nb t.
  destruct (ksplice _ _ _ _ _ _ (arena_bytes_bounded cap ltac:(lia)) _ l src lo hi a e (a_stream cap l Hl Hc) Hv Ha He A B)
    as (b' & ok & E & R & X & _); auto. specialize (X Ex). fold r in R, X.
  unfold t, try_splice. rewrite E. cbn [bind].
  replace (List.length r <=? cap - 2) with (List.length r + 2 <=? cap) in X by lia. rewrite <- X.
  destruct ok.
  - destruct R as [_ R]. now rewrite (stream_a cap r b' R).
  - destruct R as [c [Ic Lic]]. destruct (Nat.eq_dec c 1) as [->|N1].
    + left. cbn [bytes_ops o_resize]. rewrite (a_panic cap 0 b' Ic). split; [reflexivity|lia].
    + right. destruct (a_fit cap c b' 0 Ic ltac:(lia)) as (b2 & E2 & I2 & _); [unfold by_one; lia|].
      cbn [bytes_ops o_resize]. rewrite E2. cbn [bind fst]. do 2 f_equal. apply (stream_a cap). split; [exact I2|]. cbn. lia.
Qed.

Lemma arena_set cap l src : Forall septet l -> List.length l + 2 <= cap -> Forall septet (s_items src) -> exact src ->
  List.length l <> 1 ->
  let t := try_set_payload (bytes_ops (Custom (arena cap))) (stream_bytes l) src in
  if List.length (s_items src) + 2 <=? cap then t = Val (stream_bytes (s_items src), true)
  else (t = Panic /\ cap < 5) \/ t = Val (stream_bytes [], false).
Proof.
  intros Hl Hc Hv Ex N1 t. unfold t, try_set_payload. cbn [bytes_ops o_resize].
  destruct (a_fit cap _ _ 0 (proj1 (a_stream cap l Hl Hc)) ltac:(lia)) as (b1 & E1 & I1 & _); [unfold by_one; lia|].
  rewrite E1. cbn [bind].
  assert (b1 = stream_bytes []) as -> by (apply (stream_a cap); split; [exact I1|cbn; lia]).
  pose proof (arena_splice cap [] src (Included 0) (Excluded 0) 0 0 ltac:(constructor) ltac:(cbn; lia) Hv
    eq_refl eq_refl ltac:(lia) ltac:(cbn; lia) Ex) as S. cbv zeta in S. unfold replaced in S.
  cbn [firstn skipn app] in S. rewrite app_nil_r in S. apply S. cbn. lia.
Qed.

Lemma arena_append cap l src : Forall septet l -> List.length l + 2 <= cap -> Forall septet (s_items src) -> exact src ->
  let t := try_append_payload (bytes_ops (Custom (arena cap))) (stream_bytes l) src in
  if List.length (l ++ s_items src) + 2 <=? cap then t = Val (stream_bytes (l ++ s_items src), true)
  else (t = Panic /\ cap < 5) \/ t = Val (stream_bytes [], false).
Proof.
  intros Hl Hc Hv Ex t. unfold t, try_append_payload. cbn [bytes_ops o_payload_size].
  rewrite (sealed_payload_size (List.length l)) by (apply (a_stream cap l Hl Hc)). cbn [bind].
  pose proof (arena_splice cap l src (Included (List.length l)) (Excluded (List.length l)) (List.length l) (List.length l)
    Hl Hc Hv eq_refl eq_refl ltac:(lia) ltac:(lia) Ex) as S. cbv zeta in S. unfold replaced in S.
  rewrite firstn_all, skipn_all, app_nil_r in S. apply S. rewrite app_length. lia.
Qed.

Lemma arena_step cap e l : Forall septet l -> List.length l + 2 <= cap -> legal SevenBit e l ->
  announced_exactly e -> ~ loses_one e l ->
  let t := custom_edit_b (Custom (arena cap)) e (stream_bytes l) in
  if List.length (new_payload e l) + 2 <=? cap then t = Val (stream_bytes (new_payload e l), true)
  else (t = Panic /\ cap < 5) \/ t = Val (stream_bytes [], false).
Proof.
  intros Hl Hc Lg Ex No t. unfold t.
  destruct e as [src|src lo hi|src i|src|v|v i|g']; cbn [custom_edit_b new_payload legal announced_exactly loses_one] in *.
  - apply arena_set; auto.
  - destruct Lg as (Hv & A & B). apply arena_splice; auto.
  - destruct Lg as (Hv & A). apply arena_splice; auto.
  - apply arena_append; auto.
  - apply (arena_append cap l {| s_items := [v]; s_hint := (1, Some 1) |}); auto; try reflexivity. constructor; [exact Lg|constructor].
  - destruct Lg as [Hv Hi]. pose proof (set_byte_stream l v i [] Hl Hv Hi) as X. rewrite !app_nil_r in X.
    rewrite X. cbn [bind].
    assert (Lw : List.length (with_unit l i v) = List.length l).
    { unfold with_unit. rewrite app_length. cbn [List.length]. rewrite firstn_length, skipn_length. lia. }
    rewrite Lw. now replace (List.length l + 2 <=? cap) with true by lia.
  - now replace (List.length l + 2 <=? cap) with true by lia.
Qed.

(** ** Creation and conversion *)

Lemma custom_sx_new_try answer f k k' : answer (repeat 0%N k) (f_words f) = (repeat 0%N k', true) ->
  f_words f <= k' -> custom_sx_new (Custom answer) f (repeat 0%N k) = sx_try_new f k'.
Proof.
  intros E L. unfold custom_sx_new, sx_try_new. cbn [request]. rewrite E. unfold fixed_try_resize.
  rewrite repeat_length. now replace (k' <? f_words f) with false by lia.
Qed.
Lemma custom_sx_with_try answer f b b0 : answer b (f_words f) = (b0, true) ->
  f_words f <= List.length b0 -> custom_sx_new_with_buffer (Custom answer) f b = sx_try_new_with_buffer f b0.
Proof.
  intros E L. unfold custom_sx_new_with_buffer, sx_try_new_with_buffer. cbn [request]. rewrite E. unfold fixed_try_resize.
  now replace (List.length b0 <? f_words f) with false by lia.
Qed.

Lemma custom_from_bytes_init answer b d b0 : answer d 2 = (b0, true) ->
  custom_from_bytes (Custom answer) b d =
  (b2 <- sx_init fmt7 b0 ;; src <- source_of_bytes b ;;
   r <- try_set_payload (ump_ops fmt7 (Custom answer)) b2 src ;;
   match r with (b', true) => Val (Ok b') | _ => Val (Err "BufferOverflow"%string) end).
Proof.
  intros E. unfold custom_from_bytes, sx_init. cbn [request]. rewrite E. cbn [fmt7 f_seven f_type].
  destruct (upd b0 0 _); cbn [bind]; [|reflexivity]. now destruct (set_group _ _ _).
Qed.
