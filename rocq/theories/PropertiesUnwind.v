(** C59: a payload edit whose iterator panics leaves a message that can be used further.

    [risk_packets fuel fm b x] and [risk_bytes fuel b x] (Unwind.v) call the editing method [x] on the message [b] in a
    [Vec]; [try_risk_packets], [try_risk_bytes] the [try_] methods on an array or slice.  [Unwound b'] says that the
    panic of the iterator left the method, and that the buffer is then [b']. *)
From Coq Require Import NArith List String Bool Arith Lia ZifyN ZifyNat ZifyBool.
From Verif Require Import Feed.
From Verif Require Import Base BitOps Props Message Sysex Splice ListLemmas ByteView SysexLayout SysexEdit SpliceLemmas SysexLaws SysexBytes SysexRead SpecSysex SpecEdits SysexClient
  SysexBridge SysexHold SysexMore SysexInit SysexHistory PropertiesSysex.
From Verif Require Import Unwind SpecUnwind UnwindLemmas UnwindLaws.
Import ListNotations.
Local Open Scope list_scope.
Local Open Scope nat_scope.

(** ** Iterators that do not panic *)

(** They are treated as in C57: [fd] is the same iterator as seen by Feed.v. *)
Definition calm_risk (x : risk) (y : feeding) : Prop :=
  match x, y with
  | SetRisky r, SetFrom f | AppendRisky r, AppendFrom f =>
      (forall i, rk_answer r i = match fd_answer f i with Some v => Item v | None => NoMore end) /\ rk_hint r = Some (fd_hint f)
  | SpliceRisky r lo hi, SpliceFrom f lo' hi' =>
      lo = lo' /\ hi = hi' /\ (forall i, rk_answer r i = match fd_answer f i with Some v => Item v | None => NoMore end) /\ rk_hint r = Some (fd_hint f)
  | InsertRisky r i, InsertFrom f i' =>
      i = i' /\ (forall i, rk_answer r i = match fd_answer f i with Some v => Item v | None => NoMore end) /\ rk_hint r = Some (fd_hint f)
  | _, _ => False
  end.
Theorem C59_no_panic : forall fuel fm b x y, calm_risk x y ->
  risk_packets fuel fm b x = match feed_packets fuel fm b y with
                             | None => None | Some Panic => Some Panic | Some (Val (b', _)) => Some (Val (Ran b')) end
  /\ risk_bytes fuel b x = match feed_bytes fuel b y with
                           | None => None | Some Panic => Some Panic | Some (Val (b', _)) => Some (Val (Ran b')) end
  /\ try_risk_packets fuel fm b x = match try_feed_packets fuel fm b y with
                           | None => None | Some Panic => Some Panic | Some (Val (b', ok, _)) => Some (Val (Ran (b', ok))) end
  /\ try_risk_bytes fuel b x = match try_feed_bytes fuel b y with
                           | None => None | Some Panic => Some Panic | Some (Val (b', ok, _)) => Some (Val (Ran (b', ok))) end.
Proof.
  intros fuel fm b x y C.
  assert (Hv : forall o b r f lo hi, (forall i, rk_answer r i = match fd_answer f i with Some v => Item v | None => NoMore end) -> rk_hint r = Some (fd_hint f) ->
    splice_u fuel o b r lo hi = match splice_f fuel o b f lo hi with None => None | Some Panic => Some Panic | Some (Val (b', _)) => Some (Val (Ran b')) end
    /\ try_splice_u fuel o b r lo hi = match try_splice_f fuel o b f lo hi with
         None => None | Some Panic => Some Panic | Some (Val (b', ok, _)) => Some (Val (Ran (b', ok))) end).
  { intros o b0 r f lo hi A H. split.
    - rewrite (splice_calm f r A H). destruct (splice_f fuel o b0 f lo hi) as [[[b' c]|]|]; reflexivity.
    - rewrite (try_splice_calm f r A H). destruct (try_splice_f fuel o b0 f lo hi) as [[[[b' ok] c]|]|]; reflexivity. }
  assert (E1 : forall o, risk_edit fuel o b x = match feed_edit fuel o b y with
     None => None | Some Panic => Some Panic | Some (Val (b', _)) => Some (Val (Ran b')) end).
  { intros o. destruct x as [r|r lo hi|r i|r], y as [f|f lo' hi'|f i'|f]; try contradiction; cbn [calm_risk risk_edit feed_edit] in *.
    - destruct C as [A H]. destruct (o_resize o b 0) as [q|]; [|reflexivity]. now apply Hv.
    - destruct C as (<- & <- & A & H). now apply Hv.
    - destruct C as (<- & A & H). now apply Hv.
    - destruct C as [A H]. destruct (o_payload_size o b) as [q|]; [|reflexivity]. now apply Hv. }
  assert (E2 : forall o, risk_try fuel o b x = match feed_try fuel o b y with
     None => None | Some Panic => Some Panic | Some (Val (b', ok, _)) => Some (Val (Ran (b', ok))) end).
  { intros o. destruct x as [r|r lo hi|r i|r], y as [f|f lo' hi'|f i'|f]; try contradiction; cbn [calm_risk risk_try feed_try] in *.
    - destruct C as [A H]. destruct (o_resize o b 0) as [[q [z|]]|]; [reflexivity| |reflexivity]. now apply Hv.
    - destruct C as (<- & <- & A & H). now apply Hv.
    - destruct C as (<- & A & H). now apply Hv.
    - destruct C as [A H]. destruct (o_payload_size o b) as [q|]; [|reflexivity]. now apply Hv. }
  repeat split; first [apply E1|apply E2].
Qed.
Print Assumptions C59_no_panic.

(** ** Growable buffers *)

(** The iterator gives the items [taken] and panics: the message is a message again, of the same group and stream, and
    holds what was not to be replaced and the items taken. *)
Theorem C59_interrupted : forall fm x b g s l taken n fuel,
  message fm g s l b -> s = None \/ s = Some 0%N ->
  throws_after (risky_of x) taken -> promises (risky_of x) n -> Forall (is_unit fm) taken -> risk_inside x (List.length l) ->
  List.length taken < fuel ->
  exists b' p, risk_packets fuel fm b x = Some (Val (Unwound b'))
    /\ interrupted x l n taken p
    /\ message fm g s p b' /\ payload_list (fmt_for fm) b' = Val p /\ group b' = Val g
    /\ sx_data (fmt_for fm) b' = Val b' /\ (s = Some 0%N -> sx_try_from (fmt_for fm) b' = Ok b')
    /\ (clean_bytes fm b -> clean_bytes fm b').
Proof.
  intros fm x b g s l taken n fuel M K Th Pm U In Fu.
  assert (X : forall cl, (cl = true -> clean_bytes fm b) -> exists b' p, risk_packets fuel fm b x = Some (Val (Unwound b'))
    /\ interrupted x l n taken p /\ message fm g s p b' /\ (cl = true -> clean_bytes fm b')).
  { intros cl Cl. destruct (message_inv fm g s l b cl M K Cl) as [[H R] Hg].
    assert (D : holds (ump_done (fmt_of fm) g s cl Growable 0) (rd (fmt_of fm)) l b).
    { split; [|exact R]. split; [exact H|]. destruct M as (k & C & Fp & Len). destruct (carries_framed _ _ _ _ _ _ C Fp) as (_ & Kn & _).
      rewrite words_of. now rewrite <- Kn. }
    destruct (risk_edit_doom _ _ _ _ _ (ump_laws_exact (fmt_of fm) g s cl (okf_of fm) Hg) x b l taken n fuel D (units_ok _ _ U) Th Pm In Fu)
      as (b' & p & E & Hp & T).
    exists b', p. split; [exact E|]. split; [exact T|]. now apply done_message in Hp. }
  destruct (X false ltac:(discriminate)) as (b' & p & E & T & M' & _). exists b', p.
  destruct (message_reads _ _ _ _ _ M') as (D & P & _ & G).
  split; [exact E|]. split; [exact T|]. split; [exact M'|]. split; [exact P|]. split; [exact G|]. split; [exact D|]. split.
  - intros ->. exact (message_accepted _ _ _ _ _ M').
  - intros Cl. destruct (X true (fun _ => Cl)) as (b2 & p2 & E2 & _ & _ & C2). rewrite E in E2. injection E2 as <-. now apply C2.
Qed.
Print Assumptions C59_interrupted.

(** The message can be edited further. *)
Theorem C59_goes_on : forall fm x b g s l taken n fuel,
  message fm g s l b -> s = None \/ s = Some 0%N ->
  throws_after (risky_of x) taken -> promises (risky_of x) n -> Forall (is_unit fm) taken -> risk_inside x (List.length l) ->
  List.length taken < fuel ->
  exists b' p, risk_packets fuel fm b x = Some (Val (Unwound b')) /\ interrupted x l n taken p
    /\ forall es, all_legal fm es p -> exists b'', run_edits (apply_edit fm) es b' = Val b''
       /\ payload_list (fmt_for fm) b'' = Val (final_payload es p).
Proof.
  intros fm x b g s l taken n fuel M K Th Pm U In Fu.
  destruct (C59_interrupted fm x b g s l taken n fuel M K Th Pm U In Fu) as (b' & p & E & T & M' & _).
  exists b', p. split; [exact E|]. split; [exact T|]. intros es Lg.
  destruct (history_ump fm s K es b' g p M' Lg) as (b2 & E2 & M2 & _). exists b2. split; [exact E2|].
  apply (message_reads _ _ _ _ _ M2).
Qed.
Print Assumptions C59_goes_on.

(** The panic comes from [size_hint]: the payload is as it was, or empty if it was to be set. *)
Theorem C59_hint_panics : forall fm x b g s l fuel,
  message fm g s l b -> s = None \/ s = Some 0%N ->
  rk_hint (risky_of x) = None -> risk_inside x (List.length l) ->
  exists b', risk_packets fuel fm b x = Some (Val (Unwound b')) /\ message fm g s (before x l) b'
    /\ payload_list (fmt_for fm) b' = Val (before x l).
Proof.
  intros fm x b g s l fuel M K Hn In. destruct (message_inv fm g s l b false M K ltac:(discriminate)) as [[H R] Hg].
  assert (D : holds (ump_done (fmt_of fm) g s false Growable 0) (rd (fmt_of fm)) l b).
  { split; [|exact R]. split; [exact H|]. destruct M as (k & C & Fp & Len). destruct (carries_framed _ _ _ _ _ _ C Fp) as (_ & Kn & _).
    rewrite words_of. now rewrite <- Kn. }
  destruct (risk_edit_mute _ _ _ _ _ (ump_laws_exact (fmt_of fm) g s false (okf_of fm) Hg) x b l fuel D Hn In) as (b' & E & Hp).
  apply done_message in Hp; [|exact Hg]. destruct Hp as [M' _]. exists b'. split; [exact E|]. split; [exact M'|]. apply (message_reads _ _ _ _ _ M').
Qed.
Print Assumptions C59_hint_panics.

(** The same in a [Vec] of bytes. *)
Lemma calm_septets k len p b : holds (calm_inv k len) rd_b p b -> Forall septet p.
Proof.
  intros [[_ C] R]. apply Forall_forall. intros v Hv. apply (In_nth _ _ 0%N) in Hv. destruct Hv as (i & Hi & <-).
  rewrite <- R by exact Hi. unfold rd_b, septet. apply C; lia.
Qed.
Lemma stream_calm l : Forall septet l -> holds (calm_inv Growable 0) rd_b l (stream_bytes l).
Proof.
  intros Hl. destruct (stream_inv l (septets_no_end l Hl)) as [H R]. split; [|exact R]. split; [exact H|].
  intros j J Jn. rewrite stream_bytes_nth. replace (j =? 0) with false by lia. destruct (Nat.leb_spec j (List.length l)).
  - rewrite Forall_forall in Hl. apply Hl, nth_In. lia.
  - replace (j =? List.length l + 1) with false by lia. lia.
Qed.
Theorem C59_bytes_interrupted : forall x l taken n fuel, Forall (is_unit SevenBit) l ->
  throws_after (risky_of x) taken -> promises (risky_of x) n -> Forall (is_unit SevenBit) taken -> risk_inside x (List.length l) ->
  List.length taken < fuel ->
  exists p, risk_bytes fuel (stream_bytes l) x = Some (Val (Unwound (stream_bytes p)))
    /\ interrupted x l n taken p /\ Forall (is_unit SevenBit) p.
Proof.
  intros x l taken n fuel Hl Th Pm U In Fu.
  destruct (risk_edit_doom _ _ _ _ _ bytes_laws_calm x _ l taken n fuel (stream_calm l Hl) U Th Pm In Fu) as (b' & p & E & Hp & T).
  exists p. assert (b' = stream_bytes p) as <-.
  { apply done_stream. destruct Hp as [[[S Len] _] R]. split; [split; [exact S|exact Len]|exact R]. }
  split; [exact E|]. split; [exact T|]. exact (calm_septets _ _ _ _ Hp).
Qed.
Print Assumptions C59_bytes_interrupted.
Theorem C59_bytes_hint_panics : forall x l fuel, Forall (is_unit SevenBit) l ->
  rk_hint (risky_of x) = None -> risk_inside x (List.length l) ->
  risk_bytes fuel (stream_bytes l) x = Some (Val (Unwound (stream_bytes (before x l)))).
Proof.
  intros x l fuel Hl Hn In.
  destruct (risk_edit_mute _ _ _ _ _ bytes_laws_calm x _ l fuel (stream_calm l Hl) Hn In) as (b' & E & [[[S Len] _] R]).
  replace (stream_bytes (before x l)) with b'; [exact E|]. apply done_stream. split; [split; [exact S|exact Len]|exact R].
Qed.
Print Assumptions C59_bytes_hint_panics.

(** ** Arrays and slices *)

(** The panic comes before the message is full, or the items taken do not fit and the call has returned an error by
    then. *)
Theorem C59_fixed_interrupted : forall fm x b g s l taken n fuel, message_in fm g s l b ->
  throws_after (risky_of x) taken -> promises (risky_of x) n -> Forall (is_unit fm) taken -> risk_inside x (List.length l) ->
  few x l n taken -> List.length taken < fuel ->
  let room := room_in fm (List.length b) in
  if length_with x l taken <=? room
  then exists b' p, try_risk_packets fuel fm b x = Some (Val (Unwound b'))
    /\ interrupted x l (expected room x l n) taken p
    /\ message_in fm g s p b' /\ List.length b' = List.length b
    /\ payload_list (fmt_for fm) b' = Val p /\ group b' = Val g
    /\ (exists d, sx_data (fmt_for fm) b' = Val d /\ message fm g s p d)
  else exists b', try_risk_packets fuel fm b x = Some (Val (Ran (b', false)))
    /\ message_in fm g s [] b' /\ List.length b' = List.length b.
Proof.
  intros fm x b g s l taken n fuel M Th Pm U In Fw Fu room.
  destruct (message_in_inv fm g s l b false M ltac:(discriminate)) as [H Hg].
  pose proof (risk_try_doom _ _ _ _ _ _ _ (ump_laws_fixed (fmt_of fm) g s false (List.length b) (okf_of fm) Hg) x b l taken n fuel H (units_ok _ _ U) Th Pm In Fw Fu
    (or_introl eq_refl)) as X. rewrite capacity_of in X. fold room in X. destruct (length_with x l taken <=? room).
  - destruct X as (b' & p & E & Hp & T). apply inv_message_in in Hp; [|exact Hg]. destruct Hp as (M' & _ & Len).
    destruct (message_in_reads _ _ _ _ _ M') as ((d & D & Md & _) & P & _ & G). exists b', p.
    split; [exact E|]. split; [exact T|]. split; [exact M'|]. split; [exact Len|]. split; [exact P|]. split; [exact G|]. eauto.
  - destruct X as (b' & E & [W0 _]). exists b'. split; [exact E|].
    assert (H0 : holds (ump_inv (fmt_of fm) g s false Fixed (List.length b)) (rd (fmt_of fm)) [] b') by (split; [exact W0|cbn; lia]).
    apply inv_message_in in H0; [|exact Hg]. tauto.
Qed.
Print Assumptions C59_fixed_interrupted.
Theorem C59_fixed_hint_panics : forall fm x b g s l fuel, message_in fm g s l b ->
  rk_hint (risky_of x) = None -> risk_inside x (List.length l) ->
  exists b', try_risk_packets fuel fm b x = Some (Val (Unwound b')) /\ message_in fm g s (before x l) b' /\ List.length b' = List.length b.
Proof.
  intros fm x b g s l fuel M Hn In. destruct (message_in_inv fm g s l b false M ltac:(discriminate)) as [H Hg].
  destruct (risk_try_mute _ _ _ _ _ _ _ (ump_laws_fixed (fmt_of fm) g s false (List.length b) (okf_of fm) Hg) x b l fuel H Hn In (or_introl eq_refl)) as (b' & E & Hp).
  apply inv_message_in in Hp; [|exact Hg]. exists b'. tauto.
Qed.
Print Assumptions C59_fixed_hint_panics.

(** Byte arrays whose bytes behind the message are below 128.  [try_set_payload] is left out: resetting an array can
    leave a second end byte (C22_stale_end_refuted). *)
Theorem C59_fixed_bytes_interrupted : forall x l r taken n fuel, Forall (is_unit SevenBit) l -> Forall (is_unit SevenBit) r ->
  (forall q, x <> SetRisky q) ->
  throws_after (risky_of x) taken -> promises (risky_of x) n -> Forall (is_unit SevenBit) taken -> risk_inside x (List.length l) ->
  few x l n taken -> List.length taken < fuel ->
  let room := List.length l + List.length r in
  if length_with x l taken <=? room
  then exists p r', try_risk_bytes fuel (stream_bytes l ++ r) x = Some (Val (Unwound (stream_bytes p ++ r')))
    /\ List.length p + List.length r' = room /\ Forall (is_unit SevenBit) p /\ Forall (is_unit SevenBit) r'
    /\ interrupted x l (expected room x l n) taken p
  else exists r', try_risk_bytes fuel (stream_bytes l ++ r) x = Some (Val (Ran (stream_bytes [] ++ r', false))) /\ List.length r' = room.
Proof.
  intros x l r taken n fuel Hl Hr Hx Th Pm U In Fw Fu room.
  set (len := List.length (stream_bytes l ++ r)).
  assert (Lc : len - 2 = room) by (unfold len, room; rewrite app_length, stream_bytes_length; lia).
  assert (L2 : 2 <= len) by (unfold len; rewrite app_length, stream_bytes_length; lia).
  assert (H : holds (calm_inv Fixed len) rd_b l (stream_bytes l ++ r)).
  { assert (Hr' : lone_end r) by (eapply Forall_impl; [|exact Hr]; cbn; intros v Hv; lia).
    destruct (fixed_bytes_inv l r len (septets_no_end l Hl) Hr' eq_refl) as [H R]. split; [|exact R]. split; [exact H|].
    intros j J Jn. destruct (Nat.lt_ge_cases j (List.length l + 2)) as [A|A].
    - rewrite app_nth1 by (rewrite stream_bytes_length; lia). now apply (proj2 (proj1 (stream_calm l Hl))).
    - rewrite app_nth2 by (rewrite stream_bytes_length; lia). destruct (nth_in_or_default (j - List.length (stream_bytes l)) r 0%N) as [I|E0].
      + rewrite Forall_forall in Hr. now apply Hr.
      + rewrite E0. lia. }
  pose proof (risk_try_doom _ _ _ _ _ _ _ (bytes_laws_calm_fixed len) x _ l taken n fuel H U Th Pm In Fw Fu (or_intror Hx)) as X.
  rewrite Lc in X. destruct (length_with x l taken <=? room).
  - destruct X as (b' & p & E & Hp & T). pose proof (calm_septets _ _ _ _ Hp) as Sp.
    destruct Hp as [[[S [Len Sg]] C] R]. assert (SS : holds sealed rd_b p b') by (split; auto).
    pose proof (sealed_stream p b' SS) as Eb. exists p, (skipn (List.length p + 2) b'). rewrite <- Eb. split; [exact E|].
    pose proof (se_len _ _ S). split; [rewrite skipn_length; lia|]. split; [exact Sp|]. split; [|exact T].
    apply Forall_forall. intros v Hv. apply (In_nth _ _ 0%N) in Hv. destruct Hv as (i & _ & <-). rewrite nth_skipn. apply C; lia.
  - destruct X as (b' & E & [S Len]). assert (SS : holds sealed rd_b [] b') by (split; [exact S|cbn; lia]).
    pose proof (sealed_stream [] b' SS) as Eb. exists (skipn (List.length (@nil N) + 2) b'). rewrite <- Eb. split; [exact E|].
    rewrite skipn_length. cbn [List.length]. lia.
Qed.
Print Assumptions C59_fixed_bytes_interrupted.

(** Otherwise an interrupted edit can make the bytes behind a message part of it, and its payload can not be read any
    more. *)
Theorem C59_fixed_bytes_refuted : exists b x b', try_from_b b = Ok b /\ payload_list_b b = Val [1]%N
  /\ throws_after (risky_of x) [] /\ promises (risky_of x) 2 /\ risk_inside x 1 /\ few x [1]%N 2 []
  /\ try_risk_bytes 1 b x = Some (Val (Unwound b')) /\ try_from_b b' = Ok b' /\ payload_list_b b' = Panic.
Proof.
  exists (stream_bytes [1]%N ++ [0xFF; 0xFF; 0xFF]%N), (AppendRisky {| rk_answer := fun _ => Throws; rk_hint := Some (2, Some 2) |}),
    [0xF0; 1; 0; 0xFF; 0xF7; 0xFF]%N.
  split; [reflexivity|]. split; [reflexivity|]. split; [split; [intros i Hi; cbn in Hi; lia|reflexivity]|].
  split; [reflexivity|]. split; [exact I|]. split; [left; reflexivity|]. repeat split; reflexivity.
Qed.
Print Assumptions C59_fixed_bytes_refuted.

(** ** A case *)

(** An iterator that announces five items, gives two and panics, in a splice that replaces three of eight bytes. *)
Definition faulty : risky := {| rk_answer := fun i => match i with 0 => Item 50%N | 1 => Item 51%N | _ => Throws end; rk_hint := Some (0, Some 5) |}.
Definition victim := [1; 2; 3; 4; 5; 6; 7; 8]%N.
Example C59_case : throws_after faulty [50; 51]%N /\ promises faulty 5
  /\ risk_inside (SpliceRisky faulty (Included 2) (Excluded 5)) 8
  /\ risk_bytes 9 (stream_bytes victim) (SpliceRisky faulty (Included 2) (Excluded 5))
     = Some (Val (Unwound (stream_bytes [1; 2; 50; 51; 5; 6; 7; 6; 7; 8]%N)))
  /\ exists b0 b b', sx_new fmt7 = Val b0 /\ apply_edit SevenBit (SetPayload (exactly victim)) b0 = Val b
     /\ message SevenBit 0 None victim b
     /\ risk_packets 9 SevenBit b (SpliceRisky faulty (Included 2) (Excluded 5)) = Some (Val (Unwound b'))
     /\ payload_list fmt7 b' = Val [1; 2; 50; 51; 5; 6; 7; 6; 7; 8]%N.
Proof.
  split; [split; [|reflexivity]|].
  { intros [|[|i]] Hi; try reflexivity. cbn in Hi. lia. }
  split; [reflexivity|]. split; [cbn; lia|]. split; [vm_compute; reflexivity|].
  exists (fresh_words SevenBit). destruct (fresh_message SevenBit) as [M0 _].
  destruct (C21_edit_is_list_edit SevenBit (SetPayload (exactly victim)) _ 0%N (Some 0%N) [] M0 (or_intror eq_refl)) as (b & E & _ & _ & _ & M).
  { cbn. repeat (apply Forall_cons; [cbn; lia|]). constructor. }
  apply (seven_message _ _ None) in M. exists b. cbn [new_group new_payload exactly s_items] in M.
  vm_compute in E. injection E as <-. eexists. split; [apply (new_fresh SevenBit)|]. split; [vm_compute; reflexivity|]. split; [exact M|].
  split; vm_compute; reflexivity.
Qed.
