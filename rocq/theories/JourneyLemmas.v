(** One leg of a journey follows the view. *)
From Coq Require Import NArith List Bool Arith Lia ZifyBool String.
From Verif Require Import Base BitOps Values Props Message Sysex Splice Aggregate SpecSysex SpecEdits SysexClient
  SysexLayout SysexBridge SysexInit SysexEdit SysexConvert SysexLoose SysexHistory SysexFixedBytes CopyLemmas SpecJourney Journey PropertiesSysex.
Import ListNotations.
Local Open Scope nat_scope.

(** The client holds what the view says. *)
Definition shows (v : view) (h : held) : Prop :=
  h_place h = v_place v /\ List.length (h_buffer h) = v_length v /\
  match v_place v with
  | PacketVec | PacketArray =>
      message_in SevenBit (v_group v) None (v_payload v) (h_buffer h) /\ v_length v mod 2 = 0
  | ByteVec | ByteArray => (exists r, h_buffer h = stream_bytes (v_payload v) ++ r /\ lone_end r)
      /\ Forall (is_unit SevenBit) (v_payload v) /\ v_group v = 0%N
  end.

Lemma room_fits n m : m mod 2 = 0 ->
  (2 * packets_needed SevenBit n <=? m) = (2 <=? m) && (n <=? room_in SevenBit m).
Proof.
  intros M. unfold packets_needed, room_in. cbn [packet_words packet_room].
  pose proof (Nat.div_mod m 2 ltac:(lia)) as D. rewrite M in D. set (q := m / 2) in *. clearbody q. subst m. clear M.
  destruct (Nat.eqb_spec n 0); [lia|].
  pose proof (Nat.div_mod (n + 6 - 1) 6 ltac:(lia)) as E. pose proof (Nat.mod_upper_bound (n + 6 - 1) 6 ltac:(lia)).
  set (t := (n + 6 - 1) / 6) in *. set (u := (n + 6 - 1) mod 6) in *. clearbody t u. lia.
Qed.

Lemma stream_length l : List.length (stream_bytes l) = List.length l + 2.
Proof. unfold stream_bytes. cbn [List.length]. rewrite app_length. cbn [List.length]. lia. Qed.

Lemma packets_of g l b : message SevenBit g None l b -> List.length b = length_in PacketVec l.
Proof.
  intros (k & C & F & L). destruct (carries_framed _ _ _ _ _ _ C F) as (_ & E & _).
  cbn [length_in]. rewrite needed_of. cbn [packet_words] in L. congruence.
Qed.

Lemma units_of_in g l b : message_in SevenBit g None l b -> Forall (is_unit SevenBit) l.
Proof. intros ((k & C & _) & _). exact (carries_units _ _ _ _ _ _ C). Qed.

Lemma packed_loose g l b : message_in SevenBit g None l b -> exists k, loose_message SevenBit k g l b
  /\ forall e, ~ blocked SevenBit k e l b.
Proof.
  intros ((k & C & F) & Sc). exists k. split.
  - split; [exact C|]. split.
    + intros p Hp U. now destruct (U (proj1 F p Hp)).
    + intros p Hk Hp _ T St. destruct (Sc p Hp) as [X _]. destruct (X T St) as [U Z]. revert U Z. unfold units_in.
      cbn [packet_room size_bias]. lia.
  - assert (B : forall n, ~ left_behind SevenBit k n b).
    { intros n (p & _ & Hp & U & _). exact (U (proj1 F p Hp)). }
    intros e X. destruct e; cbn [blocked] in X; try tauto; destruct X as [_ X]; now apply B in X.
Qed.

(** Edits of a growable buffer with something behind the message. *)
Lemma grow_edit e b g l : message_in SevenBit g None l b -> legal SevenBit e l ->
  exists b', apply_edit SevenBit e b = Val b' /\ message_in SevenBit (new_group e g) None (new_payload e l) b'
    /\ (match e with SetByte _ _ | SetGroup _ => List.length b' = List.length b
        | _ => message SevenBit g None (new_payload e l) b' end).
Proof.
  intros M Lg. destruct (packed_loose _ _ _ M) as (k & Lo & Nb).
  destruct (edit_loose _ _ e _ _ _ Lo Lg (Nb e)) as (b' & E & _ & R). exists b'. split; [exact E|].
  destruct e as [src|src lo hi|src i|src|v|v i|g']; cbn [resizes new_group] in *;
    try (split; [apply message_scrap|]; apply R; exact Logic.I).
  - pose proof (C22_fixed_edit SevenBit (SetByte v i) b g None l M Lg Logic.I) as X. cbv zeta in X.
    destruct X as (b2 & E2 & L2 & M2 & _). cbn [try_edit apply_edit] in *. rewrite E in E2. cbn [bind] in E2.
    injection E2 as -> Ef. cbn [new_payload new_group] in *. rewrite <- Ef in M2. auto.
  - pose proof (C22_fixed_edit SevenBit (SetGroup g') b g None l M Lg Logic.I) as X. cbv zeta in X.
    destruct X as (b2 & E2 & L2 & M2 & _). cbn [try_edit apply_edit] in *. rewrite E in E2. cbn [bind] in E2.
    injection E2 as -> Ef. cbn [new_payload new_group] in *. rewrite <- Ef in M2. auto.
Qed.

Lemma byte_data l r : Forall (is_unit SevenBit) l -> data_b (stream_bytes l ++ r) = Val (stream_bytes l).
Proof. intros Hl. apply (C26_bytes_accepted_reads l r Hl). Qed.

Lemma new_units e l : Forall (is_unit SevenBit) l -> legal SevenBit e l -> Forall (is_unit SevenBit) (new_payload e l).
Proof.
  intros Hl Lg.
  assert (Hf : forall n, Forall (is_unit SevenBit) (firstn n l)).
  { intros n. apply Forall_forall. intros x Hx. rewrite Forall_forall in Hl. apply Hl. rewrite <- (firstn_skipn n l). apply in_or_app. now left. }
  assert (Hs : forall n, Forall (is_unit SevenBit) (skipn n l)).
  { intros n. apply Forall_forall. intros x Hx. rewrite Forall_forall in Hl. apply Hl. rewrite <- (firstn_skipn n l). apply in_or_app. now right. }
  destruct e; cbn [new_payload legal] in *; unfold replaced, with_unit; try tauto.
  - apply Forall_app; split; [auto|]. apply Forall_app; split; [tauto|auto].
  - apply Forall_app; split; [auto|]. apply Forall_app; split; [tauto|auto].
  - apply Forall_app; split; auto.
  - apply Forall_app; split; auto.
  - apply Forall_app; split; auto. apply Forall_cons; [tauto|auto].
Qed.

Lemma zeros_lone n : lone_end (repeat 0%N n).
Proof. apply Forall_forall. intros x Hx. apply repeat_spec in Hx. subst. discriminate. Qed.

Lemma leg_ok s v h : shows v h -> permitted s v ->
  exists h', take_step s h = Val (h', snd (travels s v)) /\ shows (fst (travels s v)) h'.
Proof.
  intros (Hp & Hl & Hc) P. destruct h as [hp hb], v as [vp vl l g].
  cbn [h_place h_buffer v_place v_length v_payload v_group] in *. subst hp. unfold take_step.
  destruct s as [e| |n| |n| |n|n]; cbn [permitted in_packets v_place v_payload v_length travels h_place h_buffer v_group fst snd] in *.
  - destruct P as [Lg P]. destruct vp.
    + destruct Hc as [M E0]. destruct (grow_edit e hb g l M Lg) as (b' & E & M' & X). unfold got. rewrite E. cbn [bind].
      eexists. split; [reflexivity|]. cbn [fst]. split; [reflexivity|].
      cbn [h_place h_buffer v_place v_length v_payload v_group].
      assert (Y : List.length b' = match e with SetByte _ _ | SetGroup _ => vl | _ => length_in PacketVec (new_payload e l) end).
      { destruct e; try (apply (packets_of g); exact X); congruence. }
      split; [exact Y|]. split; [exact M'|]. destruct e; try exact E0; cbn [length_in]; rewrite Nat.mul_comm; apply Nat.mod_mul; lia.
    + destruct Hc as [M E0]. pose proof (C22_fixed_edit SevenBit e hb g None l M Lg P) as X. cbv zeta in X.
      destruct X as (b' & E & L' & M' & _). rewrite E. cbn [bind fst snd]. unfold fixed_outcome. rewrite <- Hl.
      destruct (_ <=? _); cbn [fst snd]; (eexists; split; [reflexivity|]; split; [reflexivity|];
        cbn [h_place h_buffer v_place v_length v_payload v_group]; split; [congruence|]; split; [exact M'|congruence]).
    + destruct Hc as ((r & -> & Hr) & Hu & ->). unfold got. rewrite (C21_bytes_behind e l r Hu Hr Lg). cbn [bind].
      eexists. split; [reflexivity|]. split; [reflexivity|]. cbn [h_place h_buffer v_place v_length v_payload v_group].
      split; [|split; [|split; [now apply new_units|reflexivity]]].
      * destruct e; rewrite ?app_nil_r; try apply stream_length; [|exact Hl].
        rewrite <- Hl, !app_length, !stream_length. cbn [new_payload legal] in *. destruct Lg as [_ Lg]. unfold with_unit.
        rewrite app_length. cbn [List.length]. rewrite firstn_length, skipn_length. cbn [fst v_length]. lia.
      * eexists. split; [reflexivity|]. destruct e; try exact Hr; constructor.
    + destruct Hc as ((r & -> & Hr) & Hu & ->). destruct P as [Sh Ft].
      rewrite app_length, stream_length in Hl. cbn [length_in] in Ft.
      pose proof (grow_step_b e l r Hu Hr Lg Sh) as S. replace (List.length (new_payload e l) <=? List.length l + List.length r) with true in S by lia.
      destruct S as (r' & E & L' & Hr' & Hu'). rewrite E. cbn [bind fst snd]. unfold fixed_outcome.
      replace (List.length (new_payload e l) <=? vl - 2) with true by lia. eexists. split; [reflexivity|].
      split; [reflexivity|]. cbn [h_place h_buffer v_place v_length v_payload v_group].
      split; [cbn [fst v_length]; rewrite app_length, stream_length; lia|]. split; [eauto|]. split; [exact Hu'|reflexivity].
  - assert (M : exists k s, carries SevenBit k g s l hb) by (destruct vp; try discriminate; destruct Hc as (((k & C & _) & _) & _); eauto).
    destruct M as (k & s & C). destruct (C25_from_ump k g s l hb 0 C) as [E _].
    exists {| h_place := ByteVec; h_buffer := stream_bytes l |}. split.
    + destruct vp; try discriminate; unfold got; rewrite E; reflexivity.
    + unfold shows, arrives; cbn [h_place h_buffer v_place v_length v_payload v_group length_in].
      split; [reflexivity|]. split; [apply stream_length|]. split; [exists []; split; [symmetry; apply app_nil_r|constructor]|].
      split; [exact (carries_units _ _ _ _ _ _ C)|reflexivity].
  - assert (M : exists k s, carries SevenBit k g s l hb) by (destruct vp; try discriminate; destruct Hc as (((k & C & _) & _) & _); eauto).
    destruct M as (k & s & C). destruct (C25_from_ump k g s l hb n C) as [_ E]. cbn [length_in].
    assert (H0 : shows {| v_place := vp; v_length := vl; v_payload := l; v_group := g |} {| h_place := vp; h_buffer := hb |})
      by (split; [reflexivity|]; split; [exact Hl|exact Hc]).
    destruct (List.length l + 2 <=? n) eqn:Q; unfold if_fits; cbn [fst snd].
    + destruct E as (r & E & L' & Lo). exists {| h_place := ByteArray; h_buffer := stream_bytes l ++ r |}. split.
      * destruct vp; try discriminate; unfold or_keep; rewrite E; reflexivity.
      * unfold shows, arrives; cbn [h_place h_buffer v_place v_length v_payload v_group].
        split; [reflexivity|]. split; [exact L'|]. split; [eauto|]. split; [exact (carries_units _ _ _ _ _ _ C)|reflexivity].
    + eexists. split; [|exact H0]. destruct vp; try discriminate; unfold or_keep; rewrite E; reflexivity.
  - assert (B : exists r, hb = stream_bytes l ++ r /\ Forall (is_unit SevenBit) l).
    { destruct vp; try discriminate; destruct Hc as ((r & X & _) & Hu & _); eauto. }
    destruct B as (r & -> & Hu). destruct (C25_from_bytes l r 0 Hu) as [(b & E & M & _) _].
    exists {| h_place := PacketVec; h_buffer := b |}. split.
    + destruct vp; try discriminate; unfold got; rewrite E; reflexivity.
    + unfold shows, arrives; cbn [h_place h_buffer v_place v_length v_payload v_group]. split; [reflexivity|].
      split; [exact (packets_of _ _ _ M)|]. split; [now apply message_scrap|]. cbn [length_in]. rewrite Nat.mul_comm. apply Nat.mod_mul. lia.
  - destruct P as [P Hn].
    assert (B : exists r, hb = stream_bytes l ++ r /\ Forall (is_unit SevenBit) l).
    { destruct vp; try discriminate; destruct Hc as ((r & X & _) & Hu & _); eauto. }
    assert (H0 : shows {| v_place := vp; v_length := vl; v_payload := l; v_group := g |} {| h_place := vp; h_buffer := hb |})
      by (split; [reflexivity|]; split; [exact Hl|exact Hc]).
    destruct B as (r & -> & Hu). destruct (C25_from_bytes l r n Hu) as [_ E]. rewrite <- room_fits in E by exact Hn.
    cbn [length_in]. destruct (_ <=? n) eqn:Q; unfold if_fits; cbn [fst snd].
    + destruct E as (b & E & L' & M & _). exists {| h_place := PacketArray; h_buffer := b |}. split.
      * destruct vp; try discriminate; unfold or_keep; rewrite E; reflexivity.
      * unfold shows, arrives; cbn [h_place h_buffer v_place v_length v_payload v_group]. split; [reflexivity|]. auto.
    + eexists. split; [|exact H0]. destruct vp; try discriminate; unfold or_keep; rewrite E; reflexivity.
  - unfold got, rebuffer_vec. cbn [bind]. eexists. split; [destruct vp; reflexivity|].
    unfold shows, arrives. destruct vp; cbn [in_packets v_place v_payload v_length v_group h_place h_buffer vec_of fst] in *; auto.
  - unfold or_keep, try_rebuffer_array. cbn [bind]. rewrite Hl. rewrite Nat.leb_antisym.
    assert (H0 : shows {| v_place := vp; v_length := vl; v_payload := l; v_group := g |} {| h_place := vp; h_buffer := hb |})
      by (split; [reflexivity|]; split; [exact Hl|exact Hc]).
    destruct (Nat.ltb_spec n vl); cbn [negb]; unfold if_fits; cbn [fst snd].
    + eexists. split; [destruct vp; reflexivity|exact H0].
    + eexists. split; [destruct vp; reflexivity|].
      assert (LL : List.length (hb ++ repeat 0%N (n - vl)) = n) by (rewrite app_length, repeat_length; lia).
      unfold shows, arrives. destruct vp; cbn [in_packets v_place v_payload v_length v_group h_place h_buffer array_of fst] in *;
        (split; [reflexivity|]; split; [exact LL|]).
      * destruct Hc as [M E0]. split; [|now apply P]. apply message_in_pad; [exact Logic.I|cbn [packet_words]; congruence|exact M].
      * destruct Hc as [M E0]. split; [|now apply P]. apply message_in_pad; [exact Logic.I|cbn [packet_words]; congruence|exact M].
      * destruct Hc as ((r & -> & Hr) & Hu & ->). split; [|auto]. exists (r ++ repeat 0%N (n - vl)). split; [now rewrite app_assoc|].
        apply Forall_app; split; [exact Hr|apply zeros_lone].
      * destruct Hc as ((r & -> & Hr) & Hu & ->). split; [|auto]. exists (r ++ repeat 0%N (n - vl)). split; [now rewrite app_assoc|].
        apply Forall_app; split; [exact Hr|apply zeros_lone].
  - destruct P as [Pn Pm]. unfold agg_array_rebuffer, agg_data. cbn [fst snd].
    assert (D : exists d, concrete_data (match vp with PacketVec | PacketArray => U32 | ByteVec | ByteArray => U8 end) CSysex7 hb = Val d
      /\ List.length d = length_in vp l
      /\ match vp with PacketVec | PacketArray => message SevenBit g None l d | _ => d = stream_bytes l /\ Forall (is_unit SevenBit) l /\ g = 0%N end).
    { destruct vp.
      - destruct Hc as [M _]. destruct (message_in_reads _ _ _ _ _ M) as ((d & D & Md & _) & _). exists d.
        split; [exact D|]. split; [exact (packets_of _ _ _ Md)|exact Md].
      - destruct Hc as [M _]. destruct (message_in_reads _ _ _ _ _ M) as ((d & D & Md & _) & _). exists d.
        split; [exact D|]. split; [exact (packets_of _ _ _ Md)|exact Md].
      - destruct Hc as ((r & -> & _) & Hu & ->). exists (stream_bytes l). split; [|split; [apply stream_length|auto]].
        cbn [concrete_data]. now apply byte_data.
      - destruct Hc as ((r & -> & _) & Hu & ->). exists (stream_bytes l). split; [|split; [apply stream_length|auto]].
        cbn [concrete_data]. now apply byte_data. }
    destruct D as (d & D & Ld & Md). cbv zeta. rewrite D. cbn [bind]. rewrite Ld.
    destruct (Nat.ltb_spec n (length_in vp l)); [lia|]. cbn [bind snd]. unfold got. cbn [bind].
    eexists. split; [destruct vp; reflexivity|].
    assert (LL : List.length (d ++ repeat 0%N (n - length_in vp l)) = n) by (rewrite app_length, repeat_length; lia).
    unfold shows, arrives. destruct vp; cbn [in_packets v_place v_payload v_length v_group h_place h_buffer array_of fst] in *;
      (split; [reflexivity|]; split; [exact LL|]).
    + split; [|now apply Pm]. apply message_in_pad; [exact Logic.I| |now apply message_scrap].
      rewrite (packets_of _ _ _ Md). cbn [length_in packet_words]. rewrite Nat.mul_comm. apply Nat.mod_mul. lia.
    + split; [|now apply Pm]. apply message_in_pad; [exact Logic.I| |now apply message_scrap].
      rewrite (packets_of _ _ _ Md). cbn [length_in packet_words]. rewrite Nat.mul_comm. apply Nat.mod_mul. lia.
    + destruct Md as (-> & Hu & ->). split; [eexists; split; [reflexivity|apply zeros_lone]|auto].
    + destruct Md as (-> & Hu & ->). split; [eexists; split; [reflexivity|apply zeros_lone]|auto].
Qed.

Lemma journey_ok ss v h : shows v h -> all_permitted ss v ->
  exists h', journey ss h = Val (h', snd (itinerary ss v)) /\ shows (fst (itinerary ss v)) h'.
Proof.
  revert v h. induction ss as [|s t IH]; intros v h H P; cbn [journey itinerary all_permitted] in *.
  - exists h. auto.
  - destruct P as [P0 P]. destruct (leg_ok s v h H P0) as (h1 & E & H1). rewrite E. cbn [bind fst snd].
    destruct (travels s v) as [v' ok]. cbn [fst snd] in *. destruct (IH v' h1 H1 P) as (h2 & E2 & H2).
    rewrite E2. cbn [bind fst snd]. destruct (itinerary t v') as [v'' oks]. cbn [fst snd] in *. eauto.
Qed.

(** What a client reads. *)
Lemma shows_reads v h : shows v h ->
  read_payload h = Val (v_payload v) /\ read_group h = Val (v_group v) /\ Forall (is_unit SevenBit) (v_payload v) /\
  exists d, read_data h = Val d /\ List.length d = length_in (v_place v) (v_payload v)
    /\ d = firstn (List.length d) (h_buffer h)
    /\ if in_packets v then message SevenBit (v_group v) None (v_payload v) d /\ sx_try_from fmt7 d = Ok d
       else d = stream_bytes (v_payload v) /\ try_from_b d = Ok d.
Proof.
  intros (Hp & Hl & Hc). unfold read_payload, read_group, read_data, in_packets. rewrite Hp. destruct (v_place v) eqn:V.
  - destruct Hc as [M _]. destruct (message_in_reads _ _ _ _ _ M) as ((d & D & Md & Fd) & R & _ & G).
    split; [exact R|]. split; [exact G|]. split; [exact (units_of_in _ _ _ M)|]. exists d. split; [exact D|].
    split; [exact (packets_of _ _ _ Md)|]. split; [exact Fd|]. split; [exact Md|]. exact (message_accepted SevenBit _ _ _ _ (seven_message _ _ (Some 0%N) _ _ Md)).
  - destruct Hc as [M _]. destruct (message_in_reads _ _ _ _ _ M) as ((d & D & Md & Fd) & R & _ & G).
    split; [exact R|]. split; [exact G|]. split; [exact (units_of_in _ _ _ M)|]. exists d. split; [exact D|].
    split; [exact (packets_of _ _ _ Md)|]. split; [exact Fd|]. split; [exact Md|]. exact (message_accepted SevenBit _ _ _ _ (seven_message _ _ (Some 0%N) _ _ Md)).
  - destruct Hc as ((r & E & _) & Hu & ->). pose proof (C26_bytes_accepted_reads _ r Hu) as (A & D & R & _). rewrite <- E in *.
    split; [exact R|]. split; [reflexivity|]. split; [exact Hu|]. exists (stream_bytes (v_payload v)). rewrite E in *.
    split; [exact D|]. split; [apply stream_length|].
    split; [now rewrite firstn_app, Nat.sub_diag, firstn_all, app_nil_r|].
    pose proof (C26_bytes_accepted_reads _ [] Hu) as (A' & _). rewrite app_nil_r in A'. auto.
  - destruct Hc as ((r & E & _) & Hu & ->). pose proof (C26_bytes_accepted_reads _ r Hu) as (A & D & R & _). rewrite <- E in *.
    split; [exact R|]. split; [reflexivity|]. split; [exact Hu|]. exists (stream_bytes (v_payload v)). rewrite E in *.
    split; [exact D|]. split; [apply stream_length|].
    split; [now rewrite firstn_app, Nat.sub_diag, firstn_all, app_nil_r|].
    pose proof (C26_bytes_accepted_reads _ [] Hu) as (A' & _). rewrite app_nil_r in A'. auto.
Qed.

Lemma start_ok p n : (p = PacketArray \/ p = ByteArray -> 2 <= n) -> (p = PacketArray -> n mod 2 = 0) ->
  exists h, set_out p n = Val (Ok h) /\ shows (start p n) h.
Proof.
  intros Hn Hm.
  assert (W : forall b, message_in SevenBit 0 (Some 0%N) [] b -> message_in SevenBit 0 None [] b).
  { intros b ((k & C & F) & Sc). split; [exists k; split; [|exact F]|].
    - destruct C. constructor; auto. discriminate.
    - intros p0 H0. destruct (Sc p0 H0). split; [assumption|discriminate]. }
  destruct p; unfold set_out.
  - pose proof (SysexInit.new_fresh SevenBit) as E. cbn [fmt_of] in E. rewrite E. cbn [bind]. eexists. split; [reflexivity|].
    split; [reflexivity|]. split; [reflexivity|]. split; [|reflexivity]. apply W, message_scrap, (fresh_message SevenBit).
  - pose proof (try_new_fresh SevenBit n) as T. cbn [packet_words fmt_of] in T.
    destruct (Nat.ltb_spec n 2); [specialize (Hn (or_introl eq_refl)); lia|]. destruct T as (b & E & L & M & _). rewrite E. cbn [bind].
    eexists. split; [reflexivity|]. split; [reflexivity|]. split; [exact L|]. split; [now apply W|now apply Hm].
  - rewrite new_b_fresh. cbn [bind]. eexists. split; [reflexivity|]. split; [reflexivity|]. split; [reflexivity|].
    split; [exists []; split; [reflexivity|constructor]|]. split; [constructor|reflexivity].
  - pose proof (try_new_b_fresh n) as T. destruct (Nat.ltb_spec n 2); [specialize (Hn (or_intror eq_refl)); lia|]. rewrite T. cbn [bind].
    eexists. split; [reflexivity|]. split; [reflexivity|].
    split; [cbn [h_buffer start v_length]; rewrite app_length, repeat_length; cbn [List.length stream_bytes app]; lia|].
    split; [cbn [h_buffer]; eexists; split; [reflexivity|apply zeros_lone]|]. split; [constructor|reflexivity].
Qed.
