(** Lemmas: adaptors around payload iterators. *)
From Coq Require Import NArith List Bool Arith Lia ZifyBool.
From Verif Require Import Base BitOps BitLemmas Message Sysex Splice SpecSysex SpecEdits SysexClient ListLemmas SysexLayout SysexRead SysexNth SysexBridge
  SysexBytes SysexHold SysexInit SysexHistory PropertiesSysex SpliceUnannounced Feed SpecFeed Pipes SpecPipes.
Import ListNotations.
Local Open Scope nat_scope.

(** A payload iterator with [L] left, and whether it takes an [nth] beyond its end. *)
Definition at_root (f : fmt) (it : iter) (L : list N) : Prop :=
  (exists b k, okf f /\ sized f b k /\ cursor f b k it /\ remaining f k it = L) \/ (it_left it = 0 /\ L = []).
Fixpoint root_ok (p : pipe) (L : list N) : Prop :=
  match p with
  | PPackets f it => at_root f it L
  | PBytes it => Forall septet (ib_data it) /\ L = skipn (ib_index it) (ib_data it)
  | PSkip _ q | PTake _ q => root_ok q L
  end.
Fixpoint any_nth (p : pipe) : Prop :=
  match p with
  | PPackets f it => exists b k, okf f /\ sized f b k /\ cursor f b k it /\ k = List.length b / f_words f
  | PBytes it => True
  | PSkip _ q | PTake _ q => any_nth q
  end.
Fixpoint view (p : pipe) (L : list N) : list N :=
  match p with
  | PPackets _ _ | PBytes _ => L
  | PSkip n q => skipn n (view q L)
  | PTake n q => firstn n (view q L)
  end.
Fixpoint allows (p : pipe) (L : list N) (n : nat) : Prop :=
  match p with
  | PPackets _ _ | PBytes _ => n < List.length L \/ any_nth p
  | PSkip m q => allows q L (m + n)
  | PTake m q => if n <? m then allows q L n else m = 0 \/ allows q L (m - 1)
  end.
Fixpoint good (p : pipe) (L : list N) : Prop :=
  match p with
  | PPackets _ _ | PBytes _ => True
  | PSkip n q => good q L /\ (n = 0 \/ allows q L n)
  | PTake _ q => good q L
  end.

Lemma allows_short p L : forall n, n < List.length (view p L) -> allows p L n.
Proof.
  induction p as [f it|it|m q IH|m q IH]; intros n H; cbn [view allows] in *; auto.
  - apply IH. rewrite skipn_length in H. lia.
  - rewrite firstn_length in H. replace (n <? m) with true by lia. apply IH. lia.
Qed.
Lemma allows_any p L : any_nth p -> forall n, allows p L n.
Proof.
  induction p as [f it|it|m q IH|m q IH]; intros H n; cbn [any_nth allows] in *; auto.
  destruct (n <? m); auto.
Qed.

Lemma spent_root f it L : it_left it = 0 -> at_root f it L -> L = [].
Proof.
  intros Z [(b & k & _ & _ & C & R)|[_ R]]; [|exact R]. destruct C as (_ & _ & _ & El). rewrite R in El.
  destruct L; [reflexivity|cbn in El; lia].
Qed.

Lemma nth_error_firstn {A} (l : list A) n m : n < m -> nth_error (firstn m l) n = nth_error l n.
Proof. revert n m. induction l as [|x l IH]; intros [|n] [|m] H; try lia; try reflexivity. cbn. apply IH. lia. Qed.
Lemma nth_error_skipn {A} (l : list A) n m : nth_error (skipn m l) n = nth_error l (m + n).
Proof. revert l. induction m as [|m IH]; intros [|x l]; try reflexivity; cbn [skipn Nat.add nth_error]; [now destruct n|apply IH]. Qed.
Lemma hd_skipn {A} (l : list A) n : hd_error (skipn n l) = nth_error l n.
Proof. revert l. induction n as [|n IH]; intros [|x l]; try reflexivity. cbn. apply IH. Qed.
Lemma tl_skipn {A} (l : list A) n : tl (skipn n l) = skipn (S n) l.
Proof. revert l. induction n as [|n IH]; intros [|x l]; try reflexivity. cbn [skipn]. apply IH. Qed.

Lemma bytes_next it : Forall septet (ib_data it) ->
  ib_next it = Val (nth_error (ib_data it) (ib_index it),
    if List.length (ib_data it) <=? ib_index it then it else {| ib_data := ib_data it; ib_index := S (ib_index it) |}).
Proof.
  intros Hv. unfold ib_next. destruct (Nat.leb_spec (List.length (ib_data it)) (ib_index it)) as [Le|Gt].
  - do 2 f_equal. symmetry. now apply nth_error_None.
  - rewrite idx_nth by lia. cbn [bind]. unfold u7_new. rewrite Forall_forall in Hv.
    pose proof (Hv _ (nth_In (ib_data it) 0%N Gt)) as X. unfold septet in X.
    replace (nth (ib_index it) (ib_data it) 0 <? 128)%N with true by lia. cbn [bind]. do 2 f_equal.
    symmetry. now apply nth_error_nth'.
Qed.

Lemma bytes_nth it n : Forall septet (ib_data it) ->
  exists it', ib_nth it n = Val (nth_error (skipn (ib_index it) (ib_data it)) n, it')
    /\ ib_data it' = ib_data it /\ skipn (ib_index it') (ib_data it') = skipn (S n) (skipn (ib_index it) (ib_data it)).
Proof.
  intros Hv. unfold ib_nth. rewrite bytes_next by exact Hv. cbn [ib_data ib_index]. eexists. split; [now rewrite nth_error_skipn|].
  rewrite skipn_skipn'. destruct (Nat.leb_spec (List.length (ib_data it)) (ib_index it + n)) as [Le|Gt]; cbn [ib_data ib_index].
  - split; [reflexivity|]. rewrite !skipn_all2 by lia. reflexivity.
  - split; [reflexivity|]. f_equal. lia.
Qed.

Lemma nth_step p L : root_ok p L -> good p L -> forall n, allows p L n ->
  exists p' L', pipe_nth p n = Val (nth_error (view p L) n, p') /\ view p' L' = skipn (S n) (view p L) /\ root_ok p' L' /\ good p' L'.
Proof.
  induction p as [f it|it|m q IH|m q IH]; intros R G n A; cbn [root_ok view allows pipe_nth good] in *.
  - destruct (Nat.lt_ge_cases n (List.length L)) as [Lt|Ge].
    + destruct R as [(b & k & H & S & C & Er)|[_ ->]]; [|cbn in Lt; lia]. subst L.
      destruct (nth_in f b k it n H S C Lt) as (it' & E & C' & R'). rewrite E. cbn [bind fst snd].
      exists (PPackets f it'), (remaining f k it'). split; [|split; [exact R'|split; [|exact I]]].
      * do 2 f_equal. symmetry. now apply nth_error_nth'.
      * left. exists b, k. auto.
    + destruct A as [A|(b & k & H & S & C & Ek)]; [lia|].
      assert (EL : List.length (remaining f k it) <= n).
      { destruct C as (_ & _ & _ & El). destruct R as [(b2 & k2 & _ & _ & C2 & R2)|[Z ->]]; [|rewrite <- El, Z; lia].
        destruct C2 as (_ & _ & _ & El2). rewrite R2 in El2. lia. }
      rewrite (nth_past f b k it n H S Ek C EL). cbn [bind fst snd].
      exists (PPackets f (it_exhausted it)), []. split; [|split; [|split; [|exact I]]].
      * do 2 f_equal. symmetry. now apply nth_error_None.
      * cbn [view]. now rewrite skipn_all2 by lia.
      * right. split; reflexivity.
  - destruct R as [Hv ->]. destruct (bytes_nth it n Hv) as (it' & E & D & V). rewrite E. cbn [bind fst snd].
    exists (PBytes it'), (skipn (ib_index it') (ib_data it')). split; [reflexivity|]. split; [exact V|]. split; [|exact I].
    split; [now rewrite D|reflexivity].
  - destruct (IH R (proj1 G) (m + n) A) as (q' & L' & E & V & R' & G'). rewrite E. cbn [bind fst snd].
    exists (PSkip 0 q'), L'. split; [now rewrite nth_error_skipn|]. split; [|split; [exact R'|split; [exact G'|now left]]].
    cbn [view]. change (skipn 0 (view q' L')) with (view q' L'). rewrite V, skipn_skipn'. f_equal. lia.
  - destruct (Nat.ltb_spec n m) as [Lt|Ge].
    + destruct (IH R G n A) as (q' & L' & E & V & R' & G'). rewrite E. cbn [bind fst snd].
      exists (PTake (m - n - 1) q'), L'. split; [now rewrite nth_error_firstn by lia|]. split; [|auto].
      cbn [view]. rewrite V, skipn_firstn_comm. f_equal. lia.
    + assert (X : nth_error (firstn m (view q L)) n = None) by (apply nth_error_None; rewrite firstn_length; lia).
      assert (Y : skipn (S n) (firstn m (view q L)) = []) by (apply skipn_all2; rewrite firstn_length; lia).
      destruct (Nat.eqb_spec m 0) as [->|Nz].
      * exists (PTake 0 q), L. rewrite X, Y. auto.
      * destruct A as [A|A]; [lia|]. destruct (IH R G (m - 1) A) as (q' & L' & E & V & R' & G'). rewrite E. cbn [bind fst snd].
        exists (PTake 0 q'), L'. rewrite X, Y. auto.
Qed.

Lemma next_step p L : root_ok p L -> good p L ->
  exists p' L', pipe_next p = Val (hd_error (view p L), p') /\ view p' L' = tl (view p L) /\ root_ok p' L' /\ good p' L'.
Proof.
  induction p as [f it|it|m q IH|m q IH]; intros R G; cbn [root_ok view pipe_next good] in *.
  - assert (Spent : it_left it = 0 -> L = [] -> exists p' L', (r <- it_next f it ;; Val (fst r, PPackets f (snd r))) = Val (hd_error L, p')
      /\ view p' L' = tl L /\ root_ok p' L' /\ good p' L').
    { intros Z ->. unfold it_next. rewrite Z. cbn [Nat.eqb bind fst snd]. exists (PPackets f it), [].
      split; [reflexivity|]. split; [reflexivity|]. split; [right; auto|exact I]. }
    destruct R as [(b & k & H & S & C & Er)|[Z Er]]; [|auto].
    destruct (Nat.eq_dec (it_left it) 0) as [Z|Nz].
    { apply Spent; [exact Z|]. destruct C as (_ & _ & _ & El). rewrite Er in El. destruct L; [reflexivity|cbn in El; lia]. }
    pose proof (next_ok f b k it H S C) as X. rewrite Er in X. destruct L as [|v t].
    { destruct C as (_ & _ & _ & El). rewrite Er in El. cbn in El. lia. }
    destruct X as (it' & E & C' & R'). rewrite E. cbn [bind fst snd hd_error tl].
    exists (PPackets f it'), t. split; [reflexivity|]. split; [reflexivity|]. split; [left; exists b, k; auto|exact I].
  - destruct R as [Hv ->]. rewrite bytes_next by exact Hv. cbn [bind fst snd]. rewrite hd_skipn, tl_skipn. eexists (PBytes _), _.
    split; [reflexivity|]. cbn [view root_ok good]. split; [reflexivity|]. split; [|exact I].
    destruct (Nat.leb_spec (List.length (ib_data it)) (ib_index it)); cbn [ib_data ib_index]; split; auto.
    rewrite !skipn_all2 by lia. reflexivity.
  - destruct G as [G A]. destruct (Nat.eqb_spec m 0) as [->|Nz].
    + destruct (IH R G) as (q' & L' & E & V & R' & G'). rewrite E. cbn [bind fst snd].
      exists (PSkip 0 q'), L'. split; [reflexivity|]. split; [exact V|]. split; [exact R'|]. split; [exact G'|now left].
    + destruct A as [A|A]; [lia|]. destruct (nth_step q L R G m A) as (q' & L' & E & V & R' & G'). rewrite E. cbn [bind fst snd].
      exists (PSkip 0 q'), L'. split; [now rewrite hd_skipn|]. split; [rewrite tl_skipn; exact V|].
      split; [exact R'|]. split; [exact G'|now left].
  - destruct (Nat.eqb_spec m 0) as [->|Nz].
    + exists (PTake 0 q), L. auto.
    + destruct (IH R G) as (q' & L' & E & V & R' & G'). rewrite E. cbn [bind fst snd].
      exists (PTake (m - 1) q'), L'. destruct m as [|m]; [lia|]. replace (S m - 1) with m by lia.
      cbn [view]. rewrite V. destruct (view q L); cbn [firstn hd_error tl]; rewrite ?firstn_nil; auto.
Qed.

(** Whole streams *)
Fixpoint flows (s : stream) (l : list N) : Prop :=
  match s with
  | SOf p => exists L, root_ok p L /\ good p L /\ view p L = l
  | SMap g q => exists l0, flows q l0 /\ l = map g l0
  | SChain None q => flows q l
  | SChain (Some a) q => exists l1 l2, flows a l1 /\ flows q l2 /\ l = l1 ++ l2
  end.
Fixpoint flow_next (s : stream) : forall l, flows s l -> exists s', stream_next s = Val (hd_error l, s') /\ flows s' (tl l).
Proof.
  destruct s as [p|g q|[a|] q]; intros l F; cbn [flows stream_next] in *.
  - destruct F as (L & R & G & <-). destruct (next_step p L R G) as (p' & L' & E & V & R' & G'). rewrite E. cbn [bind fst snd].
    exists (SOf p'). split; [reflexivity|]. exists L'. auto.
  - destruct F as (l0 & F & ->). destruct (flow_next q l0 F) as (q' & E & F'). rewrite E. cbn [bind fst snd].
    exists (SMap g q'). split; [now destruct l0|]. exists (tl l0). split; [exact F'|now destruct l0].
  - destruct F as (l1 & l2 & F1 & F2 & ->). destruct (flow_next a l1 F1) as (a' & E & F'). rewrite E. cbn [bind].
    destruct l1 as [|v t]; cbn [hd_error tl app] in *.
    + destruct (flow_next q l2 F2) as (q' & E2 & F2'). rewrite E2. cbn [bind fst snd]. exists (SChain None q'). auto.
    + exists (SChain (Some a') q). split; [reflexivity|]. exists t, l2. auto.
  - destruct (flow_next q l F) as (q' & E & F'). rewrite E. cbn [bind fst snd]. exists (SChain None q'). auto.
Qed.
Lemma flow_answers : forall k s l, flows s l -> nth_answer s k = Val (nth_error l k).
Proof.
  induction k as [|k IH]; intros s l F; destruct (flow_next s l F) as (s' & E & F'); cbn [nth_answer]; rewrite E; cbn [bind fst snd].
  - now destruct l.
  - rewrite (IH s' _ F'). destruct l; [now destruct k|reflexivity].
Qed.

(** Opening *)
Lemma open_cut_ok c : forall l, cut_reads c l -> exists p L, open_cut c = Val p /\ root_ok p L /\ good p L /\ view p L = l /\ (snug c -> any_nth p).
Proof.
  induction c as [fm b|b|n c IH|n c IH]; intros l R; cbn [cut_reads open_cut snug] in *.
  - destruct R as (k & g & s & C). pose proof (carries_size _ _ _ _ _ _ C) as Sz.
    pose proof (carries_sized _ _ _ _ _ _ C) as S0. rewrite <- words_of in Sz.
    destruct (payload_at (fmt_of fm) b k (okf_of fm) S0 Sz) as (P & Cu & R).
    pose proof (ca_payload _ _ _ _ _ _ C) as El. rewrite payload_span in El.
    change (fmt_for fm) with (fmt_of fm). rewrite P. cbn [bind]. eexists (PPackets _ _), l. split; [reflexivity|].
    cbn [root_ok good view any_nth]. split; [left; exists b, k; split; [apply okf_of|]; split; [exact S0|]; split; [exact Cu|congruence]|].
    split; [exact I|]. split; [reflexivity|]. intros Sn. exists b, k. split; [apply okf_of|]. split; [exact S0|]. split; [exact Cu|].
    rewrite (Sn _ _ _ _ C), words_of, Nat.mul_comm, Nat.div_mul; [reflexivity|destruct fm; cbn; lia].
  - destruct R as (r & -> & Hl). pose proof (septets_no_end l Hl) as Ne. destruct (septet_reads l r Ne) as (D & Z & _).
    unfold payload_b. rewrite D. cbn [bind]. rewrite stream_bytes_length. unfold sub_chk.
    replace (List.length l + 2 <? 1) with false by lia. cbn [bind].
    replace (List.length l + 2 - 1) with (S (List.length l)) by lia.
    replace ((S (List.length l) <? 1) || (List.length (stream_bytes l ++ r) <? S (List.length l))) with false
      by (rewrite app_length, stream_bytes_length; lia).
    replace (S (List.length l) - 1) with (List.length l) by lia.
    assert (X : firstn (List.length l) (skipn 1 (stream_bytes l ++ r)) = l).
    { unfold stream_bytes. cbn [app skipn]. rewrite <- app_assoc, firstn_app, Nat.sub_diag, firstn_all.
      cbn [firstn]. apply app_nil_r. }
    rewrite X. cbn [bind]. eexists (PBytes _), l. split; [reflexivity|]. cbn [root_ok good view any_nth ib_data ib_index skipn]. auto.
  - destruct R as (l0 & R & -> & Sk). destruct (IH l0 R) as (p & L & E & Rt & G & V & An). rewrite E. cbn [bind].
    exists (PSkip n p), L. split; [reflexivity|]. cbn [root_ok good view any_nth]. split; [exact Rt|]. split; [|split; [now rewrite V|exact An]].
    split; [exact G|]. destruct Sk as [->|[Lt|Sn]]; [now left|right; apply allows_short; now rewrite V|right; apply allows_any; auto].
  - destruct R as (l0 & R & ->). destruct (IH l0 R) as (p & L & E & Rt & G & V & An). rewrite E. cbn [bind].
    exists (PTake n p), L. split; [reflexivity|]. cbn [root_ok good view any_nth]. split; [exact Rt|]. split; [exact G|]. split; [now rewrite V|exact An].
Qed.
Lemma open_ok p : forall l, reads p l -> exists s, open_pipe p = Val s /\ flows s l.
Proof.
  induction p as [c|g q IH|q1 IH1 q2 IH2]; intros l R; cbn [reads open_pipe] in *.
  - destruct (open_cut_ok c l R) as (p & L & E & Rt & G & V & _). rewrite E. cbn [bind]. exists (SOf p). split; [reflexivity|]. exists L. auto.
  - destruct R as (l0 & R & ->). destruct (IH l0 R) as (s & E & F). rewrite E. cbn [bind]. exists (SMap g s). split; [reflexivity|]. exists l0. auto.
  - destruct R as (l1 & l2 & R1 & R2 & ->). destruct (IH1 l1 R1) as (s1 & E1 & F1). destruct (IH2 l2 R2) as (s2 & E2 & F2). rewrite E1, E2. cbn [bind].
    exists (SChain (Some s1) s2). split; [reflexivity|]. exists l1, l2. auto.
Qed.

(** Announcements *)
Fixpoint pipe_packets (p : pipe) : Prop :=
  match p with PPackets _ _ => True | PBytes _ => False | PSkip _ q | PTake _ q => pipe_packets q end.
Lemma pipe_hint_exact p L : root_ok p L -> pipe_packets p -> pipe_hint p = (List.length (view p L), Some (List.length (view p L))).
Proof.
  induction p as [f it|it|m q IH|m q IH]; intros R K; cbn [root_ok view pipe_hint pipe_packets] in *.
  - unfold it_len. assert (E : it_left it = List.length L); [|now rewrite E].
    destruct R as [(b & k & _ & _ & C & Er)|[Z ->]]; [|exact Z]. destruct C as (_ & _ & _ & El). now rewrite <- Er.
  - contradiction.
  - rewrite (IH R K), skipn_length. reflexivity.
  - destruct (Nat.eqb_spec m 0) as [->|Nz]; [reflexivity|]. rewrite (IH R K), firstn_length. f_equal; [lia|]. f_equal.
    destruct (Nat.ltb_spec (List.length (view q L)) m); lia.
Qed.
Fixpoint stream_packets (s : stream) : Prop :=
  match s with SOf p => pipe_packets p | SMap _ q => stream_packets q | SChain None q => stream_packets q
  | SChain (Some a) q => stream_packets a /\ stream_packets q end.
Fixpoint stream_hint_exact (s : stream) : forall l, flows s l -> stream_packets s -> stream_hint s = (List.length l, Some (List.length l)).
Proof.
  destruct s as [p|g q|[a|] q]; intros l F K; cbn [flows stream_hint stream_packets] in *.
  - destruct F as (L & R & _ & <-). now apply pipe_hint_exact.
  - destruct F as (l0 & F & ->). rewrite map_length. now apply stream_hint_exact.
  - destruct F as (l1 & l2 & F1 & F2 & ->). destruct K as [K1 K2]. rewrite (stream_hint_exact a l1 F1 K1), (stream_hint_exact q l2 F2 K2).
    now rewrite app_length.
  - now apply stream_hint_exact.
Qed.
Lemma open_packets p : forall s, of_packets p -> open_pipe p = Val s -> stream_packets s.
Proof.
  assert (Cut : forall c q, cut_of_packets c -> open_cut c = Val q -> pipe_packets q).
  { induction c as [fm b|b|n c IH|n c IH]; intros q K E; cbn [cut_of_packets open_cut] in *; try contradiction.
    - destruct (payload (fmt_for fm) b); cbn [bind] in E; [|discriminate]. injection E as <-. exact I.
    - destruct (open_cut c); cbn [bind] in E; [|discriminate]. injection E as <-. cbn. auto.
    - destruct (open_cut c); cbn [bind] in E; [|discriminate]. injection E as <-. cbn. auto. }
  induction p as [c|g q IH|q1 IH1 q2 IH2]; intros s K E; cbn [of_packets open_pipe] in *.
  - destruct (open_cut c) eqn:Ec; cbn [bind] in E; [|discriminate]. injection E as <-. cbn. eauto.
  - destruct (open_pipe q); cbn [bind] in E; [|discriminate]. injection E as <-. cbn. auto.
  - destruct K as [K1 K2]. destruct (open_pipe q1); cbn [bind] in E; [|discriminate]. destruct (open_pipe q2); cbn [bind] in E; [|discriminate].
    injection E as <-. cbn. auto.
Qed.
