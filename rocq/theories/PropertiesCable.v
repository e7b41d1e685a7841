(** C72: MIDI 1.0 messages arrive over a cable, byte by byte, with running status and with real-time messages
    anywhere, also inside other messages.  A client that asks [BytesMessage::try_from] after each byte whether the bytes
    held are a message gets exactly the messages sent, each with its last byte. *)
From Coq Require Import NArith List String Bool Arith Lia ZifyBool ZifyNat ZifyN.
From Verif Require Import Base BitOps BitLemmas ListLemmas Values Props Message MessageTable SpecLayout Sysex SpecSysex
  Aggregate SpecAggregate AggregateLemmas AggregateMore PropertiesAggregate StreamClient SpecStream StreamLemmas SpecJoin PropertiesJoin SpecCable CableClient.
Import ListNotations.
Local Open Scope list_scope.
Local Open Scope nat_scope.

(** ** What the library is relied on for *)

(** The whole message is one, ... *)
Lemma heard_whole m : streamed m -> heard_in (snd m) = Val [m].
Proof.
  destruct m as [c d]. intros (T & [A D] & W & _). cbn [fst snd] in *. unfold heard_in.
  rewrite (proj2 (bytes_iff d c d W) (conj T (conj A eq_refl))). cbn [bind]. unfold agg_data. cbn [fst snd]. now rewrite D.
Qed.

(** ... and nothing shorter is. *)
Lemma heard_part m p q : streamed m -> snd m = p ++ q -> q <> [] -> heard_in p = Val [].
Proof.
  destruct m as [c d]. intros (T & [A D] & W & _) E Q. cbn [fst snd] in *. subst d.
  assert (Wp : wf_buf U8 p) by (now apply Forall_app in W). unfold heard_in.
  destruct (bytes_total p Wp) as ([[c' p']|e] & P); rewrite P; cbn [bind]; [|reflexivity]. exfalso.
  apply (bytes_iff p c' p' Wp) in P as (T' & A' & ->). destruct (bytes_data_ok c' p T' A') as (d & D').
  destruct (bytes_trim c' p d T' Wp A' D') as [A2 D2]. destruct (data_prefix U8 c' p d D') as [(t & E) _]. subst p.
  assert (Wd : wf_buf U8 d) by (apply Forall_app in Wp; tauto).
  assert (R1 : bytes_try_from ((d ++ t) ++ q) = Val (Ok (c', (d ++ t) ++ q))).
  { apply bytes_iff; [exact W|]. split; [exact T'|]. split; [|reflexivity]. now apply bytes_extend. }
  assert (R2 : bytes_try_from ((d ++ t) ++ q) = Val (Ok (c, (d ++ t) ++ q))).
  { apply bytes_iff; [exact W|]. auto. }
  assert (c' = c) by congruence. subst c'.
  pose proof (proj2 (data_prefix U8 c d d D2)) as X. rewrite <- app_assoc in D. rewrite X in D.
  assert (Y : d = d ++ t ++ q) by congruence. apply (f_equal (@List.length N)) in Y. rewrite !app_length in Y.
  destruct q; [easy|]. cbn in Y. lia.
Qed.

(** What is left of a message is none. *)
Lemma heard_unheard l : unheard l -> heard_in l = Val [].
Proof.
  intros U. assert (W : wf_buf U8 l) by (eapply Forall_impl; [|exact U]; cbn; lia). unfold heard_in.
  destruct (bytes_total l W) as ([[c p]|e] & P); rewrite P; cbn [bind]; [|reflexivity]. exfalso.
  apply (bytes_iff l c p W) in P as (T & A & ->). destruct l as [|s l]; [now apply (bytes_nonempty c [] T A)|].
  apply wf_cons in W as [Hs _]. pose proof (status_first c s l Hs T A). inversion U. lia.
Qed.

(** Channel messages have data. *)
Lemma channel_data m : streamed m -> (first_byte m < 0xF0)%N -> tl (snd m) <> [].
Proof.
  destruct m as [c [|s t]]; [now intros (_ & _ & _ & [])|]. intros (T & [A _] & W & _) F E. cbn [fst snd tl first_byte hd] in *. subst t.
  apply wf_cons in W as [Hs _]. pose proof (byte_key c s [] Hs T A) as K. apply (byte_accepts s [] c K) in A.
  unfold first_byte in F. cbn [snd hd] in F.
  assert (X : forallb (fun s => match byte_select (N.of_nat s) with Some (CFixed m) => 2 <=? min_size U8 m | Some CSysex7 => false | _ => true end) (seq 0 240) = true)
    by (vm_compute; reflexivity).
  rewrite forallb_forall in X. specialize (X (N.to_nat s)). rewrite N2Nat.id, K in X.
  destruct c as [m| | | |]; cbn [enough List.length] in A.
  - assert (2 <=? min_size U8 m = true) by (apply X, in_seq; lia). lia.
  - exfalso. assert (false = true) by (apply X, in_seq; lia). discriminate.
  - exfalso. destruct T as [T|T]; [discriminate|]. apply in_map_iff in T as (? & Z & _). discriminate Z.
  - exfalso. destruct T as [T|T]; [discriminate|]. apply in_map_iff in T as (? & Z & _). discriminate Z.
  - exfalso. destruct T as [T|T]; [discriminate|]. apply in_map_iff in T as (? & Z & _). discriminate Z.
Qed.

Lemma real_time_heard x : (248 <= x < 256)%N ->
  if assigned x then exists m, heard_in [x] = Val [m] /\ snd m = [x] /\ In (fst m) byte_types /\ whole U8 m
  else heard_in [x] = Val [].
Proof.
  intros H. assert (C : (x = 248 \/ x = 249 \/ x = 250 \/ x = 251 \/ x = 252 \/ x = 253 \/ x = 254 \/ x = 255)%N) by lia.
  destruct C as [->|[->|[->|[->|[->|[->|[->| ->]]]]]]]; cbn [assigned existsb N.eqb Pos.eqb orb]; try (vm_compute; reflexivity);
    (eexists; split; [vm_compute; reflexivity|split; [reflexivity|split; [vm_compute; tauto|split; vm_compute; reflexivity]]]).
Qed.

(** ** The client *)

Lemma run_app c w1 w2 : cable_run c (w1 ++ w2)
  = (r <- cable_run c w1 ;; r' <- cable_run (fst r) w2 ;; Val (fst r', snd r ++ snd r')).
Proof.
  revert c. induction w1 as [|x w1 IH]; intros c; cbn [app cable_run bind].
  - cbn [fst snd app]. destruct (cable_run c w2) as [[c' o]|]; reflexivity.
  - destruct (cable_feed c x) as [[c1 o1]|]; cbn [bind fst snd]; [|reflexivity]. rewrite IH.
    destruct (cable_run c1 w1) as [[c2 o2]|]; cbn [bind fst snd]; [|reflexivity].
    destruct (cable_run c2 w2) as [[c3 o3]|]; cbn [bind fst snd]; [|reflexivity]. now rewrite app_assoc.
Qed.

Definition data_byte (x : N) : Prop := (x < 128 \/ x = 0xF7)%N.

(** A data byte behind what is held. *)
Lemma feed_data r h x : data_byte x -> h <> [] -> cable_feed {| c_status := r; c_held := h |} x
  = (out <- heard_in (h ++ [x]) ;; Val ({| c_status := r; c_held := match out with [] => h ++ [x] | _ => [] end |}, out)).
Proof.
  intros Hx Hh. unfold cable_feed. replace (248 <=? x)%N with false by (destruct Hx; lia).
  replace ((128 <=? x) && negb (x =? 247))%N with false by (destruct Hx; lia). cbn [c_status c_held].
  destruct h as [|y h]; [easy|]. destruct (heard_in ((y :: h) ++ [x])) as [[|m out]|]; reflexivity.
Qed.

Lemma run_part m r : streamed m -> forall p h q, h <> [] -> snd m = h ++ p ++ q -> q <> [] -> Forall data_byte p ->
  cable_run {| c_status := r; c_held := h |} p = Val ({| c_status := r; c_held := h ++ p |}, []).
Proof.
  intros S0. induction p as [|x p IH]; intros h q Hh E Q F; cbn [cable_run]; [now rewrite app_nil_r|].
  inversion F as [|? ? Fx Fp]; subst. rewrite feed_data by assumption.
  assert (E2 : snd m = (h ++ [x]) ++ p ++ q) by (rewrite E, <- app_assoc; reflexivity).
  assert (Q2 : p ++ q <> []) by (destruct p; [exact Q|discriminate]).
  rewrite (heard_part m (h ++ [x]) (p ++ q) S0 E2 Q2).
  cbn [bind fst snd]. assert (H2 : h ++ [x] <> []) by now destruct h. rewrite (IH (h ++ [x]) q H2 E2 Q Fp).
  cbn [bind fst snd app]. now rewrite <- app_assoc.
Qed.

Lemma run_rest m r h p : streamed m -> h <> [] -> snd m = h ++ p -> p <> [] -> Forall data_byte p ->
  cable_run {| c_status := r; c_held := h |} p = Val ({| c_status := r; c_held := [] |}, [m]).
Proof.
  intros S0 Hh E P F. destruct (exists_last P) as (p' & x & ->). apply Forall_app in F as [F1 F2]. inversion F2 as [|? ? Fx _]; subst.
  rewrite run_app. rewrite (run_part m r S0 p' h [x]) by (auto; discriminate). cbn [bind fst snd cable_run].
  rewrite feed_data by (auto; now destruct h). rewrite <- app_assoc, <- E, heard_whole by exact S0. reflexivity.
Qed.

(** The status byte of a message. *)
Lemma feed_status c m s t : streamed m -> snd m = s :: t -> (s < 248)%N ->
  cable_feed c s = Val (match t with [] => ({| c_status := running_after m; c_held := [] |}, [m])
                                   | _ => ({| c_status := running_after m; c_held := [s] |}, []) end).
Proof.
  intros S0 E Hs. unfold cable_feed. replace (248 <=? s)%N with false by lia.
  assert (X : (128 <= s /\ s <> 247)%N).
  { destruct m as [ty b]. cbn [snd] in E. subst b. destruct S0 as (T & [A _] & W & _). cbn [fst snd] in *.
    apply wf_cons in W as [Hs' _]. exact (status_first ty s t Hs' T A). }
  replace ((128 <=? s) && negb (s =? 247))%N with true by lia. cbn [c_held c_status].
  unfold running_after, first_byte. rewrite E. cbn [hd]. destruct t as [|y t].
  - rewrite <- E, heard_whole by exact S0. reflexivity.
  - rewrite (heard_part m [s] (y :: t)) by (auto; discriminate). reflexivity.
Qed.

Lemma streamed_parts m : streamed m -> exists s t, snd m = s :: t /\ Forall data_byte t.
Proof. destruct m as [c [|s t]]; intros (_ & _ & _ & O); [easy|]. exists s, t. auto. Qed.

(** Whether the client can take a message with its status left out. *)
Definition ready (running : option N) (c : cable_end) : Prop :=
  match running with Some s => (s < 0xF0)%N /\ c = {| c_status := Some s; c_held := [] |} | None => True end.

Lemma run_message running short m c n : streamed m -> (first_byte m < 248)%N -> ready running c ->
  if List.length (on_cable running short m) <=? n
  then cable_run c (on_cable running short m) = Val ({| c_status := running_after m; c_held := [] |}, [m])
  else exists c', cable_run c (firstn n (on_cable running short m)) = Val (c', []).
Proof.
  intros S0 F R. destruct (streamed_parts m S0) as (s & t & E & D).
  assert (Fs : first_byte m = s) by (unfold first_byte; now rewrite E).
  assert (Full : if List.length (snd m) <=? n
    then cable_run c (snd m) = Val ({| c_status := running_after m; c_held := [] |}, [m])
    else exists c', cable_run c (firstn n (snd m)) = Val (c', [])).
  { destruct (Nat.leb_spec (List.length (snd m)) n) as [L|L]; rewrite E in *.
    - cbn [cable_run]. rewrite (feed_status c m s t S0 E) by lia. destruct t as [|y t]; [reflexivity|]. cbn [bind fst snd app].
      rewrite (run_rest m (running_after m) [s] (y :: t)) by (auto; discriminate). reflexivity.
    - destruct n as [|n]; [exists c; reflexivity|]. cbn [firstn cable_run List.length] in *.
      rewrite (feed_status c m s t S0 E) by lia. destruct t as [|y t]; [cbn in L; lia|]. cbn [bind fst snd app].
      rewrite (run_part m (running_after m) S0 (firstn n (y :: t)) [s] (skipn n (y :: t))).
      + cbn [bind fst snd]. eauto.
      + discriminate.
      + cbn [app]. now rewrite firstn_skipn.
      + intros Z. apply (f_equal (@List.length N)) in Z. rewrite skipn_length in Z. cbn [List.length] in *. lia.
      + rewrite Forall_forall in *. intros x Hx. apply D. rewrite <- (firstn_skipn n). apply in_app_iff. now left. }
  unfold on_cable. destruct running as [s'|]; [|exact Full]. destruct short; cbn [andb]; [|exact Full].
  destruct (N.eqb_spec (first_byte m) s') as [E'|_]; [|exact Full]. clear Full. cbn [ready] in R.
  destruct R as [Rs ->].
  assert (Ru : running_after m = Some s') by (unfold running_after; rewrite E'; now replace (s' <? 240)%N with true by lia).
  assert (T : tl (snd m) <> []) by (apply channel_data; [exact S0|lia]). rewrite Ru. rewrite E in *. cbn [tl] in *.
  replace s' with s in * by congruence. clear E'.
  (* the first byte is taken as if the status were held *)
  assert (X : forall p, p <> [] -> Forall data_byte p -> cable_run {| c_status := Some s; c_held := [] |} p = cable_run {| c_status := Some s; c_held := [s] |} p).
  { intros [|x p] P Fp; [easy|]. cbn [cable_run]. pose proof (Forall_inv Fp) as Fx. rewrite (feed_data (Some s) [s] x Fx) by discriminate.
    unfold cable_feed. replace (248 <=? x)%N with false by (destruct Fx; lia).
    replace ((128 <=? x) && negb (x =? 247))%N with false by (destruct Fx; lia). cbn [c_status c_held].
    destruct (heard_in ([s] ++ [x])) as [[|m' out]|]; reflexivity. }
  destruct (Nat.leb_spec (List.length t) n) as [L|L].
  - rewrite X by auto. now apply (run_rest m (Some s) [s] t).
  - destruct n as [|n]; [eexists; reflexivity|].
    assert (Ft : Forall data_byte (firstn (S n) t)).
    { rewrite Forall_forall in *. intros x Hx. apply D. rewrite <- (firstn_skipn (S n)). apply in_app_iff. now left. }
    assert (Pt : firstn (S n) t <> []) by (destruct t; [easy|discriminate]). rewrite X by assumption.
    rewrite (run_part m (Some s) S0 (firstn (S n) t) [s] (skipn (S n) t)); [eauto|discriminate| | |exact Ft].
    + rewrite E. cbn [app]. now rewrite firstn_skipn.
    + intros Z. apply (f_equal (@List.length N)) in Z. rewrite skipn_length in Z. cbn [List.length] in Z. lia.
Qed.

Lemma run_cable : forall sent running c n, Forall (fun e => streamed (snd e) /\ (first_byte (snd e) < 248)%N) sent -> ready running c ->
  exists c', cable_run c (firstn n (cable running sent)) = Val (c', completed running n sent).
Proof.
  induction sent as [|[short m] sent IH]; intros running c n H R; cbn [cable completed]; [rewrite firstn_nil; eexists; reflexivity|].
  inversion H as [|? ? [S0 F] H']; subst. cbn [snd] in *. rewrite firstn_app, run_app.
  pose proof (run_message running short m c n S0 F R) as M.
  destruct (Nat.leb_spec (List.length (on_cable running short m)) n) as [L|L].
  - rewrite firstn_all2 by exact L. rewrite M. cbn [bind fst snd].
    destruct (IH (running_after m) {| c_status := running_after m; c_held := [] |} (n - List.length (on_cable running short m)) H') as (c' & E).
    { unfold ready, running_after. destruct (N.ltb_spec (first_byte m) 240); auto. }
    rewrite E. cbn [bind fst snd app]. eauto.
  - destruct M as (c' & M). rewrite M. replace (n - _) with 0 by lia. cbn [firstn cable_run bind fst snd app]. eauto.
Qed.

(** What is left of a message in front. *)
Lemma run_unheard : forall l h, unheard (h ++ l) -> exists h', cable_run {| c_status := None; c_held := h |} l = Val ({| c_status := None; c_held := h' |}, []).
Proof.
  induction l as [|x l IH]; intros h U; cbn [cable_run]; [eauto|].
  assert (Fx : data_byte x) by (apply Forall_app in U as [_ U]; now inversion U).
  assert (U1 : unheard (h ++ [x])).
  { apply Forall_app in U as [U1 U2]. apply Forall_app. split; [exact U1|]. constructor; [exact Fx|constructor]. }
  assert (E : cable_feed {| c_status := None; c_held := h |} x = Val ({| c_status := None; c_held := h ++ [x] |}, [])).
  { unfold cable_feed. replace (248 <=? x)%N with false by (destruct Fx; lia).
    replace ((128 <=? x) && negb (x =? 247))%N with false by (destruct Fx; lia). cbn [c_status c_held].
    replace (match h with [] => [] | y :: h => y :: h end) with h by now destruct h. rewrite heard_unheard by exact U1. reflexivity. }
  rewrite E. cbn [bind fst snd]. destruct (IH (h ++ [x])) as (h' & ->); [now rewrite <- app_assoc|]. cbn [bind fst snd app]. eauto.
Qed.

(** Real-time bytes change nothing else. *)
Lemma run_real_time : forall w c c' out, Forall (fun x => x < 256)%N w ->
  cable_run c (filter (fun x => negb (real_time x)) w) = Val (c', out) -> Forall (fun m => (first_byte m < 248)%N) out ->
  exists all, cable_run c w = Val (c', all)
    /\ filter (fun m => negb (real_time (first_byte m))) all = out
    /\ map snd (filter (fun m => real_time (first_byte m)) all) = map (fun x => [x]) (filter assigned w)
    /\ Forall (fun m => real_time (first_byte m) = true -> In (fst m) byte_types /\ whole U8 m) all.
Proof.
  induction w as [|x w IH]; intros c c' out W R F.
  - cbn in R. injection R as <- <-. exists []. cbn. auto.
  - inversion W as [|? ? Hx W']; subst. cbn [filter] in R. destruct (real_time x) eqn:X; cbn [negb] in R.
    + unfold real_time in X. destruct (IH c c' out W' R F) as (all & E & F1 & F2 & F3).
      cbn [cable_run]. assert (Y : cable_feed c x = (o <- heard_in [x] ;; Val (c, o))) by (unfold cable_feed; now rewrite X).
      pose proof (real_time_heard x ltac:(lia)) as H. cbn [filter]. destruct (assigned x) eqn:As.
      * destruct H as (m & H & Em & Tm & Wm). rewrite H in Y. cbn [bind] in Y. rewrite Y. cbn [bind fst snd]. rewrite E. cbn [bind fst snd app].
        assert (Fm : first_byte m = x) by (unfold first_byte; now rewrite Em).
        exists (m :: all). split; [reflexivity|]. cbn [filter map]. rewrite Fm. change (real_time x) with (248 <=? x)%N. rewrite X. cbn [negb map].
        split; [exact F1|]. split; [now rewrite Em, F2|]. constructor; auto.
      * rewrite H in Y. cbn [bind] in Y. rewrite Y. cbn [bind fst snd]. rewrite E. cbn [bind fst snd app]. exists all. auto.
    + unfold real_time in X. cbn [cable_run] in *. destruct (cable_feed c x) as [[c1 o1]|]; cbn [bind fst snd] in *; [|discriminate].
      destruct (cable_run c1 (filter _ w)) as [[c2 o2]|] eqn:E; cbn [bind fst snd] in *; [|discriminate]. injection R as <- <-.
      apply Forall_app in F as [Fo1 Fo2]. destruct (IH c1 c2 o2 W' E Fo2) as (all & E' & F1 & F2 & F3). rewrite E'. cbn [bind fst snd].
      assert (A : assigned x = false).
      { unfold assigned. apply not_true_is_false. intros Z. apply existsb_exists in Z as (y & Iy & Ey). apply N.eqb_eq in Ey. subst y.
        cbn in Iy. intuition lia. }
      assert (P : forall l, Forall (fun m => (first_byte m < 248)%N) l -> filter (fun m => negb (real_time (first_byte m))) l = l
                  /\ filter (fun m => real_time (first_byte m)) l = []).
      { clear. induction 1 as [|m l H _ [I1 I2]]; [auto|]. cbn [filter].
        assert (Z : real_time (first_byte m) = false) by (unfold real_time; lia). rewrite Z. cbn [negb]. now rewrite I1, I2. }
      destruct (P o1 Fo1) as [P1 P2].
      exists (o1 ++ all). split; [reflexivity|]. rewrite !filter_app, P1, P2, F1. split; [reflexivity|]. cbn [filter]. rewrite A. split; [exact F2|].
      apply Forall_app. split; [|exact F3]. eapply Forall_impl; [|exact Fo1]. cbn. unfold real_time. intros m Hm1 Hm2. lia.
Qed.

Lemma completed_forall (P : aggregate -> Prop) : forall sent running n, Forall (fun e => P (snd e)) sent -> Forall P (completed running n sent).
Proof.
  induction sent as [|[short m] sent IH]; intros running n H; cbn [completed]; [constructor|]. inversion H; subst.
  destruct (_ <=? n); [constructor; auto|constructor].
Qed.

(** ** The theorem *)

(** [w]: all that was heard so far, real-time bytes anywhere.  [late]: the rest of a message that was under way when the client
    began to listen; empty if it was there from the beginning.  The client has the messages completed so far, and no
    others, and all the real-time messages. *)
Theorem C72_cable : forall sent late n w,
  Forall (fun e => In (fst (snd e)) byte_types /\ whole U8 (snd e) /\ wf_buf U8 (snd (snd e)) /\ one_status (snd (snd e))
                   /\ real_time (first_byte (snd e)) = false) sent ->
  unheard late -> wf_buf U8 w ->
  filter (fun x => negb (real_time x)) w = late ++ firstn n (cable None sent) ->
  exists c out, cable_run cable_start w = Val (c, out)
    /\ filter (fun m => negb (real_time (first_byte m))) out = completed None n sent
    /\ map snd (filter (fun m => real_time (first_byte m)) out) = map (fun x => [x]) (filter assigned w)
    /\ Forall (fun m => In (fst m) byte_types /\ whole U8 m) out.
Proof.
  intros sent late n w H U W E.
  assert (H1 : Forall (fun e => streamed (snd e) /\ (first_byte (snd e) < 248)%N) sent).
  { eapply Forall_impl; [|exact H]. cbn. unfold streamed, real_time. intros a (A1 & A2 & A3 & A4 & A5). split; [auto|]. apply N.leb_gt in A5. exact A5. }
  destruct (run_unheard late [] U) as (h' & R1). fold cable_start in R1.
  destruct (run_cable sent None {| c_status := None; c_held := h' |} n H1 I) as (c' & R2).
  assert (R : cable_run cable_start (filter (fun x => negb (real_time x)) w) = Val (c', completed None n sent)).
  { rewrite E, run_app, R1. cbn [bind fst snd]. rewrite R2. reflexivity. }
  assert (F : Forall (fun m => (first_byte m < 248)%N) (completed None n sent)).
  { apply completed_forall. eapply Forall_impl; [|exact H1]. cbn. tauto. }
  destruct (run_real_time w cable_start c' _ W R F) as (all & R3 & F1 & F2 & F3).
  exists c', all. split; [exact R3|]. split; [exact F1|]. split; [exact F2|].
  apply Forall_forall. intros m Hm. rewrite Forall_forall in F3. specialize (F3 m Hm).
  destruct (real_time (first_byte m)) eqn:X; [now apply F3|].
  assert (Z : In m (completed None n sent)) by (rewrite <- F1; apply filter_In; split; [exact Hm|now rewrite X]).
  assert (Q : Forall (fun m => In (fst m) byte_types /\ whole U8 m) (completed None n sent)).
  { apply completed_forall. eapply Forall_impl; [|exact H]. cbn. tauto. }
  rewrite Forall_forall in Q. now apply Q.
Qed.
Print Assumptions C72_cable.

(** Three note-ons, the second and third without status, clock ticks inside them and inside a system exclusive message; the
    client came in during another message. *)
Example C72_case :
  let note k := (CFixed cv1_note_on, [0x90; k; 0x40]%N) in
  let sent := [(true, note 0x3C%N); (true, note 0x3E%N); (true, note 0x40%N); (true, (CSysex7, [0xF0; 1; 2; 0xF7]%N)); (true, note 0x3C%N)] in
  let w := [5; 0xF7; 0x90; 0x3C; 0x40; 0x3E; 0xF8; 0x40; 0x40; 0x40; 0xF0; 1; 0xF8; 2; 0xFD; 0xF7; 0x90; 0xFE; 0x3C; 0x40]%N in
  filter (fun x => negb (real_time x)) w = [5; 0xF7]%N ++ firstn 14 (cable None sent)
  /\ completed None 14 sent = map snd sent
  /\ option_map snd (match cable_run cable_start w with Val r => Some r | Panic => None end)
     = Some [note 0x3C%N; (CFixed sys_timing_clock, [0xF8]%N); note 0x3E%N; note 0x40%N; (CFixed sys_timing_clock, [0xF8]%N);
             (CSysex7, [0xF0; 1; 2; 0xF7]%N); (CFixed sys_active_sensing, [0xFE]%N); note 0x3C%N]
  /\ Forall (fun e => In (fst (snd e)) byte_types /\ whole U8 (snd e) /\ wf_buf U8 (snd (snd e)) /\ one_status (snd (snd e))
                   /\ real_time (first_byte (snd e)) = false) sent.
Proof.
  cbn zeta. split; [reflexivity|]. split; [reflexivity|]. split; [vm_compute; reflexivity|].
  assert (T : forall c b, In c byte_types -> whole U8 (c, b) -> forallb (fun x => x <? 256)%N b = true -> one_status b ->
     real_time (hd 0%N b) = false -> In c byte_types /\ whole U8 (c, b) /\ wf_buf U8 b /\ one_status b /\ real_time (first_byte (c, b)) = false).
  { intros c b H1 H2 H3 H4 H5. split; [exact H1|]. split; [exact H2|]. split; [|split; [exact H4|exact H5]].
    apply Forall_forall. rewrite forallb_forall in H3. intros x Hx. specialize (H3 x Hx). cbn. lia. }
  repeat apply Forall_cons; try apply Forall_nil; cbn [fst snd]; apply T; try (split; vm_compute; reflexivity); try (vm_compute; reflexivity);
    try (vm_compute; tauto); cbn; repeat constructor; lia.
Qed.

(** Three system common messages do not have their size of the standard in the library (C07_sizes_refuted).  On a cable that
    follows the standard a time code and a tune request are lost, and a song position is read from its first byte alone. *)
Theorem C72_sizes_refuted : exists c1 c2 c3 m,
  cable_run cable_start [0xF1; 0x35; 0x90; 0x3C; 0x40]%N = Val (c1, [(CFixed cv1_note_on, [0x90; 0x3C; 0x40]%N)])
  /\ cable_run cable_start [0xF6; 0x90; 0x3C; 0x40]%N = Val (c2, [(CFixed cv1_note_on, [0x90; 0x3C; 0x40]%N)])
  /\ cable_run cable_start [0xF2; 1; 2; 0x90; 0x3C; 0x40]%N = Val (c3, [m; (CFixed cv1_note_on, [0x90; 0x3C; 0x40]%N)]) /\ snd m = [0xF2; 1]%N.
Proof. do 4 eexists. split; [vm_compute; reflexivity|]. split; [vm_compute; reflexivity|]. split; [vm_compute; reflexivity|reflexivity]. Qed.
Print Assumptions C72_sizes_refuted.
