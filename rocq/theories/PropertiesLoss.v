(** C64: packets that are lost, repeated or that arrive in another order.  Of a message of several packets the parsers
    notice when the first or the last one is missing, repeated or out of place, and they notice nothing else; what they
    read is what the packets that arrived carry.  A receiver recovers: a disturbance spoils at most one later message
    of each stream, and of system exclusive messages the spoilt one is reported as an error. *)
From Coq Require Import NArith List String Bool Arith Lia ZifyBool ZifyNat ZifyN.
From Verif Require Import Base BitOps BitLemmas ListLemmas Values Props PropLemmas Message MessageTable SpecLayout Sysex SpecSysex SysexBridge SysexInit Text SpecText
  Aggregate SpecAggregate AggregateMore Packet SpecPacket PacketLemmas PacketMore PacketRead StreamClient SpecStream SpecCopies Receiver SpecReceiver ReceiverLemmas
  PropertiesReceiver SpecLoss LossLemmas LossMore.
Import ListNotations.
Local Open Scope list_scope.
Local Open Scope nat_scope.

(** ** Parsing what arrived *)

(** Packets of any system exclusive messages, in any order. *)
Theorem C64_sysex_packets : forall fm xs, Forall (from_sysex fm) xs ->
  let f := match fm with SevenBit => fmt7 | EightBit => fmt8 end in
  let b := arriving (packet_words fm) xs in
  (sx_try_from f b = Ok b <->
     well_marked (map (mark_of (packet_words fm)) xs) /\ alike (fun x => group_of fm (fst x) (snd x)) xs
     /\ (fm = EightBit -> alike (fun x => stream_of fm (fst x) (snd x)) xs))
  /\ (sx_try_from f b = Ok b -> payload_list f b = Val (flat_map (fun x => payload_of fm (fst x) (snd x)) xs)).
Proof. exact arriving_accepted. Qed.
Print Assumptions C64_sysex_packets.

(** Packets of one message. *)
Theorem C64_sysex : forall fm k g s l b ps, carries fm k g (Some s) l b -> List.length b = packet_words fm * k ->
  Forall (fun p => p < k) ps ->
  let f := match fm with SevenBit => fmt7 | EightBit => fmt8 end in
  let a := arriving (packet_words fm) (map (pair b) ps) in
  (sx_try_from f a = Ok a <-> looks_whole k ps)
  /\ (looks_whole k ps -> payload_list f a = Val (flat_map (payload_of fm b) ps)).
Proof.
  intros fm k g s l b ps C L F f a.
  assert (H : Forall (from_sysex fm) (map (pair b) ps)).
  { apply Forall_map. rewrite Forall_forall in *. intros p Hp. exists k, g, (Some s), l. cbn [fst snd]. auto. }
  destruct (C64_sysex_packets fm _ H) as [A R]. cbv zeta in A, R. fold f in A, R. fold a in A, R.
  assert (E : map (mark_of (packet_words fm)) (map (pair b) ps) = map (status_code k) ps).
  { rewrite map_map. apply map_ext. intros p. unfold mark_of. cbn [fst snd]. rewrite L, (Nat.mul_comm _ k), Nat.div_mul; [reflexivity|]. destruct fm; discriminate. }
  assert (W : sx_try_from f a = Ok a <-> looks_whole k ps).
  { rewrite A, E, looks_marked by exact F. split; [tauto|]. intros Lw. split; [exact Lw|]. rewrite Forall_forall in F. split.
    - intros x y Hx Hy. apply in_map_iff in Hx as (p & <- & Hp). apply in_map_iff in Hy as (q & <- & Hq). cbn [fst snd].
      now rewrite !(ca_group _ _ _ _ _ _ C) by auto.
    - intros E8 x y Hx Hy. apply in_map_iff in Hx as (p & <- & Hp). apply in_map_iff in Hy as (q & <- & Hq). cbn [fst snd].
      pose proof (ca_stream _ _ _ _ _ _ C p (F p Hp) E8) as X. pose proof (ca_stream _ _ _ _ _ _ C q (F q Hq) E8) as Y. cbn in X, Y. congruence. }
  split; [exact W|]. intros Lw. rewrite R by now apply W. f_equal. rewrite !flat_map_concat_map, map_map. reflexivity.
Qed.
Print Assumptions C64_sysex.

(** Packets of one text: what arrived must also be text. *)
Theorem C64_flex_text : forall K b ps, In K flex_texts -> flex_try_from K b = Val (Ok b) -> Text.flex_data b = Val b ->
  Forall (fun p => p < List.length b / 4) ps -> let a := arriving 4 (map (pair b) ps) in
  flex_try_from K a = Val (Ok a) <-> looks_whole (List.length b / 4) ps /\ is_string (flex_reading a).
Proof. exact flex_arrived. Qed.
Print Assumptions C64_flex_text.
Theorem C64_stream_text : forall K b ps, In K stream_texts -> stream_try_from K b = Val (Ok b) -> Text.stream_data b = Val b ->
  Forall (fun p => p < List.length b / 4) ps -> let a := arriving 4 (map (pair b) ps) in
  stream_try_from K a = Val (Ok a) <-> looks_whole (List.length b / 4) ps /\ is_string (stream_reading (sk_off K) a).
Proof. exact stream_arrived. Qed.
Print Assumptions C64_stream_text.

(** ** A receiver after a disturbance *)

(** In whatever state the receiver is, and whatever the key: all messages but the first under each key arrive; the
    result for the first one is that of parsing it behind what was left unfinished. *)
Theorem C64_recovery : forall key filed st sent ps,
  (forall p, In p ps -> key p = Val (filed p)) ->
  (forall k, wf_buf U32 (so_far st k)) ->
  (forall k, Forall sendable (sent k) /\ Forall (fun m => wf_buf U32 (snd m)) (sent k)) ->
  (forall k, packets_of (sent k) (filter (fun p => filed p =? k)%N ps)) ->
  exists st' out, receive_all key st ps = Val (st', out)
    /\ forall k, match sent k with
                 | [] => results k out = [] /\ so_far st' k = so_far st k
                 | m :: ms => so_far st' k = [] /\ exists r, ump_try_from (so_far st k ++ snd m) = Val r /\ results k out = r :: map Ok ms
                 end.
Proof.
  intros key filed st sent ps K W Sd P.
  set (verdict := fun b => match ump_try_from b with Val r => r | Panic => Err ""%string end).
  set (rs := fun k => match sent k with [] => [] | m :: ms => verdict (so_far st k ++ snd m) :: map Ok ms end).
  assert (V : forall k m ms, sent k = m :: ms -> ump_try_from (so_far st k ++ snd m) = Val (verdict (so_far st k ++ snd m))).
  { intros k m ms E. destruct (ump_total (so_far st k ++ snd m)) as (r & X).
    - destruct (Sd k) as [_ X]. rewrite E in X. inversion X; subst. unfold wf_buf in *. apply Forall_app. auto.
    - unfold verdict. now rewrite X. }
  destruct (receive_any key filed ps K st rs) as (st' & out & R & S1 & S2).
  - intros k. unfold rs. destruct (sent k) as [|m ms] eqn:E.
    + specialize (P k). rewrite E in P. destruct P as (pss & F & ->). inversion F; subst. constructor.
    + destruct (Sd k) as [S0 _]. specialize (P k). rewrite E in S0, P. destruct P as (pss & F & ->). inversion F as [|? q ? pss' Pm F']; subst.
      inversion S0 as [|? ? Sm S0']; subst. cbn [List.concat].
      assert (O1 : owes [] q [m]) by (apply sent_owes; [now constructor|exists [q]; split; [constructor; [exact Pm|constructor]|cbn; now rewrite app_nil_r]]).
      assert (O2 : owes [] (List.concat pss') ms) by (apply sent_owes; [exact S0'|exists pss'; auto]).
      inversion O1 as [|acc qs ps' m' ms' Q Fi C Pp O3 E1 E2 E3]; subst. apply owes_no_packets in O3. subst ps'. rewrite app_nil_r in *.
      constructor; [exact Q|exact Fi| |now apply owes_owed]. cbn [app] in C. rewrite C. now apply V with ms.
  - exists st', out. split; [exact R|]. intros k. specialize (S1 k). specialize (S2 k). unfold rs in S1, S2. destruct (sent k) as [|m ms] eqn:E; [auto|].
    split; [exact S2|]. eexists. split; [now apply V with ms|exact S1].
Qed.
Print Assumptions C64_recovery.

(** ** System exclusive messages after a disturbance *)

(** What is unfinished under a key: packets of that key none of which is a last one. *)
Definition held (st : open_messages) : Prop := forall k, exists qs,
  so_far st k = List.concat (map packet_data qs)
  /\ Forall (fun q => sound_packet q /\ wf_buf U32 (snd q) /\ standard_key q = Val k /\ is_final q = Val false) qs.

Lemma sound_key p : sound_packet p -> exists k, standard_key p = Val k.
Proof.
  intros (f & E & _ & L & _). assert (F : snd p <> []) by (intros X; rewrite X in L; destruct f; discriminate).
  unfold standard_key, packet_group, packet_stream_id. rewrite idx0 by exact F. cbn [bind]. destruct (fst p); eauto.
Qed.
Lemma sound_final p : sound_packet p -> exists v, is_final p = Val v.
Proof. intros (f & E & _ & L & V). destruct p as [k c]. cbn [fst snd] in *. subst k. rewrite final_mark by auto. eauto. Qed.

Lemma held_wf st k : held st -> wf_buf U32 (so_far st k).
Proof.
  intros H. destruct (H k) as (qs & -> & F). clear H. induction F as [|q qs (_ & Wq & _) F IH]; [constructor|]. cbn [map List.concat]. unfold wf_buf in *. apply Forall_app. auto.
Qed.

Lemma history_received ps : Forall (fun p => sound_packet p /\ wf_buf U32 (snd p)) ps -> forall st, held st ->
  exists st' out, receive_all standard_key st ps = Val (st', out) /\ held st'.
Proof.
  induction 1 as [|p ps [S0 W] F IH]; intros st H; [exists st, []; auto|]. cbn [receive_all]. unfold receive.
  destruct (sound_key p S0) as (k & K). rewrite K. cbn [bind]. destruct (sound_final p S0) as (v & Fi). rewrite Fi. cbn [bind].
  assert (Cl : held (closed st k)).
  { intros j. rewrite so_far_closed. destruct (k =? j)%N; [exists []; split; [reflexivity|constructor]|apply H]. }
  destruct v.
  - destruct (ump_total (so_far st k ++ packet_data p)) as (r & R). { unfold wf_buf. apply Forall_app. split; [now apply held_wf|exact W]. }
    rewrite R. cbn [bind fst snd]. destruct (IH _ Cl) as (st' & out & R' & H'). rewrite R'. cbn [bind fst snd]. eauto.
  - cbn [bind fst snd]. destruct (IH ((k, so_far st k ++ packet_data p) :: closed st k)) as (st' & out & R' & H').
    + intros j. cbn [so_far]. destruct (N.eqb_spec k j) as [<-|Nj]; [|apply Cl].
      destruct (H k) as (qs & E & Fq). exists (qs ++ [p]). split.
      * rewrite map_app, concat_app. cbn [map List.concat]. now rewrite app_nil_r, E.
      * apply Forall_app. split; [exact Fq|]. constructor; [auto|constructor].
    + rewrite R'. cbn [bind fst snd]. eauto.
Qed.

Lemma key_form p s : proper s -> sound_packet p -> standard_key p = Val (number s) -> fst p = variant (sysex_family (s_form s)).
Proof.
  intros (G & I & _) (f & E & _ & L & _) K. assert (F : snd p <> []) by (intros X; rewrite X in L; destruct f; discriminate).
  unfold standard_key, packet_group, packet_stream_id in K. rewrite idx0 in K by exact F. cbn [bind] in K. unfold number in K.
  assert (Nb : forall x k, (nibble32 x k < 16)%N). { intros x k. unfold nibble32. change 15%N with (N.ones 4). rewrite N.land_ones. apply N.mod_lt. discriminate. }
  specialize (Nb (nth 0 (snd p) 0%N) 1%N).
  set (u := nibble32 (nth 0 (snd p) 0%N) 1) in *. set (v := octet32 (nth 0 (snd p) 0%N) 2) in *. clearbody u v. clear E L F.
  destruct (fst p), (s_form s); cbn [sysex_family variant]; try reflexivity; exfalso;
    match type of K with Val ?a = Val ?b => assert (X : a = b) by congruence end; clear K; lia.
Qed.

Lemma family_code fm n : ump_family n = Some (sysex_family fm) -> n = type_code fm.
Proof. unfold ump_family. destruct fm; (destruct n as [|p]; [discriminate|]); do 4 (try destruct p as [p|p|]; try discriminate); reflexivity. Qed.

(** A message behind something unfinished. *)
Lemma spoilt fm k g s l b qs : carries fm k g s l b -> List.length b = packet_words fm * k -> qs <> [] ->
  Forall (fun q => sound_packet q /\ fst q = variant (sysex_family fm) /\ is_final q = Val false) qs ->
  exists e, ump_try_from (List.concat (map packet_data qs) ++ b) = Val (Err e).
Proof.
  intros C L Nq F. set (cs := map (fun i => chunk (packet_words fm) i b) (seq 0 k)).
  assert (W : 0 < packet_words fm) by (destruct fm; cbn; lia).
  assert (Eb : List.concat cs = b) by (unfold cs; rewrite concat_chunks by lia; now rewrite <- L, firstn_all).
  assert (P : Forall (fun q => List.length q = packet_words fm /\ type_of fm q 0 = type_code fm /\ (status_nibble fm q 0 = 1 \/ status_nibble fm q 0 = 2)%N) (map packet_data qs)).
  { apply Forall_map. rewrite Forall_forall in *. intros q Hq. destruct (F q Hq) as (S0 & K & Fi). destruct S0 as (f & E & T & Lq & V).
    assert (f = sysex_family fm) by (rewrite E in K; destruct f, fm; try discriminate K; reflexivity). subst f. destruct q as [kq c]. cbn [fst snd packet_data] in *. subst kq.
    rewrite final_mark in Fi by auto. injection Fi as Fi. rewrite type_bits, status_bits. split; [destruct fm; exact Lq|]. split.
    - now apply family_code.
    - rewrite status_hd. unfold ReceiverLemmas.mark, ending in Fi. assert (X : (status_field c <= 3)%N) by (destruct fm; cbn in V; lia). rewrite status_hd in X.
      destruct fm; cbn [sysex_family] in Fi; lia. }
  rewrite <- Eb, <- concat_app. set (all := map packet_data qs ++ cs).
  assert (Lc : Forall (fun q => List.length q = packet_words fm) cs).
  { apply Forall_map, Forall_forall. intros i Hi. apply in_seq in Hi. apply (packet_no_len (packet_words fm) b i). nia. }
  assert (B : forall i o, i < k -> o < packet_bytes fm -> byte (chunk (packet_words fm) i b) o = byte b (packet_bytes fm * i + o)).
  { intros i o _ Ho. replace (packet_bytes fm) with (4 * packet_words fm) in * by now destruct fm. now apply (byte_packet (packet_words fm) b i o). }
  assert (Tc : Forall (fun q => type_of fm q 0 = type_code fm) cs).
  { apply Forall_map, Forall_forall. intros i Hi. apply in_seq in Hi. unfold type_of. rewrite Nat.mul_0_r, B by (destruct fm; cbn; lia). rewrite Nat.add_0_r. apply (ca_type _ _ _ _ _ _ C). lia. }
  assert (Lall : Forall (fun q => List.length q = packet_words fm) all) by (apply Forall_app; split; [eapply Forall_impl; [|exact P]; cbn; tauto|exact Lc]).
  assert (Tall : Forall (fun q => type_of fm q 0 = type_code fm) all) by (apply Forall_app; split; [eapply Forall_impl; [|exact P]; cbn; tauto|exact Tc]).
  destruct (parts_accepted fm all Lall Tall) as [A _].
  assert (No : sx_try_from (fmt_of fm) (List.concat all) <> Ok (List.concat all)).
  { intros X. apply A in X as (Mk & _). clear A. apply well_marked_at in Mk as [_ Mk]. rewrite map_length in Mk.
    assert (La : List.length all = List.length qs + k) by (unfold all, cs; now rewrite app_length, !map_length, seq_length).
    assert (0 < List.length qs) by (destruct qs; [congruence|cbn; lia]). pose proof (ca_some _ _ _ _ _ _ C) as Hk.
    specialize (Mk (List.length qs) ltac:(lia)). rewrite (nth_indep _ 0%N (status_nibble fm [] 0)) in Mk by (rewrite map_length; lia).
    rewrite (map_nth (fun q => status_nibble fm q 0)) in Mk.
    assert (E : nth (List.length qs) all [] = chunk (packet_words fm) 0 b).
    { unfold all. rewrite app_nth2; rewrite map_length; [|lia]. rewrite Nat.sub_diag. unfold cs. destruct k as [|k']; [lia|reflexivity]. }
    rewrite E in Mk. unfold status_nibble in Mk. rewrite Nat.mul_0_r, B in Mk by (destruct fm; cbn; lia).
    pose proof (ca_status _ _ _ _ _ _ C 0 ltac:(lia)) as Y. unfold status_nibble in Y. cbn [Nat.add] in Mk. rewrite Y in Mk. clear - Mk La Hk H.
    unfold status_code in Mk. rewrite La in Mk. destruct (Nat.eqb_spec (List.length qs + k) 1); [lia|]. destruct (Nat.eqb_spec (List.length qs) 0); [lia|].
    destruct (k =? 1), (S (List.length qs) =? List.length qs + k); discriminate. }
  assert (Ty : exists x t, List.concat all = x :: t /\ nibble32 x 0 = type_code fm).
  { destruct qs as [|q qs]; [congruence|]. pose proof (Forall_inv P) as (Lq & Tq & _). unfold all. cbn [map app List.concat].
    destruct (packet_data q) as [|x t] eqn:Eq; [destruct fm; discriminate Lq|]. cbn [app]. exists x, (t ++ List.concat (map packet_data qs ++ cs)). split; [reflexivity|].
    rewrite <- Tq, type_word, Nat.mul_0_r. reflexivity. }
  destruct Ty as (x & t & E & Tx). rewrite E in No |- *.
  assert (X : exists e, sx_try_from (fmt_of fm) (x :: t) = Err e).
  { destruct (sx_try_from (fmt_of fm) (x :: t)) as [a|e] eqn:Ea; [|eauto]. elim No. f_equal. clear - Ea. unfold sx_try_from in Ea.
    destruct (_ <? _) in Ea; [discriminate|]. destruct (first_error _) in Ea; [|discriminate]. congruence. }
  destruct X as (e & X). exists e. unfold ump_try_from. rewrite idx0 by discriminate. cbn [nth bind]. rewrite Tx.
  destruct fm; cbn [type_code N.eqb Pos.eqb fmt_of] in *; unfold wrap; cbn [concrete_try_from]; rewrite X; reflexivity.
Qed.

(** After any packets whatever, system exclusive messages of different groups (or streams) are sent, their packets in any
    order between senders: of each sender every message arrives but possibly the first one, and that one arrives or is
    reported as an error. *)
Theorem C64_sysex_recovery : forall history ss pss ps,
  Forall (fun p => sound_packet p /\ wf_buf U32 (snd p)) history ->
  Forall proper ss -> NoDup (map identity ss) ->
  Forall2 (fun s q => packets_of (map (fun m => (sysex_of (s_form s), snd m)) (s_sent s)) q) ss pss ->
  interleaved pss ps ->
  exists st out0, receive_all standard_key [] history = Val (st, out0) /\
  exists st' out, receive_all standard_key st ps = Val (st', out)
    /\ forall s, In s ss ->
         match s_sent s with
         | [] => results (number s) out = []
         | m :: ms => so_far st' (number s) = []
             /\ exists r, results (number s) out = r :: map (fun m => Ok (sysex_of (s_form s), snd m)) ms
                  /\ (so_far st (number s) = [] -> r = Ok (sysex_of (s_form s), snd m))
                  /\ (so_far st (number s) <> [] -> exists e, r = Err e)
         end.
Proof.
  intros history ss pss ps Hy Pr Nd F I.
  destruct (history_received history Hy []) as (st & out0 & R0 & H); [intros k; exists []; split; [reflexivity|constructor]|].
  exists st, out0. split; [exact R0|].
  set (filed := fun p => match standard_key p with Val k => k | Panic => 0%N end).
  assert (Keys : forall q s x, In (s, q) (combine ss pss) -> In x q -> standard_key x = Val (number s)).
  { intros q s x Hq Hx. assert (A : proper s /\ packets_of (map (fun m => (sysex_of (s_form s), snd m)) (s_sent s)) q).
    { clear - Pr F Hq. induction F as [|s0 q0 ss pss P F IH]; [easy|]. inversion Pr; subst. destruct Hq as [E|Hq]; [injection E as <- <-; auto|auto]. }
    destruct A. eapply sender_keys; eauto. }
  assert (NdK : NoDup (map number ss)).
  { clear - Pr Nd. induction ss as [|s ss IH]; [constructor|]. inversion Pr as [|? ? Ps Pr']; subst. cbn [map] in *. inversion Nd as [|? ? N1 N2]; subst. constructor; [|auto].
    intros Hi. apply N1. apply in_map_iff in Hi as (s' & E & Hi). apply in_map_iff. exists s'. split; [|exact Hi].
    rewrite Forall_forall in Pr'. apply number_identity; auto. }
  assert (FK : Forall2 (fun k l => Forall (fun x => filed x = k) l) (map number ss) pss).
  { clear - F Keys. revert Keys. induction F as [|s q ss pss P F IH]; intros Keys; [constructor|]. cbn [map combine] in *. constructor.
    - apply Forall_forall. intros x Hx. unfold filed. now rewrite (Keys q s x (or_introl eq_refl) Hx).
    - apply IH. intros q' s' x Hq Hx. exact (Keys q' s' x (or_intror Hq) Hx). }
  destruct (filter_interleaved filed pss ps I _ FK NdK) as [F1 F2].
  assert (Fnd : forall s, In s ss -> find (fun s' => number s' =? number s)%N ss = Some s).
  { clear - NdK. induction ss as [|s0 ss IH]; [easy|]. cbn [map] in NdK. inversion NdK as [|? ? N1 N2]; subst. intros s [->|Hs]; cbn [find].
    - now rewrite N.eqb_refl.
    - destruct (N.eqb_spec (number s0) (number s)) as [E|_]; [|auto]. exfalso. apply N1. rewrite E. now apply in_map. }
  set (verdict := fun b => match ump_try_from b with Val r => r | Panic => Err ""%string end).
  set (rs := fun k => match find (fun s => number s =? k)%N ss with
                      | Some s => match s_sent s with [] => [] | m :: ms => verdict (so_far st k ++ snd m) :: map (fun m => Ok (sysex_of (s_form s), snd m)) ms end
                      | None => [] end).
  assert (Sd : forall s, In s ss -> Forall sendable (map (fun m => (sysex_of (s_form s), snd m)) (s_sent s))).
  { intros s Hs. rewrite Forall_forall in Pr. destruct (Pr s Hs) as (_ & _ & Ms). apply Forall_forall. intros m Hm. apply in_map_iff in Hm as (m0 & <- & Hm).
    rewrite Forall_forall in Ms. destruct (message_whole _ _ _ _ _ (Ms m0 Hm)) as [W _].
    split; [|split; [|split; [|exact W]]]; cbn [fst].
    + apply in_flat_map. exists (sysex_family (s_form s)). destruct (s_form s); cbn; tauto.
    + destruct (s_form s); cbn; intuition discriminate.
    + destruct (s_form s); discriminate. }
  assert (V : forall s m ms, In s ss -> s_sent s = m :: ms ->
    ump_try_from (so_far st (number s) ++ snd m) = Val (verdict (so_far st (number s) ++ snd m))
    /\ (so_far st (number s) = [] -> verdict (so_far st (number s) ++ snd m) = Ok (sysex_of (s_form s), snd m))
    /\ (so_far st (number s) <> [] -> exists e, verdict (so_far st (number s) ++ snd m) = Err e)).
  { intros s m ms Hs E. pose proof (proj1 (Forall_forall _ _) Pr s Hs) as Ps. destruct (H (number s)) as (qs & Eq & Fq).
    destruct qs as [|q qs].
    - cbn in Eq. rewrite Eq. cbn [app]. specialize (Sd s Hs). rewrite E in Sd. cbn [map] in Sd. inversion Sd as [|? ? Sm _]; subst. clear Sd.
      destruct Sm as (T & M & N0 & [A D]). cbn [fst snd] in *.
      assert (X : ump_try_from (snd m) = Val (Ok (sysex_of (s_form s), snd m))).
      { apply AggregateLemmas.ump_iff. split; [exact T|]. split; [exact M|]. split; [intros Y; congruence|]. auto. }
      unfold verdict. rewrite X. split; [reflexivity|]. split; [auto|]. congruence.
    - pose proof Ps as (G & St & Ms). rewrite E in Ms. inversion Ms as [|? ? Mm _]; subst. destruct Mm as (k & C & _ & L).
      destruct (spoilt (s_form s) k _ _ _ _ (q :: qs) C L) as (e & X); [discriminate| |].
      { eapply Forall_impl; [|exact Fq]. cbn. intros x (S0 & _ & K & Fi). split; [exact S0|]. split; [|exact Fi]. now apply key_form. }
      rewrite Eq. unfold verdict. rewrite X. split; [reflexivity|]. split; [|eauto].
      intros Z. exfalso. inversion Fq as [|? ? ((f & Ef & _ & Lq & _) & _) _]; subst. unfold packet_data in Z. cbn [map List.concat] in Z.
      apply app_eq_nil in Z as [Z _]. rewrite Z in Lq. destruct f; discriminate. }
  destruct (receive_any standard_key filed ps) with (st := st) (rs := rs) as (st' & out & R & S1 & S2).
  - intros p Hp. destruct (in_interleaved _ _ _ I Hp) as (q & Hq & Hx). apply In_nth_error in Hq as (i & Hi).
    pose proof (both_length _ _ _ F) as L. pose proof (nth_error_Some_length _ _ _ Hi) as Li. rewrite <- L in Li.
    destruct (nth_error ss i) as [s|] eqn:Hs; [|apply nth_error_None in Hs; lia].
    unfold filed. rewrite (Keys q s p); [reflexivity| |exact Hx]. clear - Hi Hs. revert i pss Hi Hs. induction ss as [|s0 ss IH]; intros [|i] [|q0 pss] Hi Hs; try discriminate; cbn [combine nth_error] in *.
    + injection Hi as ->. injection Hs as ->. now left.
    + right. eauto.
  - intros k. unfold rs. destruct (find _ ss) as [s|] eqn:E.
    2:{ rewrite F2; [constructor|]. intros Hk. apply in_map_iff in Hk as (s & <- & Hs). rewrite (Fnd s Hs) in E. discriminate. }
    apply find_some in E as [Hs E]. apply N.eqb_eq in E. subst k.
    assert (Pk : packets_of (map (fun m => (sysex_of (s_form s), snd m)) (s_sent s)) (filter (fun p => filed p =? number s)%N ps)).
    { pose proof Hs as Hs'. apply In_nth_error in Hs' as (i & Hi). destruct (nth_error pss i) as [q|] eqn:Hq.
      2:{ apply nth_error_None in Hq. pose proof (both_length _ _ _ F). pose proof (nth_error_Some_length _ _ _ Hi). lia. }
      rewrite (F1 i (number s) q); [|now rewrite nth_error_map, Hi|exact Hq].
      clear - F Hi Hq. revert i Hi Hq. induction F as [|s0 q0 ss pss P F IH]; intros [|i] Hi Hq; try discriminate; cbn [nth_error] in *; [|eauto].
      injection Hi as ->. injection Hq as ->. exact P. }
    specialize (Sd s Hs). destruct (s_sent s) as [|m ms] eqn:Es.
    + destruct Pk as (qss & Fq & ->). inversion Fq; subst. constructor.
    + cbn [map] in Pk, Sd. destruct Pk as (qss & Fq & ->). inversion Fq as [|? q ? qss' Pm Fq']; subst. inversion Sd as [|? ? Sm Sd']; subst. cbn [List.concat].
      assert (O1 : owes [] q [(sysex_of (s_form s), snd m)]) by (apply sent_owes; [now constructor|exists [q]; split; [constructor; [exact Pm|constructor]|cbn; now rewrite app_nil_r]]).
      assert (O2 : owes [] (List.concat qss') (map (fun m => (sysex_of (s_form s), snd m)) ms)) by (apply sent_owes; [exact Sd'|exists qss'; auto]).
      inversion O1 as [|acc qs ps' m' ms' Q Fi Cc Pp O3 E1 E2 E3]; subst. apply owes_no_packets in O3. subst ps'. rewrite app_nil_r in *.
      constructor; [exact Q|exact Fi| |apply owes_owed in O2; rewrite map_map in O2; exact O2]. cbn [app snd] in Cc. rewrite Cc. now apply (V s m ms).
  - exists st', out. split; [exact R|]. intros s Hs. specialize (S1 (number s)). specialize (S2 (number s)). unfold rs in S1, S2. rewrite (Fnd s Hs) in S1, S2.
    destruct (s_sent s) as [|m ms] eqn:E; [exact S1|]. split; [exact S2|]. eexists. split; [exact S1|]. now apply (V s m ms).
Qed.
Print Assumptions C64_sysex_recovery.

(** ** What is not noticed *)

(** A lost packet from the middle. *)
Theorem C64_lost_packet_refuted : exists b ps l l',
  carries SevenBit 3 0 None l b /\ List.length b = 6 /\ ps = [0; 2]
  /\ sx_try_from fmt7 (arriving 2 (map (pair b) ps)) = Ok (arriving 2 (map (pair b) ps))
  /\ payload_list fmt7 (arriving 2 (map (pair b) ps)) = Val l' /\ l <> l'.
Proof.
  exists [0x30160102; 0x03040506; 0x30260708; 0x090A0B0C; 0x30310D00; 0]%N, [0; 2], [1;2;3;4;5;6;7;8;9;10;11;12;13]%N, [1;2;3;4;5;6;13]%N.
  split; [|split; [reflexivity|split; [reflexivity|split; [vm_compute; reflexivity|split; [vm_compute; reflexivity|discriminate]]]]].
  constructor; try (vm_compute; reflexivity); try lia; try (intros p Hp; do 3 (destruct p as [|p]; [vm_compute; intuition (discriminate || reflexivity)|]); lia).
Qed.
Print Assumptions C64_lost_packet_refuted.

(** The end of one message and the start of the next one lost: what is left is read as a message that nobody sent. *)
Theorem C64_joined_refuted : exists b b' l l' a l'',
  carries SevenBit 2 0 None l b /\ carries SevenBit 2 0 None l' b' /\ a = arriving 2 [(b, 0); (b', 1)]
  /\ sx_try_from fmt7 a = Ok a /\ payload_list fmt7 a = Val l'' /\ l'' <> l /\ l'' <> l'.
Proof.
  exists [0x30160102; 0x03040506; 0x30310700; 0]%N, [0x30161112; 0x13141516; 0x30311700; 0]%N, [1;2;3;4;5;6;7]%N, [17;18;19;20;21;22;23]%N.
  do 2 eexists. split; [|split; [|split; [reflexivity|split; [vm_compute; reflexivity|split; [vm_compute; reflexivity|split; discriminate]]]]].
  all: constructor; try (vm_compute; reflexivity); try lia; try (intros p Hp; do 2 (destruct p as [|p]; [vm_compute; intuition (discriminate || reflexivity)|]); lia); try discriminate; cbn; lia.
Qed.
Print Assumptions C64_joined_refuted.

(** A message of three packets: which arrivals are taken for a message.  A receiver that missed the end of a message. *)
Example C64_cases :
  looks_whole 3 [0; 1; 2] /\ looks_whole 3 [0; 2] /\ looks_whole 3 [0; 1; 1; 2] /\ looks_whole 4 [0; 2; 1; 3]
  /\ ~ looks_whole 3 [0; 1] /\ ~ looks_whole 3 [1; 2] /\ ~ looks_whole 3 [0; 2; 1] /\ ~ looks_whole 3 [0; 0; 1; 2]
  /\ (let m := [0x30160102; 0x03040506; 0x30310700; 0]%N in let n := [0x30020102; 0]%N in
      let start := (PSysex7, [0x30160102; 0x03040506]%N) in
      receive_all standard_key [] [start; (PSysex7, n); (PSysex7, n); start; (PSysex7, [0x30310700; 0]%N)]
      = Val ([], [(1, Err "Expected End packet"%string); (1, Ok (CSysex7, n)); (1, Ok (CSysex7, m))]%N)).
Proof.
  assert (D : forall k ps, Forall (fun p => p < k) ps -> ~ well_marked (map (status_code k) ps) -> ~ looks_whole k ps).
  { intros k ps F N H. apply N. now apply looks_marked. }
  split; [right; exists [1]; repeat constructor|]. split; [right; exists []; repeat constructor|]. split; [right; exists [1; 1]; repeat constructor|].
  split; [right; exists [2; 1]; repeat constructor|].
  split; [apply D; [repeat constructor|cbn; intros [H|(n & H)]; [discriminate|]; destruct n as [|[|n]]; discriminate]|].
  split; [apply D; [repeat constructor|cbn; intros [H|(n & H)]; [discriminate|]; discriminate]|].
  split; [apply D; [repeat constructor|cbn; intros [H|(n & H)]; [discriminate|]; destruct n as [|[|n]]; discriminate]|].
  split; [apply D; [repeat constructor|cbn; intros [H|(n & H)]; [discriminate|]; destruct n as [|[|n]]; discriminate]|].
  vm_compute. reflexivity.
Qed.

(** A text of three packets, and one whose middle packet holds the rest of a character. *)
Example C64_text_cases :
  (exists K b, In K flex_texts /\ flex_try_from K b = Val (Ok b) /\ Text.flex_data b = Val b /\ List.length b / 4 = 3
    /\ flex_text b = Val (repeat 0x41 12 ++ repeat 0x42 12 ++ [0x43])%N
    /\ (let a := arriving 4 (map (pair b) [0; 2]) in flex_try_from K a = Val (Ok a) /\ flex_text a = Val (repeat 0x41 12 ++ [0x43])%N)
    /\ (let a := arriving 4 (map (pair b) [0; 1]) in flex_try_from K a = Val (Err "Expected End packet"%string)))
  /\ (exists K b, In K stream_texts /\ stream_try_from K b = Val (Ok b) /\ Text.stream_data b = Val b /\ List.length b / 4 = 3
    /\ (let a := arriving 4 (map (pair b) [0; 2]) in stream_try_from K a = Val (Err "Payload bytes do not represent a valid utf string"%string))).
Proof.
  split.
  - exists {| fk_name := "ProjectName"; fk_bank := 1; fk_status := 1 |}, [0xD0500101; 0x41414141; 0x41414141; 0x41414141; 0xD0900101; 0x42424242; 0x42424242; 0x42424242; 0xD0D00101; 0x43000000; 0; 0]%N.
    split; [vm_compute; tauto|]. vm_compute. auto 10.
  - exists {| sk_name := "EndpointName"; sk_status := 3; sk_off := 0 |}, [0xF4034141; 0x41414141; 0x41414141; 0x414141C3; 0xF803A941; 0x41414141; 0x41414141; 0x41414141; 0xFC034100; 0; 0; 0]%N.
    split; [vm_compute; tauto|]. vm_compute. auto 10.
Qed.
