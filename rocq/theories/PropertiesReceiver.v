(** PROPERTIES of messages whose packets arrive interleaved.  See
    properties.jsonl; vocabulary in SpecReceiver.v, the client in Receiver.v. *)
From Coq Require Import NArith ZArith List String Bool Arith Lia Zify ZifyBool ZifyNat ZifyN.
From Verif Require Import Base BitOps BitLemmas ListLemmas Values Helpers Props Message MessageTable SpecLayout SpecFixed
  FixedLemmas FixedProofs PropertiesFixed Sysex SpecSysex SysexBridge SysexMore SysexInit SysexNth PropertiesSysex Text Aggregate SpecAggregate AggregateLemmas AggregateMore PropertiesAggregate
  Packet SpecPacket PacketLemmas PacketMore PacketRead PropertiesPacket SpecStream StreamLemmas SpecCopies CopyLemmas Receiver SpecReceiver ReceiverLemmas.
Import ListNotations.
Local Open Scope string_scope.
Local Open Scope list_scope.
Local Open Scope nat_scope.

(** Packets of any messages, filed under any keys, in any order that keeps apart the messages of one
    key: each key yields its messages, in order, and nothing is left over. *)
Theorem C46_receiver : forall key filed sent ps,
  (forall p, In p ps -> key p = Val (filed p)) ->
  (forall k, Forall sendable (sent k)) ->
  (forall k, packets_of (sent k) (filter (fun p => filed p =? k)%N ps)) ->
  exists st out, receive_all key [] ps = Val (st, out)
    /\ (forall k, so_far st k = [])
    /\ (forall k, map snd (filter (fun e => fst e =? k)%N out) = map Ok (sent k)).
Proof.
  intros key filed sent ps K S0 P. apply receive_ok with (at_ := filed); [exact K|].
  intros k. cbn [so_far]. apply sent_owes; auto.
Qed.
Print Assumptions C46_receiver.

Lemma message_whole fm g s l b : message fm g (match fm with SevenBit => None | EightBit => Some s end) l b ->
  whole U32 (sysex_of fm, b) /\ payload_list (fmt_of fm) b = Val l.
Proof.
  intros M. assert (A : sx_try_from (fmt_of fm) b = Ok b).
  { destruct fm; [|eapply message_accepted; exact M]. apply (message_accepted SevenBit g 0%N l). now apply (seven_message _ None). }
  destruct M as (k & C & F & L). destruct (carries_reads _ _ _ _ _ _ C) as (D & P & _).
  split; [|exact P]. split; cbn [fst snd].
  - unfold accepted. destruct fm; cbn [sysex_of concrete_try_from fmt_of] in *; now rewrite A.
  - rewrite sysex_data, D. f_equal. now rewrite <- L, firstn_all.
Qed.

Lemma packets_kind fm b q x : all_packets (sysex_of fm, b) = Val q -> whole U32 (sysex_of fm, b) -> In x q ->
  fst x = variant (sysex_family fm).
Proof.
  intros P W H. destruct (sent_packets (sysex_family fm) (sysex_of fm) b) as (n & _ & P' & _); [destruct fm; cbn; tauto|destruct fm; discriminate|exact W|].
  rewrite P in P'. injection P' as ->. apply in_map_iff in H as (i & <- & _). reflexivity.
Qed.

Lemma sender_keys s q x : proper s -> packets_of (map (fun m => (sysex_of (s_form s), snd m)) (s_sent s)) q -> In x q ->
  standard_key x = Val (number s).
Proof.
  intros (G & I & Ms) (qs & F & ->) H. apply in_concat in H as (q & Hq & Hx).
  assert (X : exists m, In m (s_sent s) /\ all_packets (sysex_of (s_form s), snd m) = Val q).
  { clear - F Hq. revert F. generalize (s_sent s). intros l F. remember (map _ l) as ms eqn:E. revert l E. induction F as [|m q' ms qs P F IH]; [easy|].
    intros [|a l] E; [discriminate|]. injection E as -> ->. destruct Hq as [<-|Hq]; [exists a; split; [now left|exact P]|].
    destruct (IH Hq l eq_refl) as (m & Hm & Pm). exists m. split; [now right|exact Pm]. }
  destruct X as (m & Hm & P). rewrite Forall_forall in Ms. specialize (Ms m Hm). destruct (message_whole _ _ _ _ _ Ms) as [W _].
  pose proof (packets_kind _ _ _ _ P W Hx) as K. destruct Ms as (k & C & _). destruct (C16_sysex _ _ _ _ _ _ C) as (ps & P' & _ & _ & _ & Hd).
  assert (sysex_type (s_form s) = sysex_of (s_form s)) as E by now destruct (s_form s). rewrite E, P in P'. injection P' as <-.
  apply In_nth_error in Hx as (i & Hi). destruct (Hd i x Hi) as (Gx & _ & E8). unfold standard_key, number. rewrite K.
  destruct (s_form s); cbn [sysex_family variant]; rewrite Gx; cbn [bind]; [reflexivity|].
  destruct (E8 eq_refl) as (j & t & -> & Ij & _). cbn [in_stream] in Ij. subst j. reflexivity.
Qed.

Lemma number_identity s s' : proper s -> proper s' -> number s = number s' -> identity s = identity s'.
Proof.
  intros (G & I & _) (G' & I' & _). unfold number, identity. destruct (s_form s), (s_form s'); intros E; try lia.
  - assert (s_group s = s_group s') as -> by lia. reflexivity.
  - assert (s_group s = s_group s') as -> by lia. assert (s_stream s = s_stream s') as -> by lia. reflexivity.
Qed.

(** System exclusive messages of different groups, or 8-bit ones of different stream ids, whose packets
    arrive in any order: a receiver that goes by group and stream id gets all messages of every sender,
    in order, with their payloads. *)
Theorem C46_interleaved : forall ss pss ps, Forall proper ss -> NoDup (map identity ss) ->
  Forall2 (fun s q => packets_of (map (fun m => (sysex_of (s_form s), snd m)) (s_sent s)) q) ss pss ->
  interleaved pss ps ->
  exists st out, receive_all standard_key [] ps = Val (st, out)
    /\ (forall k, so_far st k = [])
    /\ (forall s, In s ss ->
          map snd (filter (fun e => fst e =? number s)%N out) = map (fun m => Ok (sysex_of (s_form s), snd m)) (s_sent s)
          /\ forall m, In m (s_sent s) -> payload_list (fmt_of (s_form s)) (snd m) = Val (fst m)).
Proof.
  intros ss pss ps Pr Nd F I.
  set (filed := fun p => match standard_key p with Val k => k | Panic => 0%N end).
  assert (Keys : forall q s x, In (s, q) (combine ss pss) -> In x q -> standard_key x = Val (number s)).
  { intros q s x H Hx. assert (A : proper s /\ packets_of (map (fun m => (sysex_of (s_form s), snd m)) (s_sent s)) q).
    { clear - Pr F H. induction F as [|s0 q0 ss pss P F IH]; [easy|]. inversion Pr; subst. destruct H as [E|H]; [injection E as <- <-; auto|auto]. }
    destruct A. eapply sender_keys; eauto. }
  assert (NdK : NoDup (map number ss)).
  { clear - Pr Nd. induction ss as [|s ss IH]; [constructor|]. inversion Pr as [|? ? Ps Pr']; subst. cbn [map] in *. inversion Nd as [|? ? N1 N2]; subst. constructor; [|auto].
    intros H. apply N1. apply in_map_iff in H as (s' & E & H). apply in_map_iff. exists s'. split; [|exact H].
    rewrite Forall_forall in Pr'. apply number_identity; auto. }
  assert (FK : Forall2 (fun k l => Forall (fun x => filed x = k) l) (map number ss) pss).
  { clear - F Keys. revert Keys. induction F as [|s q ss pss P F IH]; intros Keys; [constructor|]. cbn [map combine] in *. constructor.
    - apply Forall_forall. intros x Hx. unfold filed. now rewrite (Keys q s x (or_introl eq_refl) Hx).
    - apply IH. intros q' s' x H Hx. exact (Keys q' s' x (or_intror H) Hx). }
  destruct (filter_interleaved filed pss ps I _ FK NdK) as [F1 F2].
  set (sent := fun k => match find (fun s => number s =? k)%N ss with Some s => map (fun m => (sysex_of (s_form s), snd m)) (s_sent s) | None => [] end).
  assert (Fnd : forall s, In s ss -> find (fun s' => number s' =? number s)%N ss = Some s).
  { clear - NdK. induction ss as [|s0 ss IH]; [easy|]. cbn [map] in NdK. inversion NdK as [|? ? N1 N2]; subst. intros s [->|H]; cbn [find].
    - now rewrite N.eqb_refl.
    - destruct (N.eqb_spec (number s0) (number s)) as [E|_]; [|auto]. exfalso. apply N1. rewrite E. now apply in_map. }
  destruct (C46_receiver standard_key filed sent ps) as (st & out & R & S1 & S2).
  - intros p Hp. destruct (in_interleaved _ _ _ I Hp) as (q & Hq & Hx). apply In_nth_error in Hq as (i & Hi).
    pose proof (both_length _ _ _ F) as L. pose proof (nth_error_Some_length _ _ _ Hi) as Li. rewrite <- L in Li.
    destruct (nth_error ss i) as [s|] eqn:Hs; [|apply nth_error_None in Hs; lia].
    unfold filed. rewrite (Keys q s p); [reflexivity| |exact Hx]. clear - Hi Hs. revert i pss Hi Hs. induction ss as [|s0 ss IH]; intros [|i] [|q0 pss] Hi Hs; try discriminate; cbn [combine nth_error] in *.
    + injection Hi as ->. injection Hs as ->. now left.
    + right. eauto.
  - intros k. unfold sent. destruct (find _ ss) as [s|] eqn:E; [|constructor]. apply find_some in E as [Hs _].
    rewrite Forall_forall in Pr. destruct (Pr s Hs) as (_ & _ & Ms). apply Forall_forall. intros m Hm. apply in_map_iff in Hm as (m0 & <- & Hm).
    rewrite Forall_forall in Ms. destruct (message_whole _ _ _ _ _ (Ms m0 Hm)) as [W _].
    split; [|split; [|split; [|exact W]]]; cbn [fst].
    + apply in_flat_map. exists (sysex_family (s_form s)). destruct (s_form s); cbn; tauto.
    + destruct (s_form s); cbn; intuition discriminate.
    + destruct (s_form s); discriminate.
  - intros k. unfold sent. destruct (find _ ss) as [s|] eqn:E.
    + apply find_some in E as [Hs E]. apply N.eqb_eq in E. subst k. apply In_nth_error in Hs as (i & Hi).
      destruct (nth_error pss i) as [q|] eqn:Hq.
      2:{ apply nth_error_None in Hq. pose proof (both_length _ _ _ F). pose proof (nth_error_Some_length _ _ _ Hi). lia. }
      rewrite (F1 i (number s) q); [|now rewrite nth_error_map, Hi|exact Hq].
      clear - F Hi Hq. revert i Hi Hq. induction F as [|s0 q0 ss pss P F IH]; intros [|i] Hi Hq; try discriminate; cbn [nth_error] in *; [|eauto].
      injection Hi as ->. injection Hq as ->. exact P.
    + rewrite F2; [exists []; split; [constructor|reflexivity]|]. intros H. apply in_map_iff in H as (s & <- & Hs). rewrite (Fnd s Hs) in E. discriminate.
  - exists st, out. split; [exact R|]. split; [exact S1|]. intros s Hs. split.
    + rewrite S2. unfold sent. rewrite (Fnd s Hs). now rewrite map_map.
    + intros m Hm. rewrite Forall_forall in Pr. destruct (Pr s Hs) as (_ & _ & Ms). rewrite Forall_forall in Ms. apply (message_whole _ _ _ _ _ (Ms m Hm)).
Qed.
Print Assumptions C46_interleaved.

Lemma small_message fm k g s l b : 1 <= k ->
  forallb (fun p => (type_of fm b p =? type_code fm)%N && (group_of fm b p =? g)%N
     && (match fm with SevenBit => true | EightBit => match s with Some i => stream_of fm b p =? i | None => true end end)%N
     && (status_nibble fm b p =? status_code k p)%N
     && (size_bias fm <=? size_nibble fm b p)%N && (size_nibble fm b p <=? size_bias fm + N.of_nat (packet_room fm))%N
     && (if S p <? k then units_in fm b p =? packet_room fm else (k =? 1) || (0 <? units_in fm b p))) (seq 0 k) = true ->
  flat_map (payload_of fm b) (seq 0 k) = l -> List.length b = packet_words fm * k -> message fm g s l b.
Proof.
  intros K F P L. rewrite forallb_forall in F.
  assert (X : forall p, p < k -> _) by (intros p Hp; refine (F p _); apply in_seq; lia). clear F.
  setoid_rewrite Bool.andb_true_iff in X. setoid_rewrite Bool.andb_true_iff in X. setoid_rewrite Bool.andb_true_iff in X.
  setoid_rewrite Bool.andb_true_iff in X. setoid_rewrite Bool.andb_true_iff in X. setoid_rewrite Bool.andb_true_iff in X.
  exists k. split; [|split; [|exact L]].
  - constructor; auto; try lia; intros p Hp; destruct (X p Hp) as ((((((A & B) & C) & D) & E) & G) & H); try lia.
    intros ->. unfold in_stream. destruct s; [lia|exact I].
  - split; [intros p Hp; destruct (X p ltac:(lia)) as (_ & H)|destruct (X (k-1) ltac:(lia)) as (_ & H)].
    + replace (S p <? k) with true in H by lia. lia.
    + replace (S (k - 1) <? k) with false in H by lia. destruct (k =? 1) eqn:E; [left; lia|right; cbn [orb] in H; now apply Nat.ltb_lt].
Qed.

(** Two senders of two-packet messages. *)
Definition on_stream (i : N) : sender :=
  {| s_form := EightBit; s_group := 2; s_stream := i;
     s_sent := [(map N.of_nat (seq 0 15), [0x521E0000 + 256 * i; 0x01020304; 0x05060708; 0x090A0B0C; 0x52330000 + 256 * i + 13; 0x0E000000; 0; 0]%N)] |}.
Definition on_group : sender :=
  {| s_form := SevenBit; s_group := 2; s_stream := 0;
     s_sent := [(map N.of_nat (seq 0 8), [0x32160001; 0x02030405; 0x32320607; 0]%N); ([], [0x32000000; 0]%N)] |}.

Ltac next_from n :=
  lazymatch goal with |- interleaved ?ls _ =>
    let a := eval cbv [firstn] in (firstn n ls) in let b := eval cbv [skipn] in (skipn n ls) in
    lazymatch b with (?x :: ?l) :: ?r => change ls with (a ++ (x :: l) :: r); apply one_more; cbn [app] end end.

Example C46_case : let ss := [on_stream 7; on_group; on_stream 8] in
  Forall proper ss /\ NoDup (map identity ss)
  /\ exists pss ps, Forall2 (fun s q => packets_of (map (fun m => (sysex_of (s_form s), snd m)) (s_sent s)) q) ss pss
       /\ interleaved pss ps
       /\ map (fun p => firstn 1 (packet_data p)) ps = [[0x32160001]; [0x521E0800]; [0x521E0700]; [0x32320607]; [0x5233070D]; [0x32000000]; [0x5233080D]]%N.
Proof.
  cbv zeta. split; [|split].
  - repeat apply Forall_cons; try apply Forall_nil; (split; [reflexivity|split; [reflexivity|]]); repeat apply Forall_cons; try apply Forall_nil;
      first [apply (small_message _ 2); solve [auto|vm_compute; reflexivity]|apply (small_message _ 1); solve [auto|vm_compute; reflexivity]].
  - repeat constructor; cbn; intuition discriminate.
  - eexists [[_; _]; [_; _; _]; [_; _]], _. split; [|split].
    + repeat apply Forall2_cons; try apply Forall2_nil; (eexists; split; [repeat apply Forall2_cons; try apply Forall2_nil; vm_compute; reflexivity|reflexivity]).
    + next_from 1. next_from 2. next_from 0. next_from 1. next_from 0. next_from 1. next_from 2. apply all_sent. repeat constructor.
    + reflexivity.
Qed.

(** Stream ids do tell messages apart: a receiver that goes by group alone mixes two 8-bit messages of
    one group up, and hands out a message nobody sent or an error. *)
Definition group_key (p : packet) : outcome N := packet_group p.
Theorem C46_group_only_refuted : exists s s' q q' ps st out,
  proper s /\ proper s' /\ s_group s = s_group s' /\ s_stream s <> s_stream s'
  /\ packets_of (map (fun m => (sysex_of (s_form s), snd m)) (s_sent s)) q
  /\ packets_of (map (fun m => (sysex_of (s_form s'), snd m)) (s_sent s')) q'
  /\ interleaved [q; q'] ps /\ receive_all group_key [] ps = Val (st, out)
  /\ forall m, In m (s_sent s) \/ In m (s_sent s') -> ~ In (Ok (CSysex8, snd m)) (map snd out).
Proof.
  exists (on_stream 7), (on_stream 8). do 5 eexists.
  split; [split; [reflexivity|split; [reflexivity|]]; repeat apply Forall_cons; try apply Forall_nil; apply (small_message _ 2); solve [auto|vm_compute; reflexivity]|].
  split; [split; [reflexivity|split; [reflexivity|]]; repeat apply Forall_cons; try apply Forall_nil; apply (small_message _ 2); solve [auto|vm_compute; reflexivity]|].
  split; [reflexivity|]. split; [discriminate|].
  split; [eexists [[_; _]]; split; [repeat apply Forall2_cons; try apply Forall2_nil; vm_compute; reflexivity|reflexivity]|].
  split; [eexists [[_; _]]; split; [repeat apply Forall2_cons; try apply Forall2_nil; vm_compute; reflexivity|reflexivity]|].
  split; [cbn [List.concat app]; next_from 0; next_from 1; next_from 0; next_from 1; apply all_sent; repeat constructor|].
  split; [vm_compute; reflexivity|]. cbn. intros m [[<-|[]]|[<-|[]]]; intuition discriminate.
Qed.
Print Assumptions C46_group_only_refuted.
