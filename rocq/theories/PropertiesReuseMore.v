(** C70 for messages of several packets: texts and payloads that are set anew. *)
From Coq Require Import NArith List String Bool Arith Lia.
From Verif Require Import Base Sysex Splice SpecSysex SpecEdits SpecSysexWire SysexClient Clients Text SpecText TextClient TextFlexInit TextHistory TextFresh
  PropertiesRebuildSysex PropertiesSysex PropertiesText.
Import ListNotations.
Local Open Scope nat_scope.

Ltac calls_ok := first [apply Forall_nil | apply Forall_cons;
  [cbn [flex_edit_ok stream_edit_ok];
   first [lia | intros c E; discriminate E | intros c E; injection E as <-; lia | split; [reflexivity|lia] | repeat constructor] | calls_ok]].

(** ** Flex data texts *)

(** After any calls: group, channel and text set anew, the text last, make the message those three calls make of a new one. *)
Theorem C70_flex : forall K h g o t, In K flex_texts -> Forall flex_edit_ok h ->
  Forall flex_edit_ok [FGroup g; FChannel o; FText t] ->
  exists b c, (x <- flex_new K ;; run_all flex_do (h ++ [FGroup g; FChannel o; FText t]) x) = Val b
    /\ (x <- flex_new K ;; run_all flex_do [FGroup g; FChannel o; FText t] x) = Val c
    /\ all_bytes b = all_bytes c /\ all_bytes b = flex_wire (fk_bank K) (fk_status K) g (fun _ => o) t.
Proof.
  intros K h g o t HK Hh Hg.
  destruct (C42_flex_histories K (h ++ [FGroup g; FChannel o; FText t]) HK) as (b & Eb & _ & _ & _ & _ & Wb & _); [now apply Forall_app|].
  destruct (C42_flex_histories K [FGroup g; FChannel o; FText t] HK Hg) as (c & Ec & _ & _ & _ & _ & Wc & _).
  exists b, c. split; [exact Eb|]. split; [exact Ec|]. rewrite fold_left_app in Wb. cbn [fold_left] in Wb, Wc.
  split; [rewrite Wb, Wc; reflexivity|rewrite Wb; reflexivity].
Qed.
Print Assumptions C70_flex.

(** The same in an array, where the calls before may have been refused, for a text that fits. *)
Theorem C70_flex_fixed : forall K h g o t n, In K flex_texts -> Forall flex_edit_ok h -> 4 <= n ->
  Forall flex_edit_ok [FGroup g; FChannel o; FText t] -> fits (Some (n / 4)) (text_packets 12 (List.length t)) = true ->
  let last := [FGroup g; FChannel o; FText t] in
  exists b c d d', (x <- unwrap (flex_try_new K n) ;; run_try flex_try_do (h ++ last) x)
                     = Val (b, map (flex_accepted (Some (n / 4))) h ++ [true; true; true])
    /\ (x <- unwrap (flex_try_new K n) ;; run_try flex_try_do last x) = Val (c, [true; true; true])
    /\ flex_data b = Val d /\ flex_data c = Val d'
    /\ all_bytes d = all_bytes d' /\ all_bytes d = flex_wire (fk_bank K) (fk_status K) g (fun _ => o) t.
Proof.
  intros K h g o t n HK Hh Hn Hg F last. assert (A : flex_accepted (Some (n / 4)) (FText t) = true) by exact F.
  destruct (C42_flex_fixed_histories K (h ++ last) n HK) as (b & d & Eb & _ & _ & _ & Db & _ & Wb & _); [now apply Forall_app|exact Hn|].
  destruct (C42_flex_fixed_histories K last n HK Hg Hn) as (c & d' & Ec & _ & _ & _ & Dc & _ & Wc & _).
  unfold last in *. rewrite map_app in Eb. cbn [map] in Eb, Ec. rewrite A in Eb, Ec. rewrite fold_left_app in Wb. cbn [fold_left] in Wb, Wc.
  revert Wb. generalize (fold_left (flex_after (Some (n / 4))) h flex_fresh). intros s Wb. unfold flex_after in Wb, Wc. rewrite A in Wb, Wc. cbn [negb flex_accepted fs_group fs_channel fs_text Nat.eqb] in Wb, Wc.
  exists b, c, d, d'. repeat (split; [assumption|]). split; [etransitivity; [exact Wb|symmetry; exact Wc]|exact Wb].
Qed.
Print Assumptions C70_flex_fixed.

(** Refuted: with the channel set after the text, packets after the first keep the channel of the time before. *)
Theorem C70_flex_channel_last_refuted : forall K, In K flex_texts -> exists h last b c,
  Forall flex_edit_ok h /\ Forall flex_edit_ok last /\ last = [FGroup 5%N; FText (repeat 65%N 13); FChannel None]
  /\ (x <- flex_new K ;; run_all flex_do (h ++ last) x) = Val b /\ (x <- flex_new K ;; run_all flex_do last x) = Val c
  /\ all_bytes b <> all_bytes c.
Proof.
  intros K HK. set (last := [FGroup 5%N; FText (repeat 65%N 13); FChannel None]). set (h := [FChannel (Some 3%N)]).
  assert (Hh : Forall flex_edit_ok h) by calls_ok.
  assert (Hl : Forall flex_edit_ok last) by calls_ok.
  destruct (C42_flex_histories K (h ++ last) HK) as (b & Eb & _ & _ & _ & _ & Wb & _); [now apply Forall_app|].
  destruct (C42_flex_histories K last HK Hl) as (c & Ec & _ & _ & _ & _ & Wc & _).
  exists h, last, b, c. repeat (split; [first [assumption|reflexivity]|]). rewrite Wb, Wc. intros X.
  apply (f_equal (fun l => nth 17 l 0%N)) in X. cbn -[N.add N.mul N.div N.modulo] in X. vm_compute in X. discriminate X.
Qed.
Print Assumptions C70_flex_channel_last_refuted.

(** ** Stream texts *)

(** After any calls: a name set anew, and then, in function block names, the block number. *)
Theorem C70_stream : forall K h v t, In K stream_texts -> Forall (stream_edit_ok (sk_off K)) h ->
  let last := SName t :: if sk_off K =? 1 then [SBlock v] else [] in
  Forall (stream_edit_ok (sk_off K)) last ->
  exists b c, (x <- stream_new K ;; run_all (stream_do (sk_off K)) (h ++ last) x) = Val b
    /\ (x <- stream_new K ;; run_all (stream_do (sk_off K)) last x) = Val c
    /\ all_bytes b = all_bytes c
    /\ all_bytes b = stream_wire (sk_status K) (if sk_off K =? 1 then Some (fun _ => v) else None) t.
Proof.
  intros K h v t HK Hh last Hl.
  destruct (C42_stream_histories K (h ++ last) HK) as (b & Eb & _ & _ & _ & Wb & _); [now apply Forall_app|].
  destruct (C42_stream_histories K last HK Hl) as (c & Ec & _ & _ & _ & Wc & _).
  exists b, c. split; [exact Eb|]. split; [exact Ec|]. rewrite fold_left_app in Wb.
  assert (W : forall s, stream_wire (sk_status K) (block_numbers K (fold_left (stream_after (sk_off K) None) last s))
      (ss_name (fold_left (stream_after (sk_off K) None) last s))
    = stream_wire (sk_status K) (if sk_off K =? 1 then Some (fun _ => v) else None) t).
  { intros s. unfold last, block_numbers. destruct (Nat.eqb_spec (sk_off K) 1) as [E|E]; [|reflexivity].
    cbn [fold_left stream_after stream_accepted fits negb ss_block ss_name]. rewrite E. change (14 - 1) with 13.
    apply stream_wire_ext. intros p Hp. replace (p <? _) with true by lia. reflexivity. }
  split; [etransitivity; [exact Wb|]; symmetry; etransitivity; [exact Wc|]; now rewrite !W|]. etransitivity; [exact Wb|apply W].
Qed.
Print Assumptions C70_stream.

(** The same in an array, for a name that fits. *)
Theorem C70_stream_fixed : forall K h v t n, In K stream_texts -> Forall (stream_edit_ok (sk_off K)) h -> 4 <= n ->
  let last := SName t :: if sk_off K =? 1 then [SBlock v] else [] in
  Forall (stream_edit_ok (sk_off K)) last -> fits (Some (n / 4)) (text_packets (14 - sk_off K) (List.length t)) = true ->
  exists b c d d', (x <- unwrap (stream_try_new K n) ;; run_try (stream_try_do (sk_off K)) (h ++ last) x)
                     = Val (b, map (stream_accepted (sk_off K) (Some (n / 4))) h ++ repeat true (List.length last))
    /\ (x <- unwrap (stream_try_new K n) ;; run_try (stream_try_do (sk_off K)) last x) = Val (c, repeat true (List.length last))
    /\ stream_data b = Val d /\ stream_data c = Val d' /\ all_bytes d = all_bytes d'
    /\ all_bytes d = stream_wire (sk_status K) (if sk_off K =? 1 then Some (fun _ => v) else None) t.
Proof.
  intros K h v t n HK Hh Hn last Hl F.
  assert (A : forall off, sk_off K = off -> stream_accepted off (Some (n / 4)) (SName t) = true) by (intros off <-; exact F).
  destruct (C42_stream_fixed_histories K (h ++ last) n HK) as (b & d & Eb & _ & _ & Db & _ & Wb & _); [now apply Forall_app|exact Hn|].
  destruct (C42_stream_fixed_histories K last n HK Hl Hn) as (c & d' & Ec & _ & _ & Dc & _ & Wc & _).
  rewrite fold_left_app in Wb. rewrite map_app in Eb.
  assert (M : map (stream_accepted (sk_off K) (Some (n / 4))) last = repeat true (List.length last)).
  { unfold last. cbn [map List.length repeat]. rewrite (A _ eq_refl). now destruct (sk_off K =? 1). }
  rewrite M in Eb, Ec.
  assert (W : forall s, stream_wire (sk_status K) (block_numbers K (fold_left (stream_after (sk_off K) (Some (n / 4))) last s))
      (ss_name (fold_left (stream_after (sk_off K) (Some (n / 4))) last s))
    = stream_wire (sk_status K) (if sk_off K =? 1 then Some (fun _ => v) else None) t).
  { intros s. unfold last, block_numbers. destruct (Nat.eqb_spec (sk_off K) 1) as [E|E]; cbn [fold_left]; unfold stream_after; rewrite !(A _ eq_refl);
      cbn [stream_accepted negb ss_block ss_name]; [|reflexivity].
    rewrite E in F. change (14 - 1) with 13 in F. cbn [fits] in F. apply Nat.leb_le in F.
    apply stream_wire_ext. intros p Hp. replace (p <? n / 4) with true by lia. reflexivity. }
  exists b, c, d, d'. split; [exact Eb|]. split; [exact Ec|]. split; [exact Db|]. split; [exact Dc|].
  split; [etransitivity; [exact Wb|]; symmetry; etransitivity; [exact Wc|]; now rewrite !W|]. etransitivity; [exact Wb|apply W].
Qed.
Print Assumptions C70_stream_fixed.

(** Refuted: a block number that is set before a longer name reaches the packets of the name before only, so that it
    matters how long that was. *)
Theorem C70_stream_block_first_refuted : forall K, In K stream_texts -> sk_off K = 1 -> exists h last b c,
  Forall (stream_edit_ok 1) h /\ Forall (stream_edit_ok 1) last /\ last = [SBlock 5%N; SName (repeat 65%N 14)]
  /\ (x <- stream_new K ;; run_all (stream_do 1) (h ++ last) x) = Val b /\ (x <- stream_new K ;; run_all (stream_do 1) last x) = Val c
  /\ all_bytes b <> all_bytes c.
Proof.
  intros K HK O. set (last := [SBlock 5%N; SName (repeat 65%N 14)]). set (h := [SName (repeat 66%N 14)]).
  assert (Hh : Forall (stream_edit_ok 1) h) by (repeat constructor).
  assert (Hl : Forall (stream_edit_ok 1) last) by calls_ok.
  rewrite <- O in Hh, Hl.
  destruct (C42_stream_histories K (h ++ last) HK) as (b & Eb & _ & _ & _ & Wb & _); [now apply Forall_app|].
  destruct (C42_stream_histories K last HK Hl) as (c & Ec & _ & _ & _ & Wc & _).
  exists h, last, b, c. rewrite O in Hh, Hl, Eb, Ec. repeat (split; [first [assumption|reflexivity]|]). rewrite Wb, Wc. intros X.
  unfold block_numbers in X. rewrite O in X.
  apply (f_equal (fun l => nth 18 l 0%N)) in X. vm_compute in X. discriminate X.
Qed.
Print Assumptions C70_stream_block_first_refuted.

(** ** System exclusive messages *)

Lemma payload_after h : forall g l l0, final_payload (h ++ [SetGroup g; SetPayload (listed l)]) l0 = l.
Proof. induction h as [|e h IH]; intros g l l0; [reflexivity|]. cbn [List.app final_payload]. apply IH. Qed.
Lemma group_after h : forall g l g0, final_group (h ++ [SetGroup g; SetPayload (listed l)]) g0 = g.
Proof. induction h as [|e h IH]; intros g l g0; [reflexivity|]. cbn [List.app final_group]. apply IH. Qed.
Lemma legal_then fm h : forall last l0, all_legal fm h l0 -> (forall l, all_legal fm last l) -> all_legal fm (h ++ last) l0.
Proof. induction h as [|e h IH]; intros last l0 H L; [apply L|]. destruct H as [H H']. split; [exact H|]. now apply IH. Qed.

(** After any edits: the group and a payload of more than one packet. *)
Theorem C70_sysex : forall fm h g l, all_legal fm h [] -> (g < 16)%N -> Forall (is_unit fm) l -> packet_room fm < List.length l ->
  let last := [SetGroup g; SetPayload (listed l)] in
  exists b0 b c, sx_new (fmt_for fm) = Val b0 /\ run_edits (apply_edit fm) (h ++ last) b0 = Val b
    /\ run_edits (apply_edit fm) last b0 = Val c /\ sent_bytes b = sent_bytes c /\ sent_bytes b = sysex_wire fm g l.
Proof.
  intros fm h g l Hh Hg Hl Lo last. assert (L : forall l0, all_legal fm last l0) by (intros l0; repeat split; auto).
  destruct (C53_sysex_long fm (h ++ last)) as (b0 & b & N & R & W); [now apply legal_then|unfold last; now rewrite payload_after|].
  destruct (C53_sysex_long fm last (L [])) as (b1 & c & N1 & R1 & W1); [exact Lo|].
  assert (b1 = b0) by congruence. subst b1. unfold last in W, W1. rewrite payload_after, group_after in W. cbn [final_payload final_group new_payload new_group] in W1.
  exists b0, b, c. repeat (split; [assumption|]). split; [|exact W]. etransitivity; [exact W|symmetry; exact W1].
Qed.
Print Assumptions C70_sysex.

(** As a stream of bytes: any payload. *)
Theorem C70_sysex_bytes : forall h l, all_legal SevenBit h [] -> Forall (is_unit SevenBit) l ->
  exists b0 b, new_b = Val b0 /\ run_edits apply_edit_b (h ++ [SetPayload (listed l)]) b0 = Val b
    /\ run_edits apply_edit_b [SetPayload (listed l)] b0 = Val b /\ b = stream_bytes l.
Proof.
  intros h l Hh Hl. assert (L : forall l0, all_legal SevenBit [SetPayload (listed l)] l0) by (intros l0; repeat split; auto).
  assert (P : forall h l0, final_payload (h ++ [SetPayload (listed l)]) l0 = l).
  { clear. induction h as [|e h IH]; intros l0; [reflexivity|]. cbn [List.app final_payload]. apply IH. }
  destruct (C34_bytes_histories (h ++ [SetPayload (listed l)])) as (b0 & b & N & R & W & _); [now apply legal_then|].
  destruct (C34_bytes_histories [SetPayload (listed l)] (L [])) as (b1 & c & N1 & R1 & W1 & _).
  assert (b1 = b0) by congruence. subst b1. rewrite P in W. cbn [final_payload new_payload] in W1. change (s_items (listed l)) with l in W1.
  exists b0, b. repeat (split; [assumption|]). split; [|exact W]. rewrite R1. f_equal. congruence.
Qed.
Print Assumptions C70_sysex_bytes.

(** Non-vacuity: messages that held something else before. *)
Example C70_case_more :
  let fs := [FChannel (Some 3%N); FText (repeat 66%N 30); FGroup 9%N] in
  let ss := [SName (repeat 66%N 30); SBlock 7%N] in
  let es := [SetGroup 7; SetPayload (listed (repeat 5 40)); AppendByte 6; SetByte 9 2]%N in
  Forall flex_edit_ok fs /\ Forall flex_edit_ok [FGroup 5%N; FChannel None; FText (repeat 65%N 13)]
  /\ fits (Some (8 / 4)) (text_packets 12 (List.length (repeat 65%N 13))) = true
  /\ Forall (stream_edit_ok 1) ss /\ Forall (stream_edit_ok 1) [SName (repeat 65%N 14); SBlock 5%N]
  /\ fits (Some (8 / 4)) (text_packets (14 - 1) (List.length (repeat 65%N 14))) = true
  /\ all_legal SevenBit es [] /\ Forall (is_unit SevenBit) (repeat 8%N 14) /\ packet_room SevenBit < List.length (repeat 8%N 14)
  /\ exists K, In K stream_texts /\ sk_off K = 1.
Proof.
  cbv zeta. repeat apply conj; try (vm_compute; reflexivity); try (cbn; lia).
  - calls_ok.
  - calls_ok.
  - calls_ok.
  - calls_ok.
  - repeat constructor.
  - repeat constructor.
  - eexists. split; [right; right; left; reflexivity|reflexivity].
Qed.
