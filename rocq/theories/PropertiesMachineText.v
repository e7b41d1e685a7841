(** C56: builds.  Every build of the library, with or without overflow checks and debug
    assertions and for any size of [usize], writes and reads text messages and the payload of
    packets like the unbounded model of Text.v and Packet.v, provided the texts fit the
    machine ([holds_units], SpecMachineText.v).

    The functions ending in [_m] are those of MachineText.v, for the build [bd]. *)
From Coq Require Import NArith List String Bool Arith Lia ZifyN ZifyNat ZifyBool.
From Verif Require Import Base BitOps Message Sysex Text SpecText TextClient TextLemmas TextFlexInit TextStreamMore TextParse TextHistory TextFresh TextUtf8
  PropertiesText.
From Verif Require Import SpecSysex SpecEdits Packet SpecPacket PacketRead PropertiesPacket.
From Verif Require Import Machine SpecMachine MachineLemmas MachineText SpecMachineText MachineTextLemmas.
Import ListNotations.
Local Open Scope nat_scope.

(** ** Single calls, whatever the buffer holds *)

Theorem C56_flex_set_text : forall bd b t, holds_units bd (List.length t) ->
  flex_set_text_m bd b t = flex_set_text b t /\ flex_try_set_text_m bd b t = flex_try_set_text b t.
Proof. unfold holds_units. intros bd b t H. split; [apply flex_set_text_m_ok|apply flex_try_set_text_m_ok]; lia. Qed.
Print Assumptions C56_flex_set_text.
Theorem C56_stream_set_text : forall bd K b t, In K stream_texts -> holds_units bd (List.length t) ->
  stream_set_text_m bd (sk_off K) b t = stream_set_text (sk_off K) b t
  /\ stream_try_set_text_m bd (sk_off K) b t = stream_try_set_text (sk_off K) b t.
Proof.
  unfold holds_units. intros bd K b t HK H. pose proof (proj2 (stream_in K HK)) as O.
  split; [apply stream_set_text_m_ok|apply stream_try_set_text_m_ok]; lia.
Qed.
Print Assumptions C56_stream_set_text.

Lemma holds_readable bd b : holds_units bd (List.length b) -> readable bd b.
Proof. unfold holds_units, readable. lia. Qed.

Lemma string_read bd f b l : ti_collect_m bd f (text_bytes b) = Val l ->
  (is_string l -> text_string_m bd f b = Val l) /\ (~ is_string l -> text_string_m bd f b = Panic).
Proof.
  unfold text_string_m. intros ->. cbn [bind]. split; intros H; destruct (utf8_ok l) eqn:E; try reflexivity.
  - exfalso. apply utf8_spec in H. congruence.
  - exfalso. now apply H, utf8_spec.
Qed.

(** Any slice: parsing, data and the text. *)
Theorem C56_flex_read : forall bd K b, In K flex_texts -> holds_units bd (List.length b) ->
  (forall r, flex_try_from K b = Val r -> flex_try_from_m bd K b = Val r)
  /\ flex_data_m bd b = flex_data b
  /\ (4 <= List.length b -> flex_text_bytes_m bd b = Val (flex_reading b)
      /\ (is_string (flex_reading b) -> flex_text_m bd b = Val (flex_reading b))
      /\ (~ is_string (flex_reading b) -> flex_text_m bd b = Panic)
      /\ forall n, ti_calls_m n bd flex_form (text_bytes b) = Val (firstn n (map Some (flex_reading b) ++ repeat None n))).
Proof.
  intros bd K b HK H. apply holds_readable in H. split; [intros r; now apply flex_try_from_refines|].
  split; [now apply flex_data_m_ok|]. intros L.
  assert (T : flex_text_bytes_m bd b = Val (flex_reading b))
    by (apply (collect_refines bd flex_form b); [now left|exact H|]; exact (flex_bytes_any b L)).
  split; [exact T|]. destruct (string_read _ _ _ _ T) as [S0 S1]. split; [exact S0|]. split; [exact S1|].
  intros n. apply (calls_refines bd flex_form); [now left|split; cbn; lia|exact H|]. now apply C41_flex_iterator.
Qed.
Print Assumptions C56_flex_read.
Theorem C56_stream_read : forall bd K b, In K stream_texts -> holds_units bd (List.length b) ->
  (forall r, stream_try_from K b = Val r -> stream_try_from_m bd K b = Val r)
  /\ stream_data_m bd b = stream_data b
  /\ (4 <= List.length b -> stream_text_bytes_m bd K b = Val (stream_reading (sk_off K) b)
      /\ (is_string (stream_reading (sk_off K) b) -> stream_text_m bd K b = Val (stream_reading (sk_off K) b))
      /\ (~ is_string (stream_reading (sk_off K) b) -> stream_text_m bd K b = Panic)
      /\ forall n, ti_calls_m n bd (stream_form (sk_off K)) (text_bytes b)
                   = Val (firstn n (map Some (stream_reading (sk_off K) b) ++ repeat None n))).
Proof.
  intros bd K b HK H. apply holds_readable in H. pose proof (proj2 (stream_in K HK)) as O.
  split; [intros r; now apply stream_try_from_refines|].
  split; [now apply stream_data_m_ok|]. intros L.
  assert (T : stream_text_bytes_m bd K b = Val (stream_reading (sk_off K) b))
    by (apply (collect_refines bd (stream_form (sk_off K)) b); [now apply okt_off|exact H|]; exact (stream_bytes_any (sk_off K) b O L)).
  split; [exact T|]. destruct (string_read _ _ _ _ T) as [S0 S1]. split; [exact S0|]. split; [exact S1|].
  intros n. apply (calls_refines bd (stream_form (sk_off K))); [now apply okt_off|split; cbn [ti_packet ti_byte ti_data tf_cap stream_form text_bytes]; lia|exact H|]. now apply C41_stream_iterator.
Qed.
Print Assumptions C56_stream_read.

(** ** Histories *)

Lemma run_all_ext {E} (P : E -> Prop) (f g : E -> list N -> outcome (list N)) h : Forall P h ->
  (forall e b, P e -> f e b = g e b) -> forall b, run_all f h b = run_all g h b.
Proof.
  intros F X. induction F as [|e h Pe _ IH]; intros b; [reflexivity|]. cbn [run_all]. rewrite X by exact Pe.
  destruct (g e b) as [b'|]; [apply IH|reflexivity].
Qed.
Lemma run_try_ext {E} (P : E -> Prop) (f g : E -> list N -> outcome (list N * bool)) h : Forall P h ->
  (forall e b, P e -> f e b = g e b) -> forall b, run_try f h b = run_try g h b.
Proof.
  intros F X. induction F as [|e h Pe _ IH]; intros b; [reflexivity|]. cbn [run_try]. rewrite X by exact Pe.
  destruct (g e b) as [r|]; [cbn [bind]; now rewrite IH|reflexivity].
Qed.
Lemma flex_do_m_ok bd e b : flex_edit_fits bd e -> flex_do_m bd e b = flex_do e b.
Proof. destruct e; intros H; try reflexivity. apply C56_flex_set_text, H. Qed.
Lemma flex_try_do_m_ok bd e b : flex_edit_fits bd e -> flex_try_do_m bd e b = flex_try_do e b.
Proof. destruct e; intros H; try reflexivity. apply C56_flex_set_text, H. Qed.
Lemma stream_do_m_ok bd K e b : In K stream_texts -> stream_edit_fits bd e -> stream_do_m bd (sk_off K) e b = stream_do (sk_off K) e b.
Proof. destruct e; intros HK H; try reflexivity. now apply C56_stream_set_text. Qed.
Lemma stream_try_do_m_ok bd K e b : In K stream_texts -> stream_edit_fits bd e ->
  stream_try_do_m bd (sk_off K) e b = stream_try_do (sk_off K) e b.
Proof. destruct e; intros HK H; try reflexivity. now apply C56_stream_set_text. Qed.

(** The text of a message comes from one of the calls. *)
Lemma flex_text_fits bd h : Forall (flex_edit_fits bd) h -> forall s, holds_units bd (List.length (fs_text s)) ->
  holds_units bd (List.length (fs_text (fold_left (flex_after None) h s))).
Proof.
  induction 1 as [|e h He _ IH]; intros s Hs; [exact Hs|]. cbn [fold_left]. apply IH. unfold flex_after. destruct (negb _); [exact Hs|].
  destruct e; cbn [fs_text]; assumption.
Qed.
Lemma stream_text_fits bd off h : Forall (stream_edit_fits bd) h -> forall s, holds_units bd (List.length (ss_name s)) ->
  holds_units bd (List.length (ss_name (fold_left (stream_after off None) h s))).
Proof.
  induction 1 as [|e h He _ IH]; intros s Hs; [exact Hs|]. cbn [fold_left]. apply IH. unfold stream_after. destruct (negb _); [exact Hs|].
  destruct e; cbn [ss_name]; assumption.
Qed.
Lemma packets_fit bd room n b : 12 <= room <= 14 -> holds_units bd n -> List.length b = 4 * text_packets room n -> readable bd b.
Proof.
  unfold holds_units, readable, text_packets. intros R H ->. destruct (Nat.eqb_spec n 0); [lia|].
  pose proof (Nat.div_mod (n + room - 1) room ltac:(lia)) as D. set (q := (n + room - 1) / room) in *. clearbody q.
  assert (12 * q <= n + 13) by nia. lia.
Qed.

Theorem C56_flex_histories : forall bd K h, In K flex_texts -> Forall flex_edit_ok h -> Forall (flex_edit_fits bd) h ->
  holds_units bd 0 ->
  let s := fold_left (flex_after None) h flex_fresh in
  exists b, (x <- flex_new K ;; run_all (flex_do_m bd) h x) = Val b
    /\ flex_text_bytes_m bd b = Val (without_nul (kept (fs_text s)))
    /\ flex_data_m bd b = Val b
    /\ all_bytes b = flex_wire (fk_bank K) (fk_status K) (fs_group s) (fs_channel s) (fs_text s)
    /\ (is_string (without_nul (kept (fs_text s))) -> flex_try_from_m bd K b = Val (Ok b)).
Proof.
  intros bd K h HK Hh Hf H0 s. destruct (C42_flex_histories K h HK Hh) as (b & E & _ & _ & T & D & W & P).
  assert (L : List.length b = 4 * text_packets 12 (List.length (fs_text s))).
  { destruct (flex_new_fresh K (flex_in K HK)) as (b0 & E0 & L0 & S0). rewrite E0 in E. cbn [bind] in E.
    destruct (flex_history _ _ h flex_fresh b0 Hh S0 L0) as (b' & E' & _ & L1). rewrite E in E'. injection E' as <-. exact L1. }
  assert (B : readable bd b).
  { apply (packets_fit bd 12 (List.length (fs_text s))); [lia| |exact L]. now apply flex_text_fits. }
  exists b. split.
  - rewrite <- E. destruct (flex_new K) as [x|]; [|reflexivity]. cbn [bind]. apply (run_all_ext _ _ _ _ Hf). apply flex_do_m_ok.
  - split; [apply (collect_refines bd flex_form b); [now left|exact B|exact T]|].
    split; [now rewrite flex_data_m_ok|]. split; [exact W|]. intros S. apply flex_try_from_refines; [exact B|now apply P].
Qed.
Print Assumptions C56_flex_histories.

Theorem C56_flex_fixed_histories : forall bd K h n, In K flex_texts -> Forall flex_edit_ok h -> Forall (flex_edit_fits bd) h ->
  4 <= n -> holds_units bd n ->
  let room := Some (n / 4) in
  let s := fold_left (flex_after room) h flex_fresh in
  exists b d, (x <- unwrap (flex_try_new K n) ;; run_try (flex_try_do_m bd) h x) = Val (b, map (flex_accepted room) h)
    /\ flex_text_bytes_m bd b = Val (without_nul (firstn (12 * (n / 4) - 1) (fs_text s)))
    /\ flex_data_m bd b = Val d /\ (exists rest, b = d ++ rest)
    /\ all_bytes d = flex_wire (fk_bank K) (fk_status K) (fs_group s) (fs_channel s) (fs_text s)
    /\ (is_string (without_nul (kept (fs_text s))) -> flex_try_from_m bd K d = Val (Ok d)).
Proof.
  intros bd K h n HK Hh Hf Hn H0 room s. destruct (C42_flex_fixed_histories K h n HK Hh Hn) as (b & d & E & _ & _ & T & D & R & W & P).
  assert (L : List.length b = n).
  { pose proof (flex_try_new_fresh K n (flex_in K HK)) as N0. replace (n <? 4) with false in N0 by lia. destruct N0 as (b0 & E0 & L0 & S0).
    rewrite E0 in E. cbn [unwrap bind] in E.
    destruct (flex_try_history _ _ h n flex_fresh b0 Hh S0 L0) as (b' & E' & _ & L1). rewrite E in E'. injection E' as <-. exact L1. }
  assert (B : readable bd b) by (apply holds_readable; now rewrite L).
  assert (Bd : readable bd d) by (destruct R as (rest & ->); unfold readable in *; rewrite app_length in B; lia).
  exists b, d. split.
  - refine (eq_trans _ E). destruct (unwrap _) as [x|]; [|reflexivity]. cbn [bind]. apply (run_try_ext _ _ _ _ Hf). apply flex_try_do_m_ok.
  - split; [apply (collect_refines bd flex_form b); [now left|exact B|exact T]|].
    split; [now rewrite flex_data_m_ok|]. split; [exact R|]. split; [exact W|]. intros S. apply flex_try_from_refines; [exact Bd|now apply P].
Qed.
Print Assumptions C56_flex_fixed_histories.

Theorem C56_stream_histories : forall bd K h, In K stream_texts -> Forall (stream_edit_ok (sk_off K)) h ->
  Forall (stream_edit_fits bd) h -> holds_units bd 0 ->
  let s := fold_left (stream_after (sk_off K) None) h stream_fresh in
  exists b, (x <- stream_new K ;; run_all (stream_do_m bd (sk_off K)) h x) = Val b
    /\ stream_text_bytes_m bd K b = Val (without_nul (ss_name s))
    /\ stream_data_m bd b = Val b
    /\ all_bytes b = stream_wire (sk_status K) (block_numbers K s) (ss_name s)
    /\ (is_string (ss_name s) -> one_block K s -> stream_try_from_m bd K b = Val (Ok b)).
Proof.
  intros bd K h HK Hh Hf H0 s. destruct (C42_stream_histories K h HK Hh) as (b & E & T & _ & D & W & P).
  pose proof (proj2 (stream_in K HK)) as O.
  assert (L : List.length b = 4 * text_packets (14 - sk_off K) (List.length (ss_name s))).
  { destruct (stream_new_fresh K (stream_in K HK)) as (b0 & E0 & L0 & S0). rewrite E0 in E. cbn [bind] in E.
    destruct (stream_history K h stream_fresh b0 Hh S0 L0) as (b' & E' & _ & L1). rewrite E in E'. injection E' as <-. exact L1. }
  assert (B : readable bd b).
  { apply (packets_fit bd (14 - sk_off K) (List.length (ss_name s))); [lia| |exact L]. now apply stream_text_fits. }
  exists b. split.
  - rewrite <- E. destruct (stream_new K) as [x|]; [|reflexivity]. cbn [bind]. apply (run_all_ext _ _ _ _ Hf).
    intros e x'. now apply stream_do_m_ok.
  - split; [apply (collect_refines bd (stream_form (sk_off K)) b); [now apply okt_off|exact B|exact T]|].
    split; [now rewrite stream_data_m_ok|]. split; [exact W|]. intros S1 S2. apply stream_try_from_refines; [exact O|exact B|now apply P].
Qed.
Print Assumptions C56_stream_histories.

Theorem C56_stream_fixed_histories : forall bd K h n, In K stream_texts -> Forall (stream_edit_ok (sk_off K)) h ->
  Forall (stream_edit_fits bd) h -> 4 <= n -> holds_units bd n ->
  let room := Some (n / 4) in
  let s := fold_left (stream_after (sk_off K) room) h stream_fresh in
  exists b d, (x <- unwrap (stream_try_new K n) ;; run_try (stream_try_do_m bd (sk_off K)) h x)
                = Val (b, map (stream_accepted (sk_off K) room) h)
    /\ stream_text_bytes_m bd K b = Val (without_nul (ss_name s))
    /\ stream_data_m bd b = Val d /\ (exists rest, b = d ++ rest)
    /\ all_bytes d = stream_wire (sk_status K) (block_numbers K s) (ss_name s)
    /\ (is_string (ss_name s) -> one_block K s -> stream_try_from_m bd K d = Val (Ok d)).
Proof.
  intros bd K h n HK Hh Hf Hn H0 room s. destruct (C42_stream_fixed_histories K h n HK Hh Hn) as (b & d & E & T & _ & D & R & W & P).
  pose proof (proj2 (stream_in K HK)) as O.
  assert (L : List.length b = n).
  { pose proof (stream_try_new_fresh K n (stream_in K HK)) as N0. replace (n <? 4) with false in N0 by lia. destruct N0 as (b0 & E0 & L0 & S0).
    rewrite E0 in E. cbn [unwrap bind] in E.
    destruct (stream_try_history K h n stream_fresh b0 Hh S0 L0) as (b' & E' & _ & L1). rewrite E in E'. injection E' as <-. exact L1. }
  assert (B : readable bd b) by (apply holds_readable; now rewrite L).
  assert (Bd : readable bd d) by (destruct R as (rest & ->); unfold readable in *; rewrite app_length in B; lia).
  exists b, d. split.
  - refine (eq_trans _ E). destruct (unwrap _) as [x|]; [|reflexivity]. cbn [bind]. apply (run_try_ext _ _ _ _ Hf).
    intros e x'. now apply stream_try_do_m_ok.
  - split; [apply (collect_refines bd (stream_form (sk_off K)) b); [now apply okt_off|exact B|exact T]|].
    split; [now rewrite stream_data_m_ok|]. split; [exact R|]. split; [exact W|]. intros S1 S2. apply stream_try_from_refines; [exact O|exact Bd|now apply P].
Qed.
Print Assumptions C56_stream_fixed_histories.

(** [usize] of [n] bits. *)
Definition usize_bits (n : N) : nat := N.to_nat (2 ^ n).
Lemma holds_bits bd n k : usize_values bd = usize_bits n -> (100 * N.of_nat (k + 16) <=? 2 ^ n)%N = true -> holds_units bd k.
Proof. unfold usize_bits, holds_units. intros -> H. lia. Qed.
Ltac fits_usize n := apply (holds_bits _ n); [reflexivity|vm_compute; reflexivity].
Example C56_case :
  let h := [FText (letters 40); FGroup 3; FText (letters 25); FChannel (Some 2%N)] in
  Forall flex_edit_ok h
  /\ Forall (flex_edit_fits (release (usize_bits 16))) h /\ Forall (flex_edit_fits (dev (usize_bits 32))) h
  /\ holds_units (release (usize_bits 16)) 0 /\ holds_units (dev (usize_bits 64)) 1000
  /\ exists b, (x <- flex_new {| fk_name := "Lyrics"; fk_bank := 2; fk_status := 1 |} ;; run_all (flex_do_m (release 4000)) h x) = Val b
       /\ List.length b = 12 /\ flex_text_bytes_m (release 4000) b = Val (letters 25).
Proof.
  cbn zeta. split.
  { repeat constructor; cbn [flex_edit_ok]; try lia; try (apply string_bytes, letters_string). intros c E. injection E as <-. lia. }
  split. { repeat (apply Forall_cons; [first [exact I|cbn [flex_edit_fits]; fits_usize 16%N]|]). apply Forall_nil. }
  split. { repeat (apply Forall_cons; [first [exact I|cbn [flex_edit_fits]; fits_usize 32%N]|]). apply Forall_nil. }
  split; [fits_usize 16%N|]. split; [fits_usize 64%N|]. eexists. computed.
Qed.

(** ** The payload of packets *)

Theorem C56_packet_payload : forall bd fm cs p l, 64 <= usize_values bd -> Forall (call_fits bd) cs ->
  run_payload fm cs (packet_payload p) = Val l -> run_payload_m bd fm cs (packet_payload p) = Val l.
Proof.
  intros bd fm cs p l B F. apply payload_calls_refines; [exact B|cbn; lia|].
  apply (Forall_impl _ (P := call_fits bd)); [|exact F]. intros [|n]; cbn; lia.
Qed.
Print Assumptions C56_packet_payload.
(** A packet whose size code exists gives its payload to any number of [next] calls, then [None]. *)
Theorem C56_packet_next : forall bd fm b p n, 64 <= usize_values bd ->
  packet_try_from b = Val (Ok p) -> fst p = variant (sysex_family fm) ->
  (size_bias fm <= size_field b <= size_bias fm + N.of_nat (packet_room fm))%N ->
  run_payload_m bd fm (repeat Next n) (packet_payload p)
  = Val (answers (repeat Next n) (map (fun i => unit_of fm (byte (packet_data p) (header_bytes fm + i))) (seq 0 (N.to_nat (size_field b - size_bias fm))))).
Proof.
  intros bd fm b p n B E K S. apply C56_packet_payload; [exact B| |now apply C27_packet_next].
  apply Forall_forall. intros c I. apply repeat_spec in I. now subst.
Qed.
Print Assumptions C56_packet_next.
Theorem C56_packet7_calls : forall bd b p cs, 64 <= usize_values bd -> Forall (call_fits bd) cs ->
  packet_try_from b = Val (Ok p) -> fst p = PSysex7 ->
  let l := map (fun i => unit_of SevenBit (byte (packet_data p) (2 + i))) (seq 0 (N.to_nat (size_field b))) in
  within cs l \/ List.length l = 6 ->
  run_payload_m bd SevenBit cs (packet_payload p) = Val (answers cs l).
Proof. intros bd b p cs B F E K l W. apply C56_packet_payload; [exact B|exact F|now apply C27_packet7_calls]. Qed.
Print Assumptions C56_packet7_calls.
Example C56_packet_case : exists p, packet_try_from [0x50150902; 0x03040506; 0; 0]%N = Val (Ok p)
  /\ run_payload_m (release 4000) EightBit (repeat Next 5) (packet_payload p)
     = Val [(Some 2, 3%nat); (Some 3, 2%nat); (Some 4, 1%nat); (Some 5, 0%nat); (None, 0%nat)]%N
  /\ Forall (call_fits (release 4000)) [Next; Nth 3].
Proof.
  eexists. split; [reflexivity|]. split; [reflexivity|]. apply Forall_cons; [exact I|]. apply Forall_cons; [|apply Forall_nil].
  apply Nat.leb_le. reflexivity.
Qed.

(** A sysex8 packet with a size code that does not exist is accepted; a debug build panics when its payload is read, a
    release build yields what is not payload. *)
Theorem C56_packet8_size_refuted : forall m, 64 <= m -> exists b p, packet_try_from b = Val (Ok p)
  /\ run_payload_m (dev m) EightBit [Next] (packet_payload p) = Panic
  /\ run_payload_m (release m) EightBit [Next] (packet_payload p) = Val [(Some 0x77%N, m - 2)].
Proof.
  intros m H. exists [0x50300977; 0; 0; 0]%N. eexists. split; [reflexivity|].
  unfold packet_payload. cbn [snd]. match goal with |- context [{| pi_data := ?x |}] => change x with [0x50300977; 0; 0; 0]%N end.
  cbn [run_payload_m]. 
  assert (Sd : forall i, pi_size8_m (dev m) {| pi_data := [0x50300977; 0; 0; 0]%N; pi_index := i |} = Panic) by reflexivity.
  assert (Sr : forall i, pi_size8_m (release m) {| pi_data := [0x50300977; 0; 0; 0]%N; pi_index := i |} = Val (m - 1)).
  { intros i. unfold pi_size8_m. cbn [idx pi_data nth_error bind].
    assert (R : msub (release m) (N.to_nat (nibble32 0x50300977 3)) 1 = Val (m - 1)) by reflexivity.
    rewrite R. cbn [bind]. unfold massert. now destruct (_ <=? _). }
  unfold pi_next8_m. rewrite Sd, Sr. split; [reflexivity|]. cbn [bind pi_index]. replace (m - 1 <=? 0) with false by lia.
  rewrite !madd_ok by (cbn [release usize_values]; lia). cbn [Nat.add bind pi_data].
  assert (G : get_unit fmt8 [0x50300977; 0; 0; 0]%N (3 / 4) (3 mod 4) = Val 0x77%N) by reflexivity. rewrite G. cbn [bind].
  unfold pi_len8_m, pi_at. cbn [snd pi_data]. rewrite Sr. cbn [bind fst pi_index].
  rewrite msub_ok by lia. cbn [bind]. do 3 f_equal. lia.
Qed.
Print Assumptions C56_packet8_size_refuted.
(** [nth] beyond the end of a packet, then [len]. *)
Theorem C56_packet7_nth_refuted : forall m, 64 <= m -> exists b p, packet_try_from b = Val (Ok p)
  /\ run_payload_m (dev m) SevenBit [Nth 5] (packet_payload p) = Panic
  /\ run_payload_m (release m) SevenBit [Nth 5] (packet_payload p) = Val [(None, m - 3)].
Proof.
  intros m H. exists [0x30020102; 0]%N. eexists. split; [reflexivity|].
  unfold packet_payload. cbn [snd]. match goal with |- context [{| pi_data := ?x |}] => change x with [0x30020102; 0]%N end.
  cbn [run_payload_m].
  assert (S : forall bd i, pi_size7_m bd {| pi_data := [0x30020102; 0]%N; pi_index := i |} = Val 2) by reflexivity.
  unfold pi_nth7_m. rewrite !S. cbn [pi_index]. rewrite !madd_ok by (cbn [release dev usize_values]; lia).
  cbn [Nat.add bind Nat.leb Nat.min snd fst]. unfold pi_len7_m, pi_at. cbn [pi_data]. rewrite !S. cbn [bind pi_index].
  split; [reflexivity|]. unfold msub. cbn [Nat.leb release overflow_checks usize_values bind]. do 3 f_equal.
Qed.
Print Assumptions C56_packet7_nth_refuted.
