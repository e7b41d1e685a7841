(** Property C52: system exclusive messages over a buffer type of the client's own, with
    room for [cap] units ([bounded_buffer], SpecCustom.v).

    [custom_edit] and [custom_edit_b] (CustomBuffer.v) call one of the crate's fallible
    methods; [fixed_history] (SpecEdits.v) is what the same calls do on an array. *)
From Coq Require Import NArith List String Bool Arith Lia ZifyBool ZifyNat ZifyN.
From Verif Require Import Base BitOps Helpers Message Sysex Splice SpecSysex SpecEdits SysexClient
  BitLemmas ListLemmas ByteView SysexLayout SysexRead SysexBridge SysexMore SysexInit SysexHistory SysexConvert SysexFixedBytes
  PropertiesSysex CustomBuffer SpecCustom CustomLemmas CustomMore.
Import ListNotations.
Local Open Scope nat_scope.

(** ** Construction *)

Lemma new_whole fm cap answer k : bounded_buffer cap answer -> k <= cap ->
  if packet_words fm <=? cap
  then exists b, custom_sx_new (Custom answer) (fmt_for fm) (repeat 0%N k) = Val (Ok b) /\ List.length b <= cap
         /\ (List.length b = packet_words fm \/ List.length b = k)
         /\ message_in fm 0%N (Some 0%N) [] b /\ clean_bytes fm b
  else custom_sx_new (Custom answer) (fmt_for fm) (repeat 0%N k) = Val (Err "BufferOverflow"%string).
Proof.
  intros HB Hk. pose proof (granted_zeros cap answer k (packet_words fm) HB Hk) as G.
  rewrite <- words_of in *. change (fmt_of fm) with (fmt_for fm) in *.
  destruct (f_words (fmt_for fm) <=? cap).
  - destruct G as (k' & E & L & C). rewrite (custom_sx_new_try answer (fmt_for fm) k k') by (auto; lia).
    pose proof (try_new_fresh fm k') as T. rewrite <- words_of in T. change (fmt_of fm) with (fmt_for fm) in T.
    replace (k' <? f_words (fmt_for fm)) with false in T by lia.
    destruct T as (b & T & Lb & M & Cl). exists b. split; [exact T|]. split; [lia|]. split; [lia|]. auto.
  - unfold custom_sx_new. cbn [request]. now rewrite G.
Qed.

(** [try_new]: a buffer type whose default is [k] zeros. *)
Theorem C52_sysex_new : forall fm cap answer k, bounded_buffer cap answer -> k <= cap ->
  if packet_words fm <=? cap
  then exists b, custom_sx_new (Custom answer) (fmt_for fm) (repeat 0%N k) = Val (Ok b) /\ List.length b <= cap
         /\ message_in fm 0%N (Some 0%N) [] b /\ clean_bytes fm b /\ payload_list (fmt_for fm) b = Val []
         /\ exists d, sx_data (fmt_for fm) b = Val d /\ message fm 0%N (Some 0%N) [] d
              /\ sx_try_from (fmt_for fm) d = Ok d
  else custom_sx_new (Custom answer) (fmt_for fm) (repeat 0%N k) = Val (Err "BufferOverflow"%string).
Proof.
  intros fm cap answer k HB Hk. pose proof (new_whole fm cap answer k HB Hk) as T.
  destruct (packet_words fm <=? cap); [|exact T].
  destruct T as (b & E & L & C & M & Cl). exists b. split; [exact E|]. split; [exact L|]. split; [exact M|]. split; [exact Cl|].
  destruct (message_in_reads _ _ _ _ _ M) as ((d & D & Md & _) & P & _). split; [exact P|]. exists d.
  split; [exact D|]. split; [exact Md|exact (message_accepted _ _ _ _ _ Md)].
Qed.
Print Assumptions C52_sysex_new.
Example C52_sysex_new_meets :
  custom_sx_new (Custom (arena 9)) (fmt_for EightBit) [] = Val (Ok [0x50010000; 0; 0; 0]%N)
  /\ custom_sx_new (Custom (arena 3)) (fmt_for EightBit) [] = Val (Err "BufferOverflow"%string).
Proof. split; reflexivity. Qed.

(** [try_new_with_buffer]: whatever the buffer contains, the message is that of [new]. *)
Theorem C52_sysex_new_with_buffer : forall fm cap answer b0, bounded_buffer cap answer -> List.length b0 <= cap ->
  if packet_words fm <=? cap
  then exists b d, custom_sx_new_with_buffer (Custom answer) (fmt_for fm) b0 = Val (Ok b) /\ List.length b <= cap
         /\ sx_data (fmt_for fm) b = Val d /\ sx_new (fmt_for fm) = Val d
         /\ payload_list (fmt_for fm) b = Val [] /\ group b = Val 0%N
  else custom_sx_new_with_buffer (Custom answer) (fmt_for fm) b0 = Val (Err "BufferOverflow"%string).
Proof.
  intros fm cap answer b0 HB Hl. pose proof (granted cap answer b0 (packet_words fm) HB Hl) as G.
  destruct (Nat.leb_spec (packet_words fm) cap) as [H|H].
  - destruct G as (b1 & E & L1 & L2 & _). rewrite (custom_sx_with_try answer (fmt_for fm) b0 b1)
      by (change (fmt_for fm) with (fmt_of fm); rewrite words_of; auto).
    pose proof (C40_sysex_dirty fm b1) as T. replace (List.length b1 <? packet_words fm) with false in T by lia.
    destruct T as (b & d & T & L & D & N0 & P & Gr & _). exists b, d. split; [exact T|]. split; [lia|]. auto.
  - unfold custom_sx_new_with_buffer. cbn [request]. change (fmt_for fm) with (fmt_of fm). rewrite words_of. now rewrite G.
Qed.
Print Assumptions C52_sysex_new_with_buffer.
(** An arena shrinks; a lazy one keeps what lay behind the message. *)
Example C52_sysex_new_with_buffer_meets :
  custom_sx_new_with_buffer (Custom (arena 9)) fmt7 [1; 2; 3; 4]%N = Val (Ok [0x30000000; 0]%N)
  /\ custom_sx_new_with_buffer (Custom (lazy_arena 9)) fmt7 [1; 2; 3; 4]%N = Val (Ok [0x30000000; 0; 3; 4]%N)
  /\ custom_sx_new_with_buffer (Custom (arena 1)) fmt7 [1]%N = Val (Err "BufferOverflow"%string).
Proof. repeat split; reflexivity. Qed.

(** ** Editing *)

(** Any call, provided that an iterator that replaces payload says how many items it yields:
    it never panics.  It succeeds if and only if the payload fits [cap] words, for iterators
    that say how many items they yield; for those that do not, if there is room for twice the items.
    Otherwise the message is left empty, and valid. *)
Theorem C52_edit : forall fm cap answer e b g s l, bounded_buffer cap answer ->
  message_in fm g s l b -> List.length b <= cap -> whole_packets fm s b -> legal fm e l -> settled e l ->
  let room := room_in fm cap in
  exists b' ok, custom_edit (Custom answer) fm e b = Val (b', ok)
    /\ (announced_exactly e -> (ok = true <-> List.length (new_payload e l) <= room))
    /\ (roomy room e l -> ok = true)
    /\ (ok = true -> List.length (new_payload e l) <= room)
    /\ payload_list (fmt_for fm) b' = Val (if ok then new_payload e l else [])
    /\ group b' = Val (new_group e g)
    /\ message_in fm (new_group e g) s (if ok then new_payload e l else []) b'
    /\ List.length b' <= cap /\ whole_packets fm s b' /\ (clean_bytes fm b -> clean_bytes fm b').
Proof.
  intros fm cap answer e b g s l HB M Lc Wh Lg Se room.
  destruct (custom_step fm cap answer e b g s l HB M Lc Wh Lg Se) as (b' & ok & E & A1 & A2 & A3 & A4 & A5 & A6 & A7).
  exists b', ok. split; [exact E|]. split; [intros X; rewrite (A6 X); apply Nat.leb_le|]. split; [exact A7|].
  split; [exact A1|]. destruct (message_in_reads _ _ _ _ _ A2) as (_ & P & _ & G). auto 6.
Qed.
Print Assumptions C52_edit.

(** Histories on [try_new()]: the same results as on an array of [cap] words. *)
Theorem C52_histories : forall fm cap answer k es, bounded_buffer cap answer -> k <= cap -> k mod packet_words fm = 0 ->
  packet_words fm <= cap -> exact_history fm (room_in fm cap) es [] ->
  exists b0 b, custom_sx_new (Custom answer) (fmt_for fm) (repeat 0%N k) = Val (Ok b0)
    /\ run_tries (custom_edit (Custom answer) fm) es b0 = Val (b, snd (fixed_history (room_in fm cap) es []))
    /\ List.length b <= cap
    /\ payload_list (fmt_for fm) b = Val (fst (fixed_history (room_in fm cap) es []))
    /\ exists d, sx_data (fmt_for fm) b = Val d /\ sx_try_from (fmt_for fm) d = Ok d
       /\ message fm (final_group es 0%N) (Some 0%N) (fst (fixed_history (room_in fm cap) es [])) d.
Proof.
  intros fm cap answer k es HB Hk Hm Hp Lg. pose proof (new_whole fm cap answer k HB Hk) as T.
  replace (packet_words fm <=? cap) with true in T by lia. destruct T as (b0 & E0 & L0 & C0 & M0 & _).
  destruct (custom_history fm (Some 0%N) cap answer HB es b0 0%N [] M0 L0) as (b & E & M & L & _ & _); [|exact Lg|].
  { right. split; [reflexivity|]. destruct C0 as [->| ->]; [apply Nat.mod_same; destruct fm; discriminate|exact Hm]. }
  exists b0, b. split; [exact E0|]. split; [exact E|]. split; [exact L|].
  destruct (message_in_reads _ _ _ _ _ M) as ((d & D & Md & _) & P & _). split; [exact P|]. exists d.
  split; [exact D|]. split; [|exact Md]. exact (message_accepted _ _ _ _ _ Md).
Qed.
Print Assumptions C52_histories.

Definition custom_sample : list edit :=
  [SetPayload (exactly (up 20)); SplicePayload (exactly (up 3)) (Excluded 3) (Included 8); AppendPayload (exactly (up 10));
   AppendByte 2; SetGroup 4; AppendByte 9].
(** An arena of eight words, 24 bytes: the append of ten to 18 fails and empties the message. *)
Example C52_histories_meets : exact_history SevenBit (room_in SevenBit 8) custom_sample []
  /\ fixed_history (room_in SevenBit 8) custom_sample [] = ([2; 9]%N, [true; true; false; true; true; true])
  /\ exists b0 b, custom_sx_new (Custom (arena 8)) fmt7 [] = Val (Ok b0)
       /\ run_tries (custom_edit (Custom (arena 8)) SevenBit) custom_sample b0 = Val (b, [true; true; false; true; true; true])
       /\ payload_list fmt7 b = Val [2; 9]%N /\ group b = Val 4%N /\ List.length b = 2.
Proof.
  split; [vm_compute; repeat split; try (repeat constructor); lia|]. split; [reflexivity|].
  do 2 eexists. split; [vm_compute; reflexivity|]. split; [vm_compute; reflexivity|]. split; [|split]; vm_compute; reflexivity.
Qed.

(** The full statement fails for iterators that do not say how many items they yield: a payload of 20
    bytes that fits the 24 of the arena is refused ... *)
Theorem C52_unannounced_refuted : exists b0 src b, Forall (is_unit SevenBit) (s_items src)
  /\ custom_sx_new (Custom (arena 8)) fmt7 [] = Val (Ok b0)
  /\ List.length (s_items src) = 20 /\ room_in SevenBit 8 = 24
  /\ custom_edit (Custom (arena 8)) SevenBit (SetPayload src) b0 = Val (b, false)
  /\ payload_list fmt7 b = Val [].
Proof.
  eexists. exists (src (up 20) (0, None)). eexists. split; [apply (up_units SevenBit 20); lia|].
  split; [vm_compute; reflexivity|]. split; [reflexivity|]. split; [reflexivity|].
  split; vm_compute; reflexivity.
Qed.
Print Assumptions C52_unannounced_refuted.

(** ... and one that replaces payload and announces too many items damages it, with success. *)
Theorem C52_over_announced_refuted : exists e b b' l',
  message_in SevenBit 0%N (Some 0%N) (up 12) b /\ List.length b <= 10 /\ legal SevenBit e (up 12)
  /\ List.length (new_payload e (up 12)) <= room_in SevenBit 10
  /\ custom_edit (Custom (arena 10)) SevenBit e b = Val (b', true)
  /\ payload_list fmt7 b' = Val l' /\ l' <> new_payload e (up 12).
Proof.
  exists (SplicePayload (src (up 20) (40, Some 40)) (Included 2) (Excluded 6)).
  pose proof (new_whole SevenBit 10 (arena 10) 0 (arena_bounded 10) ltac:(lia)) as (b0 & E0 & L0 & _ & M0 & _).
  assert (Q0 : b0 = [0x30000000; 0]%N) by (vm_compute in E0; congruence). subst b0. cbn [repeat] in E0.
  destruct (custom_step SevenBit 10 (arena 10) (SetPayload (exactly (up 12))) _ 0%N (Some 0%N) [] (arena_bounded 10) M0 L0)
    as (b & ok & E & _ & M & L & _ & _ & X & _).
  { right. split; reflexivity. } { apply (up_units SevenBit 12). lia. } { exact Logic.I. }
  assert (ok = true) as -> by (rewrite X by reflexivity; reflexivity). cbn [new_payload exactly src s_items new_group] in M.
  exists b. vm_compute in E. injection E as <-.
  do 2 eexists. split; [exact M|]. split; [exact L|].
  split; [split; [apply (up_units SevenBit 20); lia|split; vm_compute; repeat constructor]|].
  split; [vm_compute; repeat constructor|].
  split; [vm_compute; reflexivity|]. split; [vm_compute; reflexivity|]. vm_compute. discriminate.
Qed.
Print Assumptions C52_over_announced_refuted.

(** ** The byte-stream form, in an arena *)

Theorem C52_bytes_new : forall cap, 
  custom_new_b (Custom (arena cap)) [] = Val (if 2 <=? cap then Ok (stream_bytes []) else Err "BufferOverflow"%string).
Proof. intros cap. unfold custom_new_b. cbn [request]. unfold arena. destruct (2 <=? cap); reflexivity. Qed.
Print Assumptions C52_bytes_new.

(** Any call with an iterator that says how many items it yields, and does not make the payload shorter
    by exactly one byte. *)
Theorem C52_bytes_edit : forall cap e l, Forall (is_unit SevenBit) l -> List.length l + 2 <= cap ->
  legal SevenBit e l -> announced_exactly e -> ~ loses_one e l ->
  let r := custom_edit_b (Custom (arena cap)) e (stream_bytes l) in
  if List.length (new_payload e l) + 2 <=? cap then r = Val (stream_bytes (new_payload e l), true)
  else (r = Panic /\ cap < 5) \/ r = Val (stream_bytes [], false).
Proof. exact arena_step. Qed.
Print Assumptions C52_bytes_edit.

Theorem C52_bytes_histories : forall cap es, 5 <= cap -> arena_history (cap - 2) es [] ->
  run_tries (custom_edit_b (Custom (arena cap))) es (stream_bytes [])
  = Val (stream_bytes (fst (fixed_history (cap - 2) es [])), snd (fixed_history (cap - 2) es [])).
Proof.
  intros cap es Hc. assert (G : forall es l, Forall (is_unit SevenBit) l -> List.length l + 2 <= cap -> arena_history (cap - 2) es l ->
    run_tries (custom_edit_b (Custom (arena cap))) es (stream_bytes l)
    = Val (stream_bytes (fst (fixed_history (cap - 2) es l)), snd (fixed_history (cap - 2) es l))).
  { clear es. induction es as [|e es IH]; intros l Hl Lc H; cbn [run_tries fixed_history fst snd]; [reflexivity|].
    destruct H as (H1 & H2 & H3 & H4). pose proof (arena_step cap e l Hl Lc H1 H2 H3) as S. cbv zeta in S.
    unfold fixed_outcome in *. replace (List.length (new_payload e l) + 2 <=? cap) with (List.length (new_payload e l) <=? cap - 2) in S by lia.
    destruct (Nat.leb_spec (List.length (new_payload e l)) (cap - 2)) as [F|F]; cbn [fst snd] in *.
    - rewrite S. cbn [bind fst snd]. rewrite IH; auto; [|now apply new_payload_units|lia].
      cbn [bind]. destruct (fixed_history (cap - 2) es (new_payload e l)). reflexivity.
    - destruct S as [[_ S]|S]; [lia|]. rewrite S. cbn [bind fst snd]. rewrite IH; auto; [|cbn; lia].
      cbn [bind]. destruct (fixed_history (cap - 2) es []). reflexivity. }
  intros H. apply G; auto. cbn. lia.
Qed.
Print Assumptions C52_bytes_histories.
Example C52_bytes_histories_meets :
  let es := [SetPayload (exactly (up 4)); AppendByte 7; SplicePayload (exactly (up 1)) (Included 0) (Excluded 3); AppendPayload (exactly (up 6))] in
  arena_history (10 - 2) es [] /\ snd (fixed_history (10 - 2) es []) = [true; true; true; false].
Proof. split; [|reflexivity]. vm_compute. repeat split; try (repeat constructor); try lia; intros X; discriminate. Qed.

(** The exclusion is necessary: a payload of one byte cannot be set again, ... *)
Theorem C52_bytes_set_one_refuted : forall cap v src, is_unit SevenBit v -> 3 <= cap ->
  custom_edit_b (Custom (arena cap)) (SetPayload src) (stream_bytes [v]) = Panic.
Proof.
  intros cap v s Hv Hc. cbn [custom_edit_b]. unfold try_set_payload. cbn [bytes_ops o_resize].
  rewrite (a_panic cap 0); [reflexivity|]. apply (a_stream cap [v]); [repeat constructor; exact Hv|cbn; lia].
Qed.
Print Assumptions C52_bytes_set_one_refuted.
(** ... and the last of five bytes cannot be removed; both panic. *)
Theorem C52_bytes_remove_one_refuted :
  legal SevenBit (SplicePayload (exactly []) (Included 4) (Excluded 5)) (up 5)
  /\ custom_edit_b (Custom (arena 20)) (SplicePayload (exactly []) (Included 4) (Excluded 5)) (stream_bytes (up 5)) = Panic.
Proof. split; [split; [constructor|split; vm_compute; repeat constructor]|vm_compute; reflexivity]. Qed.
Print Assumptions C52_bytes_remove_one_refuted.
(** Overflow in an arena of four bytes panics, too. *)
Theorem C52_bytes_small_refuted :
  custom_edit_b (Custom (arena 4)) (SetPayload (exactly (up 3))) (stream_bytes []) = Panic.
Proof. vm_compute. reflexivity. Qed.
Print Assumptions C52_bytes_small_refuted.

(** ** Conversion *)

(** [try_from_ump] into an arena. *)
Theorem C52_from_ump : forall k g s l b cap, carries SevenBit k g s l b ->
  let r := custom_from_ump (Custom (arena cap)) b [] in
  if List.length l + 2 <=? cap then r = Val (Ok (stream_bytes l))
  else (r = Panic /\ cap < 5) \/ r = Val (Err "BufferOverflow"%string).
Proof.
  intros k g s l b cap C. cbv zeta. unfold custom_from_ump. cbn [request]. unfold arena at 1 3 5.
  destruct (Nat.leb_spec 2 cap) as [X|X].
  2: { replace (List.length l + 2 <=? cap) with false by lia. now right. }
  change (init_b (resized [] 2)) with (Val (stream_bytes [])). cbn [bind].
  rewrite (group_first _ _ _ _ _ _ C). cbn [bind]. rewrite (source_ump _ _ _ _ _ C). cbn [bind].
  pose proof (arena_set cap [] {| s_items := l; s_hint := (List.length l, Some (List.length l)) |} ltac:(constructor) ltac:(cbn; lia)
    (carries_units _ _ _ _ _ _ C) eq_refl ltac:(cbn; lia)) as S. cbv zeta in S. cbn [s_items] in S.
  destruct (List.length l + 2 <=? cap); [rewrite S; reflexivity|].
  destruct S as [[-> Y]|S]; [left; auto|right; now rewrite S].
Qed.
Print Assumptions C52_from_ump.

(** [try_from_bytes] into a bounded buffer: the payload is carried over or the conversion is refused; it is
    not refused if there is room for twice the payload. *)
Theorem C52_from_bytes : forall l r cap answer k, Forall (is_unit SevenBit) l -> bounded_buffer cap answer -> k <= cap ->
  let t := custom_from_bytes (Custom answer) (stream_bytes l ++ r) (repeat 0%N k) in
  (t = Val (Err "BufferOverflow"%string) /\ (cap < 2 \/ room_in SevenBit cap < 2 * List.length l))
  \/ exists b, t = Val (Ok b) /\ List.length b <= cap /\ List.length l <= room_in SevenBit cap
       /\ message_in SevenBit 0%N None l b /\ clean_bytes SevenBit b /\ payload_list fmt7 b = Val l.
Proof.
  intros l r cap answer k Hl HB Hk t. pose proof (granted_zeros cap answer k 2 HB Hk) as G.
  pose proof (new_whole SevenBit cap answer k HB Hk) as T. cbn [packet_words] in T.
  destruct (Nat.leb_spec 2 cap) as [X|X].
  2: { left. unfold t, custom_from_bytes. cbn [request]. rewrite G. auto. }
  destruct G as (k' & Eg & Lk & _). unfold t. rewrite (custom_from_bytes_init answer _ _ _ Eg).
  destruct T as (b0 & T & L0 & _ & M0 & Cl0). unfold custom_sx_new in T. cbn [request fmt_for] in T.
  change (f_words fmt7) with 2 in T. rewrite Eg in T.
  destruct (sx_init fmt7 (repeat 0%N k')) as [b1|]; cbn [bind] in *; [|discriminate]. injection T as ->.
  rewrite source_bytes by exact Hl. cbn [bind].
  assert (M1 : message_in SevenBit 0%N None [] b0).
  { destruct M0 as ((n & C & Fu) & Sc). split.
    - exists n. split; [now apply (seven_stream _ _ (Some 0%N))|exact Fu].
    - intros p Hp. destruct (Sc p Hp) as [S1 _]. split; [exact S1|discriminate]. }
  destruct (custom_step SevenBit cap answer (SetPayload {| s_items := l; s_hint := (0, Some 0) |}) b0 0%N None [] HB M1 L0
    ltac:(now left) Hl Logic.I) as (b & ok & E & A1 & A2 & A3 & _ & A5 & _ & A7).
  cbn [custom_edit fmt_for] in E. rewrite E. cbn [bind]. cbn [new_payload s_items new_group] in *.
  destruct ok.
  - right. exists b. split; [reflexivity|]. split; [exact A3|]. split; [auto|]. split; [exact A2|]. split; [auto|].
    apply (message_in_reads _ _ _ _ _ A2).
  - left. split; [reflexivity|]. right. apply Nat.nle_gt. intros Y.
    assert (Z : false = true); [|discriminate]. apply A7. cbn [roomy s_items]. split; [cbn; lia|exact Y].
Qed.
Print Assumptions C52_from_bytes.
Example C52_from_bytes_meets : 
  (exists b, custom_from_bytes (Custom (arena 8)) (stream_bytes (up 12)) [] = Val (Ok b) /\ payload_list fmt7 b = Val (up 12))
  /\ custom_from_ump (Custom (arena 8)) [0x30030102; 0x03000000]%N [] = Val (Ok [0xF0; 1; 2; 3; 0xF7]%N).
Proof. split; [eexists; split|]; vm_compute; reflexivity. Qed.

(** 20 bytes would fit the arena of eight words. *)
Theorem C52_from_bytes_refuted : Forall (is_unit SevenBit) (up 20) /\ List.length (up 20) <= room_in SevenBit 8
  /\ custom_from_bytes (Custom (arena 8)) (stream_bytes (up 20)) [] = Val (Err "BufferOverflow"%string).
Proof. split; [apply up_units; lia|]. split; [vm_compute; repeat constructor|vm_compute; reflexivity]. Qed.
Print Assumptions C52_from_bytes_refuted.
