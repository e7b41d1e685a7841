(** System exclusive messages: properties C18-C28, C34, C35, C39, and the sysex
    part of C06, C07, C10, C24, C33 and C40.

    Buffers of words are lists of [N]; [apply_edit], [try_edit], [run_calls] and
    their byte-stream versions (SysexClient.v) call one method of the modelled API
    per step.  [carries], [message], [message_in], [stream_bytes] and the edits on
    plain lists are defined in SpecSysex.v and SpecEdits.v. *)
From Coq Require Import NArith List String Bool Arith Lia ZifyN ZifyNat ZifyBool.
From Verif Require Import Base BitOps Message Sysex Splice SpecSysex SpecEdits SysexClient
  BitLemmas ListLemmas ByteView SysexLayout SysexRead SysexEdit SpliceLemmas SysexLaws SysexBytes
  SysexBridge SysexHold SysexMore SysexNth SysexInit SysexHistory SysexTail SysexConvert SysexCompact
  SysexFixedBytes SysexIds SysexLoose.
Import ListNotations.
Local Open Scope nat_scope.

(** Sample data: [1, 2, ..., n]. *)
Definition up (n : nat) : list N := map N.of_nat (seq 1 n).
Definition src (l : list N) (h : nat * option nat) : source := {| s_items := l; s_hint := h |}.
Definition exactly (l : list N) : source := src l (List.length l, Some (List.length l)).
Lemma up_units fm n : n < 128 -> Forall (is_unit fm) (up n).
Proof.
  intros H. apply Forall_forall. intros v Hv. apply in_map_iff in Hv. destruct Hv as (i & <- & Hi).
  apply in_seq in Hi. destruct fm; cbn [is_unit]; lia.
Qed.
(** Unwrap a [Result]. *)
Definition unwrap {A} (o : outcome (res A)) : outcome A :=
  match o with Val (Ok b) => Val b | _ => Panic end.

(** Conjunctions of computations; unknowns are found from left to right. *)
Ltac computed := repeat match goal with |- _ /\ _ => split; [vm_compute; reflexivity|] end; vm_compute; reflexivity.

(** ** C18, C20: payload round trip of the packet form *)

(** From any buffer whatever. *)
Theorem C18_sysex7_round_trip : forall b s, Forall (is_unit SevenBit) (s_items s) ->
  exists b', apply_edit SevenBit (SetPayload s) b = Val b'
    /\ payload_list fmt7 b' = Val (s_items s)
    /\ payload_size fmt7 b' = Val (List.length (s_items s))
    /\ sx_try_from fmt7 b' = Ok b' /\ sx_data fmt7 b' = Val b'
    /\ message SevenBit (group_of SevenBit b 0) None (s_items s) b'.
Proof.
  intros b s Hv. destruct (set_payload_any SevenBit b s None false) as (b' & E & M & _); auto; try discriminate.
  { now left. }
  exists b'. split; [exact E|]. destruct (message_reads _ _ _ _ _ M) as (D & P & Z & _).
  split; [exact P|]. split; [exact Z|]. split; [|split; [exact D|exact M]].
  apply (message_accepted SevenBit (group_of SevenBit b 0) 0 (s_items s)). now apply (seven_message _ None).
Qed.
Print Assumptions C18_sysex7_round_trip.

Example C18_case : Forall (is_unit SevenBit) (s_items (src (up 20) (3, None))).
Proof. apply up_units. lia. Qed.

(** [in_stream None] says nothing; the message parses if its id was 0, as it is
    in every message built through the API (see C35). *)
Theorem C20_sysex8_round_trip : forall b s, Forall (is_unit EightBit) (s_items s) ->
  exists b', apply_edit EightBit (SetPayload s) b = Val b'
    /\ payload_list fmt8 b' = Val (s_items s)
    /\ payload_size fmt8 b' = Val (List.length (s_items s))
    /\ sx_data fmt8 b' = Val b'
    /\ message EightBit (group_of EightBit b 0) None (s_items s) b'
    /\ (stream_of EightBit b 0 = 0%N ->
        message EightBit (group_of EightBit b 0) (Some 0%N) (s_items s) b' /\ sx_try_from fmt8 b' = Ok b').
Proof.
  intros b s Hv. destruct (set_payload_any EightBit b s None false) as (b' & E & M & _); auto; try discriminate.
  { now left. } { intros _. exact Logic.I. }
  exists b'. split; [exact E|]. destruct (message_reads _ _ _ _ _ M) as (D & P & Z & _).
  split; [exact P|]. split; [exact Z|]. split; [exact D|]. split; [exact M|]. intros S0.
  destruct (set_payload_any EightBit b s (Some 0%N) false) as (b2 & E2 & M2 & _); auto; try discriminate.
  { now right. }
  rewrite E in E2. injection E2 as <-. split; [exact M2|].
  exact (message_accepted EightBit (group_of EightBit b 0) 0 (s_items s) b' M2).
Qed.
Print Assumptions C20_sysex8_round_trip.

Example C20_case : Forall (is_unit EightBit) (s_items (src (up 40 ++ [255; 128]%N) (3, None)))
  /\ stream_of EightBit [0x51010000; 0; 0; 0]%N 0 = 0%N.
Proof.
  split; [|reflexivity]. cbn [s_items src]. apply Forall_app. split; [apply up_units; lia|].
  repeat constructor.
Qed.

(** ** C19: payload round trip of the byte form *)

Theorem C19_bytes_round_trip : forall b s, try_from_b b = Ok b -> Forall (is_unit SevenBit) (s_items s) ->
  exists b', apply_edit_b (SetPayload s) b = Val b' /\ b' = stream_bytes (s_items s)
    /\ data_b b' = Val b' /\ payload_list_b b' = Val (s_items s)
    /\ payload_size_b b' = Val (List.length (s_items s)) /\ try_from_b b' = Ok b'.
Proof.
  intros b s A Hv. exists (stream_bytes (s_items s)). split; [now apply set_payload_any_b|].
  split; [reflexivity|]. pose proof (septets_no_end _ Hv) as Ne.
  destruct (septet_reads (s_items s) [] Ne) as (D & Z & P). rewrite app_nil_r in *.
  split; [exact D|]. split; [now apply P|]. split; [exact Z|].
  apply accepts_b. exists (s_items s), []. split; [exact Ne|now rewrite app_nil_r].
Qed.
Print Assumptions C19_bytes_round_trip.

Example C19_case : try_from_b [0xF0; 9; 0xF7; 7; 0xF7]%N = Ok [0xF0; 9; 0xF7; 7; 0xF7]%N
  /\ Forall (is_unit SevenBit) (s_items (src (up 20) (3, None))).
Proof. split; [reflexivity|]. apply up_units. lia. Qed.

(** ** C21, C34: edits and edit histories on growable buffers *)

(** One edit of a well-packed message; [s] is [None] (any stream ids) or
    [Some 0]. *)
Theorem C21_edit_is_list_edit : forall fm e b g s l,
  message fm g s l b -> s = None \/ s = Some 0%N -> legal fm e l ->
  exists b', apply_edit fm e b = Val b'
    /\ payload_list (fmt_for fm) b' = Val (new_payload e l)
    /\ payload_size (fmt_for fm) b' = Val (List.length (new_payload e l))
    /\ group b' = Val (new_group e g)
    /\ message fm (new_group e g) s (new_payload e l) b'.
Proof.
  intros fm e b g s l M K Lg. destruct (edit_step fm e b g s l M K Lg) as (b' & E & M' & _).
  exists b'. split; [exact E|]. destruct (message_reads _ _ _ _ _ M') as (_ & P & Z & G). auto.
Qed.
Print Assumptions C21_edit_is_list_edit.

Theorem C21_bytes_edit_is_list_edit : forall e l, Forall (is_unit SevenBit) l -> legal SevenBit e l ->
  apply_edit_b e (stream_bytes l) = Val (stream_bytes (new_payload e l)).
Proof. exact edit_step_b. Qed.
Print Assumptions C21_bytes_edit_is_list_edit.

(** Bytes behind the message, in a copy of an array or of a received slice, do no harm unless there is an
    end byte among them. *)
Theorem C21_bytes_behind : forall e l r, Forall (is_unit SevenBit) l -> Forall (fun x => x <> 0xF7%N) r -> legal SevenBit e l ->
  apply_edit_b e (stream_bytes l ++ r)
    = Val (stream_bytes (new_payload e l) ++ match e with SetByte _ _ | SetGroup _ => r | _ => [] end).
Proof. exact edit_tail. Qed.
Print Assumptions C21_bytes_behind.

(** Two messages in one slice: the first is accepted and read; of a growable copy, extended in the middle,
    the last byte is lost. *)
Theorem C21_bytes_two_messages_refuted : exists b e b', b = stream_bytes [1; 2]%N ++ stream_bytes [3; 4]%N
  /\ try_from_b b = Ok b /\ payload_list_b b = Val [1; 2]%N
  /\ legal SevenBit e [1; 2]%N /\ e = InsertPayload (exactly (up 8)) 1
  /\ apply_edit_b e b = Val b'
  /\ payload_list_b b' = Val (1 :: up 8 ++ [0])%N /\ new_payload e [1; 2]%N = (1 :: up 8 ++ [2])%N.
Proof.
  eexists. eexists. eexists. split; [reflexivity|]. split; [reflexivity|]. split; [vm_compute; reflexivity|].
  split; [|split; [reflexivity|]; split; [vm_compute; reflexivity|split; vm_compute; reflexivity]].
  split; [apply up_units; lia|cbn; lia].
Qed.
Print Assumptions C21_bytes_two_messages_refuted.

(** A 20-byte message; replacing bytes 2..9 by four bytes announced as none. *)
Example C21_case : exists b, message SevenBit 0 (Some 0%N) (up 20) b
  /\ legal SevenBit (SplicePayload (src (up 4) (0, None)) (Included 2) (Excluded 9)) (up 20)
  /\ Forall (is_unit SevenBit) (up 20).
Proof.
  destruct (edit_step SevenBit (SetPayload (exactly (up 20))) (fresh_words SevenBit) 0%N (Some 0%N) [])
    as (b & _ & M & _); [apply fresh_message|now right|apply up_units; lia|].
  exists b. split; [exact M|]. split; [|apply up_units; lia].
  split; [apply up_units; lia|]. cbn. lia.
Qed.

(** Histories from [new()]; [es] being arbitrary, this describes the message
    after every step. *)
Theorem C34_histories : forall fm es, all_legal fm es [] ->
  exists b0 b', sx_new (fmt_for fm) = Val b0 /\ run_edits (apply_edit fm) es b0 = Val b'
    /\ sx_try_from (fmt_for fm) b' = Ok b' /\ sx_data (fmt_for fm) b' = Val b'
    /\ payload_list (fmt_for fm) b' = Val (final_payload es [])
    /\ payload_size (fmt_for fm) b' = Val (List.length (final_payload es []))
    /\ group b' = Val (final_group es 0%N)
    /\ message fm (final_group es 0%N) (Some 0%N) (final_payload es []) b'
    /\ clean_bytes fm b'.
Proof.
  intros fm es Lg. exists (fresh_words fm). destruct (fresh_message fm) as [M0 C0].
  destruct (history_ump fm (Some 0%N) ltac:(now right) es _ _ _ M0 Lg) as (b' & E & M & Cl).
  exists b'. split; [apply new_fresh|]. split; [exact E|].
  destruct (message_reads _ _ _ _ _ M) as (D & P & Z & G).
  split; [exact (message_accepted _ _ _ _ _ M)|]. auto 10.
Qed.
Print Assumptions C34_histories.

(** From any well-packed message, whatever its stream ids. *)
Theorem C34_histories_from : forall fm es b g l, message fm g None l b -> all_legal fm es l ->
  exists b', run_edits (apply_edit fm) es b = Val b'
    /\ payload_list (fmt_for fm) b' = Val (final_payload es l)
    /\ message fm (final_group es g) None (final_payload es l) b'.
Proof.
  intros fm es b g l M Lg. destruct (history_ump fm None ltac:(now left) es b g l M Lg) as (b' & E & M' & _).
  exists b'. split; [exact E|]. destruct (message_reads _ _ _ _ _ M') as (_ & P & _). auto.
Qed.
Print Assumptions C34_histories_from.

Theorem C34_bytes_histories : forall es, all_legal SevenBit es [] ->
  exists b0 b', new_b = Val b0 /\ run_edits apply_edit_b es b0 = Val b'
    /\ b' = stream_bytes (final_payload es [])
    /\ try_from_b b' = Ok b' /\ data_b b' = Val b'
    /\ payload_list_b b' = Val (final_payload es [])
    /\ payload_size_b b' = Val (List.length (final_payload es [])).
Proof.
  intros es Lg. exists (stream_bytes []). destruct (history_bytes es [] ltac:(constructor) Lg) as [E F].
  eexists. split; [exact new_b_fresh|]. split; [exact E|]. split; [reflexivity|].
  pose proof (septets_no_end _ F) as Ne.
  destruct (septet_reads (final_payload es []) [] Ne) as (D & Z & P). rewrite app_nil_r in *.
  split; [|auto]. apply accepts_b. eexists. exists []. split; [exact Ne|now rewrite app_nil_r].
Qed.
Print Assumptions C34_bytes_histories.

Definition sample_history : list edit :=
  [SetPayload (src (up 30) (0, None)); SetGroup 9; SplicePayload (src (up 3) (8, Some 99)) (Excluded 3) (Included 20);
   InsertPayload (exactly (up 5)) 2; SetByte 77 6; AppendByte 5; AppendPayload (src (up 7) (1, Some 1))].
Example C34_case : all_legal SevenBit sample_history [] /\ all_legal EightBit sample_history []
  /\ List.length (final_payload sample_history []) = 29.
Proof.
  split; [|split; [|reflexivity]];
    repeat (cbn [all_legal legal sample_history]; split); try exact Logic.I; try (cbn; lia); try (apply up_units; lia).
Qed.

(** ** C33: what is sent is clean 7-bit data *)

Theorem C33_sysex_clean : forall es, all_legal SevenBit es [] ->
  (exists b0 l, new_b = Val b0
    /\ run_edits apply_edit_b es b0 = Val (0xF0%N :: l ++ [0xF7%N]) /\ Forall (fun v => (v < 128)%N) l)
  /\ exists b0 b', sx_new fmt7 = Val b0 /\ run_edits (apply_edit SevenBit) es b0 = Val b'
    /\ forall j, 2 <= j mod 8 -> (byte b' j < 128)%N.
Proof.
  intros es Lg. split.
  - destruct (history_bytes es [] ltac:(constructor) Lg) as [E F].
    exists (stream_bytes []), (final_payload es []). split; [exact new_b_fresh|]. auto.
  - destruct (C34_histories SevenBit es Lg) as (b0 & b' & N0 & E & _ & _ & _ & _ & _ & _ & C).
    exists b0, b'. split; [exact N0|]. split; [exact E|]. exact (C eq_refl).
Qed.
Print Assumptions C33_sysex_clean.

(** ** C22: fixed-size buffers *)

(** Success exactly when it fits; otherwise an error and an empty message that
    can be used further.  The iterator of a splice that replaces a non-empty range
    must not yield more than it announces. *)
Theorem C22_fixed_edit : forall fm e b g s l,
  message_in fm g s l b -> legal fm e l -> announced_enough e l ->
  let fits := List.length (new_payload e l) <=? room_in fm (List.length b) in
  exists b', try_edit fm e b = Val (b', fits) /\ List.length b' = List.length b
    /\ message_in fm (new_group e g) s (if fits then new_payload e l else []) b'
    /\ payload_list (fmt_for fm) b' = Val (if fits then new_payload e l else []).
Proof.
  intros fm e b g s l M Lg An fits. destruct (fixed_step fm e b g s l M Lg An) as (b' & E & M' & Len & _).
  unfold fixed_outcome in *. fold fits in E, M'.
  exists b'. destruct fits; cbn [fst snd] in *; (split; [exact E|]; split; [exact Len|]; split; [exact M'|]);
    apply (message_in_reads _ _ _ _ _ M').
Qed.
Print Assumptions C22_fixed_edit.

(** Histories on [try_new()] of an array of [n] words. *)
Theorem C22_fixed_histories : forall fm n es, packet_words fm <= n ->
  fixed_legal fm (room_in fm n) es [] ->
  exists b0 b', sx_try_new (fmt_for fm) n = Val (Ok b0)
    /\ run_tries (try_edit fm) es b0 = Val (b', snd (fixed_history (room_in fm n) es []))
    /\ List.length b' = n
    /\ payload_list (fmt_for fm) b' = Val (fst (fixed_history (room_in fm n) es []))
    /\ exists d, sx_data (fmt_for fm) b' = Val d /\ sx_try_from (fmt_for fm) d = Ok d
       /\ message fm (final_group es 0%N) (Some 0%N) (fst (fixed_history (room_in fm n) es [])) d.
Proof.
  intros fm n es Hn Lg. pose proof (try_new_fresh fm n) as T. replace (n <? packet_words fm) with false in T by lia.
  destruct T as (b0 & E0 & L0 & M0 & _). exists b0. rewrite <- L0 in Lg.
  destruct (fixed_history_ump fm (Some 0%N) es b0 _ _ M0 Lg) as (b' & E & M & Len & _). rewrite L0 in *.
  exists b'. split; [exact E0|]. split; [exact E|]. split; [exact Len|].
  destruct (message_in_reads _ _ _ _ _ M) as ((d & D & Md & _) & P & _).
  split; [exact P|]. exists d. split; [exact D|]. split; [exact (message_accepted _ _ _ _ _ Md)|exact Md].
Qed.
Print Assumptions C22_fixed_histories.

Definition overflow_history : list edit :=
  [SetPayload (exactly (up 10)); SplicePayload (src (up 3) (8, Some 9)) (Excluded 3) (Included 8);
   AppendPayload (exactly (up 10)); AppendByte 2; AppendByte 9].
Example C22_case : fixed_legal SevenBit (room_in SevenBit 4) overflow_history []
  /\ fixed_history (room_in SevenBit 4) overflow_history [] = ([2; 9]%N, [true; true; false; true; true]).
Proof.
  split; [|reflexivity]. vm_compute. repeat split; try (repeat constructor); lia.
Qed.

(** Byte buffers: a splice succeeds exactly when it fits, provided no stale end
    byte lies behind the message; and leaves none if it does not shrink the payload
    and the iterator announces its length. *)
Theorem C22_bytes_splice : forall l r s lo hi,
  Forall (is_unit SevenBit) l -> Forall (fun x => x <> 0xF7%N) r -> Forall (is_unit SevenBit) (s_items s) ->
  let a := range_begin lo in let e := range_end hi (List.length l) in
  a <= e -> e <= List.length l -> a = e \/ List.length (s_items s) <= announced s ->
  let l' := replaced l a e (s_items s) in
  if List.length l' <=? List.length l + List.length r
  then exists r', try_edit_b (SplicePayload s lo hi) (stream_bytes l ++ r) = Val (stream_bytes l' ++ r', true)
         /\ List.length l' + List.length r' = List.length l + List.length r
         /\ (List.length (s_items s) = announced s -> e - a <= List.length (s_items s) ->
             Forall (fun x => x <> 0xF7%N) r')
  else exists r', try_edit_b (SplicePayload s lo hi) (stream_bytes l ++ r) = Val (stream_bytes [] ++ r', false)
         /\ List.length r' = List.length l + List.length r.
Proof.
  intros l r s lo hi Hl Hr Hs a e A B An.
  exact (splice_fixed_b l r s lo hi a e Hl Hr Hs eq_refl eq_refl A B An).
Qed.
Print Assumptions C22_bytes_splice.

(** [try_set_payload] with an exact announcement works in every accepted state. *)
Theorem C22_bytes_set_payload : forall b s, try_from_b b = Ok b -> Forall (is_unit SevenBit) (s_items s) ->
  announced s = List.length (s_items s) ->
  let fits := List.length (s_items s) + 2 <=? List.length b in
  exists r, try_edit_b (SetPayload s) b = Val (stream_bytes (if fits then s_items s else []) ++ r, fits)
    /\ List.length (stream_bytes (if fits then s_items s else []) ++ r) = List.length b.
Proof.
  intros b s A Hs An fits. apply accepts_b in A. pose proof (set_fixed_any_b b s A Hs An) as X.
  fold fits in X. destruct fits; exact X.
Qed.
Print Assumptions C22_bytes_set_payload.

(** Histories on [try_new()] of an array of [n] bytes, up to and including the
    first edit that does not fit. *)
Theorem C22_bytes_histories : forall n es, 2 <= n -> growing SevenBit es [] ->
  List.length (final_payload es []) + 2 <= n ->
  exists b0 r, try_new_b n = Val (Ok b0)
    /\ run_tries try_edit_b es b0 = Val (stream_bytes (final_payload es []) ++ r, map (fun _ => true) es)
    /\ List.length (stream_bytes (final_payload es []) ++ r) = n
    /\ Forall (is_unit SevenBit) (final_payload es [])
    /\ forall e, legal SevenBit e (final_payload es []) -> not_shrinking e (final_payload es []) ->
         n < List.length (new_payload e (final_payload es [])) + 2 ->
         exists r', try_edit_b e (stream_bytes (final_payload es []) ++ r) = Val (stream_bytes [] ++ r', false)
           /\ List.length (stream_bytes [] ++ r') = n.
Proof.
  intros n es Hn G Fit. pose proof (try_new_b_fresh n) as T. replace (n <? 2) with false in T by lia.
  eexists. assert (LR : List.length (repeat 0%N (n - 2)) = n - 2) by apply repeat_length.
  assert (Z : lone_end (repeat 0%N (n - 2))).
  { apply Forall_forall. intros x Hx. apply repeat_spec in Hx. subst x. discriminate. }
  destruct (grow_history_b es [] (repeat 0%N (n - 2)) ltac:(constructor) Z G) as (r & E & L & Hr & F).
  { cbn [List.length]. lia. }
  exists r. split; [exact T|]. split; [exact E|]. cbn [List.length] in L.
  split; [rewrite app_length, stream_bytes_length; lia|]. split; [exact F|].
  intros e Lg Sh Ov. pose proof (grow_step_b e _ r F Hr Lg Sh) as S.
  match type of S with context [if ?c then _ else _] => replace c with false in S by lia end.
  destruct S as (r' & E' & L'). exists r'. split; [exact E'|]. rewrite app_length, stream_bytes_length.
  cbn [List.length]. lia.
Qed.
Print Assumptions C22_bytes_histories.

Example C22_growing_case :
  growing SevenBit [SetPayload (exactly (up 10)); AppendByte 5; InsertPayload (exactly (up 3)) 4; SetByte 9 0] [].
Proof. vm_compute. repeat split; try (repeat constructor); lia. Qed.

Example C22_bytes_case :
  try_from_b (stream_bytes (up 5) ++ [1; 0xF7; 2])%N = Ok (stream_bytes (up 5) ++ [1; 0xF7; 2])%N
  /\ Forall (is_unit SevenBit) (s_items (exactly (up 7))) /\ announced (exactly (up 7)) = List.length (s_items (exactly (up 7)))
  /\ Forall (fun x => x <> 0xF7%N) [1; 0; 2]%N
  /\ range_begin (Included 1) <= range_end (Excluded 3) 5 <= 5.
Proof.
  split; [reflexivity|]. split; [apply up_units; lia|]. split; [reflexivity|]. split; [|cbn; lia].
  repeat constructor; discriminate.
Qed.

(** Replacing four bytes of a 12-byte payload by four bytes that were not
    announced, in an array with room for 12: the call reports success and the
    payload is wrong. *)
Theorem C22_unannounced_refuted : exists e b b' p,
  message_in SevenBit 0 (Some 0%N) (up 12) b /\ legal SevenBit e (up 12)
  /\ room_in SevenBit (List.length b) = List.length (new_payload e (up 12))
  /\ try_edit SevenBit e b = Val (b', true)
  /\ payload_list fmt7 b' = Val p /\ p <> new_payload e (up 12)
  /\ p = [5; 6; 7; 104; 9; 10; 11; 12; 0; 11; 12; 0]%N.
Proof.
  pose proof (C22_fixed_edit SevenBit (SetPayload (exactly (up 12)))) as S.
  pose proof (try_new_fresh SevenBit 4) as (b0 & E0 & L0 & M0 & _).
  specialize (S b0 _ _ _ M0 (up_units SevenBit 12 ltac:(lia)) Logic.I). cbv zeta in S. rewrite L0 in S.
  destruct S as (b1 & E1 & L1 & M1 & _).
  assert (F0 : Val (Ok b0) = sx_try_new fmt7 4) by (symmetry; exact E0). vm_compute in F0. injection F0 as ->.
  assert (F1 := eq_sym E1). vm_compute in F1. injection F1 as ->.
  exists (SplicePayload (src [101; 102; 103; 104]%N (0, None)) (Included 0) (Excluded 4)).
  eexists. eexists. eexists. split; [exact M1|]. split; [|split; [reflexivity|split; [vm_compute; reflexivity|
    split; [vm_compute; reflexivity|split; [discriminate|reflexivity]]]]].
  split; [repeat constructor|]. cbn. lia.
Qed.
Print Assumptions C22_unannounced_refuted.

(** Byte buffers keep end bytes of earlier, longer payloads: set 10 bytes, set 3
    bytes, insert 20 bytes in front, all exactly announced, in an array with room
    for 38.  All three calls report success and the last three bytes are lost. *)
Theorem C22_stale_end_refuted : exists es b0 b',
  try_new_b 40 = Val (Ok b0) /\ fixed_legal SevenBit 38 es [] 
  /\ (forall e, In e es -> match e with SetPayload s | InsertPayload s _ => announced s = List.length (s_items s) | _ => False end)
  /\ run_tries try_edit_b es b0 = Val (b', [true; true; true])
  /\ fixed_history 38 es [] = (up 20 ++ up 3, [true; true; true])
  /\ payload_list_b b' = Val (up 20 ++ [0; 0; 0]%N).
Proof.
  exists [SetPayload (exactly (up 10)); SetPayload (exactly (up 3)); InsertPayload (exactly (up 20)) 0].
  eexists. eexists. split; [vm_compute; reflexivity|]. split; [|split; [|split; [vm_compute; reflexivity|
    split; vm_compute; reflexivity]]].
  - repeat (cbn [fixed_legal legal announced_enough]; split); try exact Logic.I; try (apply up_units; lia). cbn. lia.
  - cbn [In]. intros e [<-|[<-|[<-|[]]]]; reflexivity.
Qed.
Print Assumptions C22_stale_end_refuted.

(** An iterator that yields fewer bytes than announced: setting 10 bytes and then
    9 announced as 15 in an array with room for 15 panics. *)
Theorem C22_overannounced_refuted : exists e b0 b1,
  try_new_b 17 = Val (Ok b0)
  /\ try_edit_b (SetPayload (exactly (up 10))) b0 = Val (b1, true)
  /\ fixed_legal SevenBit 15 [e] (up 10) /\ fixed_history 15 [e] (up 10) = (up 9, [true])
  /\ try_edit_b e b1 = Panic.
Proof.
  exists (SetPayload (src (up 9) (15, Some 15))). eexists. eexists.
  split; [vm_compute; reflexivity|]. split; [vm_compute; reflexivity|].
  split; [|split; vm_compute; reflexivity].
  split; [apply up_units; lia|]. repeat split.
Qed.
Print Assumptions C22_overannounced_refuted.

(** ** C23: framing *)

Lemma needed_np fm n : packets_needed fm n = np (fmt_of fm) n.
Proof. unfold packets_needed, np. now rewrite cap_of. Qed.

(** The bytes of every packet header after any history of edits. *)
Theorem C23_framing : forall fm es, all_legal fm es [] ->
  exists b0 b', sx_new (fmt_for fm) = Val b0 /\ run_edits (apply_edit fm) es b0 = Val b'
    /\ let n := List.length (final_payload es []) in
       let k := packets_needed fm n in
       List.length b' = packet_words fm * k
       /\ forall p, p < k ->
            type_of fm b' p = type_code fm /\ group_of fm b' p = final_group es 0%N
            /\ status_nibble fm b' p = status_code k p /\ size_nibble fm b' p = size_code fm n p
            /\ (fm = EightBit -> stream_of fm b' p = 0%N).
Proof.
  intros fm es Lg. destruct (C34_histories fm es Lg) as (b0 & b' & N0 & E & _ & _ & _ & _ & _ & M & _).
  exists b0, b'. split; [exact N0|]. split; [exact E|]. cbv zeta.
  destruct M as (k & C & Fu & Len). destruct (carries_framed _ _ _ _ _ _ C Fu) as (FR & Ek & _).
  rewrite needed_np, <- Ek. split; [exact Len|]. intros p Hp.
  split; [exact (ca_type _ _ _ _ _ _ C p Hp)|]. split; [exact (ca_group _ _ _ _ _ _ C p Hp)|].
  split; [exact (ca_status _ _ _ _ _ _ C p Hp)|]. split; [|exact (ca_stream _ _ _ _ _ _ C p Hp)].
  pose proof (framed_cnt (fmt_of fm) _ _ b' p (okf_of fm) FR ltac:(lia)) as X. rewrite <- units_in_cnt in X.
  unfold units_in in X. pose proof (ca_size _ _ _ _ _ _ C p Hp) as Z. unfold size_code.
  unfold count_of in X. rewrite <- Ek in X. rewrite cap_of in X.
  pose proof (np_bounds (fmt_of fm) (List.length (final_payload es [])) (okf_of fm)) as [B1 B2].
  rewrite <- Ek, cap_of in B1, B2.
  set (n := List.length (final_payload es [])) in *.
  destruct (Nat.ltb_spec (S p) k) as [Y|Y].
  - assert (0 < n). { destruct (Nat.eq_dec n 0) as [Zn|]; [|lia]. rewrite Zn in Ek. cbn in Ek. lia. }
    specialize (B2 ltac:(lia)). rewrite Nat.min_l; [lia|].
    assert (packet_room fm * S p <= packet_room fm * (k - 1)) by (apply Nat.mul_le_mono_l; lia). lia.
  - assert (p = k - 1) by lia. subst p.
    assert (n - packet_room fm * (k - 1) <= packet_room fm).
    { replace k with (S (k - 1)) in B1 at 1 by lia. lia. }
    rewrite Nat.min_r by lia. lia.
Qed.
Print Assumptions C23_framing.

Example C23_case : all_legal EightBit sample_history []
  /\ packets_needed EightBit (List.length (final_payload sample_history [])) = 3.
Proof. split; [apply C34_case|reflexivity]. Qed.

(** ** C24: groups *)

(** [set_group] reaches every packet and changes nothing else; [carries] does not
    demand full packets. *)
Theorem C24_set_group : forall fm k g s l b g', carries fm k g s l b -> (g' < 16)%N ->
  exists b', set_group (fmt_for fm) b g' = Val b' /\ List.length b' = List.length b
    /\ (forall p, p < k -> group_of fm b' p = g') /\ group b' = Val g'
    /\ payload_list (fmt_for fm) b' = Val l
    /\ carries fm k g' s l b'
    /\ (forall j, j mod packet_bytes fm <> 0 -> byte b' j = byte b j).
Proof.
  intros fm k g s l b g' C Hg. destruct (set_group_packets fm b g' Hg) as (b' & E & _ & _ & _ & Ot).
  destruct (set_group_carries fm k g s l b g' b' C Hg E) as (C' & L' & _).
  exists b'. split; [exact E|]. split; [exact L'|]. split; [exact (ca_group _ _ _ _ _ _ C')|].
  split; [exact (group_first _ _ _ _ _ _ C')|]. split; [apply (carries_reads _ _ _ _ _ _ C')|]. auto.
Qed.
Print Assumptions C24_set_group.

(** An accepted message has one group. *)
Theorem C24_accepted_uniform : forall fm b, List.length b mod packet_words fm = 0 ->
  sx_try_from (fmt_for fm) b = Ok b ->
  exists d g, sx_data (fmt_for fm) b = Val d /\ group b = Val g
    /\ forall p, p < List.length d / packet_words fm -> group_of fm d p = g /\ group_of fm b p = g.
Proof.
  intros fm b Hm A. apply (accepts_spec fm b Hm) in A. destruct A as (k & g & s & l & C & _).
  destruct (carries_reads _ _ _ _ _ _ C) as (D & _). destruct (data_carries _ _ _ _ _ _ C) as (Cd & _ & Ld).
  exists (firstn (packet_words fm * k) b), g. split; [exact D|]. split; [exact (group_first _ _ _ _ _ _ C)|].
  rewrite Ld. rewrite Nat.mul_comm, Nat.div_mul by (destruct fm; discriminate). intros p Hp.
  rewrite Nat.mul_comm in Cd. rewrite Nat.mul_comm.
  split; [rewrite Nat.mul_comm; exact (ca_group _ _ _ _ _ _ Cd p Hp)|exact (ca_group _ _ _ _ _ _ C p Hp)].
Qed.
Print Assumptions C24_accepted_uniform.

(** ** C26 (and C07): what is accepted, and reading it *)

Theorem C26_accepts_exactly : forall fm b, List.length b mod packet_words fm = 0 ->
  (sx_try_from (fmt_for fm) b = Ok b <->
   exists k g s l, carries fm k g (Some s) l b
     /\ (k < List.length b / packet_words fm -> type_of fm b k <> type_code fm)
     /\ forall p, p < List.length b / packet_words fm ->
          (size_bias fm <= size_nibble fm b p <= size_bias fm + N.of_nat (packet_room fm))%N).
Proof. exact accepts_spec. Qed.
Print Assumptions C26_accepts_exactly.

Theorem C26_accepted_reads : forall fm b, List.length b mod packet_words fm = 0 ->
  sx_try_from (fmt_for fm) b = Ok b ->
  exists k l, sx_data (fmt_for fm) b = Val (firstn (packet_words fm * k) b)
    /\ packet_words fm * k <= List.length b
    /\ l = flat_map (payload_of fm b) (seq 0 k)
    /\ payload_list (fmt_for fm) b = Val l /\ payload_size (fmt_for fm) b = Val (List.length l)
    /\ Forall (is_unit fm) l
    /\ (* the data is itself an accepted message with the same payload *)
       sx_try_from (fmt_for fm) (firstn (packet_words fm * k) b) = Ok (firstn (packet_words fm * k) b)
    /\ payload_list (fmt_for fm) (firstn (packet_words fm * k) b) = Val l.
Proof.
  intros fm b Hm A. apply (accepts_spec fm b Hm) in A. destruct A as (k & g & s & l & C & _).
  destruct (carries_reads _ _ _ _ _ _ C) as (D & P & Z). exists k, l. split; [exact D|].
  split; [exact (ca_fits _ _ _ _ _ _ C)|]. split; [symmetry; exact (ca_payload _ _ _ _ _ _ C)|].
  split; [exact P|]. split; [exact Z|]. split; [exact (carries_units _ _ _ _ _ _ C)|].
  destruct (data_carries _ _ _ _ _ _ C) as (Cd & _ & Ld).
  split; [exact (exact_accepted _ _ _ _ _ _ Cd Ld)|]. apply (carries_reads _ _ _ _ _ _ Cd).
Qed.
Print Assumptions C26_accepted_reads.

(** Three packets, the second one partly filled, and an unrelated message behind. *)
Definition loose7 : list N :=
  [0x34160102; 0x03040506; 0x34220708; 0; 0x3436090A; 0x0B0C0D0E; 0x10F30000; 0]%N.
Example C26_case : List.length loose7 mod packet_words SevenBit = 0 /\ sx_try_from fmt7 loose7 = Ok loose7
  /\ payload_list fmt7 loose7 = Val (up 14).
Proof. computed. Qed.
Example C24_case : exists s, carries SevenBit 3 4 s (up 14) loose7.
Proof.
  exists None. constructor; try (intros p Hp; destruct p as [|[|[|p]]]; [| | |lia]); try (vm_compute; reflexivity);
    try (vm_compute; lia); try (split; vm_compute; discriminate); discriminate.
Qed.

Theorem C26_bytes_accepts_exactly : forall b,
  try_from_b b = Ok b <-> exists l r, Forall (fun v => v <> 0xF7%N) l /\ b = stream_bytes l ++ r.
Proof. exact accepts_b. Qed.
Print Assumptions C26_bytes_accepts_exactly.

Theorem C26_bytes_accepted_reads : forall l r, Forall (is_unit SevenBit) l ->
  try_from_b (stream_bytes l ++ r) = Ok (stream_bytes l ++ r)
  /\ data_b (stream_bytes l ++ r) = Val (stream_bytes l)
  /\ payload_list_b (stream_bytes l ++ r) = Val l
  /\ payload_size_b (stream_bytes l ++ r) = Val (List.length l).
Proof.
  intros l r Hl. pose proof (septets_no_end l Hl) as Ne. destruct (septet_reads l r Ne) as (D & Z & P).
  split; [apply accepts_b; eauto|]. auto.
Qed.
Print Assumptions C26_bytes_accepted_reads.

(** A slice ending in half a packet is accepted; [data] then panics. *)
Theorem C26_half_packet_refuted : exists b, sx_try_from fmt7 b = Ok b /\ sx_data fmt7 b = Panic.
Proof. exists [0x30160001; 0x02030405; 0x30300000]%N. split; vm_compute; reflexivity. Qed.
Print Assumptions C26_half_packet_refuted.
(** A byte stream with an 8-bit byte is accepted; reading its payload panics. *)
Theorem C26_high_byte_refuted : exists b, try_from_b b = Ok b /\ payload_list_b b = Panic.
Proof. exists [0xF0; 0x80; 0xF7]%N. split; vm_compute; reflexivity. Qed.
Print Assumptions C26_high_byte_refuted.

(** ** C27: payload iterators *)

(** [next] in any order with [nth] inside the payload, on any accepted message;
    each answer comes with [len()] afterwards. *)
Theorem C27_calls : forall fm k g s l b cs, carries fm k g s l b -> within cs l ->
  exists it, payload (fmt_for fm) b = Val it /\ it_len it = List.length l
    /\ run_calls (fmt_for fm) cs it = Val (answers cs l).
Proof.
  intros fm k g s l b cs C W. pose proof (carries_size _ _ _ _ _ _ C) as Sz.
  pose proof (carries_sized _ _ _ _ _ _ C) as S0. rewrite <- words_of in Sz.
  destruct (payload_at (fmt_of fm) b k (okf_of fm) S0 Sz) as (P & Cu & R).
  pose proof (ca_payload _ _ _ _ _ _ C) as El. rewrite payload_span in El.
  eexists. split; [exact P|]. split; [cbn [it_len it_left]; now rewrite El|].
  change (fmt_for fm) with (fmt_of fm). rewrite El in *. rewrite (calls_ok (fmt_of fm) b k (okf_of fm) S0 cs _ Cu) by (now rewrite R).
  now rewrite R.
Qed.
Print Assumptions C27_calls.

(** 7-bit messages that fill their buffer: any calls. *)
Theorem C27_calls_sysex7 : forall k g s l b cs, carries SevenBit k g s l b -> List.length b = 2 * k ->
  exists it, payload fmt7 b = Val it /\ it_len it = List.length l
    /\ run_calls fmt7 cs it = Val (answers cs l).
Proof.
  intros k g s l b cs C Len. pose proof (carries_size _ _ _ _ _ _ C) as Sz.
  pose proof (carries_sized _ _ _ _ _ _ C) as S0. rewrite <- words_of in Sz. cbn [fmt_of] in *.
  destruct (payload_at fmt7 b k (okf_of SevenBit) S0 Sz) as (P & Cu & R).
  pose proof (ca_payload _ _ _ _ _ _ C) as El. rewrite payload_span in El. cbn [fmt_of] in El.
  eexists. split; [exact P|]. split; [cbn [it_len it_left]; now rewrite El|].
  rewrite El in *. rewrite (calls_seven b k S0) by (auto; rewrite Len, Nat.mul_comm, Nat.div_mul; lia).
  now rewrite R.
Qed.
Print Assumptions C27_calls_sysex7.

Theorem C27_calls_bytes : forall l r cs, Forall (is_unit SevenBit) l -> within cs l ->
  exists it, payload_b (stream_bytes l ++ r) = Val it
    /\ run_calls_b cs it = Val (answers cs l).
Proof.
  intros l r cs Hl W. pose proof (septets_no_end l Hl) as Ne. destruct (septet_reads l r Ne) as (D & Z & _).
  unfold payload_b. rewrite D. cbn [bind]. rewrite stream_bytes_length. unfold sub_chk.
  replace (List.length l + 2 <? 1) with false by lia. cbn [bind].
  replace (List.length l + 2 - 1) with (S (List.length l)) by lia.
  replace ((S (List.length l) <? 1) || (List.length (stream_bytes l ++ r) <? S (List.length l))) with false
    by (rewrite app_length, stream_bytes_length; lia).
  eexists. split; [reflexivity|]. replace (S (List.length l) - 1) with (List.length l) by lia.
  assert (X : firstn (List.length l) (skipn 1 (stream_bytes l ++ r)) = l).
  { unfold stream_bytes. cbn [app skipn]. rewrite <- app_assoc, firstn_app, Nat.sub_diag, firstn_all.
    cbn [firstn]. apply app_nil_r. }
  rewrite X. exact (calls_bytes l Hl cs 0 ltac:(lia) W).
Qed.
Print Assumptions C27_calls_bytes.

(** [nth(k)] is [k] calls of [next] and one more, in the specification of the
    answers. *)
Lemma nth_is_nexts : forall n l, answer (Nth n) l = answer Next (Nat.iter n (left_after Next) l)
  /\ left_after (Nth n) l = Nat.iter (S n) (left_after Next) l.
Proof.
  assert (T : forall n l, skipn n l = Nat.iter n (left_after Next) l).
  { intros n l. rewrite <- (Nat.add_0_l n) at 1. induction n as [|n IH]; [reflexivity|].
    change (Nat.iter (S n) (left_after Next) l) with (left_after Next (Nat.iter n (left_after Next) l)).
    rewrite <- IH. cbn [Nat.add left_after]. clear IH. revert l.
    induction n as [|n IH]; intros [|x l]; try reflexivity. cbn [skipn]. apply IH. }
  intros n l. rewrite <- !T. split; [|reflexivity]. cbn [answer]. revert l.
  induction n as [|n IH]; intros [|x l]; try reflexivity. cbn [nth_error skipn]. apply IH.
Qed.

Example C27_case : within [Next; Nth 4; Next; Nth 5; Next; Next; Next] (up 14).
Proof. cbn. lia. Qed.

(** An empty 8-bit message: the second [nth(0)] panics. *)
Theorem C27_sysex8_nth_refuted : exists b it, sx_new fmt8 = Val b /\ payload fmt8 b = Val it
  /\ answers [Nth 0; Nth 0] [] = [(None, 0); (None, 0)] /\ run_calls fmt8 [Nth 0; Nth 0] it = Panic.
Proof. eexists. eexists. computed. Qed.
Print Assumptions C27_sysex8_nth_refuted.

(** A 3-byte message in an array that held 18 bytes before: [nth(5)] panics. *)
Theorem C27_trailing_nth_refuted : exists b0 b it, sx_try_new fmt7 6 = Val (Ok b0)
  /\ run_tries (try_edit SevenBit) [SetPayload (exactly (up 18)); SetPayload (exactly (up 3))] b0 = Val (b, [true; true])
  /\ payload fmt7 b = Val it /\ answers [Nth 5] (up 3) = [(None, 0)] /\ run_calls fmt7 [Nth 5] it = Panic.
Proof. eexists. eexists. eexists. computed. Qed.
Print Assumptions C27_trailing_nth_refuted.

(** Byte form: [len()] panics after [nth] beyond the end, and [size_hint] always
    says that nothing is left. *)
Theorem C27_bytes_nth_refuted : exists it it', payload_b (stream_bytes (up 2)) = Val it
  /\ ib_nth it 5 = Val (None, it') /\ ib_len it' = Panic.
Proof. eexists. eexists. computed. Qed.
Print Assumptions C27_bytes_nth_refuted.
Theorem C27_bytes_size_hint_refuted : exists it, payload_b (stream_bytes (up 2)) = Val it
  /\ ib_len it = Val 2 /\ ib_size_hint it = (0, Some 0).
Proof. eexists. computed. Qed.
Print Assumptions C27_bytes_size_hint_refuted.

(** ** C28: [set_byte] *)

Theorem C28_set_byte : forall fm k g s l b v i, carries fm k g s l b -> i < List.length l -> is_unit fm v ->
  exists b', set_byte (fmt_for fm) b v i = Val b' /\ List.length b' = List.length b
    /\ payload_list (fmt_for fm) b' = Val (with_unit l i v)
    /\ carries fm k g s (with_unit l i v) b'
    /\ (forall p, p < k -> units_in fm b' p = units_in fm b p).
Proof.
  intros fm k g s l b v i C Hi Hv. destruct (set_byte_carries fm k g s l b v i C Hi Hv) as (b' & E & C' & L' & _).
  exists b'. split; [exact E|]. split; [exact L'|]. split; [apply (carries_reads _ _ _ _ _ _ C')|].
  split; [exact C'|]. intros p Hp.
  pose proof (set_byte_aux_ok (fmt_of fm) b v k (okf_of fm) (carries_sized _ _ _ _ _ _ C)
    ltac:(now apply unit_ok_of) (List.length b) 0 i ltac:(lia)) as X.
  pose proof (ca_payload _ _ _ _ _ _ C) as El. rewrite payload_span in El.
  rewrite Nat.sub_0_r, El in X.
  destruct X as (p' & q & b2 & _ & Hp' & Hq & _ & E2 & _ & x & _ & _ & R); [|exact Hi|].
  { pose proof (ca_fits _ _ _ _ _ _ C). destruct fm; cbn [packet_words] in *; lia. }
  unfold set_byte in E. rewrite E in E2. injection E2 as <-.
  rewrite !units_in_cnt. unfold cnt. rewrite R.
  pose proof (okf_facts _ (okf_of fm)) as F.
  pose proof (cnt_le (fmt_of fm) b k p' (carries_sized _ _ _ _ _ _ C) Hp') as Hc.
  replace (pb (fmt_of fm) * p + 1 =? pb (fmt_of fm) * p' + f_head (fmt_of fm) + q) with false; [reflexivity|].
  symmetry. apply Nat.eqb_neq. intros Y. symmetry in Y. apply head_split in Y; [|apply okf_of|lia|lia]. lia.
Qed.
Print Assumptions C28_set_byte.

Theorem C28_out_of_range : forall fm k g s l b v i, carries fm k g s l b ->
  List.length b = packet_words fm * k -> List.length l <= i -> set_byte (fmt_for fm) b v i = Panic.
Proof. exact set_byte_past. Qed.
Print Assumptions C28_out_of_range.

Theorem C28_bytes_set_byte : forall l v i r, Forall (is_unit SevenBit) l -> is_unit SevenBit v -> i < List.length l ->
  set_byte_b (stream_bytes l ++ r) v i = Val (stream_bytes (with_unit l i v) ++ r).
Proof. exact set_byte_stream. Qed.
Print Assumptions C28_bytes_set_byte.

Example C28_case : exists s, carries SevenBit 3 4 s (up 14) loose7 /\ 7 < List.length (up 14)
  /\ exists b, carries EightBit 1 0 (Some 0%N) [] b /\ List.length b = packet_words EightBit * 1.
Proof.
  destruct C24_case as (s & C). exists s. split; [exact C|]. split; [cbn; lia|].
  exists (fresh_words EightBit). split; [apply fresh_carries|reflexivity].
Qed.

(** Byte form: one past the end does not panic and destroys the end byte. *)
Theorem C28_bytes_out_of_range_refuted : exists b, set_byte_b (stream_bytes (up 2)) 5 2 = Val b
  /\ try_from_b b = Err "Sysex messages should end 0xF7"%string.
Proof. eexists. split; vm_compute; reflexivity. Qed.
Print Assumptions C28_bytes_out_of_range_refuted.

(** ** C25: conversion *)

Theorem C25_from_bytes : forall l r n, Forall (is_unit SevenBit) l ->
  (exists b, sysex7_from_bytes (stream_bytes l ++ r) = Val b
     /\ message SevenBit 0 None l b /\ clean_bytes SevenBit b
     /\ sx_try_from fmt7 b = Ok b /\ payload_list fmt7 b = Val l)
  /\ if (2 <=? n) && (List.length l <=? room_in SevenBit n)
     then exists b, sysex7_try_from_bytes (stream_bytes l ++ r) n = Val (Ok b) /\ List.length b = n
            /\ message_in SevenBit 0 None l b /\ clean_bytes SevenBit b /\ payload_list fmt7 b = Val l
     else sysex7_try_from_bytes (stream_bytes l ++ r) n = Val (Err "BufferOverflow"%string).
Proof.
  intros l r n Hl. split.
  - destruct (from_bytes_ok l r Hl) as (b & E & M & Cl). exists b. split; [exact E|].
    split; [now apply (seven_message _ (Some 0%N))|]. split; [exact Cl|].
    split; [exact (message_accepted _ _ _ _ _ M)|]. apply (message_reads _ _ _ _ _ M).
  - pose proof (try_from_bytes_ok l r n Hl) as X.
    destruct (Nat.ltb_spec n 2) as [A|A]; [replace (2 <=? n) with false by lia; exact X|].
    replace (2 <=? n) with true by lia. cbn [orb andb] in *.
    destruct (Nat.ltb_spec (room_in SevenBit n) (List.length l)) as [B|B].
    + replace (List.length l <=? room_in SevenBit n) with false by lia. exact X.
    + replace (List.length l <=? room_in SevenBit n) with true by lia. destruct X as (b & E & L & M & Cl).
      exists b. split; [exact E|]. split; [exact L|]. split; [|split; [exact Cl|apply (message_in_reads _ _ _ _ _ M)]].
      destruct M as ((k & C & Fu) & Sc). split.
      * exists k. split; [now apply (seven_stream _ _ (Some 0%N))|exact Fu].
      * intros p Hp. destruct (Sc p Hp) as [S1 _]. split; [exact S1|discriminate].
Qed.
Print Assumptions C25_from_bytes.

(** From every accepted message, loosely packed or not; see C26. *)
Theorem C25_from_ump : forall k g s l b n, carries SevenBit k g s l b ->
  sysex7_from_ump b = Val (stream_bytes l)
  /\ if List.length l + 2 <=? n
     then exists r, sysex7_try_from_ump b n = Val (Ok (stream_bytes l ++ r))
            /\ List.length (stream_bytes l ++ r) = n /\ Forall (fun x => x <> 0xF7%N) r
     else sysex7_try_from_ump b n = Val (Err "BufferOverflow"%string).
Proof.
  intros k g s l b n C. split; [exact (from_ump_ok _ _ _ _ _ C)|].
  pose proof (try_from_ump_ok k g s l b n C) as X.
  destruct (Nat.ltb_spec n (List.length l + 2)) as [A|A].
  - replace (List.length l + 2 <=? n) with false by lia. exact X.
  - replace (List.length l + 2 <=? n) with true by lia. exact X.
Qed.
Print Assumptions C25_from_ump.

Theorem C25_round_trips : forall k g s l b r,
  (carries SevenBit k g s l b ->
   exists b', (m <- sysex7_from_ump b ;; sysex7_from_bytes m) = Val b' /\ payload_list fmt7 b' = payload_list fmt7 b)
  /\ (Forall (is_unit SevenBit) l ->
      (m <- sysex7_from_bytes (stream_bytes l ++ r) ;; sysex7_from_ump m) = Val (stream_bytes l)).
Proof.
  intros k g s l b r. split.
  - intros C. rewrite (from_ump_ok _ _ _ _ _ C). cbn [bind].
    destruct (from_bytes_ok l [] (carries_units _ _ _ _ _ _ C)) as (b' & E & M & _). rewrite app_nil_r in E.
    exists b'. split; [exact E|]. destruct (message_reads _ _ _ _ _ M) as (_ & P & _).
    destruct (carries_reads _ _ _ _ _ _ C) as (_ & P' & _). cbn [fmt_of] in *. now rewrite P, P'.
  - intros Hl. destruct (from_bytes_ok l r Hl) as (b' & E & (k' & C' & _) & _). rewrite E. cbn [bind].
    exact (from_ump_ok _ _ _ _ _ C').
Qed.
Print Assumptions C25_round_trips.

Example C25_case : Forall (is_unit SevenBit) (up 14) /\ exists s, carries SevenBit 3 4 s (up 14) loose7.
Proof. split; [apply up_units; lia|exact C24_case]. Qed.

(** ** C35: stream ids of 8-bit messages *)

(** Edits on a fixed-size buffer keep the id on all packets. *)
Theorem C35_fixed_keeps_id : forall e b g i l,
  message_in EightBit g (Some i) l b -> legal EightBit e l -> announced_enough e l ->
  exists b' ok, try_edit EightBit e b = Val (b', ok) /\ stream_id b' = Val i
    /\ exists l', message_in EightBit (new_group e g) (Some i) l' b'.
Proof.
  intros e b g i l M Lg An. destruct (fixed_step EightBit e b g (Some i) l M Lg An) as (b' & E & M' & Len & _).
  exists b', (snd (fixed_outcome (room_in EightBit (List.length b)) e l)). split; [exact E|].
  split; [|eauto]. destruct M' as ((k & C & _) & _). rewrite (stream_id_of _ _ _ _ _ C).
  f_equal. exact (ca_stream _ _ _ _ _ _ C 0 (ca_some _ _ _ _ _ _ C) eq_refl).
Qed.
Print Assumptions C35_fixed_keeps_id.

(** Histories of edits on a growable buffer: [stream_id] keeps its value, and
    the packets have this id or, if they were added, 0. *)
Theorem C35_growable : forall es b g i l,
  message EightBit g (Some i) l b -> all_legal EightBit es l ->
  exists b', run_edits (apply_edit EightBit) es b = Val b' /\ stream_id b' = Val i
    /\ message EightBit (final_group es g) None (final_payload es l) b'
    /\ forall p, stream_of EightBit b' p = i \/ stream_of EightBit b' p = 0%N.
Proof.
  intros es b g i l M Lg.
  assert (M0 : message EightBit g None l b).
  { destruct M as (k & C & R). exists k. split; [|exact R]. destruct C. constructor; auto.
    intros p _ _. exact Logic.I. }
  destruct (ids_history i es b g l M0 (message_idq g i l b M) Lg) as (b' & E & M' & Q0 & Q).
  exists b'. split; [exact E|]. split; [|auto]. destruct M' as (k & C & _).
  rewrite (stream_id_of _ _ _ _ _ C). now rewrite Q0.
Qed.
Print Assumptions C35_growable.

(** [set_stream_id] on any message: the id of every packet stays, and the first
    payload byte of every packet becomes [v]. *)
Theorem C35_set_stream_id_effect : forall k g s l b v, carries EightBit k g s l b -> (v < 256)%N ->
  exists b', set_stream_id b v = Val b' /\ List.length b' = List.length b
    /\ stream_id b' = stream_id b
    /\ (forall p, stream_of EightBit b' p = stream_of EightBit b p)
    /\ carries EightBit k g s (flat_map (fun p => first_to v (payload_of EightBit b p)) (seq 0 k)) b'
    /\ payload_list fmt8 b' = Val (flat_map (fun p => first_to v (payload_of EightBit b p)) (seq 0 k)).
Proof.
  intros k g s l b v C Hv. destruct (set_stream_carries k g s l b v C Hv) as (b' & E & L & C' & St).
  exists b'. split; [exact E|]. split; [exact L|].
  split; [rewrite (stream_id_of _ _ _ _ _ C'), (stream_id_of _ _ _ _ _ C); now rewrite St|].
  split; [exact St|]. split; [exact C'|]. apply (carries_reads _ _ _ _ _ _ C').
Qed.
Print Assumptions C35_set_stream_id_effect.

Example C35_case : exists b, message_in EightBit 0 (Some 7%N) [] b /\ legal EightBit (AppendByte 200) [].
Proof.
  exists [0x50010700; 0; 0; 0; 0x700; 0; 0; 0]%N. split; [|reflexivity]. split.
  - exists 1. split.
    + constructor; try (intros p Hp; destruct p as [|p]; [|lia]); try (vm_compute; reflexivity);
        try (vm_compute; lia); try (split; vm_compute; discriminate); intros; vm_compute; reflexivity.
    + split; [intros; lia|now left].
  - intros p Hp. change (p < 2) in Hp. destruct p as [|[|p]]; [| |lia]; (split; [|intros _; vm_compute; reflexivity]);
      vm_compute; [intros _ [A|A]; discriminate A|discriminate].
Qed.

Example C35_growable_case : exists b, message EightBit 0 (Some 7%N) [] b
  /\ all_legal EightBit [AppendPayload (exactly (up 20)); SetByte 99 13; SetGroup 3] []
  /\ exists b', run_edits (apply_edit EightBit) [AppendPayload (exactly (up 20)); SetByte 99 13; SetGroup 3] b = Val b'
    /\ stream_id b' = Val 7%N /\ stream_of EightBit b' 1 = 0%N.
Proof.
  exists [0x50010700; 0; 0; 0]%N. split; [|split].
  - exists 1. split.
    + constructor; try (intros p Hp; destruct p as [|p]; [|lia]); try (vm_compute; reflexivity);
        try (vm_compute; lia); try (split; vm_compute; discriminate); intros; vm_compute; reflexivity.
    + split; [split; [intros; lia|now left]|reflexivity].
  - cbn [all_legal legal]. split; [apply up_units; lia|]. split; [split; [reflexivity|vm_compute; lia]|]. split; [|exact Logic.I]. vm_compute. reflexivity.
  - eexists. computed.
Qed.

(** So [set_stream_id] writes over the first payload byte of every packet and
    does not change the id. *)
Theorem C35_set_stream_id_refuted : exists b0 b1 b2 l,
  sx_new fmt8 = Val b0 /\ apply_edit EightBit (SetPayload (exactly (up 20))) b0 = Val b1
  /\ set_stream_id b1 9 = Val b2 /\ stream_id b2 = Val 0%N
  /\ payload_list fmt8 b2 = Val l /\ l = 9%N :: tl (firstn 13 (up 20)) ++ 9%N :: skipn 14 (up 20).
Proof. do 4 eexists. computed. Qed.
Print Assumptions C35_set_stream_id_refuted.

(** Growing an accepted message with a non-zero id gives one that is not
    accepted. *)
Theorem C35_growing_refuted : exists b b', sx_try_from fmt8 b = Ok b /\ stream_id b = Val 7%N
  /\ apply_edit EightBit (AppendPayload (exactly (up 13))) b = Val b'
  /\ sx_try_from fmt8 b' = Err "Inconsistent stream id fields across packets"%string.
Proof. exists [0x50020701; 0; 0; 0]%N. eexists. computed. Qed.
Print Assumptions C35_growing_refuted.

(** ** C39: messages whose packets are not all full *)

(** Compaction, the first step of every edit, keeps the payload; afterwards all
    packets but the last are full. *)
Theorem C39_compaction : forall fm k g s l b, carries fm k g s l b -> noticed fm k b ->
  exists b' k', compact (fmt_for fm) b = Val b' /\ List.length b' = List.length b
    /\ k' <= k /\ carries fm k' g s l b' /\ payload_list (fmt_for fm) b' = Val l
    /\ (forall p, S p < k' -> units_in fm b' p = packet_room fm).
Proof.
  intros fm k g s l b C Nt.
  destruct (compact_ok fm k g s l b C (noticed_cases _ _ _ Nt)) as (b' & k' & E & L & Hk & C' & Fu & _).
  exists b', k'. split; [exact E|]. split; [exact L|]. split; [exact Hk|]. split; [exact C'|].
  split; [apply (carries_reads _ _ _ _ _ _ C')|exact Fu].
Qed.
Print Assumptions C39_compaction.

(** Which messages [loose_message] describes: those that fill their buffer, with
    packets of any sizes in 8-bit messages. *)
Theorem C39_any_packets : forall fm k g s l b, carries fm k g s l b ->
  List.length b = packet_words fm * k ->
  (fm = SevenBit -> forall p, S p < k -> units_in fm b p <> packet_room fm -> Nat.even p = true) ->
  loose_message fm k g l b.
Proof. exact exact_loose. Qed.
Print Assumptions C39_any_packets.

(** Every edit on a growable buffer, [blocked] ones excepted, edits the payload as
    a list.  The result is such a message again, and well packed after all edits
    but [SetByte] and [SetGroup]. *)
Theorem C39_edits : forall fm k e b g l,
  loose_message fm k g l b -> legal fm e l -> ~ blocked fm k e l b ->
  exists b', apply_edit fm e b = Val b'
    /\ payload_list (fmt_for fm) b' = Val (new_payload e l)
    /\ group b' = Val (new_group e g)
    /\ (exists k', loose_message fm k' (new_group e g) (new_payload e l) b')
    /\ (resizes e -> message fm g None (new_payload e l) b').
Proof.
  intros fm k e b g l M Lg Nb. destruct (edit_loose fm k e b g l M Lg Nb) as (b' & E & (k' & M') & R).
  exists b'. pose proof (proj1 M') as C'. split; [exact E|]. split; [apply (carries_reads _ _ _ _ _ _ C')|].
  split; [exact (group_first _ _ _ _ _ _ C')|]. split; [eauto|exact R].
Qed.
Print Assumptions C39_edits.

(** The others panic. *)
Theorem C39_blocked_edits : forall fm k e b g l,
  loose_message fm k g l b -> legal fm e l -> blocked fm k e l b -> apply_edit fm e b = Panic.
Proof. exact edit_blocked. Qed.
Print Assumptions C39_blocked_edits.

(** The same on buffers of a fixed size. *)
Theorem C39_fixed_edits : forall fm k e b g l,
  loose_message fm k g l b -> legal fm e l -> announced_enough e l -> ~ fixed_blocked fm k e l b ->
  let '(l', ok) := fixed_outcome (room_in fm (List.length b)) e l in
  exists b', try_edit fm e b = Val (b', ok) /\ List.length b' = List.length b
    /\ payload_list (fmt_for fm) b' = Val l'
    /\ group b' = Val (new_group e g)
    /\ (exists k', loose_message fm k' (new_group e g) l' b')
    /\ (resizes e -> exists k', carries fm k' g None l' b' /\ full_packets fm k' b').
Proof.
  intros fm k e b g l M Lg An Nb. pose proof (try_edit_loose fm k e b g l M Lg An Nb) as H.
  destruct (fixed_outcome _ e l) as [l' ok]. destruct H as (b' & E & (k' & M') & L & R).
  exists b'. pose proof (proj1 M') as C'. split; [exact E|]. split; [exact L|].
  split; [apply (carries_reads _ _ _ _ _ _ C')|].
  split; [exact (group_first _ _ _ _ _ _ C')|]. split; [eauto|exact R].
Qed.
Print Assumptions C39_fixed_edits.

Theorem C39_fixed_blocked_edits : forall fm k e b g l,
  loose_message fm k g l b -> legal fm e l -> fixed_blocked fm k e l b -> try_edit fm e b = Panic.
Proof. exact try_edit_blocked. Qed.
Print Assumptions C39_fixed_blocked_edits.

(** Five bytes in four packets.  They fit one packet: whether the third, partly
    filled one is in the way depends on how much room is made first. *)
Definition sparse : list N :=
  [0x50130001; 0x02000000; 0; 0; 0x50220003; 0; 0; 0; 0x50220004; 0; 0; 0; 0x50320005; 0; 0; 0]%N.
Lemma sparse_loose : loose_message EightBit 4 0 [1; 2; 3; 4; 5]%N sparse.
Proof.
  apply (exact_loose EightBit 4 0 (Some 0%N)); [|reflexivity|discriminate].
  constructor; try (vm_compute; reflexivity); try lia; try (cbn; lia).
  all: intros p Hp; do 4 (destruct p as [|p]; [vm_compute; try (intros _); try split; try discriminate; reflexivity|]); lia.
Qed.
Example C39_case : loose_message EightBit 4 0 [1; 2; 3; 4; 5]%N sparse
  /\ legal EightBit (InsertPayload (exactly (up 3)) 2) [1; 2; 3; 4; 5]%N
  /\ ~ blocked EightBit 4 (InsertPayload (exactly (up 3)) 2) [1; 2; 3; 4; 5]%N sparse
  /\ blocked EightBit 4 (InsertPayload (src (up 3) (0, None)) 2) [1; 2; 3; 4; 5]%N sparse.
Proof.
  split; [exact sparse_loose|]. split; [split; [apply up_units; lia|cbn; lia]|]. split.
  - intros [X _]. discriminate.
  - split; [reflexivity|]. exists 1. split; [vm_compute; lia|]. split; [lia|]. split; [vm_compute; discriminate|discriminate].
Qed.
Example C39_fixed_case : announced_enough (AppendPayload (src (up 20) (34, None))) [1; 2; 3; 4; 5]%N
  /\ ~ fixed_blocked EightBit 4 (AppendPayload (src (up 20) (34, None))) [1; 2; 3; 4; 5]%N sparse
  /\ fixed_blocked EightBit 4 (AppendPayload (exactly (up 20))) [1; 2; 3; 4; 5]%N sparse
  /\ fixed_blocked EightBit 4 (SetPayload (exactly (up 3))) [1; 2; 3; 4; 5]%N sparse.
Proof.
  split; [exact Logic.I|]. split; [|split].
  - intros (p & A & B & _). change (packets_needed EightBit _) with 3 in A. lia.
  - exists 2. split; [vm_compute; lia|]. split; [lia|]. split; [vm_compute; discriminate|discriminate].
  - exists 1. split; [vm_compute; lia|]. split; [lia|]. split; [vm_compute; discriminate|discriminate].
Qed.

(** A partly filled packet at an odd position goes unnoticed: inserting nothing
    changes the payload. *)
Theorem C39_sysex7_refuted : exists b b', sx_try_from fmt7 b = Ok b
  /\ payload_list fmt7 b = Val (up 14)
  /\ apply_edit SevenBit (InsertPayload (exactly []) 0) b = Val b'
  /\ payload_list fmt7 b' = Val (up 8 ++ [0; 0; 0; 0; 9; 10]%N).
Proof.
  exists [0x30160102; 0x03040506; 0x30220708; 0; 0x3036090A; 0x0B0C0D0E]%N. eexists.
  computed.
Qed.
Print Assumptions C39_sysex7_refuted.

(** Removing a byte of an 8-bit message with partly filled packets panics: the
    packets emptied by compaction are still in the buffer. *)
Theorem C39_sysex8_removal_refuted : exists b l, sx_try_from fmt8 b = Ok b
  /\ payload_list fmt8 b = Val l /\ 0 < List.length l
  /\ apply_edit EightBit (SplicePayload (exactly []) (Included 0) (Excluded 1)) b = Panic
  /\ try_edit EightBit (SetPayload (exactly [7]%N)) b = Panic.
Proof.
  exists [0x50120001; 0; 0; 0; 0x50220001; 0; 0; 0; 0x50320002; 0; 0; 0]%N. eexists.
  split; [vm_compute; reflexivity|]. split; [vm_compute; reflexivity|]. split; [cbn; lia|].
  split; vm_compute; reflexivity.
Qed.
Print Assumptions C39_sysex8_removal_refuted.

(** ** C40, C05: constructors *)

Theorem C40_sysex_new : forall fm b,
  sx_new (fmt_for fm) = Val (fresh_words fm) /\ sx_new_with_buffer (fmt_for fm) b = Val (fresh_words fm)
  /\ message fm 0 (Some 0%N) [] (fresh_words fm).
Proof.
  intros fm b. split; [apply new_fresh|]. split; [apply new_with_buffer_fresh|]. apply fresh_message.
Qed.
Print Assumptions C40_sysex_new.

(** Whatever the buffer held: the data is that of a message made by [new()]. *)
Theorem C40_sysex_dirty : forall fm b,
  if List.length b <? packet_words fm
  then sx_try_new_with_buffer (fmt_for fm) b = Val (Err "BufferOverflow"%string)
  else exists b' d, sx_try_new_with_buffer (fmt_for fm) b = Val (Ok b') /\ List.length b' = List.length b
         /\ sx_data (fmt_for fm) b' = Val d /\ sx_new (fmt_for fm) = Val d
         /\ payload_list (fmt_for fm) b' = Val [] /\ group b' = Val 0%N
         /\ ((forall j, packet_words fm <= j -> nth j b 0%N = 0%N) -> message_in fm 0 (Some 0%N) [] b').
Proof.
  intros fm b. pose proof (try_new_with_buffer_fresh fm b) as T.
  destruct (Nat.ltb_spec (List.length b) (packet_words fm)); [exact T|].
  destruct T as (b' & E & L & C & _ & F & Z). exists b', (fresh_words fm). split; [exact E|]. split; [exact L|].
  destruct (carries_reads _ _ _ _ _ _ C) as (D & P & _). rewrite Nat.mul_1_r, F in D.
  split; [exact D|]. split; [apply new_fresh|]. split; [exact P|]. split; [exact (group_first _ _ _ _ _ _ C)|].
  intros X. now apply Z.
Qed.
Print Assumptions C40_sysex_dirty.

Theorem C40_sysex_bytes : forall b,
  new_with_buffer_b b = Val (stream_bytes []) /\ new_b = Val (stream_bytes [])
  /\ try_new_with_buffer_b b = if List.length b <? 2 then Val (Err "BufferOverflow"%string)
                               else Val (Ok (stream_bytes [] ++ skipn 2 b)).
Proof.
  intros b. split; [apply new_with_buffer_b_fresh|]. split; [apply new_b_fresh|].
  pose proof (try_new_with_buffer_b_fresh b) as T. destruct (List.length b <? 2); exact T.
Qed.
Print Assumptions C40_sysex_bytes.

(** But old contents can make a later edit panic. *)
Theorem C40_dirty_bytes_edit_refuted : exists b b',
  try_new_with_buffer_b b = Val (Ok b') /\ payload_list_b b' = Val []
  /\ fixed_history 6 [SetPayload (src (up 2) (4, None))] [] = (up 2, [true])
  /\ try_edit_b (SetPayload (src (up 2) (4, None))) b' = Panic.
Proof. exists [1; 2; 3; 4; 0xF7; 5; 6; 7]%N. eexists. computed. Qed.
Print Assumptions C40_dirty_bytes_edit_refuted.
