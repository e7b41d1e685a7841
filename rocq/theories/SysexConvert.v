(** Conversion of sysex messages between byte streams and packets. *)
From Coq Require Import NArith List String Bool Arith Lia ZifyN ZifyNat ZifyBool.
From Verif Require Import Base BitOps Message Sysex Splice SpecSysex SpecEdits SysexClient
  BitLemmas ListLemmas ByteView SysexLayout SysexRead SysexEdit SpliceLemmas SysexLaws SysexBytes
  SysexBridge SysexHold SysexMore SysexInit SysexHistory.
Import ListNotations.
Local Open Scope nat_scope.

Lemma carries_units fm k g s l b : carries fm k g s l b -> Forall (is_unit fm) l.
Proof.
  intros C. rewrite <- (ca_payload _ _ _ _ _ _ C). apply Forall_flat_map, Forall_forall. intros p _.
  unfold payload_of. apply Forall_forall. intros v Hv. apply in_map_iff in Hv.
  destruct Hv as (q & <- & _). destruct fm; cbn [is_unit unit_of].
  - apply N.mod_lt. discriminate.
  - unfold byte. apply N.mod_lt. discriminate.
Qed.

Lemma source_bytes l r : Forall septet l ->
  source_of_bytes (stream_bytes l ++ r) = Val {| s_items := l; s_hint := (0, Some 0) |}.
Proof.
  intros Hl. destruct (septet_reads l r (septets_no_end l Hl)) as (_ & Z & P). specialize (P Hl).
  unfold source_of_bytes. unfold payload_size_b in Z.
  destruct (payload_b (stream_bytes l ++ r)) as [it|]; cbn [bind] in *; [|discriminate].
  rewrite P. reflexivity.
Qed.

Lemma source_ump k g s l b : carries SevenBit k g s l b ->
  source_of_ump b = Val {| s_items := l; s_hint := (List.length l, Some (List.length l)) |}.
Proof.
  intros C. destruct (carries_reads _ _ _ _ _ _ C) as (_ & P & Z). cbn [fmt_of] in *.
  unfold source_of_ump. unfold payload_size in Z.
  destruct (payload fmt7 b) as [it|]; cbn [bind] in *; [|discriminate].
  rewrite P. cbn [bind]. injection Z as Z. unfold it_len in *. now rewrite Z.
Qed.

Lemma ump_from_bytes_init k buffer b : ump_from_bytes k buffer b =
  (b2 <- sx_init fmt7 buffer ;; src <- source_of_bytes b ;;
   match k with
   | Fixed => try_set_payload (ump_ops fmt7 k) b2 src
   | _ => r <- set_payload (ump_ops fmt7 k) b2 src ;; Val (r, true)
   end).
Proof.
  unfold ump_from_bytes, sx_init. cbn [fmt7 f_seven f_type].
  destruct (upd buffer 0 _); cbn [bind]; [|reflexivity]. now destruct (set_group _ _ _).
Qed.

Lemma from_bytes_ok l r : Forall septet l ->
  exists b, sysex7_from_bytes (stream_bytes l ++ r) = Val b
    /\ message SevenBit 0 (Some 0%N) l b /\ clean_bytes SevenBit b.
Proof.
  intros Hl. unfold sysex7_from_bytes. rewrite ump_from_bytes_init.
  change (sx_init fmt7 (vec_resize [] 2)) with (sx_new (fmt_of SevenBit)). rewrite new_fresh. cbn [bind].
  rewrite source_bytes by exact Hl. cbn [bind].
  destruct (edit_step SevenBit (SetPayload {| s_items := l; s_hint := (0, Some 0) |})
    (fresh_words SevenBit) 0%N (Some 0%N) []) as (b & E & M & Cl).
  - apply fresh_message.
  - now right.
  - exact Hl.
  - cbn [apply_edit fmt_for new_payload new_group s_items] in *. rewrite E. cbn [bind fst].
    exists b. split; [reflexivity|]. split; [exact M|]. apply Cl, fresh_message.
Qed.

Lemma from_ump_ok k g s l b : carries SevenBit k g s l b -> sysex7_from_ump b = Val (stream_bytes l).
Proof.
  intros C. unfold sysex7_from_ump, bytes_from_ump.
  change (init_b (vec_resize [] 2)) with new_b. rewrite new_b_fresh. cbn [bind].
  rewrite (group_first _ _ _ _ _ _ C). cbn [bind]. rewrite (source_ump _ _ _ _ _ C). cbn [bind].
  pose proof (edit_step_b (SetPayload {| s_items := l; s_hint := (List.length l, Some (List.length l)) |}) [])
    as E. cbn [apply_edit_b new_payload s_items legal] in E. rewrite E; [reflexivity|constructor|].
  exact (carries_units _ _ _ _ _ _ C).
Qed.

Lemma try_from_bytes_ok l r n : Forall septet l ->
  if (n <? 2) || (room_in SevenBit n <? List.length l)
  then sysex7_try_from_bytes (stream_bytes l ++ r) n = Val (Err "BufferOverflow"%string)
  else exists b, sysex7_try_from_bytes (stream_bytes l ++ r) n = Val (Ok b) /\ List.length b = n
         /\ message_in SevenBit 0 (Some 0%N) l b /\ clean_bytes SevenBit b.
Proof.
  intros Hl. pose proof (try_new_fresh SevenBit n) as T. cbn [packet_words] in T.
  unfold sysex7_try_from_bytes. unfold fixed_try_resize. rewrite repeat_length.
  destruct (Nat.ltb_spec n 2) as [X|X]; cbn [orb negb]; [reflexivity|].
  destruct T as (b0 & E0 & L0 & M0 & C0). cbn [fmt_of] in E0. unfold sx_try_new in E0.
  unfold fixed_try_resize in E0. rewrite repeat_length in E0. cbn [f_words fmt7] in E0.
  replace (n <? 2) with false in E0 by lia. cbn [negb] in E0.
  rewrite ump_from_bytes_init. destruct (sx_init fmt7 (repeat 0%N n)) as [b1|]; cbn [bind] in *; [|discriminate].
  injection E0 as ->. rewrite source_bytes by exact Hl. cbn [bind].
  destruct (fixed_step SevenBit (SetPayload {| s_items := l; s_hint := (0, Some 0) |})
    b0 0%N (Some 0%N) [] M0) as (b & E & M & Len & Cl); [exact Hl|exact Logic.I|].
  cbn [try_edit fmt_for] in E. rewrite E. unfold fixed_outcome in *. cbn [new_payload s_items] in *.
  rewrite L0 in *. destruct (Nat.ltb_spec (room_in SevenBit n) (List.length l)) as [Y|Y].
  - replace (List.length l <=? room_in SevenBit n) with false by lia. reflexivity.
  - replace (List.length l <=? room_in SevenBit n) with true in * by lia. cbn [fst snd new_group bind] in *.
    exists b. split; [reflexivity|]. split; [exact Len|]. split; [exact M|]. auto.
Qed.

Lemma try_from_ump_ok k g s l b n : carries SevenBit k g s l b ->
  if n <? List.length l + 2
  then sysex7_try_from_ump b n = Val (Err "BufferOverflow"%string)
  else exists r, sysex7_try_from_ump b n = Val (Ok (stream_bytes l ++ r))
         /\ List.length (stream_bytes l ++ r) = n /\ lone_end r.
Proof.
  intros C. unfold sysex7_try_from_ump, bytes_from_ump, fixed_try_resize. rewrite repeat_length.
  destruct (Nat.ltb_spec n 2) as [X|X].
  { replace (n <? List.length l + 2) with true by lia. reflexivity. }
  cbn [negb]. pose proof (try_new_b_fresh n) as T. replace (n <? 2) with false in T by lia.
  unfold try_new_b, fixed_try_resize in T. rewrite repeat_length in T.
  replace (n <? 2) with false in T by lia. cbn [negb] in T.
  destruct (init_b (repeat 0%N n)) as [b1|]; cbn [bind] in *; [|discriminate]. injection T as ->.
  rewrite (group_first _ _ _ _ _ _ C). cbn [bind]. rewrite (source_ump _ _ _ _ _ C). cbn [bind].
  set (src := {| s_items := l; s_hint := (List.length l, Some (List.length l)) |}).
  assert (R : exists r1, o_resize (bytes_ops Fixed) (stream_bytes [] ++ repeat 0%N (n - 2)) 0
            = Val (stream_bytes [] ++ r1, None) /\ List.length r1 = n - 2 /\ lone_end r1).
  { pose proof (fixed_bytes_inv [] (repeat 0%N (n - 2)) n) as HI.
    exists (repeat 0%N (n - 2)). split; [|split].
    - cbn [bytes_ops o_resize]. unfold try_resize_b, try_resize_bytes, request.
      destruct (septet_reads [] (repeat 0%N (n - 2))) as (_ & Z & _); [constructor|]. rewrite Z. cbn [bind List.length].
      unfold stream_bytes. cbn [app List.length]. unfold fixed_try_resize. cbn [List.length Nat.add].
      rewrite repeat_length. replace (S (S (n - 2)) <? 2) with false by lia. reflexivity.
    - apply repeat_length.
    - apply Forall_forall. intros x Hx. apply repeat_spec in Hx. subst. discriminate. }
  destruct R as (r1 & E1 & L1 & S1). unfold try_set_payload. change (240%N :: 247%N :: repeat 0%N (n - 2)) with (stream_bytes [] ++ repeat 0%N (n - 2)). rewrite E1. cbn [bind]. unfold try_insert_payload.
  pose proof (splice_fixed_b [] r1 src (Included 0) (Excluded 0) 0 0 ltac:(constructor) S1
    (carries_units _ _ _ _ _ _ C) eq_refl eq_refl ltac:(lia) ltac:(cbn; lia) ltac:(now left)) as SP.
  cbv zeta in SP. unfold replaced in SP. cbn [firstn skipn app s_items src] in SP. rewrite app_nil_r in SP.
  cbn [List.length Nat.add] in SP. rewrite L1 in SP.
  destruct (Nat.ltb_spec n (List.length l + 2)) as [Y|Y].
  - replace (List.length l <=? n - 2) with false in SP by lia. destruct SP as (r' & E & _).
    unfold src in *. rewrite E. reflexivity.
  - replace (List.length l <=? n - 2) with true in SP by lia. destruct SP as (r' & E & L' & Lo).
    unfold src in *. rewrite E. exists r'. split; [reflexivity|]. split; [rewrite app_length, stream_bytes_length; lia|].
    apply Lo; [reflexivity|lia].
Qed.
