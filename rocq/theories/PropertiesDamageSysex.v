(** C65, system exclusive messages: one changed byte. *)
From Coq Require Import NArith List Bool Arith Lia ZifyBool ZifyNat ZifyN.
From Verif Require Import Base Sysex SpecSysex SpecDamage SysexClient BitLemmas SysexLayout SysexRead SysexBridge SysexBytes SysexFixedBytes SysexHold SysexInit DamageSysex.
Import ListNotations.
Local Open Scope nat_scope.

(** Byte [r] of packet [p] of a message was changed.  The message is refused or accepted according to [tolerable]; if it
    is accepted, then
    - a changed type and group byte, or stream id, leaves the payload as it was,
    - a changed mark and size byte affects the payload of its own packet only,
    - a changed payload byte is one changed byte of the payload,
    - what follows the payload of a packet is not looked at. *)
Theorem C65_sysex_byte : forall fm k g s l b b' p r,
  carries fm k g (Some s) l b -> List.length b = packet_words fm * k -> p < k -> r < packet_bytes fm ->
  one_byte (packet_bytes fm * p + r) b b' ->
  (sx_try_from (fmt_for fm) b' = Ok b' <-> tolerable fm k b b' p r)
  /\ (tolerable fm k b b' p r -> exists l',
        payload_list (fmt_for fm) b' = Val l' /\ payload_size (fmt_for fm) b' = Val (List.length l') /\ sx_data (fmt_for fm) b' = Val b'
        /\ (r <> 1 -> r < header_bytes fm \/ header_bytes fm + units_in fm b p <= r -> l' = l)
        /\ (r = 1 -> l' = firstn (offset_of fm b p) l ++ payload_of fm b' p ++ skipn (offset_of fm b p + units_in fm b p) l)
        /\ (forall q, r = header_bytes fm + q -> q < units_in fm b p ->
              l' = with_unit l (offset_of fm b p + q) (unit_of fm (byte b' (packet_bytes fm * p + r))))).
Proof.
  intros fm k g s l b b' p r C Len Hp Hr H. split; [exact (damage_accepted fm k g s l b b' p r C Len Hp Hr H)|].
  intros T. pose proof (tolerable_carries fm k g s l b b' p r C Len Hp Hr H T) as D.
  destruct (carries_reads _ _ _ _ _ _ D) as (D1 & D2 & D3). exists (new_payload fm k b'). split; [exact D2|]. split; [exact D3|]. split.
  { unfold fmt_of in D1. unfold fmt_for. rewrite D1. f_equal. apply firstn_all2. rewrite (proj1 H), Len. lia. }
  split; [|split].
  - exact (damage_untouched fm k g s l b b' p r C Len Hp Hr H).
  - intros _. rewrite (new_parts fm k g s l b b' p r C Len Hp Hr H). unfold payload_of at 2. now rewrite map_length, seq_length.
  - exact (damage_unit fm k g s l b b' p r C Len Hp Hr H).
Qed.
Print Assumptions C65_sysex_byte.

(** So damage to one byte never spreads: what the other packets carry is read as it was sent, or nothing is. *)
Theorem C65_sysex_contained : forall fm k g s l b b' p r,
  carries fm k g (Some s) l b -> List.length b = packet_words fm * k -> p < k -> r < packet_bytes fm ->
  one_byte (packet_bytes fm * p + r) b b' ->
  (exists e, sx_try_from (fmt_for fm) b' = Err e)
  \/ exists mid, payload_list (fmt_for fm) b' = Val (firstn (offset_of fm b p) l ++ mid ++ skipn (offset_of fm b p + units_in fm b p) l)
       /\ List.length mid <= packet_room fm.
Proof.
  intros fm k g s l b b' p r C Len Hp Hr H. destruct (C65_sysex_byte fm k g s l b b' p r C Len Hp Hr H) as [A _].
  destruct (sx_try_from (fmt_for fm) b') as [x|e] eqn:E; [right|left; eauto].
  assert (x = b') by (unfold sx_try_from in E; destruct (_ <? _); [discriminate|]; destruct (first_error _); [congruence|discriminate]). subst x.
  assert (T : tolerable fm k b b' p r) by (apply A; exact eq_refl). pose proof (tolerable_carries fm k g s l b b' p r C Len Hp Hr H T) as D.
  exists (payload_of fm b' p). destruct (carries_reads _ _ _ _ _ _ D) as (_ & D2 & _). split.
  - unfold fmt_for. unfold fmt_of in D2. rewrite D2. f_equal. rewrite (new_parts fm k g s l b b' p r C Len Hp Hr H). unfold payload_of at 2.
    now rewrite map_length, seq_length.
  - unfold payload_of. rewrite map_length, seq_length. exact (units_room fm k b p r Len Hp Hr b' _ _ _ k p D Hp).
Qed.
Print Assumptions C65_sysex_contained.

(** Byte streams: 0xF0, payload, 0xF7, one byte of it replaced by another value [v]. *)
Theorem C65_sysex_bytes : forall l j v, Forall (is_unit SevenBit) l -> j < List.length l + 2 -> v <> nth j (stream_bytes l) 0%N ->
  let b' := with_unit (stream_bytes l) j v in
  (j = 0 \/ j = List.length l + 1 -> exists e, try_from_b b' = Err e)
  /\ forall i, i < List.length l -> j = S i ->
       try_from_b b' = Ok b'
       /\ ((v < 128)%N -> payload_list_b b' = Val (with_unit l i v))
       /\ (v = 0xF7%N -> payload_list_b b' = Val (firstn i l))
       /\ ((128 <= v)%N -> v <> 0xF7%N -> payload_list_b b' = Panic).
Proof.
  intros l j v Hl Hj Hv b'. pose proof (septets_no_end l Hl) as Ne. split.
  - intros Hj'. destruct (try_from_b b') as [x|e] eqn:E; [exfalso|eauto].
    assert (x = b') by (unfold try_from_b in E; destruct (_ <? _); [discriminate|]; destruct (first_error _); [congruence|discriminate]). subst x.
    apply accepts_b in E as (l2 & r2 & N2 & E). unfold b', with_unit in E. destruct Hj' as [Z|Z]; rewrite Z in *; clear Z.
    + unfold stream_bytes in *. cbn [firstn skipn app nth] in *. congruence.
    + assert (E3 : firstn (List.length l + 1) (stream_bytes l) ++ v :: skipn (S (List.length l + 1)) (stream_bytes l) = 0xF0%N :: l ++ [v]).
      { rewrite skipn_all2 by (unfold stream_bytes; cbn [List.length]; rewrite app_length; cbn [List.length]; lia).
        replace (List.length l + 1) with (S (List.length l)) by lia. unfold stream_bytes. cbn [firstn app].
        rewrite firstn_app, firstn_all, Nat.sub_diag. cbn [firstn]. now rewrite app_nil_r. }
      rewrite E3 in E. clear E3. unfold stream_bytes in *. replace (List.length l + 1) with (S (List.length l)) in Hv by lia. cbn [nth] in Hv.
      rewrite app_nth2, Nat.sub_diag in Hv by lia. cbn [nth] in Hv. cbn [app] in E. injection E as E.
      assert (I : In 0xF7%N (l ++ [v])) by (rewrite E, <- app_assoc; apply in_elt).
      apply in_app_iff in I as [I|I]; [|destruct I as [I|I]; [congruence|destruct I]]. unfold no_end in Ne. rewrite Forall_forall in Ne. exact (Ne _ I eq_refl).
  - intros i Hi ->. assert (Eb : b' = 0xF0%N :: firstn i l ++ v :: skipn (S i) l ++ [0xF7%N]).
    { unfold b', with_unit, stream_bytes. change (skipn (S (S i)) (0xF0%N :: l ++ [0xF7%N])) with (skipn (S i) (l ++ [0xF7%N])).
      cbn [firstn app]. f_equal. rewrite firstn_app, skipn_app.
      replace (i - List.length l) with 0 by lia. replace (S i - List.length l) with 0 by lia. cbn [firstn skipn]. now rewrite app_nil_r. }
    assert (Ha : no_end (firstn i l)) by (apply Forall_forall; intros x Hx; unfold no_end in Ne; rewrite Forall_forall in Ne; apply Ne; rewrite <- (firstn_skipn i l); apply in_or_app; now left).
    assert (Hs : no_end (skipn (S i) l)) by (apply Forall_forall; intros x Hx; unfold no_end in Ne; rewrite Forall_forall in Ne; apply Ne; rewrite <- (firstn_skipn (S i) l); apply in_or_app; now right).
    assert (Hcut : Forall septet (firstn i l)) by (apply Forall_forall; intros x Hx; rewrite Forall_forall in Hl; apply Hl; rewrite <- (firstn_skipn i l); apply in_or_app; now left).
    assert (Hrest : Forall septet (skipn (S i) l)) by (apply Forall_forall; intros x Hx; rewrite Forall_forall in Hl; apply Hl; rewrite <- (firstn_skipn (S i) l); apply in_or_app; now right).
    destruct (N.eq_dec v 0xF7) as [->|Nv].
    + assert (E2 : b' = stream_bytes (firstn i l) ++ skipn (S i) l ++ [0xF7%N]).
      { rewrite Eb. unfold stream_bytes. cbn [app]. rewrite <- app_assoc. reflexivity. }
      rewrite E2. split; [apply accepts_b; eauto|]. split; [discriminate|]. split; [|easy]. intros _. now apply (septet_reads (firstn i l)).
    + assert (E2 : b' = stream_bytes (with_unit l i v) ++ []).
      { rewrite Eb, app_nil_r. unfold stream_bytes, with_unit. now rewrite <- app_assoc. }
      assert (Nw : no_end (with_unit l i v)) by (unfold with_unit; apply Forall_app; split; [exact Ha|constructor; assumption]).
      rewrite E2. split; [apply accepts_b; eauto|]. split; [|split; [easy|]].
      * intros Lt. apply (septet_reads (with_unit l i v) [] Nw). apply Forall_app. split; [exact Hcut|constructor; [exact Lt|exact Hrest]].
      * intros Ge _. apply (high_payload _ _ i Nw); unfold with_unit.
        -- rewrite app_length, firstn_length. cbn [List.length]. lia.
        -- rewrite app_nth2; rewrite firstn_length, Nat.min_l by lia; [now rewrite Nat.sub_diag|lia].
Qed.
Print Assumptions C65_sysex_bytes.

(** A message of two packets, eight bytes: the fourth byte of the second packet lies behind its payload, the third is payload;
    another size of the first packet shortens the payload in the middle; another group in one packet is refused. *)
Example C65_sysex_cases :
  let b := [0x34160102; 0x03040506; 0x34320708; 0x00000000]%N in
  carries SevenBit 2 4 (Some 0%N) [1; 2; 3; 4; 5; 6; 7; 8]%N b
  /\ payload_list fmt7 [0x34160102; 0x03040506; 0x34320708; 0x55000000]%N = Val [1; 2; 3; 4; 5; 6; 7; 8]%N
  /\ payload_list fmt7 [0x34160102; 0x03040506; 0x34320758; 0x00000000]%N = Val [1; 2; 3; 4; 5; 6; 7; 0x58]%N
  /\ payload_list fmt7 [0x34120102; 0x03040506; 0x34320708; 0x00000000]%N = Val [1; 2; 7; 8]%N
  /\ (exists e, sx_try_from fmt7 [0x34160102; 0x03040506; 0x35320708; 0x00000000]%N = Err e)
  /\ one_byte (8 * 1 + 3) b [0x34160102; 0x03040506; 0x34320758; 0x00000000]%N.
Proof.
  intros b. split; [|split; [reflexivity|split; [reflexivity|split; [reflexivity|split; [eexists; reflexivity|]]]]].
  - constructor; try (cbn; lia); try (intros [|[|p]] Hp; [reflexivity|reflexivity|lia]); try discriminate.
    + intros [|[|p]] Hp; [vm_compute; split; discriminate|vm_compute; split; discriminate|lia].
    + reflexivity.
  - split; [reflexivity|]. split; [vm_compute; discriminate|]. intros i Hi.
    do 16 (destruct i as [|i]; [try reflexivity; exfalso; apply Hi; reflexivity|]). unfold byte.
    assert (E : 4 <= S (S (S (S (S (S (S (S (S (S (S (S (S (S (S (S i))))))))))))))) / 4) by (apply Nat.div_le_lower_bound; lia). unfold b.
    rewrite !nth_overflow by (unfold b; cbn [List.length]; lia). reflexivity.
Qed.
