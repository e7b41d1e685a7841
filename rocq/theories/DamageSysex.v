(** A changed byte of a system exclusive message. *)
From Coq Require Import NArith List Bool Arith Lia ZifyBool ZifyNat ZifyN.
From Verif Require Import Base Sysex SpecSysex SpecDamage BitLemmas SysexLayout SysexRead SysexBridge SysexBytes SysexFixedBytes SysexHold SysexInit.
Import ListNotations.
Local Open Scope nat_scope.

Section Damage.
  Context (fm : form) (k : nat) (g s : N) (l b b' : list N) (p r : nat).
  Context (C : carries fm k g (Some s) l b) (Len : List.length b = packet_words fm * k).
  Context (Hp : p < k) (Hr : r < packet_bytes fm) (H : one_byte (packet_bytes fm * p + r) b b').

  Local Notation tolerable := (tolerable fm k b b' p r).

  Lemma elsewhere i : i <> packet_bytes fm * p + r -> byte b' i = byte b i.
  Proof. apply (proj2 (proj2 H)). Qed.
  Lemma place q r' : r' < packet_bytes fm -> q <> p \/ r' <> r -> packet_bytes fm * q + r' <> packet_bytes fm * p + r.
  Proof. destruct fm; cbn [packet_bytes] in *; lia. Qed.
  Lemma same q r' : r' < packet_bytes fm -> q <> p \/ r' <> r -> byte b' (packet_bytes fm * q + r') = byte b (packet_bytes fm * q + r').
  Proof. intros A B. apply elsewhere. now apply place. Qed.

  Lemma pb_big : 8 <= packet_bytes fm.
  Proof. destruct fm; cbn; lia. Qed.
  Lemma type_same q : q <> p \/ r <> 0 -> type_of fm b' q = type_of fm b q.
  Proof. intros A. unfold type_of. rewrite <- (Nat.add_0_r (packet_bytes fm * q)). rewrite same; [reflexivity|pose proof pb_big; lia|lia]. Qed.
  Lemma group_same q : q <> p \/ r <> 0 -> group_of fm b' q = group_of fm b q.
  Proof. intros A. unfold group_of. rewrite <- (Nat.add_0_r (packet_bytes fm * q)). rewrite same; [reflexivity|pose proof pb_big; lia|lia]. Qed.
  Lemma status_same q : q <> p \/ r <> 1 -> status_nibble fm b' q = status_nibble fm b q.
  Proof. intros A. unfold status_nibble. rewrite same; [reflexivity|pose proof pb_big; lia|lia]. Qed.
  Lemma size_same q : q <> p \/ r <> 1 -> size_nibble fm b' q = size_nibble fm b q.
  Proof. intros A. unfold size_nibble. rewrite same; [reflexivity|pose proof pb_big; lia|lia]. Qed.
  Lemma stream_same q : q <> p \/ r <> 2 -> stream_of fm b' q = stream_of fm b q.
  Proof. intros A. unfold stream_of. rewrite same; [reflexivity|pose proof pb_big; lia|lia]. Qed.
  Lemma units_room c g0 s0 l0 n q : carries fm n g0 s0 l0 c -> q < n -> units_in fm c q <= packet_room fm.
  Proof. intros X Q. pose proof (ca_size _ _ _ _ _ _ X q Q). unfold units_in. lia. Qed.
  Lemma room_fits : header_bytes fm + packet_room fm = packet_bytes fm.
  Proof. destruct fm; reflexivity. Qed.
  Lemma payload_same q : q < k -> q <> p -> payload_of fm b' q = payload_of fm b q.
  Proof.
    intros Q A. pose proof (units_room b g (Some s) l k q C Q) as U. pose proof room_fits as F. unfold payload_of.
    replace (units_in fm b' q) with (units_in fm b q) by (unfold units_in; now rewrite size_same by auto).
    apply map_ext_in. intros x Hx. apply in_seq in Hx. f_equal. rewrite <- !Nat.add_assoc. apply same; [lia|auto].
  Qed.

  Lemma b_changed : byte b' (packet_bytes fm * p + r) <> byte b (packet_bytes fm * p + r).
  Proof. apply (proj1 (proj2 H)). Qed.
  Lemma len' : List.length b' = packet_words fm * k.
  Proof. rewrite (proj1 H). exact Len. Qed.
  Lemma whole : List.length b' mod packet_words fm = 0 /\ List.length b' / packet_words fm = k.
  Proof. rewrite len'. destruct fm; cbn [packet_words]; lia. Qed.

  Lemma split_packets c : flat_map (payload_of fm c) (seq 0 k) =
    flat_map (payload_of fm c) (seq 0 p) ++ payload_of fm c p ++ flat_map (payload_of fm c) (seq (S p) (k - p - 1)).
  Proof.
    replace k with (p + (1 + (k - p - 1))) at 1 by lia. rewrite seq_app, flat_map_app. f_equal.
  Qed.
  Lemma map_same a n : (forall q, a <= q < a + n -> q < k /\ q <> p) -> flat_map (payload_of fm b') (seq a n) = flat_map (payload_of fm b) (seq a n).
  Proof.
    intros A. rewrite !flat_map_concat_map. f_equal. apply map_ext_in. intros q Hq. apply in_seq in Hq. apply payload_same; apply A; lia.
  Qed.

  Definition new_payload : list N := flat_map (payload_of fm b') (seq 0 k).
  Lemma new_parts : new_payload = firstn (offset_of fm b p) l ++ payload_of fm b' p ++ skipn (offset_of fm b p + List.length (payload_of fm b p)) l.
  Proof.
    unfold new_payload. rewrite split_packets, map_same, map_same by lia.
    assert (E : l = flat_map (payload_of fm b) (seq 0 p) ++ payload_of fm b p ++ flat_map (payload_of fm b) (seq (S p) (k - p - 1)))
      by (rewrite <- split_packets; symmetry; apply (ca_payload _ _ _ _ _ _ C)).
    unfold offset_of. f_equal; [|f_equal].
    - rewrite E, firstn_app, firstn_all, Nat.sub_diag. cbn [firstn]. now rewrite app_nil_r.
    - rewrite E, app_assoc, <- app_length, skipn_app, skipn_all, Nat.sub_diag. reflexivity.
  Qed.

  Lemma tolerable_carries : tolerable -> carries fm k (group_of fm b' p) (Some (stream_of fm b' p)) new_payload b'.
  Proof.
    intros (T0 & T1 & T2). constructor.
    - lia.
    - rewrite len'. lia.
    - intros q Q. destruct (Nat.eq_dec q p) as [->|]; [destruct (Nat.eq_dec r 0) as [Z|]; [now apply T0|]|].
      + rewrite type_same by auto. now apply (ca_type _ _ _ _ _ _ C).
      + rewrite type_same by auto. now apply (ca_type _ _ _ _ _ _ C).
    - intros q Q. destruct (Nat.eq_dec q p) as [->|]; [reflexivity|]. rewrite group_same by auto.
      destruct (Nat.eq_dec r 0) as [Z|]; [exfalso; destruct (T0 Z); lia|]. rewrite group_same by auto.
      now rewrite !(ca_group _ _ _ _ _ _ C).
    - intros q Q F. cbn [in_stream]. destruct (Nat.eq_dec q p) as [->|]; [reflexivity|]. rewrite stream_same by auto.
      destruct (Nat.eq_dec r 2) as [Z|]; [exfalso; pose proof (T2 Z F); lia|]. rewrite stream_same by auto.
      pose proof (ca_stream _ _ _ _ _ _ C q Q F) as X. pose proof (ca_stream _ _ _ _ _ _ C p Hp F) as Y. cbn [in_stream] in X, Y. congruence.
    - intros q Q. rewrite <- (ca_status _ _ _ _ _ _ C q Q). destruct (Nat.eq_dec q p) as [->|]; [destruct (Nat.eq_dec r 1) as [Z|]; [now apply T1|]|]; now apply status_same; auto.
    - intros q Q. destruct (Nat.eq_dec q p) as [->|]; [destruct (Nat.eq_dec r 1) as [Z|]; [now apply T1|]|].
      + rewrite size_same by auto. now apply (ca_size _ _ _ _ _ _ C).
      + rewrite size_same by auto. now apply (ca_size _ _ _ _ _ _ C).
    - reflexivity.
  Qed.

  Lemma accepted_tolerable k' g' s' l' : carries fm k' g' (Some s') l' b' -> (k' < k -> type_of fm b' k' <> type_code fm) -> tolerable.
  Proof.
    intros D E. pose proof (ca_fits _ _ _ _ _ _ D) as F. rewrite len' in F. pose proof (ca_some _ _ _ _ _ _ D) as S1.
    assert (k' <= k) by (destruct fm; cbn [packet_words] in F; lia).
    assert (k' = k).
    { destruct (Nat.eq_dec k' k) as [|Nk]; [assumption|exfalso]. specialize (E ltac:(lia)).
      assert (Z : k' = p /\ r = 0).
      { destruct (Nat.eq_dec k' p); [|exfalso; apply E; rewrite type_same by auto; apply (ca_type _ _ _ _ _ _ C); lia].
        destruct (Nat.eq_dec r 0); [auto|exfalso; apply E; rewrite type_same by auto; apply (ca_type _ _ _ _ _ _ C); lia]. }
      pose proof (ca_status _ _ _ _ _ _ D (k' - 1) ltac:(lia)) as X. rewrite status_same in X by lia.
      rewrite (ca_status _ _ _ _ _ _ C) in X by lia. unfold status_code in X.
      destruct (k' =? 1) eqn:A1, (k =? 1) eqn:A2, (k' - 1 =? 0) eqn:A3, (S (k' - 1) =? k) eqn:A4, (S (k' - 1) =? k') eqn:A5; lia. }
    subst k'. pose proof b_changed as Ch. unfold SpecDamage.tolerable. split; [|split].
    - intros Z. rewrite Z, Nat.add_0_r in Ch. pose proof (ca_type _ _ _ _ _ _ D p Hp) as T'. split; [|exact T'].
      destruct (Nat.eq_dec k 1) as [|Nk]; [assumption|exfalso]. pose proof (ca_type _ _ _ _ _ _ C p Hp) as T.
      set (q := if p =? 0 then 1 else 0). assert (Q : q < k /\ q <> p) by (unfold q; destruct (Nat.eqb_spec p 0); lia).
      pose proof (ca_group _ _ _ _ _ _ D q (proj1 Q)) as G1. rewrite group_same, (ca_group _ _ _ _ _ _ C) in G1 by (try apply Q; left; apply Q).
      pose proof (ca_group _ _ _ _ _ _ D p Hp) as G2. pose proof (ca_group _ _ _ _ _ _ C p Hp) as G3. unfold type_of, group_of in *. apply Ch.
      rewrite (N.div_mod' (byte b' (packet_bytes fm * p)) 16), (N.div_mod' (byte b (packet_bytes fm * p)) 16). congruence.
    - intros Z. split; [|exact (ca_size _ _ _ _ _ _ D p Hp)]. now rewrite (ca_status _ _ _ _ _ _ D p Hp), (ca_status _ _ _ _ _ _ C p Hp).
    - intros Z Fm. rewrite Z in Ch. destruct (Nat.eq_dec k 1) as [|Nk]; [assumption|exfalso].
      set (q := if p =? 0 then 1 else 0). assert (Q : q < k /\ q <> p) by (unfold q; destruct (Nat.eqb_spec p 0); lia).
      pose proof (ca_stream _ _ _ _ _ _ D q (proj1 Q) Fm) as G1. rewrite stream_same in G1 by (left; apply Q).
      pose proof (ca_stream _ _ _ _ _ _ C q (proj1 Q) Fm) as G0.
      pose proof (ca_stream _ _ _ _ _ _ D p Hp Fm) as G2. pose proof (ca_stream _ _ _ _ _ _ C p Hp Fm) as G3. cbn [in_stream] in *. unfold stream_of in *. congruence.
  Qed.

  Lemma damage_accepted : sx_try_from (fmt_of fm) b' = Ok b' <-> tolerable.
  Proof.
    destruct whole as [W1 W2]. rewrite accepts_spec by exact W1. rewrite W2. split.
    - intros (k' & g' & s' & l' & D & E & _). exact (accepted_tolerable k' g' s' l' D E).
    - intros T. exists k, (group_of fm b' p), (stream_of fm b' p), new_payload. pose proof (tolerable_carries T) as D. split; [exact D|]. split; [lia|].
      intros q Q. exact (ca_size _ _ _ _ _ _ D q Q).
  Qed.

  (** A payload byte, or one behind the payload of its packet. *)
  Lemma header_kept : r <> 1 -> units_in fm b' p = units_in fm b p.
  Proof. intros A. unfold units_in. rewrite size_same by auto. reflexivity. Qed.

  Lemma damage_untouched : r <> 1 -> r < header_bytes fm \/ header_bytes fm + units_in fm b p <= r -> new_payload = l.
  Proof.
    intros A B. unfold new_payload. rewrite <- (ca_payload _ _ _ _ _ _ C). rewrite !flat_map_concat_map. f_equal. apply map_ext_in.
    intros q Hq. apply in_seq in Hq. destruct (Nat.eq_dec q p) as [->|]; [|apply payload_same; lia].
    unfold payload_of. rewrite header_kept by exact A. apply map_ext_in. intros x Hx. apply in_seq in Hx. f_equal.
    pose proof (units_room b g (Some s) l k p C Hp). pose proof room_fits. rewrite <- !Nat.add_assoc. apply same; lia.
  Qed.

  Lemma damage_unit q : r = header_bytes fm + q -> q < units_in fm b p ->
    new_payload = with_unit l (offset_of fm b p + q) (unit_of fm (byte b' (packet_bytes fm * p + r))).
  Proof.
    intros A B. assert (r <> 1) by (destruct fm; cbn [header_bytes] in A; lia). rewrite new_parts.
    assert (E : l = flat_map (payload_of fm b) (seq 0 p) ++ payload_of fm b p ++ flat_map (payload_of fm b) (seq (S p) (k - p - 1)))
      by (rewrite <- split_packets; symmetry; apply (ca_payload _ _ _ _ _ _ C)).
    assert (Lp : List.length (payload_of fm b p) = units_in fm b p) by (unfold payload_of; now rewrite map_length, seq_length).
    set (pre := flat_map (payload_of fm b) (seq 0 p)) in *. set (post := flat_map (payload_of fm b) (seq (S p) (k - p - 1))) in *.
    assert (Eo : offset_of fm b p = List.length pre) by reflexivity. rewrite Eo. clear Eo.
    assert (Em : payload_of fm b' p = firstn q (payload_of fm b p) ++ unit_of fm (byte b' (packet_bytes fm * p + r)) :: skipn (S q) (payload_of fm b p)).
    { unfold payload_of. rewrite header_kept by assumption. pose proof (units_room b g (Some s) l k p C Hp). pose proof room_fits.
      set (n := units_in fm b p) in *. replace n with (q + (1 + (n - q - 1))) by lia. rewrite seq_app, !map_app. cbn [seq plus map].
      rewrite firstn_app, map_length, seq_length, Nat.sub_diag. cbn [firstn]. rewrite app_nil_r, firstn_all2 by (rewrite map_length, seq_length; lia).
      rewrite skipn_app, skipn_all2 by (rewrite map_length, seq_length; lia). rewrite map_length, seq_length.
      replace (S q - q) with 1 by lia. cbn [skipn app]. f_equal; [|f_equal].
      - apply map_ext_in. intros x Hx. apply in_seq in Hx. f_equal. rewrite <- !Nat.add_assoc. apply same; lia.
      - f_equal. f_equal. lia.
      - apply map_ext_in. intros x Hx. apply in_seq in Hx. f_equal. rewrite <- !Nat.add_assoc. apply same; lia. }
    rewrite Em. unfold with_unit. rewrite Lp. rewrite E. set (mid := payload_of fm b p) in *.
    rewrite firstn_app, firstn_all, Nat.sub_diag. cbn [firstn]. rewrite app_nil_r.
    rewrite firstn_app, (firstn_all2 (n := List.length pre + q) pre) by lia. replace (List.length pre + q - List.length pre) with q by lia.
    rewrite firstn_app. replace (q - List.length mid) with 0 by lia. cbn [firstn]. rewrite app_nil_r.
    rewrite !skipn_app, (skipn_all2 pre) by lia. rewrite (skipn_all2 (n := S (List.length pre + q)) pre) by lia.
    replace (List.length pre + units_in fm b p - List.length pre) with (List.length mid) by lia. rewrite skipn_all, Nat.sub_diag.
    replace (S (List.length pre + q) - List.length pre) with (S q) by lia. replace (S q - List.length mid) with 0 by lia.
    cbn [skipn app]. rewrite <- !app_assoc. reflexivity.
  Qed.
End Damage.

(** ** Byte streams *)

Lemma collect_high fuel it i : ib_index it <= i -> i < List.length (ib_data it) -> (128 <= nth i (ib_data it) 0)%N -> List.length (ib_data it) - ib_index it < fuel ->
  ib_collect fuel it = Panic.
Proof.
  revert it. induction fuel as [|f IH]; intros [d n] A B C F; cbn [ib_data ib_index] in *; [lia|]. cbn [ib_collect]. unfold ib_next. cbn [ib_data ib_index].
  replace (List.length d <=? n) with false by lia. rewrite (idx_nth d n) by lia. cbn [bind]. unfold u7_new.
  destruct (N.ltb_spec (nth n d 0%N) 128) as [L|L]; cbn [bind]; [|reflexivity].
  rewrite IH; cbn [ib_data ib_index]; try lia; [reflexivity|]. destruct (Nat.eq_dec n i); [subst; lia|lia].
Qed.

Lemma high_payload l r i : no_end l -> i < List.length l -> (128 <= nth i l 0)%N -> payload_list_b (stream_bytes l ++ r) = Panic.
Proof.
  intros Ne Hi Hv. unfold payload_list_b. rewrite (sealed_payload _ _ (proj1 (stream_sealed l r Ne))). cbn [bind].
  assert (E : firstn (List.length l) (skipn 1 (stream_bytes l ++ r)) = l).
  { unfold stream_bytes. cbn [app skipn]. rewrite <- app_assoc, firstn_app, firstn_all, Nat.sub_diag. cbn [firstn]. apply app_nil_r. }
  rewrite E. apply (collect_high _ _ i); cbn [ib_data ib_index]; try lia.
  unfold stream_bytes. cbn [app List.length]. rewrite !app_length. cbn [List.length]. lia.
Qed.
