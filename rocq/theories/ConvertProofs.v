(** Lemmas for the conversion, encoding and code table properties. *)
From Coq Require Import NArith List String Bool Arith Lia ZifyBool ZifyNat ZifyN.
From Verif Require Import Base BitOps Encode7 Values Schema Helpers Props Message MessageTable SpecLayout SpecFixed
  BitLemmas ListLemmas PropLemmas PropWrite PropValidate Stripes MessageLemmas InitLemmas FixedLemmas
  ConvertLemmas FixedProofs.
Import ListNotations.
Local Open Scope string_scope.
Local Open Scope N_scope.
Local Open Scope list_scope.

Lemma converted_size m : In m all_messages -> supports U8 m = true -> min_size U32 m = units U32 (m_name m).
Proof.
  intros Hm Hs.
  assert (H : forallb (fun m => negb (supports U8 m) || Nat.eqb (min_size U32 m) (units U32 (m_name m))) all_messages = true)
    by (vm_compute; reflexivity).
  rewrite forallb_forall in H. specialize (H m Hm). rewrite Hs in H. now apply Nat.eqb_eq in H.
Qed.

Lemma from_bytes_ok m b : In m all_messages -> supports U8 m = true -> holds U8 m b -> accepts U8 m b ->
  exists p, from_bytes m b = Val p /\ converted U8 U32 m b (repeat 0 (min_size U32 m)) p /\
            List.length p = min_size U32 m.
Proof.
  intros Hm Hs Hh Ha. destruct (convert_ok U8 U32 m b (repeat 0 (min_size U32 m))) as (p & E & Hc); auto.
  - apply wf_repeat.
  - rewrite repeat_length. unfold room. lia.
  - exists p. unfold from_bytes. rewrite vec_resize_nil. split; [exact E|]. split; [exact Hc|].
    destruct Hc as (_ & El & _). rewrite repeat_length in El. exact El.
Qed.

Lemma from_ump_ok m p : In m all_messages -> supports U8 m = true ->
  m_name m <> "system_common::SongPositionPointer" -> holds U32 m p -> accepts U32 m p ->
  exists b, from_ump m p = Val b /\ converted U32 U8 m p (repeat 0 (min_size U8 m)) b /\
            List.length b = min_size U8 m.
Proof.
  intros Hm Hs Hne Hh Ha. destruct (convert_ok U32 U8 m p (repeat 0 (min_size U8 m))) as (b & E & Hc); auto.
  - apply wf_repeat.
  - rewrite repeat_length. rewrite constructible_room; auto.
  - exists b. unfold from_ump. rewrite vec_resize_nil. split; [exact E|]. split; [exact Hc|].
    destruct Hc as (_ & El & _). rewrite repeat_length in El. exact El.
Qed.

Lemma field_both from to m f w : In m all_messages -> supports U8 m = true ->
  In (f, w) (layout to (m_name m)) -> exists x, In (f, x) (layout from (m_name m)).
Proof.
  intros Hm Hs Hin. destruct (facts_of_layout to m f w Hm Hin) as (p & F).
  destruct (facts_of_prop from m f p Hm (supports_any from m Hs)) as (x & G).
  - apply field_in. apply F.
  - exists x. apply G.
Qed.

Definition both_check (m : message) : bool :=
  forallb (fun fw => negb (settable (snd fw)) ||
      existsb (fun gx => String.eqb (fst fw) (fst gx) &&
         (settable (snd gx) || match snd gx with Absent (VNum 0) => String.eqb (fst fw) "group" | _ => false end))
        (layout U8 (m_name m)))
    (layout U32 (m_name m))
  && forallb (fun fw => negb (settable (snd fw)) ||
      existsb (fun gx => String.eqb (fst fw) (fst gx) && settable (snd gx)) (layout U32 (m_name m)))
    (layout U8 (m_name m))
  && existsb (fun fw => String.eqb (fst fw) "group" && match snd fw with Number (Seg 0 24 4) => true | _ => false end)
       (layout U32 (m_name m))
  && existsb (fun fw => String.eqb (fst fw) "group" && match snd fw with Absent (VNum 0) => true | _ => false end)
       (layout U8 (m_name m)).

Lemma both_checks : forallb (fun m => negb (supports U8 m) || both_check m) all_messages = true.
Proof. vm_compute. reflexivity. Qed.

Lemma both_of m : In m all_messages -> supports U8 m = true -> both_check m = true.
Proof.
  intros Hm Hs. pose proof both_checks as H. rewrite forallb_forall in H. specialize (H m Hm).
  now rewrite Hs in H.
Qed.

Lemma settable_both m f w : In m all_messages -> supports U8 m = true -> settable_field U8 m f w ->
  exists x, settable_field U32 m f x.
Proof.
  intros Hm Hs [Hin Hset]. pose proof (both_of m Hm Hs) as H. unfold both_check in H.
  apply andb_prop in H as [H _]. apply andb_prop in H as [H _]. apply andb_prop in H as [_ H].
  rewrite forallb_forall in H. specialize (H (f, w) Hin). cbn [fst snd] in H. rewrite Hset in H. cbn [negb orb] in H.
  apply existsb_exists in H as ([g x] & H1 & H2). cbn [fst snd] in H2. apply andb_prop in H2 as [H2 H3].
  apply String.eqb_eq in H2. subst g. exists x. split; auto.
Qed.

Lemma settable_back m f w : In m all_messages -> supports U8 m = true -> settable_field U32 m f w ->
  f <> "group" -> exists x, settable_field U8 m f x.
Proof.
  intros Hm Hs [Hin Hset] Hne. pose proof (both_of m Hm Hs) as H. unfold both_check in H.
  apply andb_prop in H as [H _]. apply andb_prop in H as [H _]. apply andb_prop in H as [H _].
  rewrite forallb_forall in H. specialize (H (f, w) Hin). cbn [fst snd] in H. rewrite Hset in H. cbn [negb orb] in H.
  apply existsb_exists in H as ([g x] & H1 & H2). cbn [fst snd] in H2. apply andb_prop in H2 as [H2 H3].
  apply String.eqb_eq in H2. subst g. exists x. split; auto.
  apply orb_prop in H3 as [H3|H3]; auto. destruct x; try discriminate. destruct v; try discriminate.
  destruct n; try discriminate. apply String.eqb_eq in H3. congruence.
Qed.

Lemma group_field m : In m all_messages -> supports U8 m = true ->
  exists w, settable_field U32 m "group" w /\ In ("group", Absent (VNum 0)) (layout U8 (m_name m)).
Proof.
  intros Hm Hs. pose proof (both_of m Hm Hs) as H. unfold both_check in H.
  apply andb_prop in H as [H H4]. apply andb_prop in H as [_ H3].
  apply existsb_exists in H3 as ([g x] & H1 & H2). cbn [fst snd] in H2. apply andb_prop in H2 as [H2 H3].
  apply String.eqb_eq in H2. subst g. exists x. split; [split; auto; destruct x; try discriminate; reflexivity|].
  apply existsb_exists in H4 as ([g y] & H5 & H6). cbn [fst snd] in H6. apply andb_prop in H6 as [H6 H7].
  apply String.eqb_eq in H6. subst g. destruct y; try discriminate. destruct v; try discriminate.
  destruct n; try discriminate. exact H5.
Qed.

Lemma group_storable m : In m all_messages -> supports U8 m = true -> storable m "group" (VNum 0).
Proof.
  intros Hm Hs. destruct (group_field m Hm Hs) as (w & Hg & Hg8).
  destruct (field_type_wire U8 m "group" _ Hm Hg8) as [Ht _].
  exists (TyU 4). split; [exact Ht|]. split; reflexivity.
Qed.

Lemma converted_get from to m src dst dst' f w : In m all_messages -> supports U8 m = true ->
  holds from m src -> converted from to m src dst dst' -> settable_field to m f w ->
  get to m dst' f = get from m src f.
Proof.
  intros Hm Hs Hh (Hd & _ & _ & _ & _ & H) Hf. destruct (field_both from to m f w Hm Hs (proj1 Hf)) as (x & Hx).
  rewrite (get_settable to m dst' f w) by auto. rewrite (H f w x Hf Hx). symmetry.
  apply get_any; auto. destruct (settable x) eqn:E; auto. right.
  destruct from, to.
  - assert (x = w) by (eapply layout_unique; eauto; apply Hf). subst x. destruct Hf. congruence.
  - destruct (string_dec f "group") as [->|Hne].
    + destruct (group_field m Hm Hs) as (g & _ & Hg8). exists (VNum 0). eapply layout_unique; eauto.
    + destruct (settable_back m f w Hm Hs Hf Hne) as (y & Hy).
      assert (x = y) by (eapply layout_unique; eauto; apply Hy). subst y. destruct Hy. congruence.
  - destruct (settable_both m f w Hm Hs Hf) as (y & Hy).
    assert (x = y) by (eapply layout_unique; eauto; apply Hy). subst y. destruct Hy. congruence.
  - assert (x = w) by (eapply layout_unique; eauto; apply Hf). subst x. destruct Hf. congruence.
Qed.

Lemma group_zero m b p dst : In m all_messages -> supports U8 m = true -> holds U8 m b ->
  converted U8 U32 m b dst p -> get U32 m p "group" = Val (VNum 0).
Proof.
  intros Hm Hs Hh Hc. destruct (group_field m Hm Hs) as (w & Hg & Hg8).
  rewrite (converted_get U8 U32 m b dst p "group" w) by auto.
  now apply get_absent.
Qed.

Lemma repeat_split (k n : nat) : (k <= n)%nat -> repeat 0 n = repeat 0 k ++ repeat 0 (n - k).
Proof. intros H. rewrite <- repeat_app. f_equal. lia. Qed.

Lemma from_bytes_grow m b p n : In m all_messages -> supports U8 m = true -> from_bytes m b = Val p ->
  (min_size U32 m <= n)%nat ->
  convert_properties U8 U32 (m_fields m) b (repeat 0 n) = Val (p ++ repeat 0 (n - min_size U32 m)).
Proof.
  intros Hm Hs E Hn. rewrite (repeat_split (min_size U32 m) n Hn). apply convert_app.
  - apply (plain_message U32 m Hm Hs).
  - unfold from_bytes in E. now rewrite vec_resize_nil in E.
Qed.

Lemma from_ump_grow m p b n : In m all_messages -> supports U8 m = true -> from_ump m p = Val b ->
  (min_size U8 m <= n)%nat ->
  convert_properties U32 U8 (m_fields m) p (repeat 0 n) = Val (b ++ repeat 0 (n - min_size U8 m)).
Proof.
  intros Hm Hs E Hn. rewrite (repeat_split (min_size U8 m) n Hn). apply convert_app.
  - apply (plain_message U8 m Hm Hs).
  - unfold from_ump in E. now rewrite vec_resize_nil in E.
Qed.

Lemma converted_reserved from to m src dst' dst n : converted from to m src dst dst' -> dst = repeat 0 n ->
  reserved_zero to m dst'.
Proof.
  intros (_ & _ & _ & _ & H & _) ->. eapply only_changes_reserved; [exact H|]. apply reserved_zeros.
Qed.

(** Fields and zero reserved bits determine the message. *)
Lemma determined u m a b : In m all_messages -> supports U8 m = true ->
  holds u m a -> holds u m b -> reserved_zero u m a -> reserved_zero u m b -> meaningful u m a ->
  (forall f w, In (f, w) (layout u (m_name m)) -> decode w a = decode w b) ->
  firstn (min_size u m) a = firstn (min_size u m) b.
Proof.
  intros Hm Hs (Wa & La & _) (Wb & Lb & _) Ra Rb Ma E.
  apply nth_ext with (d := 0) (d' := 0); [rewrite !firstn_length; lia|].
  intros i Hi. rewrite firstn_length in Hi. rewrite !nth_firstn_lt by lia.
  apply N.bits_inj. intros j. destruct (N.ltb_spec j (unit_bits u)) as [Hj|Hj].
  - destruct (seg_or_not (layout_segs u m) i j) as [(s & Hsg & Hin)|Hn].
    + apply layout_seg in Hsg as (f & x & H1 & H2).
      rewrite !(testbit_of_bits _ s i j Hin). f_equal.
      destruct (plain_message u m Hm Hs) as (_ & _ & Hp).
      destruct (field_type_wire u m f x Hm H1) as [_ Hsh].
      apply (plain_inj x); eauto.
    + assert (Hn' : forall f x s, In (f, x) (layout u (m_name m)) -> In s (occupies x) -> ~ in_seg s i j).
      { intros f x s H1 H2. apply Hn. apply layout_seg. eauto. }
      rewrite Ra, Rb; auto; lia.
  - rewrite !(testbit_above (unit_bits u)); auto; now apply (wf_nth u).
Qed.

Lemma constant_agree u m f w a b : In m all_messages -> supports U8 m = true ->
  In (f, w) (layout u (m_name m)) -> settable w = false -> meaningful u m a -> meaningful u m b ->
  decode w a = decode w b.
Proof.
  intros Hm Hs Hin Hset Ha Hb. pose proof (Ha f w Hin) as H1. pose proof (Hb f w Hin) as H2.
  destruct (plain_message u m Hm Hs) as (_ & _ & Hp). specialize (Hp f w Hin).
  destruct w; try discriminate; cbn [decode] in *; auto.
  destruct (bits a s =? c), (bits b s =? c); congruence.
Qed.

Lemma reserved_checked u m b : reserved_check u m b = true -> reserved_zero u m b.
Proof.
  unfold reserved_check. intros H w j Hw Hj Hn.
  rewrite forallb_forall in H. specialize (H w). rewrite in_seq in H. specialize (H ltac:(lia)).
  rewrite forallb_forall in H. specialize (H (N.to_nat j)). rewrite in_seq in H. specialize (H ltac:(lia)).
  rewrite N2Nat.id in H. apply orb_prop in H as [H|H]; [|now destruct (N.testbit (nth w b 0) j)].
  exfalso. apply existsb_exists in H as (s & H1 & H2). apply layout_seg in H1 as (f & x & H3 & H4).
  apply in_segb_spec in H2. eapply Hn; eauto.
Qed.

Lemma built_clean m n z : In m all_messages -> supports U8 m = true -> constructible U8 m ->
  (new U8 m = Val z \/ ((min_size U8 m <= n)%nat /\ array_new U8 m n = Val z)) ->
  holds U8 m z /\ meaningful U8 m z /\ reserved_zero U8 m z.
Proof.
  intros Hm Hs Hc [Hz|[Hn Hz]].
  - destruct (new_fresh U8 m Hm Hs Hc) as (z1 & E & Hf). assert (z1 = z) by congruence. subst z1.
    split; [now apply fresh_holds|]. split; [|now apply new_reserved].
    destruct Hf as (_ & Hwf & Ha & _). apply accepts_bare in Ha; auto; [tauto|].
    apply (plain_message U8 m Hm Hs).
  - destruct (construct_array U8 m n Hm Hs Hc Hn) as (z0 & b' & E1 & Hf & E2 & _ & El & Hh & Ed & _).
    assert (b' = z) by congruence. subst b'. split; [exact Hh|].
    pose proof Hh as (_ & Hl & _). rewrite data_ok in Ed by exact Hl.
    assert (Ez : firstn (min_size U8 m) z = z0) by congruence. split.
    + destruct Hf as (_ & Hwf & Ha & _). apply accepts_bare in Ha; auto; [|apply (plain_message U8 m Hm Hs)].
      destruct Ha as [_ Ha]. intros f w Hin. rewrite <- (firstn_decode U8 m f w z (min_size U8 m)); auto.
      * rewrite Ez. now apply (Ha f).
      * rewrite constructible_room; auto.
    + apply (reserved_prefix U8 m z0 z); [|now apply new_reserved].
      intros i Hi. rewrite <- Ez. now apply nth_firstn_lt.
Qed.

Lemma rejected u m f w b : In m all_messages -> settable_field u m f w -> holds u m b ->
  decode w b = None -> exists e, try_from u m b = Val (Err e).
Proof.
  intros Hm Hf Hh Hn. pose proof (settable_supports u m f w Hm Hf) as Hs.
  destruct (try_from_spec u m b Hm Hs (proj1 Hh)) as (r & E & H & _).
  destruct r as [x|e]; [|eauto]. exfalso. specialize (H x eq_refl). subst x.
  destruct (accepts_get u m b f w Hm Hf Hh E) as (v & t & _ & Hd & _). congruence.
Qed.

(** ** Seven-bit groups *)

Lemma groups_u14 v : v < 2 ^ 14 -> v mod 128 + 128 * (v / 128) = v.
Proof. lia. Qed.

Lemma u21_from_spec a b c : u21_from_u7s a b c = a mod 128 + 128 * (b mod 128 + 128 * (c mod 128)).
Proof.
  unfold u21_from_u7s, group_of. rewrite !ones7.
  rewrite (lor_add _ _ 7) by (apply N.mod_lt; discriminate).
  rewrite (lor_add _ _ 14).
  - change (2 ^ 7) with 128. change (2 ^ 14) with 16384. lia.
  - change (2 ^ 7) with 128. change (2 ^ 14) with 16384.
    pose proof (N.mod_lt a 128 ltac:(discriminate)). pose proof (N.mod_lt b 128 ltac:(discriminate)). lia.
Qed.

Lemma u28_from_spec a b c d :
  u28_from_u7s a b c d = a mod 128 + 128 * (b mod 128 + 128 * (c mod 128 + 128 * (d mod 128))).
Proof.
  unfold u28_from_u7s. fold (u21_from_u7s a b c). unfold group_of. rewrite !ones7.
  rewrite u21_from_spec. rewrite (lor_add _ _ 21).
  - change (2 ^ 21) with 2097152. lia.
  - change (2 ^ 21) with 2097152.
    pose proof (N.mod_lt a 128 ltac:(discriminate)). pose proof (N.mod_lt b 128 ltac:(discriminate)).
    pose proof (N.mod_lt c 128 ltac:(discriminate)). lia.
Qed.

Lemma u21_to_spec x : u21_to_u7s x = [x mod 128; (x / 128) mod 128; (x / 16384) mod 128].
Proof. unfold u21_to_u7s. now rewrite !byte_of_mod, !N.shiftr_div_pow2. Qed.
Lemma u28_to_spec x : u28_to_u7s x = [x mod 128; (x / 128) mod 128; (x / 16384) mod 128; (x / 2097152) mod 128].
Proof. unfold u28_to_u7s. now rewrite !byte_of_mod, !N.shiftr_div_pow2. Qed.

Lemma u14_round v : v < 2 ^ 14 ->
  Forall (fun g => g < 128) (u14_to_u7s v) /\ List.length (u14_to_u7s v) = 2%nat /\ groups (u14_to_u7s v) = v /\
  match u14_to_u7s v with [a; b] => u14_from_u7s a b = v | _ => False end.
Proof.
  intros H. rewrite u14_to_spec. split; [repeat constructor; apply N.mod_lt; discriminate|].
  split; [reflexivity|]. cbn [groups fold_right]. rewrite u14_from_spec. change (2 ^ 14) with 16384 in H.
  split; lia.
Qed.

Lemma u21_round v : v < 2 ^ 21 ->
  Forall (fun g => g < 128) (u21_to_u7s v) /\ List.length (u21_to_u7s v) = 3%nat /\ groups (u21_to_u7s v) = v /\
  match u21_to_u7s v with [a; b; c] => u21_from_u7s a b c = v | _ => False end.
Proof.
  intros H. rewrite u21_to_spec. split; [repeat constructor; apply N.mod_lt; discriminate|].
  split; [reflexivity|]. cbn [groups fold_right]. rewrite u21_from_spec. change (2 ^ 21) with 2097152 in H.
  split; lia.
Qed.

Lemma u28_round v : v < 2 ^ 28 ->
  Forall (fun g => g < 128) (u28_to_u7s v) /\ List.length (u28_to_u7s v) = 4%nat /\ groups (u28_to_u7s v) = v /\
  match u28_to_u7s v with [a; b; c; d] => u28_from_u7s a b c d = v | _ => False end.
Proof.
  intros H. rewrite u28_to_spec. split; [repeat constructor; apply N.mod_lt; discriminate|].
  split; [reflexivity|]. cbn [groups fold_right]. rewrite u28_from_spec. change (2 ^ 28) with 268435456 in H.
  split; lia.
Qed.

Lemma decode_round a b c d :
  u14_from_u7s a b = groups [a; b] /\ u21_from_u7s a b c = groups [a; b; c] /\
  u28_from_u7s a b c d = groups [a; b; c; d] /\
  u14_to_u7s (u14_from_u7s a b) = [a mod 128; b mod 128] /\
  u21_to_u7s (u21_from_u7s a b c) = [a mod 128; b mod 128; c mod 128] /\
  u28_to_u7s (u28_from_u7s a b c d) = [a mod 128; b mod 128; c mod 128; d mod 128].
Proof.
  rewrite u14_to_spec, u21_to_spec, u28_to_spec, u14_from_spec, u21_from_spec, u28_from_spec.
  pose proof (N.mod_lt a 128 ltac:(discriminate)) as Ha. pose proof (N.mod_lt b 128 ltac:(discriminate)) as Hb.
  pose proof (N.mod_lt c 128 ltac:(discriminate)) as Hc. pose proof (N.mod_lt d 128 ltac:(discriminate)) as Hd.
  cbn [groups fold_right].
  generalize dependent (a mod 128). generalize dependent (b mod 128).
  generalize dependent (c mod 128). generalize dependent (d mod 128). clear.
  intros d Hd c Hc b Hb a Ha.
  repeat split; try lia; repeat f_equal; lia.
Qed.

(** ** Code tables *)

Fixpoint nodupb (l : list N) : bool :=
  match l with [] => true | x :: t => negb (existsb (N.eqb x) t) && nodupb t end.
Lemma nodupb_ok l : nodupb l = true -> NoDup l.
Proof.
  induction l as [|x l IH]; intros H; constructor; cbn in H; apply andb_prop in H as [H1 H2]; auto.
  intros Hin. apply negb_true_iff in H1. assert (existsb (N.eqb x) l = true); [|congruence].
  apply existsb_exists. exists x. now rewrite N.eqb_refl.
Qed.

Lemma tables_nodup k : NoDup (map fst (codes k)).
Proof. apply nodupb_ok. destruct k; vm_compute; reflexivity. Qed.

Lemma lt8 n : n < 8 -> n = 0 \/ n = 1 \/ n = 2 \/ n = 3 \/ n = 4 \/ n = 5 \/ n = 6 \/ n = 7.
Proof. lia. Qed.
Lemma lt16 n : n < 16 -> n = 0 \/ n = 1 \/ n = 2 \/ n = 3 \/ n = 4 \/ n = 5 \/ n = 6 \/ n = 7 \/
  n = 8 \/ n = 9 \/ n = 10 \/ n = 11 \/ n = 12 \/ n = 13 \/ n = 14 \/ n = 15.
Proof. lia. Qed.

Lemma assoc_nodup {A} (l : list (N * A)) c v : NoDup (map fst l) -> In (c, v) l -> assoc c l = Some v.
Proof.
  induction l as [|[k a] l IH]; intros Hn Hin; [destruct Hin|]. cbn [map fst] in Hn.
  apply NoDup_cons_iff in Hn as [Hk Hn]. cbn [assoc]. destruct Hin as [[= -> ->]|Hin].
  - now rewrite N.eqb_refl.
  - destruct (N.eqb_spec c k) as [->|]; [|auto]. exfalso. apply Hk. apply in_map_iff. now exists (k, v).
Qed.

Lemma coded k v : existsb (fun p => if value_dec (snd p) v then true else false) (codes k) = true ->
  exists c, assoc c (codes k) = Some v.
Proof.
  intros H. apply existsb_exists in H as ([c x] & H1 & H2). cbn [snd] in H2.
  destruct (value_dec x v) as [->|]; [|discriminate]. exists c. apply assoc_nodup; auto. apply tables_nodup.
Qed.

Lemma tables_ok k :
  NoDup (map fst (codes k)) /\
  (forall v, has_type (kind_ty k) v = true -> v <> VKeySF (Flats 0) -> exists c, assoc c (codes k) = Some v) /\
  (forall c c' v, assoc c (codes k) = Some v -> assoc c' (codes k) = Some v ->
     c = c' \/ (v = VAlt None /\ c < 16 /\ c' < 16)).
Proof.
  split; [apply tables_nodup|]. split.
  - intros v Ht Hne. apply coded. destruct k, v; try discriminate; cbn [kind_ty has_type] in Ht.
    + match goal with x : tonic |- _ => destruct x end; reflexivity.
    + match goal with x : key_sharps_flats |- _ => destruct x as [n|n|] end; try reflexivity;
        apply N.ltb_lt in Ht; apply lt8 in Ht;
        repeat destruct Ht as [->|Ht]; try subst n; try reflexivity; congruence.
    + match goal with x : chord_sharps_flats |- _ => destruct x end; reflexivity.
    + match goal with x : chord_type |- _ => destruct x end; reflexivity.
    + match goal with x : option alteration |- _ => destruct x as [[n|n|n|n]|] end; try reflexivity;
        apply N.ltb_lt in Ht; apply lt16 in Ht;
        repeat destruct Ht as [->|Ht]; try subst n; reflexivity.
    + match goal with x : ui_hint |- _ => destruct x end; reflexivity.
    + match goal with x : option midi1_port |- _ => destruct x as [[|]|] end; reflexivity.
    + match goal with x : direction |- _ => destruct x end; reflexivity.
  - intros c c' v H H'. apply assoc_in in H, H'.
    assert (A : forallb (fun p => forallb (fun q =>
       (fst p =? fst q) || (if value_dec (snd p) (snd q) then false else true)
       || ((if value_dec (snd p) (VAlt None) then true else false) && (fst p <? 16) && (fst q <? 16)))
       (codes k)) (codes k) = true) by (destruct k; vm_compute; reflexivity).
    rewrite forallb_forall in A. specialize (A (c, v) H). rewrite forallb_forall in A. specialize (A (c', v) H').
    cbn [fst snd] in A. destruct (value_dec v v); [|congruence].
    destruct (N.eqb_spec c c'); [now left|right]. cbn [orb] in A.
    destruct (value_dec v (VAlt None)); [|discriminate]. cbn [andb] in A. apply andb_prop in A as [A1 A2].
    apply N.ltb_lt in A1, A2. auto.
Qed.
