(** Lemmas: messages copied from buffer to buffer. *)
From Coq Require Import NArith ZArith List String Bool Arith Lia Zify ZifyBool ZifyNat ZifyN.
From Verif Require Import Base BitOps BitLemmas ListLemmas Values Helpers Props Message MessageTable SpecLayout SpecFixed
  FixedLemmas FixedProofs PropertiesFixed Sysex SpecSysex ByteView SysexLayout SysexBridge SysexHold SysexMore SysexInit SysexIds SpecEdits
  Text SpecText TextLemmas TextHeader TextFlex TextFlexMore TextStream TextParse
  Aggregate SpecAggregate AggregateLemmas AggregateMore PropertiesAggregate SpecCopies.
Import ListNotations.
Local Open Scope string_scope.
Local Open Scope list_scope.
Local Open Scope nat_scope.

(** What a copy looks like: the old buffer or its [data()], continued with zeros. *)
Lemma copy_form u c b a : copied_once u (c, b) a ->
  exists n, a = (c, b ++ repeat 0%N n) \/ exists d, concrete_data u c b = Val d /\ a = (c, d ++ repeat 0%N n).
Proof.
  intros [|n a' E|n a' E].
  - exists 0. left. unfold agg_rebuffer_vec, rebuffer_vec. cbn [fst snd repeat]. now rewrite app_nil_r.
  - unfold agg_try_rebuffer_array, try_rebuffer_array in E. cbn [fst snd] in E. exists (n - List.length b). left.
    destruct (_ <? _); [discriminate|]. congruence.
  - unfold agg_array_rebuffer, agg_data in E. cbn [fst snd] in E. destruct (concrete_data u c b) as [d|]; [|discriminate].
    cbn [bind] in E. destruct (_ <? _); [discriminate|]. exists (n - List.length d). right. exists d. split; [reflexivity|congruence].
Qed.

Lemma copies_ind u c (Q : list N -> Prop) b a :
  (forall b n, Q b -> Q (b ++ repeat 0%N n)) ->
  (forall b d n, Q b -> concrete_data u c b = Val d -> Q (d ++ repeat 0%N n)) ->
  Q b -> copied_on u (c, b) a -> exists b', a = (c, b') /\ Q b'.
Proof.
  intros H1 H2 Hb C. remember (c, b) as a0 eqn:E0. induction C as [|a' a'' _ IH O].
  - exists b. auto.
  - destruct IH as (b' & -> & Hq). apply copy_form in O as (n & [->|(d & D & ->)]); eauto.
Qed.

(** ** System exclusive *)

Lemma front_app fm k b t : packet_words fm * k <= List.length b -> same_front fm k b (b ++ t).
Proof. intros L j Hj. apply app_nth1. lia. Qed.

Lemma carries_app fm k g s l b t : carries fm k g s l b -> carries fm k g s l (b ++ t).
Proof.
  intros C. pose proof (ca_fits _ _ _ _ _ _ C) as L. eapply front_carries; [apply front_app; exact L| |exact C].
  rewrite app_length. lia.
Qed.

Lemma sysex_data fm b : concrete_data U32 (sysex_of fm) b = sx_data (fmt_of fm) b.
Proof. now destruct fm. Qed.

Lemma zero_byte b n j : 4 * List.length b <= j -> byte (b ++ repeat 0%N n) j = 0%N.
Proof.
  intros H. unfold byte. assert (List.length b <= j / 4) by (apply Nat.div_le_lower_bound; lia).
  rewrite app_nth2 by lia. rewrite nth_repeat. reflexivity.
Qed.

Lemma old_byte b t j : j < 4 * List.length b -> byte (b ++ t) j = byte b j.
Proof. intros H. unfold byte. rewrite app_nth1; [reflexivity|]. apply Nat.div_lt_upper_bound; lia. Qed.

Lemma scrap_pad fm s b n : in_stream s 0%N -> List.length b mod packet_words fm = 0 -> scrap fm s b ->
  scrap fm s (b ++ repeat 0%N n).
Proof.
  intros Hs M H p Hp. pose proof (words_pos fm) as Hw. assert (Pb : packet_bytes fm = 4 * packet_words fm) by now destruct fm.
  pose proof (Nat.div_mod (List.length b) (packet_words fm) ltac:(lia)) as Dv. rewrite M in Dv.
  destruct (Nat.lt_ge_cases p (List.length b / packet_words fm)) as [Lt|Ge].
  - specialize (H p Lt). assert (S0 : same_front fm (List.length b / packet_words fm) b (b ++ repeat 0%N n)) by (apply front_app; lia).
    destruct (front_packet fm _ _ _ p S0 Lt) as (-> & _ & -> & -> & -> & -> & _). exact H.
  - assert (G : 4 * List.length b <= packet_bytes fm * p).
    { rewrite Pb, Dv, Nat.add_0_r. rewrite <- Nat.mul_assoc. apply Nat.mul_le_mono_l, Nat.mul_le_mono_l. exact Ge. }
    split.
    + intros T. exfalso. unfold type_of in T. rewrite zero_byte in T by exact G. destruct fm; discriminate T.
    + intros _. unfold stream_of. rewrite zero_byte by lia. exact Hs.
Qed.

Lemma message_scrap fm g s l b : message fm g s l b -> message_in fm g s l b.
Proof.
  intros (k & C & F & L). split; [eauto|]. intros p Hp. pose proof (words_pos fm).
  rewrite L, Nat.mul_comm, Nat.div_mul in Hp by lia. split.
  - intros T St. pose proof (ca_status _ _ _ _ _ _ C p Hp) as E. pose proof (ca_size _ _ _ _ _ _ C p Hp) as Z. split; [|lia].
    apply (proj1 F). unfold status_code in E. destruct (Nat.eqb_spec k 1); [rewrite E in St; destruct St; discriminate|].
    destruct (Nat.eqb_spec p 0); [lia|]. destruct (Nat.eqb_spec (S p) k); [rewrite E in St; destruct St; discriminate|lia].
  - exact (ca_stream _ _ _ _ _ _ C p Hp).
Qed.

Lemma message_in_pad fm g s l b n : in_stream s 0%N -> List.length b mod packet_words fm = 0 -> message_in fm g s l b ->
  message_in fm g s l (b ++ repeat 0%N n).
Proof.
  intros Hs M [(k & C & F) Sc]. split; [|now apply scrap_pad]. exists k. split; [now apply carries_app|].
  eapply front_full; [apply C| |exact F]. apply front_app, C.
Qed.

Lemma message_in_data fm g s l b d n : in_stream s 0%N -> message_in fm g s l b -> sx_data (fmt_of fm) b = Val d ->
  message_in fm g s l (d ++ repeat 0%N n).
Proof.
  intros Hs [(k & C & F) Sc] D. destruct (carries_reads _ _ _ _ _ _ C) as (D' & _). assert (E : d = firstn (packet_words fm * k) b) by congruence.
  destruct (data_carries _ _ _ _ _ _ C) as (_ & Mg & L). rewrite <- E in *. pose proof (words_pos fm).
  apply message_in_pad; [exact Hs|rewrite L, Nat.mul_comm; apply Nat.mod_mul; lia|]. apply message_scrap. auto.
Qed.

Lemma noticed_front fm k b b' : same_front fm k b b' -> noticed fm k b -> noticed fm k b'.
Proof.
  intros S0 Nt p Hp U. destruct (front_packet fm k b b' p S0 ltac:(lia)) as (_ & _ & _ & _ & _ & E & _). rewrite E in U.
  destruct (Nt p Hp U) as (q & Hq & Uq & X). exists q. split; [exact Hq|].
  destruct (front_packet fm k b b' q S0 ltac:(lia)) as (_ & _ & _ & _ & _ & -> & _). auto.
Qed.

Lemma loose_pad fm k g l b n : List.length b mod packet_words fm = 0 -> loose_message fm k g l b ->
  loose_message fm k g l (b ++ repeat 0%N n).
Proof.
  intros M (C & Nt & Nb). pose proof (words_pos fm) as Hw. assert (Pb : packet_bytes fm = 4 * packet_words fm) by now destruct fm.
  pose proof (Nat.div_mod (List.length b) (packet_words fm) ltac:(lia)) as Dv. rewrite M in Dv.
  split; [now apply carries_app|]. split; [eapply noticed_front; [|exact Nt]; apply front_app, C|].
  intros p Hk Hp X T. destruct (Nat.lt_ge_cases p (List.length b / packet_words fm)) as [Lt|Ge].
  - assert (S0 : same_front fm (List.length b / packet_words fm) b (b ++ repeat 0%N n)) by (apply front_app; lia).
    destruct (front_packet fm _ _ _ p S0 Lt) as (E1 & _ & _ & E2 & E3 & _). rewrite E1 in T. rewrite E2, E3. now apply Nb.
  - exfalso. assert (G : 4 * List.length b <= packet_bytes fm * p).
    { rewrite Pb, Dv, Nat.add_0_r. rewrite <- Nat.mul_assoc. apply Nat.mul_le_mono_l, Nat.mul_le_mono_l. exact Ge. }
    unfold type_of in T. rewrite zero_byte in T by exact G. destruct fm; discriminate T.
Qed.

(** ** Text *)

Lemma all_bytes_length b : List.length (all_bytes b) = 4 * List.length b.
Proof. unfold all_bytes. induction b as [|x b IH]; [reflexivity|]. cbn [flat_map app List.length]. rewrite IH. lia. Qed.
Lemma all_bytes_app b t : all_bytes (b ++ t) = all_bytes b ++ all_bytes t.
Proof. unfold all_bytes. apply flat_map_app. Qed.

Lemma text_area_app head b t : List.length b mod 4 = 0 -> text_area head (b ++ t) = text_area head b ++ text_area head t.
Proof.
  intros M. pose proof (Nat.div_mod (List.length b) 4 ltac:(lia)) as D. rewrite M in D.
  unfold text_area. rewrite app_length.
  replace ((List.length b + List.length t) / 4) with (List.length b / 4 + List.length t / 4)
    by (rewrite D at 2; replace (4 * (List.length b / 4) + 0 + List.length t) with (List.length t + (List.length b / 4) * 4) by lia; rewrite Nat.div_add by lia; lia).
  set (q := List.length b / 4) in *. rewrite seq_app, flat_map_app. f_equal.
  - rewrite !flat_map_concat_map. f_equal. apply map_ext_in. intros p Hp. apply in_seq in Hp. rewrite all_bytes_app. f_equal.
    rewrite skipn_app, firstn_app. replace (16 - List.length (skipn (16 * p) (all_bytes b))) with 0 by (rewrite skipn_length, all_bytes_length; lia).
    cbn [firstn]. now rewrite app_nil_r.
  - assert (G : forall m o, flat_map (fun p => skipn head (firstn 16 (skipn (16 * p) (all_bytes (b ++ t))))) (seq (q + o) m)
      = flat_map (fun p => skipn head (firstn 16 (skipn (16 * p) (all_bytes t)))) (seq o m)).
    { induction m as [|m IH]; intros o; [reflexivity|]. cbn [seq flat_map]. rewrite <- IH, <- plus_n_Sm. f_equal.
      rewrite all_bytes_app. f_equal. f_equal. rewrite skipn_app, all_bytes_length.
      rewrite skipn_all2 by (rewrite all_bytes_length; lia). cbn [app]. f_equal. lia. }
    specialize (G (List.length t / 4) 0). rewrite Nat.add_0_r in G. exact G.
Qed.

Lemma zero_bytes n : all_bytes (repeat 0%N n) = repeat 0%N (4 * n).
Proof.
  induction n as [|n IH]; [reflexivity|]. replace (4 * S n) with (4 + 4 * n) by lia. rewrite repeat_app, <- IH. reflexivity.
Qed.

Definition all_zero (l : list N) : Prop := Forall (fun x => x = 0%N) l.
Lemma zero_area head n : all_zero (text_area head (repeat 0%N n)).
Proof.
  apply Forall_forall. intros x H. unfold text_area in H. apply in_flat_map in H as (p & _ & H).
  assert (I : In x (all_bytes (repeat 0%N n))).
  { rewrite <- (firstn_skipn (16 * p)). apply in_or_app. right.
    rewrite <- (firstn_skipn 16 (skipn (16 * p) _)). apply in_or_app. left.
    rewrite <- (firstn_skipn head (firstn 16 _)). apply in_or_app. now right. }
  rewrite zero_bytes in I. now apply repeat_spec in I.
Qed.
Lemma without_nul_zero l : all_zero l -> without_nul l = [].
Proof. induction 1 as [|x l -> _ IH]; [reflexivity|exact IH]. Qed.
Lemma without_nul_app l t : without_nul (l ++ t) = without_nul l ++ without_nul t.
Proof. apply filter_app. Qed.
Lemma removelast_zero l : all_zero l -> all_zero (removelast l).
Proof.
  intros H. rewrite removelast_firstn_len. unfold all_zero in *. rewrite Forall_forall in *. intros x I. apply H.
  rewrite <- (firstn_skipn (pred (List.length l)) l). apply in_or_app. now left.
Qed.

Lemma last_app {A} (l t : list A) z : t <> [] -> last (l ++ t) z = last t z.
Proof.
  intros Ht. induction l as [|x l IH]; [reflexivity|]. cbn [app last]. destruct (l ++ t) eqn:E; [|exact IH].
  apply app_eq_nil in E. tauto.
Qed.

Lemma area_last d : 4 <= List.length d -> List.length d mod 4 = 0 ->
  text_area 4 d <> [] /\ last (text_area 4 d) 0%N = last (all_bytes d) 0%N.
Proof.
  intros L M. pose proof (Nat.div_mod (List.length d) 4 ltac:(lia)) as D. rewrite M in D.
  rewrite <- (firstn_skipn (List.length d - 4) d).
  set (d1 := firstn _ d). set (d2 := skipn _ d).
  assert (L1 : List.length d1 = List.length d - 4) by (subst d1; rewrite firstn_length; lia).
  assert (L2 : List.length d2 = 4) by (subst d2; rewrite skipn_length; lia).
  assert (M1 : List.length d1 mod 4 = 0).
  { rewrite L1. replace (List.length d - 4) with ((List.length d / 4 - 1) * 4) by lia. apply Nat.mod_mul. lia. }
  rewrite text_area_app, all_bytes_app by exact M1. clearbody d1 d2.
  destruct d2 as [|w0 [|w1 [|w2 [|w3 [|]]]]]; try discriminate L2. clear.
  cbn [text_area flat_map app List.length]. change (4 / 4) with 1. cbn [seq flat_map Nat.mul skipn firstn all_bytes app].
  split; [intros X; apply app_eq_nil in X as [_ X]; discriminate X|]. rewrite !last_app by discriminate. reflexivity.
Qed.

Lemma flex_reading_pad d n : 4 <= List.length d -> List.length d mod 4 = 0 -> spare_byte d ->
  flex_reading (d ++ repeat 0%N n) = without_nul (text_area 4 d).
Proof.
  intros L M S0. unfold flex_reading. rewrite text_area_app by exact M. destruct (area_last d L M) as [Ne La]. unfold spare_byte in S0. rewrite S0 in La.
  pose proof (zero_area 4 n) as Z. destruct (text_area 4 (repeat 0%N n)) as [|z t] eqn:E.
  - rewrite app_nil_r. rewrite (app_removelast_last 0%N Ne) at 2. rewrite La, without_nul_app. cbn. now rewrite app_nil_r.
  - rewrite removelast_app by discriminate. rewrite without_nul_app, (without_nul_zero (removelast _)) by now apply removelast_zero.
    now rewrite app_nil_r.
Qed.

Lemma stream_reading_pad off d n : List.length d mod 4 = 0 ->
  stream_reading off (d ++ repeat 0%N n) = without_nul (text_area (2 + off) d).
Proof.
  intros M. unfold stream_reading. rewrite text_area_app by exact M. rewrite without_nul_app.
  rewrite (without_nul_zero (text_area _ (repeat _ _))) by apply zero_area. now rewrite app_nil_r.
Qed.

Lemma dyn_data c b d : (n <- dyn_size c b ;; prefix b n) = Val d -> 4 <= List.length d /\ List.length d mod 4 = 0.
Proof.
  intros D. unfold dyn_size in D. destruct (position _ _) as [p|]; [|discriminate]. cbn [bind] in D.
  apply prefix_ok in D as [L ->]. rewrite firstn_length, Nat.min_l by exact L. split; [lia|].
  replace (p * 4 + 4) with (S p * 4) by lia. apply Nat.mod_mul. lia.
Qed.

(** The [data()] of a zero-padded message, and copies of it. *)
Lemma padded_copies c d b a : concrete_data U32 c d = Val d -> zero_padded d b -> copied_on U32 (c, b) a ->
  exists b', a = (c, b') /\ zero_padded d b'.
Proof.
  intros D Hb C. eapply (copies_ind U32 c (zero_padded d)); eauto.
  - intros x n (m & ->). exists (m + n). now rewrite <- app_assoc, repeat_app.
  - intros x d' n (m & ->) D'. rewrite (proj2 (data_prefix U32 c d d D)) in D'. assert (d' = d) by congruence. subst. now exists n.
Qed.
