(** Construction of fixed-size messages on buffers with arbitrary tails. *)
From Coq Require Import NArith List String Bool Arith Lia ZifyBool ZifyNat ZifyN.
From Verif Require Import Base BitOps Encode7 Values Schema Helpers Props Message MessageTable SpecLayout SpecFixed
  BitLemmas ListLemmas PropLemmas PropWrite PropValidate Stripes MessageLemmas.
Import ListNotations.
Local Open Scope N_scope.

Lemma upd_app b t i f b1 : upd b i f = Val b1 -> upd (b ++ t) i f = Val (b1 ++ t).
Proof.
  unfold upd. intros H. destruct (nth_error b i) as [x|] eqn:E; [|discriminate].
  assert (i < List.length b)%nat by (apply nth_error_Some; congruence).
  rewrite nth_error_app1 by auto. rewrite E. injection H as <-. f_equal.
  clear E. revert i H0. induction b; destruct i; cbn; intros; try lia; auto.
  f_equal. apply IHb. lia.
Qed.

Lemma bind_val {A B} (x : outcome A) (k : A -> outcome B) r :
  bind x k = Val r -> exists a, x = Val a /\ k a = Val r.
Proof. destruct x; cbn; [eauto|discriminate]. Qed.

Lemma ump_write_app t m b v b1 tl : ump_write t m b v = Val b1 ->
  ump_write t m (b ++ tl) v = Val (b1 ++ tl).
Proof.
  unfold ump_write. destruct (lookup4 m (ump_table t)) as [[w i]|]; [|discriminate].
  intros H. destruct t, v; try discriminate; try (now apply upd_app).
  - cbv [u14_to_u7s] in *. apply bind_val in H as (b0 & H1 & H2).
    rewrite (upd_app _ tl _ _ _ H1). cbn [bind]. now apply upd_app.
  - destruct l as [|x0 [|x1 [|x2 [|]]]]; try discriminate.
    apply bind_val in H as (b2 & H1 & H). apply bind_val in H as (b3 & H2 & H).
    rewrite (upd_app _ tl _ _ _ H1). cbn [bind]. rewrite (upd_app _ tl _ _ _ H2). cbn [bind].
    now apply upd_app.
  - destruct l as [|x0 [|x1 [|x2 [|x3 [|]]]]]; try discriminate.
    apply bind_val in H as (b2 & H1 & H). apply bind_val in H as (b3 & H2 & H).
    apply bind_val in H as (b4 & H3 & H).
    rewrite (upd_app _ tl _ _ _ H1). cbn [bind]. rewrite (upd_app _ tl _ _ _ H2). cbn [bind].
    rewrite (upd_app _ tl _ _ _ H3). cbn [bind]. now apply upd_app.
Qed.

Lemma bytes_write_app t m b v b1 tl : bytes_write t m b v = Val b1 ->
  bytes_write t m (b ++ tl) v = Val (b1 ++ tl).
Proof.
  unfold bytes_write. destruct (lookup3 m (bytes_table t)) as [[w i]|]; [|discriminate].
  intros H. destruct t, v; try discriminate; try (now apply upd_app).
  cbv [u14_to_u7s] in *. apply bind_val in H as (b0 & H1 & H2).
  rewrite (upd_app _ tl _ _ _ H1). cbn [bind]. now apply upd_app.
Qed.

Lemma prefix_app b t n d : prefix b n = Val d -> prefix (b ++ t) n = Val d.
Proof.
  unfold prefix. destruct (Nat.leb_spec n (List.length b)) as [H|H]; [|discriminate].
  intros E. injection E as <-. rewrite app_length. destruct (Nat.leb_spec n (List.length b + List.length t)); [|lia].
  f_equal. rewrite firstn_app. replace (n - List.length b)%nat with 0%nat by lia. cbn. apply app_nil_r.
Qed.

Lemma prop_write_app u p b v b1 tl : striped p = false -> prop_write u p b v = Val b1 ->
  prop_write u p (b ++ tl) v = Val (b1 ++ tl).
Proof.
  intros Hs H. destruct p; cbn [striped] in Hs; try discriminate; clear Hs;
    cbn [prop_write] in *; destruct u; try discriminate;
    try (now apply upd_app); try (now apply ump_write_app); try (now apply bytes_write_app);
    try (injection H as <-; reflexivity);
    destruct v; try discriminate; try (now apply upd_app);
    try (unfold at_table in *; destruct (lookup4 _ _) as [[? ?]|]; [now apply upd_app|discriminate]);
    try (apply bind_val in H as (b2 & H1 & H); rewrite (upd_app _ tl _ _ _ H1); cbn [bind]; now apply upd_app).
  - apply bind_val in H as (b2 & H1 & H). apply bind_val in H as (d & H2 & H). injection H as <-.
    destruct o as [[d0|d0|d0]|];
      [apply bind_val in H1 as (b3 & H3 & H1); rewrite (upd_app _ tl _ _ _ H3); cbn [bind] ..|];
      rewrite (upd_app _ tl _ _ _ H1); cbn [bind]; rewrite (prefix_app _ _ _ _ H2); reflexivity.
  - apply bind_val in H as ([i d] & H1 & H). rewrite H1. cbn [bind].
    apply bind_val in H as (b2 & H2 & H). rewrite (upd_app _ tl _ _ _ H2). cbn [bind]. now apply upd_app.
  - destruct o as [n|].
    + cbv [u14_to_u7s] in *. apply bind_val in H as (b2 & H1 & H). apply bind_val in H as (b3 & H2 & H).
      rewrite (upd_app _ tl _ _ _ H1). cbn [bind]. rewrite (upd_app _ tl _ _ _ H2). cbn [bind].
      now apply upd_app.
    + apply bind_val in H as (b2 & H1 & H). rewrite (upd_app _ tl _ _ _ H1). cbn [bind]. now apply upd_app.
  - destruct o as [n|]; apply bind_val in H as (b2 & H1 & H); rewrite (upd_app _ tl _ _ _ H1); cbn [bind];
      now apply upd_app.
  - apply bind_val in H as (n & H1 & H). rewrite H1. cbn [bind]. now apply upd_app.
Qed.

Lemma initialise_cons u f p fs b : initialise u ((f, p) :: fs) b =
  bind (prop_write u p b (prop_default p)) (initialise u fs).
Proof.
  unfold initialise at 1. cbn [fold_left bind snd].
  destruct (prop_write u p b (prop_default p)); [reflexivity|]. cbn [bind].
  apply (fold_bind_panic (fun fp b' => prop_write u (snd fp) b' (prop_default (snd fp)))).
Qed.

Lemma initialise_app u fs b b1 tl : forallb (fun fp => negb (striped (snd fp))) fs = true ->
  initialise u fs b = Val b1 -> initialise u fs (b ++ tl) = Val (b1 ++ tl).
Proof.
  revert b; induction fs as [|[f p] fs IH]; intros b Hs H.
  - cbn in *. congruence.
  - cbn [forallb snd] in Hs. apply andb_prop in Hs as [Hp Hs].
    rewrite initialise_cons in *. apply bind_val in H as (b2 & H1 & H).
    rewrite (prop_write_app u p b _ b2 tl); auto; [|now destruct (striped p)]. cbn [bind]. now apply IH.
Qed.

(** *** UMP stream messages *)

Lemma set_nth_app_low b t i x : (i < List.length b)%nat -> set_nth (b ++ t) i x = set_nth b i x ++ t.
Proof. revert i; induction b; destruct i; cbn; intros; try lia; auto. f_equal. apply IHb. lia. Qed.

Lemma set_nth_app_high b t i x : (List.length b <= i)%nat ->
  set_nth (b ++ t) i x = b ++ set_nth t (i - List.length b) x.
Proof.
  revert i; induction b; cbn; intros; [now rewrite Nat.sub_0_r|].
  destruct i; [lia|]. cbn. f_equal. apply IHb. lia.
Qed.

Lemma put_app_low b t s v : (sg_w s < List.length b)%nat -> put (b ++ t) s v = put b s v ++ t.
Proof. intros. unfold put. rewrite app_nth1 by auto. now apply set_nth_app_low. Qed.

Lemma puts_app_high b t ps : Forall (fun p => (List.length b <= sg_w (fst p))%nat) ps ->
  exists t', puts (b ++ t) ps = b ++ t' /\ List.length t' = List.length t.
Proof.
  revert t; induction ps as [|p ps IH]; intros t H; cbn [puts]; [eauto|].
  inversion H; subst. unfold put at 1. rewrite set_nth_app_high by auto.
  edestruct IH as (t' & E & El); [eassumption|]. exists t'. split; [exact E|].
  rewrite El. apply set_nth_length.
Qed.

(** The loop over packet heads on a first packet [b] followed by [t]. *)
Lemma for_heads_first stride lo n v f k b t : (0 < stride)%nat -> List.length b = stride ->
  (forall i, (i < S k)%nat -> (stride * i < List.length (b ++ t))%nat) ->
  (forall i x, (i < S k)%nat -> f i x = replace_bits x (N.ones n) lo (v i)) ->
  exists t', for_heads stride (S k) f (b ++ t) = Val (put b (Seg 0 lo n) (v 0%nat) ++ t')
             /\ List.length t' = List.length t.
Proof.
  intros Hs Hb Hl Hf. rewrite (for_heads_puts stride lo n v) by auto.
  change (seq 0 (S k)) with (0%nat :: seq 1 k). cbn [map puts fst snd].
  rewrite Nat.mul_0_r. rewrite put_app_low by (cbn; lia).
  destruct (puts_app_high (put b (Seg 0 lo n) (v 0%nat)) t
    (map (fun i => (Seg (stride * i) lo n, v i)) (seq 1 k))) as (t' & E & El);
    [|exists t'; rewrite E; split; [reflexivity|exact El]].
  apply Forall_forall. intros x Hx. apply in_map_iff in Hx as (i & <- & Hi). apply in_seq in Hi.
  cbn [fst sg_w]. rewrite put_length. nia.
Qed.

Lemma stream_status_first s b t : List.length b = 4%nat ->
  exists t', prop_write U32 (PStreamStatus s) (b ++ t) VUnit = Val (put b (Seg 0 16 10) s ++ t')
             /\ List.length t' = List.length t.
Proof.
  intros Hb. cbn [prop_write].
  assert (E : (List.length (b ++ t) / 4 = S (List.length t / 4))%nat).
  { rewrite app_length, Hb. replace (4 + List.length t)%nat with (List.length t + 1 * 4)%nat by lia.
    rewrite Nat.div_add by lia. lia. }
  rewrite E. apply (for_heads_first 4 16 10 (fun _ => s)); auto; try lia.
Qed.

Lemma stream_formats_first b t : List.length b = 4%nat -> bits b (Seg 0 28 4) = 0xF ->
  let k := stream_packet_count (b ++ t) in
  (0 < k)%nat /\
  exists t', prop_write U32 PStreamFormats (b ++ t) VUnit
             = Val (put b (Seg 0 26 2) (if (1 <? k)%nat then 1 else 0) ++ t')
             /\ List.length t' = List.length t.
Proof.
  intros Hb Ht. cbv zeta. destruct (stream_packet_count_spec (b ++ t)) as (H1 & H2 & H3).
  set (k := stream_packet_count (b ++ t)) in *.
  assert (Hlen : List.length (b ++ t) = (4 + List.length t)%nat) by (rewrite app_length; lia).
  assert (Hd : (1 <= List.length (b ++ t) / 4)%nat).
  { rewrite Hlen. pose proof (Nat.div_le_mono 4 (4 + List.length t) 4). 
    change (4 / 4)%nat with 1%nat in *. lia. }
  assert (Hk : (0 < k)%nat).
  { destruct (Nat.eq_dec k 0) as [E|]; [|lia]. exfalso. rewrite E in *. apply H3; [lia|].
    rewrite <- Ht. unfold bits. cbn [sg_w sg_lo sg_n]. rewrite Nat.mul_0_r. now rewrite app_nth1 by lia. }
  split; [exact Hk|]. cbn [prop_write]. unfold set_format_fields. fold k.
  destruct (Nat.eqb_spec k 0); [lia|].
  destruct k as [|k']; [lia|].
  destruct (for_heads_first 4 26 2 (fun i => stream_format i (S k'))
              (fun i x => set_crumb32 x 2 (stream_format i (S k'))) k' b t) as (t' & E & El); auto; try lia.
  exists t'. split; auto.
Qed.

Lemma count_le_one b :
  (List.length b < 8)%nat \/ bits b (Seg 4 28 4) <> 0xF -> (stream_packet_count b <= 1)%nat.
Proof.
  destruct (stream_packet_count_spec b) as (H1 & H2 & _). intros H.
  destruct (Nat.le_gt_cases (stream_packet_count b) 1) as [|Hk]; auto. exfalso.
  destruct H as [H|H].
  - pose proof (Nat.div_lt_upper_bound (List.length b) 4 2). lia.
  - apply H. apply (H2 1%nat). exact Hk.
Qed.

Definition stream_head (m : message) : option (N * list (string * prop)) :=
  match m_fields m with
  | (_, PUmpType 15) :: (_, PStreamStatus s) :: (_, PStreamFormats) :: rest => Some (s, rest)
  | _ => None
  end.

Definition no_striped (fs : list (string * prop)) : bool :=
  forallb (fun fp => negb (striped (snd fp))) fs.

Lemma init_stream m s rest t z' :
  stream_head m = Some (s, rest) -> no_striped rest = true -> s < 2 ^ 10 ->
  initialise U32 (m_fields m) (repeat 0 4) = Val z' ->
  wf_buf U32 t -> quiet_tail t ->
  exists t', initialise U32 (m_fields m) (repeat 0 4 ++ t) = Val (z' ++ t')
             /\ List.length t' = List.length t.
Proof.
  unfold stream_head. intros Hh Hr Hs Hz Hwf Hq.
  destruct (m_fields m) as [|[f1 p1] [|[f2 p2] [|[f3 p3] fs]]]; try discriminate.
  { destruct p1; try discriminate. destruct t0 as [|p]; try discriminate.
    repeat (destruct p; try discriminate). }
  { destruct p1; try discriminate. destruct t0 as [|p]; try discriminate.
    repeat (destruct p; try discriminate). destruct p2; discriminate. }
  destruct p1 as [t0|? | | | | | | | | | | | | | | | | | | | | | | | ]; try discriminate.
  assert (E : t0 = 15 /\ p2 = PStreamStatus s /\ p3 = PStreamFormats /\ fs = rest).
  { destruct t0 as [|p]; try discriminate. repeat (destruct p; try discriminate).
    destruct p2; try discriminate. destruct p3; try discriminate. injection Hh as -> ->. auto. }
  destruct E as (-> & -> & -> & ->).
  rewrite initialise_cons in *. cbn [prop_default] in *.
  set (z1 := [0xF0000000; 0; 0; 0]).
  assert (E1 : prop_write U32 (PUmpType 15) (repeat 0 4) VUnit = Val z1) by reflexivity.
  rewrite E1 in Hz. rewrite (prop_write_app U32 (PUmpType 15) _ _ z1 t) by auto.
  cbn [bind] in *. rewrite initialise_cons in *. cbn [prop_default] in *.
  (* status *)
  destruct (stream_status_first s z1 [] eq_refl) as (t0 & E2 & L0).
  destruct t0; [|discriminate]. rewrite !app_nil_r in E2. rewrite E2 in Hz.
  destruct (stream_status_first s z1 t eq_refl) as (t1 & E3 & L1). rewrite E3.
  set (z2 := put z1 (Seg 0 16 10) s) in *. cbn [bind] in *.
  assert (Lz2 : List.length z2 = 4%nat) by (unfold z2; now rewrite put_length).
  assert (Tz2 : bits z2 (Seg 0 28 4) = 0xF).
  { transitivity (bits z1 (Seg 0 28 4)); [|reflexivity].
    apply (only_changes_bits [Seg 0 16 10] z1 z2); [|reflexivity]. apply put_only_changes; cbn; auto; lia. }
  rewrite initialise_cons in *. cbn [prop_default] in *.
  (* formats *)
  destruct (stream_formats_first z2 [] Lz2 Tz2) as (_ & t0 & E4 & L2).
  destruct t0; [|discriminate]. rewrite !app_nil_r in E4.
  assert (C1 : (stream_packet_count z2 <= 1)%nat) by (apply count_le_one; left; lia).
  destruct (Nat.ltb_spec 1 (stream_packet_count z2)); [lia|]. rewrite E4 in Hz.
  destruct (stream_formats_first z2 t1 Lz2 Tz2) as (_ & t2 & E5 & L3).
  assert (C2 : (stream_packet_count (z2 ++ t1) <= 1)%nat).
  { apply count_le_one. destruct Hq as [Hq|Hq].
    - left. rewrite app_length. lia.
    - right. assert (Hw : wf_buf U32 (z1 ++ t)).
      { apply Forall_app. split; auto. repeat constructor. }
      destruct (stream_status_write s (z1 ++ t) Hw Hs) as (b' & F1 & _ & F2 & _).
      assert (Hb : b' = z2 ++ t1) by (rewrite E3 in F1; congruence). subst b'.
      rewrite (only_changes_bits _ _ _ (Seg 4 28 4) F2).
      + intros Hc. apply Hq. rewrite <- Hc. unfold bits. cbn [sg_w sg_lo sg_n].
        rewrite app_nth2 by (cbn; lia). reflexivity.
      + apply stripes_disjoint_from. intros i _. unfold seg_disjoint. cbn [sg_w sg_lo sg_n].
        replace (16 + 10 <=? 28) with true by reflexivity. now rewrite !orb_true_r. }
  destruct (Nat.ltb_spec 1 (stream_packet_count (z2 ++ t1))); [lia|]. rewrite E5. cbn [bind] in *.
  exists t2. split; [now apply initialise_app|]. congruence.
Qed.
