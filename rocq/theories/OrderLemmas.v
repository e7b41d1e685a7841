(** What a setter writes into the bits of its field depends on nothing but these bits and the value. *)
From Coq Require Import NArith List String Bool Arith Lia ZifyBool ZifyNat ZifyN.
From Verif Require Import Base BitOps Values Schema Helpers Props Message MessageTable SpecLayout SpecFixed SpecRebuild SpecOrder
  BitLemmas ListLemmas PropLemmas PropWrite PropValidate Stripes MessageLemmas InitLemmas FixedLemmas ConvertLemmas RebuildLemmas.
Import ListNotations.
Local Open Scope string_scope.
Local Open Scope N_scope.
Local Open Scope list_scope.

Definition agree (w : wire) (a b : list N) : Prop := forall s, In s (occupies w) -> bits a s = bits b s.

Lemma set_attribute_bits m f t d b v b' : In m all_messages -> settable_field U32 m f (Attribute t d) -> holds U32 m b -> storable m f v ->
  set U32 m b f v = Val b' -> v = VAttr None -> bits b' d = bits b d.
Proof.
  intros Hm Hf Hh Hv E ->. destruct (facts_of_layout U32 m f _ Hm (proj1 Hf)) as (p & F).
  destruct (attribute_wire U32 p t d (ff_wire _ _ _ _ _ F)) as (_ & -> & -> & ->).
  unfold set in E. rewrite (ff_field _ _ _ _ _ F) in E. apply (write_attribute_none b b'); auto; [apply Hh|].
  pose proof (holds_wire_in U32 m b f _ Hm (proj1 Hf) Hh) as Hw. unfold wire_in in Hw. cbn [occupies forallb sg_w] in Hw. lia.
Qed.

(** Two results of setting the same field to the same value. *)
Lemma set_local u m f w v a b a' b' : In m all_messages -> settable_field u m f w -> holds u m a -> holds u m b -> storable m f v ->
  set u m a f v = Val a' -> set u m b f v = Val b' -> (v = VAttr None -> agree w a b) -> agree w a' b'.
Proof.
  intros Hm Hf Ha Hb Hv Ea Eb Ag s Hs.
  destruct (set_ok u m a f w v Hm Hf Ha Hv) as (a1 & Ea1 & _ & _ & Da). assert (a1 = a') by congruence. subst a1.
  destruct (set_ok u m b f w v Hm Hf Hb Hv) as (b1 & Eb1 & _ & _ & Db). assert (b1 = b') by congruence. subst b1.
  destruct (field_type_wire u m f w Hm (proj1 Hf)) as [_ Hsh].
  destruct (is_attribute w) eqn:At.
  - destruct w as [ | | | | |t d| | | | | | ]; try discriminate At.
    destruct (facts_of_layout u m f _ Hm (proj1 Hf)) as (p & F). destruct (attribute_wire u p t d (ff_wire _ _ _ _ _ F)) as (-> & _ & _ & _).
    cbn [decode] in Da, Db. apply assoc_attribute in Da, Db. cbn [occupies In] in Hs.
    assert (X : v = VAttr None -> bits a' d = bits b' d).
    { intros N. rewrite (set_attribute_bits m f t d a v a' Hm Hf Ha Hv Ea N), (set_attribute_bits m f t d b v b' Hm Hf Hb Hv Eb N).
      apply (Ag N). cbn. auto. }
    destruct Da as [(A1 & A2)|[(A1 & A2)|[(A1 & A2)|(A1 & A2)]]];
    destruct Db as [(B1 & B2)|[(B1 & B2)|[(B1 & B2)|(B1 & B2)]]]; subst v; try discriminate;
    destruct Hs as [<-|[<-|[]]]; try congruence. now apply X.
  - apply (tidy_inj w); auto.
    + exact (flag_shape_of u m f w Hm (proj1 Hf)).
    + congruence.
    + congruence.
    + exact (set_tidy u m a f w v a' Hm Hf Ha Hv Ea At).
    + exact (set_tidy u m b f w v b' Hm Hf Hb Hv Eb At).
Qed.

Lemma agree_refl w a : agree w a a.
Proof. intros s _. reflexivity. Qed.
Lemma agree_trans w a b c : agree w a b -> agree w b c -> agree w a c.
Proof. intros H1 H2 s Hs. rewrite H1, H2; auto. Qed.
Lemma agree_sym w a b : agree w a b -> agree w b a.
Proof. intros H s Hs. rewrite H; auto. Qed.

Lemma set_elsewhere u m f w g x v b b' : In m all_messages -> settable_field u m f w -> settable_field u m g x -> f <> g ->
  holds u m b -> storable m f v -> set u m b f v = Val b' -> agree x b' b.
Proof.
  intros Hm Hf Hg Hne Hh Hv E. destruct (set_ok u m b f w v Hm Hf Hh Hv) as (b1 & E1 & Hc & _). assert (b1 = b') by congruence. subst b1.
  destruct (facts_of_layout u m g x Hm (proj1 Hg)) as (q & G). pose proof (ff_disjoint _ _ _ _ _ G f w (proj1 Hf)) as Hd. specialize (Hd ltac:(congruence)).
  intros s Hs. apply (only_changes_bits _ _ _ _ Hc). unfold all_disjoint in Hd. rewrite forallb_forall in Hd. now apply Hd.
Qed.

Lemma legal_calls u m f h : legal u m h -> legal u m (calls_of f h).
Proof. unfold legal. intros H. apply Forall_forall. intros c Hc. apply filter_In in Hc. rewrite Forall_forall in H. now apply H. Qed.
Lemma legal_same u m h h' : legal u m h -> same_calls h h' -> legal u m h'.
Proof.
  intros H S. apply Forall_forall. intros [f v] Hc. assert (I : In (f, v) (calls_of f h')).
  { apply filter_In. split; auto. cbn. apply String.eqb_refl. }
  rewrite <- (S f) in I. apply filter_In in I. unfold legal in H. rewrite Forall_forall in H. now apply H.
Qed.

(** Only the calls of a field's own setter matter for its bits. *)
Lemma run_own u m g x : In m all_messages -> settable_field u m g x -> forall h a b a' b', legal u m h -> holds u m a -> holds u m b ->
  agree x a b -> run_sets u m a h = Val a' -> run_sets u m b (calls_of g h) = Val b' -> agree x a' b'.
Proof.
  intros Hm Hg. induction h as [|[f v] h IH]; intros a b a' b' Hl Ha Hb Ag Ea Eb; cbn [run_sets calls_of filter fst] in Ea, Eb.
  - injection Ea as <-. injection Eb as <-. exact Ag.
  - inversion Hl as [|? ? [(w & Hf) Hv] Hl']; subst. cbn [fst snd] in *.
    destruct (set_ok u m a f w v Hm Hf Ha Hv) as (a1 & E1 & _ & Ha1 & _). rewrite E1 in Ea. cbn [bind] in Ea.
    destruct (String.eqb_spec f g) as [->|Hne].
    + assert (w = x) by (eapply layout_unique; [exact Hm|apply Hf|apply Hg]). subst w. cbn [run_sets] in Eb.
      destruct (set_ok u m b g x v Hm Hf Hb Hv) as (b1 & E2 & _ & Hb1 & _). rewrite E2 in Eb. cbn [bind] in Eb.
      apply (IH a1 b1 a' b' Hl' Ha1 Hb1); auto. eapply (set_local u m g x v a b); eauto.
    + apply (IH a1 b a' b' Hl' Ha1 Hb); auto. eapply agree_trans; [|exact Ag]. exact (set_elsewhere u m f w g x v a a1 Hm Hf Hg Hne Ha Hv E1).
Qed.

(** Results of histories on one buffer that agree on every settable field are the same. *)
Lemma run_same u m h h' b c c' : In m all_messages -> holds u m b -> legal u m h -> legal u m h' ->
  run_sets u m b h = Val c -> run_sets u m b h' = Val c' -> (forall g x, settable_field u m g x -> agree x c c') -> c = c'.
Proof.
  intros Hm Hb Hl Hl' E E' Ag.
  destruct (run_sets_ok u m h Hm Hl b Hb) as (c1 & E1 & Hc & L1 & _ & _ & _ & O1). assert (c1 = c) by congruence. subst c1.
  destruct (run_sets_ok u m h' Hm Hl' b Hb) as (c2 & E2 & Hc' & L2 & _ & _ & _ & O2). assert (c2 = c') by congruence. subst c2.
  set (segs := flat_map (fun fw => if settable (snd fw) then occupies (snd fw) else []) (layout u (m_name m))).
  assert (Cov : forall g w, settable_field u m g w -> incl (occupies w) segs).
  { intros g w [H1 H2] s Hs. unfold segs. apply in_flat_map. exists (g, w). cbn [snd]. rewrite H2. auto. }
  specialize (O1 segs Cov). specialize (O2 segs Cov).
  apply nth_ext with (d := 0) (d' := 0); [congruence|]. intros i _. apply N.bits_inj. intros j.
  destruct (seg_or_not segs i j) as [(s & Hsg & Hin)|Hn].
  - unfold segs in Hsg. apply in_flat_map in Hsg. destruct Hsg as ([g x] & H1 & H2). cbn [snd] in H2.
    destruct (settable x) eqn:Sx; [|destruct H2]. rewrite !(testbit_of_bits _ s i j Hin). f_equal. apply (Ag g x); [split; auto|exact H2].
  - rewrite (proj2 O1 i j), (proj2 O2 i j); auto.
Qed.

(** The bits of a field after a history whose last call of its setter is known. *)
Lemma run_last u m g x : In m all_messages -> settable_field u m g x -> forall h b c, legal u m h -> holds u m b ->
  run_sets u m b h = Val c ->
  match last_set g h with
  | None => agree x c b
  | Some v => exists a, holds u m a /\ (v = VAttr None -> (forall y, ~ In (g, VAttr (Some y)) h) -> is_attribute x = true -> agree x a b \/ bits a match x with Attribute _ d => d | _ => Seg 0 0 0 end = bits b match x with Attribute _ d => d | _ => Seg 0 0 0 end)
      /\ exists a', set u m a g v = Val a' /\ storable m g v /\ agree x c a'
  end.
Proof.
  intros Hm Hg. induction h as [|[f v] h IH]; intros b c Hl Hb E; cbn [run_sets] in E.
  - cbn [last_set]. injection E as <-. apply agree_refl.
  - inversion Hl as [|? ? [(w & Hf) Hv] Hl']; subst. cbn [fst snd] in *.
    destruct (set_ok u m b f w v Hm Hf Hb Hv) as (b1 & E1 & _ & Hb1 & Hd1). rewrite E1 in E. cbn [bind] in E.
    specialize (IH b1 c Hl' Hb1 E). cbn [last_set]. destruct (last_set g h) as [y|].
    + destruct IH as (a & Ha & Hn & a' & Ea & Hs & Ag). exists a. split; [exact Ha|]. split; [|eauto].
      intros Hy Hno At. destruct (String.eqb_spec f g) as [->|Hne].
      * assert (w = x) by (eapply layout_unique; [exact Hm|apply Hf|apply Hg]). subst w.
        destruct x as [ | | | | |t d| | | | | | ]; try discriminate At.
        destruct (facts_of_layout u m g _ Hm (proj1 Hf)) as (p & F). destruct (attribute_wire u p t d (ff_wire _ _ _ _ _ F)) as (-> & _ & _ & _).
        assert (v = VAttr None).
        { cbn [decode] in Hd1. apply assoc_attribute in Hd1.
          destruct Hd1 as [[_ ->]|[[_ ->]|[[_ ->]|[_ ->]]]]; auto; exfalso; eapply Hno; left; reflexivity. }
        pose proof (set_attribute_bits m g t d b v b1 Hm Hf Hb Hv E1 H) as B.
        right. destruct (Hn Hy (fun q I => Hno q (or_intror I)) At) as [Ab|Bb]; [rewrite (Ab d) by (cbn; auto)|rewrite Bb]; exact B.
      * destruct (Hn Hy (fun q I => Hno q (or_intror I)) At) as [Ab|Bb].
        { left. eapply agree_trans; [exact Ab|]. exact (set_elsewhere u m f w g x v b b1 Hm Hf Hg Hne Hb Hv E1). }
        { right. rewrite Bb. pose proof (set_elsewhere u m f w g x v b b1 Hm Hf Hg Hne Hb Hv E1) as S.
          destruct x; try discriminate At. apply S. cbn. auto. }
    + destruct (String.eqb_spec f g) as [->|Hne].
      * assert (w = x) by (eapply layout_unique; [exact Hm|apply Hf|apply Hg]). subst w.
        exists b. split; [exact Hb|]. split; [left; apply agree_refl|]. exists b1. auto.
      * eapply agree_trans; [exact IH|]. exact (set_elsewhere u m f w g x v b b1 Hm Hf Hg Hne Hb Hv E1).
Qed.
