(** Changed bits of fixed-size messages. *)
From Coq Require Import NArith List String Bool Arith Lia ZifyBool ZifyNat ZifyN.
From Verif Require Import Base BitOps Values Schema Helpers Props Message MessageTable SpecLayout SpecFixed SpecDamage
  BitLemmas ListLemmas PropLemmas PropWrite PropValidate Stripes MessageLemmas InitLemmas FixedLemmas ConvertLemmas
  RebuildLemmas Aggregate SpecAggregate AggregateLemmas SpecErrors ErrorAggregate.
Import ListNotations.
Local Open Scope string_scope.
Local Open Scope N_scope.
Local Open Scope list_scope.

Lemma bits_ext a b s : (forall j, sg_lo s <= j < sg_lo s + sg_n s -> N.testbit (nth (sg_w s) a 0) j = N.testbit (nth (sg_w s) b 0) j) ->
  bits a s = bits b s.
Proof.
  intros H. apply N.bits_inj. intros i. unfold bits. rewrite !testbit_field. destruct (N.ltb_spec i (sg_n s)) as [L|L]; cbn [andb]; [|reflexivity].
  apply H. lia.
Qed.

Lemma alike_decode u m f x b b' : In m all_messages -> In (f, x) (layout u (m_name m)) -> alike_in_fields u m b b' -> decode x b' = decode x b.
Proof.
  intros Hm Hf [_ H]. destruct (facts_of_layout u m f x Hm Hf) as (p & F). apply (decode_agree u); [apply F|].
  intros s Hs. apply bits_ext. intros j Hj. apply (H f x s); auto. split; auto.
Qed.

Lemma meaningful_alike u m b b' : In m all_messages -> alike_in_fields u m b b' -> meaningful u m b <-> meaningful u m b'.
Proof.
  intros Hm H. unfold meaningful. split; intros M f w Hf; specialize (M f w Hf); now rewrite (alike_decode u m f w b b') in *.
Qed.

Lemma only_differs segs b b' : only_changes segs b b' -> b' <> b -> exists s, In s segs /\ bits b' s <> bits b s.
Proof.
  intros [L H] N.
  destruct (Forall_dec (fun s => bits b' s = bits b s) (fun s => N.eq_dec (bits b' s) (bits b s)) segs) as [F|F].
  - elim N. apply (nth_ext _ _ 0 0 L). intros w _. apply N.bits_inj. intros j. rewrite Forall_forall in F.
    destruct (existsb (fun s => Nat.eqb w (sg_w s) && (sg_lo s <=? j) && (j <? sg_lo s + sg_n s)) segs) eqn:G.
    + apply existsb_exists in G as (s & Hs & G). specialize (F s Hs). assert (I : in_seg s w j) by (unfold in_seg; lia).
      rewrite (testbit_of_bits b' s w j I), (testbit_of_bits b s w j I). now rewrite F.
    + apply H. intros s Hs I. assert (X : existsb (fun s => Nat.eqb w (sg_w s) && (sg_lo s <=? j) && (j <? sg_lo s + sg_n s)) segs = true); [|congruence].
      apply existsb_exists. exists s. split; [exact Hs|]. unfold in_seg in I. lia.
  - apply neg_Forall_Exists_neg in F; [|intros s; apply N.eq_dec]. now apply Exists_exists in F.
Qed.

(** A field all of whose bits matter reads otherwise when one of them is changed. *)
Lemma exact_differs u m f x b b' : In m all_messages -> In (f, x) (layout u (m_name m)) -> exact x = true ->
  (exists s, In s (occupies x) /\ bits b' s <> bits b s) -> decode x b' <> decode x b.
Proof.
  intros Hm Hf He (s & Hs & Hd) E. destruct (field_type_wire u m f x Hm Hf) as [_ Hsh]. apply Hd. symmetry.
  destruct x; try discriminate He; cbn [decode occupies wire_shape] in *.
  - destruct Hs as [<-|[]]. congruence.
  - destruct Hs as [<-|[]].
    assert (Z : sg_n s0 = 1) by (apply N.eqb_eq; exact (flag_shape_of u m f _ Hm Hf)).
    pose proof (bits_lt b s0) as L. pose proof (bits_lt b' s0) as L'. rewrite Z in L, L'. change (2 ^ 1) with 2 in *.
    injection E as E. lia.
  - apply andb_prop in Hsh as [H1 H2]. apply N.eqb_eq in H1, H2. injection E as E.
    pose proof (bits_lt b lsb) as La. pose proof (bits_lt b' lsb) as Lb. rewrite H1 in La, Lb.
    symmetry in E. apply septets_eq in E as [E1 E2]; auto. destruct Hs as [<-|[<-|[]]]; auto.
  - injection E as E. symmetry in E. exact (proj1 map_ext_in_iff E s Hs).
Qed.

(** ** Which type a slice is taken for *)

Lemma claims_of u m b : u = U32 -> meaningful u m b -> claims (CFixed m) b.
Proof.
  intros -> M f s v Hin _. specialize (M f _ Hin). cbn [decode] in M. destruct (N.eqb_spec (bits b s) v); [assumption|easy].
Qed.

(** A slice with the family and the status of [m] is accepted as [m] or not at all. *)
Lemma taken_for b c d m : In (CFixed m) ump_types -> ump_family (bits b (Seg 0 28 4)) = ump_family (bits d (Seg 0 28 4)) ->
  accepted U32 (CFixed m) d -> claims (CFixed m) b -> b <> [] ->
  forall a, ump_try_from b = Val (Ok (c, a)) -> c = CFixed m.
Proof.
  intros T F A C Hb a E. destruct b as [|x b]; [easy|]. rewrite ump_by_family in E.
  apply in_flat_map in T as (f & _ & T). rewrite (accepted_family f _ d T A) in F. rewrite F in E.
  rewrite family_dispatch in E. destruct (meant f x b) as [(S & H)|(c1 & S & H1 & _ & H2)]; rewrite S in E.
  - discriminate.
  - apply wrap_ok in E as [-> _]. destruct (H2 _ T) as [->|H3]; [reflexivity|easy].
Qed.
