(** One leg of an 8-bit journey follows the view. *)
From Coq Require Import NArith List Bool Arith Lia ZifyBool String.
From Verif Require Import Base BitOps Values Props Message Sysex Splice Aggregate SpecSysex SpecEdits SysexClient
  SysexLayout SpliceLemmas SysexLaws SysexBridge SysexHold SysexInit SysexEdit SysexHistory SysexLoose CopyLemmas SpecJourney8 Journey8 PropertiesSysex.
Import ListNotations.
Local Open Scope nat_scope.

(** Edits of a growable buffer with something behind the message. *)
Lemma grow_behind fm e b g s l : message_in fm g s l b -> s = None \/ s = Some 0%N ->
  List.length b mod packet_words fm = 0 -> legal fm e l ->
  exists b', apply_edit fm e b = Val b' /\ message_in fm (new_group e g) s (new_payload e l) b'
    /\ (match e with SetByte _ _ | SetGroup _ => List.length b' = List.length b
        | _ => message fm g s (new_payload e l) b' end).
Proof.
  intros M K Hm Lg. pose proof (message_in_inv fm g s l b false M ltac:(discriminate)) as [H Hg].
  assert (HQ : holds (ump_inv (fmt_of fm) g s false Growable 0) (rd (fmt_of fm)) l b).
  { destruct H as [(A & B & C & D & _) R]. split; [|exact R]. split; [exact A|]. split; [exact B|]. split; [exact C|]. split; [exact D|].
    split; [exact K|]. now rewrite words_of. }
  pose proof (ump_laws_growable (fmt_of fm) g s false (okf_of fm) Hg) as L.
  assert (D : forall l' b', holds (ump_done (fmt_of fm) g s false Growable 0) (rd (fmt_of fm)) l' b' ->
    message_in fm g s l' b' /\ message fm g s l' b').
  { intros l' b' X. apply (done_message fm g s l' b' false Hg) in X. destruct X as [X _]. split; [now apply message_scrap|exact X]. }
  destruct e as [src|src lo hi|src j|src|v|v j|g']; cbn [apply_edit new_group new_payload legal] in *; rewrite ?fmt_for_of.
  - destruct (set_grow _ _ _ _ _ L b l src HQ (units_ok fm _ Lg)) as (b' & E & H').
    exists b'. split; [exact E|]. now apply D.
  - destruct Lg as (Hv & A & B).
    destruct (splice_grow _ _ _ _ _ L b l src lo hi _ _ HQ (units_ok fm _ Hv) eq_refl eq_refl A B) as (b' & E & H').
    exists b'. split; [exact E|]. now apply D.
  - destruct Lg as (Hv & A).
    destruct (insert_grow _ _ _ _ _ L b l src j HQ (units_ok fm _ Hv) A) as (b' & E & H').
    exists b'. split; [exact E|]. now apply D.
  - destruct (append_grow _ _ _ _ _ L b l src HQ (units_ok fm _ Lg)) as (b' & E & H').
    exists b'. split; [exact E|]. now apply D.
  - destruct (append_byte_grow _ _ _ _ _ L b l v HQ (proj2 (unit_ok_of fm _) Lg)) as (b' & E & H').
    exists b'. split; [exact E|]. now apply D.
  - pose proof (C22_fixed_edit fm (SetByte v j) b g s l M Lg Logic.I) as X. cbv zeta in X.
    destruct X as (b2 & E2 & L2 & M2 & _). cbn [try_edit apply_edit] in *. rewrite ?fmt_for_of in E2.
    destruct (set_byte (fmt_of fm) b v j) as [b1|] eqn:E; [|discriminate]. cbn [bind] in E2.
    injection E2 as -> Ef. cbn [new_payload new_group] in *. rewrite <- Ef in M2. eauto.
  - pose proof (C22_fixed_edit fm (SetGroup g') b g s l M Lg Logic.I) as X. cbv zeta in X.
    destruct X as (b2 & E2 & L2 & M2 & _). cbn [try_edit apply_edit] in *. rewrite ?fmt_for_of in E2.
    destruct (set_group (fmt_of fm) b g') as [b1|] eqn:E; [|discriminate]. cbn [bind] in E2.
    injection E2 as -> Ef. cbn [new_payload new_group] in *. rewrite <- Ef in M2. eauto.
Qed.

(** The client holds what the view says. *)
Definition shows8 (v : view8) (h : held8) : Prop :=
  k_array h = w_array v /\ List.length (k_buffer h) = w_length v /\
  message_in EightBit (w_group v) (Some 0%N) (w_payload v) (k_buffer h) /\ w_length v mod 4 = 0.

Lemma packets_of8 g s l b : message EightBit g s l b -> List.length b = words8 l.
Proof.
  intros (k & C & F & L). destruct (carries_framed _ _ _ _ _ _ C F) as (_ & E & _).
  unfold words8. rewrite needed_of. cbn [packet_words] in L. congruence.
Qed.
Lemma words8_whole l : words8 l mod 4 = 0.
Proof. unfold words8. rewrite Nat.mul_comm. apply Nat.mod_mul. lia. Qed.

Lemma leg_ok8 s v h : shows8 v h -> permitted8 s v ->
  exists h', take_step8 s h = Val (h', snd (travels8 s v)) /\ shows8 (fst (travels8 s v)) h'.
Proof.
  intros (Ha & Hl & M & E0) P. destruct h as [ha hb], v as [va vl l g].
  cbn [k_array k_buffer w_array w_length w_payload w_group] in *. subst ha. unfold take_step8.
  destruct s as [e| |n|n]; cbn [permitted8 travels8 k_array k_buffer w_array w_length w_payload w_group] in *.
  - destruct P as [Lg P]. destruct va.
    + pose proof (C22_fixed_edit EightBit e hb g (Some 0%N) l M Lg (P eq_refl)) as X. cbv zeta in X.
      destruct X as (b' & E & L' & M' & _). rewrite E. cbn [bind fst snd]. unfold fixed_outcome. rewrite <- Hl.
      destruct (_ <=? _); cbn [fst snd]; (eexists; split; [reflexivity|]; split; [reflexivity|];
        unfold holding; cbn [k_array k_buffer w_array w_length w_payload w_group]; split; [congruence|]; split; [exact M'|congruence]).
    + destruct (grow_behind EightBit e hb g (Some 0%N) l M ltac:(now right)) as (b' & E & M' & X); [cbn [packet_words]; congruence|exact Lg|].
      rewrite E. cbn [bind fst snd]. eexists. split; [reflexivity|]. split; [reflexivity|].
      unfold holding; cbn [k_array k_buffer w_array w_length w_payload w_group].
      assert (Y : List.length b' = match e with SetByte _ _ | SetGroup _ => vl | _ => words8 (new_payload e l) end).
      { destruct e; try (eapply packets_of8; exact X); congruence. }
      split; [exact Y|]. split; [exact M'|]. destruct e; try exact E0; apply words8_whole.
  - eexists. split; [reflexivity|]. unfold shows8, moved8, holding, rebuffer_vec; cbn [fst k_array k_buffer w_array w_length w_payload w_group]. auto.
  - unfold try_rebuffer_array. rewrite Hl, Nat.leb_antisym. destruct (Nat.ltb_spec n vl); cbn [negb fst snd].
    + eexists. split; [reflexivity|]. unfold shows8; cbn [k_array k_buffer w_array w_length w_payload w_group]. auto.
    + eexists. split; [reflexivity|]. unfold shows8, moved8, holding; cbn [k_array k_buffer w_array w_length w_payload w_group].
      split; [reflexivity|]. split; [rewrite app_length, repeat_length; lia|]. split; [|exact P].
      apply message_in_pad; [reflexivity|cbn [packet_words]; congruence|exact M].
  - destruct P as [Pn Pm]. unfold agg_array_rebuffer, agg_data. cbn [fst snd concrete_data].
    destruct (message_in_reads _ _ _ _ _ M) as ((d & D & Md & _) & _). cbn [fmt_of] in D. rewrite D. cbn [bind].
    pose proof (packets_of8 _ _ _ _ Md) as Ld. destruct (Nat.ltb_spec n (List.length d)); [lia|]. cbn [bind snd].
    eexists. split; [reflexivity|]. unfold shows8, moved8, holding; cbn [k_array k_buffer w_array w_length w_payload w_group].
    split; [reflexivity|]. split; [rewrite app_length, repeat_length; lia|]. split; [|exact Pm].
    apply message_in_pad; [reflexivity| |now apply message_scrap]. cbn [packet_words]. rewrite Ld. apply words8_whole.
Qed.

Lemma journey_ok8 ss v h : shows8 v h -> all_permitted8 ss v ->
  exists h', journey8 ss h = Val (h', snd (itinerary8 ss v)) /\ shows8 (fst (itinerary8 ss v)) h'.
Proof.
  revert v h. induction ss as [|s t IH]; intros v h H P; cbn [journey8 itinerary8 all_permitted8] in *.
  - exists h. auto.
  - destruct P as [P0 P]. destruct (leg_ok8 s v h H P0) as (h1 & E & H1). rewrite E. cbn [bind fst snd].
    destruct (travels8 s v) as [v' ok]. cbn [fst snd] in *. destruct (IH v' h1 H1 P) as (h2 & E2 & H2).
    rewrite E2. cbn [bind fst snd]. destruct (itinerary8 t v') as [v'' oks]. cbn [fst snd] in *. eauto.
Qed.

Lemma start_ok8 a : (forall n, a = Some n -> 4 <= n /\ n mod 4 = 0) ->
  exists h, set_out8 a = Val (Ok h) /\ shows8 (start8 a) h.
Proof.
  intros Hn. destruct a as [n|]; unfold set_out8.
  - destruct (Hn n eq_refl) as [H4 Hm]. pose proof (try_new_fresh EightBit n) as T. cbn [packet_words fmt_of] in T.
    destruct (Nat.ltb_spec n 4); [lia|]. destruct T as (b & E & L & M & _). rewrite E. cbn [bind].
    eexists. split; [reflexivity|]. split; [reflexivity|]. split; [exact L|]. split; [exact M|exact Hm].
  - pose proof (SysexInit.new_fresh EightBit) as E. cbn [fmt_of] in E. rewrite E. cbn [bind]. eexists. split; [reflexivity|].
    split; [reflexivity|]. split; [reflexivity|]. split; [|reflexivity]. apply message_scrap, (fresh_message EightBit).
Qed.
