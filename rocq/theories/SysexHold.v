(** Lemmas: messages as the specification sees them, and the states on which the
    editing algorithm is proved correct. *)
From Coq Require Import NArith List String Bool Arith Lia ZifyBool ZifyNat ZifyN.
From Verif Require Import Base BitOps BitLemmas ListLemmas Helpers Message Sysex Splice
  ByteView SysexLayout SysexEdit SpliceLemmas SysexLaws SysexBytes SysexRead SpecSysex SysexBridge.
Import ListNotations.
Local Open Scope nat_scope.

Lemma in_stream_eq s v : in_stream s v <-> forall i, s = Some i -> v = i.
Proof. destruct s; cbn; split; auto; [intros -> i [= ->]; auto|discriminate]. Qed.

Lemma clean_of fm b : clean_bytes fm b <-> clean7 (fmt_of fm) b.
Proof.
  unfold clean_bytes, clean7. rewrite seven_of, pb_of. split; intros H E j Hj; specialize (H E j Hj);
    now rewrite byte_oct in *.
Qed.

Lemma capacity_of fm len : capacity (fmt_of fm) len = room_in fm len.
Proof. unfold capacity, room_in. now rewrite words_of, cap_of. Qed.

Lemma units_full fm b p :
  (units_in fm b p = packet_room fm /\ (size_bias fm <= size_nibble fm b p)%N)
  <-> (size_nibble fm b p = size_bias fm + N.of_nat (packet_room fm))%N.
Proof. unfold units_in. destruct fm; cbn; lia. Qed.

Lemma tidy_of fm b : tidy (fmt_of fm) b <->
  forall p, p < List.length b / packet_words fm -> type_of fm b p = type_code fm ->
     status_nibble fm b p = 1%N \/ status_nibble fm b p = 2%N ->
     units_in fm b p = packet_room fm /\ (size_bias fm <= size_nibble fm b p)%N.
Proof.
  unfold tidy. rewrite words_of. setoid_rewrite units_full.
  unfold type_of, status_nibble, size_nibble. setoid_rewrite byte_oct.
  rewrite pb_of, ext_of, cap_of, type_fmt. reflexivity.
Qed.

Lemma ids_of fm s b : ids (fmt_of fm) s b <->
  forall p, p < List.length b / packet_words fm -> fm = EightBit -> in_stream s (stream_of fm b p).
Proof.
  unfold ids. rewrite words_of, pb_of, eight_of. setoid_rewrite in_stream_eq.
  unfold stream_of. setoid_rewrite byte_oct. firstorder.
Qed.

(** Stream ids that a growing buffer keeps: new packets have id 0. *)
Definition kept (s : option N) : Prop := s = None \/ s = Some 0%N.

Lemma exact_div w k : 0 < w -> w * k / w = k.
Proof. intros. rewrite Nat.mul_comm. apply Nat.div_mul. lia. Qed.

Lemma words_pos fm : 0 < packet_words fm. Proof. destruct fm; cbn; lia. Qed.

Lemma message_inv fm g s l b cl : message fm g s l b -> kept s -> (cl = true -> clean_bytes fm b) ->
  holds (ump_inv (fmt_of fm) g s cl Growable 0) (rd (fmt_of fm)) l b /\ (g < 16)%N.
Proof.
  intros (k & C & Fu & Len) K Cl. destruct (carries_framed _ _ _ _ _ _ C Fu) as (FR & Kn & R).
  split; [|eapply carries_group_lt; eauto]. split; [|exact R].
  split; [exact FR|]. rewrite Kn in Len.
  split; [eapply framed_exact_tidy; eauto; now rewrite words_of|].
  split; [|split; [|split; [exact K|]]].
  - apply ids_of. intros p Hp E. apply (ca_stream _ _ _ _ _ _ C); auto.
    rewrite Len, exact_div in Hp by apply words_pos. lia.
  - intros Hc. apply clean_of; auto.
  - rewrite words_of, Len, Nat.mul_comm. apply Nat.mod_mul. pose proof (words_pos fm). lia.
Qed.

Lemma map_rd f b l : (forall i, i < List.length l -> rd f b i = nth i l 0%N) ->
  map (rd f b) (seq 0 (List.length l)) = l.
Proof.
  intros R. apply nth_ext with (d := rd f b 0) (d' := 0%N); rewrite map_length, seq_length; [reflexivity|].
  intros i Hi. rewrite map_nth, seq_nth by auto. now apply R.
Qed.

Lemma framed_message fm g s l b : (g < 16)%N -> framed (fmt_of fm) g (List.length l) b ->
  ids (fmt_of fm) s b -> (forall i, i < List.length l -> rd (fmt_of fm) b i = nth i l 0%N) ->
  carries fm (np (fmt_of fm) (List.length l)) g s l b
  /\ full_packets fm (np (fmt_of fm) (List.length l)) b.
Proof.
  intros Hg FR ID R. pose proof (np_le_packets _ _ _ _ (okf_of fm) FR) as HL. rewrite words_of in HL.
  destruct (framed_carries fm g s _ b Hg FR) as [C Fu].
  { intros E p Hp. rewrite <- byte_oct. eapply (proj1 (ids_of fm s b) ID); auto. lia. }
  rewrite map_rd in C by auto. auto.
Qed.

Lemma done_message fm g s l b cl : (g < 16)%N ->
  holds (ump_done (fmt_of fm) g s cl Growable 0) (rd (fmt_of fm)) l b ->
  message fm g s l b /\ (cl = true -> clean_bytes fm b).
Proof.
  intros Hg [[(FR & T & ID & CL & _) Len] R]. split.
  - destruct (framed_message fm g s l b Hg FR ID R) as [C Fu].
    exists (np (fmt_of fm) (List.length l)). rewrite words_of in Len. auto.
  - intros E. apply clean_of; auto.
Qed.

Lemma message_in_inv fm g s l b cl : message_in fm g s l b -> (cl = true -> clean_bytes fm b) ->
  holds (ump_inv (fmt_of fm) g s cl Fixed (List.length b)) (rd (fmt_of fm)) l b /\ (g < 16)%N.
Proof.
  intros [(k & C & Fu) Sc] Cl. destruct (carries_framed _ _ _ _ _ _ C Fu) as (FR & Kn & R).
  split; [|eapply carries_group_lt; eauto]. split; [|exact R].
  split; [exact FR|]. split; [|split; [|split; [|reflexivity]]].
  - apply tidy_of. intros p Hp. apply Sc; auto.
  - apply ids_of. intros p Hp. apply Sc; auto.
  - intros Hc. apply clean_of; auto.
Qed.

Lemma inv_message_in fm g s l b cl len : (g < 16)%N ->
  holds (ump_inv (fmt_of fm) g s cl Fixed len) (rd (fmt_of fm)) l b ->
  message_in fm g s l b /\ (cl = true -> clean_bytes fm b) /\ List.length b = len.
Proof.
  intros Hg [(FR & T & ID & CL & Len) R]. split; [|split; [intros E; apply clean_of; auto|exact Len]].
  split.
  - destruct (framed_message fm g s l b Hg FR ID R) as [C Fu]. eauto.
  - intros p Hp. split; [now apply (proj1 (tidy_of fm b) T)|]. now apply (proj1 (ids_of fm s b) ID).
Qed.

(** ** Byte-stream form *)

Lemma stream_bytes_nth l j : nth j (stream_bytes l) 0%N =
  if j =? 0 then 0xF0%N else if j <=? List.length l then nth (j - 1) l 0%N
  else if j =? List.length l + 1 then 0xF7%N else 0%N.
Proof.
  unfold stream_bytes. destruct j as [|j]; [reflexivity|]. cbn [nth].
  replace (S j - 1) with j by lia. destruct (Nat.eqb_spec (S j) 0); [lia|].
  destruct (Nat.leb_spec (S j) (List.length l)).
  - now rewrite app_nth1 by lia.
  - rewrite app_nth2 by lia. destruct (Nat.eqb_spec (S j) (List.length l + 1)).
    + replace (j - List.length l) with 0 by lia. reflexivity.
    + apply nth_overflow. cbn [List.length]. lia.
Qed.

Lemma stream_bytes_length l : List.length (stream_bytes l) = List.length l + 2.
Proof. unfold stream_bytes. cbn [List.length]. rewrite app_length. cbn. lia. Qed.

(** No payload byte is the end byte. *)
Definition no_end (l : list N) : Prop := Forall (fun v => v <> 0xF7%N) l.

Lemma septets_no_end l : Forall septet l -> no_end l.
Proof. apply Forall_impl. unfold septet. intros v Hv. lia. Qed.

Lemma stream_sealed l r : no_end l -> holds sealed rd_b l (stream_bytes l ++ r).
Proof.
  intros H. unfold no_end in H. rewrite Forall_forall in H. split; [constructor|].
  - rewrite app_length, stream_bytes_length. lia.
  - reflexivity.
  - rewrite app_nth1 by (rewrite stream_bytes_length; lia). rewrite stream_bytes_nth.
    destruct (Nat.eqb_spec (List.length l + 1) 0); [lia|]. destruct (Nat.leb_spec (List.length l + 1) (List.length l)); [lia|].
    now rewrite Nat.eqb_refl.
  - intros i Hi. rewrite app_nth1 by (rewrite stream_bytes_length; lia). rewrite stream_bytes_nth.
    destruct (Nat.eqb_spec (i + 1) 0); [lia|]. destruct (Nat.leb_spec (i + 1) (List.length l)); [|lia].
    replace (i + 1 - 1) with i by lia. apply H, nth_In, Hi.
  - intros i Hi. unfold rd_b. rewrite app_nth1 by (rewrite stream_bytes_length; lia).
    rewrite stream_bytes_nth. destruct (Nat.eqb_spec (i + 1) 0); [lia|].
    destruct (Nat.leb_spec (i + 1) (List.length l)); [|lia]. now replace (i + 1 - 1) with i by lia.
Qed.

Lemma sealed_stream l b : holds sealed rd_b l b ->
  b = stream_bytes l ++ skipn (List.length l + 2) b.
Proof.
  intros [[HL H0 H1 Hb] R]. rewrite <- (firstn_skipn (List.length l + 2) b) at 1. f_equal.
  apply nth_ext with (d := 0%N) (d' := 0%N).
  - rewrite firstn_length, stream_bytes_length. lia.
  - intros j Hj. rewrite firstn_length in Hj. rewrite nth_firstn. replace (j <? List.length l + 2) with true by lia. rewrite stream_bytes_nth.
    destruct (Nat.eqb_spec j 0) as [->|]; [exact H0|].
    destruct (Nat.leb_spec j (List.length l)).
    + replace j with (j - 1 + 1) at 1 by lia. apply R. lia.
    + destruct (Nat.eqb_spec j (List.length l + 1)) as [->|]; [exact H1|lia].
Qed.

Lemma stream_inv l : no_end l -> holds (bytes_inv Growable 0) rd_b l (stream_bytes l).
Proof.
  intros H. pose proof (stream_sealed l [] H) as S. rewrite app_nil_r in S. destruct S as [S R].
  split; [split; [exact S|apply stream_bytes_length]|exact R].
Qed.

Lemma done_stream l b : holds (bytes_done Growable 0) rd_b l b -> b = stream_bytes l.
Proof.
  intros [[S Len] R]. rewrite (sealed_stream l b) by (split; auto).
  rewrite skipn_all2 by lia. apply app_nil_r.
Qed.

(** ** The editing operations, generically *)
Section Generic.
  Context (o : ops) (I W : nat -> list N -> Prop) (rd : list N -> nat -> N)
    (okv : N -> Prop).

  Section Grow.
    Context (L : laws o I W rd okv None true).

    Lemma splice_grow b l src lo hi a e : holds I rd l b -> Forall okv (s_items src) ->
      begin_of lo = a -> end_of hi (List.length l) = e -> a <= e -> e <= List.length l ->
      exists b', splice o b src lo hi = Val b' /\ holds W rd (replaced l a e (s_items src)) b'.
    Proof.
      intros Hh Hv Ha He A B.
      destruct (splice_list o I W rd okv None true L b l src lo hi a e) as [(_ & b' & E & H & _)|(c & b' & E & _)];
        auto; [|discriminate].
      exists b'. split; [|exact H]. unfold splice. now rewrite E.
    Qed.

    Lemma insert_grow b l src i : holds I rd l b -> Forall okv (s_items src) -> i <= List.length l ->
      exists b', insert_payload o b src i = Val b' /\ holds W rd (replaced l i i (s_items src)) b'.
    Proof. intros. unfold insert_payload. apply splice_grow; auto. Qed.

    Lemma append_grow b l src : holds I rd l b -> Forall okv (s_items src) ->
      exists b', append_payload o b src = Val b' /\ holds W rd (l ++ s_items src) b'.
    Proof.
      intros H Hv. unfold append_payload. rewrite (l_size _ _ _ _ _ _ _ L _ _ (proj1 H)). cbn [bind].
      destruct (insert_grow b l src (List.length l) H Hv ltac:(lia)) as (b' & E & H').
      exists b'. split; [exact E|]. unfold replaced in H'.
      now rewrite firstn_all, skipn_all, app_nil_r in H'.
    Qed.

    Lemma append_byte_grow b l v : holds I rd l b -> okv v ->
      exists b', append_byte o b v = Val b' /\ holds W rd (l ++ [v]) b'.
    Proof. intros H Hv. unfold append_byte. apply (append_grow b l); auto. cbn. auto. Qed.

    Lemma set_grow b l src : holds I rd l b -> Forall okv (s_items src) ->
      exists b', set_payload o b src = Val b' /\ holds W rd (s_items src) b'.
    Proof.
      intros [H _] Hv. unfold set_payload.
      destruct (l_grow _ _ _ _ _ _ _ L _ b 0 H) as (b1 & E & I1 & _); [now left|exact Logic.I|].
      rewrite E. cbn [bind fst].
      destruct (insert_grow b1 [] src 0) as (b' & E' & H').
      - split; [exact I1|]. cbn. lia.
      - exact Hv.
      - cbn. lia.
      - exists b'. split; [exact E'|]. unfold replaced in H'. cbn [firstn skipn app] in H'.
        now rewrite app_nil_r in H'.
    Qed.
  End Grow.

  Section Fit.
    Context (c : nat) (shr : bool) (L : laws o I W rd okv (Some c) shr).

    (** The hint does not promise fewer items than come, or nothing is replaced. *)
    Definition hinted (src : source) (a e : nat) : Prop :=
      a = e \/ List.length (s_items src) <= estimate (s_hint src).

    Lemma splice_fit b l src lo hi a e : holds I rd l b -> Forall okv (s_items src) ->
      begin_of lo = a -> end_of hi (List.length l) = e -> a <= e -> e <= List.length l ->
      hinted src a e ->
      if List.length (replaced l a e (s_items src)) <=? c
      then exists b', try_splice o b src lo hi = Val (b', true) /\ holds W rd (replaced l a e (s_items src)) b'
           /\ (List.length (s_items src) = estimate (s_hint src) -> e - a <= List.length (s_items src) ->
               holds I rd (replaced l a e (s_items src)) b')
      else exists b', try_splice o b src lo hi = Val (b', false) /\ W 0 b'.
    Proof.
      intros Hh Hv Ha He A B Hint.
      assert (Hc : a = e \/ List.length (s_items src) <= estimate (s_hint src) \/ (Some c = None /\ shr = true))
        by (destruct Hint; auto).
      destruct (splice_list o I W rd okv (Some c) shr L b l src lo hi a e) as [(F & b' & E & H & HX)|(c' & b' & E & F & E' & H)]; auto.
      - cbn [fits_in] in F. fold (replaced l a e (s_items src)) in *.
        change (edited l a e (s_items src)) with (replaced l a e (s_items src)) in *.
        destruct (Nat.leb_spec (List.length (replaced l a e (s_items src))) c); [|lia].
        exists b'. split; [|split; [exact H|exact HX]]. unfold try_splice. now rewrite E.
      - injection E as <-. change (edited l a e (s_items src)) with (replaced l a e (s_items src)) in *.
        destruct (Nat.leb_spec (List.length (replaced l a e (s_items src))) c); [lia|].
        destruct (l_final _ _ _ _ _ _ _ L _ b' 0 H ltac:(cbn; lia)) as (b'' & E'' & H'' & _).
        exists b''. split; [|exact H'']. unfold try_splice. rewrite E'. cbn [bind]. now rewrite E''.
    Qed.
  End Fit.
End Generic.
