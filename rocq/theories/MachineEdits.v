(** Lemmas on machine arithmetic: the client calls. *)
From Coq Require Import NArith List String Bool Arith Lia ZifyBool.
From Verif Require Import Base BitOps ByteView Schema Props Helpers Message Machine Sysex Splice SpecSysex SpecEdits SpecMachine SysexClient
  MachineSysex MachineLemmas MachineOps MachineSplice MachineClient.
Import ListNotations.
Local Open Scope list_scope.
Local Open Scope nat_scope.

Lemma std_for fm : std (fmt_for fm).
Proof. destruct fm; [now left|now right]. Qed.

Lemma end_le hi n : end_of hi n <= position hi + n + 1.
Proof. destruct hi; cbn [end_of position]; lia. Qed.
Lemma begin_le lo : begin_of lo <= position lo + 1.
Proof. destruct lo; cbn [begin_of position]; lia. Qed.

Section Calls.
  Context (bd : build) (o om : ops).

  (** All four ways of editing with an iterator, on operations that agree. *)
  Lemma splice_call size b src lo hi : agree size o om -> 16 * size + 64 <= usize_values bd ->
    28 * List.length b + 4 * items_and_hint src + position lo + position hi + 16 <= size ->
    refines (splice o b src lo hi) (splice_m bd om b src lo hi)
    /\ refines (try_splice o b src lo hi) (try_splice_m bd om b src lo hi).
  Proof.
    intros A R Z. assert (H : forall n, n <= 8 * List.length b -> begin_of lo + end_of hi n + 20 * List.length b + estimate (s_hint src)
       + 4 * List.length (s_items src) + 8 <= size).
    { intros n N. pose proof (end_le hi n). pose proof (begin_le lo). unfold items_and_hint, announced in Z. unfold estimate.
      destruct (s_hint src) as [x [y|]]; lia. }
    split; [now apply (splice_refines bd size o om A R)|now apply (try_splice_refines bd size o om A R)].
  Qed.

  Lemma insert_call size b src i : agree size o om -> 16 * size + 64 <= usize_values bd ->
    28 * List.length b + 4 * items_and_hint src + 2 * i + 16 <= size ->
    refines (insert_payload o b src i) (insert_payload_m bd om b src i)
    /\ refines (try_insert_payload o b src i) (try_insert_payload_m bd om b src i).
  Proof. intros A R Z. apply (splice_call size); [exact A|exact R|]. cbn [position]. lia. Qed.

  Lemma append_call size b src : agree size o om -> 16 * size + 64 <= usize_values bd ->
    44 * List.length b + 4 * items_and_hint src + 16 <= size ->
    refines (append_payload o b src) (append_payload_m bd om b src)
    /\ refines (try_append_payload o b src) (try_append_payload_m bd om b src).
  Proof.
    intros A R Z. split; (apply refines_bind; [apply (a_size _ _ _ A); lia|]); intros n N; apply (a_size_le _ _ _ A) in N;
      apply (insert_call size); try assumption; lia.
  Qed.

  Lemma set_call size b src : agree size o om -> 16 * size + 64 <= usize_values bd ->
    28 * (List.length b + 4) + 4 * items_and_hint src + 16 <= size ->
    refines (set_payload o b src) (set_payload_m bd om b src)
    /\ refines (try_set_payload o b src) (try_set_payload_m bd om b src).
  Proof.
    intros A R Z. split; (apply refines_bind; [apply (a_resize _ _ _ A); lia|]); intros [b1 q] Q; cbn [fst].
    - assert (List.length b1 <= List.length b + 4).
      { destruct q as [sz|]; [destruct (a_fail _ _ _ A _ _ _ _ Q) as (L & _); lia|]. pose proof (a_resize_len _ _ _ A _ _ _ Q). lia. }
      apply (insert_call size); try assumption; lia.
    - destruct q as [sz|]; [apply refines_refl|]. pose proof (a_resize_len _ _ _ A _ _ _ Q). apply (insert_call size); try assumption; lia.
  Qed.
End Calls.

(** The size up to which the operations must agree for an edit. *)
Definition span (len : nat) (e : edit) : nat := 44 * (len + 4) + 4 * asked e + 16.
Lemma fits_span bd len e : fits_machine bd len e -> 16 * span len e + 64 <= usize_values bd.
Proof. unfold fits_machine, span. lia. Qed.

Lemma apply_edit_refines bd fm e b : fits_machine bd (List.length b) e -> refines (apply_edit fm e b) (apply_edit_m bd fm e b).
Proof.
  intros H. pose proof (fits_span _ _ _ H) as R.
  pose proof (ump_agree bd (fmt_for fm) Growable _ (std_for fm) (or_introl eq_refl) R) as A.
  unfold apply_edit, apply_edit_m. cbv zeta. unfold span in *.
  destruct e as [src|src lo hi|src i|src|v|v i|g]; cbn [asked] in *.
  - apply (set_call bd _ _ _ _ _ A R). lia.
  - apply (splice_call bd _ _ _ _ _ _ _ A R). lia.
  - apply (insert_call bd _ _ _ _ _ _ A R). lia.
  - apply (append_call bd _ _ _ _ _ A R). lia.
  - unfold append_byte, append_byte_m. apply (append_call bd _ _ _ _ _ A R). cbn. lia.
  - apply set_byte_refines; [apply std_for|lia].
  - apply refines_refl.
Qed.
Lemma apply_edit_b_refines bd e b : fits_machine bd (List.length b) e -> refines (apply_edit_b e b) (apply_edit_b_m bd e b).
Proof.
  intros H. pose proof (fits_span _ _ _ H) as R.
  pose proof (bytes_agree bd Growable _ (or_introl eq_refl) R) as A.
  unfold apply_edit_b, apply_edit_b_m. cbv zeta. unfold span in *.
  destruct e as [src|src lo hi|src i|src|v|v i|g]; cbn [asked] in *.
  - apply (set_call bd _ _ _ _ _ A R). lia.
  - apply (splice_call bd _ _ _ _ _ _ _ A R). lia.
  - apply (insert_call bd _ _ _ _ _ _ A R). lia.
  - apply (append_call bd _ _ _ _ _ A R). lia.
  - unfold append_byte, append_byte_m. apply (append_call bd _ _ _ _ _ A R). cbn. lia.
  - apply set_byte_b_refines. lia.
  - apply refines_refl.
Qed.
Lemma try_edit_refines bd fm e b : fits_machine bd (List.length b) e -> refines (try_edit fm e b) (try_edit_m bd fm e b).
Proof.
  intros H. pose proof (fits_span _ _ _ H) as R.
  pose proof (ump_agree bd (fmt_for fm) Fixed _ (std_for fm) (or_intror eq_refl) R) as A.
  unfold try_edit, try_edit_m. cbv zeta. unfold span in *.
  destruct e as [src|src lo hi|src i|src|v|v i|g]; cbn [asked] in *.
  - apply (set_call bd _ _ _ _ _ A R). lia.
  - apply (splice_call bd _ _ _ _ _ _ _ A R). lia.
  - apply (insert_call bd _ _ _ _ _ _ A R). lia.
  - apply (append_call bd _ _ _ _ _ A R). lia.
  - unfold try_append_byte, try_append_byte_m. apply (append_call bd _ _ _ _ _ A R). cbn. lia.
  - apply refines_bind; [apply set_byte_refines; [apply std_for|lia]|]. intros. apply refines_refl.
  - apply refines_refl.
Qed.
Lemma try_edit_b_refines bd e b : fits_machine bd (List.length b) e -> refines (try_edit_b e b) (try_edit_b_m bd e b).
Proof.
  intros H. pose proof (fits_span _ _ _ H) as R.
  pose proof (bytes_agree bd Fixed _ (or_intror eq_refl) R) as A.
  unfold try_edit_b, try_edit_b_m. cbv zeta. unfold span in *.
  destruct e as [src|src lo hi|src i|src|v|v i|g]; cbn [asked] in *.
  - apply (set_call bd _ _ _ _ _ A R). lia.
  - apply (splice_call bd _ _ _ _ _ _ _ A R). lia.
  - apply (insert_call bd _ _ _ _ _ _ A R). lia.
  - apply (append_call bd _ _ _ _ _ A R). lia.
  - unfold try_append_byte, try_append_byte_m. apply (append_call bd _ _ _ _ _ A R). cbn. lia.
  - apply refines_bind; [apply set_byte_b_refines; lia|]. intros. apply refines_refl.
  - apply refines_refl.
Qed.

(** Iterators keep their data. *)
Lemma advance_data f it it' : it_advance f it = Val it' -> it_data it' = it_data it.
Proof.
  unfold it_advance. cbv zeta. intros E. destruct (bind_val _ _ _ E) as (s & _ & E1). destruct (f_seven f).
  - unfold it_skip in E1. apply skip_data in E1. exact E1.
  - injection E1 as <-. reflexivity.
Qed.
Lemma next_data f it r : it_next f it = Val r -> it_data (snd r) = it_data it.
Proof.
  unfold it_next. destruct (it_left it =? 0); [intros [= <-]; reflexivity|]. intros E. destruct (bind_val _ _ _ E) as (i1 & S & E1).
  destruct (bind_val _ _ _ E1) as (v & _ & E2). destruct (bind_val _ _ _ E2) as (i2 & A & E3). injection E3 as <-. cbn [snd].
  apply advance_data in A. apply skip_data in S. congruence.
Qed.
Lemma nth_data f it n r : it_nth f it n = Val r -> it_data (snd r) = it_data it.
Proof.
  unfold it_nth. destruct (_ <? _); [discriminate|]. destruct (chunks_exact _ _) as [|c rest]; [intros [= <-]; reflexivity|]. intros E.
  destruct (bind_val _ _ _ E) as (s & _ & E1). destruct (bind_val _ _ _ E1) as (rem & _ & E2). destruct (n <? rem).
  - destruct (bind_val _ _ _ E2) as (l & _ & E3). destruct (bind_val _ _ _ E3) as ([v i1] & N & E4). apply next_data in N. cbn [snd it_data] in N.
    destruct v; injection E4 as <-; exact N.
  - destruct (bind_val _ _ _ E2) as (l & _ & E3). destruct (bind_val _ _ _ E3) as (q & Q & E4). destruct q as [i1|]; [|injection E4 as <-; reflexivity].
    apply nth_loop_data in Q. cbn [it_data] in Q. destruct (bind_val _ _ _ E4) as ([v i2] & N & E5). apply next_data in N. cbn [snd] in N.
    destruct v; injection E5 as <-; cbn [snd it_exhausted it_data]; congruence.
Qed.
Lemma run_calls_refines bd f cs : std f -> forall it, roomy bd it -> refines (run_calls f cs it) (run_calls_m bd f cs it).
Proof.
  intros F. induction cs as [|c cs IH]; intros it R; cbn [run_calls run_calls_m]; [apply refines_refl|].
  apply refines_bind; [destruct c; [now apply next_refines|now apply nth_refines]|]. intros r E.
  assert (D : it_data (snd r) = it_data it) by (destruct c; [now apply next_data in E|now apply nth_data in E]).
  apply refines_bind; [apply IH; unfold roomy; now rewrite D|]. intros. apply refines_refl.
Qed.
Lemma ib_next_data it r : ib_next it = Val r -> ib_data (snd r) = ib_data it /\ ib_index it <= ib_index (snd r).
Proof.
  unfold ib_next. destruct (_ <=? _); [intros [= <-]; split; [reflexivity|cbn; lia]|]. intros E. destruct (bind_val _ _ _ E) as (x & _ & E1).
  destruct (bind_val _ _ _ E1) as (v & _ & E2). injection E2 as <-. cbn. split; [reflexivity|lia].
Qed.
Lemma run_calls_b_refines bd cs : forall it, List.length (ib_data it) < usize_values bd -> refines (run_calls_b cs it) (run_calls_b_m bd cs it).
Proof.
  induction cs as [|c cs IH]; intros it R; cbn [run_calls_b run_calls_b_m]; [apply refines_refl|].
  intros v E. destruct (bind_val _ _ _ E) as (r & C & E1). destruct (bind_val _ _ _ E1) as (n & L & E2).
  assert (D : match c with Next => ib_next it | Nth n => ib_nth_m bd it n end = Val r /\ ib_data (snd r) = ib_data it).
  { destruct c as [|m]; [split; [exact C|now apply ib_next_data in C]|]. unfold ib_nth in C. pose proof (ib_next_data _ _ C) as [D1 D2].
    cbn [ib_data ib_index] in D1, D2. unfold ib_len in L. apply sub_chk_ok in L. split; [|exact D1].
    unfold ib_nth_m. rewrite madd_ok by (rewrite D1 in L; lia). exact C. }
  destruct D as [-> D]. cbn [bind]. rewrite L. cbn [bind]. destruct (bind_val _ _ _ E2) as (q & Q & E3).
  rewrite (IH (snd r) ltac:(now rewrite D) _ Q). exact E3.
Qed.
