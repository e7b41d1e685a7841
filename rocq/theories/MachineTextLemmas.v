(** Lemmas on text messages and packet payloads in machine arithmetic. *)
From Coq Require Import NArith List String Bool Arith Lia ZifyBool.
From Verif Require Import Base BitOps ListLemmas Helpers Schema Props Message Sysex Text TextClient Packet SpecText SpecSysex
  SpecEdits SpecPacket TextLemmas Machine MachineLemmas MachineText.
Import ListNotations.
Local Open Scope nat_scope.

Lemma text_words_m_ok bd f n : okt f -> 64 * (n + 8) <= usize_values bd -> text_words_m bd f n = Val (text_words f n).
Proof.
  intros O B. destruct (okt_facts f O) as (C & _). unfold text_words_m, text_words.
  destruct (_ =? 0); [destruct (n =? 0); [reflexivity|]|].
  - rewrite mmul_ok by lia. reflexivity.
  - pose proof (Nat.div_le_upper_bound n (tf_cap f) n ltac:(lia) ltac:(nia)). 
    rewrite madd_ok by lia. cbn [bind]. apply mmul_ok. lia.
Qed.

Lemma text_write_from_m_ok bd f : okt f -> forall t p i b, i < tf_cap f -> 64 * (p + List.length t + 8) <= usize_values bd ->
  text_write_from_m bd f p i t b = text_write_from f p i t b.
Proof.
  intros O. destruct (okt_facts f O) as (C & H & _). induction t as [|c t IH]; intros p i b I B; [reflexivity|].
  cbn [text_write_from_m text_write_from List.length] in *. rewrite mmul_ok by lia. cbn [bind].
  rewrite madd_ok by lia. cbn [bind].
  assert ((i + tf_head f) / 4 <= 4) by (apply Nat.div_le_upper_bound; lia).
  rewrite madd_ok by lia. cbn [bind]. destruct (put_octet _ _ _ _) as [b'|]; [|reflexivity]. cbn [bind].
  destruct (Nat.eqb_spec i (tf_cap f - 1)).
  - rewrite madd_ok by lia. cbn [bind]. rewrite IH by lia. now rewrite Nat.add_1_r.
  - rewrite madd_ok by lia. cbn [bind]. rewrite IH by lia. now rewrite Nat.add_1_r.
Qed.
Lemma text_write_m_ok bd f t b : okt f -> 64 * (List.length t + 8) <= usize_values bd ->
  text_write_m bd f b t = text_write f b t.
Proof. intros O B. destruct (okt_facts f O) as (C & _). apply text_write_from_m_ok; [exact O|lia|lia]. Qed.

Lemma text_words_whole f n : okt f -> text_words f n mod 4 = 0 /\ 0 < text_words f n.
Proof.
  intros O. destruct (okt_facts f O) as (C & _). unfold text_words.
  destruct (Nat.eqb_spec (n mod tf_cap f) 0) as [M|M].
  - destruct (Nat.eqb_spec n 0); [split; [reflexivity|lia]|].
    pose proof (Nat.div_mod n (tf_cap f) ltac:(lia)) as D. rewrite M, Nat.add_0_r in D.
    set (q := n / tf_cap f) in *. assert (E : n * 4 / tf_cap f = q * 4).
    { rewrite D. replace (tf_cap f * q * 4) with (q * 4 * tf_cap f) by lia. apply Nat.div_mul. lia. }
    rewrite E. split; [apply Nat.mod_mul; lia|].
    clearbody q. clear E M. destruct q; [now rewrite Nat.mul_0_r in D|lia].
  - rewrite Nat.mul_comm. split; [apply Nat.mod_mul; lia|]. generalize (n / tf_cap f). intros. lia.
Qed.

Lemma massert_true bd c : c = true -> massert bd c = Val tt.
Proof. intros ->. reflexivity. Qed.

Lemma grow_buffer_m_ok bd b n : n mod 4 = 0 -> 0 < n -> grow_buffer_m bd b n = grow_buffer b n.
Proof.
  intros M P. unfold grow_buffer_m, grow_buffer. rewrite !massert_true by lia. cbn [bind].
  now replace (negb (n mod 4 =? 0) || (n =? 0)) with false by lia.
Qed.
Lemma stream_clear_m_ok bd off b : off <= 1 -> stream_clear_m bd off b = stream_clear off b.
Proof.
  intros H. unfold stream_clear_m, stream_clear. rewrite massert_true by lia. cbn [bind].
  replace (2 <=? off) with false by lia. now replace (off <? 2) with true by lia.
Qed.

Lemma flex_set_text_m_ok bd b t : 64 * (List.length t + 8) <= usize_values bd -> flex_set_text_m bd b t = flex_set_text b t.
Proof.
  intros B. assert (O : okt flex_form) by (now left). unfold flex_set_text_m, flex_set_text.
  rewrite text_words_m_ok by assumption. cbn [bind]. destruct (clear_words _) as [b1|]; [|reflexivity]. cbn [bind].
  destruct (text_words_whole flex_form (List.length t) O). rewrite grow_buffer_m_ok by assumption.
  destruct (grow_buffer _ _) as [b2|]; [|reflexivity]. cbn [bind]. now apply text_write_m_ok.
Qed.
Lemma flex_try_set_text_m_ok bd b t : 64 * (List.length t + 8) <= usize_values bd -> flex_try_set_text_m bd b t = flex_try_set_text b t.
Proof.
  intros B. assert (O : okt flex_form) by (now left). unfold flex_try_set_text_m, flex_try_set_text.
  rewrite text_words_m_ok by assumption. cbn [bind]. destruct (fixed_try_resize _ _); [|reflexivity].
  destruct (clear_words _) as [b1|]; [|reflexivity]. cbn [bind].
  destruct (text_words_whole flex_form (List.length t) O). rewrite grow_buffer_m_ok by assumption.
  destruct (grow_buffer _ _) as [b2|]; [|reflexivity]. cbn [bind]. now rewrite text_write_m_ok.
Qed.
Lemma okt_off off : off <= 1 -> okt (stream_form off).
Proof. intros H. destruct off as [|[|off]]; [right; now left|right; now right|lia]. Qed.
Lemma stream_set_text_m_ok bd off b t : off <= 1 -> 64 * (List.length t + 8) <= usize_values bd ->
  stream_set_text_m bd off b t = stream_set_text off b t.
Proof.
  intros H B. pose proof (okt_off off H) as O. unfold stream_set_text_m, stream_set_text.
  rewrite text_words_m_ok by assumption. cbn [bind]. rewrite stream_clear_m_ok by assumption.
  destruct (stream_clear _ _) as [b1|]; [|reflexivity]. cbn [bind]. destruct (stream_headers _ _) as [b2|]; [|reflexivity]. cbn [bind].
  destruct (set_format_fields _) as [b3|]; [|reflexivity]. cbn [bind]. now apply text_write_m_ok.
Qed.
Lemma stream_try_set_text_m_ok bd off b t : off <= 1 -> 64 * (List.length t + 8) <= usize_values bd ->
  stream_try_set_text_m bd off b t = stream_try_set_text off b t.
Proof.
  intros H B. pose proof (okt_off off H) as O. unfold stream_try_set_text_m, stream_try_set_text.
  rewrite text_words_m_ok by assumption. cbn [bind]. destruct (fixed_try_resize _ _); [|reflexivity].
  rewrite stream_clear_m_ok by assumption.
  destruct (stream_clear _ _) as [b1|]; [|reflexivity]. cbn [bind]. destruct (stream_headers _ _) as [b2|]; [|reflexivity]. cbn [bind].
  destruct (set_format_fields _) as [b3|]; [|reflexivity]. cbn [bind]. now rewrite text_write_m_ok.
Qed.

(** ** Reading *)
Definition at_hand (f : tform) (it : titer) : Prop := ti_packet it <= List.length (ti_data it) + 1 /\ ti_byte it < tf_cap f.
Definition readable (bd : build) (b : list N) : Prop := 64 * (List.length b + 8) <= usize_values bd.

Lemma finished_refines bd f it : refines (ti_finished f it) (ti_finished_m bd f it).
Proof.
  unfold ti_finished, ti_finished_m. destruct (tf_early f); [|apply refines_refl].
  apply refines_bind; [apply msub_refines|]. intros v _. apply refines_refl.
Qed.
Lemma value_refines bd f it : okt f -> at_hand f it -> readable bd (ti_data it) -> refines (ti_value f it) (ti_value_m bd f it).
Proof.
  intros O (P & I) B. destruct (okt_facts f O) as (C & H & _). unfold readable in B. unfold ti_value, ti_value_m.
  rewrite mmul_ok by lia. cbn [bind]. rewrite madd_ok by lia. cbn [bind].
  assert ((ti_byte it + tf_head f) / 4 <= 4) by (apply Nat.div_le_upper_bound; lia).
  rewrite madd_ok by lia. cbn [bind]. apply refines_refl.
Qed.
Lemma get_octet_inside b w o v : get_octet b w o = Val v -> w < List.length b.
Proof.
  unfold get_octet, idx. destruct (nth_error b w) eqn:E; [|discriminate]. intros _. apply nth_error_Some. congruence.
Qed.
Lemma value_inside f it v : ti_value f it = Val v -> ti_packet it < List.length (ti_data it).
Proof. intros E. apply get_octet_inside in E. lia. Qed.
Lemma advance_ok bd f it v : okt f -> at_hand f it -> readable bd (ti_data it) -> ti_value f it = Val v ->
  ti_advance_m bd f it = Val (ti_advance f it) /\ at_hand f (ti_advance f it) /\ ti_data (ti_advance f it) = ti_data it.
Proof.
  intros O (P & I) B E. apply value_inside in E. destruct (okt_facts f O) as (C & H & _). unfold readable in B.
  unfold ti_advance_m, ti_advance. rewrite madd_ok by lia. cbn [bind]. rewrite Nat.add_1_r.
  destruct (Nat.eqb_spec (S (ti_byte it)) (tf_cap f)).
  - rewrite madd_ok by lia. cbn [bind]. rewrite Nat.add_1_r. unfold at_hand. cbn. repeat split; lia.
  - unfold at_hand. cbn. repeat split; lia.
Qed.
Lemma skip_refines bd f : okt f -> forall n it it', at_hand f it -> readable bd (ti_data it) -> ti_skip n f it = Val it' ->
  ti_skip_m n bd f it = Val it' /\ at_hand f it' /\ ti_data it' = ti_data it.
Proof.
  intros O. induction n as [|n IH]; intros it it' A B E; [discriminate|]. cbn [ti_skip ti_skip_m] in *.
  destruct (bind_val _ _ _ E) as (fin & Ef & E1). rewrite (finished_refines bd f it _ Ef). cbn [bind].
  destruct fin; [injection E1 as <-; now repeat split; try apply A|].
  destruct (bind_val _ _ _ E1) as (v & Ev & E2). rewrite (value_refines bd f it O A B _ Ev). cbn [bind].
  destruct (v =? 0)%N; [|injection E2 as <-; now repeat split; try apply A].
  destruct (advance_ok bd f it v O A B Ev) as (Q & A' & D). rewrite Q. cbn [bind]. rewrite <- D. apply IH; [exact A'|now rewrite D|exact E2].
Qed.
Lemma next_refines bd f it r : okt f -> at_hand f it -> readable bd (ti_data it) -> ti_next f it = Val r ->
  ti_next_m bd f it = Val r /\ at_hand f (snd r) /\ ti_data (snd r) = ti_data it.
Proof.
  intros O A B E. unfold ti_next in E. unfold ti_next_m. destruct (bind_val _ _ _ E) as (it1 & E1 & E2).
  destruct (skip_refines bd f O _ _ _ A B E1) as (Q & A1 & D1). rewrite Q. cbn [bind].
  destruct (bind_val _ _ _ E2) as (fin & Ef & E3). rewrite (finished_refines bd f it1 _ Ef). cbn [bind].
  destruct fin; [injection E3 as <-; now repeat split; try apply A1|].
  destruct (bind_val _ _ _ E3) as (v & Ev & E4).
  assert (B1 : readable bd (ti_data it1)) by now rewrite D1.
  rewrite (value_refines bd f it1 O A1 B1 _ Ev). cbn [bind].
  destruct (advance_ok bd f it1 v O A1 B1 Ev) as (Q2 & A2 & D2). rewrite Q2. cbn [bind]. injection E4 as <-. cbn [snd].
  rewrite D2, D1. now repeat split; try apply A2.
Qed.
Lemma calls_refines bd f : okt f -> forall n it l, at_hand f it -> readable bd (ti_data it) -> ti_calls n f it = Val l ->
  ti_calls_m n bd f it = Val l.
Proof.
  intros O. induction n as [|n IH]; intros it l A B E; [exact E|]. cbn [ti_calls ti_calls_m] in *.
  destruct (bind_val _ _ _ E) as (r & Er & E1). destruct (next_refines bd f it r O A B Er) as (Q & A' & D). rewrite Q. cbn [bind].
  destruct (bind_val _ _ _ E1) as (l' & El & E2). rewrite (IH (snd r) l' A' ltac:(now rewrite D) El). exact E2.
Qed.
Lemma size_hint_ok bd f it : okt f -> 1 <= List.length (ti_data it) -> readable bd (ti_data it) ->
  ti_size_hint_m bd f it = ti_size_hint f it.
Proof.
  intros O L B. unfold readable in B. assert (tf_hint f <= 14) by (destruct O as [->|[->| ->]]; cbn; lia).
  unfold ti_size_hint_m, ti_size_hint, sub_chk. rewrite msub_ok by lia. cbn [bind].
  replace (List.length (ti_data it) <? 1) with false by lia.
  rewrite !mmul_ok by nia. reflexivity.
Qed.
Lemma skip_data f : forall n it it', ti_skip n f it = Val it' -> ti_data it' = ti_data it.
Proof.
  induction n as [|n IH]; intros it it' E; [discriminate|]. cbn [ti_skip] in E.
  destruct (bind_val _ _ _ E) as (fin & _ & E1). destruct fin; [now injection E1 as <-|].
  destruct (bind_val _ _ _ E1) as (v & _ & E2). destruct (v =? 0)%N; [|now injection E2 as <-].
  apply IH in E2. rewrite E2. unfold ti_advance. now destruct (_ =? _).
Qed.
Lemma next_nonempty f it v it' : ti_next f it = Val (Some v, it') -> 1 <= List.length (ti_data it).
Proof.
  unfold ti_next. intros E. destruct (bind_val _ _ _ E) as (it1 & E1 & E2). destruct (bind_val _ _ _ E2) as (fin & Ef & E3).
  destruct fin; [discriminate|]. destruct (bind_val _ _ _ E3) as (w & Ev & E4). apply value_inside in Ev.
  apply skip_data in E1. rewrite <- E1. lia.
Qed.
Lemma collect_from_refines bd f : okt f -> forall n it l, at_hand f it -> readable bd (ti_data it) -> ti_collect_from n f it = Val l ->
  ti_collect_from_m n bd f it = Val l.
Proof.
  intros O. induction n as [|n IH]; intros it l A B E; [discriminate|]. cbn [ti_collect_from ti_collect_from_m] in *.
  destruct (bind_val _ _ _ E) as (r & Er & E1). destruct (next_refines bd f it r O A B Er) as (Q & A' & D). rewrite Q. cbn [bind].
  destruct r as [[v|] it']; [|exact E1]. cbn [snd] in *. pose proof (next_nonempty f it v it' Er) as L.
  assert (B' : readable bd (ti_data it')) by now rewrite D.
  rewrite size_hint_ok by (try assumption; now rewrite D). unfold ti_size_hint, sub_chk. rewrite D.
  replace (List.length (ti_data it) <? 1) with false by lia. cbn [bind].
  destruct (bind_val _ _ _ E1) as (l' & El & E2). rewrite (IH it' l' A' B' El). exact E2.
Qed.
Lemma collect_refines bd f b : okt f -> readable bd b -> refines (ti_collect f (text_bytes b)) (ti_collect_m bd f (text_bytes b)).
Proof.
  intros O B l E. destruct (okt_facts f O) as (C & _). apply collect_from_refines; [exact O| |exact B|exact E].
  split; cbn; lia.
Qed.
Lemma string_refines bd f b : okt f -> readable bd b -> refines (text_string f b) (text_string_m bd f b).
Proof. intros O B. unfold text_string, text_string_m. apply refines_bind; [now apply collect_refines|]. intros l _. apply refines_refl. Qed.
Lemma validate_refines bd f b : okt f -> readable bd b -> refines (text_string_validate f b) (text_string_validate_m bd f b).
Proof. intros O B. unfold text_string_validate, text_string_validate_m. apply refines_bind; [now apply collect_refines|]. intros l _. apply refines_refl. Qed.

Lemma position_lt {A} (P : A -> bool) l k : position P l = Some k -> k < List.length l.
Proof.
  revert k. induction l as [|x l IH]; intros k E; cbn in E; [discriminate|]. destruct (P x); [injection E as <-; cbn; lia|].
  destruct (position P l) as [j|]; [|discriminate]. injection E as <-. specialize (IH j eq_refl). cbn. lia.
Qed.
Lemma dyn_size_m_ok bd c b : readable bd b -> dyn_size_m bd c b = dyn_size c b.
Proof.
  intros B. unfold readable in B. unfold dyn_size_m, dyn_size. destruct (position _ _) as [p|] eqn:E; [|reflexivity].
  apply position_lt in E. rewrite chunks_exact_spec, map_length, seq_length in E by lia.
  pose proof (Nat.div_le_upper_bound (List.length b) 4 (List.length b) ltac:(lia) ltac:(lia)).
  rewrite mmul_ok by lia. cbn [bind]. apply madd_ok. lia.
Qed.
Lemma flex_data_m_ok bd b : readable bd b -> flex_data_m bd b = flex_data b.
Proof. intros B. unfold flex_data_m, flex_data. now rewrite dyn_size_m_ok. Qed.
Lemma stream_data_m_ok bd b : readable bd b -> stream_data_m bd b = stream_data b.
Proof. intros B. unfold stream_data_m, stream_data. now rewrite dyn_size_m_ok. Qed.

Lemma rbind_refines {A B} (d r : outcome (res A)) (k q : A -> outcome (res B)) : refines d r ->
  (forall a, refines (k a) (q a)) -> refines (a <-? d ;; k a) (a <-? r ;; q a).
Proof.
  intros D K v E. destruct d as [[a|e]|] eqn:Ed; cbn in E; [| |discriminate].
  - rewrite (D _ eq_refl). cbn. now apply K.
  - rewrite (D _ eq_refl). exact E.
Qed.
Lemma flex_try_from_refines bd K b : readable bd b -> refines (flex_try_from K b) (flex_try_from_m bd K b).
Proof.
  intros B. unfold flex_try_from, flex_try_from_m. destruct (_ <? 4); [apply refines_refl|].
  repeat (apply rbind_refines; [first [apply refines_refl|apply validate_refines; [now left|exact B]]|intros _]). apply refines_refl.
Qed.
Lemma stream_try_from_refines bd K b : sk_off K <= 1 -> readable bd b -> refines (stream_try_from K b) (stream_try_from_m bd K b).
Proof.
  intros O B. unfold stream_try_from, stream_try_from_m. destruct (_ <? 4); [apply refines_refl|].
  repeat (apply rbind_refines; [first [apply refines_refl|apply validate_refines; [now apply okt_off|exact B]]|intros _]). apply refines_refl.
Qed.

(** ** Packets *)
Lemma size7_refines bd it : refines (pi_size7 it) (pi_size7_m bd it).
Proof.
  unfold pi_size7, pi_size7_m. apply refines_bind; [apply refines_refl|]. intros x _ v.
  destruct (Nat.ltb_spec 6 (N.to_nat (nibble32 x 3))); [discriminate|]. intros E. now rewrite massert_true by lia.
Qed.
Lemma size8_refines bd it : refines (pi_size8 it) (pi_size8_m bd it).
Proof.
  unfold pi_size8, pi_size8_m. apply refines_bind; [apply refines_refl|]. intros x _.
  apply refines_bind; [apply msub_refines|]. intros n _ v.
  destruct (Nat.ltb_spec 13 n); [discriminate|]. intros E. now rewrite massert_true by lia.
Qed.
Lemma size7_le it s : pi_size7 it = Val s -> s <= 6.
Proof. unfold pi_size7. intros E. destruct (bind_val _ _ _ E) as (x & _ & E1). cbn zeta in E1. destruct (Nat.ltb_spec 6 (N.to_nat (nibble32 x 3))); [discriminate|]. injection E1 as <-. assumption. Qed.
Lemma size8_le it s : pi_size8 it = Val s -> s <= 13.
Proof. unfold pi_size8. intros E. destruct (bind_val _ _ _ E) as (x & _ & E1). destruct (bind_val _ _ _ E1) as (n & _ & E2). destruct (Nat.ltb_spec 13 n); [discriminate|]. injection E2 as <-. assumption. Qed.
Lemma len7_refines bd it : refines (pi_len7 it) (pi_len7_m bd it).
Proof. apply refines_bind; [apply size7_refines|]. intros s _. apply msub_refines. Qed.
Lemma len8_refines bd it : refines (pi_len8 it) (pi_len8_m bd it).
Proof. apply refines_bind; [apply size8_refines|]. intros s _. apply msub_refines. Qed.
Lemma next7_refines bd it : 64 <= usize_values bd -> refines (pi_next7 it) (pi_next7_m bd it).
Proof.
  intros B. apply refines_bind; [apply size7_refines|]. intros s Es. apply size7_le in Es. destruct (Nat.leb_spec s (pi_index it)); [apply refines_refl|].
  rewrite !madd_ok by lia. cbn [bind]. apply refines_refl.
Qed.
Lemma next8_refines bd it : 64 <= usize_values bd -> refines (pi_next8 it) (pi_next8_m bd it).
Proof.
  intros B. apply refines_bind; [apply size8_refines|]. intros s Es. apply size8_le in Es. destruct (Nat.leb_spec s (pi_index it)); [apply refines_refl|].
  rewrite !madd_ok by lia. cbn [bind]. apply refines_refl.
Qed.
Lemma nth7_refines bd it n : 64 <= usize_values bd -> pi_index it + n < usize_values bd -> refines (pi_nth7 it n) (pi_nth7_m bd it n).
Proof.
  intros B F. unfold pi_nth7, pi_nth7_m. rewrite (madd_ok bd (pi_index it) n) by exact F. cbn [bind].
  apply refines_bind; [apply size7_refines|]. intros s Es. apply size7_le in Es. destruct (Nat.leb_spec s (pi_index it + n)); [apply refines_refl|].
  rewrite madd_ok by lia. cbn [bind]. apply refines_bind; [apply refines_refl|]. intros v _.
  rewrite madd_ok by lia. cbn [bind]. rewrite madd_ok by lia. cbn [bind]. apply refines_refl.
Qed.
Lemma nth8_refines bd it n : 64 <= usize_values bd -> pi_index it + n < usize_values bd -> refines (pi_nth8 it n) (pi_nth8_m bd it n).
Proof.
  intros B F. unfold pi_nth8, pi_nth8_m. rewrite (madd_ok bd (pi_index it) n) by exact F. cbn [bind].
  apply refines_bind; [apply size8_refines|]. intros s Es. apply size8_le in Es. destruct (Nat.leb_spec s (pi_index it + n)); [apply refines_refl|].
  rewrite madd_ok by lia. cbn [bind]. apply refines_refl.
Qed.

(** After a call whose [len] does not panic the index is at most the size. *)
Lemma len7_index it n : pi_len7 it = Val n -> pi_index it <= 6.
Proof. unfold pi_len7, sub_chk. intros E. destruct (bind_val _ _ _ E) as (s & Es & E1). apply size7_le in Es. destruct (Nat.ltb_spec s (pi_index it)); [discriminate|lia]. Qed.
Lemma len8_index it n : pi_len8 it = Val n -> pi_index it <= 13.
Proof. unfold pi_len8, sub_chk. intros E. destruct (bind_val _ _ _ E) as (s & Es & E1). apply size8_le in Es. destruct (Nat.ltb_spec s (pi_index it)); [discriminate|lia]. Qed.

Definition jump (c : call) : nat := match c with Next => 0 | Nth n => n end.
Lemma payload_calls_refines bd fm : 64 <= usize_values bd -> forall cs it,
  pi_index it <= 13 -> Forall (fun c => jump c + 13 < usize_values bd) cs ->
  refines (run_payload fm cs it) (run_payload_m bd fm cs it).
Proof.
  intros B. induction cs as [|c cs IH]; intros it I F; [apply refines_refl|]. cbn [run_payload run_payload_m].
  inversion_clear F as [|? ? F1 F2]. apply refines_bind.
  - destruct fm, c; cbn [jump] in F1; [now apply next7_refines|apply nth7_refines; lia|now apply next8_refines|apply nth8_refines; lia].
  - intros r _. apply refines_bind; [destruct fm; [apply len7_refines|apply len8_refines]|]. intros n En.
    apply refines_bind; [|intros q _; apply refines_refl]. apply IH; [|exact F2].
    destruct fm; [apply len7_index in En|apply len8_index in En]; lia.
Qed.
