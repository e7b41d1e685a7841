(** Lemmas: fixed-size and text messages over a buffer type of the client's own. *)
From Coq Require Import NArith List String Bool Arith Lia ZifyBool ZifyNat ZifyN.
From Verif Require Import Base BitOps BitLemmas ListLemmas Helpers Schema Props Message Sysex Text SpecFixed
  SysexLayout SysexBridge SpecText TextLemmas TextFlex TextFlexMore TextStream TextStreamMore TextClient TextHistory TextFresh
  ByteView CustomBuffer SpecCustom.
Import ListNotations.
Local Open Scope nat_scope.

(** ** Requests *)

Lemma granted cap answer b n : bounded_buffer cap answer -> List.length b <= cap ->
  if n <=? cap then exists b0, answer b n = (b0, true) /\ n <= List.length b0 /\ List.length b0 <= cap
                      /\ (b0 = vec_resize b n \/ b0 = b)
  else answer b n = (b, false).
Proof.
  intros HB Lb. specialize (HB b n Lb). destruct (Nat.leb_spec n cap); [|exact HB].
  destruct HB as [E|[L E]].
  - exists (vec_resize b n). rewrite vec_resize_length. auto 6.
  - exists b. auto.
Qed.

Lemma resize_zeros k n : vec_resize (repeat 0%N k) n = repeat 0%N n.
Proof.
  apply nth_ext with (d := 0%N) (d' := 0%N); [now rewrite vec_resize_length, repeat_length|].
  intros i _. rewrite vec_resize_nth, !nth_repeat. now destruct (_ <? _).
Qed.

Lemma granted_zeros cap answer k n : bounded_buffer cap answer -> k <= cap ->
  if n <=? cap then exists k', answer (repeat 0%N k) n = (repeat 0%N k', true) /\ n <= k' <= cap
                     /\ (k' = n \/ k' = k)
  else answer (repeat 0%N k) n = (repeat 0%N k, false).
Proof.
  intros HB Lb. pose proof (granted cap answer (repeat 0%N k) n HB) as G. rewrite repeat_length in G.
  specialize (G Lb). destruct (n <=? cap); [|exact G].
  destruct G as (b0 & E & L1 & L2 & [-> | ->]).
  - rewrite resize_zeros in *. rewrite repeat_length in *. exists n. auto.
  - rewrite repeat_length in *. exists k. auto.
Qed.

(** ** Fixed-size messages *)

Lemma custom_new_try answer u m k k' : answer (repeat 0%N k) (min_size u m) = (repeat 0%N k', true) ->
  min_size u m <= k' -> custom_new (Custom answer) u m (repeat 0%N k) = try_new u m k'.
Proof.
  intros E L. unfold custom_new, try_new. cbn [request]. rewrite E. unfold fixed_try_resize.
  rewrite repeat_length. now replace (k' <? min_size u m) with false by lia.
Qed.
Lemma custom_with_try answer u m b b0 : answer b (min_size u m) = (b0, true) ->
  min_size u m <= List.length b0 -> custom_new_with_buffer (Custom answer) u m b = try_new_with_buffer u m b0.
Proof.
  intros E L. unfold custom_new_with_buffer, try_new_with_buffer. cbn [request]. rewrite E. unfold fixed_try_resize.
  now replace (List.length b0 <? min_size u m) with false by lia.
Qed.

Lemma wf_vec_resize u b n : wf_buf u b -> wf_buf u (vec_resize b n).
Proof.
  intros H. unfold wf_buf in *. rewrite Forall_forall in *. intros x Hx. unfold vec_resize in Hx.
  apply in_app_or in Hx as [Hx|Hx].
  - apply H. rewrite <- (firstn_skipn n b). apply in_or_app. now left.
  - apply repeat_spec in Hx. subst. destruct u; reflexivity.
Qed.
Lemma calm_resized m b : calm m (vec_resize b (min_size U32 m)).
Proof.
  intros _. rewrite skipn_all2 by (rewrite vec_resize_length; lia). left. cbn. lia.
Qed.

(** ** Texts *)

Lemma custom_flex_resized answer b t : let n := text_words flex_form (List.length t) in
  answer b n = (vec_resize b n, true) ->
  custom_flex_set_text (Custom answer) b t = (x <- flex_set_text b t ;; Val (x, true)).
Proof.
  intros n E. unfold custom_flex_set_text, flex_set_text. cbn [request]. fold n. rewrite E.
  destruct (clear_words _) as [b1|]; cbn [bind]; [|reflexivity].
  destruct (grow_buffer b1 n) as [b2|]; cbn [bind]; reflexivity.
Qed.
Lemma custom_flex_kept answer b t : let n := text_words flex_form (List.length t) in
  answer b n = (b, true) -> n <= List.length b ->
  custom_flex_set_text (Custom answer) b t = flex_try_set_text b t.
Proof.
  intros n E L. unfold custom_flex_set_text, flex_try_set_text, fixed_try_resize. cbn [request]. fold n. rewrite E.
  now replace (List.length b <? n) with false by lia.
Qed.
Lemma custom_stream_resized answer off b t : let n := text_words (stream_form off) (List.length t) in
  answer b n = (vec_resize b n, true) ->
  custom_stream_set_text (Custom answer) off b t = (x <- stream_set_text off b t ;; Val (x, true)).
Proof.
  intros n E. unfold custom_stream_set_text, stream_set_text. cbn [request]. fold n. rewrite E.
  destruct (stream_clear off _) as [b1|]; cbn [bind]; [|reflexivity].
  destruct (stream_headers b1 n) as [b2|]; cbn [bind]; [|reflexivity].
  destruct (set_format_fields b2) as [b3|]; cbn [bind]; reflexivity.
Qed.

Lemma flex_words n : text_words flex_form n = 4 * text_packets 12 n.
Proof. rewrite (text_words_packets flex_form) by apply okt_flex. reflexivity. Qed.
Lemma stream_words off n : off <= 1 -> text_words (stream_form off) n = 4 * text_packets (14 - off) n.
Proof. intros. rewrite (text_words_packets (stream_form off)) by (apply okt_stream; lia). reflexivity. Qed.

Lemma custom_flex_do_ok bank st cap answer s e b : bounded_buffer cap answer -> flex_edit_ok e ->
  fstate bank st s b -> List.length b <= cap -> let room := Some (cap / 4) in
  exists b', custom_flex_do (Custom answer) e b = Val (b', flex_accepted room e)
    /\ fstate bank st (flex_after room s e) b' /\ List.length b' <= cap.
Proof.
  intros HB He S0 Lb room. destruct e as [g|o|t].
  - destruct (flex_try_do_ok bank st s (FGroup g) b He S0) as (b' & E & S1 & L').
    exists b'. split; [exact E|]. split; [exact S1|lia].
  - destruct (flex_try_do_ok bank st s (FChannel o) b He S0) as (b' & E & S1 & L').
    exists b'. split; [exact E|]. split; [exact S1|lia].
  - cbn [custom_flex_do]. pose proof (granted cap answer b (text_words flex_form (List.length t)) HB Lb) as G.
    pose proof (packets_fit (text_packets 12 (List.length t)) cap) as PF.
    unfold flex_after. cbn [flex_accepted fits room]. rewrite flex_words in G.
    destruct (Nat.leb_spec (4 * text_packets 12 (List.length t)) cap) as [F|F].
    + replace (text_packets 12 (List.length t) <=? cap / 4) with true
        by lia. cbn [negb].
      destruct G as (b0 & E & L0 & Lc & [-> | ->]).
      * rewrite (custom_flex_resized answer b t) by (rewrite flex_words; exact E).
        pose proof (fh_room S0) as R.
        destruct (set_text_fholds b t He ltac:(lia)) as (b' & -> & L' & S1). cbn [bind].
        destruct (fholds_first _ _ _ _ _ _ S0) as (E1 & E2 & E3 & E4). rewrite E1, E2, E3, E4 in S1.
        exists b'. split; [reflexivity|]. split; [exact S1|lia].
      * rewrite (custom_flex_kept answer b t); [|rewrite flex_words; exact E|rewrite flex_words; lia].
        destruct (flex_try_do_ok bank st s (FText t) b He S0) as (b' & E' & S1 & L'). cbn [flex_try_do] in E'.
        unfold flex_after in S1. cbn [flex_accepted fits] in *.
        replace (text_packets 12 (List.length t) <=? List.length b / 4) with true in *
          by (symmetry; apply Nat.leb_le, Nat.div_le_lower_bound; lia). cbn [negb] in S1.
        exists b'. split; [exact E'|]. split; [exact S1|lia].
    + replace (text_packets 12 (List.length t) <=? cap / 4) with false
        by lia. cbn [negb].
      unfold custom_flex_set_text. cbn [request]. rewrite flex_words, G. exists b. auto.
Qed.

Lemma custom_flex_history bank st cap answer : bounded_buffer cap answer -> forall h s b, Forall flex_edit_ok h ->
  fstate bank st s b -> List.length b <= cap -> let room := Some (cap / 4) in
  exists b', run_try (custom_flex_do (Custom answer)) h b = Val (b', map (flex_accepted room) h)
    /\ fstate bank st (fold_left (flex_after room) h s) b' /\ List.length b' <= cap.
Proof.
  intros HB. induction h as [|e h IH]; intros s b Hh S0 L; cbn [run_try fold_left map]; [cbn zeta; eauto|].
  inversion Hh as [|? ? He Hr]; subst.
  destruct (custom_flex_do_ok _ _ cap answer s e b HB He S0 L) as (b' & -> & S1 & L1). cbn [bind fst snd].
  destruct (IH _ b' Hr S1 L1) as (b2 & -> & S2 & L2). cbn [bind fst snd]. cbn zeta. eauto.
Qed.

(** Stream texts in an arena. *)
Lemma arena_stream_do K cap s e b : stream_edit_ok (sk_off K) e -> sstate K s b ->
  List.length b = 4 * text_packets (14 - sk_off K) (List.length (ss_name s)) -> List.length b <= cap ->
  exists b', custom_stream_do (Custom (arena cap)) (sk_off K) e b
      = Val (b', stream_accepted (sk_off K) (Some (cap / 4)) e)
    /\ sstate K (arena_after (sk_off K) cap s e) b'
    /\ List.length b' = 4 * text_packets (14 - sk_off K) (List.length (ss_name (arena_after (sk_off K) cap s e)))
    /\ List.length b' <= cap.
Proof.
  intros He S0 L Lb. pose proof (sh_off _ _ _ _ _ S0) as Ho. unfold arena_after.
  destruct (stream_do_ok K s e b He S0 L) as (b' & E & S1 & L1). destruct e as [v|t].
  - cbn [custom_stream_do stream_do stream_accepted] in *. rewrite E. cbn [bind]. exists b'.
    split; [reflexivity|]. split; [exact S1|]. split; [exact L1|]. change (ss_name (stream_after (sk_off K) None s (SBlock v))) with (ss_name s) in L1. lia.
  - cbn [custom_stream_do stream_do] in *.
    pose proof (packets_fit (text_packets (14 - sk_off K) (List.length t)) cap) as PF.
    cbn [stream_accepted fits] in *.
    destruct (Nat.leb_spec (text_packets (14 - sk_off K) (List.length t)) (cap / 4)) as [F|F]; cbn [negb] in PF.
    + rewrite (custom_stream_resized (arena cap)).
      * rewrite E. cbn [bind]. exists b'. split; [reflexivity|]. split; [exact S1|]. split; [exact L1|].
        unfold stream_after in L1. cbn [stream_accepted fits negb ss_name] in L1. lia.
      * rewrite stream_words by exact Ho. unfold arena.
        now replace (4 * text_packets (14 - sk_off K) (List.length t) <=? cap) with true by lia.
    + unfold custom_stream_set_text. cbn [request]. unfold arena. rewrite stream_words by exact Ho.
      replace (4 * text_packets (14 - sk_off K) (List.length t) <=? cap) with false by lia.
      exists b. auto.
Qed.

Lemma arena_stream_history K cap : forall h s b, Forall (stream_edit_ok (sk_off K)) h -> sstate K s b ->
  List.length b = 4 * text_packets (14 - sk_off K) (List.length (ss_name s)) -> List.length b <= cap ->
  let s' := fold_left (arena_after (sk_off K) cap) h s in
  exists b', run_try (custom_stream_do (Custom (arena cap)) (sk_off K)) h b
      = Val (b', map (stream_accepted (sk_off K) (Some (cap / 4))) h)
    /\ sstate K s' b' /\ List.length b' = 4 * text_packets (14 - sk_off K) (List.length (ss_name s'))
    /\ List.length b' <= cap.
Proof.
  induction h as [|e h IH]; intros s b Hh S0 L Lb; cbn [run_try fold_left map]; [cbn zeta; eauto 6|].
  inversion Hh as [|? ? He Hr]; subst.
  destruct (arena_stream_do K cap s e b He S0 L Lb) as (b' & -> & S1 & L1 & Lb1). cbn [bind fst snd].
  destruct (IH _ b' Hr S1 L1 Lb1) as (b2 & -> & S2). cbn [bind fst snd]. cbn zeta. eauto.
Qed.
