(** C71: a text message keeps its text through setter calls, copies and parsers in any order. *)
From Coq Require Import NArith List String Bool Arith Lia Zify ZifyBool ZifyNat ZifyN.
From Verif Require Import Base Values Message Sysex ByteView SysexLayout SysexBridge Text SpecSysex SpecText TextLemmas TextHeader TextFlex TextFlexMore TextFlexInit
  TextStream TextStreamMore TextUtf8 TextParse TextClient TextHistory TextFresh Packet Aggregate SpecTextJourney TextJourney PropertiesText.
Import ListNotations.
Local Open Scope nat_scope.

Ltac shown := split; [first [reflexivity|assumption]|]; split; [first [assumption|congruence|reflexivity]|]; split; [first [assumption|reflexivity]|assumption].

(** ** Zero words behind a message *)

Lemma oct_zeros b m j : oct (b ++ repeat 0%N m) j = oct b j.
Proof.
  unfold oct. f_equal. destruct (Nat.lt_ge_cases (j / 4) (List.length b)) as [L|L]; [now rewrite app_nth1|].
  rewrite app_nth2 by exact L. rewrite (nth_overflow b) by exact L. apply nth_repeat.
Qed.

Lemma extend_laid f hdr t k b m : laid f hdr t k b -> laid f hdr t k (b ++ repeat 0%N m).
Proof. intros [L O]. split; [rewrite app_length; lia|]. intros w o Hw Ho. rewrite oct_zeros. now apply O. Qed.
Lemma extend_blank f k b m : List.length b mod 4 = 0 -> blank_after f k b -> blank_after f k (b ++ repeat 0%N m).
Proof.
  intros M B w o Hw Ho. rewrite oct_zeros. destruct (Nat.lt_ge_cases w (List.length b / 4)) as [L|L]; [apply B; auto; lia|].
  apply oct_beyond. pose proof (Nat.div_mod (List.length b) 4 ltac:(lia)). lia.
Qed.
Lemma extend_flex bank st s b m : List.length b mod 4 = 0 -> fstate bank st s b -> fstate bank st s (b ++ repeat 0%N m).
Proof. intros M [A1 A2 A3 A4 A5 A6 A7]. split; auto using extend_laid, extend_blank. Qed.
Lemma extend_stream K s b m : List.length b mod 4 = 0 -> sstate K s b -> sstate K s (b ++ repeat 0%N m).
Proof.
  intros M [A1 A2 A3 A4 A5 A6]. split; auto using extend_laid, extend_blank.
  intros E w. rewrite (A6 E), oct_zeros, app_length, repeat_length. pose proof (Nat.div_mod (List.length b) 4 ltac:(lia)).
  destruct (Nat.ltb_spec w (List.length b / 4)) as [L|L].
  - replace (w <? (List.length b + m) / 4) with true; [reflexivity|]. symmetry. apply Nat.ltb_lt. apply (Nat.lt_le_trans _ _ _ L). apply Nat.div_le_mono; lia.
  - destruct (w <? _); [|reflexivity]. symmetry. apply oct_beyond. lia.
Qed.

(** ** Flex data texts *)

Section Flex.
Variable K : flex_kind.
Hypothesis HK : In K flex_texts.

Definition flex_readable (s : flex_state) : Prop := is_string (without_nul (kept (fs_text s))).
Definition flex_shows (v : text_view flex_state) (h : text_held) : Prop :=
  th_place h = tv_place v /\ List.length (th_buffer h) = tv_length v /\ tv_length v mod 4 = 0
  /\ fstate (fk_bank K) (fk_status K) (tv_state v) (th_buffer h).

Lemma words_mod k : (4 * k) mod 4 = 0.
Proof. rewrite Nat.mul_comm. apply Nat.mod_mul. lia. Qed.

Lemma flex_vec_do s e b : flex_edit_ok e -> fstate (fk_bank K) (fk_status K) s b ->
  exists b', flex_do e b = Val b' /\ fstate (fk_bank K) (fk_status K) (flex_after None s e) b'
    /\ List.length b' = match e with FText _ => flex_words (flex_after None s e) | _ => List.length b end.
Proof.
  intros He S0. pose proof (fh_room S0) as R. destruct e as [g|o|t]; cbn [flex_do flex_edit_ok] in *.
  - destruct (set_group_fholds _ _ _ _ _ _ g S0 He) as (b' & E & L' & S1 & _). exists b'. auto.
  - destruct (set_channel_fholds _ _ _ _ _ _ o S0 He) as (b' & E & L' & S1). exists b'. auto.
  - destruct (set_text_fholds b t He ltac:(lia)) as (b' & E & L' & S1).
    destruct (fholds_first _ _ _ _ _ _ S0) as (E1 & E2 & E3 & E4). rewrite E1, E2, E3, E4 in S1. exists b'. auto.
Qed.
Lemma flex_trim s b : fstate (fk_bank K) (fk_status K) s b ->
  exists d, flex_data b = Val d /\ List.length d = flex_words s /\ fstate (fk_bank K) (fk_status K) s d
    /\ all_bytes d = flex_wire (fk_bank K) (fk_status K) (fs_group s) (fs_channel s) (fs_text s)
    /\ (flex_readable s -> flex_try_from K d = Val (Ok d)).
Proof.
  intros S0. destruct (fholds_data S0) as [D _]. destruct (fholds_data_parse K _ _ _ _ S0) as (d & D' & W & P).
  rewrite D in D'. assert (E : firstn (4 * text_packets 12 (List.length (fs_text s))) b = d) by congruence.
  exists d. split; [congruence|]. pose proof (fh_room S0) as R. split; [rewrite <- E, firstn_length; unfold flex_words; lia|].
  split; [rewrite <- E; exact (fholds_trim S0)|]. auto.
Qed.

Lemma flex_step l v h : flex_shows v h -> flex_may flex_readable l v ->
  exists h', text_step (flex_api K) l h = Val (h', snd (flex_goes l v)) /\ flex_shows (fst (flex_goes l v)) h'.
Proof.
  destruct v as [p n s], h as [p' b]. unfold flex_shows. cbn [th_place th_buffer tv_place tv_length tv_state]. intros (-> & L & M & S0) P.
  destruct l as [e| |m|m|]; cbn [flex_may tv_state] in P; unfold text_step; cbn [th_place th_buffer flex_api ta_set ta_try_set ta_type ta_parse].
  - destruct p; cbn [flex_goes tv_place tv_length tv_state].
    + destruct (flex_vec_do s e b P S0) as (b' & -> & S1 & L1). cbn [bind]. eexists. split; [reflexivity|]. cbn [fst seen tv_place tv_length tv_state th_place th_buffer].
      split; [reflexivity|]. split; [rewrite L1; destruct e; auto|]. split; [|exact S1]. destruct e; [exact M|exact M|apply words_mod].
    + destruct (flex_try_do_ok _ _ s e b P S0) as (b' & -> & S1 & L1). cbn [bind fst snd]. rewrite L in S1 |- *. eexists. split; [reflexivity|].
      cbn [fst seen tv_place tv_length tv_state th_place th_buffer]. shown.
  - eexists. split; [reflexivity|]. shown.
  - unfold try_rebuffer_array, flex_goes. cbn [tv_length tv_state]. rewrite L. destruct (Nat.leb_spec n m) as [Le|Le].
    + replace (m <? n) with false by lia. eexists. split; [reflexivity|]. cbn [fst seen tv_place tv_length tv_state th_place th_buffer].
      split; [reflexivity|]. split; [rewrite app_length, repeat_length; lia|]. split; [exact P|]. apply extend_flex; [now rewrite L|exact S0].
    + replace (m <? n) with true by lia. eexists. split; [reflexivity|]. shown.
  - destruct P as [P Hm]. destruct (flex_trim s b S0) as (d & D & Ld & Sd & _). unfold agg_array_rebuffer, agg_data. cbn [fst snd concrete_data]. rewrite D. cbn [bind].
    replace (m <? List.length d) with false by lia. cbn [bind snd]. eexists. split; [reflexivity|]. cbn [fst snd flex_goes seen tv_place tv_length tv_state th_place th_buffer].
    split; [reflexivity|]. split; [rewrite app_length, repeat_length; lia|]. split; [exact P|]. apply extend_flex; [rewrite Ld; apply words_mod|exact Sd].
  - destruct (flex_trim s b S0) as (d & D & Ld & Sd & _ & Pd). cbn [concrete_data]. rewrite D. cbn [bind]. rewrite (Pd P). cbn [bind].
    eexists. split; [reflexivity|]. cbn [fst snd flex_goes seen tv_place tv_length tv_state th_place th_buffer]. split; [reflexivity|]. split; [exact Ld|]. split; [apply words_mod|exact Sd].
Qed.
Lemma flex_journey ss : forall v h, flex_shows v h -> text_permitted flex_goes (flex_may flex_readable) ss v ->
  exists h', text_journey (flex_api K) ss h = Val (h', snd (text_route flex_goes ss v)) /\ flex_shows (fst (text_route flex_goes ss v)) h'.
Proof.
  induction ss as [|l ss IH]; intros v h S0 P; [cbn; eauto|]. destruct P as [P1 P2]. destruct (flex_step l v h S0 P1) as (h1 & E1 & S1).
  cbn [text_journey text_route]. rewrite E1. cbn [bind fst snd]. destruct (flex_goes l v) as [v1 ok]. cbn [fst snd] in *.
  destruct (IH v1 h1 S1 P2) as (h2 & -> & S2). cbn [bind]. destruct (text_route flex_goes ss v1) as [v2 oks]. cbn [fst snd] in *. eauto.
Qed.

Definition flex_start (p : text_place) (n : nat) : text_view flex_state :=
  seen p (match p with TextVec => 4 | TextArray => n end) flex_fresh.
Lemma flex_starts p n : 4 <= n -> n mod 4 = 0 -> exists h, flex_set_out K p n = Val h /\ flex_shows (flex_start p n) h.
Proof.
  intros Hn M. unfold flex_set_out. destruct p.
  - destruct (flex_new_fresh K (flex_in K HK)) as (b & -> & L & S0). cbn [bind]. eexists. split; [reflexivity|]. shown.
  - pose proof (flex_try_new_fresh K n (flex_in K HK)) as T. replace (n <? 4) with false in T by lia. destruct T as (b & -> & L & S0).
    cbn [unwrapped bind]. eexists. split; [reflexivity|]. shown.
Qed.
End Flex.

(** What a client reads: the values that were set; the text without NUL characters, and without the last character where it
    fills the whole buffer; [data()] is the message for the receiver. *)
Definition flex_reads (K : flex_kind) (v : text_view flex_state) (h : text_held) : Prop :=
  let s := tv_state v in let b := th_buffer h in
  th_place h = tv_place v /\ List.length b = tv_length v
  /\ flex_group b = Val (fs_group s) /\ flex_channel b = Val (fs_channel s 0)
  /\ flex_text_bytes b = Val (without_nul (firstn (12 * (tv_length v / 4) - 1) (fs_text s)))
  /\ exists d, flex_data b = Val d /\ all_bytes d = flex_wire (fk_bank K) (fk_status K) (fs_group s) (fs_channel s) (fs_text s).

Theorem C71_flex : forall K p n ss, In K flex_texts -> 4 <= n -> n mod 4 = 0 ->
  text_permitted flex_goes (flex_may flex_readable) ss (flex_start p n) ->
  exists h0 h, flex_set_out K p n = Val h0
    /\ text_journey (flex_api K) ss h0 = Val (h, snd (text_route flex_goes ss (flex_start p n)))
    /\ flex_reads K (fst (text_route flex_goes ss (flex_start p n))) h.
Proof.
  intros K p n ss HK Hn M P. destruct (flex_starts K HK p n Hn M) as (h0 & E0 & S0). destruct (flex_journey K ss _ _ S0 P) as (h & E & S1).
  exists h0, h. split; [exact E0|]. split; [exact E|]. destruct S1 as (Ep & L & _ & S1). split; [exact Ep|]. split; [exact L|].
  split; [apply (fholds_group S1)|]. split; [apply (fholds_channel S1)|]. split; [rewrite <- L; apply (fholds_bytes S1)|].
  destruct (flex_trim K _ _ S1) as (d & D & _ & _ & W & _). eauto.
Qed.
Print Assumptions C71_flex.

(** The way does not matter: if no call was refused, the message sent is the one the setter calls alone make. *)
Lemma flex_route_free ss : forall v, (forall pre e post, ss = pre ++ Call e :: post -> nth (List.length pre) (snd (text_route flex_goes ss v)) false = true) ->
  tv_state (fst (text_route flex_goes ss v)) = fold_left (flex_after None) (calls_of ss) (tv_state v).
Proof.
  induction ss as [|l ss IH]; intros v O; [reflexivity|].
  assert (T : forall pre e post, ss = pre ++ Call e :: post -> nth (List.length pre) (snd (text_route flex_goes ss (fst (flex_goes l v)))) false = true).
  { intros pre e post ->. specialize (O (l :: pre) e post eq_refl). cbn [List.length text_route] in O. destruct (flex_goes l v) as [v1 ok]. cbn [fst].
    destruct (text_route flex_goes (pre ++ Call e :: post) v1) as [v2 oks]. exact O. }
  specialize (IH _ T). cbn [text_route]. destruct (flex_goes l v) as [v1 ok] eqn:G. cbn [fst] in IH. destruct (text_route flex_goes ss v1) as [v2 oks] eqn:R. cbn [fst] in *.
  rewrite IH. destruct l as [e| |m|m|]; cbn [calls_of fold_left]; f_equal;
    [|cbn in G; injection G as <- _; reflexivity|cbn in G; destruct (_ <=? _); injection G as <- _; reflexivity|cbn in G; injection G as <- _; reflexivity..].
  specialize (O [] e ss eq_refl). cbn [List.length text_route] in O. rewrite G, R in O. cbn [nth snd] in O. subst ok.
  unfold flex_goes in G. destruct (tv_place v); [injection G as <-; reflexivity|]. injection G as <- A. cbn [tv_state seen]. unfold flex_after. rewrite A.
  destruct e; reflexivity.
Qed.
Theorem C71_flex_route_free : forall K p n ss h0 h oks, In K flex_texts -> 4 <= n -> n mod 4 = 0 ->
  text_permitted flex_goes (flex_may flex_readable) ss (flex_start p n) ->
  flex_set_out K p n = Val h0 -> text_journey (flex_api K) ss h0 = Val (h, oks) ->
  (forall pre e post, ss = pre ++ Call e :: post -> nth (List.length pre) oks false = true) ->
  exists b d, (x <- flex_new K ;; run_all flex_do (calls_of ss) x) = Val b /\ flex_data (th_buffer h) = Val d /\ all_bytes d = all_bytes b.
Proof.
  intros K p n ss h0 h oks HK Hn M P E0 E O. destruct (C71_flex K p n ss HK Hn M P) as (h0' & h' & E0' & E' & R).
  assert (h0' = h0) by congruence. subst h0'. assert (Q : (h', snd (text_route flex_goes ss (flex_start p n))) = (h, oks)) by congruence.
  injection Q as -> <-. destruct R as (_ & _ & _ & _ & _ & d & D & W).
  assert (Ok : Forall flex_edit_ok (calls_of ss)).
  { clear - P. revert P. generalize (flex_start p n). induction ss as [|l ss IH]; intros v P; [constructor|destruct P as [P1 P2]].
    destruct l; cbn [calls_of]; try (eapply IH, P2). constructor; [exact P1|eapply IH, P2]. }
  destruct (C42_flex_histories K (calls_of ss) HK Ok) as (b & Eb & _ & _ & _ & _ & Wb & _).
  exists b, d. split; [exact Eb|]. split; [exact D|]. rewrite (flex_route_free ss _ O) in W. etransitivity; [exact W|]. symmetry. exact Wb.
Qed.
Print Assumptions C71_flex_route_free.

(** Three packets of lyrics in a vector, too long for one array, copied to another, shortened there, sent and received,
    and made longer again. *)
Definition lyrics : flex_kind := {| fk_name := "Lyrics"; fk_bank := 2; fk_status := 1 |}.
Definition flex_way : list (text_leg flex_edit) :=
  [Call (FChannel (Some 3%N)); Call (FText (letters 30)); ToArray 8; ToArray 16; Call (FText (letters 50)); Call (FGroup 7%N);
   Call (FText (letters 5)); DataToArray 8; Parsed; Call (FText (letters 20)); ToVec].
Example C71_case_flex :
  In lyrics flex_texts /\ text_permitted flex_goes (flex_may flex_readable) flex_way (flex_start TextVec 4)
  /\ snd (text_route flex_goes flex_way (flex_start TextVec 4)) = [true; true; false; true; false; true; true; true; true; true; true]
  /\ tv_length (fst (text_route flex_goes flex_way (flex_start TextVec 4))) = 8
  /\ fs_text (tv_state (fst (text_route flex_goes flex_way (flex_start TextVec 4)))) = letters 20.
Proof.
  assert (B : forall n, is_bytes (letters n)) by (intros n; apply string_bytes, letters_string).
  split; [unfold flex_texts, lyrics; cbn [In]; tauto|].
  split; [|split; [vm_compute; reflexivity|split; vm_compute; reflexivity]].
  unfold flex_way. repeat (split; [first [exact (B _)|exact I|reflexivity
    |intros c E; injection E as <-; reflexivity|split; [reflexivity|vm_compute; repeat constructor]|idtac]|]); try exact I.
  exists (letters 5). split; [repeat constructor; vm_compute; auto|vm_compute; reflexivity].
Qed.

(** ** Stream texts *)

Section Stream.
Variable K : stream_kind.
Hypothesis HK : In K stream_texts.
Let off := sk_off K.

Definition stream_readable (s : stream_state) : Prop := is_string (ss_name s) /\ one_block K s.
Definition stream_shows (v : text_view stream_state) (h : text_held) : Prop :=
  th_place h = tv_place v /\ List.length (th_buffer h) = tv_length v /\ tv_length v mod 4 = 0 /\ sstate K (tv_state v) (th_buffer h).

Lemma stream_vec_name s t b : is_bytes t -> List.length b mod 4 = 0 -> sstate K s b ->
  exists b', stream_set_text off b t = Val b' /\ sstate K (stream_after off None s (SName t)) b'
    /\ List.length b' = stream_words off (stream_after off None s (SName t)).
Proof.
  intros Ht M S0. pose proof (sh_room S0) as R. pose proof (sh_off _ _ _ _ _ S0) as Ho. unfold off in *.
  destruct (set_name_sholds (sk_off K) b t Ho Ht ltac:(lia)) as (b' & E' & L' & S1).
  rewrite (sholds_st S0) in S1. exists b'. split; [exact E'|]. split; [|exact L'].
  unfold sstate, stream_after. cbn [stream_accepted fits negb ss_block ss_name].
  destruct (Nat.eq_dec (sk_off K) 1) as [E|E].
  - eapply sholds_ext; [|exact S1]. intros p. cbn beta. destruct (_ <? _); [|reflexivity].
    now apply (sholds_old _ _ _ _ _ S0 Ho).
  - assert (E0 : sk_off K = 0) by lia. rewrite E0 in S1 |- *. eapply sholds_noblk, S1.
Qed.
Lemma stream_trim s b : sstate K s b ->
  exists d, stream_data b = Val d /\ List.length d = stream_words off s /\ sstate K (trimmed off s) d
    /\ all_bytes d = stream_wire (sk_status K) (block_numbers K s) (ss_name s)
    /\ (stream_readable s -> stream_try_from K d = Val (Ok d)).
Proof.
  intros S0. destruct (sholds_data S0) as [D _]. destruct (sholds_data_parse K s b (proj2 (stream_in K HK)) S0) as (d & D' & _ & W & P & _).
  rewrite D in D'. assert (E : firstn (4 * text_packets (14 - sk_off K) (List.length (ss_name s))) b = d) by congruence.
  exists d. split; [congruence|]. pose proof (sh_room S0) as R. split; [rewrite <- E, firstn_length; unfold stream_words, off; lia|].
  split; [rewrite <- E; exact (sholds_trim S0)|]. split; [exact W|]. intros [P1 P2]. auto.
Qed.

Lemma stream_step l v h : stream_shows v h -> stream_may off stream_readable l v ->
  exists h', text_step (stream_api K) l h = Val (h', snd (stream_goes off l v)) /\ stream_shows (fst (stream_goes off l v)) h'.
Proof.
  destruct v as [p n s], h as [p' b]. unfold stream_shows. cbn [th_place th_buffer tv_place tv_length tv_state]. intros (-> & L & M & S0) P.
  destruct l as [e| |m|m|]; cbn [stream_may tv_state] in P; unfold text_step; cbn [th_place th_buffer stream_api ta_set ta_try_set ta_type ta_parse].
  - destruct p; cbn [stream_goes tv_place tv_length tv_state].
    + destruct e as [x|t]; cbn [stream_do].
      * destruct P as [E Hx]. unfold sstate in S0. unfold off in *. pose proof S0 as S2. rewrite E in S0. destruct (block_write_sholds _ _ _ _ x S0 Hx) as (b' & E' & L' & S1).
        rewrite E'. cbn [bind]. eexists. split; [reflexivity|]. cbn [fst seen tv_place tv_length tv_state th_place th_buffer].
        split; [reflexivity|]. split; [lia|]. split; [exact M|]. unfold sstate. rewrite E. rewrite L in S1. exact S1.
      * destruct (stream_vec_name s t b P ltac:(now rewrite L) S0) as (b' & E' & S1 & L1). unfold off in *. rewrite E'. cbn [bind]. eexists. split; [reflexivity|].
        cbn [fst seen tv_place tv_length tv_state th_place th_buffer]. split; [reflexivity|]. split; [exact L1|]. split; [apply words_mod|exact S1].
    + destruct (stream_try_do_ok K s e b P S0) as (b' & E' & S1 & L1). rewrite E'. cbn [bind fst snd]. rewrite L in S1 |- *. unfold off.
      eexists. split; [destruct e; reflexivity|]. destruct e; cbn [fst seen tv_place tv_length tv_state th_place th_buffer]; shown.
  - eexists. split; [reflexivity|]. shown.
  - unfold try_rebuffer_array, stream_goes. cbn [tv_length tv_state]. rewrite L. destruct (Nat.leb_spec n m) as [Le|Le].
    + replace (m <? n) with false by lia. eexists. split; [reflexivity|]. cbn [fst seen tv_place tv_length tv_state th_place th_buffer].
      split; [reflexivity|]. split; [rewrite app_length, repeat_length; lia|]. split; [exact P|]. apply extend_stream; [now rewrite L|exact S0].
    + replace (m <? n) with true by lia. eexists. split; [reflexivity|]. shown.
  - destruct P as [P Hm]. destruct (stream_trim s b S0) as (d & D & Ld & Sd & _). unfold agg_array_rebuffer, agg_data. cbn [fst snd concrete_data]. rewrite D. cbn [bind].
    replace (m <? List.length d) with false by lia. cbn [bind snd]. eexists. split; [reflexivity|]. cbn [fst snd stream_goes seen tv_place tv_length tv_state th_place th_buffer].
    split; [reflexivity|]. split; [rewrite app_length, repeat_length; lia|]. split; [exact P|]. apply extend_stream; [rewrite Ld; apply words_mod|exact Sd].
  - destruct (stream_trim s b S0) as (d & D & Ld & Sd & _ & Pd). cbn [concrete_data]. rewrite D. cbn [bind]. rewrite (Pd P). cbn [bind].
    eexists. split; [reflexivity|]. cbn [fst snd stream_goes seen tv_place tv_length tv_state th_place th_buffer]. split; [reflexivity|]. split; [exact Ld|]. split; [apply words_mod|exact Sd].
Qed.
Lemma stream_journey ss : forall v h, stream_shows v h -> text_permitted (stream_goes off) (stream_may off stream_readable) ss v ->
  exists h', text_journey (stream_api K) ss h = Val (h', snd (text_route (stream_goes off) ss v)) /\ stream_shows (fst (text_route (stream_goes off) ss v)) h'.
Proof.
  induction ss as [|l ss IH]; intros v h S0 P; [cbn; eauto|]. destruct P as [P1 P2]. destruct (stream_step l v h S0 P1) as (h1 & E1 & S1).
  cbn [text_journey text_route]. rewrite E1. cbn [bind fst snd]. destruct (stream_goes off l v) as [v1 ok]. cbn [fst snd] in *.
  destruct (IH v1 h1 S1 P2) as (h2 & -> & S2). cbn [bind]. destruct (text_route (stream_goes off) ss v1) as [v2 oks]. cbn [fst snd] in *. eauto.
Qed.

Definition stream_start (p : text_place) (n : nat) : text_view stream_state :=
  seen p (match p with TextVec => 4 | TextArray => n end) stream_fresh.
Lemma stream_starts p n : 4 <= n -> n mod 4 = 0 -> exists h, stream_set_out K p n = Val h /\ stream_shows (stream_start p n) h.
Proof.
  intros Hn M. unfold stream_set_out. destruct p.
  - destruct (stream_new_fresh K (stream_in K HK)) as (b & -> & L & S0). cbn [bind]. eexists. split; [reflexivity|]. shown.
  - pose proof (stream_try_new_fresh K n (stream_in K HK)) as T. replace (n <? 4) with false in T by lia. destruct T as (b & -> & L & S0).
    cbn [unwrapped bind]. eexists. split; [reflexivity|]. shown.
Qed.
End Stream.

Definition stream_reads (K : stream_kind) (v : text_view stream_state) (h : text_held) : Prop :=
  let s := tv_state v in let b := th_buffer h in
  th_place h = tv_place v /\ List.length b = tv_length v
  /\ stream_text_bytes K b = Val (without_nul (ss_name s)) /\ (sk_off K = 1 -> block_read b = Val (ss_block s 0))
  /\ exists d, stream_data b = Val d /\ all_bytes d = stream_wire (sk_status K) (block_numbers K s) (ss_name s).

Theorem C71_stream : forall K p n ss, In K stream_texts -> 4 <= n -> n mod 4 = 0 ->
  let go := stream_goes (sk_off K) in
  text_permitted go (stream_may (sk_off K) (stream_readable K)) ss (stream_start p n) ->
  exists h0 h, stream_set_out K p n = Val h0
    /\ text_journey (stream_api K) ss h0 = Val (h, snd (text_route go ss (stream_start p n)))
    /\ stream_reads K (fst (text_route go ss (stream_start p n))) h.
Proof.
  intros K p n ss HK Hn M go P. destruct (stream_starts K HK p n Hn M) as (h0 & E0 & S0). destruct (stream_journey K HK ss _ _ S0 P) as (h & E & S1).
  exists h0, h. split; [exact E0|]. split; [exact E|]. destruct S1 as (Ep & L & _ & S1). split; [exact Ep|]. split; [exact L|].
  split; [apply (sholds_bytes S1)|]. split; [apply (sholds_block S1)|].
  destruct (stream_trim K HK _ _ S1) as (d & D & _ & _ & W & _). eauto.
Qed.
Print Assumptions C71_stream.

(** The name does not depend on the way: if no call was refused it is the last one that was set. *)
Definition last_name (h : list stream_edit) : list N :=
  fold_left (fun l e => match e with SName t => t | SBlock _ => l end) h [].
Lemma stream_route_name off ss : forall v, (forall pre e post, ss = pre ++ Call e :: post -> nth (List.length pre) (snd (text_route (stream_goes off) ss v)) false = true) ->
  ss_name (tv_state (fst (text_route (stream_goes off) ss v)))
  = fold_left (fun l e => match e with SName t => t | SBlock _ => l end) (calls_of ss) (ss_name (tv_state v)).
Proof.
  induction ss as [|l ss IH]; intros v O; [reflexivity|].
  assert (T : forall pre e post, ss = pre ++ Call e :: post -> nth (List.length pre) (snd (text_route (stream_goes off) ss (fst (stream_goes off l v)))) false = true).
  { intros pre e post ->. specialize (O (l :: pre) e post eq_refl). cbn [List.length text_route] in O. destruct (stream_goes off l v) as [v1 ok]. cbn [fst].
    destruct (text_route (stream_goes off) (pre ++ Call e :: post) v1) as [v2 oks]. exact O. }
  specialize (IH _ T). cbn [text_route]. destruct (stream_goes off l v) as [v1 ok] eqn:G. cbn [fst] in IH.
  destruct (text_route (stream_goes off) ss v1) as [v2 oks] eqn:R. cbn [fst] in *.
  rewrite IH. destruct l as [e| |m|m|]; cbn [calls_of fold_left]; f_equal;
    [|cbn in G; injection G as <- _; reflexivity|cbn in G; destruct (_ <=? _); injection G as <- _; reflexivity|cbn in G; injection G as <- _; reflexivity..].
  specialize (O [] e ss eq_refl). cbn [List.length text_route] in O. rewrite G, R in O. cbn [nth snd] in O. subst ok.
  assert (G1 := f_equal fst G). assert (G2 := f_equal snd G). cbn [fst snd] in G1, G2. rewrite <- G1. clear - G2.
  unfold stream_goes in *. destruct (tv_place v), e; try reflexivity. cbn [fst snd tv_state seen] in *. unfold stream_after. rewrite G2. reflexivity.
Qed.
Theorem C71_stream_name : forall K p n ss h0 h oks, In K stream_texts -> 4 <= n -> n mod 4 = 0 ->
  text_permitted (stream_goes (sk_off K)) (stream_may (sk_off K) (stream_readable K)) ss (stream_start p n) ->
  stream_set_out K p n = Val h0 -> text_journey (stream_api K) ss h0 = Val (h, oks) ->
  (forall pre e post, ss = pre ++ Call e :: post -> nth (List.length pre) oks false = true) ->
  stream_text_bytes K (th_buffer h) = Val (without_nul (last_name (calls_of ss))).
Proof.
  intros K p n ss h0 h oks HK Hn M P E0 E O. destruct (C71_stream K p n ss HK Hn M P) as (h0' & h' & E0' & E' & R).
  assert (h0' = h0) by congruence. subst h0'. assert (Q : (h', snd (text_route (stream_goes (sk_off K)) ss (stream_start p n))) = (h, oks)) by congruence.
  injection Q as -> <-. destruct R as (_ & _ & R & _). rewrite R. f_equal. f_equal. exact (stream_route_name _ ss _ O).
Qed.
Print Assumptions C71_stream_name.

(** Refuted: the block numbers do.  The same two calls, once in a vector and once in an array, send different messages. *)
Theorem C71_stream_block_refuted : forall K, In K stream_texts -> sk_off K = 1 -> exists ss ss' h0 h h' d d' oks oks',
  calls_of ss = calls_of ss' /\ forallb (fun x => x) oks = true /\ forallb (fun x => x) oks' = true
  /\ stream_set_out K TextVec 4 = Val h0 /\ text_journey (stream_api K) ss h0 = Val (h, oks) /\ text_journey (stream_api K) ss' h0 = Val (h', oks')
  /\ stream_data (th_buffer h) = Val d /\ stream_data (th_buffer h') = Val d' /\ all_bytes d <> all_bytes d'.
Proof.
  intros K HK O. set (calls := [Call (SBlock 5%N); Call (SName (repeat 65%N 14))]).
  assert (B : is_bytes (repeat 65%N 14)) by repeat constructor.
  destruct (C71_stream K TextVec 4 calls HK ltac:(lia) eq_refl) as (h0 & h & E0 & E & R).
  { repeat split; auto. }
  destruct (C71_stream K TextVec 4 (ToArray 8 :: calls) HK ltac:(lia) eq_refl) as (h0' & h' & E0' & E' & R').
  { repeat split; auto. }
  assert (h0' = h0) by congruence. subst h0'. destruct R as (_ & _ & _ & _ & d & D & W), R' as (_ & _ & _ & _ & d' & D' & W').
  exists calls, (ToArray 8 :: calls), h0, h, h', d, d'. do 2 eexists. split; [reflexivity|].
  split; [|split; [|split; [exact E0|split; [exact E|split; [exact E'|split; [exact D|split; [exact D'|]]]]]]]; try (rewrite O; vm_compute; reflexivity).
  rewrite W, W'. intros X. unfold block_numbers in X. rewrite O in X. apply (f_equal (fun l => nth 18 l 0%N)) in X. vm_compute in X. discriminate X.
Qed.
Print Assumptions C71_stream_block_refuted.

Definition block_name : stream_kind := {| sk_name := "FunctionBlockName"; sk_status := 0x12; sk_off := 1 |}.
Definition stream_way : list (text_leg stream_edit) :=
  [Call (SName (letters 30)); Call (SBlock 3%N); ToArray 8; ToArray 16; Call (SName (letters 70)); Call (SName (letters 5)); DataToArray 8; Parsed;
   Call (SName (letters 20)); ToVec].
Example C71_case_stream :
  In block_name stream_texts /\ text_permitted (stream_goes 1) (stream_may 1 (stream_readable block_name)) stream_way (stream_start TextVec 4)
  /\ snd (text_route (stream_goes 1) stream_way (stream_start TextVec 4)) = [true; true; false; true; false; true; true; true; true; true]
  /\ ss_name (tv_state (fst (text_route (stream_goes 1) stream_way (stream_start TextVec 4)))) = letters 20.
Proof.
  assert (B : forall n, is_bytes (letters n)) by (intros n; apply string_bytes, letters_string).
  split; [unfold stream_texts, block_name; cbn [In]; tauto|].
  split; [|split; vm_compute; reflexivity].
  unfold stream_way. repeat (split; [first [exact (B _)|exact I|reflexivity|split; [reflexivity|vm_compute; repeat constructor]|idtac]|]); try exact I.
  - exists (letters 5). split; [repeat constructor; vm_compute; auto|vm_compute; reflexivity].
  - intros _ p Hp. destruct p as [|p]; [reflexivity|]. vm_compute in Hp. lia.
Qed.
