(** Lemmas: UTF-8. *)
From Coq Require Import NArith ZArith List String Bool Arith Lia Zify ZifyBool ZifyNat ZifyN.
From Verif Require Import Base Text SpecText TextHeader.
Import ListNotations.
Local Open Scope nat_scope.

Ltac hide x m := set (m := x) in *; clearbody m.

Lemma utf8_char_ok c l : scalar c -> utf8_ok (utf8_char c ++ l) = utf8_ok l.
Proof.
  intros Hc. unfold scalar in Hc. unfold utf8_char.
  destruct (N.ltb_spec c 0x80).
  { cbn [app utf8_ok]. now replace (c <? 0x80)%N with true by lia. }
  destruct (N.ltb_spec c 0x800).
  { cbn [app utf8_ok]. unfold between.
    assert (2 <= c / 64 < 32)%N by lia_div. assert (c mod 64 < 64)%N by lia_div. hide (c / 64)%N u0. hide (c mod 64)%N u1.
    replace (192 + u0 <? 128)%N with false by lia.
    replace ((194 <=? 192 + u0) && (192 + u0 <=? 223))%N with true by lia.
    replace ((128 <=? 128 + u1) && (128 + u1 <=? 191))%N with true by lia. reflexivity. }
  destruct (N.ltb_spec c 0x10000).
  { cbn [app utf8_ok]. unfold between.
    assert (c / 4096 < 16)%N by lia_div. assert (c mod 64 < 64)%N by lia_div.
    assert (c / 64 mod 64 < 64)%N by lia_div.
    assert (c / 4096 = 0 -> 32 <= c / 64 mod 64)%N by lia_div.
    assert (c / 4096 = 13 -> c / 64 mod 64 < 32)%N by lia_div.
    hide (c / 64 mod 64)%N u0. hide (c / 4096)%N u1. hide (c mod 64)%N u2.
    replace (224 + u1 <? 128)%N with false by lia.
    replace ((194 <=? 224 + u1) && (224 + u1 <=? 223))%N with false by lia.
    replace ((224 <=? 224 + u1) && (224 + u1 <=? 239))%N with true by lia.
    replace ((128 <=? 128 + u2) && (128 + u2 <=? 191))%N with true by lia.
    match goal with |- ?a && _ && _ = _ => replace a with true end; [reflexivity|].
    destruct (N.eqb_spec (224 + u1) 224), (N.eqb_spec (224 + u1) 237); lia. }
  { cbn [app utf8_ok]. unfold between.
    assert (c / 262144 < 5)%N by lia_div. assert (c mod 64 < 64)%N by lia_div.
    assert (c / 64 mod 64 < 64)%N by lia_div. assert (c / 4096 mod 64 < 64)%N by lia_div.
    assert (c / 262144 = 0 -> 16 <= c / 4096 mod 64)%N by lia_div.
    assert (c / 262144 = 4 -> c / 4096 mod 64 < 16)%N by lia_div.
    hide (c / 4096 mod 64)%N u0. hide (c / 64 mod 64)%N u1. hide (c / 262144)%N u2. hide (c mod 64)%N u3.
    replace (240 + u2 <? 128)%N with false by lia.
    replace ((194 <=? 240 + u2) && (240 + u2 <=? 223))%N with false by lia.
    replace ((224 <=? 240 + u2) && (240 + u2 <=? 239))%N with false by lia.
    replace ((240 <=? 240 + u2) && (240 + u2 <=? 244))%N with true by lia.
    replace ((128 <=? 128 + u3) && (128 + u3 <=? 191))%N with true by lia.
    replace ((128 <=? 128 + u1) && (128 + u1 <=? 191))%N with true by lia.
    match goal with |- ?a && _ && _ && _ = _ => replace a with true end; [reflexivity|].
    destruct (N.eqb_spec (240 + u2) 240), (N.eqb_spec (240 + u2) 244); lia. }
Qed.

Lemma string_cons c t : scalar c -> is_string t -> is_string (utf8_char c ++ t).
Proof. intros Hc (s & Hs & ->). exists (c :: s). split; [now constructor|reflexivity]. Qed.

Lemma char2 a b : (0xC2 <= a <= 0xDF -> 0x80 <= b <= 0xBF ->
  exists c, scalar c /\ utf8_char c = [a; b])%N.
Proof.
  intros Ha Hb. exists ((a - 0xC0) * 64 + (b - 0x80))%N. set (c := ((a - 0xC0) * 64 + (b - 0x80))%N).
  assert (c / 64 = a - 0xC0)%N by (unfold c; lia_div). assert (c mod 64 = b - 0x80)%N by (unfold c; lia_div).
  assert (0x80 <= c < 0x800)%N by (unfold c; lia). split; [unfold scalar; lia|].
  unfold utf8_char. replace (c <? 0x80)%N with false by lia. replace (c <? 0x800)%N with true by lia.
  f_equal; [lia|]. f_equal. lia.
Qed.

Lemma char3 a b d : (0xE0 <= a <= 0xEF -> 0x80 <= b <= 0xBF -> 0x80 <= d <= 0xBF ->
  (a = 0xE0 -> 0xA0 <= b) -> (a = 0xED -> b <= 0x9F) ->
  exists c, scalar c /\ utf8_char c = [a; b; d])%N.
Proof.
  intros Ha Hb Hd H1 H2. exists ((a - 0xE0) * 4096 + (b - 0x80) * 64 + (d - 0x80))%N.
  set (c := ((a - 0xE0) * 4096 + (b - 0x80) * 64 + (d - 0x80))%N).
  assert (c / 4096 = a - 0xE0)%N by (unfold c; lia_div).
  assert (c / 64 mod 64 = b - 0x80)%N by (unfold c; lia_div).
  assert (c mod 64 = d - 0x80)%N by (unfold c; lia_div).
  assert (0x800 <= c < 0x10000)%N by (unfold c; lia). split; [unfold scalar; lia_div|].
  unfold utf8_char. replace (c <? 0x80)%N with false by lia. replace (c <? 0x800)%N with false by lia.
  replace (c <? 0x10000)%N with true by lia. f_equal; [lia|]. f_equal; [lia|]. f_equal. lia.
Qed.

Lemma char4 a b d e : (0xF0 <= a <= 0xF4 -> 0x80 <= b <= 0xBF -> 0x80 <= d <= 0xBF -> 0x80 <= e <= 0xBF ->
  (a = 0xF0 -> 0x90 <= b) -> (a = 0xF4 -> b <= 0x8F) ->
  exists c, scalar c /\ utf8_char c = [a; b; d; e])%N.
Proof.
  intros Ha Hb Hd He H1 H2. exists ((a - 0xF0) * 262144 + (b - 0x80) * 4096 + (d - 0x80) * 64 + (e - 0x80))%N.
  set (c := ((a - 0xF0) * 262144 + (b - 0x80) * 4096 + (d - 0x80) * 64 + (e - 0x80))%N).
  assert (c / 262144 = a - 0xF0)%N by (unfold c; lia_div).
  assert (c / 4096 mod 64 = b - 0x80)%N by (unfold c; lia_div).
  assert (c / 64 mod 64 = d - 0x80)%N by (unfold c; lia_div).
  assert (c mod 64 = e - 0x80)%N by (unfold c; lia_div).
  assert (0x10000 <= c < 0x110000)%N by (unfold c; lia). split; [unfold scalar; lia|].
  unfold utf8_char. replace (c <? 0x80)%N with false by lia. replace (c <? 0x800)%N with false by lia.
  replace (c <? 0x10000)%N with false by lia. f_equal; [lia|]. f_equal; [lia|]. f_equal; [lia|]. f_equal. lia.
Qed.

Lemma utf8_spec l : utf8_ok l = true <-> is_string l.
Proof.
  split.
  - remember (List.length l) as n eqn:En. revert l En.
    induction n as [n IH] using lt_wf_ind. intros l En H.
    destruct l as [|a l1]; [exists []; split; [constructor|reflexivity]|]. cbn [utf8_ok] in H.
    destruct (N.ltb_spec a 0x80) as [Ha|Ha].
    { change (a :: l1) with ([a] ++ l1). replace [a] with (utf8_char a).
      - apply string_cons; [unfold scalar; lia|]. eapply IH; [|reflexivity|exact H]. cbn in En. lia.
      - unfold utf8_char. now replace (a <? 0x80)%N with true by lia. }
    unfold between in H. destruct ((194 <=? a) && (a <=? 223))%N eqn:E2.
    { destruct l1 as [|b l2]; [discriminate|]. apply andb_true_iff in H. destruct H as [Hb H].
      destruct (char2 a b) as (c & Hc & Ec); [lia|lia|].
      change (a :: b :: l2) with ([a; b] ++ l2). rewrite <- Ec. apply string_cons; auto.
      eapply IH; [|reflexivity|exact H]. cbn in En. lia. }
    destruct ((224 <=? a) && (a <=? 239))%N eqn:E3.
    { destruct l1 as [|b [|d l3]]; try discriminate. rewrite !andb_true_iff in H. destruct H as [[[H1 H2] H3] H].
      destruct (char3 a b d) as (c & Hc & Ec).
      1-5: destruct (N.eqb_spec a 224), (N.eqb_spec a 237); lia.
      change (a :: b :: d :: l3) with ([a; b; d] ++ l3). rewrite <- Ec. apply string_cons; auto.
      eapply IH; [|reflexivity|exact H]. cbn in En. lia. }
    destruct ((240 <=? a) && (a <=? 244))%N eqn:E4; [|discriminate].
    destruct l1 as [|b [|d [|e l4]]]; try discriminate. rewrite !andb_true_iff in H. destruct H as [[[[H1 H2] H3] H4] H].
    destruct (char4 a b d e) as (c & Hc & Ec).
    1-6: destruct (N.eqb_spec a 240), (N.eqb_spec a 244); lia.
    change (a :: b :: d :: e :: l4) with ([a; b; d; e] ++ l4). rewrite <- Ec. apply string_cons; auto.
    eapply IH; [|reflexivity|exact H]. cbn in En. lia.
  - intros (s & Hs & ->). induction Hs as [|c s Hc Hs IH]; [reflexivity|].
    change (utf8 (c :: s)) with (utf8_char c ++ utf8 s). now rewrite utf8_char_ok.
Qed.

Lemma utf8_char_bytes c : scalar c -> is_bytes (utf8_char c).
Proof.
  intros Hc. unfold scalar in Hc. unfold utf8_char, is_bytes.
  destruct (N.ltb_spec c 0x80); [repeat constructor; lia|].
  destruct (N.ltb_spec c 0x800); [repeat constructor; lia_div|].
  destruct (N.ltb_spec c 0x10000); repeat constructor; lia_div.
Qed.

Lemma string_bytes t : is_string t -> is_bytes t.
Proof.
  intros (s & Hs & ->). unfold is_bytes. induction Hs as [|c s Hc Hs IH]; [constructor|].
  change (utf8 (c :: s)) with (utf8_char c ++ utf8 s). apply Forall_app. split; [now apply utf8_char_bytes|exact IH].
Qed.

Lemma add_nonzero a b : (a <> 0 -> (a + b =? 0) = false)%N.
Proof. intros H. apply N.eqb_neq. lia. Qed.

(** Dropping the NUL bytes of a string drops its NUL characters. *)
Lemma utf8_char_nul c : scalar c -> without_nul (utf8_char c) = if (c =? 0)%N then [] else utf8_char c.
Proof.
  intros Hc. unfold without_nul, utf8_char.
  destruct (N.ltb_spec c 0x80).
  { cbn [filter]. now destruct (N.eqb_spec c 0). }
  replace (c =? 0)%N with false by lia.
  destruct (N.ltb_spec c 0x800); [|destruct (N.ltb_spec c 0x10000)]; cbn [filter];
    rewrite !add_nonzero by discriminate; reflexivity.
Qed.

Lemma without_nul_app a b : without_nul (a ++ b) = without_nul a ++ without_nul b.
Proof. apply filter_app. Qed.

Lemma string_without_nul t : is_string t -> is_string (without_nul t).
Proof.
  intros (s & Hs & ->). induction Hs as [|c s Hc Hs IH]; [exists []; split; [constructor|reflexivity]|].
  change (utf8 (c :: s)) with (utf8_char c ++ utf8 s). rewrite without_nul_app, utf8_char_nul by auto.
  destruct (c =? 0)%N; [exact IH|]. now apply string_cons.
Qed.

Lemma without_nul_id t : no_nul t -> without_nul t = t.
Proof.
  intros H. unfold without_nul. induction H as [|c t Hc H IH]; [reflexivity|]. cbn [filter].
  destruct (N.eqb_spec c 0); [contradiction|]. cbn [negb]. now rewrite IH.
Qed.
