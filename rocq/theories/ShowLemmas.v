(** Lemmas: Debug output. *)
From Coq Require Import NArith ZArith List String Ascii Bool Arith Lia Zify ZifyBool ZifyNat ZifyN.
From Verif Require Import Base Values Props PropLemmas Message MessageTable SpecLayout SpecFixed FixedLemmas Text Aggregate SpecAggregate AggregateLemmas Packet Show SpecShow.
Import ListNotations.
Local Open Scope string_scope.
Local Open Scope nat_scope.

(** ** Numbers *)


Lemma digit_ok d : (d < 16)%N -> digit_value (hex_digit d) = d.
Proof.
  intros H. assert (X : (d = 0 \/ d = 1 \/ d = 2 \/ d = 3 \/ d = 4 \/ d = 5 \/ d = 6 \/ d = 7 \/ d = 8 \/ d = 9 \/ d = 10 \/ d = 11 \/ d = 12 \/ d = 13 \/ d = 14 \/ d = 15)%N) by lia.
  repeat (destruct X as [->|X]; [reflexivity|]). now subst.
Qed.

Lemma digit_hex d : (d < 16)%N -> hex_chars (String (hex_digit d) "").
Proof.
  intros H. assert (X : (d = 0 \/ d = 1 \/ d = 2 \/ d = 3 \/ d = 4 \/ d = 5 \/ d = 6 \/ d = 7 \/ d = 8 \/ d = 9 \/ d = 10 \/ d = 11 \/ d = 12 \/ d = 13 \/ d = 14 \/ d = 15)%N) by lia.
  repeat (destruct X as [->|X]; [constructor; [cbn; tauto|constructor]|]). subst. constructor; [cbn; tauto|constructor].
Qed.
Lemma loop_hex fuel : forall v acc, hex_chars acc -> hex_chars (hex_loop fuel v acc).
Proof.
  induction fuel as [|n IH]; intros v acc H; [exact H|]. cbn [hex_loop].
  assert (X : hex_chars (String (hex_digit (v mod 16)) acc)).
  { pose proof (digit_hex (v mod 16) ltac:(apply N.mod_lt; lia)) as D. inversion D; subst. now constructor. }
  destruct (_ <? _)%N; auto.
Qed.
Lemma zeros_hex n s : hex_chars s -> hex_chars (zeros n ++ s).
Proof. intros H. induction n; [exact H|]. constructor; [now left|exact IHn]. Qed.

Lemma hex_value_loop fuel : forall v acc a, (v < 16 ^ N.of_nat fuel)%N ->
  exists k, k <= fuel /\ (0 < fuel -> 0 < k) /\ (v < 16 ^ N.of_nat k)%N /\ (k <= 1 \/ (16 ^ (N.of_nat k - 1) <= v)%N)
    /\ String.length (hex_loop fuel v acc) = k + String.length acc
    /\ hex_value (hex_loop fuel v acc) a = hex_value acc (a * 16 ^ N.of_nat k + v)%N.
Proof.
  induction fuel as [|n IH]; intros v acc a H.
  - exists 0. cbn [hex_loop]. change (16 ^ N.of_nat 0)%N with 1%N in *. assert (v = 0)%N by lia. subst v.
    repeat split; try lia. f_equal. lia.
  - cbn [hex_loop]. destruct (N.ltb_spec v 16) as [L|L].
    + exists 1. change (16 ^ N.of_nat 1)%N with 16%N. cbn [String.length hex_value]. rewrite digit_ok by (apply N.mod_lt; lia).
      rewrite N.mod_small by exact L. repeat split; try lia. 
    + assert (V : v = (16 * (v / 16) + v mod 16)%N) by (apply N.div_mod; lia).
      pose proof (N.mod_lt v 16 ltac:(lia)) as M.
      assert (H' : (v / 16 < 16 ^ N.of_nat n)%N).
      { apply N.div_lt_upper_bound; [lia|]. replace (N.of_nat (S n)) with (N.succ (N.of_nat n)) in H by lia. rewrite N.pow_succ_r' in H. exact H. }
      destruct (IH (v / 16)%N (String (hex_digit (v mod 16)) acc) a H') as (k & K1 & K2 & K3 & K4 & K5 & K6).
      assert (Kp : 0 < k).
      { destruct k; [|lia]. change (16 ^ N.of_nat 0)%N with 1%N in K3. assert (v / 16 = 0)%N by lia. lia. }
      exists (S k). replace (N.of_nat (S k)) with (N.succ (N.of_nat k)) by lia. rewrite N.pow_succ_r'. rewrite K5, K6. cbn [String.length hex_value].
      rewrite digit_ok by exact M.
      split; [lia|]. split; [lia|]. split; [lia|]. split; [|split; [lia|f_equal; lia]].
      right. replace (N.succ (N.of_nat k) - 1)%N with (N.succ (N.of_nat k - 1))%N by lia. rewrite N.pow_succ_r'.
      destruct K4 as [K4|K4].
      2:{ apply N.le_trans with (16 * (v / 16))%N; [now apply N.mul_le_mono_l|]. rewrite V at 2. apply N.le_add_r. }
      assert (k = 1) by lia. subst k. change (16 ^ (N.of_nat 1 - 1))%N with 1%N. lia.
Qed.

Lemma hex_ok v w : 0 < w -> (v < 16 ^ N.of_nat w)%N -> String.length (hex v) <= w /\ hex_value (hex v) 0 = v.
Proof.
  intros Hw H. unfold hex. destruct (hex_value_loop (S (N.to_nat (N.log2 v))) v "" 0%N) as (k & K1 & K2 & K3 & K4 & K5 & K6).
  { replace (N.of_nat (S (N.to_nat (N.log2 v)))) with (N.succ (N.log2 v)) by lia. destruct (N.eq_dec v 0) as [->|Z]; [reflexivity|].
    pose proof (proj2 (N.log2_spec v ltac:(lia))) as L. eapply N.lt_le_trans; [exact L|]. apply N.pow_le_mono_l. lia. }
  rewrite K5, K6. cbn [String.length hex_value]. split; [|lia]. destruct K4 as [K4|K4]; [lia|].
  assert ((N.of_nat k - 1 < N.of_nat w)%N); [|lia]. apply (N.pow_lt_mono_r_iff 16); lia.
Qed.

Lemma zeros_length n : String.length (zeros n) = n.
Proof. induction n; cbn; congruence. Qed.
Lemma app_length_s s t : String.length (s ++ t) = String.length s + String.length t.
Proof. induction s; cbn; congruence. Qed.
Lemma hex_value_app s t a : hex_value (s ++ t) a = hex_value t (hex_value s a).
Proof. revert a. induction s; intros; cbn; auto. Qed.
Lemma hex_value_zeros n : hex_value (zeros n) 0 = 0%N.
Proof. induction n; [reflexivity|]. cbn [zeros hex_value]. exact IHn. Qed.

Lemma padded_ok w v : 0 < w -> (v < 16 ^ N.of_nat w)%N ->
  exists s, hex_padded (2 + w) v = "0x" ++ s /\ String.length s = w /\ hex_value s 0 = v /\ hex_chars s.
Proof.
  intros Hw H. destruct (hex_ok v w Hw H) as [L V]. eexists. split; [reflexivity|]. split.
  - rewrite app_length_s, zeros_length. lia.
  - split; [now rewrite hex_value_app, hex_value_zeros|]. apply zeros_hex, loop_hex. constructor.
Qed.

Definition unit_bound (u : unit_id) : N := match u with U8 => 256 | U32 => 2 ^ 32 end%N.

Lemma unit_ok u v : (v < unit_bound u)%N -> exists s, show_unit u v = "0x" ++ s /\ String.length s = unit_digits u /\ hex_value s 0 = v /\ hex_chars s.
Proof. intros H. destruct u; [apply (padded_ok 2)|apply (padded_ok 8)]; auto; lia. Qed.

(** ** Cutting strings up *)

Lemma app_cut s t s' t' : String.length s = String.length s' -> s ++ t = s' ++ t' -> s = s' /\ t = t'.
Proof.
  revert s'. induction s as [|a s IH]; intros [|a' s'] L E; try discriminate; [auto|]. cbn in L, E. injection E as -> E.
  destruct (IH s' ltac:(lia) E) as [-> ->]. auto.
Qed.
Lemma app_assoc_s s t r : (s ++ t) ++ r = s ++ (t ++ r).
Proof. induction s; cbn; congruence. Qed.

Lemma unit_cut u v v' r r' : (v < unit_bound u)%N -> (v' < unit_bound u)%N -> show_unit u v ++ r = show_unit u v' ++ r' -> v = v' /\ r = r'.
Proof.
  intros H H' E. destruct (unit_ok u v H) as (s & X & L & V & _). destruct (unit_ok u v' H') as (s' & X' & L' & V' & _). rewrite X, X' in E.
  rewrite !app_assoc_s in E. cbn in E. injection E as E. apply app_cut in E as [-> ->]; [|lia]. split; [congruence|reflexivity].
Qed.

Lemma units_cut u b : forall b' r r', Forall (fun v => v < unit_bound u)%N b -> Forall (fun v => v < unit_bound u)%N b' ->
  show_units u b ++ String "]" r = show_units u b' ++ String "]" r' -> b = b' /\ r = r'.
Proof.
  induction b as [|v b IH]; intros b' r r' F F' E.
  - destruct b' as [|v' b']; [cbn in E; injection E as ->; auto|]. exfalso. inversion F'; subst. destruct (unit_ok u v' ltac:(assumption)) as (s & X & _).
    cbn [show_units] in E. destruct b'; rewrite X in E; discriminate E.
  - inversion F as [|? ? Fv Fb]; subst. destruct b' as [|v' b'].
    { exfalso. destruct (unit_ok u v Fv) as (s & X & _). cbn [show_units] in E. destruct b; rewrite X in E; discriminate E. }
    inversion F' as [|? ? Fv' Fb']; subst. cbn [show_units] in E. destruct b as [|w b], b' as [|w' b'].
    + apply unit_cut in E as [-> E]; auto. injection E as ->. auto.
    + rewrite app_assoc_s in E. apply unit_cut in E as [-> E]; auto. discriminate E.
    + rewrite app_assoc_s in E. apply unit_cut in E as [-> E]; auto. discriminate E.
    + rewrite !app_assoc_s in E. apply unit_cut in E as [-> E]; auto. cbn in E. injection E as E.
      destruct (IH (w' :: b') r r' Fb Fb' E) as [-> ->]. auto.
Qed.

(** Names have no parenthesis. *)
Fixpoint plain (s : string) : bool := match s with "" => true | String a t => negb (Ascii.eqb a "(") && plain t end.

Lemma name_cut n : forall n' r r', plain n = true -> plain n' = true -> n ++ String "(" r = n' ++ String "(" r' -> n = n' /\ r = r'.
Proof.
  induction n as [|a n IH]; intros [|a' n'] r r' P P' E; cbn in P, P', E.
  - injection E as ->. auto.
  - injection E as <- _. rewrite Ascii.eqb_refl in P'. discriminate.
  - injection E as -> _. rewrite Ascii.eqb_refl in P. discriminate.
  - injection E as -> E. apply andb_prop in P as [_ P]. apply andb_prop in P' as [_ P']. destruct (IH n' r r' P P' E) as [-> ->]. auto.
Qed.

Lemma struct_cut u n n' b b' r r' : plain n = true -> plain n' = true ->
  Forall (fun v => v < unit_bound u)%N b -> Forall (fun v => v < unit_bound u)%N b' ->
  show_struct u n b ++ r = show_struct u n' b' ++ r' -> n = n' /\ b = b'.
Proof.
  intros P P' F F' E. unfold show_struct in E. rewrite !app_assoc_s in E. cbn [String.append] in E.
  apply name_cut in E as [-> E]; auto. injection E as E. apply units_cut in E as [-> _]; auto.
Qed.
