(** Lemmas on edits fed by an iterator: they do what the edit with the list of the items does, as
    long as the list ends where the iterator says so or is longer than what the buffer can take. *)
From Coq Require Import NArith List String Bool Arith Lia ZifyN ZifyNat ZifyBool.
From Verif Require Import Base BitOps Props Message Sysex Splice SpecSysex SpecEdits SysexClient Feed SpecFeed.
From Verif Require Import Machine MachineSysex MachineLemmas MachineOps MachineSplice.
Import ListNotations.
Local Open Scope list_scope.
Local Open Scope nat_scope.

(** The answers still to come. *)
Definition upcoming (f : feed) (p : peekable) (i : nat) : option N :=
  match pk_slot p with
  | Some v => match i with O => v | S j => fd_answer f (pk_calls p + j) end
  | None => fd_answer f (pk_calls p + i)
  end.
Lemma next_upcoming f p : fst (pk_next f p) = upcoming f p 0
  /\ (forall i, upcoming f (snd (pk_next f p)) i = upcoming f p (S i)) /\ pk_slot (snd (pk_next f p)) = None.
Proof.
  unfold pk_next, upcoming. destruct (pk_slot p) as [v|]; cbn [fst snd pk_slot pk_calls].
  - repeat split; reflexivity.
  - rewrite Nat.add_0_r. repeat split. intros i. now rewrite Nat.add_succ_r.
Qed.
Lemma peek_upcoming f p : fst (pk_peek f p) = upcoming f p 0 /\ forall i, upcoming f (snd (pk_peek f p)) i = upcoming f p i.
Proof.
  unfold pk_peek, upcoming. destruct (pk_slot p) as [v|] eqn:E; cbn [fst snd pk_slot pk_calls].
  - rewrite E. split; reflexivity.
  - rewrite Nat.add_0_r. split; [reflexivity|]. intros [|i]; [now rewrite Nat.add_0_r|]. now rewrite Nat.add_succ_r.
Qed.
(** The calls made when [w] items have been written. *)
Definition counted (p : peekable) (w : nat) : Prop :=
  match pk_slot p with Some _ => pk_calls p = S w | None => pk_calls p = w end.
Lemma next_counted f p w : counted p w -> counted (snd (pk_next f p)) (S w).
Proof. unfold counted, pk_next. destruct (pk_slot p); cbn; lia. Qed.
Lemma counted_le p w : counted p w -> pk_calls p <= S w.
Proof. unfold counted. destruct (pk_slot p); lia. Qed.
Lemma peek_counted f p w : counted p w -> counted (snd (pk_peek f p)) w.
Proof. unfold counted, pk_peek. destruct (pk_slot p) eqn:E; cbn; rewrite ?E; lia. Qed.

(** Operations that keep the length of the buffer. *)
Record steady (o : ops) : Prop := {
  st_compact : forall b b', o_compact o b = Val b' -> List.length b' = List.length b;
  st_resize : forall b n r, o_resize o b n = Val r -> List.length (fst r) = List.length b;
  st_write : forall b v i b', o_write o b v i = Val b' -> i <= 8 * List.length b /\ List.length b' = List.length b;
  st_move : forall b t to b', o_move o b t to = Val b' -> List.length b' = List.length b
}.

(** [data] is what the iterator will say, and it ends there or will not all be asked for. *)
Definition coming (f : feed) (p : peekable) (data : list N) : Prop :=
  forall i, i < List.length data -> upcoming f p i = nth_error data i.
Definition enough (o : ops) (f : feed) (p : peekable) (b : list N) (w : nat) (data : list N) : Prop :=
  upcoming f p (List.length data) = None
  \/ (steady o /\ w <= S (8 * List.length b) /\ S (8 * List.length b) < w + List.length data).

Lemma coming_cons f p v t : coming f p (v :: t) -> upcoming f p 0 = Some v /\ coming f (snd (pk_next f p)) t.
Proof.
  intros C. destruct (next_upcoming f p) as (_ & U & _). split; [apply (C 0); cbn; lia|].
  intros i I. rewrite U. apply (C (S i)). cbn. lia.
Qed.

Lemma fill_grows o at_ room : forall data b w b' w' rest dry, fill o b data at_ w room = Val (b', w', rest, dry) ->
  w <= w' /\ (w < room -> data <> [] -> w < w').
Proof.
  induction data as [|x t IH]; intros b w b' w' rest dry Fl; cbn [fill] in Fl.
  - destruct (w <? room); injection Fl as _ <- _ _; split; [lia|congruence|lia|congruence].
  - destruct (Nat.ltb_spec w room) as [L|L]; [|injection Fl as _ <- _ _; lia]. destruct (bind_val _ _ _ Fl) as (b3 & _ & F2). apply IH in F2. lia.
Qed.
Lemma fill_sim o f at_ room : forall data b p w, coming f p data -> enough o f p b w data -> counted p w ->
  match fill o b data at_ w room with
  | Panic => fill_f (room - w) o f b p at_ w = Panic
  | Val (b', w', rest, dry) => exists p', fill_f (room - w) o f b p at_ w = Val (b', w', p', dry)
      /\ w + List.length data = w' + List.length rest
      /\ (dry = true -> rest = [] /\ pk_calls p' <= S w')
      /\ (dry = false -> coming f p' rest /\ enough o f p' b' w' rest /\ counted p' w')
  end.
Proof.
  induction data as [|v t IH]; intros b p w C En Ct; cbn [fill].
  - destruct (Nat.ltb_spec w room) as [L|L].
    + destruct En as [En|(_ & E1 & E2)]; [|cbn in E2; lia]. cbn [List.length] in En.
      destruct (room - w) as [|k] eqn:K; [lia|]. cbn [fill_f]. destruct (next_upcoming f p) as (U & _ & Sl). rewrite En in U.
      pose proof (next_counted f p w Ct) as Ct'. destruct (pk_next f p) as [a p'] eqn:P. cbn [fst snd] in *. subst a.
      exists p'. repeat split; try discriminate. unfold counted in Ct'. rewrite Sl in Ct'. lia.
    + replace (room - w) with 0 by lia. cbn [fill_f]. exists p. repeat split; try discriminate; try tauto; lia.
  - destruct (Nat.ltb_spec w room) as [L|L].
    + destruct (room - w) as [|k] eqn:K; [lia|]. replace k with (room - S w) by lia. cbn [fill_f].
      destruct (coming_cons _ _ _ _ C) as [U0 C']. destruct (next_upcoming f p) as (U & Us & _). rewrite U0 in U.
      pose proof (next_counted f p w Ct) as Ct'. destruct (pk_next f p) as [a p'] eqn:P. cbn [fst snd] in *. subst a.
      destruct (o_write o b v (at_ + w)) as [b'|] eqn:W; cbn [bind]; [|reflexivity].
      assert (En' : enough o f p' b' (S w) t).
      { destruct En as [En|(St & E1 & E2)]; [left; rewrite Us; exact En|right].
        destruct (st_write o St _ _ _ _ W) as [I Lb]. rewrite Lb. cbn [List.length] in E2. split; [exact St|]. lia. }
      pose proof (IH b' p' (S w) C' En' Ct') as X. destruct (fill o b' t at_ (S w) room) as [[[[b2 w2] rest] dry]|] eqn:Fl; [|exact X].
      destruct X as (p2 & E & Tot & D1 & D2). exists p2. split; [exact E|]. split; [cbn [List.length]; lia|]. split; [exact D1|exact D2].
    + replace (room - w) with 0 by lia. cbn [fill_f]. exists p. repeat split; try discriminate; try tauto; lia.
Qed.

(** What happens between two rounds. *)
Lemma main_sim o f begin_ splice_ initial : forall k k' b data p w est tail extra,
  k <= k' -> coming f p data -> enough o f p b w data -> counted p w ->
  List.length data < k \/ (List.length data <= k /\ w < est /\ data <> []) ->
  match main_loop k o b data begin_ splice_ initial w est tail extra with
  | Panic => main_loop_f k' o f b p begin_ splice_ initial w est tail extra = Some Panic
  | Val r => exists p', main_loop_f k' o f b p begin_ splice_ initial w est tail extra = Some (Val (r, p'))
      /\ pk_calls p' <= S (w + List.length data)
  end.
Proof.
  induction k as [|k IH]; intros k' b data p w est tail extra K C En Ct Fu.
  { destruct Fu as [Fu|(Fu & _ & Ne)]; [lia|]. destruct data; [contradiction|cbn in Fu; lia]. }
  destruct k' as [|k']; [lia|]. cbn [main_loop main_loop_f].
  pose proof (fill_sim o f begin_ est data b p w C En Ct) as X.
  destruct (fill o b data begin_ w est) as [[[[b1 w1] rest] dry]|] eqn:Fl; cbn [bind]; [|rewrite X; reflexivity].
  apply fill_grows in Fl. destruct Fl as [Gr Pr].
  destruct X as (p1 & -> & Tot & Dry & Wet). destruct dry.
  { destruct (Dry eq_refl) as [-> Cl]. exists p1. split; [reflexivity|]. cbn in Tot. lia. }
  destruct (Wet eq_refl) as (C1 & En1 & Ct1). clear Dry Wet.
  destruct (Nat.eqb_spec w1 est) as [->|Ne]; cbn [negb]; [|reflexivity].
  destruct (peek_upcoming f p1) as [Pk Up]. pose proof (peek_counted f p1 est Ct1) as Ct2.
  destruct (pk_peek f p1) as [a p2] eqn:P. cbn [fst snd] in *.
  destruct rest as [|v t].
  - destruct En1 as [En1|(_ & E1 & E2)]; [|cbn in E2; lia]. cbn [List.length] in En1. rewrite En1 in Pk. subst a.
    exists p2. split; [reflexivity|]. apply counted_le in Ct2. cbn in Tot. lia.
  - assert (a = Some v) as -> by (rewrite Pk; apply (C1 0); cbn; lia).
    destruct (sub_chk (est + extra + initial) splice_) as [n|]; cbn [bind]; [|reflexivity].
    match goal with |- context [bind ?z _] => destruct z as [[[b2 est2] to2]|] eqn:St end; cbn [bind]; [|reflexivity].
    destruct (o_move o b2 tail to2) as [b3|] eqn:Mv; cbn [bind]; [|reflexivity].
    destruct (Nat.leb_spec est2 est) as [Le|Lt].
    + exists p2. split; [reflexivity|]. apply counted_le in Ct2. lia.
    + assert (C2 : coming f p2 (v :: t)) by (intros i I; rewrite Up; now apply C1).
      assert (En2 : enough o f p2 b3 est (v :: t)).
      { destruct En1 as [En1|(S1 & E1 & E2)]; [left; now rewrite Up|right]. split; [exact S1|].
        assert (Lb : List.length b3 = List.length b1).
        { rewrite (st_move o S1 _ _ _ _ Mv). destruct (tail <? begin_ + (est + extra)); [|now injection St as <- _ _].
          destruct (bind_val _ _ _ St) as ([b4 [sz|]] & R & St1); apply (st_resize o S1) in R; cbn [fst] in R.
          - destruct (bind_val _ _ _ St1) as (d & _ & St2). destruct (bind_val _ _ _ St2) as (t2 & _ & St3). now injection St3 as <- _ _.
          - now injection St1 as <- _ _. }
        rewrite Lb. now split. }
      pose proof (IH k' b3 (v :: t) p2 est est2 (begin_ + est2) (extra * 2) ltac:(lia) C2 En2 Ct2) as Y.
      assert (Fu' : List.length (v :: t) < k \/ (List.length (v :: t) <= k /\ est < est2 /\ v :: t <> [])).
      { right. split; [|split; [exact Lt|discriminate]]. destruct Fu as [Fu|(Fu & Le & Nd)]; [lia|]. specialize (Pr Le Nd). lia. }
      specialize (Y Fu'). destruct (main_loop k o b3 (v :: t) begin_ splice_ initial est est2 (begin_ + est2) (extra * 2)) as [r|]; [|exact Y].
      destruct Y as (p' & Ey & Cl). exists p'. split; [exact Ey|]. lia.
Qed.

Definition stop_at (o : ops) (f : feed) (b : list N) (l : list N) : Prop :=
  (forall i, i < List.length l -> fd_answer f i = nth_error l i)
  /\ (fd_answer f (List.length l) = None \/ (steady o /\ S (8 * List.length b) < List.length l)).

Lemma detail_sim o f l b lo hi fuel : stop_at o f b l -> List.length l < fuel ->
  match splice_detail o b {| s_items := l; s_hint := fd_hint f |} lo hi with
  | Panic => splice_detail_f fuel o b f lo hi = Some Panic
  | Val (b', ok) => exists c, splice_detail_f fuel o b f lo hi = Some (Val (b', ok, c)) /\ c <= S (List.length l)
  end.
Proof.
  intros [A En] Fu. unfold splice_detail, splice_detail_f. cbn [s_items s_hint].
  destruct (o_compact o b) as [b0|] eqn:Ec; cbn [bind]; [|reflexivity].
  destruct (o_payload_size o b0) as [initial|]; cbn [bind]; [|reflexivity].
  set (b_ := begin_of lo). set (e_ := end_of hi initial).
  destruct (sub_chk e_ b_) as [sp|]; cbn [bind]; [|reflexivity].
  match goal with |- context [bind ?z _] => destruct z as [[b1 est]|] eqn:St end; cbn [bind]; [|reflexivity].
  destruct (o_move o b1 e_ (e_ + est - sp)) as [b2|] eqn:Mv; cbn [bind]; [|reflexivity].
  assert (C : coming f pk_new l) by exact A.
  assert (E2 : enough o f pk_new b2 0 l).
  { destruct En as [En|[S1 En]]; [left; exact En|right]. split; [exact S1|].
    assert (Lb : List.length b2 = List.length b).
    { rewrite (st_move o S1 _ _ _ _ Mv). rewrite <- (st_compact o S1 _ _ Ec). destruct (e_ <? e_ + estimate (fd_hint f) - sp); [|now injection St as <- _].
      destruct (bind_val _ _ _ St) as (n & _ & St1). destruct (bind_val _ _ _ St1) as ([b4 [sz|]] & R & St2); apply (st_resize o S1) in R; cbn [fst] in R.
      - destruct (bind_val _ _ _ St2) as (d & _ & St3). now injection St3 as <- _.
      - now injection St2 as <- _. }
    rewrite Lb. lia. }
  pose proof (main_sim o f b_ sp initial (S (List.length l)) fuel b2 l pk_new 0 est (e_ + est - sp) 1 ltac:(lia) C E2 eq_refl ltac:(left; lia)) as X.
  destruct (main_loop (S (List.length l)) o b2 l b_ sp initial 0 est (e_ + est - sp) 1) as [r|]; [|rewrite X; reflexivity].
  destruct X as (p' & -> & Cl). cbn [then_do bind]. destruct r as [b3 w tail'|b3]; [|exists (pk_calls p'); split; [reflexivity|exact Cl]].
  destruct (o_move o b3 tail' (b_ + w)) as [b4|]; cbn [bind]; [|reflexivity].
  destruct (sub_chk (w + initial) sp) as [n|]; cbn [bind]; [|reflexivity].
  destruct (o_resize o b4 n) as [[b5 [sz|]]|]; cbn [bind]; [| |reflexivity]; exists (pk_calls p'); (split; [reflexivity|exact Cl]).
Qed.

Lemma splice_sim o f l b lo hi fuel : stop_at o f b l -> List.length l < fuel ->
  match splice o b {| s_items := l; s_hint := fd_hint f |} lo hi with
  | Panic => splice_f fuel o b f lo hi = Some Panic
  | Val b' => exists c, splice_f fuel o b f lo hi = Some (Val (b', c)) /\ c <= S (List.length l)
  end.
Proof.
  intros A Fu. pose proof (detail_sim o f l b lo hi fuel A Fu) as X. unfold splice, splice_f.
  destruct (splice_detail o b _ lo hi) as [[b' [|]]|]; cbn [bind]; [| |rewrite X; reflexivity]; destruct X as (c & -> & Cl); cbn [then_do bind];
    [now exists c|reflexivity].
Qed.
Lemma try_splice_sim o f l b lo hi fuel : stop_at o f b l -> List.length l < fuel ->
  match try_splice o b {| s_items := l; s_hint := fd_hint f |} lo hi with
  | Panic => try_splice_f fuel o b f lo hi = Some Panic
  | Val (b', ok) => exists c, try_splice_f fuel o b f lo hi = Some (Val (b', ok, c)) /\ c <= S (List.length l)
  end.
Proof.
  intros A Fu. pose proof (detail_sim o f l b lo hi fuel A Fu) as X. unfold try_splice, try_splice_f.
  destruct (splice_detail o b _ lo hi) as [[b' [|]]|]; cbn [bind]; [| |rewrite X; reflexivity]; destruct X as (c & -> & Cl); cbn [then_do bind];
    [now exists c|]. destruct (o_resize o b' 0) as [q|]; cbn [bind]; [now exists c|reflexivity].
Qed.

(** ** Iterators without end *)

Lemma fill_endless o f g at_ room : forall k b p w j, k = room - w -> (forall i, upcoming f p i = Some (g (j + i))) ->
  match fill_f k o f b p at_ w with
  | Panic => forall n, k <= n -> fill o b (map g (seq j n)) at_ w room = Panic
  | Val (b', w', p', dry) => dry = false /\ w' = w + k /\ (forall i, upcoming f p' i = Some (g (j + k + i)))
      /\ forall n, k <= n -> fill o b (map g (seq j n)) at_ w room = Val (b', w', map g (seq (j + k) (n - k)), false)
  end.
Proof.
  induction k as [|k IH]; intros b p w j K U; cbn [fill_f].
  - split; [reflexivity|]. split; [lia|]. split; [intros i; rewrite U; do 2 f_equal; lia|].
    intros n _. rewrite Nat.add_0_r, Nat.sub_0_r. destruct (seq j n) as [|x t]; cbn [map fill]; replace (w <? room) with false by lia; reflexivity.
  - destruct (next_upcoming f p) as (A & Us & _). rewrite U, Nat.add_0_r in A. destruct (pk_next f p) as [a p'] eqn:P. cbn [fst snd] in *. subst a.
    destruct (o_write o b (g j) (at_ + w)) as [b'|] eqn:W; cbn [bind].
    + assert (U' : forall i, upcoming f p' i = Some (g (S j + i))) by (intros i; rewrite Us, U; do 2 f_equal; lia).
      pose proof (IH b' p' (S w) (S j) ltac:(lia) U') as X. destruct (fill_f k o f b' p' at_ (S w)) as [[[[b2 w2] p2] dry]|].
      * destruct X as (D & Ew & U2 & X). split; [exact D|]. split; [lia|]. split; [intros i; rewrite U2; do 2 f_equal; lia|].
        intros n Hn. destruct n as [|n]; [lia|]. cbn [seq map fill]. replace (w <? room) with true by lia. rewrite W. cbn [bind].
        rewrite X by lia. do 2 f_equal. f_equal. f_equal. f_equal; lia.
      * intros n Hn. destruct n as [|n]; [lia|]. cbn [seq map fill]. replace (w <? room) with true by lia. rewrite W. cbn [bind]. apply X. lia.
    + intros n Hn. destruct n as [|n]; [lia|]. cbn [seq map fill]. replace (w <? room) with true by lia. now rewrite W.
Qed.

(** What the loop has answered after some rounds it answers for every list that is long enough. *)
Lemma main_endless o f g begin_ splice_ initial : forall k b p w est tail extra j r,
  (forall i, upcoming f p i = Some (g (j + i))) ->
  main_loop_f k o f b p begin_ splice_ initial w est tail extra = Some r ->
  exists m, forall n k', m <= n -> k <= k' ->
    (forall b' w' t, main_loop k' o b (map g (seq j n)) begin_ splice_ initial w est tail extra <> Val (Done b' w' t)).
Proof.
  induction k as [|k IH]; intros b p w est tail extra j r U E; cbn [main_loop_f] in E; [discriminate|].
  pose proof (fill_endless o f g begin_ est (est - w) b p w j eq_refl U) as X.
  destruct (fill_f (est - w) o f b p begin_ w) as [[[[b1 w1] p1] dry]|].
  - destruct X as (-> & Ew & U1 & X). destruct (Nat.eqb_spec w1 est) as [->|Ne]; cbn [negb] in E.
    + destruct (peek_upcoming f p1) as [Pk Up]. rewrite U1, Nat.add_0_r in Pk.
      destruct (pk_peek f p1) as [a p2] eqn:P. cbn [fst snd] in *. subst a.
      assert (Hd : forall n, est - w < n -> map g (seq (j + (est - w)) (n - (est - w)))
                  = g (j + (est - w)) :: map g (seq (S (j + (est - w))) (n - S (est - w)))).
      { intros n Hn. destruct (n - (est - w)) as [|z] eqn:Z; [lia|]. cbn [seq map]. now replace (n - S (est - w)) with z by lia. }
      destruct (sub_chk (est + extra + initial) splice_) as [n0|] eqn:Sb; cbn [bind] in E.
      * match type of E with context [bind ?z _] => destruct z as [[[b2 est2] to2]|] eqn:St end; cbn [bind] in E.
        -- destruct (o_move o b2 tail to2) as [b3|] eqn:Mv; cbn [bind] in E.
           ++ destruct (Nat.leb_spec est2 est) as [Le|Lt].
              ** exists (S (est - w)). intros n k' Hn Hk b' w' t H. destruct k' as [|k']; [lia|]. cbn [main_loop] in H.
                 rewrite X in H by lia. cbn [bind] in H. rewrite Nat.eqb_refl in H. cbn [negb] in H. rewrite Hd in H by lia.
                 rewrite Sb in H. cbn [bind] in H. rewrite St in H. cbn [bind] in H. rewrite Mv in H. cbn [bind] in H.
                 replace (est2 <=? est) with true in H by lia. discriminate.
              ** assert (U2 : forall i, upcoming f p2 i = Some (g (j + (est - w) + i))) by (intros i; rewrite Up; apply U1).
                 destruct (IH b3 p2 est est2 (begin_ + est2) (extra * 2) (j + (est - w)) r U2 E) as (m & Hm).
                 exists (S (est - w) + m). intros n k' Hn Hk b' w' t H. destruct k' as [|k']; [lia|]. cbn [main_loop] in H.
                 rewrite X in H by lia. cbn [bind] in H. rewrite Nat.eqb_refl in H. cbn [negb] in H.
                 pose proof (Hd n ltac:(lia)) as Hdn. pose proof (Hm (n - (est - w)) k' ltac:(lia) ltac:(lia) b' w' t) as No.
                 rewrite Hdn in H. rewrite Hdn in No. rewrite Sb in H. cbn [bind] in H. rewrite St in H. cbn [bind] in H. rewrite Mv in H. cbn [bind] in H.
                 replace (est2 <=? est) with false in H by lia. now apply No.
           ++ exists (S (est - w)). intros n k' Hn Hk b' w' t H. destruct k' as [|k']; [lia|]. cbn [main_loop] in H.
              rewrite X in H by lia. cbn [bind] in H. rewrite Nat.eqb_refl in H. cbn [negb] in H. rewrite Hd in H by lia.
              rewrite Sb in H. cbn [bind] in H. rewrite St in H. cbn [bind] in H. rewrite Mv in H. discriminate.
        -- exists (S (est - w)). intros n k' Hn Hk b' w' t H. destruct k' as [|k']; [lia|]. cbn [main_loop] in H.
           rewrite X in H by lia. cbn [bind] in H. rewrite Nat.eqb_refl in H. cbn [negb] in H. rewrite Hd in H by lia.
           rewrite Sb in H. cbn [bind] in H. rewrite St in H. discriminate.
      * exists (S (est - w)). intros n k' Hn Hk b' w' t H. destruct k' as [|k']; [lia|]. cbn [main_loop] in H.
        rewrite X in H by lia. cbn [bind] in H. rewrite Nat.eqb_refl in H. cbn [negb] in H. rewrite Hd in H by lia. rewrite Sb in H. discriminate.
    + exists (est - w). intros n k' Hn Hk b' w' t H. destruct k' as [|k']; [lia|]. cbn [main_loop] in H. rewrite X in H by lia. cbn [bind] in H.
      replace (w1 =? est) with false in H by lia. discriminate.
  - exists (est - w). intros n k' Hn Hk b' w' t H. destruct k' as [|k']; [lia|]. cbn [main_loop] in H. rewrite X in H by lia. discriminate.
Qed.

(** If an endless iterator comes to an answer, then a long list of its items is not spliced in. *)
Lemma splice_endless o f g b lo hi fuel r : (forall i, fd_answer f i = Some (g i)) -> splice_f fuel o b f lo hi = Some r ->
  exists m, forall n, m <= n -> splice o b {| s_items := map g (seq 0 n); s_hint := fd_hint f |} lo hi = Panic.
Proof.
  intros A E. unfold splice_f, splice_detail_f in E. unfold splice, splice_detail. cbn [s_items s_hint].
  destruct (o_compact o b) as [b0|]; cbn [bind] in *; [|exists 0; intros; reflexivity].
  destruct (o_payload_size o b0) as [initial|]; cbn [bind] in *; [|exists 0; intros; reflexivity].
  set (b_ := begin_of lo) in *. set (e_ := end_of hi initial) in *.
  destruct (sub_chk e_ b_) as [sp|]; cbn [bind] in *; [|exists 0; intros; reflexivity].
  match type of E with context [bind ?z _] => destruct z as [[b1 est]|] eqn:St end; cbn [bind] in *; [|exists 0; intros; reflexivity].
  destruct (o_move o b1 e_ (e_ + est - sp)) as [b2|]; cbn [bind] in *; [|exists 0; intros; reflexivity].
  destruct (main_loop_f fuel o f b2 pk_new b_ sp initial 0 est (e_ + est - sp) 1) as [q|] eqn:M; [|discriminate].
  destruct (main_endless o f g b_ sp initial fuel b2 pk_new 0 est (e_ + est - sp) 1 0 q A M) as (m & Hm).
  exists (m + fuel). intros n Hn. rewrite map_length, seq_length.
  pose proof (Hm n (S n) ltac:(lia) ltac:(lia)) as No.
  destruct (main_loop (S n) o b2 (map g (seq 0 n)) b_ sp initial 0 est (e_ + est - sp) 1) as [[b3 w t|b3]|]; cbn [bind]; try reflexivity.
  now destruct (No b3 w t).
Qed.

(** ** Arrays and slices *)

Lemma steady_ump fm : steady (ump_ops (fmt_for fm) Fixed).
Proof.
  assert (F : std (fmt_for fm)) by (destruct fm; [left|right]; reflexivity).
  constructor; cbn [ump_ops o_compact o_resize o_write o_move].
  - intros b b' H. now apply compact_len in H.
  - intros b n [b' q] E. unfold try_resize in E. cbn [request] in E. destruct (bind_val _ _ _ E) as (b2 & H & E1). apply heads_len in H.
    injection E1 as <- _. exact H.
  - intros b v i b' H. now apply write_datum_in in H.
  - intros b t to b' H. now apply move_tail_len in H.
Qed.
Lemma steady_bytes : steady (bytes_ops Fixed).
Proof.
  constructor; cbn [bytes_ops o_compact o_resize o_write o_move].
  - intros b b' [= <-]. reflexivity.
  - intros b n r E. now apply try_resize_bytes_shape in E.
  - intros b v i b' E. apply write_datum_b_in in E. lia.
  - intros b t to b' H. now apply move_tail_b_len in H.
Qed.
