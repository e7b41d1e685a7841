(** Lemmas on machine arithmetic: the editing algorithm, for any operations that
    agree with their counterparts in machine arithmetic on buffers and numbers up
    to some size. *)
From Coq Require Import NArith List String Bool Arith Lia ZifyBool.
From Verif Require Import Base BitOps ByteView Schema Props Helpers Message Machine Sysex Splice MachineSysex MachineLemmas MachineOps.
Import ListNotations.
Local Open Scope list_scope.
Local Open Scope nat_scope.

Record agree (size : nat) (o om : ops) : Prop := {
  a_compact : forall b, List.length b <= size -> refines (o_compact o b) (o_compact om b);
  a_compact_len : forall b b', o_compact o b = Val b' -> List.length b' = List.length b;
  a_size : forall b, List.length b <= size -> refines (o_payload_size o b) (o_payload_size om b);
  a_size_le : forall b n, o_payload_size o b = Val n -> n <= 8 * List.length b;
  a_resize : forall b n, List.length b <= size -> n <= size -> refines (o_resize o b n) (o_resize om b n);
  a_resize_len : forall b n b', o_resize o b n = Val (b', None) -> List.length b' <= max (List.length b) (n + 4);
  a_fail : forall b n b' sz, o_resize o b n = Val (b', Some sz) ->
    List.length b' = List.length b /\ sz <= 8 * List.length b
    /\ forall b2 n2 r, List.length b2 = List.length b -> sz < n2 -> o_resize o b2 n2 = Val r ->
         snd r = Some sz /\ List.length (fst r) = List.length b;
  a_kind : (forall b n b' sz, o_resize o b n <> Val (b', Some sz))
    \/ (forall b n r, o_resize o b n = Val r -> List.length (fst r) = List.length b);
  a_write : forall b v i, List.length b <= size -> refines (o_write o b v i) (o_write om b v i);
  a_write_in : forall b v i b', o_write o b v i = Val b' -> i <= 8 * List.length b /\ List.length b' = List.length b;
  a_move : forall b t to, List.length b <= size -> t <= size -> to <= size -> refines (o_move o b t to) (o_move om b t to);
  a_move_len : forall b t to b', o_move o b t to = Val b' -> List.length b' = List.length b
}.

(** The instances *)
Lemma ump_agree bd f k size : std f -> k = Growable \/ k = Fixed -> 16 * size + 64 <= usize_values bd ->
  agree size (ump_ops f k) (ump_ops_m bd f k).
Proof.
  intros F K R. assert (P : plain k) by (destruct K; [left|right; left]; assumption).
  constructor; cbn [ump_ops ump_ops_m o_compact o_payload_size o_resize o_write o_move].
  - intros. apply compact_refines; [exact F|lia].
  - intros. now apply compact_len in H.
  - intros. apply payload_size_refines; [exact F|lia].
  - intros. now apply payload_size_le in H.
  - intros b n L N. apply try_resize_refines; try assumption; try lia. unfold needs. destruct (f_seven f); lia.
  - intros. now apply try_resize_len in H.
  - intros. now apply try_resize_fail in H.
  - destruct K as [-> | ->]; [left|right]; intros b n.
    + intros b' sz E. unfold try_resize in E. cbn [request] in E. destruct (bind_val _ _ _ E) as (b2 & _ & E1). discriminate.
    + intros [b' q] E. unfold try_resize in E. cbn [request] in E. destruct (bind_val _ _ _ E) as (b2 & H & E1). apply heads_len in H.
      injection E1 as <- _. exact H.
  - intros. apply refines_refl.
  - intros. now apply write_datum_in in H.
  - intros. apply move_tail_refines; [exact F|lia].
  - intros. now apply move_tail_len in H.
Qed.
Lemma bytes_agree bd k size : k = Growable \/ k = Fixed -> 16 * size + 64 <= usize_values bd ->
  agree size (bytes_ops k) (bytes_ops_m bd k).
Proof.
  intros K R. constructor; cbn [bytes_ops bytes_ops_m o_compact o_payload_size o_resize o_write o_move].
  - intros. apply refines_refl.
  - intros b b' [= <-]. reflexivity.
  - intros. apply refines_refl.
  - intros b n H. apply payload_size_b_le in H. lia.
  - intros b n L N. destruct K as [-> | ->].
    + apply refines_bind; [apply resize_b_refines; lia|]. intros. apply refines_refl.
    + apply try_resize_bytes_refines; lia.
  - intros b n b' E. destruct K as [-> | ->].
    + destruct (bind_val _ _ _ E) as (b1 & B & E1). injection E1 as <-. apply resize_b_len in B. lia.
    + apply try_resize_bytes_shape in E. cbn [fst] in E. lia.
  - intros b n b' sz E. destruct K as [-> | ->].
    + destruct (bind_val _ _ _ E) as (b1 & B & E1). discriminate.
    + apply try_resize_bytes_shape in E. cbn [fst snd] in E. destruct E as [E1 E2].
      destruct (Nat.ltb_spec (List.length b) (n + 2)); [|discriminate]. injection E2 as ->. split; [exact E1|]. split; [lia|].
      intros b2 n2 r L2 N2 E. apply try_resize_bytes_shape in E. rewrite L2 in E. destruct E as [E3 E4].
      destruct (Nat.ltb_spec (List.length b) (n2 + 2)); [now split|lia].
  - destruct K as [-> | ->]; [left|right]; intros b n.
    + intros b' sz E. destruct (bind_val _ _ _ E) as (b1 & B & E1). discriminate.
    + intros r E. now apply try_resize_bytes_shape in E.
  - intros b v i L b' E. pose proof (write_datum_b_in _ _ _ _ E). unfold write_datum_b_m. rewrite madd_ok by lia. exact E.
  - intros b v i b' E. apply write_datum_b_in in E. lia.
  - intros b t to L T O. apply move_tail_b_refines; lia.
  - intros b t to b' E. now apply move_tail_b_len in E.
Qed.

Section Splice.
  Context (bd : build) (size : nat) (o om : ops) (A : agree size o om) (R : 16 * size + 64 <= usize_values bd).

  Lemma fill_refines data : forall b at_ w room_, List.length b <= size ->
    refines (fill o b data at_ w room_) (fill_m bd om b data at_ w room_).
  Proof.
    induction data as [|v t IH]; intros b at_ w room_ L; cbn [fill fill_m]; destruct (w <? room_); try apply refines_refl.
    intros r E. destruct (bind_val _ _ _ E) as (b1 & W & E1). pose proof (a_write_in _ _ _ A _ _ _ _ W) as [I L1].
    rewrite madd_ok by lia. cbn [bind]. rewrite (a_write _ _ _ A _ _ _ L _ W). cbn [bind]. apply IH; [lia|exact E1].
  Qed.
  Lemma fill_facts data : forall b at_ w room_ b' w' rest dry, fill o b data at_ w room_ = Val (b', w', rest, dry) ->
    List.length b' = List.length b /\ w' + List.length rest = w + List.length data /\ (w <= room_ -> w' <= room_).
  Proof.
    induction data as [|v t IH]; intros b at_ w room_ b' w' rest dry; cbn [fill]; destruct (Nat.ltb_spec w room_); intros E.
    - injection E as <- <- <- _. repeat split; lia.
    - injection E as <- <- <- _. repeat split; lia.
    - destruct (bind_val _ _ _ E) as (b1 & W & E1). pose proof (a_write_in _ _ _ A _ _ _ _ W) as [_ L1]. apply IH in E1.
      cbn [List.length]. destruct E1 as (X & Y & Z). repeat split; lia.
    - injection E as <- <- <- _. repeat split; lia.
  Qed.

  (** What is known of the result of the loop for [total] items. *)
  Definition fine (total : nat) (l : looped) : Prop :=
    match l with
    | Done b w tail => List.length b <= size /\ w <= total /\ tail <= size
    | Overflow b => List.length b <= size
    end.
  Definition loops (total : nat) (d r : outcome looped) : Prop := forall l, d = Val l -> r = Val l /\ fine total l.

  (** A round in which the buffer is known to be unable to grow is the last. *)
  Lemma loop_stuck k b data begin_ splice_ initial w est extra sz total :
    List.length b <= size ->
    (forall b2 n2 r, List.length b2 = List.length b -> sz < n2 -> o_resize o b2 n2 = Val r ->
       snd r = Some sz /\ List.length (fst r) = List.length b) ->
    splice_ <= initial -> est = sz - (initial - splice_) -> w < est -> 1 <= extra -> w + List.length data = total ->
    begin_ + est + extra <= size -> est + extra + initial <= size -> extra * 2 <= size ->
    loops total (main_loop k o b data begin_ splice_ initial w est (begin_ + est) extra)
      (main_loop_m k bd om b data begin_ splice_ initial w est (begin_ + est) extra).
  Proof.
    intros L Stuck S Est W X T B1 B2 B3 l E. destruct k as [|k]; [discriminate|]. cbn [main_loop main_loop_m] in *.
    destruct (bind_val _ _ _ E) as ([[[b1 w1] rest] dry] & Fl & E1). rewrite (fill_refines _ _ _ _ _ L _ Fl). cbn [bind].
    destruct (fill_facts _ _ _ _ _ _ _ _ _ Fl) as (L1 & T1 & W1). specialize (W1 ltac:(lia)).
    destruct dry. { injection E1 as <-. split; [reflexivity|]. cbn [fine]. repeat split; lia. }
    destruct (Nat.eqb_spec w1 est) as [->|]; [|discriminate]. cbn [negb massert bind] in *.
    destruct rest as [|v rest]. { injection E1 as <-. split; [reflexivity|]. cbn [fine]. repeat split; lia. }
    cbv zeta in E1. destruct (bind_val _ _ _ E1) as (n & N & E2). apply sub_chk_ok in N. destruct N as [N ->].
    rewrite madd_ok by lia. cbn [bind]. rewrite madd_ok by lia. cbn [bind].
    destruct (Nat.ltb_spec (begin_ + est) (begin_ + (est + extra))); [|lia].
    destruct (bind_val _ _ _ E2) as ([[b2 est2] to2] & Q & E3). rewrite madd_ok by lia. cbn [bind]. rewrite msub_ok by lia. cbn [bind].
    destruct (bind_val _ _ _ Q) as ([b3 o3] & Rz & Q1). rewrite (a_resize _ _ _ A b1 (est + extra + initial - splice_) ltac:(lia) ltac:(lia) _ Rz). cbn [bind].
    destruct (Stuck b1 (est + extra + initial - splice_) _ L1 ltac:(lia) Rz) as [Sn Ln]. cbn [fst snd] in Sn, Ln. rewrite Sn in *.
    destruct (bind_val _ _ _ Q1) as (d & D & Q2). apply sub_chk_ok in D. destruct D as [D ->]. rewrite msub_ok by lia. cbn [bind]. cbv zeta in Q2.
    rewrite <- Est in Q2 |- *. rewrite madd_ok by lia. cbn [bind]. destruct (bind_val _ _ _ Q2) as (t2 & T2 & Q3). apply sub_chk_ok in T2. destruct T2 as [T2 ->].
    rewrite msub_ok by lia. cbn [bind]. injection Q3 as <- <- <-.
    destruct (bind_val _ _ _ E3) as (b4 & M & E4). rewrite (a_move _ _ _ A b3 (begin_ + est) (begin_ + est - splice_) ltac:(lia) ltac:(lia) ltac:(lia) _ M). cbn [bind].
    apply (a_move_len _ _ _ A) in M. rewrite madd_ok by lia. cbn [bind]. rewrite mmul_ok by lia. cbn [bind].
    destruct (Nat.leb_spec est est); [|lia]. injection E4 as <-. split; [reflexivity|]. cbn [fine]. lia.
  Qed.

  Definition kept_small (top len : nat) : Prop :=
    (forall b n b' sz, o_resize o b n <> Val (b', Some sz))
    \/ (forall b n r, o_resize o b n = Val r -> List.length (fst r) = List.length b) /\ 8 * len <= top.

  Lemma loop_refines top total begin_ splice_ initial :
    begin_ + top + 4 * total + 4 <= size -> top + 4 * total + initial + 8 <= size ->
    forall k b data w est extra, List.length b <= size -> kept_small top (List.length b) ->
    w + List.length data = total -> w <= est -> 1 <= extra -> extra <= est + 1 -> est <= top + 2 * total ->
    loops total (main_loop k o b data begin_ splice_ initial w est (begin_ + est) extra)
      (main_loop_m k bd om b data begin_ splice_ initial w est (begin_ + est) extra).
  Proof.
    intros Z1 Z2. induction k as [|k IH]; intros b data w est extra L Kp T W X Y Top l E; [discriminate|]. cbn [main_loop main_loop_m] in *.
    destruct (bind_val _ _ _ E) as ([[[b1 w1] rest] dry] & Fl & E1). rewrite (fill_refines _ _ _ _ _ L _ Fl). cbn [bind].
    destruct (fill_facts _ _ _ _ _ _ _ _ _ Fl) as (L1 & T1 & W1). specialize (W1 W).
    destruct dry. { injection E1 as <-. split; [reflexivity|]. cbn [fine]. repeat split; lia. }
    destruct (Nat.eqb_spec w1 est) as [->|]; [|discriminate]. cbn [negb massert bind] in *.
    destruct rest as [|v rest]. { injection E1 as <-. split; [reflexivity|]. cbn [fine]. repeat split; lia. }
    cbn [List.length] in T1.
    cbv zeta in E1. destruct (bind_val _ _ _ E1) as (n & N & E2). apply sub_chk_ok in N. destruct N as [N ->].
    rewrite madd_ok by lia. cbn [bind]. rewrite madd_ok by lia. cbn [bind].
    destruct (Nat.ltb_spec (begin_ + est) (begin_ + (est + extra))); [|lia].
    destruct (bind_val _ _ _ E2) as ([[b2 est2] to2] & Q & E3). rewrite madd_ok by lia. cbn [bind]. rewrite msub_ok by lia. cbn [bind].
    destruct (bind_val _ _ _ Q) as ([b3 o3] & Rz & Q1).
    rewrite (a_resize _ _ _ A b1 (est + extra + initial - splice_) ltac:(lia) ltac:(lia) _ Rz). cbn [bind].
    destruct o3 as [sz|].
    - (* the buffer did not grow *)
      destruct (a_fail _ _ _ A _ _ _ _ Rz) as (L3 & Sz & Stuck).
      destruct Kp as [Kp|[Kp1 Kp2]]; [exfalso; exact (Kp _ _ _ _ Rz)|].
      destruct (bind_val _ _ _ Q1) as (d & D & Q2). apply sub_chk_ok in D. destruct D as [D ->]. rewrite msub_ok by lia. cbn [bind]. cbv zeta in Q2.
      rewrite madd_ok by lia. cbn [bind]. destruct (bind_val _ _ _ Q2) as (t2 & T2 & Q3). apply sub_chk_ok in T2. destruct T2 as [T2 ->].
      rewrite msub_ok by lia. cbn [bind]. injection Q3 as <- <- <-.
      destruct (bind_val _ _ _ E3) as (b4 & M & E4).
      rewrite (a_move _ _ _ A b3 (begin_ + est) (begin_ + (sz - (initial - splice_)) - splice_) ltac:(lia) ltac:(lia) ltac:(lia) _ M). cbn [bind].
      apply (a_move_len _ _ _ A) in M. rewrite madd_ok by lia. cbn [bind]. rewrite mmul_ok by lia. cbn [bind].
      destruct (Nat.leb_spec (sz - (initial - splice_)) est).
      + injection E4 as <-. split; [reflexivity|]. cbn [fine]. lia.
      + refine (loop_stuck k b4 (v :: rest) begin_ splice_ initial est (sz - (initial - splice_)) (extra * 2) sz total _ _ D eq_refl _ _ _ _ _ _ l E4); try lia.
        * intros b5 n5 r5 L5 N5 R5. destruct (Stuck b5 n5 r5 ltac:(lia) N5 R5) as [S5 S6]. split; [exact S5|lia].
        * cbn [List.length]. lia.
    - (* it grew *)
      injection Q1 as <- <- <-. cbn [bind]. pose proof (a_resize_len _ _ _ A _ _ _ Rz) as L3.
      destruct (bind_val _ _ _ E3) as (b4 & M & E4).
      rewrite (a_move _ _ _ A b3 (begin_ + est) (begin_ + (est + extra)) ltac:(lia) ltac:(lia) ltac:(lia) _ M). cbn [bind].
      apply (a_move_len _ _ _ A) in M. rewrite madd_ok by lia. cbn [bind]. rewrite mmul_ok by lia. cbn [bind].
      destruct (Nat.leb_spec (est + extra) est); [lia|].
      refine (IH b4 (v :: rest) est (est + extra) (extra * 2) _ _ _ _ _ _ _ l E4); try lia.
      + destruct Kp as [Kp|[Kp1 Kp2]]; [now left|right]. split; [exact Kp1|]. specialize (Kp1 _ _ _ Rz). cbn [fst] in Kp1. lia.
      + cbn [List.length]. lia.
  Qed.

  Lemma begin_ok lo : begin_of lo <= size -> begin_of_m bd lo = Val (begin_of lo).
  Proof. destruct lo; cbn [begin_of begin_of_m]; intros; try reflexivity. apply madd_ok. lia. Qed.
  Lemma end_ok hi n : end_of hi n <= size -> end_of_m bd hi n = Val (end_of hi n).
  Proof. destruct hi; cbn [end_of end_of_m]; intros; try reflexivity. apply madd_ok. lia. Qed.

  Lemma detail_refines b src lo hi :
    (forall n, n <= 8 * List.length b -> begin_of lo + end_of hi n + 20 * List.length b + estimate (s_hint src)
       + 4 * List.length (s_items src) + 8 <= size) ->
    forall r, splice_detail o b src lo hi = Val r ->
      splice_detail_m bd om b src lo hi = Val r /\ List.length (fst r) <= size.
  Proof.
    intros Z r E. unfold splice_detail, splice_detail_m in *.
    destruct (bind_val _ _ _ E) as (b0 & C & E1). rewrite (a_compact _ _ _ A b ltac:(specialize (Z 0); lia) _ C). cbn [bind].
    apply (a_compact_len _ _ _ A) in C.
    destruct (bind_val _ _ _ E1) as (initial & I & E2). rewrite (a_size _ _ _ A b0 ltac:(specialize (Z 0); lia) _ I). cbn [bind].
    apply (a_size_le _ _ _ A) in I. specialize (Z initial ltac:(lia)). cbv zeta in E2 |- *.
    set (b_ := begin_of lo) in *. set (e_ := end_of hi initial) in *. set (est0 := estimate (s_hint src)) in *.
    rewrite begin_ok by (unfold b_ in Z; lia). cbn [bind]. rewrite end_ok by (unfold e_ in Z; lia). cbn [bind].
    fold b_. fold e_.
    destruct (bind_val _ _ _ E2) as (sp & Sp & E3). apply sub_chk_ok in Sp. destruct Sp as [Sp ->]. rewrite msub_ok by lia. cbn [bind].
    rewrite madd_ok by lia. cbn [bind]. rewrite msub_ok by lia. cbn [bind].
    destruct (bind_val _ _ _ E3) as ([b1 est] & St & E4).
    assert (H : (if e_ <? e_ + est0 - (e_ - b_) then
                   m <- madd bd est0 initial ;; n <- msub bd m (e_ - b_) ;; q <- o_resize om b0 n ;;
                   match q with (b1, None) => Val (b1, est0) | (b1, Some sz) => d <- msub bd initial (e_ - b_) ;; Val (b1, sz - d) end
                 else Val (b0, est0)) = Val (b1, est)
                /\ List.length b1 <= size /\ kept_small (est0 + 8 * List.length b) (List.length b1) /\ est <= est0 + 8 * List.length b).
    { assert (K0 : kept_small (est0 + 8 * List.length b) (List.length b0)).
      { destruct (a_kind _ _ _ A) as [K|K]; [now left|right]. split; [exact K|lia]. }
      destruct (e_ <? e_ + est0 - (e_ - b_)).
      - destruct (bind_val _ _ _ St) as (n & N & St1). apply sub_chk_ok in N. destruct N as [N ->].
        rewrite madd_ok by lia. cbn [bind]. rewrite msub_ok by lia. cbn [bind].
        destruct (bind_val _ _ _ St1) as ([b2 q] & Rz & St2). rewrite (a_resize _ _ _ A b0 (est0 + initial - (e_ - b_)) ltac:(lia) ltac:(lia) _ Rz). cbn [bind].
        assert (K1 : kept_small (est0 + 8 * List.length b) (List.length b2)).
        { destruct K0 as [K|[K K']]; [now left|right]. split; [exact K|]. specialize (K _ _ _ Rz). cbn [fst] in K. lia. }
        destruct q as [sz|].
        + destruct (a_fail _ _ _ A _ _ _ _ Rz) as (L3 & Sz & _). destruct (bind_val _ _ _ St2) as (d & D & St3). apply sub_chk_ok in D. destruct D as [D ->].
          rewrite msub_ok by lia. cbn [bind]. injection St3 as <- <-. repeat split; try assumption; lia.
        + injection St2 as <- <-. pose proof (a_resize_len _ _ _ A _ _ _ Rz). repeat split; try assumption; lia.
      - injection St as <- <-. repeat split; try assumption; lia. }
    destruct H as (-> & L1 & K1 & Es). cbn [bind].
    rewrite madd_ok by lia. cbn [bind]. rewrite msub_ok by lia. cbn [bind].
    destruct (bind_val _ _ _ E4) as (b2 & M & E5). rewrite (a_move _ _ _ A b1 e_ (e_ + est - (e_ - b_)) ltac:(lia) ltac:(lia) ltac:(lia) _ M). cbn [bind].
    apply (a_move_len _ _ _ A) in M. replace (e_ + est - (e_ - b_)) with (b_ + est) in * by lia.
    destruct (bind_val _ _ _ E5) as (l & Lp & E6).
    destruct (loop_refines (est0 + 8 * List.length b) (List.length (s_items src)) b_ (e_ - b_) initial ltac:(lia) ltac:(lia)
      (S (List.length (s_items src))) b2 (s_items src) 0 est 1 ltac:(lia) ltac:(rewrite M; exact K1) eq_refl ltac:(lia) ltac:(lia) ltac:(lia) ltac:(lia) l Lp) as [Lm Fi].
    rewrite Lm. cbn [bind]. destruct l as [b3 w tl|b3]; cbn [fine] in Fi.
    - destruct Fi as (L3 & Wt & Tl). rewrite madd_ok by lia. cbn [bind].
      destruct (bind_val _ _ _ E6) as (b4 & M4 & E7). rewrite (a_move _ _ _ A b3 tl (b_ + w) L3 Tl ltac:(lia) _ M4). cbn [bind].
      apply (a_move_len _ _ _ A) in M4. rewrite madd_ok by lia. cbn [bind].
      destruct (bind_val _ _ _ E7) as (n & N & E8). apply sub_chk_ok in N. destruct N as [N ->]. rewrite msub_ok by lia. cbn [bind].
      destruct (bind_val _ _ _ E8) as ([b5 q] & Rz & E9). rewrite (a_resize _ _ _ A b4 (w + initial - (e_ - b_)) ltac:(lia) ltac:(lia) _ Rz). cbn [bind].
      split; [exact E9|]. destruct q as [sz|]; injection E9 as <-; cbn [fst].
      + destruct (a_fail _ _ _ A _ _ _ _ Rz) as (L5 & _). lia.
      + pose proof (a_resize_len _ _ _ A _ _ _ Rz). lia.
    - injection E6 as <-. split; [reflexivity|]. exact Fi.
  Qed.

  Lemma splice_refines b src lo hi :
    (forall n, n <= 8 * List.length b -> begin_of lo + end_of hi n + 20 * List.length b + estimate (s_hint src)
       + 4 * List.length (s_items src) + 8 <= size) ->
    refines (splice o b src lo hi) (splice_m bd om b src lo hi).
  Proof.
    intros Z r E. unfold splice, splice_m in *. destruct (bind_val _ _ _ E) as (q & Q & E1).
    destruct (detail_refines b src lo hi Z q Q) as [-> _]. exact E1.
  Qed.
  Lemma try_splice_refines b src lo hi :
    (forall n, n <= 8 * List.length b -> begin_of lo + end_of hi n + 20 * List.length b + estimate (s_hint src)
       + 4 * List.length (s_items src) + 8 <= size) ->
    refines (try_splice o b src lo hi) (try_splice_m bd om b src lo hi).
  Proof.
    intros Z r E. unfold try_splice, try_splice_m in *. destruct (bind_val _ _ _ E) as (q & Q & E1).
    destruct (detail_refines b src lo hi Z q Q) as [-> L]. cbn [bind]. destruct q as [b' ok]. cbn [fst] in L. destruct ok; [exact E1|].
    destruct (bind_val _ _ _ E1) as (q & Rz & E2). rewrite (a_resize _ _ _ A b' 0 L ltac:(lia) _ Rz). exact E2.
  Qed.
End Splice.
