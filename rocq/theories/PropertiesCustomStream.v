(** C52 for UMP stream names: histories of calls on any buffer type of the client's
    own with room for [cap] words, whether it shrinks or only grows. *)
From Coq Require Import NArith List String Bool Arith Lia ZifyBool ZifyNat ZifyN.
From Verif Require Import Base Values Helpers Schema Props Message MessageTable SpecLayout SpecFixed Sysex Text SpecText TextClient
  ListLemmas MessageLemmas InitLemmas FixedLemmas ConvertLemmas FixedProofs ConvertProofs
  TextLemmas TextFlex TextFlexMore TextFlexInit TextStream TextStreamMore TextUtf8 TextParse TextHistory TextFresh PropertiesText
  ByteView CustomBuffer SpecCustom CustomMore PropertiesCustom.
Import ListNotations.
Local Open Scope nat_scope.

(** ** Specification *)

(** The name after these calls: the last one which fits [cap] words, [t] if none does. *)
Fixpoint last_name (off cap : nat) (h : list stream_edit) (t : list N) : list N :=
  match h with
  | [] => t
  | SName t' :: h => last_name off cap h (if 4 * text_packets (14 - off) (List.length t') <=? cap then t' else t)
  | SBlock _ :: h => last_name off cap h t
  end.
(** The function block number after these calls: the last one set. *)
Fixpoint last_block (h : list stream_edit) (v : N) : N :=
  match h with [] => v | SBlock v' :: h => last_block h v' | SName _ :: h => last_block h v end.

(** ** Proofs *)

Definition keeps (K : stream_kind) (t : list N) (v : N) (b : list N) : Prop :=
  exists blk, sholds (sk_off K) (sk_status K) blk t b /\ (sk_off K = 1 -> blk 0 = v).
Definition agrees (K : stream_kind) (t : list N) (v : N) (b : list N) : Prop :=
  exists blk, sholds (sk_off K) (sk_status K) blk t b /\ (forall p, p < List.length b / 4 -> blk p = v).

Lemma agrees_keeps K t v b : agrees K t v b -> keeps K t v b.
Proof.
  intros (blk & S0 & A). exists blk. split; [exact S0|]. intros _. apply A. pose proof (sh_room S0). lia.
Qed.

Lemma put_keeps K b0 b t t0 v : keeps K t0 v b -> is_bytes t ->
  4 * text_packets (14 - sk_off K) (List.length t) <= List.length b0 -> (b0 = vec_resize b (List.length b0) \/ b0 = b) ->
  exists b', stream_put (sk_off K) b0 t = Val b' /\ List.length b' = List.length b0 /\ keeps K t v b'.
Proof.
  intros (blk & S0 & V) Ht L Hb. pose proof (sh_off _ _ _ _ _ S0) as Ho. pose proof (sh_room S0) as R.
  destruct (text_packets_room (14 - sk_off K) (List.length t) ltac:(lia)) as (_ & R1 & _).
  destruct (put_sholds (sk_off K) b0 t Ho Ht L) as (b' & E & L' & S1). exists b'. split; [exact E|]. split; [exact L'|].
  assert (X : forall i, i < 4 -> oct b0 i = oct b i).
  { intros i Hi. destruct Hb as [Hb | ->]; [|reflexivity]. rewrite Hb, oct_vec_resize. now replace (i <? 4 * List.length b0) with true by lia. }
  eexists. split.
  - replace (st_of b0) with (sk_status K) in S1; [exact S1|].
    rewrite <- (sholds_st S0). unfold st_of. now rewrite !X by lia.
  - intros E1. cbn beta. replace (0 <? _) with true by lia. cbn [Nat.mul Nat.add]. rewrite X by lia.
    rewrite <- V by exact E1. rewrite (sh_blk _ _ _ _ _ S0 E1 0). now replace (0 <? List.length b / 4) with true by lia.
Qed.

Lemma set_text_put k off b t : custom_stream_set_text k off b t
  = let '(b0, ok) := request k b (text_words (stream_form off) (List.length t)) in
    if ok then b' <- stream_put off b0 t ;; Val (b', true) else Val (b0, false).
Proof.
  unfold custom_stream_set_text, stream_put. destruct (request k b _) as [b0 [|]]; [|reflexivity].
  destruct (stream_clear off b0) as [b1|]; cbn [bind]; [|reflexivity].
  destruct (stream_headers b1 _) as [b2|]; cbn [bind]; [|reflexivity].
  destruct (set_format_fields b2) as [b3|]; cbn [bind]; reflexivity.
Qed.

Lemma block_agrees K b t v v' : keeps K t v b -> sk_off K = 1 -> (v' < 256)%N ->
  exists b', block_write b v' = Val b' /\ List.length b' = List.length b /\ agrees K t v' b'.
Proof.
  intros (blk & S0 & _) Ho Hv. rewrite Ho in S0. destruct (block_write_sholds _ _ _ _ v' S0 Hv) as (b' & E & L & S1).
  exists b'. split; [exact E|]. split; [exact L|]. eexists. rewrite Ho, L. split; [exact S1|].
  intros p Hp. cbn beta. now replace (p <? List.length b / 4) with true by lia.
Qed.

Lemma custom_stream_do_any K cap answer e b t v : bounded_buffer cap answer -> stream_edit_ok (sk_off K) e ->
  keeps K t v b -> List.length b <= cap ->
  exists b', custom_stream_do (Custom answer) (sk_off K) e b = Val (b', stream_accepted (sk_off K) (Some (cap / 4)) e)
    /\ List.length b' <= cap /\ keeps K (last_name (sk_off K) cap [e] t) (last_block [e] v) b'
    /\ (forall v', e = SBlock v' -> agrees K (last_name (sk_off K) cap [e] t) v' b').
Proof.
  intros HB He S0 L. assert (Ho : sk_off K <= 1) by (destruct S0 as (blk & S0 & _); apply S0). destruct e as [v'|t'].
  - destruct He as [O V]. cbn [custom_stream_do stream_accepted last_name last_block].
    destruct (block_agrees K b t v v' S0 O V) as (b' & -> & L' & A). cbn [bind]. exists b'.
    split; [reflexivity|]. split; [lia|]. split; [now apply agrees_keeps|]. now intros ? [= <-].
  - cbn [stream_edit_ok custom_stream_do stream_accepted last_name last_block fits] in *. rewrite set_text_put. cbn [request].
    pose proof (granted cap answer b (text_words (stream_form (sk_off K)) (List.length t')) HB L) as G.
    rewrite (stream_words _ _ Ho) in *. pose proof (packets_fit (text_packets (14 - sk_off K) (List.length t')) cap) as PF.
    destruct (Nat.leb_spec (4 * text_packets (14 - sk_off K) (List.length t')) cap) as [F|F].
    + destruct G as (b0 & -> & L0 & Lc & Hb).
      destruct (put_keeps K b0 b t' t v S0 He L0) as (b' & -> & L' & S1).
      { destruct Hb as [-> | ->]; [left; now rewrite vec_resize_length|now right]. }
      cbn [bind]. exists b'. replace (_ <=? cap / 4) with true by lia. split; [reflexivity|]. split; [lia|].
      split; [exact S1|]. discriminate.
    + rewrite G. exists b. replace (_ <=? cap / 4) with false by lia. split; [reflexivity|]. split; [exact L|].
      split; [exact S0|]. discriminate.
Qed.

Lemma custom_stream_history K cap answer : bounded_buffer cap answer -> forall h b t v, Forall (stream_edit_ok (sk_off K)) h ->
  keeps K t v b -> List.length b <= cap ->
  exists b', run_try (custom_stream_do (Custom answer) (sk_off K)) h b = Val (b', map (stream_accepted (sk_off K) (Some (cap / 4))) h)
    /\ List.length b' <= cap /\ keeps K (last_name (sk_off K) cap h t) (last_block h v) b'
    /\ (forall h' v', h = h' ++ [SBlock v'] -> agrees K (last_name (sk_off K) cap h t) v' b').
Proof.
  intros HB. induction h as [|e h IH]; intros b t v Hh S0 L; cbn [run_try map].
  - exists b. split; [reflexivity|]. split; [exact L|]. split; [exact S0|]. intros [|? ?] ?; discriminate.
  - inversion Hh as [|? ? He Hr]; subst.
    destruct (custom_stream_do_any K cap answer e b t v HB He S0 L) as (b1 & -> & L1 & S1 & A1). cbn [bind fst snd].
    destruct (IH b1 _ _ Hr S1 L1) as (b2 & E2 & L2 & S2 & A2). rewrite E2. cbn [bind fst snd]. exists b2.
    split; [reflexivity|]. split; [exact L2|].
    assert (N1 : last_name (sk_off K) cap (e :: h) t = last_name (sk_off K) cap h (last_name (sk_off K) cap [e] t)) by now destruct e.
    assert (B1 : last_block (e :: h) v = last_block h (last_block [e] v)) by now destruct e.
    rewrite N1, B1. split; [exact S2|]. intros h' v' E. destruct h' as [|e' h'].
    + injection E as -> ->. cbn [run_try map] in E2. injection E2 as ->. exact (A1 v' eq_refl).
    + injection E as -> E. eapply A2. exact E.
Qed.

(** ** The theorem *)

(** UMP stream names (endpoint name, product instance id, function block name) on any
    bounded buffer: [try_new], then calls of the fallible setters.  Names are accepted
    exactly if they fit [cap] words; a refused one changes nothing.  The message reads as
    the last accepted name and the last function block number, and its packets hold them;
    all packets agree on the number if it was set last. *)
Theorem C52_stream_any : forall K cap answer k h, In K stream_texts -> bounded_buffer cap answer -> k <= cap ->
  if 4 <=? cap then
    Forall (stream_edit_ok (sk_off K)) h ->
    let name := last_name (sk_off K) cap h [] in
    let number := last_block h 0%N in
    exists b d blk,
      (x <- unwrap (custom_stream_new (Custom answer) K (repeat 0%N k)) ;; run_try (custom_stream_do (Custom answer) (sk_off K)) h x)
        = Val (b, map (stream_accepted (sk_off K) (Some (cap / 4))) h)
      /\ List.length b <= cap
      /\ stream_text_bytes K b = Val (without_nul name)
      /\ (sk_off K = 1 -> block_read b = Val number)
      /\ stream_data b = Val d /\ (exists rest, b = d ++ rest)
      /\ all_bytes d = stream_wire (sk_status K) (if sk_off K =? 1 then Some blk else None) name
      /\ (sk_off K = 1 -> blk 0 = number)
      /\ (forall h' v, h = h' ++ [SBlock v] -> forall p, p < text_packets 13 (List.length name) -> blk p = v)
      /\ (is_string name -> (sk_off K = 1 -> forall p, p < text_packets 13 (List.length name) -> blk p = number) ->
            stream_try_from K d = Val (Ok d))
  else custom_stream_new (Custom answer) K (repeat 0%N k) = Val (Err "BufferOverflow").
Proof.
  intros K cap answer k h HK HB Hk. pose proof (stream_in K HK) as HI. pose proof (proj2 HI) as Ho.
  pose proof (granted_zeros cap answer k 4 HB Hk) as G. unfold custom_stream_new. cbn [request].
  destruct (4 <=? cap); [|now rewrite G]. intros Hh. set (name := last_name _ cap h []). set (number := last_block h 0%N).
  destruct G as (k' & -> & L & _).
  pose proof (stream_try_new_fresh K k' HI) as T. replace (k' <? 4) with false in T by lia.
  destruct T as (b0 & T & L0 & S0). unfold stream_try_new, fixed_try_resize in T. rewrite repeat_length in T.
  replace (k' <? 4) with false in T by lia. cbn [negb] in T.
  destruct (stream_init K (repeat 0%N k')) as [b1|]; cbn [bind] in *; [|discriminate]. injection T as ->. cbn [unwrap bind].
  assert (S1 : keeps K [] 0%N b0) by (eexists; split; [exact S0|reflexivity]).
  destruct (custom_stream_history K cap answer HB h b0 [] 0%N Hh S1 ltac:(lia)) as (b & E & L1 & S2 & A).
  fold name number in S2, A. rewrite E.
  (* the numbers on the packets *)
  assert (Q : exists blk, sholds (sk_off K) (sk_status K) blk name b /\ (sk_off K = 1 -> blk 0 = number)
     /\ (forall h' v, h = h' ++ [SBlock v] -> forall p, p < List.length b / 4 -> blk p = v)).
  { destruct S2 as (blk & S2 & V). exists blk. split; [exact S2|]. split; [exact V|].
    intros h' v X p Hp. destruct (A h' v X) as (blk2 & S3 & B3).
    assert (O1 : sk_off K = 1).
    { subst h. apply Forall_app in Hh. destruct Hh as [_ Hh]. inversion Hh as [|? ? H1 _]. apply H1. }
    rewrite (sh_blk _ _ _ _ _ S2 O1 p), <- (sh_blk _ _ _ _ _ S3 O1 p). now apply B3. }
  destruct Q as (blk & S3 & V & U). clear S2 A. pose proof (sh_room S3) as R.
  destruct (sholds_data_parse K {| ss_block := blk; ss_name := name |} b Ho S3) as (d & D & W & B & P & _).
  exists b, d, blk. split; [reflexivity|]. split; [exact L1|]. split; [apply (sholds_bytes S3)|].
  split; [intros O1; rewrite (sholds_block S3 O1); f_equal; now apply V|].
  split; [exact D|]. split; [exact W|]. split; [exact B|]. split; [exact V|]. split.
  - intros h' v X p Hp. apply (U h' v X). assert (O1 : sk_off K = 1).
    { subst h. apply Forall_app in Hh. destruct Hh as [_ Hh]. inversion Hh as [|? ? H1 _]. apply H1. }
    rewrite O1 in R. change (14 - 1) with 13 in R. lia.
  - intros Hs Hu. apply P; [exact Hs|]. intros O1 p Hp. cbn [ss_block ss_name] in *. rewrite (Hu O1 p Hp). symmetry. now apply V.
Qed.
Print Assumptions C52_stream_any.

(** A function block name in a buffer of fourteen words that only grows. *)
Example C52_stream_any_meets :
  let K := {| sk_name := "FunctionBlockName"; sk_status := 0x12; sk_off := 1 |} in
  let h := [SName (letters 20); SBlock 3; SName (letters 40); SName (letters 8)] in
  In K stream_texts /\ Forall (stream_edit_ok 1) h /\ bounded_buffer 14 (lazy_arena 14)
  /\ last_name 1 14 h [] = letters 8 /\ last_block h 0 = 3%N
  /\ exists b, (x <- unwrap (custom_stream_new (Custom (lazy_arena 14)) K []) ;;
                run_try (custom_stream_do (Custom (lazy_arena 14)) 1) h x) = Val (b, [true; true; false; true])
       /\ List.length b = 8 /\ stream_text_bytes K b = Val (letters 8) /\ block_read b = Val 3%N.
Proof.
  cbn zeta. split; [cbn; auto|]. split; [repeat constructor; cbn [stream_edit_ok]; try lia; apply string_bytes, letters_string|].
  split; [apply lazy_arena_bounded|]. split; [reflexivity|]. split; [reflexivity|]. eexists. computed.
Qed.
