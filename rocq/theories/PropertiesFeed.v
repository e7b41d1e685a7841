(** C57: payload edits take their bytes from any iterator.

    [feed_packets fuel fm b e] and [feed_bytes fuel b e] (Feed.v) call the editing method [e] on the message [b] in a
    [Vec]; [try_feed_packets], [try_feed_bytes] the [try_] methods on an array or slice.  [None] means that the call has
    not returned after [fuel] rounds of its loop.  The last number of a result says how often the iterator was asked. *)
From Coq Require Import NArith List String Bool Arith Lia ZifyN ZifyNat ZifyBool.
From Verif Require Import Base BitOps Props Message Sysex Splice SpecSysex SpecEdits SysexClient SysexInit SysexHistory PropertiesSysex.
From Verif Require Import Feed SpecFeed FeedLemmas PropertiesUnannounced PropertiesUnannouncedBytes.
Import ListNotations.
Local Open Scope list_scope.
Local Open Scope nat_scope.

(** ** Whatever the buffer holds *)

Lemma edit_sim o e l b fuel : yields (feed_of e) l -> List.length l < fuel ->
  match (match e with
         | SetFrom f => set_payload o b {| s_items := l; s_hint := fd_hint f |}
         | SpliceFrom f lo hi => splice o b {| s_items := l; s_hint := fd_hint f |} lo hi
         | InsertFrom f i => insert_payload o b {| s_items := l; s_hint := fd_hint f |} i
         | AppendFrom f => append_payload o b {| s_items := l; s_hint := fd_hint f |}
         end) with
  | Panic => feed_edit fuel o b e = Some Panic
  | Val b' => exists c, feed_edit fuel o b e = Some (Val (b', c)) /\ c <= S (List.length l)
  end.
Proof.
  intros [Y1 Y2] Fu. assert (A : forall b, stop_at o (feed_of e) b l) by (intros; split; [exact Y1|left; exact Y2]).
  destruct e as [f|f lo hi|f i|f]; cbn [feed_of feed_edit] in *.
  - unfold set_payload. destruct (o_resize o b 0) as [q|]; cbn [bind]; [|reflexivity]. unfold insert_payload. now apply splice_sim.
  - now apply splice_sim.
  - unfold insert_payload. now apply splice_sim.
  - unfold append_payload. destruct (o_payload_size o b) as [n|]; cbn [bind]; [|reflexivity]. unfold insert_payload. now apply splice_sim.
Qed.

(** A growable buffer and an iterator whose first [None] comes after the items [l]: the edit returns, does what it
    does with [l], and never asks the iterator again after that [None]. *)
Theorem C57_iterators : forall fm e l b fuel, yields (feed_of e) l -> List.length l < fuel ->
  match apply_edit fm (with_items e l) b with
  | Panic => feed_packets fuel fm b e = Some Panic
  | Val b' => exists c, feed_packets fuel fm b e = Some (Val (b', c)) /\ c <= S (List.length l)
  end.
Proof.
  intros fm e l b fuel Y Fu. pose proof (edit_sim (ump_ops (fmt_for fm) Growable) e l b fuel Y Fu) as X. destruct e; exact X.
Qed.
Print Assumptions C57_iterators.
Theorem C57_bytes_iterators : forall e l b fuel, yields (feed_of e) l -> List.length l < fuel ->
  match apply_edit_b (with_items e l) b with
  | Panic => feed_bytes fuel b e = Some Panic
  | Val b' => exists c, feed_bytes fuel b e = Some (Val (b', c)) /\ c <= S (List.length l)
  end.
Proof.
  intros e l b fuel Y Fu. pose proof (edit_sim (bytes_ops Growable) e l b fuel Y Fu) as X. destruct e; exact X.
Qed.
Print Assumptions C57_bytes_iterators.

Lemma heard_length f : forall n k, List.length (heard_from n k f) <= n.
Proof. induction n as [|n IH]; intros k; cbn [heard_from]; [cbn; lia|]. destruct (fd_answer f k); cbn [List.length]; [specialize (IH (S k))|]; lia. Qed.
Lemma heard_answers f : forall n k i, i < List.length (heard_from n k f) -> fd_answer f (k + i) = nth_error (heard_from n k f) i.
Proof.
  induction n as [|n IH]; intros k i L; cbn [heard_from] in *; [cbn in L; lia|].
  destruct (fd_answer f k) as [v|] eqn:E; [|cbn in L; lia]. destruct i as [|i]; [now rewrite Nat.add_0_r|].
  cbn [List.length nth_error] in *. rewrite <- IH by lia. f_equal. lia.
Qed.
Lemma heard_end f : forall n k, List.length (heard_from n k f) < n -> fd_answer f (k + List.length (heard_from n k f)) = None.
Proof.
  induction n as [|n IH]; intros k L; cbn [heard_from] in *; [lia|].
  destruct (fd_answer f k) as [v|] eqn:E; cbn [List.length] in *; [|now rewrite Nat.add_0_r].
  rewrite <- (IH (S k)) by lia. f_equal. lia.
Qed.

Lemma try_sim o e n b fuel : steady o -> S (8 * List.length b) < n -> n < fuel ->
  let l := heard n (feed_of e) in
  match (match e with
         | SetFrom f => try_set_payload o b {| s_items := l; s_hint := fd_hint f |}
         | SpliceFrom f lo hi => try_splice o b {| s_items := l; s_hint := fd_hint f |} lo hi
         | InsertFrom f i => try_insert_payload o b {| s_items := l; s_hint := fd_hint f |} i
         | AppendFrom f => try_append_payload o b {| s_items := l; s_hint := fd_hint f |}
         end) with
  | Panic => feed_try fuel o b e = Some Panic
  | Val (b', ok) => exists c, feed_try fuel o b e = Some (Val (b', ok, c)) /\ c <= S (List.length l)
  end.
Proof.
  intros St Hn Fu l. pose proof (heard_length (feed_of e) n 0) as Ll. fold (heard n (feed_of e)) in Ll. fold l in Ll.
  assert (A : forall b', List.length b' = List.length b -> stop_at o (feed_of e) b' l).
  { intros b' Lb. split; [exact (heard_answers (feed_of e) n 0)|]. destruct (Nat.eq_dec (List.length l) n) as [En|Ne].
    - right. split; [exact St|]. rewrite En, Lb. exact Hn.
    - left. apply (heard_end (feed_of e) n 0). unfold l, heard in *. lia. }
  destruct e as [f|f lo hi|f i|f]; cbn [feed_of feed_try] in *.
  - unfold try_set_payload. destruct (o_resize o b 0) as [[b' q]|] eqn:R; cbn [bind]; [|reflexivity]. apply (st_resize o St) in R. cbn [fst] in R.
    destruct q as [sz|]; [exists 0; split; [reflexivity|lia]|]. unfold try_insert_payload. apply try_splice_sim; [now apply A|lia].
  - apply try_splice_sim; [now apply A|lia].
  - unfold try_insert_payload. apply try_splice_sim; [now apply A|lia].
  - unfold try_append_payload. destruct (o_payload_size o b) as [m|]; cbn [bind]; [|reflexivity]. unfold try_insert_payload.
    apply try_splice_sim; [now apply A|lia].
Qed.

(** An array or slice and any iterator at all: the edit returns.  It does what it does with the items before the first
    [None], and needs to know no more than the first [n] answers, for any [n] above eight per unit of the buffer. *)
Theorem C57_fixed_iterators : forall fm e b n fuel, S (8 * List.length b) < n -> n < fuel ->
  let l := heard n (feed_of e) in
  match try_edit fm (with_items e l) b with
  | Panic => try_feed_packets fuel fm b e = Some Panic
  | Val (b', ok) => exists c, try_feed_packets fuel fm b e = Some (Val (b', ok, c)) /\ c <= S (List.length l)
  end.
Proof.
  intros fm e b n fuel Hn Fu l. pose proof (try_sim (ump_ops (fmt_for fm) Fixed) e n b fuel (steady_ump fm) Hn Fu) as X. cbv zeta in X. fold l in X.
  destruct e; exact X.
Qed.
Print Assumptions C57_fixed_iterators.
Theorem C57_fixed_bytes_iterators : forall e b n fuel, S (8 * List.length b) < n -> n < fuel ->
  let l := heard n (feed_of e) in
  match try_edit_b (with_items e l) b with
  | Panic => try_feed_bytes fuel b e = Some Panic
  | Val (b', ok) => exists c, try_feed_bytes fuel b e = Some (Val (b', ok, c)) /\ c <= S (List.length l)
  end.
Proof.
  intros e b n fuel Hn Fu l. pose proof (try_sim (bytes_ops Fixed) e n b fuel steady_bytes Hn Fu) as X. cbv zeta in X. fold l in X.
  destruct e; exact X.
Qed.
Print Assumptions C57_fixed_bytes_iterators.

(** ** Messages *)

Lemma with_items_legal fm e l' l : Forall (is_unit fm) l' -> inside e (List.length l) -> legal fm (with_items e l') l.
Proof. intros U I. destruct e; cbn [with_items legal inside s_items] in *; auto. Qed.

(** C21 for iterators. *)
Theorem C57_edit : forall fm e b g s l l' fuel, message fm g s l b -> s = None \/ s = Some 0%N ->
  yields (feed_of e) l' -> Forall (is_unit fm) l' -> inside e (List.length l) -> List.length l' < fuel ->
  exists b' c, feed_packets fuel fm b e = Some (Val (b', c)) /\ c <= S (List.length l')
    /\ message fm g s (new_payload (with_items e l') l) b'
    /\ payload_list (fmt_for fm) b' = Val (new_payload (with_items e l') l).
Proof.
  intros fm e b g s l l' fuel M K Y U I Fu.
  destruct (C21_edit_is_list_edit fm (with_items e l') b g s l M K (with_items_legal _ _ _ _ U I)) as (b' & E & P & _ & _ & M').
  pose proof (C57_iterators fm e l' b fuel Y Fu) as X. rewrite E in X. destruct X as (c & X & Cl).
  exists b', c. split; [exact X|]. split; [exact Cl|]. split; [|exact P]. destruct e; exact M'.
Qed.
Print Assumptions C57_edit.
Theorem C57_bytes_edit : forall e l l' fuel, Forall (is_unit SevenBit) l ->
  yields (feed_of e) l' -> Forall (is_unit SevenBit) l' -> inside e (List.length l) -> List.length l' < fuel ->
  exists c, feed_bytes fuel (stream_bytes l) e = Some (Val (stream_bytes (new_payload (with_items e l') l), c)) /\ c <= S (List.length l').
Proof.
  intros e l l' fuel Hl Y U I Fu. pose proof (C57_bytes_iterators e l' (stream_bytes l) fuel Y Fu) as X.
  rewrite (C21_bytes_edit_is_list_edit (with_items e l') l Hl (with_items_legal _ _ _ _ U I)) in X. exact X.
Qed.
Print Assumptions C57_bytes_edit.

Lemma endless_heard fm f n : endless fm f -> List.length (heard n f) = n /\ Forall (is_unit fm) (heard n f).
Proof.
  intros E. unfold heard. generalize 0. induction n as [|n IH]; intros k; cbn [heard_from]; [split; [reflexivity|constructor]|].
  destruct (E k) as (v & -> & U). destruct (IH (S k)) as [L F]. cbn [List.length]. split; [now rewrite L|now constructor].
Qed.

(** An iterator without end and an array or slice: [Err(BufferOverflow)], an empty message, and a bounded number of
    items taken, whatever the iterator announces. *)
Theorem C57_endless_overflows : forall fm e b g s l, message_in fm g s l b -> endless fm (feed_of e) ->
  inside e (List.length l) ->
  forall fuel, 8 * List.length b + 2 < fuel ->
  exists b' c, try_feed_packets fuel fm b e = Some (Val (b', false, c)) /\ c <= 8 * List.length b + 3
    /\ message_in fm g s [] b' /\ payload_list (fmt_for fm) b' = Val [].
Proof.
  intros fm e b g s l M En I fuel Fu. set (n := 8 * List.length b + 2). destruct (endless_heard fm _ n En) as [Ln U].
  assert (Small : room_in fm (List.length b) <= 7 * List.length b).
  { unfold room_in. destruct fm; cbn [packet_words packet_room];
      [pose proof (Nat.mul_div_le (List.length b) 2)|pose proof (Nat.mul_div_le (List.length b) 4)]; lia. }
  assert (X : exists b', try_edit fm (with_items e (heard n (feed_of e))) b = Val (b', false) /\ message_in fm g s [] b' /\ payload_list (fmt_for fm) b' = Val []).
  { assert (D : announced_enough (with_items e (heard n (feed_of e))) l \/ ~ announced_enough (with_items e (heard n (feed_of e))) l).
    { destruct e as [f|f lo hi|f i|f]; cbn [with_items announced_enough]; auto.
      destruct (Nat.eq_dec (range_begin lo) (range_end hi (List.length l))); [left; now left|].
      destruct (Nat.le_gt_cases (List.length (s_items {| s_items := heard n (feed_of (SpliceFrom f lo hi)); s_hint := fd_hint f |}))
        (announced {| s_items := heard n (feed_of (SpliceFrom f lo hi)); s_hint := fd_hint f |})); [left; now right|right; lia]. }
    destruct D as [Ae|Ae].
    - pose proof (C22_fixed_edit fm (with_items e (heard n (feed_of e))) b g s l M (with_items_legal _ _ _ _ U I) Ae) as X. cbv zeta in X.
      assert (Big : (List.length (new_payload (with_items e (heard n (feed_of e))) l) <=? room_in fm (List.length b)) = false).
      { assert (n <= List.length (new_payload (with_items e (heard n (feed_of e))) l)).
        { destruct e; cbn [with_items new_payload s_items]; unfold replaced; rewrite ?app_length; cbn [feed_of] in *; lia. }
        unfold n in *. lia. }
      rewrite Big in X. destruct X as (b' & E & _ & M' & P). exists b'. split; [exact E|]. split; [|exact P]. destruct e; exact M'.
    - destruct e as [f|f lo hi|f i|f]; cbn [with_items announced_enough feed_of inside] in *; try (exfalso; apply Ae; exact Logic.I).
      set (src := {| s_items := heard n f; s_hint := fd_hint f |}) in *.
      assert (Ls : List.length (s_items src) = n) by exact Ln.
      destruct (C22_unannounced_exact fm src lo hi b g s l M U) as (b' & p & ok & E & _ & M' & P & K & _); try lia.
      destruct (K ltac:(unfold n in *; lia)) as [-> ->]. exists b'. auto. }
  destruct X as (b' & E & M' & P).
  pose proof (C57_fixed_iterators fm e b n fuel ltac:(unfold n; lia) ltac:(unfold n; lia)) as Y. cbv zeta in Y. rewrite E in Y.
  destruct Y as (c & Y & Cl). rewrite Ln in Cl. exists b', c. split; [exact Y|]. split; [unfold n in Cl; lia|]. split; [exact M'|exact P].
Qed.
Print Assumptions C57_endless_overflows.
Theorem C57_endless_bytes_overflows : forall f lo hi l r,
  Forall (is_unit SevenBit) l -> Forall (fun x => x <> 0xF7%N) r -> endless SevenBit f ->
  let e := SpliceFrom f lo hi in let size := List.length (stream_bytes l ++ r) in
  inside e (List.length l) ->
  forall fuel, 8 * size + 2 < fuel ->
  exists r' c, try_feed_bytes fuel (stream_bytes l ++ r) e = Some (Val (stream_bytes [] ++ r', false, c)) /\ c <= 8 * size + 3
    /\ List.length (stream_bytes [] ++ r') = size.
Proof.
  intros f lo hi l r Hl Hr En e size I fuel Fu. set (n := 8 * size + 2). destruct (endless_heard SevenBit _ n En) as [Ln U].
  cbn [inside] in I. assert (Ls : size = List.length l + List.length r + 2).
  { unfold size, stream_bytes. rewrite app_length. cbn [List.length]. rewrite app_length. cbn [List.length]. lia. }
  destruct (C22_bytes_too_many l r {| s_items := heard n f; s_hint := fd_hint f |} lo hi Hl Hr U (proj1 I) (proj2 I)) as (r' & E & Lr).
  { unfold replaced. cbn [s_items]. rewrite !app_length. unfold n in *. lia. }
  pose proof (C57_fixed_bytes_iterators e (stream_bytes l ++ r) n fuel ltac:(fold size; unfold n; lia) ltac:(unfold n; lia)) as Y. cbv zeta in Y.
  cbn [with_items feed_of e] in Y. rewrite E in Y. destruct Y as (c & Y & Cl). rewrite Ln in Cl.
  exists r', c. split; [exact Y|]. split; [unfold n in Cl; lia|]. cbn [stream_bytes app List.length]. lia.
Qed.
Print Assumptions C57_endless_bytes_overflows.

(** An iterator without end and a growable buffer: the call never returns. *)
Lemma endless_values fm f : endless fm f -> exists g, (forall i, fd_answer f i = Some (g i)) /\ forall n, heard n f = map g (seq 0 n) /\ Forall (is_unit fm) (map g (seq 0 n)).
Proof.
  intros E. exists (fun i => match fd_answer f i with Some v => v | None => 0%N end). split.
  - intros i. destruct (E i) as (v & -> & _). reflexivity.
  - intros n. assert (Hh : heard n f = map (fun i => match fd_answer f i with Some v => v | None => 0%N end) (seq 0 n)).
    { unfold heard. generalize 0. induction n as [|n IH]; intros k; cbn [heard_from seq map]; [reflexivity|]. destruct (E k) as (v & Ek & _).
      rewrite Ek. now rewrite IH. }
    split; [exact Hh|]. rewrite <- Hh. apply (endless_heard fm f n E).
Qed.
Lemma feed_edit_endless o e b g fuel r : (forall i, fd_answer (feed_of e) i = Some (g i)) -> feed_edit fuel o b e = Some r ->
  exists m, forall n, m <= n ->
    match e with
    | SetFrom f => set_payload o b {| s_items := map g (seq 0 n); s_hint := fd_hint f |}
    | SpliceFrom f lo hi => splice o b {| s_items := map g (seq 0 n); s_hint := fd_hint f |} lo hi
    | InsertFrom f i => insert_payload o b {| s_items := map g (seq 0 n); s_hint := fd_hint f |} i
    | AppendFrom f => append_payload o b {| s_items := map g (seq 0 n); s_hint := fd_hint f |}
    end = Panic.
Proof.
  intros A E. destruct e as [f|f lo hi|f i|f]; cbn [feed_edit feed_of] in *.
  - unfold set_payload. destruct (o_resize o b 0) as [q|]; cbn [bind]; [|exists 0; reflexivity]. exact (splice_endless _ _ _ _ _ _ _ _ A E).
  - exact (splice_endless _ _ _ _ _ _ _ _ A E).
  - exact (splice_endless _ _ _ _ _ _ _ _ A E).
  - unfold append_payload. destruct (o_payload_size o b) as [q|]; cbn [bind]; [|exists 0; reflexivity]. exact (splice_endless _ _ _ _ _ _ _ _ A E).
Qed.

Theorem C57_endless_never_returns : forall fm e b g s l, message fm g s l b -> s = None \/ s = Some 0%N ->
  endless fm (feed_of e) -> inside e (List.length l) -> forall fuel, feed_packets fuel fm b e = None.
Proof.
  intros fm e b g s l M K En I fuel. destruct (endless_values fm _ En) as (v & A & Hv).
  destruct (feed_packets fuel fm b e) as [r|] eqn:E; [|reflexivity].
  destruct (feed_edit_endless _ e b v fuel r A E) as (m & Hm). specialize (Hm m (le_n m)).
  destruct (C21_edit_is_list_edit fm (with_items e (map v (seq 0 m))) b g s l M K
    (with_items_legal _ _ _ _ (proj2 (Hv m)) I)) as (b' & E' & _).
  exfalso. destruct e; cbn [with_items apply_edit] in E'; rewrite Hm in E'; discriminate.
Qed.
Print Assumptions C57_endless_never_returns.
Theorem C57_endless_bytes_never_returns : forall e l, Forall (is_unit SevenBit) l -> endless SevenBit (feed_of e) ->
  inside e (List.length l) -> forall fuel, feed_bytes fuel (stream_bytes l) e = None.
Proof.
  intros e l Hl En I fuel. destruct (endless_values SevenBit _ En) as (v & A & Hv).
  destruct (feed_bytes fuel (stream_bytes l) e) as [r|] eqn:E; [|reflexivity].
  destruct (feed_edit_endless _ e (stream_bytes l) v fuel r A E) as (m & Hm). specialize (Hm m (le_n m)).
  pose proof (C21_bytes_edit_is_list_edit (with_items e (map v (seq 0 m))) l Hl (with_items_legal _ _ _ _ (proj2 (Hv m)) I)) as E'.
  exfalso. destruct e; cbn [with_items apply_edit_b] in E'; rewrite Hm in E'; discriminate.
Qed.
Print Assumptions C57_endless_bytes_never_returns.

(** An iterator that says [None] after three items and then goes on, one that repeats a byte for ever and announces
    4000 items, one that announces none, a message of 20 bytes to edit and an array of nine words. *)
Definition unfused : feed := {| fd_answer := fun n => if n =? 3 then None else Some (N.of_nat (n mod 100)); fd_hint := (1, None) |}.
Definition repeating : feed := {| fd_answer := fun _ => Some 5%N; fd_hint := (4000, None) |}.
Definition silent : feed := {| fd_answer := fun _ => Some 5%N; fd_hint := (0, None) |}.
Example C57_case : (exists b, message SevenBit 0 (Some 0%N) (up 20) b
    /\ apply_edit SevenBit (SetPayload (exactly (up 20))) (fresh_words SevenBit) = Val b
    /\ exists b', feed_packets 4 SevenBit b (SpliceFrom unfused (Included 2) (Excluded 9)) = Some (Val (b', 4))
         /\ payload_list fmt7 b' = Val ([1; 2; 0; 1; 2] ++ skipn 9 (up 20))%N)
  /\ yields unfused [0; 1; 2]%N /\ Forall (is_unit SevenBit) [0; 1; 2]%N
  /\ inside (SpliceFrom unfused (Included 2) (Excluded 9)) 20 /\ endless SevenBit repeating.
Proof.
  split; [|split; [|split; [repeat constructor; reflexivity|split; [cbn; lia|intros i; exists 5%N; split; reflexivity]]]].
  - destruct (edit_step SevenBit (SetPayload (exactly (up 20))) (fresh_words SevenBit) 0%N (Some 0%N) [])
      as (b & E & M & _); [apply fresh_message|now right|apply up_units; lia|].
    exists b. split; [exact M|]. split; [exact E|]. vm_compute in E. injection E as <-. eexists. split; vm_compute; reflexivity.
  - split; [|reflexivity]. intros [|[|[|i]]] L; cbn in *; try reflexivity; lia.
Qed.
Example C57_endless_case : exists b0, sx_try_new fmt7 9 = Val (Ok b0) /\ message_in SevenBit 0 (Some 0%N) [] b0
  /\ endless SevenBit repeating /\ inside (AppendFrom repeating) 0
  /\ (exists b' c, try_feed_packets 80 SevenBit b0 (AppendFrom repeating) = Some (Val (b', false, c)) /\ c = 25)
  /\ endless SevenBit silent /\ inside (SpliceFrom silent (Included 1) (Excluded 4)) 5
  /\ exists r' c, try_feed_bytes 80 (stream_bytes (up 5) ++ [1; 2]%N) (SpliceFrom silent (Included 1) (Excluded 4))
       = Some (Val (stream_bytes [] ++ r', false, c)) /\ c = 6.
Proof.
  destruct (try_new_fresh SevenBit 9) as (b0 & E0 & L0 & M0 & _). exists b0. split; [exact E0|]. split; [exact M0|].
  split; [intros i; exists 5%N; split; reflexivity|]. split; [exact Logic.I|].
  vm_compute in E0. injection E0 as <-. split; [eexists; eexists; split; vm_compute; reflexivity|].
  split; [intros i; exists 5%N; split; reflexivity|]. split; [cbn; lia|]. exists [5; 5; 1; 5; 5; 1; 247]%N, 6. split; vm_compute; reflexivity.
Qed.
