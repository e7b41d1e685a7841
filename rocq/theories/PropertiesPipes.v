(** C61: a payload can be cut, changed and joined with the standard iterator adaptors on its way into another message.

    [open_pipe p] (Pipes.v) makes the iterator of an expression like [a.payload().skip(3).take(5).chain(b.payload())];
    [nth_answer s k] is the answer to the [k]-th call of [next] on it.  [reads p l] (SpecPipes.v) says which bytes the
    expression stands for. *)
From Coq Require Import NArith List Bool Arith Lia ZifyN ZifyNat ZifyBool.
From Verif Require Import Base BitOps Message Sysex Splice SpecSysex SpecEdits SysexClient SysexInit SysexBridge SysexHistory SysexConvert PropertiesSysex.
From Verif Require Import Feed SpecFeed FeedLemmas PropertiesFeed Pipes SpecPipes PipesLemmas.
Import ListNotations.
Local Open Scope nat_scope.

(** No call panics; the answers are the bytes in their order, and [None] for ever after. *)
Theorem C61_answers : forall p l, reads p l ->
  exists s, open_pipe p = Val s /\ forall k, nth_answer s k = Val (nth_error l k).
Proof. intros p l R. destruct (open_ok p l R) as (s & E & F). exists s. split; [exact E|]. intros k. now apply flow_answers. Qed.
Print Assumptions C61_answers.

(** Messages in packets: [size_hint] announces exactly as many bytes as will come. *)
Theorem C61_hint : forall p l, reads p l -> of_packets p ->
  exists s, open_pipe p = Val s /\ stream_hint s = (List.length l, Some (List.length l)).
Proof.
  intros p l R K. destruct (open_ok p l R) as (s & E & F). exists s. split; [exact E|].
  apply stream_hint_exact; [exact F|]. now apply (open_packets p).
Qed.
Print Assumptions C61_hint.

Lemma stream_yields p l s : reads p l -> open_pipe p = Val s -> yields (feed_from s) l.
Proof.
  intros R O. destruct (C61_answers p l R) as (s' & E & A). rewrite O in E. injection E as <-.
  split; intros; cbn [feed_from fd_answer]; rewrite A; [reflexivity|]. now apply nth_error_None.
Qed.

(** ** Growable targets: any edit of any message *)
Theorem C61_edit : forall p l' s fm e b g st l, reads p l' -> Forall (is_unit fm) l' ->
  open_pipe p = Val s -> feed_of e = feed_from s ->
  message fm g st l b -> st = None \/ st = Some 0%N -> inside e (List.length l) ->
  forall fuel, List.length l' < fuel ->
  exists b' c, feed_packets fuel fm b e = Some (Val (b', c))
    /\ message fm g st (new_payload (with_items e l') l) b'
    /\ payload_list (fmt_for fm) b' = Val (new_payload (with_items e l') l).
Proof.
  intros p l' s fm e b g st l R U O F M K I fuel Fu. assert (Y : yields (feed_of e) l') by (rewrite F; eapply stream_yields; eauto).
  destruct (C57_edit fm e b g st l l' fuel M K Y U I Fu) as (b' & c & E & _ & M' & P). exists b', c. auto.
Qed.
Print Assumptions C61_edit.
Theorem C61_bytes_edit : forall p l' s e l, reads p l' -> Forall (is_unit SevenBit) l' ->
  open_pipe p = Val s -> feed_of e = feed_from s ->
  Forall (is_unit SevenBit) l -> inside e (List.length l) ->
  forall fuel, List.length l' < fuel ->
  exists c, feed_bytes fuel (stream_bytes l) e = Some (Val (stream_bytes (new_payload (with_items e l') l), c)).
Proof.
  intros p l' s e l R U O F Hl I fuel Fu. assert (Y : yields (feed_of e) l') by (rewrite F; eapply stream_yields; eauto).
  destruct (C57_bytes_edit e l l' fuel Hl Y U I Fu) as (c & E & _). exists c. exact E.
Qed.
Print Assumptions C61_bytes_edit.

(** ** Arrays and slices as targets *)

Lemma heard_all f : forall l n k, (forall i, i < List.length l -> fd_answer f (k + i) = nth_error l i) -> fd_answer f (k + List.length l) = None ->
  List.length l <= n -> heard_from n k f = l.
Proof.
  induction l as [|v l IH]; intros n k A Z Ln.
  - rewrite Nat.add_0_r in Z. destruct n; [reflexivity|]. cbn [heard_from]. now rewrite Z.
  - destruct n as [|n]; [cbn in Ln; lia|]. cbn [heard_from]. pose proof (A 0 ltac:(cbn; lia)) as A0. rewrite Nat.add_0_r in A0. rewrite A0.
    cbn [nth_error]. f_equal. apply IH; [|now rewrite Nat.add_succ_comm|cbn in Ln; lia].
    intros i Hi. rewrite Nat.add_succ_comm. apply (A (S i)). cbn. lia.
Qed.
Lemma yields_heard f l n : yields f l -> List.length l <= n -> heard n f = l.
Proof. intros [A Z] Ln. now apply heard_all. Qed.

(** Packets of messages in packets: the edit succeeds exactly if the new payload fits, and gives that payload. *)
Theorem C61_fixed_edit : forall p l' s fm e b g st l, reads p l' -> Forall (is_unit fm) l' -> of_packets p ->
  open_pipe p = Val s -> feed_of e = feed_from s ->
  message_in fm g st l b -> inside e (List.length l) ->
  forall fuel, 8 * List.length b + List.length l' + 2 < fuel ->
  let wanted := new_payload (with_items e l') l in
  let fits := List.length wanted <=? room_in fm (List.length b) in
  exists b' c, try_feed_packets fuel fm b e = Some (Val (b', fits, c)) /\ List.length b' = List.length b
    /\ message_in fm g st (if fits then wanted else []) b'
    /\ payload_list (fmt_for fm) b' = Val (if fits then wanted else []).
Proof.
  intros p l' s fm e b g st l R U K O F M I fuel Fu wanted fits. assert (Y : yields (feed_of e) l') by (rewrite F; eapply stream_yields; eauto).
  destruct (C61_hint p l' R K) as (s' & O' & Hint). rewrite O in O'. injection O' as <-.
  set (n := 8 * List.length b + List.length l' + 2). pose proof (yields_heard _ _ n Y ltac:(unfold n; lia)) as Hd.
  assert (Ae : announced_enough (with_items e l') l).
  { destruct e; cbn [with_items announced_enough feed_of] in *; auto. right. unfold announced. cbn [s_items s_hint]. rewrite F. cbn [feed_from fd_hint].
    rewrite Hint. lia. }
  destruct (C22_fixed_edit fm (with_items e l') b g st l M (with_items_legal _ _ _ _ U I) Ae) as (b' & E & Lb & M' & P).
  pose proof (C57_fixed_iterators fm e b n fuel ltac:(unfold n; lia) ltac:(unfold n; lia)) as X. cbv zeta in X. rewrite Hd, E in X.
  destruct X as (c & X & _). exists b', c. split; [exact X|]. split; [exact Lb|]. split; [|exact P]. destruct e; exact M'.
Qed.
Print Assumptions C61_fixed_edit.

(** The same into an array of bytes. *)
Theorem C61_fixed_bytes_splice : forall p l' s lo hi l r, reads p l' -> Forall (is_unit SevenBit) l' -> of_packets p ->
  open_pipe p = Val s ->
  Forall (is_unit SevenBit) l -> Forall (fun x => x <> 0xF7%N) r ->
  range_begin lo <= range_end hi (List.length l) <= List.length l ->
  let b := stream_bytes l ++ r in
  forall fuel, 8 * List.length b + List.length l' + 2 < fuel ->
  let wanted := replaced l (range_begin lo) (range_end hi (List.length l)) l' in
  let fits := List.length wanted + 2 <=? List.length b in
  exists r' c, try_feed_bytes fuel b (SpliceFrom (feed_from s) lo hi) = Some (Val (stream_bytes (if fits then wanted else []) ++ r', fits, c))
    /\ List.length (stream_bytes (if fits then wanted else []) ++ r') = List.length b.
Proof.
  intros p l' s lo hi l r R U K O Hl Hr I b fuel Fu wanted fits. pose proof (stream_yields p l' s R O) as Y.
  destruct (C61_hint p l' R K) as (s' & O' & Hint). rewrite O in O'. injection O' as <-.
  assert (Lb : List.length b = List.length l + List.length r + 2).
  { unfold b, stream_bytes. rewrite app_length. cbn [List.length]. rewrite app_length. cbn [List.length]. lia. }
  assert (SL : forall x y : list N, List.length (stream_bytes x ++ y) = List.length x + List.length y + 2).
  { intros x y. unfold stream_bytes. rewrite app_length. cbn [List.length]. rewrite app_length. cbn [List.length]. lia. }
  set (n := 8 * List.length b + List.length l' + 2). set (e := SpliceFrom (feed_from s) lo hi).
  pose proof (yields_heard _ _ n Y ltac:(unfold n; lia)) as Hd.
  pose proof (C57_fixed_bytes_iterators e b n fuel ltac:(unfold n; lia) ltac:(unfold n; lia)) as X. cbv zeta in X. cbn [feed_of e] in X. rewrite Hd in X.
  pose proof (C22_bytes_splice l r {| s_items := l'; s_hint := stream_hint s |} lo hi Hl Hr U (proj1 I) (proj2 I)) as Z. cbv zeta in Z.
  cbn [s_items] in Z. fold wanted in Z.
  assert (An : announced {| s_items := l'; s_hint := stream_hint s |} = List.length l') by (unfold announced; cbn [s_hint]; now rewrite Hint).
  specialize (Z (or_intror (Nat.eq_le_incl _ _ (eq_sym An)))).
  assert (Ef : (List.length wanted <=? List.length l + List.length r) = fits) by (unfold fits; rewrite Lb; lia). rewrite Ef in Z.
  cbn [with_items e feed_from fd_hint] in X. fold b in Z. destruct fits.
  - destruct Z as (r' & E & Lr & _). rewrite E in X. destruct X as (c & X & _). exists r', c. split; [exact X|]. rewrite SL. lia.
  - destruct Z as (r' & E & Lr). rewrite E in X. destruct X as (c & X & _). exists r', c. split; [exact X|]. rewrite SL. cbn [List.length]. lia.
Qed.
Print Assumptions C61_fixed_bytes_splice.

(** ** Cutting and joining *)

Lemma forall_firstn {A} (P : A -> Prop) n l : Forall P l -> Forall P (firstn n l).
Proof. intros F. rewrite Forall_forall in *. intros x Hx. apply F. rewrite <- (firstn_skipn n l). apply in_or_app. now left. Qed.
Lemma forall_skipn {A} (P : A -> Prop) n l : Forall P l -> Forall P (skipn n l).
Proof. intros F. rewrite Forall_forall in *. intros x Hx. apply F. rewrite <- (firstn_skipn n l). apply in_or_app. now right. Qed.
Lemma filled_snug fm k g s l b : carries fm k g s l b -> List.length b = packet_words fm * k -> snug (Payload fm b).
Proof.
  intros C E k' g' s' l' C'. pose proof (carries_size _ _ _ _ _ _ C) as Z. pose proof (carries_size _ _ _ _ _ _ C') as Z'.
  rewrite Z in Z'. injection Z' as Z'. lia.
Qed.

(** The two halves of a payload, set and then appended, give the payload again; [t] is any message of the same kind. *)
Theorem C61_split_join : forall fm k g s l b i t gt st lt, carries fm k g s l b ->
  i < List.length l \/ List.length b = packet_words fm * k ->
  message fm gt st lt t -> st = None \/ st = Some 0%N ->
  exists h1 h2, open_pipe (Piece (Taken i (Payload fm b))) = Val h1 /\ open_pipe (Piece (Skipped i (Payload fm b))) = Val h2
    /\ forall fuel, List.length l < fuel ->
       exists t1 c1 t2 c2, feed_packets fuel fm t (SetFrom (feed_from h1)) = Some (Val (t1, c1))
         /\ payload_list (fmt_for fm) t1 = Val (firstn i l)
         /\ feed_packets fuel fm t1 (AppendFrom (feed_from h2)) = Some (Val (t2, c2))
         /\ message fm gt st l t2 /\ payload_list (fmt_for fm) t2 = Val l.
Proof.
  intros fm k g s l b i t gt st lt C Hi M K.
  assert (R1 : reads (Piece (Taken i (Payload fm b))) (firstn i l)) by (exists l; split; [exists k, g, s; exact C|reflexivity]).
  assert (R2 : reads (Piece (Skipped i (Payload fm b))) (skipn i l)).
  { exists l. split; [exists k, g, s; exact C|]. split; [reflexivity|]. right. destruct Hi as [Hi|Hi]; [now left|right; eapply filled_snug; eauto]. }
  destruct (C61_answers _ _ R1) as (h1 & O1 & _). destruct (C61_answers _ _ R2) as (h2 & O2 & _). exists h1, h2.
  split; [exact O1|]. split; [exact O2|]. intros fuel Fu. pose proof (carries_units _ _ _ _ _ _ C) as U.
  destruct (C61_edit _ _ h1 fm (SetFrom (feed_from h1)) t gt st lt R1 (forall_firstn _ _ _ U) O1 eq_refl M K I fuel) as (t1 & c1 & E1 & M1 & P1).
  { rewrite firstn_length. lia. }
  cbn [with_items new_payload s_items] in *.
  destruct (C61_edit _ _ h2 fm (AppendFrom (feed_from h2)) t1 gt st _ R2 (forall_skipn _ _ _ U) O2 eq_refl M1 K I fuel) as (t2 & c2 & E2 & M2 & P2).
  { rewrite skipn_length. lia. }
  cbn [with_items new_payload s_items] in *. rewrite firstn_skipn in *. exists t1, c1, t2, c2. auto.
Qed.
Print Assumptions C61_split_join.

(** The payloads of two messages joined: a 7-bit message in packets from any two messages, in packets or in bytes. *)
Theorem C61_join : forall p q l1 l2 t gt lt, reads p l1 -> reads q l2 ->
  Forall (is_unit SevenBit) l1 -> Forall (is_unit SevenBit) l2 -> message SevenBit gt (Some 0%N) lt t ->
  exists h, open_pipe (Joined p q) = Val h
    /\ forall fuel, List.length l1 + List.length l2 < fuel ->
       exists t' c, feed_packets fuel SevenBit t (SetFrom (feed_from h)) = Some (Val (t', c)) /\ message SevenBit gt (Some 0%N) (l1 ++ l2) t'.
Proof.
  intros p q l1 l2 t gt lt R1 R2 U1 U2 M. assert (R : reads (Joined p q) (l1 ++ l2)) by (exists l1, l2; auto).
  destruct (C61_answers _ _ R) as (h & O & _). exists h. split; [exact O|]. intros fuel Fu.
  destruct (C61_edit _ _ h SevenBit (SetFrom (feed_from h)) t gt _ lt R (proj2 (Forall_app _ _ _) (conj U1 U2)) O eq_refl M (or_intror eq_refl) I fuel) as (t' & c & E & M' & _).
  { rewrite app_length. lia. }
  exists t', c. auto.
Qed.
Print Assumptions C61_join.

(** ** What goes wrong *)

(** Skipping beyond the end of a message that does not fill its array: ten bytes set, then three, then [payload().skip(4)]
    panics at the first [next]. *)
Theorem C61_skip_refuted : exists b0 b1 b2 s, sx_try_new fmt7 4 = Val (Ok b0)
  /\ try_edit SevenBit (SetPayload (exactly (up 10))) b0 = Val (b1, true)
  /\ try_edit SevenBit (SetPayload (exactly (up 3))) b1 = Val (b2, true)
  /\ payload_list fmt7 b2 = Val (up 3)
  /\ open_pipe (Piece (Skipped 4 (Payload SevenBit b2))) = Val s /\ nth_answer s 0 = Panic.
Proof.
  eexists. eexists. eexists. eexists. split; [vm_compute; reflexivity|]. split; [vm_compute; reflexivity|]. split; [vm_compute; reflexivity|].
  split; [vm_compute; reflexivity|]. split; vm_compute; reflexivity.
Qed.
Print Assumptions C61_skip_refuted.

(** The payload of a message in bytes announces no bytes at all.  Put in place of bytes of a message in an array, the
    call may panic, or report success with a wrong payload, although the new payload would fit. *)
Theorem C61_byte_payload_refuted : exists s b, reads (Piece (BytePayload (stream_bytes (up 4)))) (up 4)
  /\ open_pipe (Piece (BytePayload (stream_bytes (up 4)))) = Val s /\ stream_hint s = (0, Some 0)
  /\ try_feed_bytes 100 (stream_bytes (up 4) ++ [0]%N) (SpliceFrom (feed_from s) (Included 0) (Excluded 4)) = Some Panic
  /\ (exists b0, sx_try_new fmt7 4 = Val (Ok b0) /\ try_edit SevenBit (SetPayload (exactly (up 12))) b0 = Val (b, true))
  /\ exists b' c p, try_feed_packets 100 SevenBit b (SpliceFrom (feed_from s) (Included 2) (Excluded 6)) = Some (Val (b', true, c))
       /\ payload_list fmt7 b' = Val p /\ p <> replaced (up 12) 2 6 (up 4) /\ List.length (replaced (up 12) 2 6 (up 4)) = room_in SevenBit (List.length b).
Proof.
  eexists. eexists. split; [exists []; split; [vm_compute; reflexivity|apply up_units; lia]|].
  split; [vm_compute; reflexivity|]. split; [reflexivity|]. split; [vm_compute; reflexivity|].
  split; [eexists; split; vm_compute; reflexivity|]. eexists. eexists. eexists. split; [vm_compute; reflexivity|].
  split; [vm_compute; reflexivity|]. split; [vm_compute; discriminate|vm_compute; reflexivity].
Qed.
Print Assumptions C61_byte_payload_refuted.

(** ** Cases *)

(** Of a message of ten bytes in a [Vec] and one of five in a byte array: bytes 2 to 6 of the first, doubled, then the last
    two of the second.  Into a new message, and by way of [take(7)] alone into an array with room for six. *)
Definition ten : list N := match apply_edit SevenBit (SetPayload (exactly (up 10))) [0x30000000; 0]%N with Val b => b | Panic => [] end.
Definition mixture : pipeline :=
  Joined (Mapped (fun x => 2 * x)%N (Piece (Taken 5 (Skipped 2 (Payload SevenBit ten))))) (Piece (Skipped 3 (BytePayload (stream_bytes (up 5) ++ [9]%N)))).
Lemma ten_ok : message SevenBit 0 (Some 0%N) (up 10) ten.
Proof.
  destruct (C21_edit_is_list_edit SevenBit (SetPayload (exactly (up 10))) [0x30000000; 0]%N 0%N (Some 0%N) []) as (b' & E & _ & _ & _ & M);
    [exact (proj1 (fresh_message SevenBit))|now right|apply up_units; lia|]. vm_compute in E. injection E as <-. exact M.
Qed.
Example C61_case : reads mixture ([6; 8; 10; 12; 14] ++ [4; 5])%N
  /\ Forall (is_unit SevenBit) ([6; 8; 10; 12; 14] ++ [4; 5])%N
  /\ (exists h b' c, open_pipe mixture = Val h /\ feed_packets 30 SevenBit ten (InsertFrom (feed_from h) 1) = Some (Val (b', c))
       /\ payload_list fmt7 b' = Val ([1] ++ [6; 8; 10; 12; 14; 4; 5] ++ [2; 3; 4; 5; 6; 7; 8; 9; 10])%N)
  /\ reads (Piece (Taken 7 (Payload SevenBit ten))) (up 7) /\ of_packets (Piece (Taken 7 (Payload SevenBit ten)))
  /\ (exists b0, sx_try_new fmt7 3 = Val (Ok b0) /\ message_in SevenBit 0 (Some 0%N) [] b0 /\ room_in SevenBit (List.length b0) = 6)
  /\ exists h b' c, open_pipe (Piece (Taken 7 (Payload SevenBit ten))) = Val h
       /\ try_feed_packets 60 SevenBit [0x30000000; 0; 0]%N (SetFrom (feed_from h)) = Some (Val (b', false, c)).
Proof.
  destruct ten_ok as (k & C & _).
  split; [|split; [repeat constructor|split; [|split; [|split; [exact Logic.I|split]]]]].
  - exists [6; 8; 10; 12; 14]%N, [4; 5]%N. split; [|split; [|reflexivity]].
    + exists [3; 4; 5; 6; 7]%N. split; [|reflexivity]. exists (skipn 2 (up 10)). split; [|reflexivity]. exists (up 10).
      split; [exists k, 0%N, (Some 0%N); exact C|]. split; [reflexivity|]. right. left. cbn. lia.
    + exists (up 5). split; [exists [9]%N; split; [reflexivity|apply up_units; lia]|]. split; [reflexivity|]. right. left. cbn. lia.
  - eexists. eexists. eexists. split; [vm_compute; reflexivity|]. split; vm_compute; reflexivity.
  - exists (up 10). split; [exists k, 0%N, (Some 0%N); exact C|reflexivity].
  - destruct (try_new_fresh SevenBit 3) as (b0 & E0 & L0 & M0 & _). exists b0. split; [exact E0|]. split; [exact M0|]. now rewrite L0.
  - eexists. eexists. eexists. split; [vm_compute; reflexivity|]. vm_compute. reflexivity.
Qed.
