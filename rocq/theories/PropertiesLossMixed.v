(** C64 for texts: packets of several messages, of one text type or of different ones. *)
From Coq Require Import NArith ZArith List String Bool Arith Lia Zify ZifyBool ZifyNat ZifyN.
From Verif Require Import Base BitOps BitLemmas ListLemmas Values Helpers Props PropLemmas PropValidate Message MessageTable SpecLayout SpecFixed
  FixedLemmas Sysex SpecSysex SysexBridge Text SpecText TextParse TextFresh Aggregate SpecAggregate AggregateLemmas AggregateMore
  Packet SpecPacket PacketLemmas PacketMore PropertiesPacket StreamClient SpecStream Receiver SpecReceiver ReceiverLemmas SpecLoss LossLemmas LossMore PropertiesText.
Import ListNotations.
Local Open Scope string_scope.
Local Open Scope list_scope.
Local Open Scope nat_scope.

Ltac Zify.zify_post_hook ::= Z.to_euclidean_division_equations.

(** ** Vocabulary *)

(** Packet number [snd x] of [fst x], an accepted text of type [K] and nothing behind it. *)
Definition from_flex (K : flex_kind) (x : list N * nat) : Prop :=
  In K flex_texts /\ flex_try_from K (fst x) = Val (Ok (fst x)) /\ Text.flex_data (fst x) = Val (fst x)
  /\ snd x < List.length (fst x) / 4.
Definition from_stream (K : stream_kind) (x : list N * nat) : Prop :=
  In K stream_texts /\ stream_try_from K (fst x) = Val (Ok (fst x)) /\ Text.stream_data (fst x) = Val (fst x)
  /\ snd x < List.length (fst x) / 4.

(** The bytes a packet carries behind its header. *)
Definition carried (head : nat) (x : list N * nat) : list N := skipn head (all_bytes (packet_no 4 (fst x) (snd x))).

(** ** Fields of what arrived *)

Lemma arrived_len (xs : list (list N * nat)) : Forall (fun x => snd x < List.length (fst x) / 4) xs ->
  Forall (fun q : list N => List.length q = 4) (map (fun x => packet_no 4 (fst x) (snd x)) xs).
Proof.
  intros F. apply Forall_map. rewrite Forall_forall in *. intros x Hx. specialize (F x Hx). apply packet_no_len. lia.
Qed.

Lemma arrived_fields xs d lo n : Forall (fun x => snd x < List.length (fst x) / 4) xs -> let a := arriving 4 xs in
  List.length a = 4 * List.length xs
  /\ forall i, i < List.length xs -> bits a (Seg (4 * i) lo n) = bits (fst (nth i xs d)) (Seg (4 * snd (nth i xs d)) lo n).
Proof.
  intros F a. unfold a. rewrite arriving_concat. pose proof (arrived_len xs F) as Q.
  split; [rewrite (concat_len 4) by exact Q; now rewrite map_length|]. intros i Hi.
  rewrite <- (Nat.add_0_r (4 * i)), (bits_concat 4); [|exact Q|lia|now rewrite map_length].
  rewrite (nth_indep _ [] (packet_no 4 (fst d) (snd d))) by (now rewrite map_length).
  rewrite (map_nth (fun x => packet_no 4 (fst x) (snd x))), bits_packet by lia. now rewrite Nat.add_0_r.
Qed.

Lemma all_bytes_app u v : all_bytes (u ++ v) = all_bytes u ++ all_bytes v.
Proof. unfold all_bytes. now rewrite flat_map_app. Qed.
Lemma all_bytes_len b : List.length (all_bytes b) = 4 * List.length b.
Proof. unfold all_bytes. induction b as [|x b IH]; [reflexivity|]. cbn [flat_map]. rewrite app_length, IH. cbn [List.length]. cbn. lia. Qed.

Lemma area_cons head q b : List.length q = 4 -> text_area head (q ++ b) = skipn head (all_bytes q) ++ text_area head b.
Proof.
  intros L. unfold text_area. rewrite app_length, L. replace ((4 + List.length b) / 4) with (S (List.length b / 4)) by lia.
  cbn [seq flat_map]. rewrite <- seq_shift, flat_map_concat_map, map_map, <- flat_map_concat_map. f_equal.
  - change (16 * 0) with 0. change (skipn 0 (all_bytes (q ++ b))) with (all_bytes (q ++ b)).
    rewrite all_bytes_app, firstn_app, all_bytes_len, L.
    rewrite firstn_all2 by (rewrite all_bytes_len, L; lia). change (16 - 4 * 4) with 0. cbn [firstn]. now rewrite app_nil_r.
  - apply flat_map_ext. intros p. rewrite all_bytes_app, skipn_app, all_bytes_len, L.
    rewrite (skipn_all2 (all_bytes q)) by (rewrite all_bytes_len, L; lia). cbn [app].
    replace (16 * S p - 4 * 4) with (16 * p) by lia. reflexivity.
Qed.

Lemma arrived_area head xs : Forall (fun x => snd x < List.length (fst x) / 4) xs ->
  text_area head (arriving 4 xs) = flat_map (carried head) xs.
Proof.
  induction 1 as [|x xs Hx F IH]; [reflexivity|]. unfold arriving. cbn [flat_map]. fold (arriving 4 xs).
  rewrite area_cons, IH; [reflexivity|]. apply packet_no_len. lia.
Qed.

Lemma marks_framed {A} (f : A -> list N * nat) lo xs (d : A) a :
  (forall x, In x xs -> bits (fst (f x)) (Seg (4 * snd (f x)) lo 2) = mark_of 4 (f x)) ->
  (forall i, i < List.length xs -> bits a (Seg (4 * i) lo 2) = bits (fst (f (nth i xs d))) (Seg (4 * snd (f (nth i xs d))) lo 2)) ->
  SpecFixed.framed (fun p => bits a (Seg (4 * p) lo 2)) 0 1 2 3 (List.length xs) <-> well_marked (map (fun x => mark_of 4 (f x)) xs).
Proof.
  intros M Fd. rewrite well_marked_at, framed_marks, map_length.
  assert (E : forall i, i < List.length xs -> bits a (Seg (4 * i) lo 2) = nth i (map (fun x => mark_of 4 (f x)) xs) 0%N).
  { intros i Hi. rewrite Fd, M by (try apply nth_In; exact Hi).
    rewrite (nth_indep _ 0%N (mark_of 4 (f d))) by (now rewrite map_length). now rewrite (map_nth (fun x => mark_of 4 (f x))). }
  split; intros [L H]; (split; [exact L|]); intros i Hi; specialize (H i Hi); [rewrite <- E|rewrite E]; auto.
Qed.

(** ** What the packets of an accepted text say *)

Lemma flex_part K x : from_flex K x -> let b := fst x in let p := snd x in
  bits b (Seg (4 * p) 28 4) = 0xD%N /\ bits b (Seg (4 * p) 8 8) = fk_bank K /\ bits b (Seg (4 * p) 0 8) = fk_status K
  /\ bits b (Seg (4 * p) 24 4) = bits b (Seg 0 24 4) /\ bits b (Seg (4 * p) 22 2) = mark_of 4 x.
Proof.
  destruct x as [b p]. unfold from_flex, mark_of. cbn [fst snd]. intros (HK & A & D & Hp).
  destruct (accepted_sound FlexData (CFlexText K) b b) as (k & Hk & S0 & Eb & _); [apply in_app_iff; right; now apply in_map|discriminate| |exact D|].
  { unfold accepted. cbn [concrete_try_from]. now rewrite A. }
  destruct S0 as [L S0]. cbn [family_words] in *.
  assert (Lb : List.length b = 4 * k) by (apply (f_equal (@List.length N)) in Eb; rewrite firstn_length in Eb; lia).
  replace (List.length b / 4) with k in * by lia.
  assert (T : forall p, p < k -> bits b (Seg (4 * p) 28 4) = 0xD%N) by (intros q Hq; now apply family_flex, (S0 q Hq)).
  apply flex_try_from_ok in A as (_ & _ & _ & BS & Fr & _). replace (List.length b / 4) with k in * by lia.
  destruct (Fr k (whole_leading _ _ _ Lb T)) as [G Fm]. apply framed_marks in Fm as [_ Fm].
  split; [now apply T|]. destruct (BS p Hp). split; [assumption|]. split; [assumption|]. split; [now apply G|now apply Fm].
Qed.

Lemma stream_part_says K x : from_stream K x -> let b := fst x in let p := snd x in
  bits b (Seg (4 * p) 28 4) = 0xF%N /\ bits b (Seg (4 * p) 16 10) = sk_status K
  /\ (sk_off K = 1 -> bits b (Seg (4 * p) 8 8) = bits b (Seg 0 8 8)) /\ bits b (Seg (4 * p) 26 2) = mark_of 4 x.
Proof.
  destruct x as [b p]. unfold from_stream, mark_of. cbn [fst snd]. intros (HK & A & D & Hp).
  assert (Ho : sk_off K = 0 \/ sk_off K = 1) by (cbn in HK; intuition (subst; cbn; auto)).
  destruct (accepted_sound UmpStream (CStreamText K) b b) as (k & Hk & S0 & Eb & _); [apply in_app_iff; right; now apply in_map|discriminate| |exact D|].
  { unfold accepted. cbn [concrete_try_from]. now rewrite A. }
  destruct S0 as [L S0]. cbn [family_words] in *.
  assert (Lb : List.length b = 4 * k) by (apply (f_equal (@List.length N)) in Eb; rewrite firstn_length in Eb; lia).
  replace (List.length b / 4) with k in * by lia.
  assert (T : forall p, p < k -> bits b (Seg (4 * p) 28 4) = 0xF%N) by (intros q Hq; now apply family_type, (S0 q Hq)).
  apply stream_try_from_ok in A as (_ & _ & _ & BS & Fr & Bl & _); [|lia]. replace (List.length b / 4) with k in * by lia.
  pose proof (Fr k (whole_leading _ _ _ Lb T)) as Fm. apply framed_marks in Fm as [_ Fm].
  split; [now apply T|]. split; [now apply BS|]. split; [intros O; now apply Bl|now apply Fm].
Qed.

(** Text types differ in bank or status. *)
Lemma flex_kinds_differ K K' : In K flex_texts -> In K' flex_texts -> fk_bank K = fk_bank K' -> fk_status K = fk_status K' -> K = K'.
Proof.
  intros H H'. unfold flex_texts in *. cbn [In] in H, H'.
  repeat destruct H as [<-|H]; try contradiction; repeat destruct H' as [<-|H']; try contradiction; cbn; intros; try reflexivity; discriminate.
Qed.
Lemma stream_kinds_differ K K' : In K stream_texts -> In K' stream_texts -> sk_status K = sk_status K' -> K = K'.
Proof.
  intros H H'. unfold stream_texts in *. cbn [In] in H, H'.
  repeat destruct H as [<-|H]; try contradiction; repeat destruct H' as [<-|H']; try contradiction; cbn; intros; try reflexivity; discriminate.
Qed.

(** ** The theorems *)

(** Packets of any number of flex data texts of any types are taken for a text of type [K] exactly if they are marked
    like those of one message, are all in one group, all come from texts of type [K], and what they carry together is
    UTF-8.  What is read is what they carry, in the order in which they arrived (all but the last byte). *)
Theorem C64_flex_mixed : forall K (xs : list (flex_kind * (list N * nat))), In K flex_texts ->
  Forall (fun x => from_flex (fst x) (snd x)) xs ->
  let a := arriving 4 (map snd xs) in
  let text := without_nul (removelast (flat_map (carried 4) (map snd xs))) in
  (flex_try_from K a = Val (Ok a) <->
     well_marked (map (fun x => mark_of 4 (snd x)) xs)
     /\ alike (fun x => bits (fst (snd x)) (Seg 0 24 4)) xs
     /\ Forall (fun x => fst x = K) xs /\ is_string text)
  /\ (flex_try_from K a = Val (Ok a) -> flex_text a = Val text).
Proof.
  intros K xs HK F a text.
  assert (F4 : Forall (fun x => snd x < List.length (fst x) / 4) (map snd xs)).
  { apply Forall_map. rewrite Forall_forall in *. intros x Hx. apply (F x Hx). }
  set (d := (K, ([], 0)) : flex_kind * (list N * nat)).
  assert (Fd : forall lo n i, i < List.length xs -> bits a (Seg (4 * i) lo n) = bits (fst (snd (nth i xs d))) (Seg (4 * snd (snd (nth i xs d))) lo n)).
  { intros lo n i Hi. unfold a. rewrite (proj2 (arrived_fields (map snd xs) (snd d) lo n F4)) by now rewrite map_length.
    now rewrite map_nth. }
  assert (La : List.length a = 4 * List.length xs).
  { unfold a. rewrite (proj1 (arrived_fields (map snd xs) (snd d) 0 0 F4)). now rewrite map_length. }
  assert (ER : flex_reading a = text) by (unfold flex_reading, text, a; now rewrite arrived_area).
  assert (P : forall i, i < List.length xs -> from_flex (fst (nth i xs d)) (snd (nth i xs d))).
  { intros i Hi. rewrite Forall_forall in F. now apply F, nth_In. }
  assert (Ta : forall i, i < List.length xs -> bits a (Seg (4 * i) 28 4) = 0xD%N).
  { intros i Hi. rewrite Fd by exact Hi. now apply (flex_part _ _ (P i Hi)). }
  assert (Ga : forall i, i < List.length xs -> bits a (Seg (4 * i) 24 4) = bits (fst (snd (nth i xs d))) (Seg 0 24 4)).
  { intros i Hi. rewrite Fd by exact Hi. now apply (flex_part _ _ (P i Hi)). }
  pose proof (whole_leading _ _ _ La Ta) as Ld.
  assert (MF : SpecFixed.framed (fun p => bits a (Seg (4 * p) 22 2)) 0 1 2 3 (List.length xs)
    <-> well_marked (map (fun x => mark_of 4 (snd x)) xs)).
  { apply (marks_framed snd 22 xs d); [|intros; now apply Fd]. intros x Hx. rewrite Forall_forall in F. now apply (flex_part _ _ (F x Hx)). }
  assert (ACC : flex_try_from K a = Val (Ok a) <->
     well_marked (map (fun x => mark_of 4 (snd x)) xs) /\ alike (fun x => bits (fst (snd x)) (Seg 0 24 4)) xs
     /\ Forall (fun x => fst x = K) xs /\ is_string text).
  { rewrite flex_try_from_ok. unfold flex_accepts. rewrite ER, La. replace (4 * List.length xs / 4) with (List.length xs) by lia. split.
    - intros (_ & L4 & _ & BS & Fra & Str). destruct (Fra _ Ld) as [G Fm]. split; [now apply MF|]. split; [|split; [|exact Str]].
      + intros x y Hx Hy. apply (In_nth _ _ d) in Hx as (i & Hi & <-). apply (In_nth _ _ d) in Hy as (j & Hj & <-).
        rewrite <- !Ga by assumption. rewrite (G i), (G j) by assumption. reflexivity.
      + apply Forall_forall. intros x Hx. apply (In_nth _ _ d) in Hx as (i & Hi & <-).
        destruct (BS i Hi) as [B1 B2]. rewrite Fd in B1, B2 by exact Hi.
        destruct (flex_part _ _ (P i Hi)) as (_ & B3 & B4 & _). apply flex_kinds_differ; [apply (P i Hi)|exact HK|congruence|congruence].
    - intros (WM & Al & KK & Str). split; [reflexivity|]. apply MF in WM. assert (1 <= List.length xs) by (apply framed_marks in WM; tauto).
      split; [lia|]. split; [exact (Ta 0 ltac:(lia))|]. split; [|split; [|exact Str]].
      + intros p Hp. rewrite !Fd by exact Hp. destruct (flex_part _ _ (P p Hp)) as (_ & B1 & B2 & _).
        rewrite B1, B2. rewrite Forall_forall in KK. rewrite (KK _ (nth_In xs d Hp)). auto.
      + intros k Hk. rewrite (leading_unique _ _ _ _ _ Hk Ld). split; [|exact WM]. intros p Hp _. change 0 with (4 * 0) at 2.
        rewrite !Ga by lia. apply Al; apply nth_In; lia. }
  split; [exact ACC|]. intros A. assert (Str : is_string text) by now apply ACC.
  apply flex_try_from_ok in A as (_ & L4 & _). unfold flex_text. apply accepted_string; [|exact Str].
  rewrite <- ER. now apply flex_bytes_any.
Qed.
Print Assumptions C64_flex_mixed.

(** The same for texts of UMP stream messages, which have no group; the packets of a function block name must name the
    same block. *)
Theorem C64_stream_mixed : forall K (xs : list (stream_kind * (list N * nat))), In K stream_texts ->
  Forall (fun x => from_stream (fst x) (snd x)) xs ->
  let a := arriving 4 (map snd xs) in
  let text := without_nul (flat_map (carried (2 + sk_off K)) (map snd xs)) in
  (stream_try_from K a = Val (Ok a) <->
     well_marked (map (fun x => mark_of 4 (snd x)) xs)
     /\ (sk_off K = 1 -> alike (fun x => bits (fst (snd x)) (Seg 0 8 8)) xs)
     /\ Forall (fun x => fst x = K) xs /\ is_string text)
  /\ (stream_try_from K a = Val (Ok a) -> stream_text K a = Val text).
Proof.
  intros K xs HK F a text. assert (Ho : sk_off K = 0 \/ sk_off K = 1) by (cbn in HK; intuition (subst; cbn; auto)).
  assert (F4 : Forall (fun x => snd x < List.length (fst x) / 4) (map snd xs)).
  { apply Forall_map. rewrite Forall_forall in *. intros x Hx. apply (F x Hx). }
  set (d := (K, ([], 0)) : stream_kind * (list N * nat)).
  assert (Fd : forall lo n i, i < List.length xs -> bits a (Seg (4 * i) lo n) = bits (fst (snd (nth i xs d))) (Seg (4 * snd (snd (nth i xs d))) lo n)).
  { intros lo n i Hi. unfold a. rewrite (proj2 (arrived_fields (map snd xs) (snd d) lo n F4)) by now rewrite map_length.
    now rewrite map_nth. }
  assert (La : List.length a = 4 * List.length xs).
  { unfold a. rewrite (proj1 (arrived_fields (map snd xs) (snd d) 0 0 F4)). now rewrite map_length. }
  assert (ER : stream_reading (sk_off K) a = text) by (unfold stream_reading, text, a; now rewrite arrived_area).
  assert (P : forall i, i < List.length xs -> from_stream (fst (nth i xs d)) (snd (nth i xs d))).
  { intros i Hi. rewrite Forall_forall in F. now apply F, nth_In. }
  assert (Ta : forall i, i < List.length xs -> bits a (Seg (4 * i) 28 4) = 0xF%N).
  { intros i Hi. rewrite Fd by exact Hi. now apply (stream_part_says _ _ (P i Hi)). }
  pose proof (whole_leading _ _ _ La Ta) as Ld.
  assert (MF : SpecFixed.framed (fun p => bits a (Seg (4 * p) 26 2)) 0 1 2 3 (List.length xs)
    <-> well_marked (map (fun x => mark_of 4 (snd x)) xs)).
  { apply (marks_framed snd 26 xs d); [|intros; now apply Fd]. intros x Hx. rewrite Forall_forall in F. now apply (stream_part_says _ _ (F x Hx)). }
  assert (OK : forall b v, stream_try_from K b = Val (Ok v) <-> v = b /\ stream_accepts (sk_status K) (sk_off K) b) by (intros; apply stream_try_from_ok; lia).
  assert (ACC : stream_try_from K a = Val (Ok a) <->
     well_marked (map (fun x => mark_of 4 (snd x)) xs) /\ (sk_off K = 1 -> alike (fun x => bits (fst (snd x)) (Seg 0 8 8)) xs)
     /\ Forall (fun x => fst x = K) xs /\ is_string text).
  { rewrite OK. unfold stream_accepts. rewrite ER, La. replace (4 * List.length xs / 4) with (List.length xs) by lia. split.
    - intros (_ & L4 & _ & BS & Fra & Bl & Str). split; [now apply MF, Fra|].
      assert (KK : forall i, i < List.length xs -> fst (nth i xs d) = K).
      { intros i Hi. specialize (BS i Hi). rewrite Fd in BS by exact Hi.
        destruct (stream_part_says _ _ (P i Hi)) as (_ & B3 & _). apply stream_kinds_differ; [apply (P i Hi)|exact HK|congruence]. }
      split; [|split; [|exact Str]].
      + intros O x y Hx Hy. apply (In_nth _ _ d) in Hx as (i & Hi & <-). apply (In_nth _ _ d) in Hy as (j & Hj & <-).
        destruct (stream_part_says _ _ (P i Hi)) as (_ & _ & Bi & _). destruct (stream_part_says _ _ (P j Hj)) as (_ & _ & Bj & _).
        rewrite KK in Bi, Bj by assumption. rewrite <- (Bi O), <- (Bj O), <- !Fd by assumption.
        rewrite (Bl O i), (Bl O j) by assumption. reflexivity.
      + apply Forall_forall. intros x Hx. apply (In_nth _ _ d) in Hx as (i & Hi & <-). now apply KK.
    - intros (WM & Al & KK & Str). split; [reflexivity|]. apply MF in WM. assert (1 <= List.length xs) by (apply framed_marks in WM; tauto).
      assert (KKi : forall i, i < List.length xs -> fst (nth i xs d) = K) by (intros i Hi; rewrite Forall_forall in KK; now apply KK, nth_In).
      split; [lia|]. split; [exact (Ta 0 ltac:(lia))|]. split; [|split; [|split; [|exact Str]]].
      + intros p Hp. rewrite !Fd by exact Hp. destruct (stream_part_says _ _ (P p Hp)) as (_ & B1 & _).
        rewrite B1, KKi by exact Hp. reflexivity.
      + intros k Hk. now rewrite (leading_unique _ _ _ _ _ Hk Ld).
      + intros O p Hp. change 0 with (4 * 0) at 2. rewrite !Fd by lia.
        assert (H0 : 0 < List.length xs) by lia.
        destruct (stream_part_says _ _ (P p Hp)) as (_ & _ & Bi & _). destruct (stream_part_says _ _ (P 0 H0)) as (_ & _ & Bj & _).
        rewrite KKi in Bi, Bj by assumption. rewrite (Bi O), (Bj O). apply (Al O); apply nth_In; lia. }
  split; [exact ACC|]. intros A. assert (Str : is_string text) by now apply ACC.
  apply OK in A as (_ & L4 & _). unfold stream_text. apply accepted_string; [|exact Str].
  rewrite <- ER. apply stream_bytes_any; [lia|exact L4].
Qed.
Print Assumptions C64_stream_mixed.

(** The end of one text and the start of the next one lost: what is left is read as a text that nobody sent. *)
Definition lyrics : flex_kind := {| fk_name := "Lyrics"; fk_bank := 2; fk_status := 1 |}.
Definition ruby : flex_kind := {| fk_name := "Ruby"; fk_bank := 2; fk_status := 3 |}.
Definition hello : list N := [0xD0500201; 0x68656C6C; 0x6F206865; 0x6C6C6F20; 0xD0D00201; 0x61000000; 0; 0]%N.
Definition other : list N := [0xD0500201; 0x6F746865; 0x72206F74; 0x68657220; 0xD0D00201; 0x62000000; 0; 0]%N.
Theorem C64_texts_joined_refuted : exists a,
  In lyrics flex_texts /\ from_flex lyrics (hello, 0) /\ from_flex lyrics (other, 1)
  /\ a = arriving 4 [(hello, 0); (other, 1)] /\ flex_try_from lyrics a = Val (Ok a)
  /\ flex_text a <> flex_text hello /\ flex_text a <> flex_text other.
Proof.
  eexists. assert (In lyrics flex_texts) by (unfold flex_texts, lyrics; cbn [In]; tauto).
  split; [assumption|]. split; [split; [assumption|repeat split; vm_compute; try reflexivity; lia]|].
  split; [split; [assumption|repeat split; vm_compute; try reflexivity; lia]|]. split; [reflexivity|].
  split; [vm_compute; reflexivity|]. split; vm_compute; discriminate.
Qed.
Print Assumptions C64_texts_joined_refuted.

(** Packets of texts of two types in two groups: neither type accepts the mixture. *)
Definition small : list N := [0xD1500203; 0x41424344; 0; 0; 0xD1D00203; 0x45000000; 0; 0]%N.
Definition block : stream_kind := {| sk_name := "FunctionBlockName"; sk_status := 0x12; sk_off := 1 |}.
Definition named : list N := [0xF4120541; 0x42434445; 0x46474849; 0x4A4B4C4D; 0xFC12054E; 0; 0; 0]%N.
Example C64_mixed_cases :
  let xs := [(lyrics, (hello, 0)); (ruby, (small, 1))] in
  Forall (fun x => from_flex (fst x) (snd x)) xs
  /\ well_marked (map (fun x => mark_of 4 (snd x)) xs)
  /\ ~ Forall (fun x => fst x = lyrics) xs /\ ~ alike (fun x => bits (fst (snd x)) (Seg 0 24 4)) xs
  /\ from_stream block (named, 0) /\ from_stream block (named, 1).
Proof.
  assert (A : In lyrics flex_texts) by (unfold flex_texts, lyrics; cbn [In]; tauto).
  assert (B : In ruby flex_texts) by (unfold flex_texts, ruby; cbn [In]; tauto).
  assert (C : In block stream_texts) by (unfold stream_texts, block; cbn [In]; tauto).
  cbv zeta. split; [|split; [|split; [|split]]].
  - repeat apply Forall_cons; try apply Forall_nil; (split; [assumption|repeat split; vm_compute; try reflexivity; lia]).
  - right. exists 0. reflexivity.
  - intros H. inversion H as [|? ? _ H1]. inversion H1 as [|? ? E]. discriminate E.
  - intros H. specialize (H _ _ (or_introl eq_refl) (or_intror (or_introl eq_refl))). vm_compute in H. discriminate H.
  - split; (split; [assumption|repeat split; vm_compute; try reflexivity; lia]).
Qed.
