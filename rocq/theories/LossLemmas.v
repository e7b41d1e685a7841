(** Lemmas: packets that are lost, repeated or that arrive in another order (SpecLoss.v). *)
From Coq Require Import NArith List Bool Arith Lia ZifyBool ZifyNat ZifyN.
From Verif Require Import Base SpecLayout SpecFixed SpecSysex Sysex SysexBridge SpecLoss.
Import ListNotations.
Local Open Scope nat_scope.
Local Open Scope list_scope.

(** ** Packets put one after the other *)

Lemma nth_concat {A} (d : A) w qs : Forall (fun q => List.length q = w) qs -> forall i j, j < w -> i < List.length qs ->
  nth (w * i + j) (List.concat qs) d = nth j (nth i qs []) d.
Proof.
  induction 1 as [|q qs L F IH]; intros i j Hj Hi; [cbn in Hi; lia|]. cbn [List.concat]. destruct i as [|i].
  - rewrite Nat.mul_0_r. cbn [nth Nat.add]. apply app_nth1. lia.
  - rewrite app_nth2 by nia. cbn [nth]. replace (w * S i + j - List.length q) with (w * i + j) by nia. apply IH; [exact Hj|cbn in Hi; lia].
Qed.
Lemma concat_len {A} w (qs : list (list A)) : Forall (fun q => List.length q = w) qs -> List.length (List.concat qs) = w * List.length qs.
Proof. induction 1 as [|q qs L F IH]; [cbn; lia|]. cbn [List.concat List.length]. rewrite app_length, IH, L. lia. Qed.

Lemma bits_concat w qs i j lo n : Forall (fun q => List.length q = w) qs -> j < w -> i < List.length qs ->
  bits (List.concat qs) (Seg (w * i + j) lo n) = bits (nth i qs []) (Seg j lo n).
Proof. intros F Hj Hi. unfold bits. cbn [sg_w sg_lo sg_n]. now rewrite (nth_concat 0%N w qs F). Qed.
Lemma byte_concat w qs i o : Forall (fun q => List.length q = w) qs -> o < 4 * w -> i < List.length qs ->
  byte (List.concat qs) (4 * w * i + o) = byte (nth i qs []) o.
Proof.
  intros F Ho Hi. unfold byte. replace ((4 * w * i + o) mod 4) with (o mod 4).
  2:{ replace (4 * w * i + o) with (o + (w * i) * 4) by lia. now rewrite Nat.mod_add. }
  replace ((4 * w * i + o) / 4) with (w * i + o / 4).
  2:{ replace (4 * w * i + o) with (o + (w * i) * 4) by lia. rewrite Nat.div_add by lia. lia. }
  rewrite (nth_concat 0%N w qs F); auto. apply Nat.div_lt_upper_bound; lia.
Qed.

(** A packet taken out of its message. *)
Lemma packet_no_len w b p : w * S p <= List.length b -> List.length (packet_no w b p) = w.
Proof. intros H. unfold packet_no. rewrite firstn_length, skipn_length. nia. Qed.
Lemma packet_no_nth {A} (d : A) w b p j : j < w -> nth j (firstn w (skipn (w * p) b)) d = nth (w * p + j) b d.
Proof.
  intros Hj. destruct (Nat.lt_ge_cases (w * p + j) (List.length b)) as [L|L].
  - rewrite <- (firstn_skipn (w * p) b) at 2. rewrite app_nth2; rewrite firstn_length; [|nia].
    replace (w * p + j - Nat.min (w * p) (List.length b)) with j by nia.
    set (c := skipn (w * p) b). destruct (Nat.lt_ge_cases j (List.length (firstn w c))) as [L'|L'].
    + rewrite <- (firstn_skipn w c) at 2. now rewrite app_nth1.
    + rewrite firstn_length in L'. rewrite !nth_overflow; [reflexivity| |rewrite firstn_length]; lia.
  - rewrite (nth_overflow b) by lia. apply nth_overflow. rewrite firstn_length, skipn_length. lia.
Qed.
Lemma bits_packet w b p j lo n : j < w -> bits (packet_no w b p) (Seg j lo n) = bits b (Seg (w * p + j) lo n).
Proof. intros Hj. unfold bits, packet_no. cbn [sg_w sg_lo sg_n]. now rewrite packet_no_nth. Qed.
Lemma byte_packet w b p o : o < 4 * w -> byte (packet_no w b p) o = byte b (4 * w * p + o).
Proof.
  intros Ho. unfold byte, packet_no. rewrite packet_no_nth by (apply Nat.div_lt_upper_bound; lia).
  replace ((4 * w * p + o) mod 4) with (o mod 4).
  2:{ replace (4 * w * p + o) with (o + (w * p) * 4) by lia. now rewrite Nat.mod_add. }
  replace ((4 * w * p + o) / 4) with (w * p + o / 4); [reflexivity|].
  replace (4 * w * p + o) with (o + (w * p) * 4) by lia. rewrite Nat.div_add by lia. lia.
Qed.

(** ** Marks *)

Lemma nth_twos n i : i < n -> nth i (repeat 2%N n) 0%N = 2%N.
Proof. intros H. rewrite (nth_indep _ 0%N 2%N) by (now rewrite repeat_length). apply nth_repeat. Qed.

Lemma well_marked_at l : well_marked l <-> 1 <= List.length l /\ forall i, i < List.length l -> nth i l 0%N = status_code (List.length l) i.
Proof.
  split.
  - intros [->|(n & ->)]; cbn [List.length]; [split; [lia|]; intros i Hi; replace i with 0 by lia; reflexivity|].
    rewrite app_length, repeat_length. cbn [List.length]. rewrite Nat.add_1_r. split; [lia|]. intros i Hi. unfold status_code.
    destruct i as [|i]; [reflexivity|]. cbn [nth Nat.eqb].
    destruct (Nat.eqb_spec i n) as [E|E].
    + rewrite app_nth2; rewrite repeat_length; [|lia]. replace (i - n) with 0 by lia. reflexivity.
    + rewrite app_nth1 by (rewrite repeat_length; lia). apply nth_twos. lia.
  - intros [L H]. destruct l as [|a l]; [cbn in L; lia|]. destruct l as [|b l].
    + left. f_equal. exact (H 0 ltac:(cbn; lia)).
    + right. exists (List.length l). apply (nth_ext _ _ 0%N 0%N).
      * cbn [List.length]. rewrite app_length, repeat_length. cbn. lia.
      * intros i Hi. rewrite H by exact Hi. unfold status_code. cbn [List.length] in Hi |- *.
        destruct i as [|i]; [reflexivity|]. cbn [nth Nat.eqb].
        destruct (Nat.eqb_spec i (List.length l)) as [->|E].
        -- rewrite app_nth2; rewrite repeat_length; [|lia]. now rewrite Nat.sub_diag.
        -- rewrite app_nth1 by (rewrite repeat_length; lia). symmetry. apply nth_twos. lia.
Qed.

Lemma framed_marks fmt k : SpecFixed.framed fmt 0 1 2 3 k <-> 1 <= k /\ forall i, i < k -> fmt i = status_code k i.
Proof.
  unfold SpecFixed.framed, status_code. split.
  - intros [[-> E]|(L & E1 & E2 & E3)]; split; try lia; intros i Hi.
    + now replace i with 0 by lia.
    + destruct (Nat.eqb_spec k 1); [lia|]. destruct (Nat.eqb_spec i 0) as [->|]; [exact E1|].
      destruct (Nat.eqb_spec (S i) k); [replace i with (k - 1) by lia; exact E3|]. apply E2. lia.
  - intros [L H]. destruct (Nat.eqb_spec k 1) as [->|Nk]; [left; split; [reflexivity|]; exact (H 0 ltac:(lia))|]. right.
    split; [lia|]. split; [exact (H 0 ltac:(lia))|]. split.
    + intros i Hi. rewrite H by lia. destruct (Nat.eqb_spec i 0); [lia|]. destruct (Nat.eqb_spec (S i) k); [lia|reflexivity].
    + rewrite H by lia. destruct (Nat.eqb_spec (k - 1) 0); [lia|]. destruct (Nat.eqb_spec (S (k - 1)) k); [reflexivity|lia].
Qed.

(** Packets of one message. *)
Lemma code_first k p : p < k -> status_code k p = 1%N -> p = 0 /\ 1 < k.
Proof. unfold status_code. intros L. destruct (Nat.eqb_spec k 1), (Nat.eqb_spec p 0), (Nat.eqb_spec (S p) k); try discriminate; lia. Qed.
Lemma code_last k p : p < k -> status_code k p = 3%N -> p = k - 1 /\ 1 < k.
Proof. unfold status_code. intros L. destruct (Nat.eqb_spec k 1), (Nat.eqb_spec p 0), (Nat.eqb_spec (S p) k); try discriminate; lia. Qed.
Lemma code_mid k p : p < k -> status_code k p = 2%N <-> 0 < p < k - 1.
Proof. unfold status_code. intros L. destruct (Nat.eqb_spec k 1), (Nat.eqb_spec p 0), (Nat.eqb_spec (S p) k); split; try discriminate; try lia; try reflexivity. Qed.
Lemma code_only k p : p < k -> status_code k p = 0%N -> p = 0 /\ k = 1.
Proof. unfold status_code. intros L. destruct (Nat.eqb_spec k 1), (Nat.eqb_spec p 0), (Nat.eqb_spec (S p) k); try discriminate; lia. Qed.

Lemma looks_marked k ps : Forall (fun p => p < k) ps -> well_marked (map (status_code k) ps) <-> looks_whole k ps.
Proof.
  intros F. split.
  - intros [E|(n & E)].
    + destruct ps as [|p [|? ?]]; try discriminate. injection E as E. inversion F; subst. apply code_only in E as [-> ->]; [|assumption]. left. auto.
    + right. destruct ps as [|p ps]; [discriminate|]. cbn [map] in E. injection E as E1 E2. inversion F as [|? ? Hp F']; subst.
      apply code_first in E1 as [-> Hk]; [|assumption].
      destruct (@exists_last _ ps) as (mid & q & ->). { intros ->. now destruct n. }
      rewrite map_app in E2. cbn [map] in E2. apply app_inj_tail in E2 as [E2 E3]. apply Forall_app in F' as [Fm Fq]. inversion Fq; subst.
      apply code_last in E3 as [-> _]; [|assumption]. exists mid. split; [exact Hk|]. split; [reflexivity|].
      rewrite Forall_forall in *. intros x Hx. apply (code_mid k x (Fm x Hx)). apply (repeat_spec n 2%N). rewrite <- E2. now apply in_map.
  - intros [[-> ->]|(mid & Hk & -> & M)]; [now left|]. right. exists (List.length mid). cbn [map]. f_equal.
    + unfold status_code. now replace (k =? 1) with false by lia.
    + rewrite map_app. cbn [map]. f_equal.
      * clear F. induction M as [|p mid Hp M IH]; [reflexivity|]. cbn [map List.length repeat]. f_equal; [apply code_mid; lia|exact IH].
      * f_equal. unfold status_code. replace (k =? 1) with false by lia. replace (k - 1 =? 0) with false by lia. now replace (S (k - 1) =? k) with true by lia.
Qed.

Lemma alike_nth {A} (f : A -> N) (xs : list A) (d : A) v : alike f xs -> 0 < List.length xs -> v = f (nth 0 xs d) -> forall i, i < List.length xs -> f (nth i xs d) = v.
Proof. intros H L -> i Hi. apply H; apply nth_In; lia. Qed.

(** ** System exclusive messages *)

Definition size_fits (fm : form) (q : list N) : Prop :=
  (size_bias fm <= size_nibble fm q 0 <= size_bias fm + N.of_nat (packet_room fm))%N.

Section Parts.
  Variables (fm : form) (qs : list (list N)).
  Hypothesis F : Forall (fun q => List.length q = packet_words fm) qs.
  Let b := List.concat qs.
  Lemma byte_part i o : o < packet_bytes fm -> i < List.length qs -> byte b (packet_bytes fm * i + o) = byte (nth i qs []) o.
  Proof. replace (packet_bytes fm) with (4 * packet_words fm) by now destruct fm. now apply byte_concat. Qed.
  Lemma type_part i : i < List.length qs -> type_of fm b i = type_of fm (nth i qs []) 0.
  Proof. intros Hi. unfold type_of. rewrite <- (Nat.add_0_r (packet_bytes fm * i)), byte_part by (auto; destruct fm; cbn; lia). now rewrite Nat.mul_0_r. Qed.
  Lemma group_part i : i < List.length qs -> group_of fm b i = group_of fm (nth i qs []) 0.
  Proof. intros Hi. unfold group_of. rewrite <- (Nat.add_0_r (packet_bytes fm * i)), byte_part by (auto; destruct fm; cbn; lia). now rewrite Nat.mul_0_r. Qed.
  Lemma status_part i : i < List.length qs -> status_nibble fm b i = status_nibble fm (nth i qs []) 0.
  Proof. intros Hi. unfold status_nibble. rewrite byte_part by (auto; destruct fm; cbn; lia). now rewrite Nat.mul_0_r. Qed.
  Lemma size_part i : i < List.length qs -> size_nibble fm b i = size_nibble fm (nth i qs []) 0.
  Proof. intros Hi. unfold size_nibble. rewrite byte_part by (auto; destruct fm; cbn; lia). now rewrite Nat.mul_0_r. Qed.
  Lemma stream_part i : i < List.length qs -> stream_of fm b i = stream_of fm (nth i qs []) 0.
  Proof. intros Hi. unfold stream_of. rewrite byte_part by (auto; destruct fm; cbn; lia). now rewrite Nat.mul_0_r. Qed.
  Lemma payload_part i : i < List.length qs -> (size_nibble fm (nth i qs []) 0 <= size_bias fm + N.of_nat (packet_room fm))%N ->
    payload_of fm b i = payload_of fm (nth i qs []) 0.
  Proof.
    intros Hi Hs. unfold payload_of, units_in. rewrite size_part by auto. apply map_ext_in. intros q Hq. apply in_seq in Hq.
    rewrite <- !Nat.add_assoc, byte_part by (auto; destruct fm; cbn in *; lia). now rewrite Nat.mul_0_r.
  Qed.
End Parts.

Lemma parts_accepted fm qs : Forall (fun q => List.length q = packet_words fm) qs -> Forall (fun q => type_of fm q 0 = type_code fm) qs ->
  let b := List.concat qs in
  (sx_try_from (fmt_of fm) b = Ok b <->
     well_marked (map (fun q => status_nibble fm q 0) qs) /\ Forall (size_fits fm) qs
     /\ alike (fun q => group_of fm q 0) qs /\ (fm = EightBit -> alike (fun q => stream_of fm q 0) qs))
  /\ (sx_try_from (fmt_of fm) b = Ok b -> payload_list (fmt_of fm) b = Val (flat_map (fun q => payload_of fm q 0) qs)).
Proof.
  intros F T b. assert (W : 0 < packet_words fm) by (destruct fm; cbn; lia).
  assert (Len : List.length b = packet_words fm * List.length qs) by now apply concat_len.
  assert (M : List.length b mod packet_words fm = 0) by (rewrite Len, Nat.mul_comm; now apply Nat.mod_mul; lia).
  assert (D : List.length b / packet_words fm = List.length qs) by (rewrite Len, Nat.mul_comm; apply Nat.div_mul; lia).
  assert (Nth : forall (P : list N -> Prop) i, Forall P qs -> i < List.length qs -> P (nth i qs [])).
  { intros P i H Hi. rewrite Forall_forall in H. now apply H, nth_In. }
  assert (Ac : sx_try_from (fmt_of fm) b = Ok b -> exists g s l, carries fm (List.length qs) g (Some s) l b).
  { intros A. apply (accepts_spec fm b M) in A as (k & g & s & l & C & N & _). rewrite D in N.
    assert (k = List.length qs); [|subst; eauto]. pose proof (ca_fits _ _ _ _ _ _ C) as Hk. rewrite Len in Hk.
    destruct (Nat.lt_ge_cases k (List.length qs)) as [L|L]; [|nia]. elim (N L). unfold b. rewrite type_part by auto.
    now apply (Nth (fun q => type_of fm q 0 = type_code fm)). }
  split; [split|].
  - intros A. destruct (Ac A) as (g & s & l & C). split; [|split; [|split]].
    + apply well_marked_at. rewrite map_length. split; [exact (ca_some _ _ _ _ _ _ C)|]. intros i Hi.
      rewrite (nth_indep _ 0%N (status_nibble fm [] 0)) by (now rewrite map_length).
      rewrite (map_nth (fun q => status_nibble fm q 0)), <- (status_part fm qs F) by auto. now apply (ca_status _ _ _ _ _ _ C).
    + apply Forall_forall. intros q Hq. apply (In_nth _ _ []) in Hq as (i & Hi & <-). unfold size_fits. rewrite <- (size_part fm qs F) by auto.
      now apply (ca_size _ _ _ _ _ _ C).
    + intros q q' Hq Hq'. apply (In_nth _ _ []) in Hq as (i & Hi & <-). apply (In_nth _ _ []) in Hq' as (j & Hj & <-).
      rewrite <- !(group_part fm qs F) by auto. fold b. now rewrite !(ca_group _ _ _ _ _ _ C).
    + intros E q q' Hq Hq'. apply (In_nth _ _ []) in Hq as (i & Hi & <-). apply (In_nth _ _ []) in Hq' as (j & Hj & <-).
      rewrite <- !(stream_part fm qs F) by auto. fold b.
      pose proof (ca_stream _ _ _ _ _ _ C i Hi E) as X. pose proof (ca_stream _ _ _ _ _ _ C j Hj E) as Y. cbn in X, Y. congruence.
  - intros (Mk & Sz & Gr & St). apply well_marked_at in Mk as [L Mk]. rewrite map_length in L, Mk. apply (accepts_spec fm b M).
    exists (List.length qs), (group_of fm b 0), (stream_of fm b 0). eexists. split; [constructor; try reflexivity|split].
    + exact L.
    + lia.
    + intros p Hp. unfold b. rewrite type_part by auto. now apply (Nth (fun q => type_of fm q 0 = type_code fm)).
    + intros p Hp. unfold b. rewrite !group_part by (auto; lia). apply Gr; apply nth_In; lia.
    + intros p Hp E. cbn. unfold b. rewrite !stream_part by (auto; lia). apply (St E); apply nth_In; lia.
    + intros p Hp. unfold b. rewrite status_part by auto. specialize (Mk p Hp).
      rewrite (nth_indep _ 0%N (status_nibble fm [] 0)) in Mk by (now rewrite map_length). now rewrite (map_nth (fun q => status_nibble fm q 0)) in Mk.
    + intros p Hp. unfold b. rewrite size_part by auto. now apply (Nth (size_fits fm)).
    + rewrite D. lia.
    + intros p Hp. rewrite D in Hp. unfold b. rewrite size_part by auto. now apply (Nth (size_fits fm)).
  - intros A. destruct (Ac A) as (g & s & l & C). destruct (carries_reads _ _ _ _ _ _ C) as (_ & P & _). rewrite P, <- (ca_payload _ _ _ _ _ _ C).
    f_equal. rewrite (flat_map_concat_map (fun q => payload_of fm q 0)). rewrite flat_map_concat_map. f_equal.
    apply (nth_ext _ _ (payload_of fm b 0) (payload_of fm [] 0)); rewrite !map_length, seq_length; [reflexivity|]. intros i Hi.
    rewrite (map_nth (payload_of fm b)), seq_nth, (map_nth (fun q => payload_of fm q 0)) by auto. cbn [Nat.add].
    apply payload_part; auto. rewrite <- (size_part fm qs F) by auto. now apply (ca_size _ _ _ _ _ _ C).
Qed.

(** Packets out of messages. *)
Lemma from_sysex_part fm x : from_sysex fm x ->
  let q := packet_no (packet_words fm) (fst x) (snd x) in
  List.length q = packet_words fm /\ type_of fm q 0 = type_code fm /\ status_nibble fm q 0 = mark_of (packet_words fm) x /\ size_fits fm q
  /\ group_of fm q 0 = group_of fm (fst x) (snd x) /\ stream_of fm q 0 = stream_of fm (fst x) (snd x)
  /\ payload_of fm q 0 = payload_of fm (fst x) (snd x).
Proof.
  intros (k & g & s & l & C & Len & Hk) q. destruct x as [b p]. cbn [fst snd] in *.
  assert (B : forall o, o < packet_bytes fm -> byte q o = byte b (packet_bytes fm * p + o)).
  { intros o Ho. unfold q. replace (packet_bytes fm) with (4 * packet_words fm) in * by now destruct fm. now apply byte_packet. }
  assert (Sz : size_nibble fm q 0 = size_nibble fm b p) by (unfold size_nibble; rewrite Nat.mul_0_r, B by (destruct fm; cbn; lia); reflexivity).
  pose proof (ca_size _ _ _ _ _ _ C p Hk) as Hs.
  split; [apply packet_no_len; nia|].
  split; [unfold type_of; rewrite Nat.mul_0_r, B, Nat.add_0_r by (destruct fm; cbn; lia); now apply (ca_type _ _ _ _ _ _ C)|].
  split.
  { unfold status_nibble; rewrite Nat.mul_0_r, B by (destruct fm; cbn; lia). unfold mark_of. cbn [fst snd].
    rewrite Len, (Nat.mul_comm _ k), Nat.div_mul by (destruct fm; discriminate). now apply (ca_status _ _ _ _ _ _ C). }
  split; [unfold size_fits; now rewrite Sz|].
  split; [unfold group_of; rewrite Nat.mul_0_r, B, Nat.add_0_r by (destruct fm; cbn; lia); reflexivity|].
  split; [unfold stream_of; rewrite Nat.mul_0_r, B by (destruct fm; cbn; lia); reflexivity|].
  unfold payload_of, units_in. rewrite Sz. apply map_ext_in. intros j Hj. apply in_seq in Hj.
  rewrite Nat.mul_0_r, Nat.add_0_l, B, Nat.add_assoc by (destruct fm; cbn in *; lia). reflexivity.
Qed.

Lemma arriving_concat w xs : arriving w xs = List.concat (map (fun x => packet_no w (fst x) (snd x)) xs).
Proof. unfold arriving. apply flat_map_concat_map. Qed.

Lemma alike_map {A B} (h : A -> B) (f : B -> N) (g : A -> N) xs : (forall x, In x xs -> f (h x) = g x) -> alike f (map h xs) <-> alike g xs.
Proof.
  intros E. split.
  - intros H x y Hx Hy. rewrite <- !E by auto. apply H; now apply in_map.
  - intros H x y Hx Hy. apply in_map_iff in Hx as (x' & <- & Hx). apply in_map_iff in Hy as (y' & <- & Hy). rewrite !E by auto. now apply H.
Qed.

Lemma arriving_accepted fm xs : Forall (from_sysex fm) xs ->
  let b := arriving (packet_words fm) xs in
  (sx_try_from (fmt_of fm) b = Ok b <->
     well_marked (map (mark_of (packet_words fm)) xs) /\ alike (fun x => group_of fm (fst x) (snd x)) xs
     /\ (fm = EightBit -> alike (fun x => stream_of fm (fst x) (snd x)) xs))
  /\ (sx_try_from (fmt_of fm) b = Ok b -> payload_list (fmt_of fm) b = Val (flat_map (fun x => payload_of fm (fst x) (snd x)) xs)).
Proof.
  intros H. cbv zeta. rewrite arriving_concat. set (h := fun x => packet_no (packet_words fm) (fst x) (snd x)).
  assert (P : forall x, In x xs -> List.length (h x) = packet_words fm /\ type_of fm (h x) 0 = type_code fm
     /\ status_nibble fm (h x) 0 = mark_of (packet_words fm) x /\ size_fits fm (h x)
     /\ group_of fm (h x) 0 = group_of fm (fst x) (snd x) /\ stream_of fm (h x) 0 = stream_of fm (fst x) (snd x)
     /\ payload_of fm (h x) 0 = payload_of fm (fst x) (snd x)).
  { intros x Hx. apply from_sysex_part. rewrite Forall_forall in H. now apply H. }
  destruct (parts_accepted fm (map h xs)) as [A R].
  { apply Forall_map, Forall_forall. intros x Hx. now apply P. }
  { apply Forall_map, Forall_forall. intros x Hx. now apply P. }
  split.
  - rewrite A, map_map. rewrite (map_ext_in (fun x => status_nibble fm (h x) 0) (mark_of (packet_words fm))) by (intros x Hx; now apply P).
    rewrite (alike_map h (fun q => group_of fm q 0) (fun x => group_of fm (fst x) (snd x))) by (intros x Hx; now apply P).
    rewrite (alike_map h (fun q => stream_of fm q 0) (fun x => stream_of fm (fst x) (snd x))) by (intros x Hx; now apply P).
    assert (Sz : Forall (size_fits fm) (map h xs)) by (apply Forall_map, Forall_forall; intros x Hx; now apply P). tauto.
  - intros E. rewrite (R E). f_equal. rewrite !flat_map_concat_map, map_map. f_equal. apply map_ext_in. intros x Hx. now apply P.
Qed.
