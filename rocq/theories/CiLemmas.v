(** Lemmas: MIDI-CI discovery inquiries. *)
From Coq Require Import NArith ZArith List String Bool Arith Lia Zify ZifyBool ZifyNat ZifyN.
From Verif Require Import Base BitOps BitLemmas ListLemmas Encode7 Values Helpers Props Message SpecLayout SpecFixed PropLemmas PropWrite
  ConvertProofs Sysex SpecSysex SysexBytes SysexHold SysexInit Ci SpecCi.
Import ListNotations.
Local Open Scope list_scope.
Local Open Scope nat_scope.

Ltac lia_div := zify; Z.to_euclidean_division_equations; lia.

Definition version (v : N) : Prop := v = 1%N \/ v = 2%N.
Definition typed (s : contents) : Prop := forall f, field_type f (s f).

Lemma flag_cases w x : flag w x = 0%N \/ flag w x = w.
Proof. destruct x as [| | |[]]; auto. Qed.

Lemma digit_lt i x : (digit i x < 128)%N.
Proof. unfold digit. apply N.mod_upper_bound. lia. Qed.
Lemma digits28 x : u28_to_u7s (number x) = [digit 0 x; digit 1 x; digit 2 x; digit 3 x].
Proof.
  rewrite u28_to_spec. unfold digit. change (128 ^ 0)%N with 1%N. change (128 ^ 1)%N with 128%N. change (128 ^ 2)%N with 16384%N.
  change (128 ^ 3)%N with 2097152%N. now rewrite N.div_1_r.
Qed.
Lemma u14_to_spec x : u14_to_u7s x = [(x mod 128)%N; ((x / 128) mod 128)%N].
Proof. unfold u14_to_u7s. now rewrite !byte_of_mod, !N.shiftr_div_pow2. Qed.
Lemma digits14 x : u14_to_u7s (number x) = [digit 0 x; digit 1 x].
Proof.
  rewrite u14_to_spec. unfold digit. change (128 ^ 0)%N with 1%N. change (128 ^ 1)%N with 128%N. now rewrite N.div_1_r.
Qed.

Definition flags (s : contents) : N :=
  (flag 0x10 (s FProcessInquiry) + flag 0x08 (s FPropertyExchange)
     + flag 0x04 (s FProfileConfiguration) + flag 0x02 (s FProtocolNegotiation))%N.

Lemma flags_bit s e : match fst e with FProcessInquiry | FPropertyExchange | FProfileConfiguration | FProtocolNegotiation => True | _ => False end ->
  forall f, snd e = CiFlag f ->
  match field_prop (fst e) with CiSupport i => set_bit8 (flags s) i f = flags (updated s e) | _ => False end.
Proof.
  destruct e as [g x]. cbn [fst snd]. intros Hg f ->. unfold flags, updated. cbn [fst snd].
  destruct (flag_cases 0x10 (s FProcessInquiry)) as [A|A], (flag_cases 0x08 (s FPropertyExchange)) as [B|B],
    (flag_cases 0x04 (s FProfileConfiguration)) as [C|C], (flag_cases 0x02 (s FProtocolNegotiation)) as [D|D];
  destruct g; try contradiction; cbn [field_prop field_eqb]; rewrite ?A, ?B, ?C, ?D; destruct f; reflexivity.
Qed.

Lemma new_inquiry v : version v -> ci_new v = Val (inquiry v blank).
Proof. intros [-> | ->]; vm_compute; reflexivity. Qed.

Ltac run := cbv [ci_set ci_write put_bytes upd idx bind nth_error set_nth Nat.add app fst snd field_prop].

Lemma inquiry_bytes v s : inquiry v s =
  [0xF0; 0x7E; 0x7F; 0x0D; 0x70; v;
   digit 0 (s FSource); digit 1 (s FSource); digit 2 (s FSource); digit 3 (s FSource);
   0x7F; 0x7F; 0x7F; 0x7F;
   item 0 (s FManufacturer); item 1 (s FManufacturer); item 2 (s FManufacturer);
   digit 0 (s FFamily); digit 1 (s FFamily);
   digit 0 (s FModel); digit 1 (s FModel);
   item 0 (s FSoftware); item 1 (s FSoftware); item 2 (s FSoftware); item 3 (s FSoftware);
   flags s;
   digit 0 (s FMaxSysexSize); digit 1 (s FMaxSysexSize); digit 2 (s FMaxSysexSize); digit 3 (s FMaxSysexSize)]%N
  ++ (if (v =? 2)%N then [number (s FOutputPathId)] else []) ++ [0xF7]%N.
Proof. reflexivity. Qed.

Lemma set_inquiry v s e rest : version v -> ci_call_ok v e ->
  ci_set e (inquiry v s ++ rest) = Val (inquiry v (updated s e) ++ rest).
Proof.
  intros Hv [Hs Ht]. destruct e as [f x]. cbn [fst snd] in *.
  rewrite !inquiry_bytes. pose proof (flags_bit s (f, x)) as FB. cbn [fst snd] in FB.
  destruct f, x as [|n|l|b]; cbn [field_type] in Ht; try contradiction.
  - change (u28_to_u7s n) with (u28_to_u7s (number (CiNum n))). destruct Hv as [-> | ->]; cbn [N.eqb Pos.eqb];
    unfold ci_set; cbn [fst snd field_prop ci_write]; change n with (number (CiNum n)) at 1; rewrite digits28; run; reflexivity.
  - destruct Ht as [L _]. destruct l as [|a [|b [|c [|]]]]; try discriminate. destruct Hv as [-> | ->]; cbn [N.eqb Pos.eqb]; run; reflexivity.
  - destruct Hv as [-> | ->]; cbn [N.eqb Pos.eqb];
    unfold ci_set; cbn [fst snd field_prop ci_write]; change n with (number (CiNum n)) at 1; rewrite digits14; run; reflexivity.
  - destruct Hv as [-> | ->]; cbn [N.eqb Pos.eqb];
    unfold ci_set; cbn [fst snd field_prop ci_write]; change n with (number (CiNum n)) at 1; rewrite digits14; run; reflexivity.
  - destruct Ht as [L _]. destruct l as [|a [|b [|c [|d [|]]]]]; try discriminate. destruct Hv as [-> | ->]; cbn [N.eqb Pos.eqb]; run; reflexivity.
  - specialize (FB I b eq_refl). cbn [field_prop] in FB. rewrite <- FB. destruct Hv as [-> | ->]; cbn [N.eqb Pos.eqb]; run; reflexivity.
  - specialize (FB I b eq_refl). cbn [field_prop] in FB. rewrite <- FB. destruct Hv as [-> | ->]; cbn [N.eqb Pos.eqb]; run; reflexivity.
  - specialize (FB I b eq_refl). cbn [field_prop] in FB. rewrite <- FB. destruct Hv as [-> | ->]; cbn [N.eqb Pos.eqb]; run; reflexivity.
  - specialize (FB I b eq_refl). cbn [field_prop] in FB. rewrite <- FB. destruct Hv as [-> | ->]; cbn [N.eqb Pos.eqb]; run; reflexivity.
  - destruct Hv as [-> | ->]; cbn [N.eqb Pos.eqb];
    unfold ci_set; cbn [fst snd field_prop ci_write]; change n with (number (CiNum n)) at 1; rewrite digits28; run; reflexivity.
  - destruct Hv as [-> | ->]; [exfalso; cbn in Hs; lia|]. cbn [N.eqb Pos.eqb]. run. reflexivity.
Qed.

(** ** Reading *)

Lemma number28 x n : x = CiNum n -> (n < 2 ^ 28)%N -> u28_from_u7s (digit 0 x) (digit 1 x) (digit 2 x) (digit 3 x) = n.
Proof.
  intros -> H. rewrite u28_from_spec. unfold digit. cbn [number]. change (128 ^ 0)%N with 1%N. change (128 ^ 1)%N with 128%N. change (128 ^ 2)%N with 16384%N.
  change (128 ^ 3)%N with 2097152%N. change (2 ^ 28)%N with 268435456%N in H. lia_div.
Qed.
Lemma u14_from_spec a b : u14_from_u7s a b = (a mod 128 + 128 * (b mod 128))%N.
Proof.
  pose proof (u21_from_spec a b 0) as H. unfold u21_from_u7s in H. change (Encode7.group_of 0) with 0%N in H. rewrite N.shiftl_0_l, N.lor_0_r in H.
  unfold u14_from_u7s. rewrite H. change (0 mod 128)%N with 0%N. lia.
Qed.
Lemma number14 x n : x = CiNum n -> (n < 2 ^ 14)%N -> u14_from_u7s (digit 0 x) (digit 1 x) = n.
Proof.
  intros -> H. rewrite u14_from_spec. unfold digit. cbn [number]. change (128 ^ 0)%N with 1%N. change (128 ^ 1)%N with 128%N.
  change (2 ^ 14)%N with 16384%N in H. lia_div.
Qed.

Lemma flags_read s f : field_type f (s f) ->
  match field_prop f with CiSupport i => CiFlag (bit8 (flags s) i) = s f | _ => True end.
Proof.
  intros T. unfold flags.
  destruct f; cbn [field_prop] in *; try exact I;
  match goal with |- CiFlag _ = s ?g => destruct (s g) as [| | |b] eqn:E; cbn [field_type] in T; try contradiction;
    destruct (flag_cases 0x10 (s FProcessInquiry)) as [A|A], (flag_cases 0x08 (s FPropertyExchange)) as [B|B],
      (flag_cases 0x04 (s FProfileConfiguration)) as [C|C], (flag_cases 0x02 (s FProtocolNegotiation)) as [D|D];
    rewrite ?A, ?B, ?C, ?D; rewrite E in *; destruct b; try discriminate; reflexivity end.
Qed.

Lemma get_inquiry v s f rest : version v -> typed s -> (since f <= v)%N -> ci_get f (inquiry v s ++ rest) = Val (s f).
Proof.
  intros Hv T Hs. specialize (T f). pose proof (flags_read s f T) as F. rewrite inquiry_bytes. unfold ci_get.
  assert (U : forall x, (x < 2 ^ 7)%N -> u7_new x = Val x).
  { intros x Hx. unfold u7_new. change (2 ^ 7)%N with 128%N in Hx. now replace (x <? 128)%N with true by lia. }
  destruct f; cbn [field_prop field_type] in *;
  match goal with |- context [CiSupport] => idtac | |- _ => destruct (s _) as [|n|l|b] eqn:E in T |- *; try contradiction end.
  - cbv [ci_read read28 idx nth_error app bind Nat.add]. now rewrite (number28 _ n).
  - destruct T as [L T]. destruct l as [|x [|y [|z [|]]]]; try discriminate. inversion T as [|? ? T1 T2]; subst. inversion T2 as [|? ? T3 T4]; subst.
    inversion T4; subst. cbv [ci_read idx_u7 idx nth_error app bind item nth]. rewrite !U by assumption. reflexivity.
  - cbv [ci_read read14 idx nth_error app bind Nat.add]. now rewrite (number14 _ n).
  - cbv [ci_read read14 idx nth_error app bind Nat.add]. now rewrite (number14 _ n).
  - destruct T as [L T]. destruct l as [|w [|x [|y [|z [|]]]]]; try discriminate. inversion T as [|? ? T1 T2]; subst. inversion T2 as [|? ? T3 T4]; subst.
    inversion T4 as [|? ? T5 T6]; subst. inversion T6; subst. cbv [ci_read idx_u7 idx nth_error app bind item nth]. rewrite !U by assumption. reflexivity.
  - cbv [ci_read idx nth_error app bind]. now rewrite F.
  - cbv [ci_read idx nth_error app bind]. now rewrite F.
  - cbv [ci_read idx nth_error app bind]. now rewrite F.
  - cbv [ci_read idx nth_error app bind]. now rewrite F.
  - cbv [ci_read read28 idx nth_error app bind Nat.add]. now rewrite (number28 _ n).
  - destruct Hv as [-> | ->]; [exfalso; cbn in Hs; lia|]. cbn [N.eqb Pos.eqb].
    cbv [ci_read idx_u7 idx nth_error app bind number]. now rewrite U.
Qed.

(** ** The bytes of an inquiry *)

Lemma typed_lt s f : typed s -> forall i, (item i (s f) < 128)%N.
Proof.
  intros T i. specialize (T f). unfold item. destruct (s f) as [|n|l|b]; try lia.
  assert (F : Forall (fun x => (x < 2 ^ 7)%N) l) by (destruct f; cbn in T; try contradiction; apply T).
  change (2 ^ 7)%N with 128%N in F. destruct (Nat.lt_ge_cases i (List.length l)).
  - rewrite Forall_forall in F. apply F, nth_In. exact H.
  - rewrite nth_overflow by lia. lia.
Qed.
Lemma flags_lt s : (flags s < 128)%N.
Proof.
  unfold flags. destruct (flag_cases 0x10 (s FProcessInquiry)) as [-> | ->], (flag_cases 0x08 (s FPropertyExchange)) as [-> | ->],
    (flag_cases 0x04 (s FProfileConfiguration)) as [-> | ->], (flag_cases 0x02 (s FProtocolNegotiation)) as [-> | ->]; lia.
Qed.

(** An inquiry is 0xF0, seven-bit bytes, 0xF7. *)
Lemma inquiry_frame v s : version v -> typed s ->
  exists l, inquiry v s = 0xF0%N :: l ++ [0xF7%N] /\ Forall (fun x => (x < 128)%N) l
    /\ List.length (inquiry v s) = ci_min v.
Proof.
  intros Hv T. exists (tl (removelast (inquiry v s))).
  assert (P : (number (s FOutputPathId) < 128)%N).
  { specialize (T FOutputPathId). cbn in T. destruct (s FOutputPathId); try contradiction. cbn [number]. lia. }
  rewrite inquiry_bytes. split; [destruct Hv as [-> | ->]; reflexivity|].
  split; [|destruct Hv as [-> | ->]; reflexivity].
  assert (V : (v < 128)%N) by (destruct Hv as [-> | ->]; lia).
  replace (tl (removelast _)) with
    ([0x7E; 0x7F; 0x0D; 0x70; v;
      digit 0 (s FSource); digit 1 (s FSource); digit 2 (s FSource); digit 3 (s FSource);
      0x7F; 0x7F; 0x7F; 0x7F;
      item 0 (s FManufacturer); item 1 (s FManufacturer); item 2 (s FManufacturer);
      digit 0 (s FFamily); digit 1 (s FFamily);
      digit 0 (s FModel); digit 1 (s FModel);
      item 0 (s FSoftware); item 1 (s FSoftware); item 2 (s FSoftware); item 3 (s FSoftware);
      flags s;
      digit 0 (s FMaxSysexSize); digit 1 (s FMaxSysexSize); digit 2 (s FMaxSysexSize); digit 3 (s FMaxSysexSize)]%N
     ++ (if (v =? 2)%N then [number (s FOutputPathId)] else [])) by (destruct Hv as [-> | ->]; reflexivity).
  apply Forall_app. split.
  - repeat (apply Forall_cons; [first [lia|apply digit_lt|now apply typed_lt|apply flags_lt]|]). apply Forall_nil.
  - destruct (v =? 2)%N; repeat constructor; lia.
Qed.

Lemma inquiry_stream v s : version v -> typed s -> exists l, inquiry v s = stream_bytes l /\ no_end l /\ Forall septet l
  /\ List.length l + 2 = ci_min v.
Proof.
  intros Hv T. destruct (inquiry_frame v s Hv T) as (l & E & F & L). exists l. split; [exact E|]. split.
  - eapply Forall_impl; [|exact F]. cbn. intros x Hx. lia.
  - split; [exact F|]. rewrite <- L, E. cbn. rewrite app_length. cbn. lia.
Qed.

Lemma data_inquiry v s rest : version v -> typed s -> ci_data (inquiry v s ++ rest) = Val (inquiry v s).
Proof. intros Hv T. destruct (inquiry_stream v s Hv T) as (l & -> & N0 & _). apply (septet_reads l rest N0). Qed.

(** ** Parsing *)

Lemma idx_nth b i : i < List.length b -> idx b i = Val (nth i b 0%N).
Proof. intros H. unfold idx. now rewrite (nth_error_nth' b 0%N) by exact H. Qed.

Lemma broadcast_iff a b c d : u28_from_u7s a b c d = 0xFFFFFFF%N <->
  (a mod 128 = 127 /\ b mod 128 = 127 /\ c mod 128 = 127 /\ d mod 128 = 127)%N.
Proof.
  rewrite u28_from_spec. pose proof (N.mod_upper_bound a 128). pose proof (N.mod_upper_bound b 128).
  pose proof (N.mod_upper_bound c 128). pose proof (N.mod_upper_bound d 128).
  set (x := (a mod 128)%N) in *. set (y := (b mod 128)%N) in *. set (z := (c mod 128)%N) in *. set (w := (d mod 128)%N) in *.
  clearbody x y z w. lia.
Qed.

Lemma ci_min_version v : version v -> ci_min v = if (v =? 2)%N then 32 else 31.
Proof. intros [-> | ->]; reflexivity. Qed.

Lemma ci_try_from_spec v b : version v -> exists r, ci_try_from v b = Val r
  /\ (r = Ok b \/ exists e, r = Err e) /\ (r = Ok b <-> is_inquiry v b).
Proof.
  intros Hv. unfold ci_try_from, is_inquiry. rewrite ci_min_version by exact Hv. set (m := if (v =? 2)%N then 32 else 31).
  assert (M : 31 <= m) by (unfold m; destruct (v =? 2)%N; lia).
  destruct (Nat.ltb_spec (List.length b) m) as [L|L].
  { eexists. split; [reflexivity|]. split; [eauto|]. split; [discriminate|]. intros (H & _). lia. }
  rewrite idx_nth by lia. cbn [bind]. destruct (N.eqb_spec (nth 5 b 0%N) v) as [E5|E5]; cbn [negb].
  2:{ eexists. split; [reflexivity|]. split; [eauto|]. split; [discriminate|]. intros H. exfalso. tauto. }
  unfold try_from_b. replace (List.length b <? 2) with false by lia. cbn [first_error].
  assert (H0 : hd0 b = nth 0 b 0%N) by (now destruct b). rewrite H0.
  destruct (N.eqb_spec (nth 0 b 0%N) 0xF0) as [E0|E0]; cbn [check try_bind].
  2:{ eexists. split; [reflexivity|]. split; [eauto|]. split; [discriminate|]. intros H. exfalso. tauto. }
  assert (X : existsb (fun x => x =? 0xF7)%N b = true <-> In 0xF7%N b).
  { rewrite existsb_exists. split; [intros (x & Hx & Q); apply N.eqb_eq in Q; now subst|]. intros H. exists 0xF7%N. split; [exact H|reflexivity]. }
  destruct (existsb _ b) eqn:Ex; cbn [check try_bind].
  2:{ eexists. split; [reflexivity|]. split; [eauto|]. split; [discriminate|]. intros H. exfalso. assert (Y : false = true) by (apply X; tauto). discriminate Y. }
  assert (In7 : In 0xF7%N b) by now apply X.
  assert (V : forall p, (prop_version p <=? v)%N = true \/ p = OutputPathId).
  { intros p. destruct p; auto; left; destruct Hv as [-> | ->]; reflexivity. }
  unfold discovery_query. cbn [ci_validates].
  assert (Q : (1 <=? v)%N = true) by (destruct Hv as [-> | ->]; reflexivity). cbn [prop_version]. rewrite Q.
  cbn [ci_validate]. rewrite !idx_nth by lia. cbn [bind try_bind].
  destruct (N.eqb_spec (nth 1 b 0%N) 0x7E) as [E1|E1]; cbn [check try_bind].
  2:{ eexists. split; [reflexivity|]. split; [eauto|]. split; [discriminate|]. intros H. exfalso. tauto. }
  destruct (N.eqb_spec (nth 2 b 0%N) 0x7F) as [E2|E2]; cbn [check try_bind].
  2:{ eexists. split; [reflexivity|]. split; [eauto|]. split; [discriminate|]. intros H. exfalso. tauto. }
  destruct (N.eqb_spec (nth 3 b 0%N) 0x0D) as [E3|E3]; cbn [check try_bind].
  2:{ eexists. split; [reflexivity|]. split; [eauto|]. split; [discriminate|]. intros H. exfalso. tauto. }
  destruct (N.eqb_spec (nth 4 b 0%N) 0x70) as [E4|E4]; cbn [check try_bind].
  2:{ eexists. split; [reflexivity|]. split; [eauto|]. split; [discriminate|]. intros H. exfalso. tauto. }
  unfold read28. rewrite !idx_nth by lia. cbn [bind]. cbn [Nat.add].
  pose proof (broadcast_iff (nth 10 b 0%N) (nth 11 b 0%N) (nth 12 b 0%N) (nth 13 b 0%N)) as B.
  destruct (N.eqb_spec (u28_from_u7s (nth 10 b 0%N) (nth 11 b 0%N) (nth 12 b 0%N) (nth 13 b 0%N)) 0xFFFFFFF) as [E6|E6]; cbn [check try_bind].
  2:{ eexists. split; [reflexivity|]. split; [eauto|]. split; [discriminate|]. intros H. exfalso. tauto. }
  exists (Ok b). split; [destruct (2 <=? v)%N; reflexivity|]. split; [auto|]. split; [|reflexivity]. intros _.
  apply B in E6. tauto.
Qed.

(** ** Setting fields of any message *)

Lemma put_bytes_ok l : forall b i, i + List.length l <= List.length b ->
  exists b', put_bytes b i l = Val b' /\ List.length b' = List.length b
    /\ forall w, nth w b' 0%N = if (i <=? w) && (w <? i + List.length l) then nth (w - i) l 0%N else nth w b 0%N.
Proof.
  induction l as [|x l IH]; intros b i H; cbn [put_bytes List.length] in *.
  { exists b. split; [reflexivity|]. split; [reflexivity|]. intros w. now replace ((i <=? w) && (w <? i + 0)) with false by lia. }
  rewrite upd_nth by lia. cbn [bind]. destruct (IH (set_nth b i x) (i + 1)) as (b' & E & L & N0).
  { rewrite set_nth_length. lia. }
  exists b'. split; [exact E|]. rewrite set_nth_length in L. split; [exact L|]. intros w. rewrite N0, nth_set_nth by lia.
  destruct (Nat.eqb_spec w i) as [->|Ne].
  - replace ((i + 1 <=? i) && (i <? i + 1 + List.length l)) with false by lia.
    replace ((i <=? i) && (i <? i + S (List.length l))) with true by lia. now rewrite Nat.sub_diag.
  - destruct ((i + 1 <=? w) && (w <? i + 1 + List.length l)) eqn:A.
    + replace ((i <=? w) && (w <? i + S (List.length l))) with true by lia. now replace (w - i) with (S (w - (i + 1))) by lia.
    + now replace ((i <=? w) && (w <? i + S (List.length l))) with false by lia.
Qed.

(** The bytes a value is written as and where they start. *)
Definition start (f : field) : nat :=
  match f with
  | FSource => 6 | FManufacturer => 14 | FFamily => 17 | FModel => 19 | FSoftware => 21
  | FMaxSysexSize => 26 | FOutputPathId => 30 | _ => 25
  end.
Definition image (f : field) (x : ci_value) : list N :=
  match f with
  | FSource | FMaxSysexSize => [digit 0 x; digit 1 x; digit 2 x; digit 3 x]
  | FFamily | FModel => [digit 0 x; digit 1 x]
  | FManufacturer | FSoftware => match x with CiBytes l => l | _ => [] end
  | FOutputPathId => [number x]
  | _ => []
  end.
Definition flag_bit (f : field) : option N :=
  match f with FProcessInquiry => Some 3 | FPropertyExchange => Some 4 | FProfileConfiguration => Some 5 | FProtocolNegotiation => Some 6 | _ => None end%N.
Definition is_true (x : ci_value) : bool := match x with CiFlag b => b | _ => false end.

Lemma set_any v f x b : version v -> ci_call_ok v (f, x) -> ci_min v <= List.length b ->
  exists b', ci_set (f, x) b = Val b' /\ List.length b' = List.length b
    /\ forall w, nth w b' 0%N =
         match flag_bit f with
         | Some i => if w =? 25 then set_bit8 (nth 25 b 0%N) i (is_true x) else nth w b 0%N
         | None => if (start f <=? w) && (w <? start f + List.length (image f x)) then nth (w - start f) (image f x) 0%N else nth w b 0%N
         end.
Proof.
  intros Hv [Hs Ht] L. cbn [fst snd] in *. rewrite ci_min_version in L by exact Hv.
  assert (M : 31 <= List.length b) by (destruct (v =? 2)%N; lia).
  unfold ci_set. cbn [fst snd].
  destruct f, x as [|n|l|fl]; cbn [field_type] in Ht; try contradiction; cbn [field_prop flag_bit start image ci_write is_true].
  - change n with (number (CiNum n)) at 1. rewrite digits28. apply put_bytes_ok. cbn. lia.
  - destruct Ht as [Ll _]. destruct l as [|p [|q [|r [|]]]]; try discriminate. apply put_bytes_ok. cbn. lia.
  - change n with (number (CiNum n)) at 1. rewrite digits14. apply put_bytes_ok. cbn. lia.
  - change n with (number (CiNum n)) at 1. rewrite digits14. apply put_bytes_ok. cbn. lia.
  - destruct Ht as [Ll _]. destruct l as [|p [|q [|r [|u [|]]]]]; try discriminate. apply put_bytes_ok. cbn. lia.
  - rewrite upd_nth by lia. eexists. split; [reflexivity|]. split; [apply set_nth_length|]. intros w. now rewrite nth_set_nth by lia.
  - rewrite upd_nth by lia. eexists. split; [reflexivity|]. split; [apply set_nth_length|]. intros w. now rewrite nth_set_nth by lia.
  - rewrite upd_nth by lia. eexists. split; [reflexivity|]. split; [apply set_nth_length|]. intros w. now rewrite nth_set_nth by lia.
  - rewrite upd_nth by lia. eexists. split; [reflexivity|]. split; [apply set_nth_length|]. intros w. now rewrite nth_set_nth by lia.
  - change n with (number (CiNum n)) at 1. rewrite digits28. apply put_bytes_ok. cbn. lia.
  - destruct Hv as [-> | ->]; [exfalso; cbn in Hs; lia|]. cbn [N.eqb Pos.eqb] in L.
    rewrite upd_nth by lia. eexists. split; [reflexivity|]. split; [apply set_nth_length|]. intros w. rewrite nth_set_nth by lia.
    cbn [number List.length]. destruct (Nat.eqb_spec w 30) as [->|]; [reflexivity|].
    now replace ((30 <=? w) && (w <? 30 + 1)) with false by lia.
Qed.

Lemma bit8_test x i : (i < 8)%N -> bit8 x i = N.testbit x (7 - i).
Proof.
  intros H. unfold bit8. change 1%N with (N.ones 1). rewrite N.land_ones, N.testbit_eqb, N.shiftr_div_pow2. change (2 ^ 1)%N with 2%N.
  pose proof (N.mod_upper_bound (x / 2 ^ (7 - i)) 2 ltac:(lia)).
  set (m := ((x / 2 ^ (7 - i)) mod 2)%N) in *. assert (D : m = 0%N \/ m = 1%N) by lia. now destruct D as [-> | ->].
Qed.
Lemma bit8_set x i j f : (i < 8)%N -> (j < 8)%N -> bit8 (set_bit8 x i f) j = if (i =? j)%N then f else bit8 x j.
Proof.
  intros Hi Hj. rewrite !bit8_test by assumption. unfold set_bit8. change 1%N with (N.ones 1). rewrite testbit_replace by (destruct f; cbn; lia).
  destruct (N.eqb_spec i j) as [->|Ne].
  - replace ((7 - j <=? 7 - j) && (7 - j <? 7 - j + 1))%N with true by lia. rewrite N.sub_diag. now destruct f.
  - replace ((7 - i <=? 7 - j) && (7 - j <? 7 - i + 1))%N with false by lia. reflexivity.
Qed.

(** A getter only looks at the bytes of its field. *)
Lemma get_same v g b b' : version v -> (since g <= v)%N -> ci_min v <= List.length b -> List.length b' = List.length b ->
  (match flag_bit g with
   | Some i => bit8 (nth 25 b' 0%N) i = bit8 (nth 25 b 0%N) i
   | None => forall w, start g <= w < start g + match g with FSource | FMaxSysexSize | FSoftware => 4 | FManufacturer => 3 | FOutputPathId => 1 | _ => 2 end ->
             nth w b' 0%N = nth w b 0%N end) ->
  ci_get g b' = ci_get g b.
Proof.
  intros Hv Hs L L' H. rewrite ci_min_version in L by exact Hv.
  assert (M : 31 <= List.length b) by (destruct (v =? 2)%N; lia).
  unfold ci_get, ci_read, idx_u7, read14, read28.
  destruct g; cbn [field_prop flag_bit start Nat.add] in *;
    rewrite !idx_nth by lia; cbn [bind]; rewrite ?H by lia; reflexivity.
Qed.

Lemma get_image v f x b : version v -> ci_call_ok v (f, x) -> ci_min v <= List.length b ->
  match flag_bit f with
  | Some i => bit8 (nth 25 b 0%N) i = is_true x
  | None => forall w, w < List.length (image f x) -> nth (start f + w) b 0%N = nth w (image f x) 0%N
  end -> ci_get f b = Val x.
Proof.
  intros Hv [Hs Ht] L H. cbn [fst snd] in *. rewrite ci_min_version in L by exact Hv.
  assert (M : 31 <= List.length b) by (destruct (v =? 2)%N; lia).
  assert (U : forall x, (x < 2 ^ 7)%N -> u7_new x = Val x).
  { intros y Hy. unfold u7_new. change (2 ^ 7)%N with 128%N in Hy. now replace (y <? 128)%N with true by lia. }
  unfold ci_get, ci_read, idx_u7, read14, read28.
  destruct f, x as [|n|l|fl]; cbn [field_type] in Ht; try contradiction; cbn [field_prop flag_bit start image is_true Nat.add List.length] in *;
    try (rewrite idx_nth by lia; cbn [bind]; now rewrite H).
  - rewrite !idx_nth by lia. cbn [bind]. pose proof (H 0 ltac:(lia)) as K0. pose proof (H 1 ltac:(lia)) as K1. pose proof (H 2 ltac:(lia)) as K2. pose proof (H 3 ltac:(lia)) as K3.
    cbn [Nat.add nth] in *. rewrite K0, K1, K2, K3. now rewrite (number28 _ n).
  - destruct Ht as [Ll T]. destruct l as [|p [|q [|r [|]]]]; try discriminate. inversion T as [|? ? T1 T2]; subst. inversion T2 as [|? ? T3 T4]; subst.
    inversion T4; subst. rewrite !idx_nth by lia. cbn [bind]. pose proof (H 0 ltac:(cbn; lia)) as K0. pose proof (H 1 ltac:(cbn; lia)) as K1. pose proof (H 2 ltac:(cbn; lia)) as K2.
    cbn [Nat.add nth] in *. rewrite K0, K1, K2. rewrite !U by assumption. reflexivity.
  - rewrite !idx_nth by lia. cbn [bind]. pose proof (H 0 ltac:(lia)) as K0. pose proof (H 1 ltac:(lia)) as K1.
    cbn [Nat.add nth] in *. rewrite K0, K1. now rewrite (number14 _ n).
  - rewrite !idx_nth by lia. cbn [bind]. pose proof (H 0 ltac:(lia)) as K0. pose proof (H 1 ltac:(lia)) as K1.
    cbn [Nat.add nth] in *. rewrite K0, K1. now rewrite (number14 _ n).
  - destruct Ht as [Ll T]. destruct l as [|p [|q [|r [|u [|]]]]]; try discriminate. inversion T as [|? ? T1 T2]; subst. inversion T2 as [|? ? T3 T4]; subst.
    inversion T4 as [|? ? T5 T6]; subst. inversion T6; subst. rewrite !idx_nth by lia. cbn [bind].
    pose proof (H 0 ltac:(cbn; lia)) as K0. pose proof (H 1 ltac:(cbn; lia)) as K1. pose proof (H 2 ltac:(cbn; lia)) as K2. pose proof (H 3 ltac:(cbn; lia)) as K3.
    cbn [Nat.add nth] in *. rewrite K0, K1, K2, K3. rewrite !U by assumption. reflexivity.
  - rewrite !idx_nth by lia. cbn [bind]. pose proof (H 0 ltac:(lia)) as K0. pose proof (H 1 ltac:(lia)) as K1. pose proof (H 2 ltac:(lia)) as K2. pose proof (H 3 ltac:(lia)) as K3.
    cbn [Nat.add nth] in *. rewrite K0, K1, K2, K3. now rewrite (number28 _ n).
  - destruct Hv as [-> | ->]; [exfalso; cbn in Hs; lia|]. cbn [N.eqb Pos.eqb] in L. rewrite idx_nth by lia. cbn [bind].
    pose proof (H 0 ltac:(lia)) as K0. cbn [Nat.add nth number] in K0. rewrite K0, U by assumption. reflexivity.
Qed.

(** ** Construction in other buffers *)

Lemma new_with_buffer_inquiry v b : version v -> ci_new_with_buffer v b = Val (inquiry v blank).
Proof.
  intros Hv. rewrite <- (new_inquiry v Hv). unfold ci_new_with_buffer, ci_new.
  replace (new_with_buffer_b b) with new_b; [reflexivity|].
  unfold new_with_buffer_b, new_b, zero_prefix, vec_resize. destruct b as [|x [|y b]]; reflexivity.
Qed.

(** The four support bits are cleared, the others of the byte are kept. *)
Lemma cleared x : set_bit8 (set_bit8 (set_bit8 (set_bit8 x 3 false) 4 false) 5 false) 6 false = N.ldiff x 0x1E.
Proof.
  unfold set_bit8, replace_bits. cbn [N.b2n]. rewrite !N.shiftl_0_l, !N.lor_0_r.
  apply N.bits_inj. intros i. rewrite !N.ldiff_spec.
  replace 0x1E%N with (N.lor (N.lor (N.shiftl 1 (7 - 3)) (N.shiftl 1 (7 - 4))) (N.lor (N.shiftl 1 (7 - 5)) (N.shiftl 1 (7 - 6))))%N by reflexivity.
  rewrite !N.lor_spec, !negb_orb, !andb_assoc. reflexivity.
Qed.

(** An inquiry with blank fields whose support byte is [x]. *)
Definition blank_with (v x : N) : list N := firstn 25 (inquiry v blank) ++ x :: skipn 26 (inquiry v blank).

Lemma destruct_list {A} (n : nat) (b : list A) : n <= List.length b -> exists l r, b = l ++ r /\ List.length l = n.
Proof. intros H. exists (firstn n b), (skipn n b). rewrite firstn_skipn, firstn_length. split; [reflexivity|lia]. Qed.

Lemma init_dirty v b : version v -> ci_min v <= List.length b -> nth 0 b 0%N = 0xF0%N -> nth (ci_min v - 1) b 0%N = 0xF7%N ->
  (b' <- upd b 5 (fun _ => v) ;; ci_init v discovery_query b') = Val (blank_with v (N.ldiff (nth 25 b 0%N) 0x1E) ++ skipn (ci_min v) b).
Proof.
  intros Hv L H0 H7. destruct (destruct_list (ci_min v) b L) as (l & r & -> & Ll). clear L.
  rewrite <- (cleared (nth 25 _ _)).
  destruct Hv as [-> | ->]; cbn [ci_min N.eqb Pos.eqb Nat.sub] in *.
  - do 31 (destruct l as [|? l]; [discriminate|]). destruct l; [|discriminate]. cbn [app nth skipn] in *. subst.
    lazy -[set_bit8]. reflexivity.
  - do 32 (destruct l as [|? l]; [discriminate|]). destruct l; [|discriminate]. cbn [app nth skipn] in *. subst.
    lazy -[set_bit8]. reflexivity.
Qed.

Lemma try_new_with_buffer_inquiry v b : version v ->
  if ci_min v <=? List.length b
  then ci_try_new_with_buffer v b = Val (Ok (blank_with v (N.ldiff (nth 25 b 0%N) 0x1E) ++ skipn (ci_min v) b))
  else exists e, ci_try_new_with_buffer v b = Val (Err e).
Proof.
  intros Hv. unfold ci_try_new_with_buffer, try_new_with_buffer_b, fixed_try_resize.
  assert (M : 31 <= ci_min v) by (destruct Hv as [-> | ->]; cbn; lia).
  destruct (Nat.ltb_spec (List.length b) 2) as [S|S]; cbn [negb try_bind].
  { replace (ci_min v <=? List.length b) with false by lia. eauto. }
  unfold zero_prefix. replace (List.length b <? 2) with false by lia. cbn [bind].
  assert (I : init_b (repeat 0%N 2 ++ skipn 2 b) = Val (stream_bytes [] ++ skipn 2 b)) by reflexivity. rewrite I. clear I. cbn [bind try_bind].
  unfold sub_chk. replace (ci_min v <? 2) with false by lia. cbn [bind].
  unfold ci_try_resize, try_resize_b, try_resize_bytes, request. destruct (septet_reads [] (skipn 2 b) (Forall_nil _)) as (_ & -> & _). cbn [bind List.length].
  set (t := skipn 2 b). assert (Lt : List.length t = List.length b - 2) by apply skipn_length.
  assert (Lb : List.length (stream_bytes [] ++ t) = List.length b) by (rewrite app_length, stream_bytes_length, Lt; cbn [List.length]; lia).
  unfold fixed_try_resize. rewrite Lb. replace (ci_min v - 2 + 2) with (ci_min v) by lia.
  destruct (Nat.leb_spec (ci_min v) (List.length b)) as [F|F].
  - replace (List.length b <? ci_min v) with false by lia. cbn [negb]. replace (0 <? ci_min v) with true by lia.
    rewrite upd_nth by lia. cbn [bind]. unfold sub_chk. replace (ci_min v <? 1) with false by lia. cbn [bind].
    rewrite upd_nth by (rewrite set_nth_length; lia). cbn [bind try_bind].
    set (b2 := set_nth (set_nth (stream_bytes [] ++ t) (0 + 1) 0%N) (ci_min v - 1) 0xF7%N).
    assert (L2 : List.length b2 = List.length b) by (unfold b2; now rewrite !set_nth_length).
    assert (N2 : forall w, nth w b2 0%N = if w =? ci_min v - 1 then 0xF7%N else if w =? 1 then 0%N else nth w (stream_bytes [] ++ t) 0%N).
    { intros w. unfold b2. rewrite nth_set_nth by (rewrite set_nth_length; lia). destruct (w =? ci_min v - 1); [reflexivity|].
      rewrite nth_set_nth by lia. reflexivity. }
    pose proof (init_dirty v b2 Hv) as ID. destruct (upd b2 5 (fun _ => v)) as [b3|] eqn:U; cbn [bind] in ID.
    2:{ rewrite upd_nth in U by lia. discriminate. }
    cbn [bind]. rewrite ID.
    + cbn [bind]. rewrite N2. replace (25 =? ci_min v - 1) with false by lia. cbn [Nat.eqb].
      replace (nth 25 (stream_bytes [] ++ t) 0%N) with (nth 25 b 0%N).
      2:{ unfold t. cbn [stream_bytes app]. do 2 (destruct b as [|? b]; [cbn in S; lia|]). reflexivity. }
      do 3 f_equal. apply nth_ext with (d := 0%N) (d' := 0%N). { rewrite !skipn_length. lia. }
      intros w _. rewrite !nth_skipn, N2. replace (ci_min v + w =? ci_min v - 1) with false by lia. replace (ci_min v + w =? 1) with false by lia.
      unfold t. cbn [stream_bytes app]. do 2 (destruct b as [|? b]; [cbn in S; lia|]). replace (ci_min v + w) with (2 + (ci_min v + w - 2)) by lia. reflexivity.
    + lia.
    + rewrite N2. replace (0 =? ci_min v - 1) with false by lia. reflexivity.
    + rewrite N2. now rewrite Nat.eqb_refl.
  - replace (List.length b <? ci_min v) with true by lia. cbn [negb].
    replace (0 <? List.length b) with true by lia. rewrite upd_nth by lia. cbn [bind]. unfold sub_chk. replace (List.length b <? 1) with false by lia.
    cbn [bind]. rewrite upd_nth by (rewrite set_nth_length; lia). cbn [bind try_bind]. eauto.
Qed.

Lemma blank_with_0 v : version v -> blank_with v 0 = inquiry v blank.
Proof. intros [-> | ->]; reflexivity. Qed.

Lemma try_new_inquiry v n : version v ->
  if ci_min v <=? n then ci_try_new v n = Val (Ok (inquiry v blank ++ repeat 0%N (n - ci_min v)))
  else exists e, ci_try_new v n = Val (Err e).
Proof.
  intros Hv. pose proof (try_new_with_buffer_inquiry v (repeat 0%N n) Hv) as H. rewrite repeat_length in H.
  assert (E : ci_try_new v n = ci_try_new_with_buffer v (repeat 0%N n)).
  { unfold ci_try_new, ci_try_new_with_buffer, try_new_b, try_new_with_buffer_b. destruct (fixed_try_resize (repeat 0%N n) 2) eqn:F; [|reflexivity].
    unfold fixed_try_resize in F. rewrite repeat_length in F. unfold zero_prefix. rewrite repeat_length. destruct (n <? 2) eqn:G; [discriminate|].
    cbn [bind]. replace (repeat 0%N 2 ++ skipn 2 (repeat 0%N n)) with (repeat 0%N n); [reflexivity|]. destruct n as [|[|n]]; [lia|lia|reflexivity]. }
  rewrite E. destruct (ci_min v <=? n) eqn:F; [|exact H]. rewrite H.
  replace (nth 25 (repeat 0%N n) 0%N) with 0%N by (symmetry; apply nth_repeat). rewrite N.ldiff_0_l, blank_with_0 by exact Hv. do 3 f_equal.
  replace n with (ci_min v + (n - ci_min v)) at 1 by lia. rewrite repeat_app, skipn_app, repeat_length, Nat.sub_diag.
  rewrite skipn_all2 by (rewrite repeat_length; lia). reflexivity.
Qed.
