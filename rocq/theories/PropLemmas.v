(** Every property of a fixed-size message reads, writes and validates the
    wire field [wire_of] gives it. *)
From Coq Require Import NArith List String Bool Arith Lia ZifyBool ZifyNat ZifyN.
From Verif Require Import Base BitOps Encode7 Values Schema Helpers Props SpecLayout
  BitLemmas ListLemmas.
Import ListNotations.
Local Open Scope N_scope.

Definition ump_wire (t : sty) (m : mask4) : option wire :=
  match lookup4 m (ump_table t) with
  | None => None
  | Some (w, i) => Some
      (match t with
       | SBool => Flag (Seg w (31 - i) 1)
       | SU4 => Number (Seg w (28 - i * 4) 4)
       | SU7 => Number (Seg w (24 - i * 8) 7)
       | SU8 => Number (Seg w (24 - i * 8) 8)
       | SU14 => Septets (Seg w (24 - (2 * i) * 8) 7) (Seg w (24 - (2 * i + 1) * 8) 7)
       | SU16 => Number (Seg w (16 - i * 16) 16)
       | SU32 => Number (Seg w 0 32)
       | SU7x3 => Array [Seg w (24 - i * 8) 7; Seg w (24 - (i + 1) * 8) 7;
                         Seg w (24 - (i + 2) * 8) 7]
       | SU7x4 => Array [Seg w (24 - i * 8) 7; Seg w (24 - (i + 1) * 8) 7;
                         Seg w (24 - (i + 2) * 8) 7; Seg w (24 - (i + 3) * 8) 7]
       end)
  end.

Definition bytes_wire (t : sty) (m : mask3) : option wire :=
  match lookup3 m (bytes_table t) with
  | None => None
  | Some (w, i) =>
      match t with
      | SU4 => Some (Number (Seg w (4 - i * 4) 4))
      | SU7 => Some (Number (Seg w 0 7))
      | SU14 => Some (Septets (Seg w 0 7) (Seg (w + 1) 0 7))
      | _ => None
      end
  end.

Definition code_wire (t : table4) (m : mask4) (top step n : N) (k : kind) : option wire :=
  match lookup4 m t with
  | Some (w, i) => Some (Code (Seg w (top - i * step) n) k)
  | None => None
  end.

Definition wire_of (u : unit_id) (p : prop) : option wire :=
  match p with
  | PUmpType t => Some (match u with U32 => Fixed (Seg 0 28 4) t | U8 => Absent VUnit end)
  | PCvStatus s => Some (Fixed (match u with U32 => Seg 0 20 4 | U8 => Seg 0 4 4 end) s)
  | PSysStatus s => Some (Fixed (match u with U32 => Seg 0 16 8 | U8 => Seg 0 0 8 end) s)
  | PHybrid t mb mu => match u with U32 => ump_wire t mu | U8 => bytes_wire t mb end
  | PUmp t m => match u with U32 => ump_wire t m | U8 => Some (Absent (sty_default t)) end
  | _ =>
    match u with
    | U8 => None
    | U32 =>
      match p with
      | PTime16 => Some (Number (Seg 0 0 16))
      | PTime20 => Some (Number (Seg 0 0 20))
      | PAttribute => Some (Attribute (Seg 0 0 8) (Seg 1 0 16))
      | PController => Some (Controller (Seg 0 0 8) (Seg 1 0 32))
      | PProgramBank => Some (Guarded (Seg 0 0 1) (Seg 1 8 7) (Seg 1 0 7))
      | PFlexStatus s => Some (Fixed (Seg 0 0 8) s)
      | PFlexBank s => Some (Fixed (Seg 0 8 8) s)
      | PFlexFormat s => Some (Fixed (Seg 0 22 2) s)
      | POptChannel => Some (OptChannel (Seg 0 20 2) (Seg 0 16 4))
      | PNoChannel => Some (GroupAddress (Seg 0 20 2) (Seg 0 16 4))
      | PTonic m => code_wire tonic_table m 28 4 4 KTonic
      | PKeySF => Some (Code (Seg 1 28 4) KKeySF)
      | PChordSF m => code_wire chord_sf_table m 28 4 4 KChordSF
      | PChordType m => code_wire chord_type_table m 24 8 8 KChordType
      | PAlteration m => code_wire alteration_table m 24 8 8 KAlteration
      | PStreamStatus s => Some (Fixed (Seg 0 16 10) s)
      | PStreamFormats => Some (Fixed (Seg 0 26 2) 0)
      | PUiHint => Some (Code (Seg 0 4 2) KUiHint)
      | PPort => Some (Code (Seg 0 2 2) KPort)
      | PDirection => Some (Code (Seg 0 0 2) KDirection)
      | _ => None
      end
    end
  end.

(** Facts about a wire that hold of every table entry (checked by computation
    where needed). *)
Definition wire_ok (u : unit_id) (w : wire) : bool :=
  pairwise_disjoint (occupies w) && forallb (seg_fits (unit_bits u)) (occupies w)
  && match w with
     | Fixed s c => c <? 2 ^ sg_n s
     | Guarded _ l h => (sg_n l =? 7) && (sg_n h =? 7)
     | _ => true
     end.

Definition wire_in (n : nat) (w : wire) : bool :=
  forallb (fun s => (sg_w s <? n)%nat) (occupies w).

(** *** Finite case analysis *)

Lemma all_below (P : N -> Prop) k :
  Forall P (map N.of_nat (seq 0 k)) -> forall n, n < N.of_nat k -> P n.
Proof.
  intros H n Hn. rewrite Forall_forall in H. apply H.
  apply in_map_iff. exists (N.to_nat n). split; [lia|]. apply in_seq. lia.
Qed.

Ltac finite k :=
  match goal with
  | |- forall n, n < _ -> @?P n =>
      apply (all_below P k); cbn; repeat constructor
  end.

(** *** Seven bit groups *)

Lemma ones7 x : N.land x 0x7F = x mod 128.
Proof. change 0x7F with (N.ones 7). apply N.land_ones. Qed.

Lemma byte_of_mod x : byte_of x = x mod 128.
Proof.
  unfold byte_of. rewrite ones7. change 0xFF with (N.ones 8). rewrite N.land_ones.
  change (2 ^ 8) with (128 * 2). rewrite N.mod_mul_r by discriminate.
  rewrite N.mul_comm, N.mod_add by discriminate. now apply N.mod_mod.
Qed.

Lemma lor_add a b k : a < 2 ^ k -> N.lor a (N.shiftl b k) = a + b * 2 ^ k.
Proof.
  intros H. rewrite <- N.shiftl_mul_pow2. symmetry. rewrite <- N.lxor_lor.
  - apply N.add_nocarry_lxor. apply N.bits_inj. intros j. rewrite N.land_spec, N.bits_0.
    destruct (N.lt_ge_cases j k).
    + rewrite N.shiftl_spec_low by auto. apply andb_false_r.
    + rewrite (testbit_above k a) by auto. reflexivity.
  - apply N.bits_inj. intros j. rewrite N.land_spec, N.bits_0.
    destruct (N.lt_ge_cases j k).
    + rewrite N.shiftl_spec_low by auto. apply andb_false_r.
    + rewrite (testbit_above k a) by auto. reflexivity.
Qed.

Lemma u14_from_spec a b : u14_from_u7s a b = a mod 128 + 128 * (b mod 128).
Proof.
  unfold u14_from_u7s, group_of. rewrite !ones7. rewrite lor_add.
  - change (2 ^ 7) with 128. lia.
  - apply N.mod_lt. discriminate.
Qed.

Lemma septets_join x : x < 2 ^ 14 -> x mod 128 + 128 * ((x / 128) mod 128) = x.
Proof.
  intros H. rewrite (N.mod_small (x / 128)).
  - rewrite (N.div_mod x 128) at 3 by discriminate. lia.
  - apply N.div_lt_upper_bound; [discriminate|]. exact H.
Qed.

(** *** Reading *)

Ltac bitsof :=
  unfold bit32, crumb32, nibble32, septet32, octet32, word32, nibble8, septet8, stream_status.

Lemma land_ones_bits b w lo n : N.land (N.shiftr (nth w b 0) lo) (N.ones n) = bits b (Seg w lo n).
Proof. apply land_shiftr_ones. Qed.

Lemma bit_flag x : x < 2 -> negb (x =? 0) = (x =? 1).
Proof. revert x; finite 2%nat. Qed.

Lemma nibble32_bits b w i : nibble32 (nth w b 0) i = bits b (Seg w (28 - i * 4) 4).
Proof. apply (land_ones_bits b w _ 4). Qed.
Lemma crumb32_bits b w i : crumb32 (nth w b 0) i = bits b (Seg w (30 - i * 2) 2).
Proof. apply (land_ones_bits b w _ 2). Qed.
Lemma septet32_bits b w i : septet32 (nth w b 0) i = bits b (Seg w (24 - i * 8) 7).
Proof. apply (land_ones_bits b w _ 7). Qed.
Lemma octet32_bits b w i : octet32 (nth w b 0) i = bits b (Seg w (24 - i * 8) 8).
Proof. apply (land_ones_bits b w _ 8). Qed.
Lemma word32_bits b w i : word32 (nth w b 0) i = bits b (Seg w (16 - i * 16) 16).
Proof. apply (land_ones_bits b w _ 16). Qed.
Lemma bit32_bits b w i : bit32 (nth w b 0) i = (bits b (Seg w (31 - i) 1) =? 1).
Proof.
  unfold bit32. rewrite (land_ones_bits b w _ 1 : N.land _ 1 = _).
  apply bit_flag. apply (bits_lt b (Seg w (31 - i) 1)).
Qed.
Lemma nibble8_bits b w i : nibble8 (nth w b 0) i = bits b (Seg w (4 - i * 4) 4).
Proof. apply (land_ones_bits b w _ 4). Qed.
Lemma septet8_bits b w : septet8 (nth w b 0) = bits b (Seg w 0 7).
Proof.
  unfold septet8. change 0x7F with (N.ones 7). rewrite <- land_ones_bits.
  now rewrite N.shiftr_0_r.
Qed.
Lemma low20_bits b w : N.land (nth w b 0) 0xFFFFF = bits b (Seg w 0 20).
Proof.
  change 0xFFFFF with (N.ones 20). rewrite <- land_ones_bits. now rewrite N.shiftr_0_r.
Qed.
Lemma stream_status_bits b w : stream_status (nth w b 0) = bits b (Seg w 16 10).
Proof.
  unfold stream_status. rewrite <- land_ones_bits.
  apply N.bits_inj. intros j. rewrite N.land_spec, !N.shiftr_spec', N.land_spec.
  change 0x03FF0000 with (N.shiftl (N.ones 10) 16).
  rewrite N.shiftl_spec_high' by lia. do 2 f_equal. lia.
Qed.

Lemma bits_mod128 b w lo : bits b (Seg w lo 8) mod 128 = bits b (Seg w lo 7).
Proof.
  unfold bits. cbn [sg_w sg_lo sg_n].
  change (2 ^ 8) with (128 * 2). rewrite N.mod_mul_r by discriminate.
  rewrite N.mul_comm, N.mod_add by discriminate. now apply N.mod_mod.
Qed.

Lemma bits7_small b w lo : bits b (Seg w lo 7) mod 128 = bits b (Seg w lo 7).
Proof. apply N.mod_small. apply (bits_lt b (Seg w lo 7)). Qed.

Lemma key_sf_from_codes : forall n, n < 16 ->
  (s <- key_sf_from n ;; Val (VKeySF s)) =
  match assoc n (codes KKeySF) with Some v => Val v | None => Panic end.
Proof. finite 16%nat. Qed.
Lemma tonic_from_codes : forall n, n < 16 ->
  (s <- unwrap (tonic_from n) ;; Val (VTonic s)) =
  match assoc n (codes KTonic) with Some v => Val v | None => Panic end.
Proof. finite 16%nat. Qed.
Lemma chord_sf_from_codes : forall n, n < 16 ->
  (s <- unwrap (chord_sf_from n) ;; Val (VChordSF s)) =
  match assoc n (codes KChordSF) with Some v => Val v | None => Panic end.
Proof. finite 16%nat. Qed.
Lemma chord_type_from_codes : forall n, n < 256 ->
  (s <- unwrap (chord_type_from n) ;; Val (VChordType s)) =
  match assoc n (codes KChordType) with Some v => Val v | None => Panic end.
Proof. finite 256%nat. Qed.
Lemma alteration_from_codes : forall n, n < 256 ->
  (s <- unwrap (alteration_from n) ;; Val (VAlt s)) =
  match assoc n (codes KAlteration) with Some v => Val v | None => Panic end.
Proof. finite 256%nat. Qed.
Lemma ui_hint_from_codes : forall n, n < 4 ->
  (s <- ui_hint_from n ;; Val (VUiHint s)) =
  match assoc n (codes KUiHint) with Some v => Val v | None => Panic end.
Proof. finite 4%nat. Qed.
Lemma port_from_codes : forall n, n < 4 ->
  (s <- port_from n ;; Val (VPort s)) =
  match assoc n (codes KPort) with Some v => Val v | None => Panic end.
Proof. finite 4%nat. Qed.
Lemma direction_from_codes : forall n, n < 4 ->
  (s <- direction_from n ;; Val (VDir s)) =
  match assoc n (codes KDirection) with Some v => Val v | None => Panic end.
Proof. finite 4%nat. Qed.
Lemma controller_from_codes d : forall n, n < 256 ->
  (c <- controller_from n d ;; Val (VCtl c)) =
  match option_map VCtl (assoc n (rpnc d)) with Some v => Val v | None => Panic end.
Proof. finite 256%nat. Qed.
Lemma attribute_from_codes d : forall n, n < 256 ->
  (if n =? 0 then Val (VAttr None)
   else if n <=? 3 then a <- attribute_from n d ;; Val (VAttr a) else Panic) =
  match assoc n [ (0, VAttr None); (1, VAttr (Some (ManufacturerSpecific d)));
                  (2, VAttr (Some (ProfileSpecific d))); (3, VAttr (Some (Pitch7_9 d))) ]
  with Some v => Val v | None => Panic end.
Proof. finite 256%nat. Qed.

Definition of_option {A} (o : option A) : outcome A :=
  match o with Some v => Val v | None => Panic end.

Ltac split_in :=
  repeat match goal with
  | H : wire_in _ _ = true |- _ =>
      unfold wire_in in H; cbn [occupies forallb sg_w sg_lo sg_n] in H
  end.

Lemma ump_read_decode t m w b : wf_buf U32 b -> ump_wire t m = Some w ->
  wire_in (List.length b) w = true -> ump_read t m b = of_option (decode w b).
Proof.
  unfold ump_wire, ump_read. intros Hwf Hw Hin.
  destruct (lookup4 m (ump_table t)) as [[k i]|]; [|discriminate].
  destruct t; inversion Hw; subst w; split_in; cbn [decode of_option map];
    (rewrite idx_nth by lia); cbn [bind];
    rewrite ?bit32_bits, ?nibble32_bits, ?septet32_bits, ?octet32_bits, ?word32_bits,
      ?u14_from_spec, ?bits7_small; try reflexivity.
  do 2 f_equal. symmetry. apply bits_full. apply (wf_nth U32 b k Hwf).
Qed.

Lemma bytes_read_decode t m w b : bytes_wire t m = Some w ->
  wire_in (List.length b) w = true -> bytes_read t m b = of_option (decode w b).
Proof.
  unfold bytes_wire, bytes_read. intros Hw Hin.
  destruct (lookup3 m (bytes_table t)) as [[k i]|]; [|discriminate].
  destruct t; inversion Hw; subst w; split_in; cbn [decode of_option map];
    (rewrite !idx_nth by lia); cbn [bind];
    rewrite ?nibble8_bits, ?septet8_bits, ?u14_from_spec, ?bits7_small; reflexivity.
Qed.

Ltac code_read lemma :=
  let k := fresh "k" in let i := fresh "i" in
  match goal with
  | H : code_wire ?t ?m _ _ _ _ = Some _ |- _ =>
      unfold code_wire in H; unfold at_table;
      destruct (lookup4 m t) as [[k i]|]; [|discriminate];
      inversion H; subst; split_in;
      rewrite idx_nth by lia; cbn [bind];
      rewrite ?nibble32_bits, ?octet32_bits; apply lemma;
      match goal with |- bits ?b ?s < _ => apply (bits_lt b s) end
  end.

Lemma prop_read_decode u p w b : wf_buf u b -> wire_of u p = Some w ->
  prop_ty p <> TyUnit -> wire_in (List.length b) w = true ->
  prop_read u p b = of_option (decode w b).
Proof.
  intros Hwf Hw Ht Hin.
  destruct p; cbn [prop_ty] in Ht; try congruence; cbn [wire_of prop_read] in *;
    destruct u; try discriminate;
    try (apply ump_read_decode; assumption);
    try (apply bytes_read_decode; assumption);
    try (inversion Hw; subst; split_in; rewrite ?idx_nth by lia; reflexivity);
    try (code_read tonic_from_codes); try (code_read chord_sf_from_codes);
    try (code_read chord_type_from_codes); try (code_read alteration_from_codes);
    inversion Hw; subst; split_in; cbn [decode];
    rewrite ?(idx_nth b 0) by lia; cbn [bind].
  - now rewrite word32_bits.
  - now rewrite low20_bits.
  - rewrite ?(idx_nth b 1) by lia; cbn [bind]. rewrite octet32_bits, word32_bits.
    apply attribute_from_codes. apply (bits_lt b (Seg 0 0 8)).
  - rewrite ?(idx_nth b 1) by lia; cbn [bind]. rewrite octet32_bits.
    rewrite (bits_full b 1 32) by apply (wf_nth U32 b 1 Hwf).
    apply controller_from_codes. apply (bits_lt b (Seg 0 0 8)).
  - rewrite ?(idx_nth b 1) by lia; cbn [bind]. rewrite bit32_bits, !octet32_bits.
    rewrite u14_from_spec, !bits_mod128.
    change (31 - 31) with 0. change (24 - 2 * 8) with 8. change (24 - 3 * 8) with 0.
    destruct (bits b (Seg 0 0 1) =? 1); reflexivity.
  - rewrite crumb32_bits, nibble32_bits. reflexivity.
  - rewrite (idx_nth b 1) by lia; cbn [bind]. rewrite nibble32_bits.
    apply key_sf_from_codes. apply (bits_lt b (Seg 1 28 4)).
  - rewrite crumb32_bits. apply ui_hint_from_codes. apply (bits_lt b (Seg 0 4 2)).
  - rewrite crumb32_bits. apply port_from_codes. apply (bits_lt b (Seg 0 2 2)).
  - rewrite crumb32_bits. apply direction_from_codes. apply (bits_lt b (Seg 0 0 2)).
Qed.
