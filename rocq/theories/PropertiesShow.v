(** PROPERTIES of Debug output and equality.  See properties.jsonl; the model is
    in Show.v. *)
From Coq Require Import NArith ZArith List String Ascii Bool Arith Lia Zify ZifyBool ZifyNat ZifyN.
From Verif Require Import Base Values Props PropLemmas Message MessageTable SpecLayout SpecFixed FixedLemmas Text Aggregate SpecAggregate AggregateLemmas
  Packet SpecPacket SpecStream Show SpecShow ShowLemmas.
Import ListNotations.
Local Open Scope string_scope.
Local Open Scope nat_scope.

Lemma wf_bound u b : wf_buf u b -> Forall (fun v => v < unit_bound u)%N b.
Proof. intros W. destruct u; exact W. Qed.

(** ** C49 *)

(** A byte is printed as [0x] and two, a word as [0x] and eight upper-case hexadecimal digits. *)
Theorem C49_unit : forall u v, wf_buf u [v] ->
  exists s, show_unit u v = "0x" ++ s /\ String.length s = unit_digits u /\ hex_chars s /\ hex_value s 0 = v.
Proof.
  intros u v W. apply wf_bound in W. inversion W as [|? ? H _]; subst. destruct (unit_ok u v H) as (s & A & B & C & D). eauto 6.
Qed.
Print Assumptions C49_unit.

(** The form of the texts: the units, separated, in brackets, in the name of the type; a message in its variant
    of the family's enum, if the family has one, and that in the family's variant. *)
Lemma units_text u b : wf_buf u b -> exists ts, Forall2 (unit_text u) b ts /\ show_units u b = String.concat ", " ts.
Proof.
  induction b as [|v b IH]; intros W; [exists []; split; [constructor|reflexivity]|].
  inversion W as [|? ? W1 W2]; subst. destruct (IH W2) as (ts & F & E).
  exists (show_unit u v :: ts). split; [constructor; [|exact F]; apply C49_unit; now constructor|].
  destruct F as [|v' t' b' ts' H F]; [reflexivity|]. cbn [String.concat] in *. rewrite <- E. reflexivity.
Qed.
Lemma module_names : forallb (fun f => forallb (fun c =>
  String.eqb (type_name c) (fst (family_names f) ++ "::" ++ struct_name c)) (types_of f)) families = true.
Proof. vm_compute. reflexivity. Qed.
Theorem C49_form : forall u f c b, In c (types_of f) -> wf_buf u b ->
  exists ts name, Forall2 (unit_text u) b ts /\ type_name c = fst (family_names f) ++ "::" ++ name
    /\ show_struct u (struct_name c) b = name ++ "([" ++ String.concat ", " ts ++ "])"
    /\ show_message u f (c, b) = around (snd (family_names f))
         (let own := name ++ "([" ++ String.concat ", " ts ++ "])" in
          match f with Sysex7 | Sysex8 => own | _ => around name own end).
Proof.
  intros u f c b T W. destruct (units_text u b W) as (ts & F & E). exists ts, (struct_name c). split; [exact F|]. split.
  - pose proof module_names as M. rewrite forallb_forall in M. specialize (M f). assert (I : In f families) by (destruct f; cbn; tauto).
    specialize (M I). rewrite forallb_forall in M. now apply String.eqb_eq, M.
  - split; [unfold show_struct; now rewrite E|]. unfold show_message, show_struct. cbn [fst snd]. rewrite E. destruct f; reflexivity.
Qed.
Print Assumptions C49_form.
Theorem C49_packet_form : forall f b, wf_buf U32 b -> exists ts, Forall2 (unit_text U32) b ts
  /\ show_packet (variant f, b) = around (snd (family_names f)) ("Packet([" ++ String.concat ", " ts ++ "])").
Proof.
  intros f b W. destruct (units_text U32 b W) as (ts & F & E). exists ts. split; [exact F|].
  unfold show_packet, show_struct. cbn [fst snd]. rewrite E. destruct f; reflexivity.
Qed.
Print Assumptions C49_packet_form.

Definition listing : list (family * concrete) := flat_map (fun f => map (pair f) (types_of f)) families.
Lemma listing_in f c : In c (types_of f) -> In (f, c) listing.
Proof.
  intros T. apply in_flat_map. exists f. split; [destruct f; cbn; tauto|]. apply in_map_iff. eauto.
Qed.

Fixpoint apart (l : list string) : bool := match l with [] => true | x :: t => negb (existsb (String.eqb x) t) && apart t end.
Lemma apart_inj {A} (f : A -> string) l : apart (map f l) = true -> forall x y, In x l -> In y l -> f x = f y -> x = y.
Proof.
  induction l as [|a l IH]; intros H x y Hx Hy E; [easy|]. cbn in H. apply andb_prop in H as [H1 H2]. apply negb_true_iff in H1.
  assert (X : forall z, In z l -> f a <> f z).
  { intros z Hz Ez. assert (existsb (String.eqb (f a)) (map f l) = true); [|congruence]. apply existsb_exists. exists (f z).
    split; [now apply in_map|]. now apply String.eqb_eq. }
  destruct Hx as [->|Hx], Hy as [->|Hy]; auto; exfalso; [now apply (X y)|now apply (X x)].
Qed.

Lemma names_apart : apart (map (fun p => variant_name (fst p) ++ "." ++ struct_name (snd p)) listing) = true.
Proof. vm_compute. reflexivity. Qed.
Lemma names_plain : forallb (fun p => plain (struct_name (snd p)) && plain (variant_name (fst p))) listing = true.
Proof. vm_compute. reflexivity. Qed.

Lemma message_cut u f c b f' c' b' : In c (types_of f) -> In c' (types_of f') -> wf_buf u b -> wf_buf u b' ->
  show_message u f (c, b) = show_message u f' (c', b') -> f = f' /\ c = c' /\ b = b'.
Proof.
  intros T T' W W' E. apply listing_in in T, T'. pose proof names_plain as P. rewrite forallb_forall in P.
  pose proof (P _ T) as Q. pose proof (P _ T') as Q'. cbn [fst snd] in Q, Q'. apply andb_prop in Q as [Q1 Q2]. apply andb_prop in Q' as [Q1' Q2'].
  apply wf_bound in W, W'. unfold show_message, in_variant in E. cbn [fst snd] in E. apply name_cut in E as [Ef E]; auto.
  assert (F : f = f') by (clear - Ef; destruct f, f'; try reflexivity; discriminate Ef). subst f'.
  assert (X : struct_name c = struct_name c' /\ b = b').
  { assert (K : forall r r', (struct_name c ++ "(" ++ show_struct u (struct_name c) b ++ r)%string = (struct_name c' ++ "(" ++ show_struct u (struct_name c') b' ++ r')%string ->
      struct_name c = struct_name c' /\ b = b').
    { intros r r' K. apply name_cut in K as [_ K]; auto. apply struct_cut in K; auto. }
    assert (K' : forall n t, (n ++ "(" ++ t ++ ")")%string ++ ")" = (n ++ "(" ++ t ++ "))")%string).
    { intros n t. now rewrite !app_assoc_s. }
    destruct f; (apply struct_cut in E; [exact E|auto..]) || (rewrite !K' in E; now apply K in E). }
  destruct X as [X ->]. split; [reflexivity|]. split; [|reflexivity].
  pose proof (apart_inj _ _ names_apart _ _ T T') as I. cbn [fst snd] in I. rewrite X in I. specialize (I eq_refl). congruence.
Qed.

(** The Debug text of a message tells its family, type and the whole contents of its buffer. *)
Theorem C49_ump_message : forall f c b f' c' b', In c (types_of f) -> In c' (types_of f') -> wf_buf U32 b -> wf_buf U32 b' ->
  show_message U32 f (c, b) = show_message U32 f' (c', b') -> f = f' /\ c = c' /\ b = b'.
Proof. intros f c b f' c' b'. apply message_cut. Qed.
Print Assumptions C49_ump_message.
Theorem C49_bytes_message : forall f c b f' c' b', In c byte_types -> In c' byte_types -> In c (types_of f) -> In c' (types_of f') ->
  wf_buf U8 b -> wf_buf U8 b' ->
  show_message U8 f (c, b) = show_message U8 f' (c', b') -> f = f' /\ c = c' /\ b = b'.
Proof. intros f c b f' c' b' _ _. apply message_cut. Qed.
Print Assumptions C49_bytes_message.
(** So does that of a message that is not wrapped. *)
Theorem C49_concrete : forall u f c b f' c' b', In c (types_of f) -> In c' (types_of f') -> wf_buf u b -> wf_buf u b' ->
  show_struct u (struct_name c) b = show_struct u (struct_name c') b' -> struct_name c = struct_name c' /\ b = b'.
Proof.
  intros u f c b f' c' b' T T' W W' E. apply listing_in in T, T'. pose proof names_plain as P. rewrite forallb_forall in P.
  pose proof (P _ T) as Q. pose proof (P _ T') as Q'. cbn [fst snd] in Q, Q'. apply andb_prop in Q as [Q1 Q2]. apply andb_prop in Q' as [Q1' Q2'].
  apply (struct_cut u _ _ b b' "" ""); auto; try (now apply wf_bound). now rewrite E.
Qed.
Print Assumptions C49_concrete.
(** So does that of a packet. *)
Theorem C49_packet : forall p q, wf_buf U32 (packet_data p) -> wf_buf U32 (packet_data q) -> show_packet p = show_packet q -> p = q.
Proof.
  intros [k b] [k' b'] W W' E. apply wf_bound in W, W'. unfold show_packet, in_variant in E. cbn [fst snd packet_data] in *.
  apply name_cut in E as [K E]; [|destruct k; reflexivity|destruct k'; reflexivity].
  apply struct_cut in E as [_ ->]; auto. f_equal. clear - K. destruct k, k'; try reflexivity; discriminate K.
Qed.
Print Assumptions C49_packet.

(** Equal messages print alike, and messages of one type that print alike are equal. *)
Theorem C49_equality : forall u f c b b', In c (types_of f) -> wf_buf u b -> wf_buf u b' ->
  same_message b b' = true <-> show_struct u (struct_name c) b = show_struct u (struct_name c) b'.
Proof.
  intros u f c b b' T W W'. unfold same_message. destruct (list_eq_dec N.eq_dec b b') as [->|D]; [easy|]. split; [discriminate|].
  intros E. exfalso. apply D. now apply (C49_concrete u f c b f c b').
Qed.
Print Assumptions C49_equality.

(** Messages that occupy their buffers are equal when their data() is. *)
Theorem C49_whole_equal : forall u c b b', whole u (c, b) -> whole u (c, b') ->
  same_message b b' = true <-> concrete_data u c b = concrete_data u c b'.
Proof.
  intros u c b b' [_ D] [_ D']. cbn [fst snd] in *. rewrite D, D'. unfold same_message. destruct (list_eq_dec N.eq_dec b b') as [->|X]; [easy|].
  split; [discriminate|]. intros E. congruence.
Qed.
Print Assumptions C49_whole_equal.

Example C49_case :
  show_message U32 ChannelVoice2 (CFixed cv2_note_on, [0x48985E03; 0x6A14E98A]%N) = "ChannelVoice2(NoteOn(NoteOn([0x48985E03, 0x6A14E98A])))"
  /\ show_message U8 Sysex7 (CSysex7, [0xF0; 0x0A; 0xF7]%N) = "Sysex7(Sysex7([0xF0, 0x0A, 0xF7]))"
  /\ show_packet (PSysex7, [0x30020001; 0]%N) = "Sysex7(Packet([0x30020001, 0x00000000]))".
Proof. repeat split; vm_compute; reflexivity. Qed.

(** Equality is not that of data(): what lies behind the message counts. *)
Theorem C49_equal_data_refuted : exists m b b' d, accepts U32 m b /\ accepts U32 m b'
  /\ data U32 m b = Val d /\ data U32 m b' = Val d
  /\ (forall f p, In (f, p) (m_fields m) -> get U32 m b f = get U32 m b' f)
  /\ same_message b b' = false /\ show_struct U32 "NoteOn" b <> show_struct U32 "NoteOn" b'.
Proof.
  exists cv2_note_on, [0x40904000; 0xC0000000]%N, [0x40904000; 0xC0000000; 7]%N. eexists.
  split; [reflexivity|]. split; [reflexivity|]. split; [reflexivity|]. split; [reflexivity|]. split; [|split; [reflexivity|vm_compute; discriminate]].
  intros f p H. cbn in H. repeat (destruct H as [H|H]; [injection H as <- _; vm_compute; reflexivity|]). destruct H.
Qed.
Print Assumptions C49_equal_data_refuted.
