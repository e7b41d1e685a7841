(** C69: printed errors, and messages printed in the alternate form, tell what they are. *)
From Coq Require Import NArith List String Ascii Bool Arith Lia.
From Verif Require Import Base Values Props Message MessageTable SpecLayout SpecFixed FixedLemmas Text SpecText Aggregate SpecAggregate AggregateLemmas
  Packet SpecPacket Show SpecShow ShowLemmas PropertiesShow SpecErrors SpecErrorsMore ErrorLemmas PropertiesErrors PropertiesErrorsMore Ci Sysex SpecSysex SysexBytes Pretty SpecPretty.
Import ListNotations.
Local Open Scope string_scope.

(** *** Layout *)

Fixpoint flat (s : string) : bool := match s with "" => true | String a t => negb (Ascii.eqb a nl) && flat t end.

Lemma flat_app s t : flat (s ++ t) = flat s && flat t.
Proof. induction s as [|a s IH]; cbn; [reflexivity|]. now rewrite IH, andb_assoc. Qed.

Lemma pad_flat s t : flat s = true -> pad false (s ++ t) = s ++ pad false t.
Proof.
  induction s as [|a s IH]; intros H; [reflexivity|]. cbn in H. apply andb_prop in H as [H1 H2].
  cbn [String.append pad]. apply negb_true_iff in H1. rewrite H1, IH by exact H2. reflexivity.
Qed.
Lemma pad_line s t : s <> "" -> flat s = true -> pad true (s ++ t) = "    " ++ s ++ pad false t.
Proof.
  destruct s as [|a s]; [easy|]. intros _ H. cbn in H. apply andb_prop in H as [H1 H2].
  cbn [String.append pad]. apply negb_true_iff in H1. rewrite H1, pad_flat by exact H2. reflexivity.
Qed.

Lemma cons_app a s t : String a s ++ t = String a (s ++ t).
Proof. reflexivity. Qed.

(** One level, and two. *)
Lemma tuple_lines n s : s <> "" -> flat s = true ->
  tuple1 Alternate n s = of_lines [n ++ "("; at_depth 1 (s ++ ","); ")"].
Proof.
  intros Hs Hf. cbn [tuple1 of_lines String.concat at_depth]. rewrite pad_line by assumption.
  rewrite !cons_app, !app_assoc_s, !cons_app. reflexivity.
Qed.
Lemma nested_lines n m s : m <> "" -> flat m = true -> s <> "" -> flat s = true ->
  tuple1 Alternate n (tuple1 Alternate m s)
  = of_lines [n ++ "("; at_depth 1 (m ++ "("); at_depth 2 (s ++ ","); at_depth 1 "),"; ")"].
Proof.
  intros Hm Fm Hs Fs. rewrite (tuple_lines m s) by assumption. cbn [of_lines String.concat at_depth tuple1].
  rewrite !app_assoc_s. rewrite pad_line by assumption.
  assert (E : forall t, pad false (String newline "" ++ "    " ++ s ++ t) = String newline "" ++ "        " ++ s ++ pad false t).
  { intros t. change (pad false (String newline "" ++ "    " ++ s ++ t)) with (String newline ("    " ++ "    " ++ pad false (s ++ t))).
    rewrite pad_flat by assumption. reflexivity. }
  assert (E1 : forall t, pad false ("(" ++ t) = "(" ++ pad false t) by reflexivity.
  rewrite E1, E. repeat first [rewrite app_assoc_s | progress cbn [String.append]]. reflexivity.
Qed.

Definition no_break (t : string) : Prop := starts_line t = false.
Lemma joined_flat s t : flat s = true -> no_break t -> joined false (s ++ t) = s ++ joined false t.
Proof.
  intros Hf Ht. induction s as [|a s IH]; [reflexivity|]. cbn in Hf. apply andb_prop in Hf as [H1 H2].
  cbn [String.append joined]. apply negb_true_iff in H1. change (Ascii.eqb a newline) with (Ascii.eqb a nl). rewrite H1.
  cbn [andb]. rewrite IH by exact H2.
  destruct (Ascii.eqb a ","); [|reflexivity]. cbn [andb].
  assert (E : starts_line (s ++ t) = false).
  { destruct s as [|c s]; [exact Ht|]. cbn in H2. apply andb_prop in H2 as [H2 _]. apply negb_true_iff in H2. exact H2. }
  now rewrite E.
Qed.

(** A text that begins a line. *)
Definition begins (s : string) : bool := match s with "" => false | String a _ => negb (Ascii.eqb a " ") end.
Lemma joined_fresh s t : begins s = true -> flat s = true -> no_break t -> joined true (s ++ t) = s ++ joined false t.
Proof.
  intros Hb Hf Ht. rewrite <- joined_flat by assumption. destruct s as [|a s]; [discriminate|]. cbn in Hb. apply negb_true_iff in Hb.
  cbn [String.append joined]. rewrite Hb. reflexivity.
Qed.
Lemma joined_line d s t : begins s = true -> flat s = true -> no_break t ->
  joined false (String newline (at_depth d s ++ t)) = s ++ joined false t.
Proof.
  intros Hb Hf Ht. change (joined false (String newline (at_depth d s ++ t))) with (joined true (at_depth d s ++ t)).
  induction d as [|d IH]; [now apply joined_fresh|]. exact IH.
Qed.
Lemma joined_comma s : joined false ("," ++ String newline s) = joined false (String newline s).
Proof. reflexivity. Qed.
Lemma at_depth_app d s t : at_depth d (s ++ t) = at_depth d s ++ t.
Proof. induction d as [|d IH]; cbn [at_depth]; [reflexivity|]. now rewrite IH, app_assoc_s. Qed.

Lemma tuple_joined n s : flat n = true -> begins s = true -> flat s = true ->
  without_layout (tuple1 Alternate n s) = around n s.
Proof.
  intros Fn Hb Fs. rewrite tuple_lines; [|destruct s; discriminate|assumption].
  unfold without_layout. cbn [of_lines String.concat]. rewrite at_depth_app, !app_assoc_s.
  rewrite joined_flat by (auto; reflexivity).
  assert (E1 : forall t, joined false ("(" ++ t) = "(" ++ joined false t) by reflexivity.
  assert (E2 : forall t, String newline "" ++ t = String newline t) by reflexivity.
  rewrite E1, E2, joined_line by (auto; reflexivity). rewrite E2, joined_comma. reflexivity.
Qed.
Lemma nested_joined n m s : flat n = true -> begins m = true -> flat m = true -> begins s = true -> flat s = true ->
  without_layout (tuple1 Alternate n (tuple1 Alternate m s)) = around n (around m s).
Proof.
  intros Fn Bm Fm Bs Fs. rewrite nested_lines; [|destruct m; discriminate|assumption|destruct s; discriminate|assumption].
  unfold without_layout. cbn [of_lines String.concat]. rewrite !at_depth_app, !app_assoc_s.
  rewrite joined_flat by (auto; reflexivity).
  assert (E1 : forall t, joined false ("(" ++ t) = "(" ++ joined false t) by reflexivity.
  assert (E2 : forall t, String newline "" ++ t = String newline t) by reflexivity.
  rewrite E1, !E2, (joined_line 1 m) by (auto; reflexivity). rewrite E1, (joined_line 2 s) by (auto; reflexivity).
  rewrite joined_comma. unfold around. rewrite !app_assoc_s. reflexivity.
Qed.

(** *** Names and numbers have no line breaks *)

Lemma hex_flat s : hex_chars s -> flat s = true.
Proof.
  unfold hex_chars. induction s as [|a s IH]; intros H; [reflexivity|]. cbn in H. inversion H as [|? ? H1 H2]; subst. cbn [flat].
  rewrite IH by exact H2. rewrite andb_true_r. cbn in H1.
  repeat (destruct H1 as [<-|H1]; [reflexivity|]). destruct H1.
Qed.
Lemma units_flat u b : wf_buf u b -> flat (show_units u b) = true.
Proof.
  intros W. apply wf_bound in W. induction W as [|v b Hv W IH]; [reflexivity|].
  destruct (unit_ok u v Hv) as (s & E & _ & _ & Hh). apply hex_flat in Hh.
  cbn [show_units]. rewrite E. destruct b; [exact Hh|].
  rewrite !flat_app, IH, Hh. reflexivity.
Qed.
Lemma struct_flat u n b : flat n = true -> wf_buf u b -> flat (show_struct u n b) = true.
Proof. intros Fn W. unfold show_struct. now rewrite !flat_app, Fn, (units_flat u b W). Qed.
Lemma names_flat : forallb (fun p => flat (struct_name (snd p)) && begins (struct_name (snd p)) && flat (variant_name (fst p))) listing = true.
Proof. vm_compute. reflexivity. Qed.
Lemma name_flat f c : In c (types_of f) -> flat (struct_name c) = true /\ begins (struct_name c) = true /\ flat (variant_name f) = true.
Proof.
  intros T. apply listing_in in T. pose proof names_flat as P. rewrite forallb_forall in P. specialize (P _ T). cbn [fst snd] in P.
  apply andb_prop in P as [P P3]. apply andb_prop in P as [P1 P2]. auto.
Qed.
Lemma begins_app s t : begins s = true -> begins (s ++ t) = true.
Proof. destruct s; [discriminate|auto]. Qed.
Lemma struct_begins u n b : begins n = true -> begins (show_struct u n b) = true.
Proof. intros H. now apply begins_app. Qed.

(** *** Messages and packets *)

Lemma variant_family f : variant_name f = snd (family_names f).
Proof. destruct f; reflexivity. Qed.
Lemma nonempty s : begins s = true -> s <> "".
Proof. destruct s; discriminate. Qed.

(** The alternate text of a message has the parts of its plain text (C49_form), every field on a line of its own, four
    spaces deeper and with a comma behind it. *)
Theorem C69_message_lines : forall u f c b, In c (types_of f) -> wf_buf u b ->
  exists ts name, Forall2 (unit_text u) b ts /\ type_name c = fst (family_names f) ++ "::" ++ name /\
    let own := name ++ "([" ++ String.concat ", " ts ++ "])" in
    show_message_as Alternate u f (c, b)
    = of_lines (match f with
        | Sysex7 | Sysex8 => [snd (family_names f) ++ "("; at_depth 1 (own ++ ","); ")"]
        | _ => [snd (family_names f) ++ "("; at_depth 1 (name ++ "("); at_depth 2 (own ++ ","); at_depth 1 "),"; ")"]
        end).
Proof.
  intros u f c b T W. destruct (units_text u b W) as (ts & F & E). exists ts, (struct_name c). split; [exact F|]. split.
  - pose proof module_names as M. rewrite forallb_forall in M. specialize (M f). assert (I : In f families) by (destruct f; cbn; tauto).
    specialize (M I). rewrite forallb_forall in M. now apply String.eqb_eq, M.
  - cbv zeta. destruct (name_flat f c T) as (Fn & Bn & Fv).
    pose proof (struct_flat u _ b Fn W) as Fs. pose proof (struct_begins u _ b Bn) as Bs. apply nonempty in Bn, Bs.
    unfold show_struct in Fs, Bs. rewrite E in Fs, Bs. unfold show_message_as, show_struct. cbn [fst snd]. rewrite E, <- variant_family.
    destruct f; first [rewrite nested_lines by assumption | rewrite tuple_lines by assumption]; reflexivity.
Qed.
Print Assumptions C69_message_lines.

Theorem C69_packet_lines : forall f b, wf_buf U32 b -> exists ts, Forall2 (unit_text U32) b ts
  /\ show_packet_as Alternate (variant f, b)
     = of_lines [snd (family_names f) ++ "("; at_depth 1 ("Packet([" ++ String.concat ", " ts ++ "]),"); ")"].
Proof.
  intros f b W. destruct (units_text U32 b W) as (ts & F & E). exists ts. split; [exact F|].
  pose proof (struct_flat U32 "Packet" b eq_refl W) as Fs. unfold show_packet_as, show_struct in *. cbn [fst snd]. rewrite E in *.
  rewrite tuple_lines by (assumption || discriminate).
  replace (kind_name (variant f)) with (snd (family_names f)) by (destruct f; reflexivity).
  cbn [at_depth]. rewrite !app_assoc_s. reflexivity.
Qed.
Print Assumptions C69_packet_lines.

(** In the plain style they are the texts of C49; without their layout the alternate ones are, too. *)
Theorem C69_same_text : forall u f c b, In c (types_of f) -> wf_buf u b ->
  show_message_as Plain u f (c, b) = show_message u f (c, b)
  /\ without_layout (show_message_as Alternate u f (c, b)) = show_message u f (c, b).
Proof.
  intros u f c b T W. split; [reflexivity|]. destruct (name_flat f c T) as (Fn & Bn & Fv).
  pose proof (struct_flat u _ b Fn W) as Fs. pose proof (struct_begins u _ b Bn) as Bs. unfold show_message_as. cbn [fst snd].
  destruct f; first [rewrite nested_joined by assumption | rewrite tuple_joined by assumption]; reflexivity.
Qed.
Print Assumptions C69_same_text.
Theorem C69_same_packet_text : forall p, wf_buf U32 (packet_data p) ->
  show_packet_as Plain p = show_packet p /\ without_layout (show_packet_as Alternate p) = show_packet p.
Proof.
  intros [k b] W. cbn [packet_data snd] in W. split; [reflexivity|]. unfold show_packet_as. cbn [fst snd].
  pose proof (struct_flat U32 "Packet" b eq_refl W) as Fs.
  rewrite tuple_joined; [reflexivity|destruct k; reflexivity|reflexivity|exact Fs].
Qed.
Print Assumptions C69_same_packet_text.

(** So either text tells the family, the type and the whole contents of the buffer. *)
Theorem C69_message : forall st u f c b f' c' b', In c (types_of f) -> In c' (types_of f') -> wf_buf u b -> wf_buf u b' ->
  show_message_as st u f (c, b) = show_message_as st u f' (c', b') -> f = f' /\ c = c' /\ b = b'.
Proof.
  intros st u f c b f' c' b' T T' W W' E. apply (message_cut u); auto.
  destruct (C69_same_text u f c b T W) as [<- A], (C69_same_text u f' c' b' T' W') as [<- A'].
  destruct st; [exact E|]. cbn [show_message_as] in *. rewrite <- E, A in A'. exact A'.
Qed.
Print Assumptions C69_message.
Theorem C69_packet : forall st p q, wf_buf U32 (packet_data p) -> wf_buf U32 (packet_data q) ->
  show_packet_as st p = show_packet_as st q -> p = q.
Proof.
  intros st p q W W' E. apply C49_packet; auto.
  destruct (C69_same_packet_text p W) as [<- A], (C69_same_packet_text q W') as [<- A'].
  destruct st; [exact E|]. rewrite <- E, A in A'. exact A'.
Qed.
Print Assumptions C69_packet.

(** *** Errors *)

(** The first character that a printed string stands for, and the rest. *)
Definition low_value (a : ascii) : N := let n := N_of_ascii a in (if n <? 58 then n - 48 else n - 87)%N.
Definition unescape (s : string) : option (ascii * string) :=
  match s with
  | "" => None
  | String a r =>
    if Ascii.eqb a "\" then
      match r with
      | String "0" r => Some (ascii_of_N 0, r)
      | String "t" r => Some (ascii_of_N 9, r)
      | String "n" r => Some (ascii_of_N 10, r)
      | String "r" r => Some (ascii_of_N 13, r)
      | String "u" (String "{" (String x (String "}" r))) => Some (ascii_of_N (low_value x), r)
      | String "u" (String "{" (String x (String y (String "}" r)))) => Some (ascii_of_N (16 * low_value x + low_value y), r)
      | String c r => Some (c, r)
      | "" => None
      end
    else if Ascii.eqb a (ascii_of_N 34) then None
    else Some (a, r)
  end.

Lemma unescape_ok a r : (N_of_ascii a < 128)%N -> unescape (escape a ++ r) = Some (a, r).
Proof.
  destruct a as [a0 a1 a2 a3 a4 a5 a6 a7]. destruct a7.
  - intros H. exfalso. revert H. destruct a0, a1, a2, a3, a4, a5, a6; vm_compute; discriminate.
  - intros _. destruct a0, a1, a2, a3, a4, a5, a6; reflexivity.
Qed.
Lemma escapes_cut s : forall s' r r', is_ascii s -> is_ascii s' ->
  escapes s ++ quote ++ r = escapes s' ++ quote ++ r' -> s = s' /\ r = r'.
Proof.
  assert (Q : forall r, unescape (quote ++ r) = None) by reflexivity.
  unfold is_ascii. induction s as [|a s IH]; intros [|a' s'] r r' H H' E; cbn [list_ascii_of_string escapes] in *.
  - split; [reflexivity|]. change ("" ++ quote ++ r) with (quote ++ r) in E. now injection E.
  - exfalso. inversion H' as [|? ? Ha Hs]; subst. apply (f_equal unescape) in E. change ("" ++ quote ++ r) with (quote ++ r) in E.
    rewrite Q, app_assoc_s, unescape_ok in E by exact Ha. discriminate.
  - exfalso. inversion H as [|? ? Ha Hs]; subst. apply (f_equal unescape) in E. change ("" ++ quote ++ r') with (quote ++ r') in E.
    rewrite Q, app_assoc_s, unescape_ok in E by exact Ha. discriminate.
  - inversion H as [|? ? Ha Hs]; inversion H' as [|? ? Ha' Hs']; subst. rewrite !app_assoc_s in E. apply (f_equal unescape) in E.
    rewrite !unescape_ok in E by assumption.
    assert (E1 : a = a') by congruence. assert (E2 : escapes s ++ quote ++ r = escapes s' ++ quote ++ r') by congruence.
    destruct (IH s' r r' Hs Hs' E2) as [-> ->]. subst. auto.
Qed.
Lemma debug_str_inj s s' : is_ascii s -> is_ascii s' -> debug_str s = debug_str s' -> s = s'.
Proof.
  unfold debug_str. intros H H' E.
  assert (E1 : escapes s ++ quote = escapes s' ++ quote) by (cbn [quote String.append] in E; now injection E).
  apply (escapes_cut s s' "" ""); auto.
Qed.

Lemma escape_flat a : (N_of_ascii a < 128)%N -> flat (escape a) = true.
Proof.
  destruct a as [a0 a1 a2 a3 a4 a5 a6 a7]. destruct a7.
  - intros H. exfalso. revert H. destruct a0, a1, a2, a3, a4, a5, a6; vm_compute; discriminate.
  - intros _. destruct a0, a1, a2, a3, a4, a5, a6; reflexivity.
Qed.
Lemma debug_str_flat s : is_ascii s -> flat (debug_str s) = true.
Proof.
  intros H. unfold debug_str. rewrite !flat_app. change (flat quote) with true. rewrite andb_true_r. cbn [andb].
  unfold is_ascii in H. induction s as [|a s IH]; [reflexivity|]. cbn in H. inversion H; subst. cbn [escapes].
  rewrite flat_app, escape_flat, IH; auto.
Qed.
Lemma debug_str_begins s : begins (debug_str s) = true.
Proof. reflexivity. Qed.

(** The texts of the errors, plain and in lines. *)
Theorem C69_error_form : forall text, is_ascii text ->
  debug_invalid Plain text = around "InvalidData" (debug_str text)
  /\ debug_invalid Alternate text = of_lines ["InvalidData("; at_depth 1 (debug_str text ++ ","); ")"]
  /\ debug_error Plain (Invalid text) = around "InvalidData" (around "InvalidData" (debug_str text))
  /\ debug_error Alternate (Invalid text)
     = of_lines ["InvalidData("; at_depth 1 "InvalidData("; at_depth 2 (debug_str text ++ ","); at_depth 1 "),"; ")"]
  /\ without_layout (debug_invalid Alternate text) = debug_invalid Plain text
  /\ without_layout (debug_error Alternate (Invalid text)) = debug_error Plain (Invalid text).
Proof.
  intros text H. pose proof (debug_str_flat text H) as F. pose proof (debug_str_begins text) as B. pose proof (nonempty _ B) as Z.
  unfold debug_invalid, debug_error, debug_invalid. split; [reflexivity|]. split; [now rewrite tuple_lines|]. split; [reflexivity|].
  split; [now rewrite nested_lines by (assumption || discriminate || reflexivity)|].
  split; [rewrite tuple_joined by (assumption || reflexivity)|rewrite nested_joined by (assumption || reflexivity)]; reflexivity.
Qed.
Print Assumptions C69_error_form.

(** Two errors that print alike are the same error, in both styles. *)
Theorem C69_error : forall st e e',
  match e with Invalid t => is_ascii t | Overflow => True end ->
  match e' with Invalid t => is_ascii t | Overflow => True end ->
  debug_error st e = debug_error st e' -> e = e'.
Proof.
  intros st e e' H H' E.
  assert (P : debug_error Plain e = debug_error Plain e').
  { destruct st; [exact E|]. apply (f_equal without_layout) in E.
    destruct e as [|t], e' as [|t'].
    - reflexivity.
    - destruct (C69_error_form t' H') as (_ & _ & _ & _ & _ & X). rewrite X in E. exact E.
    - destruct (C69_error_form t H) as (_ & _ & _ & _ & _ & X). rewrite X in E. exact E.
    - destruct (C69_error_form t H) as (_ & _ & _ & _ & _ & X), (C69_error_form t' H') as (_ & _ & _ & _ & _ & X').
      rewrite X, X' in E. exact E. }
  destruct e as [|t], e' as [|t']; [reflexivity|discriminate|discriminate|]. f_equal.
  unfold debug_error, debug_invalid, tuple1, in_variant in P. cbn in H, H'.
  assert (P2 : escapes t ++ quote ++ "))" = escapes t' ++ quote ++ "))").
  { rewrite !app_assoc_s in P. cbn [String.append] in P. injection P as P. rewrite !app_assoc_s in P. exact P. }
  now apply escapes_cut in P2.
Qed.
Print Assumptions C69_error.
Theorem C69_display : forall st text text', is_ascii text -> is_ascii text' ->
  (display_invalid st text = display_invalid st text' -> text = text')
  /\ display_invalid st text <> display_overflow st
  /\ display_invalid st text = debug_invalid st text /\ display_overflow st = debug_error st (from_overflow tt).
Proof.
  intros st t t' H H'. split; [|split; [destruct st; discriminate|now split]].
  intros E. assert (X : Invalid t = Invalid t'); [|congruence]. apply (C69_error st); auto.
  unfold debug_error. unfold display_invalid in E. now rewrite E.
Qed.
Print Assumptions C69_display.

(** *** The errors of the parsers *)

Lemma escapes_readable s : readable s -> escapes s = s.
Proof.
  unfold readable. induction s as [|a s IH]; intros H; [reflexivity|]. cbn in H. inversion H as [|? ? Ha Hs]; subst.
  cbn [escapes]. rewrite IH by exact Hs. destruct Ha as (Ha & Hq & Hb). unfold escape.
  replace (N_of_ascii a =? 0)%N with false by lia. replace (N_of_ascii a =? 9)%N with false by lia.
  replace (N_of_ascii a =? 10)%N with false by lia. replace (N_of_ascii a =? 13)%N with false by lia.
  replace (N_of_ascii a =? 34)%N with false by lia. replace (N_of_ascii a =? 92)%N with false by lia.
  replace (N_of_ascii a <? 32)%N with false by lia. replace (N_of_ascii a =? 127)%N with false by lia. reflexivity.
Qed.

Fixpoint readable_b (s : string) : bool :=
  match s with
  | "" => true
  | String a t => let n := N_of_ascii a in ((32 <=? n) && (n <? 127) && negb (n =? 34) && negb (n =? 92))%N && readable_b t
  end.
Lemma readable_ok s : readable_b s = true -> readable s.
Proof.
  unfold readable. induction s as [|a s IH]; intros H; [constructor|]. cbn [readable_b] in H. apply andb_prop in H as [H1 H2].
  cbn. constructor; [|now apply IH]. cbv zeta in *. lia.
Qed.

Definition tidy (l : list complaint) : Prop := Forall (fun d => readable_b (fst d) = true) l.
Lemma tidy_map {A} (f : A -> list complaint) l : (forall x, In x l -> tidy (f x)) -> tidy (flat_map f l).
Proof. intros H. induction l as [|x l IH]; [constructor|]. cbn. apply Forall_app. split; [apply H; now left|apply IH; intros; apply H; now right]. Qed.
Lemma tidy_framing n t m b : tidy (framing n t m b).
Proof. repeat constructor. Qed.
Lemma tidy_field name f w b : tidy (field_defects name f w b).
Proof.
  unfold field_defects. destruct (String.eqb f "consistent_formats"); [apply tidy_framing|].
  assert (H : match complaint_about name f w with Some e => readable_b e = true | None => True end).
  { unfold complaint_about. destruct w as [| | | |s k| | | | | | |]; try exact I; try reflexivity.
    - destruct k; exact I || reflexivity.
    - destruct (String.eqb f "ump_type"); [reflexivity|]. destruct (String.eqb f "status").
      + destruct (String.prefix _ _); reflexivity.
      + destruct (String.eqb f "bank"); reflexivity. }
  destruct (complaint_about name f w); [|constructor]. constructor; [exact H|constructor].
Qed.
Lemma tidy_fixed u name b : tidy (fixed_defects u name b).
Proof. constructor; [reflexivity|]. apply tidy_map. intros x _. apply tidy_field. Qed.
Lemma tidy_type u c b : tidy (type_defects u c b).
Proof.
  destruct c; cbn [type_defects].
  - apply tidy_fixed.
  - destruct u; repeat constructor.
  - repeat constructor.
  - repeat constructor.
  - repeat constructor.
Qed.
Lemma tidy_tagged (P : concrete -> Prop) u b l :
  tidy (flat_map (fun c => map (fun d => (fst d, P c /\ snd d)) (type_defects u c b)) l).
Proof.
  apply tidy_map. intros c _. unfold tidy. apply Forall_map. cbn [fst]. exact (tidy_type u c b).
Qed.
Lemma tidy_family f b : tidy (family_defects f b).
Proof. constructor; [destruct f; reflexivity|]. apply tidy_tagged. Qed.
Lemma tidy_ump b : tidy (ump_defects b).
Proof. unfold ump_defects. repeat (constructor; [reflexivity|]). destruct (ump_family _); [apply tidy_family|constructor]. Qed.
Lemma tidy_bytes b : tidy (bytes_defects b).
Proof. unfold bytes_defects. cbv zeta. do 3 (constructor; [reflexivity|]). apply (tidy_tagged (fun c => midi1_type (nth 0 b 0%N) = Some (type_name c))). Qed.
Lemma tidy_packet b : tidy (packet_defects b).
Proof.
  unfold packet_defects. repeat (constructor; [reflexivity|]). destruct (ump_family _) as [f|]; [|constructor].
  constructor; [reflexivity|]. destruct f; repeat constructor.
Qed.
Lemma tidy_discovery v b : tidy (discovery_defects v b).
Proof. repeat constructor. Qed.

Lemma verdict_text A (o : outcome (res A)) l e : verdict o l -> tidy l -> o = Val (Err e) -> readable e.
Proof.
  intros V T E. destruct (C63_truth A o l V) as [H _]. destruct (H e E) as (P & Hin & _).
  unfold tidy in T. rewrite Forall_forall in T. specialize (T _ Hin). now apply readable_ok.
Qed.

(** The texts of the errors that the parsers give: messages of any type, packets, discovery inquiries. *)
Definition parser_error (e : string) : Prop :=
  (exists b, wf_buf U32 b /\ ump_try_from b = Val (Err e))
  \/ (exists b, wf_buf U8 b /\ bytes_try_from b = Val (Err e))
  \/ (exists u m b, In m all_messages /\ supports u m = true /\ wf_buf u b /\ try_from u m b = Val (Err e))
  \/ (exists b, packet_try_from b = Val (Err e))
  \/ (exists v b, (v = 1%N \/ v = 2%N) /\ ci_try_from v b = Val (Err e)).

(** Such an error is printed with its own words between quotes, none of them altered. *)
Theorem C69_own_words : forall e, parser_error e -> readable e /\ is_ascii e /\ debug_str e = quoted e.
Proof.
  intros e H. assert (R : readable e).
  { destruct H as [(b & W & E)|[(b & W & E)|[(u & m & b & Hm & Hs & W & E)|[(b & E)|(v & b & Hv & E)]]]].
    - exact (verdict_text _ _ _ e (C63_ump_message b W) (tidy_ump b) E).
    - exact (verdict_text _ _ _ e (C63_bytes_message b W) (tidy_bytes b) E).
    - exact (verdict_text _ _ _ e (C63_fixed u m b Hm Hs W) (tidy_fixed u _ b) E).
    - exact (verdict_text _ _ _ e (C63_packet b) (tidy_packet b) E).
    - exact (verdict_text _ _ _ e (C63_discovery v b Hv) (tidy_discovery v b) E). }
  split; [exact R|]. split.
  - unfold is_ascii, readable in *. eapply Forall_impl; [|exact R]. cbv beta zeta. intros a Ha. lia.
  - unfold debug_str, quoted. rewrite escapes_readable by exact R. reflexivity.
Qed.
Print Assumptions C69_own_words.

(** A client that parses a slice and keeps the message in an array: the text of the error that it gets tells why.  It is
    "BufferOverflow" exactly if the slice is a message and has more words than the array; it names the first defect
    exactly if the slice is none. *)
Theorem C69_keep : forall n b, wf_buf U32 b ->
  keep n b <> Panic
  /\ ((exists e, keep n b = Val (inr e) /\ debug_error Plain e = "BufferOverflow")
      <-> faultless (ump_defects b) /\ n < List.length b)
  /\ (forall text, (exists e, keep n b = Val (inr e) /\ debug_error Plain e = around "InvalidData" (around "InvalidData" (quoted text)))
      <-> reports (ump_defects b) text).
Proof.
  intros n b W. destruct (C63_ump_message b W) as (Hp & Hok & Herr). unfold keep.
  destruct (ump_try_from b) as [[a|e]|] eqn:E; [| |congruence]; cbn [bind].
  - assert (Ea : snd a = b) by (destruct a as [c m]; apply ump_iff in E; destruct E as (_ & _ & _ & _ & Em); exact Em).
    assert (F : faultless (ump_defects b)) by (apply Hok; eauto).
    assert (NR : forall text, ~ reports (ump_defects b) text) by (intros t R; apply Herr in R; discriminate).
    unfold agg_try_rebuffer_array, try_rebuffer_array. rewrite Ea. destruct (Nat.ltb_spec n (List.length b)) as [L|L].
    + split; [discriminate|]. split; [split; [auto|intros _; eexists; split; reflexivity]|].
      intros text. split; [|intros R; now elim (NR text)]. intros (e & X & Y). assert (e = Overflow) by (cbv in X; congruence). subst e.
      discriminate Y.
    + split; [discriminate|]. split; [split; [intros (e & X & _); discriminate|intros [_ L']; lia]|].
      intros text. split; [intros (e & X & _); discriminate|intros R; now elim (NR text)].
  - destruct (C69_own_words e) as (R & A & Q); [left; eauto|].
    split; [discriminate|]. split.
    + split; [|intros [F _]; apply Hok in F as [a F]; discriminate]. intros (x & X & Y).
      assert (x = Invalid e) by (unfold from_invalid in X; congruence). subst x. discriminate Y.
    + intros text. split.
      * intros (x & X & Y). assert (x = Invalid e) by (unfold from_invalid in X; congruence). subst x.
        apply Herr. do 2 f_equal. destruct (C69_error_form e A) as (_ & _ & Z & _). rewrite Z, Q in Y.
        unfold around, quoted in Y. cbn [String.append] in Y. injection Y as Y. rewrite !app_assoc_s in Y.
        pose proof (f_equal String.length Y) as Ly. rewrite !app_length_s in Ly.
        apply app_cut in Y as [-> _]; [reflexivity|lia].
      * intros R'. apply Herr in R'. assert (text = e) by congruence. subst text. exists (Invalid e). split; [reflexivity|].
        destruct (C69_error_form e A) as (_ & _ & Z & _). now rewrite Z, Q.
Qed.
Print Assumptions C69_keep.

(** Concrete texts: a note on message, a packet, and the two errors of the client. *)
Example C69_case :
  In (CFixed cv2_note_on) (types_of ChannelVoice2) /\ wf_buf U32 [0x40904000; 0x80000000]%N
  /\ show_message_as Alternate U32 ChannelVoice2 (CFixed cv2_note_on, [0x40904000; 0x80000000]%N)
     = of_lines ["ChannelVoice2("; "    NoteOn("; "        NoteOn([0x40904000, 0x80000000]),"; "    ),"; ")"]
  /\ show_packet_as Alternate (PUtility, [0x00100000]%N) = of_lines ["Utility("; "    Packet([0x00100000]),"; ")"]
  /\ keep 1 [0x40904000; 0x80000000]%N = Val (inr Overflow)
  /\ keep 4 [0x40904000]%N = Val (inr (Invalid "Slice is too short"))
  /\ debug_error Alternate (Invalid "Slice is too short")
     = of_lines ["InvalidData("; "    InvalidData("; "        " ++ quoted "Slice is too short" ++ ","; "    ),"; ")"]
  /\ parser_error "Couldn't interpret ump message type"
  /\ is_ascii (String "009" "it's") /\ debug_str (String "009" "it's") = quoted "\tit's".
Proof.
  split; [cbn; tauto|]. split; [repeat constructor|]. do 5 (split; [reflexivity|]). split; [|split; [repeat constructor|reflexivity]].
  left. exists [0x60000000]%N. split; [repeat constructor|reflexivity].
Qed.
