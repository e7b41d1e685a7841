(** The properties (fields) of the fixed-size messages: a deep embedding of the
    types implementing [Property]/[ReadProperty]/[WriteProperty]
    (midi2/src/detail/property.rs), with their [read], [write], [validate] and
    [default] functions.  Properties of the variable-size messages are modelled
    in their own files. *)
From Coq Require Import NArith List String Bool Arith.
From Verif Require Import Base BitOps Encode7 Values Schema Helpers.
Import ListNotations.
Local Open Scope string_scope.
Local Open Scope N_scope.

Inductive prop :=
| PUmpType (t : N)                    (* detail/common_properties.rs 12-43 *)
| PCvStatus (s : N)                   (* detail/common_properties.rs 45-93 *)
| PSysStatus (s : N)                  (* system_common.rs 250-294 *)
| PHybrid (t : sty) (mb : mask3) (mu : mask4)   (* detail/common_properties.rs 102-166 *)
| PUmp (t : sty) (m : mask4)          (* detail/common_properties.rs 168-217 *)
| PTime16                             (* utility.rs 166-195 *)
| PTime20                             (* utility.rs 112-140 *)
| PAttribute                          (* channel_voice2/attribute.rs 58-85 *)
| PController                         (* channel_voice2/controller.rs 127-159 *)
| PProgramBank                        (* channel_voice2/program_change.rs 28-75 *)
| PFlexStatus (s : N)                 (* flex_data.rs 920-949 *)
| PFlexBank (k : N)                   (* flex_data.rs 951-980 *)
| PFlexFormat (f : N)                 (* flex_data.rs 982-1007 *)
| POptChannel                         (* flex_data.rs 1009-1058 *)
| PNoChannel                          (* flex_data.rs 1060-1095 *)
| PTonic (m : mask4)                  (* flex_data/tonic.rs 18-76 *)
| PKeySF                              (* flex_data/set_key_signature.rs 48-90 *)
| PChordSF (m : mask4)                (* flex_data/set_chord_name.rs 63-121 *)
| PChordType (m : mask4)              (* flex_data/set_chord_name.rs 187-245 *)
| PAlteration (m : mask4)             (* flex_data/set_chord_name.rs 331-376 *)
| PStreamStatus (s : N)               (* ump_stream.rs 117-149 *)
| PStreamFormats                      (* ump_stream.rs 151-184 *)
| PUiHint                             (* ump_stream/function_block_info.rs 46-94 *)
| PPort                               (* ump_stream/function_block_info.rs 109-164 *)
| PDirection.                         (* ump_stream/function_block_info.rs 173-229 *)

(** [type Type] of each property (detail/property.rs 2); the lines are those of [prop]. *)
Definition prop_ty (p : prop) : ty :=
  match p with
  | PUmpType _ | PCvStatus _ | PSysStatus _ | PFlexStatus _ | PFlexBank _ | PFlexFormat _
  | PNoChannel | PStreamStatus _ | PStreamFormats => TyUnit
  | PHybrid t _ _ => sty_ty t
  | PUmp t _ => sty_ty t
  | PTime16 => TyU 16
  | PTime20 => TyU 20
  | PAttribute => TyAttr
  | PController => TyCtl
  | PProgramBank => TyOptU 14
  | POptChannel => TyOptU 4
  | PTonic _ => TyTonic
  | PKeySF => TyKeySF
  | PChordSF _ => TyChordSF
  | PChordType _ => TyChordType
  | PAlteration _ => TyAlt
  | PUiHint => TyUiHint
  | PPort => TyPort
  | PDirection => TyDir
  end.

(** Word positions of the schema instances that exist for the chord and tonic
    properties: tonic.rs 27, 53; set_chord_name.rs 72, 98; 196, 222; 371-376.
    (buffer index, octet or nibble index) *)
Definition tonic_table : table4 := [
  ((0, 0x0F000000, 0, 0), (1%nat, 1)); ((0, 0, 0, 0x0F000000), (3%nat, 1)) ].
Definition chord_sf_table : table4 := [
  ((0, 0, 0, 0xF0000000), (3%nat, 0)); ((0, 0xF0000000, 0, 0), (1%nat, 0)) ].
Definition chord_type_table : table4 := [
  ((0, 0x00FF0000, 0, 0), (1%nat, 1)); ((0, 0, 0, 0x00FF0000), (3%nat, 1)) ].
Definition alteration_table : table4 := [
  ((0, 0x0000FF00, 0, 0), (1%nat, 2)); ((0, 0x000000FF, 0, 0), (1%nat, 3));
  ((0, 0, 0xFF000000, 0), (2%nat, 0)); ((0, 0, 0x00FF0000, 0), (2%nat, 1));
  ((0, 0, 0, 0x0000FF00), (3%nat, 2)); ((0, 0, 0, 0x000000FF), (3%nat, 3)) ].

Definition at_table {A} (t : table4) (m : mask4) (k : nat -> N -> outcome A) : outcome A :=
  match lookup4 m t with Some (w, i) => k w i | None => Panic end.

Definition unwrap {A} (r : res A) : outcome A :=
  match r with Ok a => Val a | Err _ => Panic end.
Definition res_unit {A} (r : res A) : res unit :=
  match r with Ok _ => Ok tt | Err e => Err e end.

(** ump_stream.rs 433-435: [status_from_buffer] (on the first word) *)
Definition stream_status (x : N) : N := N.shiftr (N.land x 0x03FF0000) 16.

(** system_common.rs 296-307: [status] *)
Definition sys_status (u : unit_id) (x : N) : N :=
  match u with U32 => octet32 x 1 | U8 => x end.

(** ump_stream.rs 343-369: the format of packet [i] of [k] *)
Definition stream_format (i k : nat) : N :=
  if (i =? 0)%nat then (if (1 <? k)%nat then 1 else 0)
  else if (S i <? k)%nat then 2 else 3.

(** The packets visited by [set_format_fields], ump_stream.rs 347-350 *)
Definition stream_packet_count (b : list N) : nat :=
  List.length (take_while (fun c => nibble32 (hd0 c) 0 =? 0xF) (chunks_exact 4 b)).

(** ump_stream.rs 343-369: [set_format_fields] *)
Definition set_format_fields (b : list N) : outcome (list N) :=
  let k := stream_packet_count b in
  if (k =? 0)%nat then Panic
  else for_heads 4 k (fun i x => set_crumb32 x 2 (stream_format i k)) b.

(** ump_stream.rs 160-173: [ConsistentFormatsProperty::validate] *)
Definition stream_formats_validate (b : list N) : res unit :=
  validate_statuses b
    (fun x => crumb32 x 2 =? 0) (fun x => crumb32 x 2 =? 1)
    (fun x => crumb32 x 2 =? 2) (fun x => crumb32 x 2 =? 3) 4 0xF.

(** [ReadProperty::read].  The properties of UMP-only messages are implemented
    for [u32] buffers only; on [u8] the model panics (it would not compile). *)
Definition prop_read (u : unit_id) (p : prop) (b : list N) : outcome value :=
  match p with
  | PUmpType _ | PCvStatus _ | PSysStatus _ => Val VUnit
  | PHybrid t mb mu =>                              (* detail/common_properties.rs 124-134 *)
      match u with U32 => ump_read t mu b | U8 => bytes_read t mb b end
  | PUmp t m =>                                     (* detail/common_properties.rs 183-191 *)
      match u with U32 => ump_read t m b | U8 => Val (sty_default t) end
  | _ =>
    match u with
    | U8 => Panic
    | U32 =>
      match p with
      | PTime16 => x <- idx b 0 ;; Val (VNum (word32 x 1))      (* utility.rs 173-176 *)
      | PTime20 => x <- idx b 0 ;; Val (VNum (N.land x 0x000FFFFF))  (* utility.rs 119-121 *)
      | PAttribute =>                               (* attribute.rs 23-33 *)
          x <- idx b 0 ;;
          (if octet32 x 3 =? 0 then Val (VAttr None)
           else if octet32 x 3 <=? 3 then
             y <- idx b 1 ;;
             a <- attribute_from (octet32 x 3) (word32 y 1) ;; Val (VAttr a)
           else Panic)
      | PController =>                              (* controller.rs 138-141 *)
          x <- idx b 0 ;; y <- idx b 1 ;;
          c <- controller_from (octet32 x 3) y ;; Val (VCtl c)
      | PProgramBank =>                             (* program_change.rs 35-44 *)
          x <- idx b 0 ;;
          if bit32 x 31 then
            y <- idx b 1 ;; Val (VOptNum (Some (u14_from_u7s (octet32 y 2) (octet32 y 3))))
          else Val (VOptNum None)
      | POptChannel =>                              (* flex_data.rs 1052-1058 *)
          x <- idx b 0 ;;
          Val (VOptNum (if crumb32 x 5 =? 0 then Some (nibble32 x 3) else None))
      | PTonic m =>                                 (* tonic.rs 33-35, 59-61 *)
          at_table tonic_table m (fun w i =>
            x <- idx b w ;; t <- unwrap (tonic_from (nibble32 x i)) ;; Val (VTonic t))
      | PKeySF =>                                   (* set_key_signature.rs 57-65 *)
          x <- idx b 1 ;; s <- key_sf_from (nibble32 x 0) ;; Val (VKeySF s)
      | PChordSF m =>                               (* set_chord_name.rs 74-76, 100-102 *)
          at_table chord_sf_table m (fun w i =>
            x <- idx b w ;; t <- unwrap (chord_sf_from (nibble32 x i)) ;; Val (VChordSF t))
      | PChordType m =>                             (* set_chord_name.rs 202-204, 228-230 *)
          at_table chord_type_table m (fun w i =>
            x <- idx b w ;; t <- unwrap (chord_type_from (octet32 x i)) ;; Val (VChordType t))
      | PAlteration m =>                            (* set_chord_name.rs 348-350 *)
          at_table alteration_table m (fun w i =>
            x <- idx b w ;; t <- unwrap (alteration_from (octet32 x i)) ;; Val (VAlt t))
      | PUiHint =>                                  (* function_block_info.rs 53-64 *)
          x <- idx b 0 ;; h <- ui_hint_from (crumb32 x 13) ;; Val (VUiHint h)
      | PPort =>                                    (* function_block_info.rs 116-126 *)
          x <- idx b 0 ;; h <- port_from (crumb32 x 14) ;; Val (VPort h)
      | PDirection =>                               (* function_block_info.rs 180-190 *)
          x <- idx b 0 ;; h <- direction_from (crumb32 x 15) ;; Val (VDir h)
      | _ => Val VUnit          (* the remaining properties have type () *)
      end
    end
  end.

(** [WriteProperty::write] (detail/property.rs 12).  A value of the wrong type would not compile; the
    model panics. *)
Definition prop_write (u : unit_id) (p : prop) (b : list N) (v : value) : outcome (list N) :=
  match p with
  | PUmpType t =>                                   (* detail/common_properties.rs 34-38 *)
      match u with U32 => upd b 0 (fun x => set_nibble32 x 0 t) | U8 => Val b end
  | PCvStatus s =>                                  (* detail/common_properties.rs 76-88 *)
      match u with
      | U32 => upd b 0 (fun x => set_nibble32 x 2 s)
      | U8 => upd b 0 (fun x => set_nibble8 x 0 s)
      end
  | PSysStatus s =>                                 (* system_common.rs 274-287 *)
      match u with
      | U32 => upd b 0 (fun x => set_octet32 x 1 s)
      | U8 => upd b 0 (fun _ => s)
      end
  | PHybrid t mb mu =>                              (* detail/common_properties.rs 150-162 *)
      match u with U32 => ump_write t mu b v | U8 => bytes_write t mb b v end
  | PUmp t m =>                                     (* detail/common_properties.rs 203-210 *)
      match u with U32 => ump_write t m b v | U8 => Val b end
  | _ =>
    match u with
    | U8 => Panic
    | U32 =>
      match p, v with
      | PTime16, VNum x => upd b 0 (fun y => set_word32 y 1 x)   (* utility.rs 185-188 *)
      | PTime20, VNum x => upd b 0 (fun y => N.lor (N.ldiff y 0x000FFFFF) x)
                                                    (* utility.rs 130-133 *)
      | PAttribute, VAttr o =>                      (* attribute.rs 35-56 *)
          b' <- (match o with
                 | None => upd b 0 (fun x => set_octet32 x 3 0)
                 | Some (ManufacturerSpecific d) =>
                     b1 <- upd b 0 (fun x => set_octet32 x 3 1) ;;
                     upd b1 1 (fun x => set_word32 x 1 d)
                 | Some (ProfileSpecific d) =>
                     b1 <- upd b 0 (fun x => set_octet32 x 3 2) ;;
                     upd b1 1 (fun x => set_word32 x 1 d)
                 | Some (Pitch7_9 d) =>
                     b1 <- upd b 0 (fun x => set_octet32 x 3 3) ;;
                     upd b1 1 (fun x => set_word32 x 1 d)
                 end) ;;
          _ <- prefix b' 2 ;;                       (* &mut bytes[..2], line 55 *)
          Val b'
      | PController, VCtl c =>                      (* controller.rs 153-158 *)
          r <- controller_to c ;;
          b1 <- upd b 0 (fun x => set_octet32 x 3 (fst r)) ;;
          upd b1 1 (fun _ => snd r)
      | PProgramBank, VOptNum o =>                  (* program_change.rs 54-71 *)
          match o with
          | Some n =>
              match u14_to_u7s n with
              | [a; c] =>
                  b1 <- upd b 1 (fun x => set_octet32 x 2 a) ;;
                  b2 <- upd b1 1 (fun x => set_octet32 x 3 c) ;;
                  upd b2 0 (fun x => set_bit32 x 31 true)
              | _ => Panic
              end
          | None =>
              b1 <- upd b 0 (fun x => set_bit32 x 31 false) ;;
              upd b1 1 (fun x => set_word32 x 1 0)
          end
      | PFlexStatus s, _ => upd b 0 (fun x => set_octet32 x 3 s)     (* flex_data.rs 942-944 *)
      | PFlexBank k, _ => upd b 0 (fun x => set_octet32 x 2 k)       (* flex_data.rs 973-975 *)
      | PFlexFormat f, _ => upd b 0 (fun x => set_crumb32 x 4 f)     (* flex_data.rs 1000-1002 *)
      | POptChannel, VOptNum o =>                   (* flex_data.rs 1038-1050 *)
          match o with
          | Some c =>
              b1 <- upd b 0 (fun x => set_crumb32 x 5 0) ;;
              upd b1 0 (fun x => set_nibble32 x 3 c)
          | None =>
              b1 <- upd b 0 (fun x => set_crumb32 x 5 1) ;;
              upd b1 0 (fun x => set_nibble32 x 3 0)
          end
      | PNoChannel, _ =>                            (* flex_data.rs 1081-1088 *)
          b1 <- upd b 0 (fun x => set_crumb32 x 5 1) ;;
          upd b1 0 (fun x => set_nibble32 x 3 0)
      | PTonic m, VTonic t =>                       (* tonic.rs 47-49, 73-75 *)
          at_table tonic_table m (fun w i =>
            upd b w (fun x => set_nibble32 x i (tonic_into t)))
      | PKeySF, VKeySF s =>                         (* set_key_signature.rs 74-83 *)
          n <- key_sf_into s ;; upd b 1 (fun x => set_nibble32 x 0 n)
      | PChordSF m, VChordSF s =>                   (* set_chord_name.rs 86-88, 112-114 *)
          at_table chord_sf_table m (fun w i =>
            upd b w (fun x => set_nibble32 x i (chord_sf_into s)))
      | PChordType m, VChordType s =>               (* set_chord_name.rs 213-215, 239-241 *)
          at_table chord_type_table m (fun w i =>
            upd b w (fun x => set_octet32 x i (chord_type_into s)))
      | PAlteration m, VAlt o =>                    (* set_chord_name.rs 360-363 *)
          at_table alteration_table m (fun w i =>
            upd b w (fun x => set_octet32 x i (alteration_into o)))
      | PStreamStatus s, _ =>                       (* ump_stream.rs 142-147 *)
          for_heads 4 (List.length b / 4)
            (fun _ x => N.lor (N.ldiff x 0x03FF0000) (N.shiftl s 16)) b
      | PStreamFormats, _ => set_format_fields b    (* ump_stream.rs 178-180 *)
      | PUiHint, VUiHint h =>                       (* function_block_info.rs 76-90 *)
          upd b 0 (fun x => set_crumb32 x 13 (ui_hint_into h))
      | PPort, VPort o =>                           (* function_block_info.rs 147-160 *)
          upd b 0 (fun x => set_crumb32 x 14 (port_into o))
      | PDirection, VDir d =>                       (* function_block_info.rs 212-225 *)
          upd b 0 (fun x => set_crumb32 x 15 (direction_into d))
      | _, _ => Panic
      end
    end
  end.

(** [ReadProperty::validate] (detail/property.rs 8) *)
Definition prop_validate (u : unit_id) (p : prop) (b : list N) : outcome (res unit) :=
  match p with
  | PUmpType t =>                                   (* detail/common_properties.rs 20-28 *)
      match u with
      | U32 => x <- idx b 0 ;; Val (check (nibble32 x 0 =? t) "Incorrect ump message type")
      | U8 => Val (Ok tt)
      end
  | PCvStatus s =>                                  (* detail/common_properties.rs 53-70 *)
      x <- idx b 0 ;;
      Val (check ((match u with U32 => nibble32 x 2 | U8 => nibble8 x 0 end) =? s)
             "Incorrect message status")
  | PSysStatus s =>                                 (* system_common.rs 262-268 *)
      x <- idx b 0 ;; Val (check (sys_status u x =? s) "Incorrect status field")
  | PHybrid _ _ _ | PUmp _ _ => Val (Ok tt)         (* detail/common_properties.rs 135-137, 192-194 *)
  | _ =>
    match u with
    | U8 => Panic
    | U32 =>
      match p with
      | PAttribute =>                               (* attribute.rs 13-21 *)
          x <- idx b 0 ;;
          Val (check (attribute_type_ok (octet32 x 3)) "Couldn't interpret note attribute")
      | PController =>                              (* controller.rs 134-137 *)
          x <- idx b 0 ;;
          Val (check (controller_index_ok (octet32 x 3)) "Couldn't interpret controller index")
      | PFlexStatus s =>                            (* flex_data.rs 928-938 *)
          Val (check (forallb (fun c => octet32 (hd0 c) 3 =? s) (chunks_exact 4 b))
                 "Incorrect message status")
      | PFlexBank k =>                              (* flex_data.rs 959-969 *)
          Val (check (forallb (fun c => octet32 (hd0 c) 2 =? k) (chunks_exact 4 b))
                 "Incorrect message bank")
      | PFlexFormat f =>                            (* flex_data.rs 990-996 *)
          x <- idx b 0 ;; Val (check (crumb32 x 4 =? f) "Incorrect message format")
      | PNoChannel =>                               (* flex_data.rs 1068-1077 *)
          x <- idx b 0 ;;
          Val (check (negb (crumb32 x 5 =? 0)) "Address field should be non zero.")
      | PTonic m =>                                 (* tonic.rs 29-32, 55-58 *)
          at_table tonic_table m (fun w i =>
            x <- idx b w ;; Val (res_unit (tonic_from (nibble32 x i))))
      | PChordSF m =>                               (* set_chord_name.rs 77-80, 103-106 *)
          at_table chord_sf_table m (fun w i =>
            x <- idx b w ;; Val (res_unit (chord_sf_from (nibble32 x i))))
      | PChordType m =>                             (* set_chord_name.rs 198-201, 224-227 *)
          at_table chord_type_table m (fun w i =>
            x <- idx b w ;; Val (res_unit (chord_type_from (octet32 x i))))
      | PAlteration m =>                            (* set_chord_name.rs 344-347 *)
          at_table alteration_table m (fun w i =>
            x <- idx b w ;; Val (res_unit (alteration_from (octet32 x i))))
      | PStreamStatus s =>                          (* ump_stream.rs 125-135 *)
          Val (check (forallb (fun c => stream_status (hd0 c) =? s) (chunks_exact 4 b))
                 "Incorrect message status")
      | PStreamFormats => Val (stream_formats_validate b)   (* ump_stream.rs 160-173 *)
      | PPort =>                                    (* function_block_info.rs 127-138 *)
          x <- idx b 0 ;;
          Val (check (port_ok (crumb32 x 14)) "Couldn't interpret midi1 port field")
      | PDirection =>                               (* function_block_info.rs 191-203 *)
          x <- idx b 0 ;;
          ok <- direction_ok (crumb32 x 15) ;;
          Val (check ok "Couldn't interpret direction field")
      | _ => Val (Ok tt)        (* PTime16 PTime20 PProgramBank POptChannel PKeySF PUiHint *)
      end
    end
  end.

(** [WriteProperty::default] (detail/property.rs 21) *)
Definition prop_default (p : prop) : value :=
  match p with
  | PHybrid t _ _ => sty_default t                  (* detail/common_properties.rs 163-165 *)
  | PUmp t _ => sty_default t                       (* detail/common_properties.rs 214-216 *)
  | PTime16 | PTime20 => VNum 0                     (* utility.rs 192-194, 137-139 *)
  | PAttribute => VAttr None                        (* attribute.rs 82-84 *)
  | PController => VCtl (Modulation 0)              (* controller.rs 150-152, 161-166 *)
  | PProgramBank => VOptNum None                    (* program_change.rs 72-74 *)
  | POptChannel => VOptNum None                     (* flex_data.rs 1033-1035 *)
  | PTonic _ => VTonic TC                           (* tonic.rs 78-83 *)
  | PKeySF => VKeySF (Sharps 0)                     (* set_key_signature.rs 41-46 *)
  | PChordSF _ => VChordSF Natural                  (* set_chord_name.rs 149-154 *)
  | PChordType _ => VChordType ClearChord           (* set_chord_name.rs 316-321 *)
  | PAlteration _ => VAlt None                      (* set_chord_name.rs 364-366 *)
  | PUiHint => VUiHint Undeclared                   (* function_block_info.rs 96-101 *)
  | PPort => VPort None                             (* function_block_info.rs 161-163 *)
  | PDirection => VDir Bidirectional                (* function_block_info.rs 231-236 *)
  | _ => VUnit
  end.
