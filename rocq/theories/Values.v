(** The value types of message fields and the tables that code the enumerated
    ones. *)
From Coq Require Import NArith List String Bool Arith.
From Verif Require Import Base BitOps.
Import ListNotations.
Local Open Scope string_scope.
Local Open Scope N_scope.

(** midi2/src/channel_voice2/attribute.rs 3-9.  [Fixed7_9] is represented by
    its 16 bits ([from_bits]/[to_bits] of the external [fixed] crate). *)
Inductive attribute :=
| ManufacturerSpecific (d : N)
| ProfileSpecific (d : N)
| Pitch7_9 (bits : N).

(** midi2/src/channel_voice2/controller.rs 6-30.  [Fixed7_25] is represented by
    its 32 bits. *)
Inductive controller :=
| Modulation (d : N) | Breath (d : N) | Pitch7_25 (bits : N) | Volume (d : N)
| Balance (d : N) | Pan (d : N) | Expression (d : N) | SoundVariation (d : N)
| Timbre (d : N) | ReleaseTime (d : N) | AttackTime (d : N) | Brightness (d : N)
| DecayTime (d : N) | VebratoRate (d : N) | VebratoDepth (d : N)
| VebratoDelay (d : N) | Undefined (d : N) | ReverbSendLevel (d : N)
| ChorusSendLevel (d : N) | SoundController (index d : N) | EffectDepth (index d : N).

(** midi2/src/flex_data/tonic.rs 6-16 *)
Inductive tonic := TA | TB | TC | TD | TE | TF | TG | TNonStandard.

(** midi2/src/flex_data/set_key_signature.rs 34-39 *)
Inductive key_sharps_flats := Flats (n : N) | Sharps (n : N) | KNonStandard.

(** midi2/src/flex_data/set_chord_name.rs 54-61 *)
Inductive chord_sharps_flats := DoubleSharp | Sharp | Natural | Flat | DoubleFlat.

(** midi2/src/flex_data/set_chord_name.rs 156-185 *)
Inductive chord_type :=
| ClearChord | Major | Major6th | Major7th | Major9th | Major11th | Major13th
| Minor | Minor6th | Minor7th | Minor9th | Minor11th | Minor13th
| Dominant | Dominant9th | Dominant11th | Dominant13th
| Augmented | Augmented7th | Diminished | Diminished7th | HalfDiminished
| MajorMinor | Pedal | Power | Suspended2nd | Suspended4th.

(** midi2/src/flex_data/set_chord_name.rs 323-329 *)
Inductive alteration := Add (d : N) | Subtract (d : N) | Raise (d : N) | Lower (d : N).

(** midi2/src/ump_stream/function_block_info.rs 38-44, 103-107, 166-171 *)
Inductive ui_hint := Undeclared | Sender | Receiver | SenderReciever.
Inductive midi1_port := RestrictBandwidth | DontRestrictBandwidth.
Inductive direction := Input | Output | Bidirectional.

(** A field value, tagged with its Rust type: what the getters of generate_message.rs 145-162
    return. *)
Inductive value :=
| VUnit
| VBool (b : bool)
| VNum (n : N)                    (* u4 u7 u8 u14 u16 u20 u32 *)
| VNums (l : list N)              (* [u7; 3], [u7; 4] *)
| VOptNum (o : option N)          (* Option<u4>, Option<u14> *)
| VAttr (o : option attribute)
| VCtl (c : controller)
| VTonic (t : tonic)
| VKeySF (s : key_sharps_flats)
| VChordSF (s : chord_sharps_flats)
| VChordType (t : chord_type)
| VAlt (o : option alteration)
| VUiHint (h : ui_hint)
| VPort (o : option midi1_port)
| VDir (d : direction).

(** Rust types of fields: [Property::Type], detail/property.rs 1-3. *)
Inductive ty :=
| TyUnit | TyBool | TyU (bits : N) | TyU7s (k : nat) | TyOptU (bits : N)
| TyAttr | TyCtl | TyTonic | TyKeySF | TyChordSF | TyChordType | TyAlt
| TyUiHint | TyPort | TyDir.

(** attribute.rs 3-9: 16 bits each *)
Definition attribute_fits (a : attribute) : bool :=
  match a with ManufacturerSpecific d | ProfileSpecific d | Pitch7_9 d => fits 16 d end.

(** controller.rs 6-30: 32 bits each, the index is a [u8] *)
Definition controller_fits (c : controller) : bool :=
  match c with
  | SoundController i d | EffectDepth i d => fits 8 i && fits 32 d
  | Modulation d | Breath d | Pitch7_25 d | Volume d | Balance d | Pan d | Expression d
  | SoundVariation d | Timbre d | ReleaseTime d | AttackTime d | Brightness d
  | DecayTime d | VebratoRate d | VebratoDepth d | VebratoDelay d | Undefined d
  | ReverbSendLevel d | ChorusSendLevel d => fits 32 d
  end.

(** The values of a Rust type: what the compiler guarantees about an argument. *)
Definition has_type (t : ty) (v : value) : bool :=
  match t, v with
  | TyUnit, VUnit => true
  | TyBool, VBool _ => true
  | TyU w, VNum n => fits w n
  | TyU7s k, VNums l => (List.length l =? k)%nat && forallb (fits 7) l
  | TyOptU w, VOptNum o => match o with None => true | Some n => fits w n end
  | TyAttr, VAttr o => match o with None => true | Some a => attribute_fits a end
  | TyCtl, VCtl c => controller_fits c
  | TyTonic, VTonic _ => true
  | TyKeySF, VKeySF s =>
      match s with Flats n | Sharps n => fits 3 n | KNonStandard => true end
  | TyChordSF, VChordSF _ => true
  | TyChordType, VChordType _ => true
  | TyAlt, VAlt o =>
      match o with
      | None => true
      | Some (Add d | Subtract d | Raise d | Lower d) => fits 4 d
      end
  | TyUiHint, VUiHint _ => true
  | TyPort, VPort _ => true
  | TyDir, VDir _ => true
  | _, _ => false
  end.

(** *** Code tables *)

(** attribute.rs 13-21: [validate_ump] on the type octet *)
Definition attribute_type_ok (t : N) : bool := t <=? 3.

(** attribute.rs 23-33: [from_ump] on the type octet and the data word *)
Definition attribute_from (t d : N) : outcome (option attribute) :=
  match t with
  | 0 => Val None
  | 1 => Val (Some (ManufacturerSpecific d))
  | 2 => Val (Some (ProfileSpecific d))
  | 3 => Val (Some (Pitch7_9 d))
  | _ => Panic
  end.

(** controller.rs 32-58: [validate_index] *)
Definition controller_index_ok (i : N) : bool :=
  match i with
  | 1 | 2 | 3 | 7 | 8 | 10 | 11
  | 70 | 71 | 72 | 73 | 74 | 75 | 76 | 77 | 78 | 79
  | 91 | 92 | 93 | 94 | 95 => true
  | _ => false
  end.

(** controller.rs 60-86: [from_index_and_data] *)
Definition controller_from (i d : N) : outcome controller :=
  match i with
  | 1 => Val (Modulation d)
  | 2 => Val (Breath d)
  | 3 => Val (Pitch7_25 d)
  | 7 => Val (Volume d)
  | 8 => Val (Balance d)
  | 10 => Val (Pan d)
  | 11 => Val (Expression d)
  | 70 => Val (SoundController 1 d)
  | 71 => Val (SoundController 2 d)
  | 72 => Val (SoundController 3 d)
  | 73 => Val (SoundController 4 d)
  | 74 => Val (SoundController 5 d)
  | 75 => Val (SoundController 6 d)
  | 76 => Val (SoundController 7 d)
  | 77 => Val (SoundController 8 d)
  | 78 => Val (SoundController 9 d)
  | 79 => Val (SoundController 10 d)
  | 91 => Val (EffectDepth 1 d)
  | 92 => Val (EffectDepth 2 d)
  | 93 => Val (EffectDepth 3 d)
  | 94 => Val (EffectDepth 4 d)
  | 95 => Val (EffectDepth 5 d)
  | _ => Panic
  end.

(** controller.rs 88-125: [to_index_and_data] *)
Definition controller_to (c : controller) : outcome (N * N) :=
  match c with
  | Modulation d => Val (1, d)
  | Breath d => Val (2, d)
  | Pitch7_25 d => Val (3, d)
  | Volume d => Val (7, d)
  | Balance d => Val (8, d)
  | Pan d => Val (10, d)
  | Expression d => Val (11, d)
  | SoundController 1 d => Val (70, d)
  | SoundVariation d => Val (70, d)
  | SoundController 2 d => Val (71, d)
  | Timbre d => Val (71, d)
  | SoundController 3 d => Val (72, d)
  | ReleaseTime d => Val (72, d)
  | SoundController 4 d => Val (73, d)
  | AttackTime d => Val (73, d)
  | SoundController 5 d => Val (74, d)
  | Brightness d => Val (74, d)
  | SoundController 6 d => Val (75, d)
  | DecayTime d => Val (75, d)
  | SoundController 7 d => Val (76, d)
  | VebratoRate d => Val (76, d)
  | SoundController 8 d => Val (77, d)
  | VebratoDepth d => Val (77, d)
  | SoundController 9 d => Val (78, d)
  | VebratoDelay d => Val (78, d)
  | SoundController 10 d => Val (79, d)
  | Undefined d => Val (79, d)
  | EffectDepth 1 d => Val (91, d)
  | ReverbSendLevel d => Val (91, d)
  | EffectDepth 2 d => Val (92, d)
  | EffectDepth 3 d => Val (93, d)
  | ChorusSendLevel d => Val (91, d)
  | EffectDepth 4 d => Val (94, d)
  | _ => Panic
  end.

(** tonic.rs 86-99: [Tonic::from_nibble] *)
Definition tonic_from (n : N) : res tonic :=
  match n with
  | 0 => Ok TNonStandard
  | 1 => Ok TA | 2 => Ok TB | 3 => Ok TC | 4 => Ok TD
  | 5 => Ok TE | 6 => Ok TF | 7 => Ok TG
  | _ => Err "Couldn't interpret Tonic field"
  end.
(** tonic.rs 101-113: [Tonic::into_nibble] *)
Definition tonic_into (t : tonic) : N :=
  match t with
  | TA => 1 | TB => 2 | TC => 3 | TD => 4 | TE => 5 | TF => 6 | TG => 7
  | TNonStandard => 0
  end.

(** set_key_signature.rs 57-65: the match in [read]; [u3::new] panics above 7 *)
Definition u3_new (v : N) : outcome N := if v <? 8 then Val v else Panic.
Definition u4_new (v : N) : outcome N := if v <? 16 then Val v else Panic.
Definition key_sf_from (v : N) : outcome key_sharps_flats :=
  if v <=? 7 then n <- u3_new v ;; Val (Sharps n)
  else if (9 <=? v) && (v <=? 15)
       then n <- u3_new (N.land (N.lxor (v - 1) 0xFF) 7) ;; Val (Flats n)
  else if v =? 8 then Val KNonStandard
  else Panic.
(** set_key_signature.rs 74-83: the match in [write]; [u4::new] panics above 15 *)
Definition key_sf_into (s : key_sharps_flats) : outcome N :=
  match s with
  | Sharps v => Val v
  | Flats v => u4_new (N.land (N.lxor v 0xFF) 0xF + 1)
  | KNonStandard => u4_new 8
  end.

(** set_chord_name.rs 124-136 / 137-146 *)
Definition chord_sf_from (n : N) : res chord_sharps_flats :=
  match n with
  | 2 => Ok DoubleSharp | 1 => Ok Sharp | 0 => Ok Natural
  | 0xF => Ok Flat | 0xE => Ok DoubleFlat
  | _ => Err "Couldn't interpret Sharps / Flats field"
  end.
Definition chord_sf_into (s : chord_sharps_flats) : N :=
  match s with
  | DoubleSharp => 2 | Sharp => 1 | Natural => 0 | Flat => 0xF | DoubleFlat => 0xE
  end.

(** set_chord_name.rs 248-280 *)
Definition chord_type_from (o : N) : res chord_type :=
  match o with
  | 0x00 => Ok ClearChord | 0x01 => Ok Major | 0x02 => Ok Major6th
  | 0x03 => Ok Major7th | 0x04 => Ok Major9th | 0x05 => Ok Major11th
  | 0x06 => Ok Major13th | 0x07 => Ok Minor | 0x08 => Ok Minor6th
  | 0x09 => Ok Minor7th | 0x0A => Ok Minor9th | 0x0B => Ok Minor11th
  | 0x0C => Ok Minor13th | 0x0D => Ok Dominant | 0x0E => Ok Dominant9th
  | 0x0F => Ok Dominant11th | 0x10 => Ok Dominant13th | 0x11 => Ok Augmented
  | 0x12 => Ok Augmented7th | 0x13 => Ok Diminished | 0x14 => Ok Diminished7th
  | 0x15 => Ok HalfDiminished | 0x16 => Ok MajorMinor | 0x17 => Ok Pedal
  | 0x18 => Ok Power | 0x19 => Ok Suspended2nd | 0x1A => Ok Suspended4th
  | _ => Err "Couldn't interpret Chord field"
  end.
(** set_chord_name.rs 282-313 *)
Definition chord_type_into (c : chord_type) : N :=
  match c with
  | ClearChord => 0x00 | Major => 0x01 | Major6th => 0x02 | Major7th => 0x03
  | Major9th => 0x04 | Major11th => 0x05 | Major13th => 0x06 | Minor => 0x07
  | Minor6th => 0x08 | Minor7th => 0x09 | Minor9th => 0x0A | Minor11th => 0x0B
  | Minor13th => 0x0C | Dominant => 0x0D | Dominant9th => 0x0E
  | Dominant11th => 0x0F | Dominant13th => 0x10 | Augmented => 0x11
  | Augmented7th => 0x12 | Diminished => 0x13 | Diminished7th => 0x14
  | HalfDiminished => 0x15 | MajorMinor => 0x16 | Pedal => 0x17
  | Power => 0x18 | Suspended2nd => 0x19 | Suspended4th => 0x1A
  end.

(** set_chord_name.rs 378-390 *)
Definition alteration_from (octet : N) : res (option alteration) :=
  match nibble8 octet 0 with
  | 0 => Ok None
  | 1 => Ok (Some (Add (nibble8 octet 1)))
  | 2 => Ok (Some (Subtract (nibble8 octet 1)))
  | 3 => Ok (Some (Raise (nibble8 octet 1)))
  | 4 => Ok (Some (Lower (nibble8 octet 1)))
  | _ => Err "Couldn't interpret alteration field"
  end.
(** set_chord_name.rs 392-401 *)
Definition alteration_into (a : option alteration) : N :=
  match a with
  | None => 0
  | Some (Add d) => N.lor 0x10 d
  | Some (Subtract d) => N.lor 0x20 d
  | Some (Raise d) => N.lor 0x30 d
  | Some (Lower d) => N.lor 0x40 d
  end.

(** function_block_info.rs 57-63 / 83-88 *)
Definition ui_hint_from (c : N) : outcome ui_hint :=
  match c with
  | 0 => Val Undeclared | 1 => Val Receiver | 2 => Val Sender | 3 => Val SenderReciever
  | _ => Panic
  end.
Definition ui_hint_into (h : ui_hint) : N :=
  match h with Undeclared => 0 | Receiver => 1 | Sender => 2 | SenderReciever => 3 end.

(** function_block_info.rs 120-125, 130-137, 154-158 *)
Definition port_from (c : N) : outcome (option midi1_port) :=
  match c with
  | 0 => Val None | 1 => Val (Some DontRestrictBandwidth) | 2 => Val (Some RestrictBandwidth)
  | _ => Panic
  end.
Definition port_ok (c : N) : bool :=
  match c with 0 | 1 | 2 => true | _ => false end.
Definition port_into (p : option midi1_port) : N :=
  match p with None => 0 | Some DontRestrictBandwidth => 1 | Some RestrictBandwidth => 2 end.

(** function_block_info.rs 184-189, 194-202, 219-223 *)
Definition direction_from (c : N) : outcome direction :=
  match c with
  | 1 => Val Input | 2 => Val Output | 3 => Val Bidirectional
  | _ => Panic
  end.
Definition direction_ok (c : N) : outcome bool :=
  match c with
  | 0 => Val false | 1 => Val true | 2 => Val true | 3 => Val true
  | _ => Panic
  end.
Definition direction_into (d : direction) : N :=
  match d with Input => 1 | Output => 2 | Bidirectional => 3 end.
