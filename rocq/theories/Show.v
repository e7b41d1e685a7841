(** [Debug] and equality of messages and packets.

    Debug output is a string; the derived [Debug] of a one-field enum variant is
    the variant's name and the field in parentheses.  The alternate form [{:#?}]
    of the enums, which adds line breaks, is in Pretty.v. *)
From Coq Require Import NArith List String Ascii Bool Arith.
From Verif Require Import Base Values Props Message MessageTable Text Aggregate SpecAggregate Packet.
Import ListNotations.
Local Open Scope string_scope.
Local Open Scope nat_scope.

(** core::fmt of [{:#04X}] and [{:#010X}]: ["0x"], then the number in upper-case
    hexadecimal, with leading zeros up to the width *)
Definition hex_digit (d : N) : ascii := ascii_of_N (if (d <? 10)%N then 48 + d else 55 + d)%N.
Fixpoint hex_loop (fuel : nat) (v : N) (acc : string) : string :=
  match fuel with
  | O => acc
  | S n =>
    let acc' := String (hex_digit (v mod 16)) acc in
    if (v <? 16)%N then acc' else hex_loop n (v / 16)%N acc'
  end.
Definition hex (v : N) : string := hex_loop (S (N.to_nat (N.log2 v))) v "".
Fixpoint zeros (n : nat) : string := match n with O => "" | S k => String "0" (zeros k) end.
Definition hex_padded (width : nat) (v : N) : string :=
  "0x" ++ zeros (width - 2 - String.length (hex v)) ++ hex v.
Definition show_unit (u : unit_id) (v : N) : string :=
  match u with U8 => hex_padded 4 v | U32 => hex_padded 10 v end.

(** midi2_proc/src/derives.rs 433-461: the loop over the buffer *)
Fixpoint show_units (u : unit_id) (b : list N) : string :=
  match b with
  | [] => ""
  | [v] => show_unit u v
  | v :: t => show_unit u v ++ ", " ++ show_units u t
  end.

(** derives.rs 405-469: [Debug] of a message or packet type called [name].
    [buffer_access] gives the whole buffer. *)
Definition show_struct (u : unit_id) (name : string) (b : list N) : string :=
  name ++ "([" ++ show_units u b ++ "])".

(** The type's own name: what follows the module's name. *)
Fixpoint after_colons (s : string) : string :=
  match s with
  | "" => ""
  | String ":" (String ":" t) => t
  | String _ t => after_colons t
  end.
Definition struct_name (c : concrete) : string := after_colons (type_name c).

(** The variants of [UmpMessage] and [BytesMessage] (message.rs 14-30, 92-98); the
    family enums' variants are called like the types they wrap. *)
Definition variant_name (f : family) : string :=
  match f with
  | Utility => "Utility" | SystemCommon => "SystemCommon" | ChannelVoice1 => "ChannelVoice1" | Sysex7 => "Sysex7"
  | ChannelVoice2 => "ChannelVoice2" | Sysex8 => "Sysex8" | FlexData => "FlexData" | UmpStream => "UmpStream"
  end.
Definition in_variant (name inner : string) : string := name ++ "(" ++ inner ++ ")".

(** derived [Debug] of [UmpMessage] and [BytesMessage]: the system exclusive types
    are wrapped directly, the others in their family's enum *)
Definition show_message (u : unit_id) (f : family) (a : aggregate) : string :=
  let inner := show_struct u (struct_name (fst a)) (snd a) in
  in_variant (variant_name f)
    (match f with Sysex7 | Sysex8 => inner | _ => in_variant (struct_name (fst a)) inner end).

(** derived [Debug] of [Packet] (midi2/src/packet.rs 5): a variant around the family's
    [Packet] *)
Definition kind_name (k : kind) : string :=
  match k with
  | PUtility => "Utility" | PSystem => "SystemCommon" | PVoice1 => "ChannelVoice1" | PSysex7 => "Sysex7"
  | PVoice2 => "ChannelVoice2" | PSysex8 => "Sysex8" | PFlex => "FlexData" | PStream => "UmpStream"
  end.
Definition show_packet (p : packet) : string :=
  in_variant (kind_name (fst p)) (show_struct U32 "Packet" (snd p)).

(** generate_message.rs 246-250, derived [PartialEq] of a message: the buffers are
    compared, whole.  Messages of different types have different Rust types. *)
Definition same_message (b b' : list N) : bool := if list_eq_dec N.eq_dec b b' then true else false.
