(** SPECIFICATION.  What is wrong with a slice that is refused: for every parser the list
    of its complaints, in order, each with the defect of the slice that it stands for.
    The vocabulary of C63.  The texts are those of the source; the defects are stated in
    terms of the bits of the slice (SpecLayout.v), not of the model's functions. *)
From Coq Require Import NArith List String Bool Arith.
From Verif Require Import Base Values Props Message MessageTable SpecLayout SpecFixed SpecSysex Text SpecText Aggregate SpecAggregate SpecPacket.
Import ListNotations.
Local Open Scope string_scope.
Local Open Scope nat_scope.
Local Open Scope list_scope.

(** A complaint and what it says about the slice. *)
Definition complaint := (string * Prop)%type.

(** [e] is the complaint about the first defect that is there. *)
Definition reports (l : list complaint) (e : string) : Prop :=
  exists pre P post, l = pre ++ (e, P) :: post /\ P /\ Forall (fun c => ~ snd c) pre.
Definition faultless (l : list complaint) : Prop := Forall (fun c => ~ snd c) l.

(** The parser does not panic, accepts what has none of the defects, and refuses the rest with
    the complaint about the first one. *)
Definition verdict {A} (o : outcome (res A)) (l : list complaint) : Prop :=
  o <> Panic
  /\ ((exists a, o = Val (Ok a)) <-> faultless l)
  /\ (forall e, o = Val (Err e) <-> reports l e).

(** ** Messages of several packets of [stride] words and UMP type [t] *)

(** Framing: packets, until the first one of another type, are marked Complete, or Start, Continue ..., End.
    [mark i] is the mark of packet number [i]. *)
Definition framing (stride : nat) (t : N) (mark : nat -> N) (b : list N) : list complaint :=
  [ ("The message buffer is empty", leading stride t b 0);
    ("Expected Complete packet", leading stride t b 1 /\ mark 0 <> 0%N);
    ("Expected Begin packet", exists k, leading stride t b k /\ 1 < k /\ mark 0 <> 1%N);
    ("Expected Continue packet", exists k i, leading stride t b k /\ 0 < i < k - 1 /\ mark i <> 2%N);
    ("Expected End packet", exists k, leading stride t b k /\ 1 < k /\ mark (k - 1) <> 3%N) ].

(** Some whole packet, among those before the first one of another type, differs from the first in a field. *)
Definition disagreement (stride : nat) (t : N) (field : nat -> N) (b : list N) : Prop :=
  exists i, i < List.length b / stride
    /\ (forall j, j <= i -> bits b (Seg (stride * j) 28 4) = t)
    /\ field i <> field 0.

(** ** Fixed-size messages *)

(** What is said about a field that has no meaning; [None] when all bits have one. *)
Definition complaint_about (name f : string) (w : SpecLayout.wire) : option string :=
  match w with
  | Fixed _ _ =>
      if String.eqb f "ump_type" then Some "Incorrect ump message type"
      else if String.eqb f "status" then
        Some (if String.prefix "system_common::" name then "Incorrect status field" else "Incorrect message status")
      else if String.eqb f "bank" then Some "Incorrect message bank"
      else Some "Incorrect message format"
  | GroupAddress _ _ => Some "Address field should be non zero."
  | Attribute _ _ => Some "Couldn't interpret note attribute"
  | Controller _ _ => Some "Couldn't interpret controller index"
  | Code _ KTonic => Some "Couldn't interpret Tonic field"
  | Code _ KChordSF => Some "Couldn't interpret Sharps / Flats field"
  | Code _ KChordType => Some "Couldn't interpret Chord field"
  | Code _ KAlteration => Some "Couldn't interpret alteration field"
  | Code _ KPort => Some "Couldn't interpret midi1 port field"
  | Code _ KDirection => Some "Couldn't interpret direction field"
  | _ => None
  end.

(** Banks and statuses of flex data and UMP stream messages are looked at in all whole packets of the slice. *)
Definition scanned (name f : string) : bool :=
  (String.prefix "flex_data::" name || String.prefix "ump_stream::" name)
  && (String.eqb f "status" || String.eqb f "bank").

Definition field_defects (name f : string) (w : SpecLayout.wire) (b : list N) : list complaint :=
  if String.eqb f "consistent_formats" then framing 4 0xF (fun i => bits b (Seg (4 * i) 26 2)) b
  else match complaint_about name f w with
       | None => []
       | Some e => [(e, if scanned name f then exists i, i < List.length b / 4 /\ decode w (skipn (4 * i) b) = None
                        else decode w b = None)]
       end.

Definition fixed_defects (u : unit_id) (name : string) (b : list N) : list complaint :=
  ("Slice is too short", List.length b < demanded u name)
  :: flat_map (fun fw => field_defects name (fst fw) (snd fw) b) (layout u name).

(** ** System exclusive messages *)

Definition sysex_defects (fm : form) (b : list N) : list complaint :=
  let n := packet_words fm in
  ("Slice is too short", List.length b < n)
  :: ("Incorrect ump message type", bits b (Seg 0 28 4) <> type_code fm)
  :: framing n (type_code fm) (fun i => bits b (Seg (n * i) 20 4)) b
  ++ (match fm with
      | SevenBit => ("Size field can not exceed 6", exists i, i < List.length b / n /\ (6 < bits b (Seg (n * i) 16 4))%N)
      | EightBit => ("Invalid number of payload bytes in packet",
                     exists i, i < List.length b / n /\ ~ (1 <= bits b (Seg (n * i) 16 4) <= 14)%N)
      end)
  :: ("Inconsistent groups across packets", disagreement n (type_code fm) (fun i => bits b (Seg (n * i) 24 4)) b)
  :: (match fm with
      | SevenBit => []
      | EightBit => [("Inconsistent stream id fields across packets",
                      disagreement n (type_code fm) (fun i => bits b (Seg (n * i) 8 8)) b)]
      end).

(** The byte stream form. *)
Definition byte_sysex_defects (b : list N) : list complaint :=
  [ ("Slice is too short", List.length b < 2);
    ("Sysex messages should begin 0xF0", nth 0 b 0%N <> 0xF0%N);
    ("Sysex messages should end 0xF7", ~ In 0xF7%N b) ].

(** ** Texts *)

Definition flex_text_defects (K : flex_kind) (b : list N) : list complaint :=
  [ ("Slice is too short", List.length b < 4);
    ("Incorrect ump message type", bits b (Seg 0 28 4) <> 0xD%N);
    ("Inconsistent groups across packets", disagreement 4 0xD (fun i => bits b (Seg (4 * i) 24 4)) b);
    ("Incorrect message bank", exists i, i < List.length b / 4 /\ bits b (Seg (4 * i) 8 8) <> fk_bank K);
    ("Incorrect message status", exists i, i < List.length b / 4 /\ bits b (Seg (4 * i) 0 8) <> fk_status K) ]
  ++ framing 4 0xD (fun i => bits b (Seg (4 * i) 22 2)) b
  ++ [ ("Payload bytes do not represent a valid utf string", ~ is_string (flex_reading b)) ].

Definition stream_text_defects (K : stream_kind) (b : list N) : list complaint :=
  [ ("Slice is too short", List.length b < 4);
    ("Incorrect ump message type", bits b (Seg 0 28 4) <> 0xF%N);
    ("Incorrect message status", exists i, i < List.length b / 4 /\ bits b (Seg (4 * i) 16 10) <> sk_status K) ]
  ++ framing 4 0xF (fun i => bits b (Seg (4 * i) 26 2)) b
  ++ [ ("Inconsistent function block fields",
        sk_off K = 1 /\ exists i, i < List.length b / 4 /\ bits b (Seg (4 * i) 8 8) <> bits b (Seg 0 8 8));
       ("Payload bytes do not represent a valid utf string", ~ is_string (stream_reading (sk_off K) b)) ].

(** ** All message types, and the enums of them *)

Definition type_defects (u : unit_id) (c : concrete) (b : list N) : list complaint :=
  match c with
  | CFixed m => fixed_defects u (m_name m) b
  | CSysex7 => match u with U32 => sysex_defects SevenBit b | U8 => byte_sysex_defects b end
  | CSysex8 => sysex_defects EightBit b
  | CFlexText K => flex_text_defects K b
  | CStreamText K => stream_text_defects K b
  end.

(** The status under which the flex data enum looks for a text: three of them are wrong (C12_misrouted_refuted). *)
Definition looked_for (K : flex_kind) : N :=
  if ((fk_bank K =? 1) && (0xA <=? fk_status K))%N%bool then (fk_status K + 6)%N else fk_status K.

(** The slice claims to be a message of the type: its first word has the type's status (and bank). *)
Definition claims (c : concrete) (b : list N) : Prop :=
  match c with
  | CFixed m => forall f s v, In (f, Fixed s v) (layout U32 (m_name m)) -> f = "status" \/ f = "bank" -> bits b s = v
  | CSysex7 | CSysex8 => True
  | CFlexText K => bits b (Seg 0 8 8) = fk_bank K /\ bits b (Seg 0 0 8) = looked_for K
  | CStreamText K => bits b (Seg 0 16 10) = sk_status K
  end.

(** What is said when there is no such type; two families speak of another one. *)
Definition unknown (f : family) : string :=
  match f with
  | Utility => "Unknown utility message status"
  | SystemCommon => "Unknown midi1 channel voice status"
  | ChannelVoice1 => "Unknown midi1 channel voice status"
  | ChannelVoice2 => "Unknown midi2 channel voice status"
  | FlexData => "Couldn't interpret flex data status / bank fields"
  | UmpStream => "Couldn't interpret flex data status / bank fields"
  | Sysex7 | Sysex8 => ""
  end.

Definition family_defects (f : family) (b : list N) : list complaint :=
  (unknown f, forall c, In c (types_of f) -> ~ claims c b)
  :: flat_map (fun c => map (fun d => (fst d, claims c b /\ snd d)) (type_defects U32 c b)) (types_of f).

Definition ump_defects (b : list N) : list complaint :=
  ("Ump message slice is empty", b = [])
  :: ("Couldn't interpret ump message type", ump_family (bits b (Seg 0 28 4)) = None)
  :: match ump_family (bits b (Seg 0 28 4)) with Some f => family_defects f b | None => [] end.

Definition bytes_defects (b : list N) : list complaint :=
  let s := nth 0 b 0%N in
  ("Bytes slice is empty", b = [])
  :: ("Couldn't interpret bytes message type", (s < 0x80 \/ s = 0xF7)%N)
  :: ("Unknown midi1 channel voice status", midi1_type s = None)
  :: flat_map (fun c => map (fun d => (fst d, midi1_type s = Some (type_name c) /\ snd d)) (type_defects U8 c b)) byte_types.

(** ** Single packets, and MIDI-CI discovery inquiries of version 1 and 2 *)

Definition packet_defects (b : list N) : list complaint :=
  ("Slice is too short", b = [])
  :: ("Incorrect UMP message type", ump_family (bits b (Seg 0 28 4)) = None)
  :: match ump_family (bits b (Seg 0 28 4)) with
     | None => []
     | Some f =>
       ("Slice is too short", List.length b < words_asked f)
       :: match f with
          | Sysex7 => [("Size field can not exceed 6", (6 < bits b (Seg 0 16 4))%N);
                       ("Invalid SysEx7 status byte", (3 < bits b (Seg 0 20 4))%N)]
          | Sysex8 => [("Invalid SysEx8 status byte", (3 < bits b (Seg 0 20 4))%N)]
          | _ => []
          end
     end.

Definition discovery_defects (v : N) (b : list N) : list complaint :=
  let at' i := nth i b 0%N in
  [ ("Slice is too short", List.length b < (if (v =? 2)%N then 32 else 31));
    ("Incorrect CI version", at' 5 <> v);
    ("Sysex messages should begin 0xF0", at' 0 <> 0xF0%N);
    ("Sysex messages should end 0xF7", ~ In 0xF7%N b);
    ("Expected Universal Sysex Byte: 0x7E", at' 1 <> 0x7E%N);
    ("Expected DeviceID: To Function Block (0x7F)", at' 2 <> 0x7F%N);
    ("Expected Universal Sysex Sub Id #1: Midi CI (0x0D)", at' 3 <> 0x0D%N);
    ("Incorrect Universal Sysex Sub Id #2 field", at' 4 <> 0x70%N);
    ("Expected broadcast destination MUID", exists i, 10 <= i < 14 /\ (at' i mod 128 <> 127)%N) ].
