(** SPECIFICATION: which reading calls a type has, and which slices are made of
    whole packets. *)
From Coq Require Import NArith List Bool Arith String.
From Verif Require Import Base Values Props Message MessageTable SpecFixed SpecSysex Text Aggregate SpecAggregate Packet SpecPacket Reader.
Import ListNotations.
Local Open Scope string_scope.
Local Open Scope list_scope.

(** The type [c] has the method. *)
Definition offers (u : unit_id) (c : concrete) (q : question) : Prop :=
  match q with
  | AskData => True
  | AskPackets => u = U32
  | AskPacketPayloads => u = U32 /\ In c [CSysex7; CSysex8]
  | AskGroup => u = U32 /\ In c (flat_map types_of [SystemCommon; ChannelVoice1; ChannelVoice2; FlexData; Sysex7; Sysex8])
  | AskChannel => In c (types_of ChannelVoice1 ++ types_of ChannelVoice2)
  | AskBank | AskStatus => u = U32 /\ In c (types_of FlexData)
  | AskField f => exists m t, c = CFixed m /\ field_type m f = Some t /\ t <> TyUnit
  | AskPayload | AskPayloadSize => In c [CSysex7; CSysex8]
  | AskStreamId => c = CSysex8
  | AskText | AskTextBytes => (exists k, c = CFlexText k) \/ (exists k, c = CStreamText k)
  | AskTextChannel => exists k, c = CFlexText k
  | AskBlock => exists k, c = CStreamText k /\ sk_off k = 1
  end.

(** The slice is made of whole packets of the message's family.  Only the types of
    variable size read more than their first packet. *)
Definition whole_packets (c : concrete) (b : list N) : Prop :=
  match c with
  | CFixed _ => True
  | CSysex7 => List.length b mod 2 = 0
  | CSysex8 | CFlexText _ | CStreamText _ => List.length b mod 4 = 0
  end.

(** The data bytes that [b] is asked for are there: a song position pointer has
    three bytes, and a system exclusive message has no byte with its top bit set
    before the 0xF7 that ends it. *)
Definition data_bytes (c : concrete) (b : list N) : Prop :=
  match c with
  | CFixed m => m_name m = "system_common::SongPositionPointer" -> 3 <= List.length b
  | CSysex7 => exists l r, Forall (fun x => (x < 0x80)%N) l /\ b = ([0xF0] ++ l ++ [0xF7] ++ r)%N
  | _ => True
  end.
