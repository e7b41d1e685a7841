(** Every reading call on a parsed message, as one function: what a receiver can
    ask of the value [UmpMessage::try_from] or [BytesMessage::try_from] gave it,
    after matching on its variants.  The calls themselves are modelled elsewhere;
    a call the type does not have is a panic here, as in Aggregate.v, and does not
    compile in Rust. *)
From Coq Require Import NArith List Bool Arith String.
From Verif Require Import Base Values Props Message MessageTable Sysex SpecSysex Text Aggregate Packet SpecPacket.
Import ListNotations.
Local Open Scope list_scope.

Inductive question :=
| AskData            (* [data()] *)
| AskPackets         (* [packets().collect()] *)
| AskPacketPayloads  (* the payloads of the packets *)
| AskGroup           (* [group()] *)
| AskChannel         (* [channel()] of the channel voice families *)
| AskBank            (* [bank()] of [FlexData] *)
| AskStatus          (* [status()] of [FlexData] *)
| AskField (f : string)
| AskPayload         (* [payload().collect()] *)
| AskPayloadSize     (* [payload_size()] *)
| AskStreamId        (* [stream_id()] *)
| AskText            (* [text()], [metadata()], [name()], [id()] *)
| AskTextBytes       (* the bytes of the text *)
| AskTextChannel     (* [optional_channel()] *)
| AskBlock.          (* [function_block()] *)

Inductive answer :=
| Units (l : list N)
| Split (l : list packet)
| Num (n : N)
| OptNum (n : option N)
| Count (n : nat)
| Value (v : value).

Definition say {A} (k : A -> answer) (x : outcome A) : outcome answer := a <- x ;; Val (k a).

(** detail/common_properties.rs and generate_message.rs 619-628 (fields); derives.rs
    7-32, 329-403 ([data], [group], [channel]); packets.rs 8-35; flex_data.rs
    896-918 ([bank], [status]); sysex7.rs, sysex8.rs ([payload], [payload_size],
    [stream_id]); flex_data/*.rs and ump_stream/*.rs (texts). *)
Definition ask (u : unit_id) (q : question) (a : aggregate) : outcome answer :=
  let b := snd a in
  match q, fst a with
  | AskData, _ => say Units (agg_data u a)
  | AskPackets, _ => match u with U32 => say Split (all_packets a) | U8 => Panic end
  | AskPacketPayloads, CSysex7 =>
      match u with U32 => ps <- all_packets a ;; say Units (all_collected SevenBit ps) | U8 => Panic end
  | AskPacketPayloads, CSysex8 => ps <- all_packets a ;; say Units (all_collected EightBit ps)
  | AskGroup, _ => match u with U32 => say Num (agg_group a) | U8 => Panic end
  | AskChannel, _ => say Num (agg_channel u a)
  | AskBank, _ => say Num (agg_bank a)
  | AskStatus, _ => say Num (agg_status a)
  | AskField f, CFixed m => say Value (get u m b f)
  | AskPayload, CSysex7 => say Units (match u with U32 => payload_list fmt7 b | U8 => payload_list_b b end)
  | AskPayload, CSysex8 => say Units (payload_list fmt8 b)
  | AskPayloadSize, CSysex7 => say Count (match u with U32 => payload_size fmt7 b | U8 => payload_size_b b end)
  | AskPayloadSize, CSysex8 => say Count (payload_size fmt8 b)
  | AskStreamId, CSysex8 => say Num (stream_id b)
  | AskText, CFlexText _ => say Units (flex_text b)
  | AskText, CStreamText k => say Units (stream_text k b)
  | AskTextBytes, CFlexText _ => say Units (flex_text_bytes b)
  | AskTextBytes, CStreamText k => say Units (stream_text_bytes k b)
  | AskTextChannel, CFlexText _ => say OptNum (flex_channel b)
  | AskBlock, CStreamText _ => say Num (block_read b)
  | _, _ => Panic
  end.
