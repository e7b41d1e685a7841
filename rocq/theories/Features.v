(** The cargo features.  Model of the [#[cfg(feature = ...)]] attributes of
    midi2/src/message.rs 14-30, 43-73, 92-101, 116-130 and midi2/src/packet.rs
    7-24, 46-67: there is one feature per message family (midi2/Cargo.toml 31-43),
    and an arm of a parser is there if its feature is on.  [ci] turns [sysex7] on
    and adds no arm; [std] adds no arm. *)
From Coq Require Import NArith List Bool Arith String.
From Verif Require Import Base BitOps Values Props Message MessageTable Sysex Text Aggregate SpecAggregate Packet.
Import ListNotations.
Local Open Scope string_scope.
Local Open Scope list_scope.
Local Open Scope nat_scope.

Definition features := family -> bool.

(** message.rs 33-75 *)
Definition ump_try_from_with (on : features) (b : list N) : outcome (res aggregate) :=
  match b with
  | [] => Val (Err "Ump message slice is empty")
  | _ =>
    x <- idx b 0 ;;
    let t := nibble32 x 0 in
    if on FlexData && (t =? 0xD)%N then flexdata_try_from b
    else if on ChannelVoice1 && (t =? 0x2)%N then cv1_try_from U32 b
    else if on ChannelVoice2 && (t =? 0x4)%N then cv2_try_from b
    else if on Sysex7 && (t =? 0x3)%N then wrap U32 CSysex7 b
    else if on Sysex8 && (t =? 0x5)%N then wrap U32 CSysex8 b
    else if on SystemCommon && (t =? 0x1)%N then sys_try_from U32 b
    else if on UmpStream && (t =? 0xF)%N then umpstream_try_from b
    else if on Utility && (t =? 0x0)%N then util_try_from b
    else Val (Err "Couldn't interpret ump message type")
  end.

(** message.rs 103-130 *)
Definition bytes_try_from_with (on : features) (b : list N) : outcome (res aggregate) :=
  match b with
  | [] => Val (Err "Bytes slice is empty")
  | _ =>
    x <- idx b 0 ;;
    if on ChannelVoice1 && ((0x80 <=? x) && (x <=? 0xEF))%N then cv1_try_from U8 b
    else if on Sysex7 && (x =? 0xF0)%N then wrap U8 CSysex7 b
    else if on SystemCommon && ((0xF1 <=? x) && (x <=? 0xF6) || (0xF8 <=? x) && (x <=? 0xFF))%N then sys_try_from U8 b
    else Val (Err "Couldn't interpret bytes message type")
  end.

(** midi2/src/packet.rs 26-73 *)
Definition packet_try_from_with (on : features) (data : list N) : outcome (res packet) :=
  match data with
  | [] => Val (Err "Slice is too short")
  | _ =>
    x <- idx data 0 ;;
    let t := nibble32 x 0 in
    if on ChannelVoice1 && (t =? kind_type PVoice1)%N then kind_try_from PVoice1 data
    else if on ChannelVoice2 && (t =? kind_type PVoice2)%N then kind_try_from PVoice2 data
    else if on FlexData && (t =? kind_type PFlex)%N then kind_try_from PFlex data
    else if on Sysex7 && (t =? kind_type PSysex7)%N then kind_try_from PSysex7 data
    else if on Sysex8 && (t =? kind_type PSysex8)%N then kind_try_from PSysex8 data
    else if on SystemCommon && (t =? kind_type PSystem)%N then kind_try_from PSystem data
    else if on UmpStream && (t =? kind_type PStream)%N then kind_try_from PStream data
    else if on Utility && (t =? kind_type PUtility)%N then kind_try_from PUtility data
    else Val (Err "Incorrect UMP message type")
  end.

(** packets.rs 10-17 and [packets().collect()], as in Packet.v *)
Definition packet_of_with (on : features) (c : option (list N)) : outcome (option packet) :=
  match c with
  | None => Val None
  | Some data => p <- unwrapped (packet_try_from_with on data) ;; Val (Some p)
  end.
Fixpoint collect_packets_with (on : features) (fuel : nat) (it : packets_iter) : outcome (list packet) :=
  match fuel with
  | O => Val []
  | S n =>
    r <- packet_of_with on (hd_error it) ;;
    match r with
    | None => Val []
    | Some p => ps <- collect_packets_with on n (tl it) ;; Val (p :: ps)
    end
  end.
Definition all_packets_with (on : features) (a : aggregate) : outcome (list packet) :=
  it <- agg_packets a ;; collect_packets_with on (S (List.length it)) it.
