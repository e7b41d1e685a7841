(** SPECIFICATION.  Text messages on the wire, written from the UMP format,
    independently of the model's functions.  A packet is 16 bytes, words are
    sent most significant byte first.

    Flex data text: [0xD, group] [format (2 bits), address (2 bits: 0 channel,
    1 group), channel (4 bits)] [bank] [status], then 12 bytes of text.
    UMP stream text: [0xF, format (2 bits), status (10 bits)], for function
    block names one byte with the block number, then 14 (13) bytes of text.
    Unused text bytes are 0. *)
From Coq Require Import NArith List Arith.
From Verif Require Import SpecSysex SpecLayout SpecFixed.
Import ListNotations.
Local Open Scope nat_scope.

(** All bytes of a buffer of words. *)
Definition all_bytes (b : list N) : list N :=
  flat_map (fun x => [ x / 2 ^ 24 mod 256; x / 2 ^ 16 mod 256; x / 2 ^ 8 mod 256; x mod 256 ]%N) b.

(** Packets for [n] bytes of text, [room] bytes per packet: at least one. *)
Definition text_packets (room n : nat) : nat := if n =? 0 then 1 else (n + room - 1) / room.

(** The text bytes of packet [p], padded with zeros. *)
Definition text_part (room : nat) (t : list N) (p : nat) : list N :=
  firstn room (skipn (room * p) t ++ repeat 0%N room).

(** A message of [k] packets. *)
Definition wire (header : nat -> list N) (room : nat) (t : list N) (k : nat) : list N :=
  flat_map (fun p => header p ++ text_part room t p) (seq 0 k).

(** ** Flex data text *)

(** Address and channel: a message for a channel, or for the whole group. *)
Definition channel_code (o : option N) : N := match o with Some c => c | None => 16 end.

(** Header of packet [p] of [k]; the channel may depend on the packet. *)
Definition flex_header (bank status g : N) (ch : nat -> option N) (k p : nat) : list N :=
  [ 0xD * 16 + g; status_code k p * 64 + channel_code (ch p); bank; status ]%N.

Definition flex_wire (bank status g : N) (ch : nat -> option N) (t : list N) : list N :=
  let k := text_packets 12 (length t) in
  wire (flex_header bank status g ch k) 12 t k.

(** ** Stream text *)

(** Header of packet [p] of [k]; [block] gives the extra byte of function block names. *)
Definition stream_header (status : N) (block : option (nat -> N)) (k p : nat) : list N :=
  [ 0xF * 16 + status_code k p * 4 + status / 256; status mod 256 ]%N
  ++ match block with Some f => [f p] | None => [] end.
Definition stream_room (block : option (nat -> N)) : nat :=
  match block with Some _ => 13 | None => 14 end.

Definition stream_wire (status : N) (block : option (nat -> N)) (t : list N) : list N :=
  let k := text_packets (stream_room block) (length t) in
  wire (stream_header status block k) (stream_room block) t k.

(** ** Text *)

(** What is left of a text when its NUL characters are dropped. *)
Definition without_nul (t : list N) : list N := filter (fun c => negb (c =? 0)%N) t.
Definition no_nul (t : list N) : Prop := Forall (fun c => c <> 0%N) t.
Definition is_bytes (t : list N) : Prop := Forall (fun c => (c < 256)%N) t.

(** Strings: sequences of Unicode scalar values, encoded in UTF-8 (RFC 3629). *)
Definition scalar (c : N) : Prop := ((c < 0xD800) \/ (0xE000 <= c < 0x110000))%N.
Definition utf8_char (c : N) : list N :=
  (if c <? 0x80 then [c]
   else if c <? 0x800 then [0xC0 + c / 64; 0x80 + c mod 64]
   else if c <? 0x10000 then [0xE0 + c / 4096; 0x80 + c / 64 mod 64; 0x80 + c mod 64]
   else [0xF0 + c / 262144; 0x80 + c / 4096 mod 64; 0x80 + c / 64 mod 64; 0x80 + c mod 64])%N.
Definition utf8 (s : list N) : list N := flat_map utf8_char s.
Definition is_string (t : list N) : Prop := exists s, Forall scalar s /\ t = utf8 s.

(** ** Reading arbitrary buffers *)

(** The text bytes of all whole packets of a buffer, with [head] header bytes per packet. *)
Definition text_area (head : nat) (b : list N) : list N :=
  flat_map (fun p => skipn head (firstn 16 (skipn (16 * p) (all_bytes b)))) (seq 0 (length b / 4)).

(** What the readers see: the flex data reader stops one byte early. *)
Definition flex_reading (b : list N) : list N := without_nul (removelast (text_area 4 b)).
Definition stream_reading (off : nat) (b : list N) : list N := without_nul (text_area (2 + off) b).

(** ** Well-formed slices *)

(** What a reader of flex data text of the given bank and status accepts: whole packets carry
    that bank and status; the leading packets of type 0xD share a group and are framed; the
    text is a string. *)
Definition flex_accepts (bank status : N) (b : list N) : Prop :=
  4 <= length b /\ bits b (Seg 0 28 4) = 0xD%N /\
  (forall p, p < length b / 4 -> bits b (Seg (4 * p) 8 8) = bank /\ bits b (Seg (4 * p) 0 8) = status) /\
  (forall k, leading 4 0xD b k ->
     (forall p, p < k -> p < length b / 4 -> bits b (Seg (4 * p) 24 4) = bits b (Seg 0 24 4)) /\
     SpecFixed.framed (fun p => bits b (Seg (4 * p) 22 2)) 0 1 2 3 k) /\
  is_string (flex_reading b).

(** The same for stream text; with [off = 1] all whole packets carry the same block number. *)
Definition stream_accepts (status : N) (off : nat) (b : list N) : Prop :=
  4 <= length b /\ bits b (Seg 0 28 4) = 0xF%N /\
  (forall p, p < length b / 4 -> bits b (Seg (4 * p) 16 10) = status) /\
  (forall k, leading 4 0xF b k -> SpecFixed.framed (fun p => bits b (Seg (4 * p) 26 2)) 0 1 2 3 k) /\
  (off = 1 -> forall p, p < length b / 4 -> bits b (Seg (4 * p) 8 8) = bits b (Seg 0 8 8)) /\
  is_string (stream_reading off b).

(** ** Histories of setter calls *)

(** Room for text: a number of packets, or no bound. *)
Definition fits (room : option nat) (packets : nat) : bool :=
  match room with Some n => packets <=? n | None => true end.

(** Flex data text: what the calls should do.  Setting the text spreads the channel of the
    first packet; setting the channel touches the first packet only.  A text that does not fit
    is refused. *)
Inductive flex_edit := FGroup (g : N) | FChannel (o : option N) | FText (t : list N).
Definition flex_edit_ok (e : flex_edit) : Prop :=
  match e with
  | FGroup g => (g < 16)%N
  | FChannel o => forall c, o = Some c -> (c < 16)%N
  | FText t => is_bytes t
  end.
Record flex_state := { fs_group : N; fs_channel : nat -> option N; fs_text : list N }.
Definition flex_fresh : flex_state := {| fs_group := 0; fs_channel := fun _ => None; fs_text := [] |}.
Definition flex_accepted (room : option nat) (e : flex_edit) : bool :=
  match e with FText t => fits room (text_packets 12 (length t)) | _ => true end.
Definition flex_after (room : option nat) (s : flex_state) (e : flex_edit) : flex_state :=
  if negb (flex_accepted room e) then s else
  match e with
  | FGroup g => {| fs_group := g; fs_channel := fs_channel s; fs_text := fs_text s |}
  | FChannel o => {| fs_group := fs_group s;
                     fs_channel := fun p => if p =? 0 then o else fs_channel s p;
                     fs_text := fs_text s |}
  | FText t => {| fs_group := fs_group s; fs_channel := fun _ => fs_channel s 0; fs_text := t |}
  end.

(** Stream text.  Packets that a new name adds get block number 0 (the number set before is
    lost); setting the block number reaches the [held] packets of the buffer. *)
Inductive stream_edit := SBlock (v : N) | SName (t : list N).
Definition stream_edit_ok (off : nat) (e : stream_edit) : Prop :=
  match e with SBlock v => off = 1 /\ (v < 256)%N | SName t => is_bytes t end.
Record stream_state := { ss_block : nat -> N; ss_name : list N }.
Definition stream_fresh : stream_state := {| ss_block := fun _ => 0%N; ss_name := [] |}.
Definition stream_accepted (off : nat) (room : option nat) (e : stream_edit) : bool :=
  match e with SName t => fits room (text_packets (14 - off) (length t)) | _ => true end.
Definition stream_after (off : nat) (room : option nat) (s : stream_state) (e : stream_edit) : stream_state :=
  if negb (stream_accepted off room e) then s else
  match e with
  | SBlock v =>
      let held := match room with Some n => n | None => text_packets (14 - off) (length (ss_name s)) end in
      {| ss_block := fun p => if p <? held then v else 0%N; ss_name := ss_name s |}
  | SName t =>
      {| ss_block := fun p => if p <? text_packets (14 - off) (length t) then ss_block s p else 0%N;
         ss_name := t |}
  end.
