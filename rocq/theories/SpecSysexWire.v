(** SPECIFICATION.  The bytes of a system exclusive message in packets, for a
    payload [l] in group [g] and stream 0: every packet but the last full, the
    unused end of the last packet zero. *)
From Coq Require Import NArith List Arith.
From Verif Require Import SpecSysex.
Import ListNotations.
Local Open Scope nat_scope.

(** The bytes of a buffer, each word most significant byte first. *)
Definition sent_bytes (b : list N) : list N :=
  flat_map (fun x => [ x / 2 ^ 24 mod 256; x / 2 ^ 16 mod 256; x / 2 ^ 8 mod 256; x mod 256 ]%N) b.

Definition wire_packet (fm : form) (g : N) (l : list N) (p : nat) : list N :=
  let here := firstn (packet_room fm) (skipn (packet_room fm * p) l) in
  [ type_code fm * 16 + g;
    status_code (packets_needed fm (List.length l)) p * 16 + (size_bias fm + N.of_nat (List.length here)) ]%N
  ++ match fm with SevenBit => [] | EightBit => [0%N] end
  ++ here ++ repeat 0%N (packet_room fm - List.length here).

Definition sysex_wire (fm : form) (g : N) (l : list N) : list N :=
  flat_map (wire_packet fm g l) (seq 0 (packets_needed fm (List.length l))).
