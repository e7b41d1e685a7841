(** SPECIFICATION.  Vocabulary for messages whose packets arrive interleaved. *)
From Coq Require Import NArith List.
From Verif Require Import Base Values Props Message MessageTable Aggregate SpecAggregate SpecSysex Packet SpecStream.
Import ListNotations.

(** A message as it is sent: one that the aggregate parser recognises (C12), and
    nothing behind it. *)
Definition sendable (m : aggregate) : Prop :=
  In (fst m) ump_types /\ ~ In (fst m) misrouted /\ fst m <> CFixed stream_function_block_discovery
  /\ whole U32 m.

(** The packets of the messages, message by message. *)
Definition packets_of (ms : list aggregate) (ps : list packet) : Prop :=
  exists pss, Forall2 (fun m q => all_packets m = Val q) ms pss /\ ps = List.concat pss.

(** Some order of arrival that keeps the order within each list. *)
Inductive interleaved {A} : list (list A) -> list A -> Prop :=
| all_sent ls : Forall (fun l => l = []) ls -> interleaved ls []
| one_more ls1 x l ls2 r : interleaved (ls1 ++ l :: ls2) r -> interleaved (ls1 ++ (x :: l) :: ls2) (x :: r).

(** A sender of system exclusive messages: form, group, stream id (8-bit form
    only), and its messages, each with the payload it carries. *)
Record sender := { s_form : form; s_group : N; s_stream : N; s_sent : list (list N * list N) }.

Definition proper (s : sender) : Prop :=
  (s_group s < 16)%N /\ (s_stream s < 256)%N
  /\ Forall (fun m => message (s_form s) (s_group s) (match s_form s with SevenBit => None | EightBit => Some (s_stream s) end)
                        (fst m) (snd m)) (s_sent s).

(** What tells senders apart. *)
Definition identity (s : sender) : form * N * N :=
  (s_form s, s_group s, match s_form s with SevenBit => 0%N | EightBit => s_stream s end).

(** The number under which the receiver files a sender's packets. *)
Definition number (s : sender) : N :=
  match s_form s with SevenBit => 1 + s_group s | EightBit => 256 + 256 * s_group s + s_stream s end%N.
