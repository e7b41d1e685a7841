(** SPECIFICATION.  The bytes that an iterator made of payloads, [skip], [take], [map] and [chain] stands for. *)
From Coq Require Import NArith List Arith.
From Verif Require Import SpecSysex Pipes.
Import ListNotations.
Local Open Scope nat_scope.

(** Nothing lies behind the message in its buffer. *)
Fixpoint snug (c : cut) : Prop :=
  match c with
  | Payload fm b => forall k g s l, carries fm k g s l b -> List.length b = packet_words fm * k
  | BytePayload _ => True
  | Skipped _ d | Taken _ d => snug d
  end.

(** [l] are the bytes of [c].  [skip] is only used to skip fewer bytes than there are, unless nothing lies behind the
    message. *)
Fixpoint cut_reads (c : cut) (l : list N) : Prop :=
  match c with
  | Payload fm b => exists k g s, carries fm k g s l b
  | BytePayload b => exists r, b = stream_bytes l ++ r /\ Forall (is_unit SevenBit) l
  | Skipped n d => exists l0, cut_reads d l0 /\ l = skipn n l0 /\ (n = 0 \/ n < List.length l0 \/ snug d)
  | Taken n d => exists l0, cut_reads d l0 /\ l = firstn n l0
  end.
Fixpoint reads (p : pipeline) (l : list N) : Prop :=
  match p with
  | Piece c => cut_reads c l
  | Mapped g q => exists l0, reads q l0 /\ l = map g l0
  | Joined q1 q2 => exists l1 l2, reads q1 l1 /\ reads q2 l2 /\ l = l1 ++ l2
  end.

(** No message in bytes takes part. *)
Fixpoint cut_of_packets (c : cut) : Prop :=
  match c with Payload _ _ => True | BytePayload _ => False | Skipped _ d | Taken _ d => cut_of_packets d end.
Fixpoint of_packets (p : pipeline) : Prop :=
  match p with Piece c => cut_of_packets c | Mapped _ q => of_packets q | Joined q1 q2 => of_packets q1 /\ of_packets q2 end.
