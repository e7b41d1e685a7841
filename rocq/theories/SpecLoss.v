(** SPECIFICATION.  Packets that are lost, repeated or that arrive in another order.  The vocabulary of C64. *)
From Coq Require Import NArith List Arith.
From Verif Require Import Base Props Message SpecSysex Aggregate.
Import ListNotations.
Local Open Scope nat_scope.

(** Packet number [p] of a message of packets of [w] words. *)
Definition packet_no (w : nat) (b : list N) (p : nat) : list N := firstn w (skipn (w * p) b).

(** Packets, each given by its message and its number there, in the order in which they arrive. *)
Definition arriving (w : nat) (xs : list (list N * nat)) : list N :=
  flat_map (fun x => packet_no w (fst x) (snd x)) xs.

(** The mark of a packet: 0 complete, 1 start, 2 continue, 3 end. *)
Definition mark_of (w : nat) (x : list N * nat) : N := status_code (List.length (fst x) / w) (snd x).
(** Marks as those of one message: complete, or start, continue ..., end. *)
Definition well_marked (l : list N) : Prop :=
  l = [0%N] \/ exists n, l = 1%N :: repeat 2%N n ++ [3%N].

(** All have the same. *)
Definition alike {A} (f : A -> N) (xs : list A) : Prop := forall x y, In x xs -> In y xs -> f x = f y.

(** Of a message of [k] packets those numbered [ps] arrive: the first one first, the last one last, each of them once,
    and between them any of the others. *)
Definition looks_whole (k : nat) (ps : list nat) : Prop :=
  (k = 1 /\ ps = [0])
  \/ exists mid, 1 < k /\ ps = 0 :: mid ++ [k - 1] /\ Forall (fun p => 0 < p < k - 1) mid.

(** A packet of a system exclusive message. *)
Definition from_sysex (fm : form) (x : list N * nat) : Prop :=
  exists k g s l, carries fm k g s l (fst x) /\ List.length (fst x) = packet_words fm * k /\ snd x < k.

(** What a receiver (Receiver.v) hands out under one key. *)
Definition results (k : N) (out : list (N * res aggregate)) : list (res aggregate) :=
  map snd (filter (fun e => fst e =? k)%N out).
