(** SPECIFICATION.  Listening to a stream from some point on.  The vocabulary of C68. *)
From Coq Require Import NArith List Arith.
From Verif Require Import Base Props Message Aggregate Packet.
Import ListNotations.
Local Open Scope nat_scope.

(** Of things of the given sizes one behind the other: those that begin at position [k] or later. *)
Fixpoint from_position {A} (size : A -> nat) (k : nat) (ms : list A) : list A :=
  match ms with
  | [] => []
  | m :: t => if k =? 0 then ms else from_position size (k - size m) t
  end.

(** Position [k] is inside one of them: after its beginning and before its end. *)
Fixpoint inside {A} (size : A -> nat) (k : nat) (ms : list A) : Prop :=
  match ms with
  | [] => False
  | m :: t => 0 < k < size m \/ (size m <= k /\ inside size (k - size m) t)
  end.

(** A message of the MIDI 1.0 byte stream: behind the status byte come data bytes, and perhaps the byte that ends system
    exclusive messages. *)
Definition one_status (b : list N) : Prop :=
  match b with [] => False | _ :: t => Forall (fun x => x < 128 \/ x = 0xF7)%N t end.

(** How many packets a message has. *)
Definition packet_count (m : aggregate) : nat :=
  match all_packets m with Val ps => List.length ps | Panic => 0 end.

(** The packets that a receiver files under the number [k]. *)
Definition filed_under (key : packet -> outcome N) (k : N) (ps : list packet) : list packet :=
  filter (fun p => match key p with Val j => j =? k | Panic => false end)%N ps.
