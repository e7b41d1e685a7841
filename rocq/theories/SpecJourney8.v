(** SPECIFICATION.  One 8-bit system exclusive message on its way through growable
    buffers and arrays, seen as a list of bytes, a group and the length of the buffer. *)
From Coq Require Import NArith List Bool Arith.
From Verif Require Import SpecSysex SpecEdits.
Import ListNotations.
Local Open Scope nat_scope.

(** What a client may do with the message it holds; [n] is the size of an array. *)
Inductive leg8 := Edit8 (e : edit) | CopyToVec8 | CopyToArray8 (n : nat) | CopyData8 (n : nat).

(** What the client should see. *)
Record view8 := { w_array : bool; w_length : nat; w_payload : list N; w_group : N }.

(** Words of a message of these payload bytes. *)
Definition words8 (l : list N) : nat := 4 * packets_needed EightBit (List.length l).

Definition moved8 (array : bool) (n : nat) (v : view8) : view8 :=
  {| w_array := array; w_length := n; w_payload := w_payload v; w_group := w_group v |}.

Definition travels8 (s : leg8) (v : view8) : view8 * bool :=
  match s with
  | Edit8 e =>
      if w_array v then
        let '(l, ok) := fixed_outcome (room_in EightBit (w_length v)) e (w_payload v) in
        ({| w_array := true; w_length := w_length v; w_payload := l; w_group := new_group e (w_group v) |}, ok)
      else
        let l := new_payload e (w_payload v) in
        ({| w_array := false;
            w_length := match e with SetByte _ _ | SetGroup _ => w_length v | _ => words8 l end;
            w_payload := l; w_group := new_group e (w_group v) |}, true)
  | CopyToVec8 => (moved8 false (w_length v) v, true)
  | CopyToArray8 n => if w_length v <=? n then (moved8 true n v, true) else (v, false)
  | CopyData8 n => (moved8 true n v, true)
  end.

(** What the client must respect: what its edits are given (C21, C22); arrays hold
    whole packets; the rebuffering call that needs room has it. *)
Definition permitted8 (s : leg8) (v : view8) : Prop :=
  match s with
  | Edit8 e => legal EightBit e (w_payload v) /\ (w_array v = true -> announced_enough e (w_payload v))
  | CopyToVec8 => True
  | CopyToArray8 n => n mod 4 = 0
  | CopyData8 n => words8 (w_payload v) <= n /\ n mod 4 = 0
  end.

Fixpoint itinerary8 (ss : list leg8) (v : view8) : view8 * list bool :=
  match ss with
  | [] => (v, [])
  | s :: t =>
      let '(v', ok) := travels8 s v in
      let '(v'', oks) := itinerary8 t v' in (v'', ok :: oks)
  end.
Fixpoint all_permitted8 (ss : list leg8) (v : view8) : Prop :=
  match ss with
  | [] => True
  | s :: t => permitted8 s v /\ all_permitted8 t (fst (travels8 s v))
  end.

(** An empty message in a new buffer: a [Vec], or an array of [n] words. *)
Definition start8 (array : option nat) : view8 :=
  match array with
  | None => {| w_array := false; w_length := 4; w_payload := []; w_group := 0%N |}
  | Some n => {| w_array := true; w_length := n; w_payload := []; w_group := 0%N |}
  end.

(** The edits among the legs. *)
Definition edits_of8 (ss : list leg8) : list edit :=
  flat_map (fun s => match s with Edit8 e => [e] | _ => [] end) ss.
