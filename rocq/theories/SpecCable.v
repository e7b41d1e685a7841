(** SPECIFICATION.  MIDI 1.0 messages on a cable, byte by byte.  The vocabulary of C72. *)
From Coq Require Import NArith List Bool Arith.
From Verif Require Import Base Props Message Aggregate SpecJoin.
Import ListNotations.
Local Open Scope nat_scope.

(** System real-time messages are one byte, which may come at any time, even inside other messages.  Two of the eight
    values stand for no message. *)
Definition real_time (x : N) : bool := (0xF8 <=? x)%N.
Definition assigned (x : N) : bool := existsb (N.eqb x) [0xF8; 0xFA; 0xFB; 0xFC; 0xFE; 0xFF]%N.
Definition first_byte (m : aggregate) : N := hd 0%N (snd m).

(** Running status: the status byte of a channel message is left out if that of the message before was the same.
    Other messages end it, except real-time ones.  [short]: the sender makes use of it. *)
Definition running_after (m : aggregate) : option N :=
  if (first_byte m <? 0xF0)%N then Some (first_byte m) else None.
Definition on_cable (running : option N) (short : bool) (m : aggregate) : list N :=
  match running with
  | Some s => if short && (first_byte m =? s)%N then tl (snd m) else snd m
  | None => snd m
  end.
Fixpoint cable (running : option N) (sent : list (bool * aggregate)) : list N :=
  match sent with
  | [] => []
  | (short, m) :: rest => on_cable running short m ++ cable (running_after m) rest
  end.

(** The messages all of whose bytes are among the first [n]. *)
Fixpoint completed (running : option N) (n : nat) (sent : list (bool * aggregate)) : list aggregate :=
  match sent with
  | [] => []
  | (short, m) :: rest =>
      let k := List.length (on_cable running short m) in
      if k <=? n then m :: completed (running_after m) (n - k) rest else []
  end.

(** What is left of a message whose status byte was not heard. *)
Definition unheard (l : list N) : Prop := Forall (fun x => x < 128 \/ x = 0xF7)%N l.

(** Of things of the given sizes one behind the other: those that end at position [n] or earlier. *)
Fixpoint ended {A} (size : A -> nat) (n : nat) (ms : list A) : list A :=
  match ms with
  | [] => []
  | m :: rest => if size m <=? n then m :: ended size (n - size m) rest else []
  end.
