(** The operations of Splice.v, counting what they do.  Nothing here models new code:
    a metered buffer carries five counters in front of the buffer it wraps, and every
    operation is that of the buffer. *)
From Coq Require Import NArith List Bool Arith.
From Verif Require Import Base Sysex Splice SpecEdits SpecSysex SpecCost.
Import ListNotations.
Local Open Scope nat_scope.

Definition costed (k : cost) (b : list N) : list N :=
  N.of_nat (resizings k) :: N.of_nat (headings k) :: N.of_nat (peak k) :: N.of_nat (moved k) :: N.of_nat (stored k) :: b.
Definition metering {A} (x : list N) (f : cost -> list N -> outcome A) : outcome A :=
  match x with
  | r :: h :: p :: c :: w :: b =>
      f {| resizings := N.to_nat r; headings := N.to_nat h; peak := N.to_nat p; moved := N.to_nat c; stored := N.to_nat w |} b
  | _ => Panic
  end.

(** What each operation adds. *)
Definition plus_resize (heads : nat -> nat) (n : nat) (k : cost) : cost :=
  {| resizings := S (resizings k); headings := headings k + heads n; peak := Nat.max (peak k) n; moved := moved k; stored := stored k |}.
(** A resize to more than there is room for fills the array, that is [c] payload bytes. *)
Definition plus_refused (heads : nat -> nat) (n c : nat) (k : cost) : cost :=
  {| resizings := S (resizings k); headings := headings k + heads c; peak := Nat.max (peak k) n; moved := moved k; stored := stored k |}.
Definition plus_write (k : cost) : cost :=
  {| resizings := resizings k; headings := headings k; peak := peak k; moved := moved k; stored := S (stored k) |}.
Definition plus_move (n : nat) (k : cost) : cost :=
  {| resizings := resizings k; headings := headings k; peak := peak k; moved := moved k + n; stored := stored k |}.

(** A resize to [n] payload bytes writes [heads n] headers.  [move_payload_tail] copies
    the bytes from [max tail to] to the end of the payload (sysex7.rs 600-650, sysex8.rs
    452-483). *)
Definition metered (heads : nat -> nat) (o : ops) : ops :=
  {| o_compact := fun x => metering x (fun k b => b' <- o_compact o b ;; Val (costed k b'));
     o_payload_size := fun x => metering x (fun _ b => o_payload_size o b);
     o_resize := fun x n => metering x (fun k b =>
       q <- o_resize o b n ;;
       match q with
       | (b', None) => Val (costed (plus_resize heads n k) b', None)
       | (b', Some c) => Val (costed (plus_refused heads n c k) b', Some c)
       end);
     o_write := fun x v i => metering x (fun k b => b' <- o_write o b v i ;; Val (costed (plus_write k) b'));
     o_move := fun x tail to => metering x (fun k b =>
       n <- o_payload_size o b ;; b' <- o_move o b tail to ;;
       Val (costed (plus_move (if tail =? to then 0 else n - Nat.max tail to) k) b')) |}.

(** Packets: every header is written (sysex7.rs 738-810, sysex8.rs 495-568: the loop over
    the packets).  Bytes: the end byte (sysex7.rs 527-545). *)
Definition metered_packets (fm : form) (f : fmt) : ops := metered (packets_needed fm) (ump_ops f Growable).
Definition metered_bytes : ops := metered (fun _ => 1) (bytes_ops Growable).

(** The calls that edit the payload, over any operations (traits.rs 561-662,
    sysex7.rs 449-468, sysex8.rs 352-370); the other two edits do not call them. *)
Definition edit_over (o : ops) (e : edit) (b : list N) : outcome (list N) :=
  match e with
  | SetPayload src => set_payload o b src
  | SplicePayload src lo hi => splice o b src lo hi
  | InsertPayload src i => insert_payload o b src i
  | AppendPayload src => append_payload o b src
  | AppendByte v => append_byte o b v
  | SetByte _ _ | SetGroup _ => Panic
  end.
Fixpoint edits_over (o : ops) (es : list edit) (b : list N) : outcome (list N) :=
  match es with [] => Val b | e :: t => b' <- edit_over o e b ;; edits_over o t b' end.

(** The calls on arrays (traits.rs 561-662, sysex7.rs 449-468, sysex8.rs 352-370: the
    [try_] methods). *)
Definition metered_array (fm : form) (f : fmt) : ops := metered (packets_needed fm) (ump_ops f Fixed).
Definition metered_byte_array : ops := metered (fun _ => 1) (bytes_ops Fixed).
Definition try_over (o : ops) (e : edit) (b : list N) : outcome (list N * bool) :=
  match e with
  | SetPayload src => try_set_payload o b src
  | SplicePayload src lo hi => try_splice o b src lo hi
  | InsertPayload src i => try_insert_payload o b src i
  | AppendPayload src => try_append_payload o b src
  | AppendByte v => try_append_byte o b v
  | SetByte _ _ | SetGroup _ => Panic
  end.
Fixpoint tries_over (o : ops) (es : list edit) (b : list N) : outcome (list N * list bool) :=
  match es with
  | [] => Val (b, [])
  | e :: t => r <- try_over o e b ;; q <- tries_over o t (fst r) ;; Val (fst q, snd r :: snd q)
  end.
