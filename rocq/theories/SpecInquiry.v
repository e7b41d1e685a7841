(** SPECIFICATION.  Discovery inquiries (M2-101-UM, section 5.5) as payloads of system exclusive messages: which payloads are
    inquiries and what they say.  The vocabulary of C66. *)
From Coq Require Import NArith List Arith.
From Verif Require Import Ci SpecCi.
Import ListNotations.
Local Open Scope nat_scope.

(** Universal, to the function block, MIDI-CI, discovery, the version; four bytes on, the broadcast destination. *)
Definition inquiry_payload (v : N) (l : list N) : Prop :=
  (if (v =? 2)%N then 30 else 29) <= List.length l
  /\ firstn 5 l = [0x7E; 0x7F; 0x0D; 0x70; v]%N
  /\ firstn 4 (skipn 9 l) = [0x7F; 0x7F; 0x7F; 0x7F]%N.

(** The number in the [n] bytes from place [i], least significant first; the bytes themselves. *)
Fixpoint number_at (i n : nat) (l : list N) : N :=
  match n with O => 0 | S m => nth i l 0 + 128 * number_at (S i) m l end%N.
Definition bytes_at (i n : nat) (l : list N) : list N := firstn n (skipn i l).

Definition says (l : list N) : contents := fun f =>
  match f with
  | FSource => CiNum (number_at 5 4 l)
  | FManufacturer => CiBytes (bytes_at 13 3 l)
  | FFamily => CiNum (number_at 16 2 l)
  | FModel => CiNum (number_at 18 2 l)
  | FSoftware => CiBytes (bytes_at 20 4 l)
  | FProcessInquiry => CiFlag (N.testbit (nth 24 l 0%N) 4)
  | FPropertyExchange => CiFlag (N.testbit (nth 24 l 0%N) 3)
  | FProfileConfiguration => CiFlag (N.testbit (nth 24 l 0%N) 2)
  | FProtocolNegotiation => CiFlag (N.testbit (nth 24 l 0%N) 1)
  | FMaxSysexSize => CiNum (number_at 25 4 l)
  | FOutputPathId => CiNum (nth 29 l 0%N)
  end.
