(** midi2/src/detail/encode_7bit.rs: little-endian groups of seven bits.
    The [Byte] conversions to and from [u8]/[u7] (8-24) both mask with 0x7F;
    [v as u8] truncates to eight bits before the mask. *)
From Coq Require Import NArith List.
Import ListNotations.
Local Open Scope N_scope.

(** encode_7bit.rs 12-14 / 18-20: [T::from_u8(v as u8)] *)
Definition byte_of (v : N) : N := N.land (N.land v 0xFF) 0x7F.

(** [x.to_u8() & 0x7F] on reading, lines 9-11 / 21-23 and the masks of
    [from_u7s]. *)
Definition group_of (x : N) : N := N.land x 0x7F.

(** encode_7bit.rs 80-87 *)
Definition u14_to_u7s (v : N) : list N := [byte_of v; byte_of (N.shiftr v 7)].
(** encode_7bit.rs 88-97 *)
Definition u14_from_u7s (a b : N) : N :=
  N.lor (group_of a) (N.shiftl (group_of b) 7).

(** encode_7bit.rs 57-65 *)
Definition u21_to_u7s (v : N) : list N :=
  [byte_of v; byte_of (N.shiftr v 7); byte_of (N.shiftr v 14)].
(** encode_7bit.rs 66-76 *)
Definition u21_from_u7s (a b c : N) : N :=
  N.lor (N.lor (group_of a) (N.shiftl (group_of b) 7)) (N.shiftl (group_of c) 14).

(** encode_7bit.rs 32-41 *)
Definition u28_to_u7s (v : N) : list N :=
  [byte_of v; byte_of (N.shiftr v 7); byte_of (N.shiftr v 14); byte_of (N.shiftr v 21)].
(** encode_7bit.rs 42-53 *)
Definition u28_from_u7s (a b c d : N) : N :=
  N.lor (N.lor (N.lor (group_of a) (N.shiftl (group_of b) 7))
               (N.shiftl (group_of c) 14)) (N.shiftl (group_of d) 21).
