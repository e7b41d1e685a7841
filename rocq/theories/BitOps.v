(** midi2/src/detail/bit_ops.rs: bit fields of [u32] and [u8], most
    significant field first.

    The [assert!(index < k)] at the head of each function is not modelled: all
    call sites pass a literal in range or a remainder [_ % 4].  The narrowing
    [try_into().unwrap()] of a masked value cannot fail and is the identity. *)
From Coq Require Import NArith.
Local Open Scope N_scope.

(** [*self &= !(m << s); *self |= v << s], the body of every setter. *)
Definition replace_bits (x m s v : N) : N :=
  N.lor (N.ldiff x (N.shiftl m s)) (N.shiftl v s).

(** bit_ops.rs 19-31: [u32::bit], [u32::set_bit] *)
Definition bit32 (x i : N) : bool := negb (N.land (N.shiftr x (31 - i)) 1 =? 0).
Definition set_bit32 (x i : N) (v : bool) : N := replace_bits x 1 (31 - i) (N.b2n v).

(** bit_ops.rs 33-44: [u32::crumb], [u32::set_crumb] *)
Definition crumb32 (x i : N) : N := N.land (N.shiftr x (30 - i * 2)) 3.
Definition set_crumb32 (x i v : N) : N := replace_bits x 3 (30 - i * 2) v.

(** bit_ops.rs 46-57: [u32::nibble], [u32::set_nibble] *)
Definition nibble32 (x i : N) : N := N.land (N.shiftr x (28 - i * 4)) 0xF.
Definition set_nibble32 (x i v : N) : N := replace_bits x 0xF (28 - i * 4) v.

(** bit_ops.rs 59-70: [u32::septet], [u32::set_septet] *)
Definition septet32 (x i : N) : N := N.land (N.shiftr x (24 - i * 8)) 0x7F.
Definition set_septet32 (x i v : N) : N := replace_bits x 0x7F (24 - i * 8) v.

(** bit_ops.rs 72-83: [u32::octet], [u32::set_octet] *)
Definition octet32 (x i : N) : N := N.land (N.shiftr x (24 - i * 8)) 0xFF.
Definition set_octet32 (x i v : N) : N := replace_bits x 0xFF (24 - i * 8) v.

(** bit_ops.rs 85-96: [u32::word], [u32::set_word] *)
Definition word32 (x i : N) : N := N.land (N.shiftr x (16 - i * 16)) 0xFFFF.
Definition set_word32 (x i v : N) : N := replace_bits x 0xFFFF (16 - i * 16) v.

(** bit_ops.rs 145-156: [u8::bit], [u8::set_bit] *)
Definition bit8 (x i : N) : bool := negb (N.land (N.shiftr x (7 - i)) 1 =? 0).
Definition set_bit8 (x i : N) (v : bool) : N := replace_bits x 1 (7 - i) (N.b2n v).

(** bit_ops.rs 163-173: [u8::nibble], [u8::set_nibble] *)
Definition nibble8 (x i : N) : N := N.land (N.shiftr x (4 - i * 4)) 0xF.
Definition set_nibble8 (x i v : N) : N := replace_bits x 0xF (4 - i * 4) v.

(** bit_ops.rs 174-182: [u8::septet], [u8::set_septet] (index ignored / 0) *)
Definition septet8 (x : N) : N := N.land x 0x7F.
Definition set_septet8 (x v : N) : N := N.lor (N.ldiff x 0x7F) v.

(** bit_ops.rs 100-111: [u7::bit], [u7::set_bit].  The complement
    [!(u7::new(1) << shift)] and the shift stay inside seven bits for an index
    below 7. *)
Definition bit7 (x i : N) : bool := negb (N.land (N.shiftr x (6 - i)) 1 =? 0).
Definition set_bit7 (x i : N) (v : bool) : N := replace_bits x 1 (6 - i) (N.b2n v).
