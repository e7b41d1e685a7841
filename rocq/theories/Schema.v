(** midi2/src/detail/schema.rs: field schemas.  A schema is written as a mask
    of bits in up to four words (or three bytes); each Rust [impl] generated by
    the macros maps one mask to a buffer index and a sub-index.  The tables
    below list those [impl]s one for one. *)
From Coq Require Import NArith List Bool.
From Verif Require Import Base BitOps Encode7 Values.
Import ListNotations.
Local Open Scope N_scope.

(** The representation types that have schema implementations: schema.rs 27, 115, 138, 158,
    180, 214, 244, 270, 284, 306 and ump_stream/device_identity.rs 28, 45. *)
Inductive sty := SBool | SU4 | SU7 | SU8 | SU14 | SU16 | SU32 | SU7x3 | SU7x4.

(** schema.rs 19-23: [Ump] and [Bytes] *)
Definition mask4 := (N * N * N * N)%type.
Definition mask3 := (N * N * N)%type.

Definition mask4_eqb (a b : mask4) : bool :=
  let '(a1, a2, a3, a4) := a in
  let '(b1, b2, b3, b4) := b in
  (a1 =? b1) && (a2 =? b2) && (a3 =? b3) && (a4 =? b4).
Definition mask3_eqb (a b : mask3) : bool :=
  let '(a1, a2, a3) := a in
  let '(b1, b2, b3) := b in
  (a1 =? b1) && (a2 =? b2) && (a3 =? b3).

(** The [impl]s of one type, as (mask, (buffer index, sub-index)): the arguments of the macros
    of schema.rs 25-330.  Choosing an [impl] is the compiler's work; here it is a search. *)
Definition table4 := list (mask4 * (nat * N)).
Definition table3 := list (mask3 * (nat * N)).

Fixpoint lookup4 (m : mask4) (t : table4) : option (nat * N) :=
  match t with
  | [] => None
  | (k, r) :: t' => if mask4_eqb m k then Some r else lookup4 m t'
  end.
Fixpoint lookup3 (m : mask3) (t : table3) : option (nat * N) :=
  match t with
  | [] => None
  | (k, r) :: t' => if mask3_eqb m k then Some r else lookup3 m t'
  end.

(** schema.rs 38-111: [bool_ump_property_impl!] *)
Definition bool_ump : table4 := [
  ((0x00000001, 0, 0, 0), (0%nat, 31));
  ((0x00000002, 0, 0, 0), (0%nat, 30));
  ((0, 0x00000001, 0, 0), (1%nat, 31));
  ((0, 0x00000002, 0, 0), (1%nat, 30));
  ((0, 0x00000004, 0, 0), (1%nat, 29));
  ((0, 0x00000008, 0, 0), (1%nat, 28));
  ((0, 0x00000010, 0, 0), (1%nat, 27));
  ((0, 0x00000100, 0, 0), (1%nat, 23));
  ((0, 0x00000200, 0, 0), (1%nat, 22));
  ((0x00008000, 0, 0, 0), (0%nat, 16));
  ((0, 0x80000000, 0, 0), (1%nat, 0)) ].

(** schema.rs 126-134: [u4_ump_property_impl!] *)
Definition u4_ump : table4 := [
  ((0xF0000000, 0, 0, 0), (0%nat, 0));
  ((0x0F000000, 0, 0, 0), (0%nat, 1));
  ((0x00F00000, 0, 0, 0), (0%nat, 2));
  ((0x000F0000, 0, 0, 0), (0%nat, 3));
  ((0x0000F000, 0, 0, 0), (0%nat, 4));
  ((0x00000F00, 0, 0, 0), (0%nat, 5));
  ((0x000000F0, 0, 0, 0), (0%nat, 6));
  ((0x0000000F, 0, 0, 0), (0%nat, 7));
  ((0, 0x0F000000, 0, 0), (1%nat, 1)) ].

(** schema.rs 149-154: [u4_bytes_property_impl!] *)
Definition u4_bytes : table3 := [
  ((0xF0, 0, 0), (0%nat, 0)); ((0x0F, 0, 0), (0%nat, 1));
  ((0, 0xF0, 0), (1%nat, 0)); ((0, 0x0F, 0), (1%nat, 1));
  ((0, 0, 0xF0), (2%nat, 0)); ((0, 0, 0x0F), (2%nat, 1)) ].

(** schema.rs 169-176: [u7_ump_property_impl!] *)
Definition u7_ump : table4 := [
  ((0x7F000000, 0, 0, 0), (0%nat, 0)); ((0x007F0000, 0, 0, 0), (0%nat, 1));
  ((0x00007F00, 0, 0, 0), (0%nat, 2)); ((0x0000007F, 0, 0, 0), (0%nat, 3));
  ((0, 0x7F000000, 0, 0), (1%nat, 0)); ((0, 0x007F0000, 0, 0), (1%nat, 1));
  ((0, 0x00007F00, 0, 0), (1%nat, 2)); ((0, 0x0000007F, 0, 0), (1%nat, 3)) ].

(** schema.rs 191-193: [u7_bytes_property_impl!] (no sub-index) *)
Definition u7_bytes : table3 := [
  ((0x7F, 0, 0), (0%nat, 0)); ((0, 0x7F, 0), (1%nat, 0)); ((0, 0, 0x7F), (2%nat, 0)) ].

(** schema.rs 225-240: [u8_ump_property_impl!] *)
Definition u8_ump : table4 := [
  ((0xFF000000, 0, 0, 0), (0%nat, 0)); ((0x00FF0000, 0, 0, 0), (0%nat, 1));
  ((0x0000FF00, 0, 0, 0), (0%nat, 2)); ((0x000000FF, 0, 0, 0), (0%nat, 3));
  ((0, 0xFF000000, 0, 0), (1%nat, 0)); ((0, 0x00FF0000, 0, 0), (1%nat, 1));
  ((0, 0x0000FF00, 0, 0), (1%nat, 2)); ((0, 0x000000FF, 0, 0), (1%nat, 3));
  ((0, 0, 0xFF000000, 0), (2%nat, 0)); ((0, 0, 0x00FF0000, 0), (2%nat, 1));
  ((0, 0, 0x0000FF00, 0), (2%nat, 2)); ((0, 0, 0x000000FF, 0), (2%nat, 3));
  ((0, 0, 0, 0xFF000000), (3%nat, 0)); ((0, 0, 0, 0x00FF0000), (3%nat, 1));
  ((0, 0, 0, 0x0000FF00), (3%nat, 2)); ((0, 0, 0, 0x000000FF), (3%nat, 3)) ].

(** schema.rs 261-268: [u14_ump_property_impl!] (sub-index = 16-bit half) *)
Definition u14_ump : table4 := [
  ((0x7F7F0000, 0, 0, 0), (0%nat, 0)); ((0x00007F7F, 0, 0, 0), (0%nat, 1));
  ((0, 0x7F7F0000, 0, 0), (1%nat, 0)); ((0, 0x00007F7F, 0, 0), (1%nat, 1));
  ((0, 0, 0x7F7F0000, 0), (2%nat, 0)); ((0, 0, 0x00007F7F, 0), (2%nat, 1));
  ((0, 0, 0, 0x7F7F0000), (3%nat, 0)); ((0, 0, 0, 0x00007F7F), (3%nat, 1)) ].

(** schema.rs 270-280: the single [u14] bytes schema (bytes 1 and 2) *)
Definition u14_bytes : table3 := [ ((0, 0x7F, 0x7F), (1%nat, 0)) ].

(** schema.rs 295-302: [u16_ump_property_impl!] *)
Definition u16_ump : table4 := [
  ((0xFFFF0000, 0, 0, 0), (0%nat, 0)); ((0x0000FFFF, 0, 0, 0), (0%nat, 1));
  ((0, 0xFFFF0000, 0, 0), (1%nat, 0)); ((0, 0x0000FFFF, 0, 0), (1%nat, 1));
  ((0, 0, 0xFFFF0000, 0), (2%nat, 0)); ((0, 0, 0x0000FFFF, 0), (2%nat, 1));
  ((0, 0, 0, 0xFFFF0000), (3%nat, 0)); ((0, 0, 0, 0x0000FFFF), (3%nat, 1)) ].

(** schema.rs 317-320: [u32_ump_property_impl!] *)
Definition u32_ump : table4 := [
  ((0xFFFFFFFF, 0, 0, 0), (0%nat, 0)); ((0, 0xFFFFFFFF, 0, 0), (1%nat, 0));
  ((0, 0, 0xFFFFFFFF, 0), (2%nat, 0)); ((0, 0, 0, 0xFFFFFFFF), (3%nat, 0)) ].

(** midi2/src/ump_stream/device_identity.rs 28-43 and 45-62: [u7; 3], [u7; 4]
    (sub-index = first septet) *)
Definition u7x3_ump : table4 := [ ((0, 0x007F7F7F, 0, 0), (1%nat, 1)) ].
Definition u7x4_ump : table4 := [ ((0, 0, 0, 0x7F7F7F7F), (3%nat, 0)) ].

Definition ump_table (t : sty) : table4 :=
  match t with
  | SBool => bool_ump | SU4 => u4_ump | SU7 => u7_ump | SU8 => u8_ump
  | SU14 => u14_ump | SU16 => u16_ump | SU32 => u32_ump
  | SU7x3 => u7x3_ump | SU7x4 => u7x4_ump
  end.

(** Bytes schemas exist for u4, u7 and u14 (the u8 ones of 195-210 are used by
    no message). *)
Definition bytes_table (t : sty) : table3 :=
  match t with SU4 => u4_bytes | SU7 => u7_bytes | SU14 => u14_bytes | _ => [] end.

Definition sty_ty (t : sty) : ty :=
  match t with
  | SBool => TyBool | SU4 => TyU 4 | SU7 => TyU 7 | SU8 => TyU 8 | SU14 => TyU 14
  | SU16 => TyU 16 | SU32 => TyU 32 | SU7x3 => TyU7s 3 | SU7x4 => TyU7s 4
  end.

(** The [Default] value of a representation type: detail/common_properties.rs 163-165, 214-216. *)
Definition sty_default (t : sty) : value :=
  match t with
  | SBool => VBool false
  | SU7x3 => VNums [0; 0; 0]
  | SU7x4 => VNums [0; 0; 0; 0]
  | _ => VNum 0
  end.

(** [UmpSchemaRepr::read]: schema.rs 28-30, 116-118, 159-161, 215-217, 245-250,
    285-287, 307-309; device_identity.rs 35-42, 53-61.  A mask without an
    [impl] would not compile; the model panics. *)
Definition ump_read (t : sty) (m : mask4) (b : list N) : outcome value :=
  match lookup4 m (ump_table t) with
  | None => Panic
  | Some (w, i) =>
      x <- idx b w ;;
      Val (match t with
           | SBool => VBool (bit32 x i)
           | SU4 => VNum (nibble32 x i)
           | SU7 => VNum (septet32 x i)
           | SU8 => VNum (octet32 x i)
           | SU14 => VNum (u14_from_u7s (septet32 x (2 * i)) (septet32 x (2 * i + 1)))
           | SU16 => VNum (word32 x i)
           | SU32 => VNum x
           | SU7x3 => VNums [septet32 x i; septet32 x (i + 1); septet32 x (i + 2)]
           | SU7x4 =>
               VNums [septet32 x i; septet32 x (i + 1); septet32 x (i + 2); septet32 x (i + 3)]
           end)
  end.

(** [UmpSchemaRepr::write]: schema.rs 31-33, 119-121, 162-164, 218-220, 251-256, 288-290,
    310-312; device_identity.rs 29-34, 46-52. *)
Definition ump_write (t : sty) (m : mask4) (b : list N) (v : value) : outcome (list N) :=
  match lookup4 m (ump_table t) with
  | None => Panic
  | Some (w, i) =>
      match t, v with
      | SBool, VBool x => upd b w (fun y => set_bit32 y i x)
      | SU4, VNum x => upd b w (fun y => set_nibble32 y i x)
      | SU7, VNum x => upd b w (fun y => set_septet32 y i x)
      | SU8, VNum x => upd b w (fun y => set_octet32 y i x)
      | SU14, VNum x =>
          match u14_to_u7s x with
          | [a; c] =>
              b1 <- upd b w (fun y => set_septet32 y (2 * i) a) ;;
              upd b1 w (fun y => set_septet32 y (2 * i + 1) c)
          | _ => Panic
          end
      | SU16, VNum x => upd b w (fun y => set_word32 y i x)
      | SU32, VNum x => upd b w (fun _ => x)
      | SU7x3, VNums [x0; x1; x2] =>
          b1 <- upd b w (fun y => set_septet32 y i x0) ;;
          b2 <- upd b1 w (fun y => set_septet32 y (i + 1) x1) ;;
          upd b2 w (fun y => set_septet32 y (i + 2) x2)
      | SU7x4, VNums [x0; x1; x2; x3] =>
          b1 <- upd b w (fun y => set_septet32 y i x0) ;;
          b2 <- upd b1 w (fun y => set_septet32 y (i + 1) x1) ;;
          b3 <- upd b2 w (fun y => set_septet32 y (i + 2) x2) ;;
          upd b3 w (fun y => set_septet32 y (i + 3) x3)
      | _, _ => Panic
      end
  end.

(** [BytesSchemaRepr::read]: schema.rs 139-141, 181-183, 271-273 *)
Definition bytes_read (t : sty) (m : mask3) (b : list N) : outcome value :=
  match lookup3 m (bytes_table t) with
  | None => Panic
  | Some (w, i) =>
      match t with
      | SU4 => x <- idx b w ;; Val (VNum (nibble8 x i))
      | SU7 => x <- idx b w ;; Val (VNum (septet8 x))
      | SU14 =>
          x <- idx b w ;; y <- idx b (w + 1) ;;
          Val (VNum (u14_from_u7s (septet8 x) (septet8 y)))
      | _ => Panic
      end
  end.

(** [BytesSchemaRepr::write]: schema.rs 142-144, 184-186, 274-279 *)
Definition bytes_write (t : sty) (m : mask3) (b : list N) (v : value) : outcome (list N) :=
  match lookup3 m (bytes_table t) with
  | None => Panic
  | Some (w, i) =>
      match t, v with
      | SU4, VNum x => upd b w (fun y => set_nibble8 y i x)
      | SU7, VNum x => upd b w (fun y => set_septet8 y x)
      | SU14, VNum x =>
          match u14_to_u7s x with
          | [a; c] =>
              b1 <- upd b w (fun y => set_septet8 y a) ;;
              upd b1 (w + 1) (fun y => set_septet8 y c)
          | _ => Panic
          end
      | _, _ => Panic
      end
  end.
