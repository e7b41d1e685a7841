(** SPECIFICATION.  The MIDI-CI Discovery inquiry (M2-101-UM, section 5.5):
    its fields, its bytes, and sequences of calls that set its fields. *)
From Coq Require Import NArith List Bool.
From Verif Require Import Base SpecLayout Ci.
Import ListNotations.
Local Open Scope N_scope.

(** The version that introduced a field. *)
Definition since (f : field) : N := match f with FOutputPathId => 2 | _ => 1 end.

(** The values a field can have. *)
Definition field_type (f : field) (v : ci_value) : Prop :=
  match f, v with
  | (FSource | FMaxSysexSize), CiNum n => n < 2 ^ 28
  | (FFamily | FModel), CiNum n => n < 2 ^ 14
  | FOutputPathId, CiNum n => n < 2 ^ 7
  | FManufacturer, CiBytes l => List.length l = 3%nat /\ Forall (fun x => x < 2 ^ 7) l
  | FSoftware, CiBytes l => List.length l = 4%nat /\ Forall (fun x => x < 2 ^ 7) l
  | (FProcessInquiry | FPropertyExchange | FProfileConfiguration | FProtocolNegotiation), CiFlag _ => True
  | _, _ => False
  end.

(** The contents of an inquiry. *)
Definition contents := field -> ci_value.
Definition blank : contents := fun f =>
  match f with
  | FSource | FFamily | FModel | FMaxSysexSize | FOutputPathId => CiNum 0
  | FManufacturer => CiBytes [0; 0; 0]
  | FSoftware => CiBytes [0; 0; 0; 0]
  | _ => CiFlag false
  end.
Definition field_eqb (f g : field) : bool :=
  match f, g with
  | FSource, FSource | FManufacturer, FManufacturer | FFamily, FFamily | FModel, FModel | FSoftware, FSoftware
  | FProcessInquiry, FProcessInquiry | FPropertyExchange, FPropertyExchange
  | FProfileConfiguration, FProfileConfiguration | FProtocolNegotiation, FProtocolNegotiation
  | FMaxSysexSize, FMaxSysexSize | FOutputPathId, FOutputPathId => true
  | _, _ => false
  end.
Definition updated (s : contents) (e : field * ci_value) : contents :=
  fun g => if field_eqb (fst e) g then snd e else s g.

(** Numbers are sent in groups of seven bits, least significant first. *)
Definition number (v : ci_value) : N := match v with CiNum n => n | _ => 0 end.
Definition digit (i : N) (v : ci_value) : N := (number v / 128 ^ i) mod 128.
Definition item (i : nat) (v : ci_value) : N := match v with CiBytes l => nth i l 0 | _ => 0 end.
Definition flag (w : N) (v : ci_value) : N := match v with CiFlag true => w | _ => 0 end.

(** The inquiry of version [v] with contents [s]. *)
Definition inquiry (v : N) (s : contents) : list N :=
  [0xF0; 0x7E; 0x7F; 0x0D; 0x70; v;
   digit 0 (s FSource); digit 1 (s FSource); digit 2 (s FSource); digit 3 (s FSource);
   0x7F; 0x7F; 0x7F; 0x7F;
   item 0 (s FManufacturer); item 1 (s FManufacturer); item 2 (s FManufacturer);
   digit 0 (s FFamily); digit 1 (s FFamily);
   digit 0 (s FModel); digit 1 (s FModel);
   item 0 (s FSoftware); item 1 (s FSoftware); item 2 (s FSoftware); item 3 (s FSoftware);
   flag 0x10 (s FProcessInquiry) + flag 0x08 (s FPropertyExchange)
     + flag 0x04 (s FProfileConfiguration) + flag 0x02 (s FProtocolNegotiation);
   digit 0 (s FMaxSysexSize); digit 1 (s FMaxSysexSize); digit 2 (s FMaxSysexSize); digit 3 (s FMaxSysexSize)]
  ++ (if v =? 2 then [number (s FOutputPathId)] else [])
  ++ [0xF7].

(** The bytes a field occupies, with their significant bits. *)
Definition bytes_from (w n : nat) : list seg := map (fun i => Seg i 0 8) (seq w n).
Definition places (f : field) : list seg :=
  match f with
  | FSource => bytes_from 6 4
  | FManufacturer => bytes_from 14 3
  | FFamily => bytes_from 17 2
  | FModel => bytes_from 19 2
  | FSoftware => bytes_from 21 4
  | FProcessInquiry => [Seg 25 4 1]
  | FPropertyExchange => [Seg 25 3 1]
  | FProfileConfiguration => [Seg 25 2 1]
  | FProtocolNegotiation => [Seg 25 1 1]
  | FMaxSysexSize => bytes_from 26 4
  | FOutputPathId => [Seg 30 0 8]
  end.

(** What a message must have to be an inquiry of version [v]. *)
Definition is_inquiry (v : N) (b : list N) : Prop :=
  ((if (v =? 2)%N then 32 else 31) <= List.length b)%nat
  /\ nth 0 b 0 = 0xF0 /\ nth 1 b 0 = 0x7E /\ nth 2 b 0 = 0x7F /\ nth 3 b 0 = 0x0D /\ nth 4 b 0 = 0x70
  /\ nth 5 b 0 = v
  /\ nth 10 b 0 mod 128 = 127 /\ nth 11 b 0 mod 128 = 127 /\ nth 12 b 0 mod 128 = 127 /\ nth 13 b 0 mod 128 = 127
  /\ In 0xF7 b.

(** ** Clients *)

(** Getters and setters. *)
Definition ci_get (f : field) (b : list N) : outcome ci_value := ci_read (field_prop f) b.
Definition ci_set (e : field * ci_value) (b : list N) : outcome (list N) := ci_write (field_prop (fst e)) (snd e) b.
(** A sequence of setter calls; [set_output_path_id] only exists from version 2 on. *)
Fixpoint ci_sets (h : list (field * ci_value)) (b : list N) : outcome (list N) :=
  match h with [] => Val b | e :: t => b' <- ci_set e b ;; ci_sets t b' end.
Definition ci_call_ok (v : N) (e : field * ci_value) : Prop := since (fst e) <= v /\ field_type (fst e) (snd e).
