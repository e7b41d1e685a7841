(** SPECIFICATION.  More defects for C63: byte slices given to the enum of one family. *)
From Coq Require Import NArith List String Arith.
From Verif Require Import Base Values Message Aggregate SpecAggregate SpecErrors.
Import ListNotations.
Local Open Scope string_scope.
Local Open Scope nat_scope.
Local Open Scope list_scope.

(** [SystemCommon] and [ChannelVoice1] over bytes.  [midi1_type s] is the type that the standard gives to status byte [s]. *)
Definition byte_family_defects (f : family) (b : list N) : list complaint :=
  let s := nth 0 b 0%N in
  ("Slice is too short", b = [])
  :: ("Unknown midi1 channel voice status", forall c, In c (types_of f) -> midi1_type s <> Some (type_name c))
  :: flat_map (fun c => map (fun d => (fst d, midi1_type s = Some (type_name c) /\ snd d)) (type_defects U8 c b)) (types_of f).
