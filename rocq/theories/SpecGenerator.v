(** SPECIFICATION.  What a client that lays messages out in one array expects. *)
From Coq Require Import NArith List String Bool Arith.
From Verif Require Import Base Values Props Message MessageTable SpecLayout SpecFixed Sysex Splice SpecSysex SpecEdits
  Aggregate SpecAggregate SpecStream Generator.
Import ListNotations.
Local Open Scope nat_scope.

(** The call's arguments are of the right types: a message type that exists in bytes
    and can be constructed, setters of that type; 7-bit payload, announced exactly. *)
Definition proper (o : order) : Prop :=
  match o with
  | Simple m _ h => In m all_messages /\ supports U8 m = true /\ constructible U8 m /\ SpecFixed.legal U8 m h
  | Exclusive _ s => Forall (is_unit SevenBit) (s_items s) /\ announced s = List.length (s_items s)
  end.

(** The bytes the message needs. *)
Definition needed (o : order) : nat :=
  match o with Simple m _ _ => min_size U8 m | Exclusive _ s => List.length (s_items s) + 2 end.

(** The regions, one behind the other from [at_] on. *)
Fixpoint total (os : list order) : nat := match os with [] => 0 | o :: t => order_size o + total t end.
Fixpoint laid_out (at_ : nat) (os : list order) : list pointer :=
  match os with
  | [] => []
  | o :: t => {| p_type := order_type o; p_at := at_; p_len := order_size o |} :: laid_out (at_ + order_size o) t
  end.

(** The message [a] is what the order asked for: it is of that type, valid, its data
    is one whole message, and it reads as what was set, or the defaults. *)
Definition delivered (o : order) (a : aggregate) : Prop :=
  fst a = order_type o /\ accepted U8 (fst a) (snd a)
  /\ (exists d, concrete_data U8 (fst a) (snd a) = Val d /\ whole U8 (fst a, d) /\ List.length d = needed o)
  /\ match o with
     | Simple m _ h => forall f w, settable_field U8 m f w ->
         get U8 m (snd a) f = Val (match last_set f h with Some v => v | None => default_value w end)
     | Exclusive _ s => payload_list_b (snd a) = Val (s_items s)
     end.
