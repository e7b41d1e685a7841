(** SPECIFICATION.  Vocabulary for messages that are copied from buffer to buffer. *)
From Coq Require Import NArith List Arith.
From Verif Require Import Base Values Props Message Aggregate SpecSysex SpecText.
Import ListNotations.

(** One rebuffering: into a growable buffer, into an array with room for the whole
    buffer, or into an array with room for [data()]. *)
Inductive copied_once (u : unit_id) (a : aggregate) : aggregate -> Prop :=
| into_vec : copied_once u a (agg_rebuffer_vec a)
| into_array_checked n a' : agg_try_rebuffer_array a n = Ok a' -> copied_once u a a'
| into_array n a' : agg_array_rebuffer u a n = Val a' -> copied_once u a a'.

(** Any number of them. *)
Inductive copied_on (u : unit_id) (a : aggregate) : aggregate -> Prop :=
| not_copied : copied_on u a a
| copied_again a' a'' : copied_on u a a' -> copied_once u a' a'' -> copied_on u a a''.

(** System exclusive types. *)
Definition sysex_of (fm : form) : concrete := match fm with SevenBit => CSysex7 | EightBit => CSysex8 end.

(** The message [d], at most zeros behind it. *)
Definition zero_padded (d b : list N) : Prop := exists n, b = (d ++ repeat 0%N n)%list.

(** The last byte of a slice is not used by a text. *)
Definition spare_byte (d : list N) : Prop := last (all_bytes d) 0%N = 0%N.
