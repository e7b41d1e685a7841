(** SPECIFICATION.  Vocabulary for Debug output. *)
From Coq Require Import NArith List String Ascii Bool.
From Verif Require Import Base Values Props Message Text Aggregate SpecAggregate.
Import ListNotations.
Local Open Scope string_scope.

(** Hexadecimal numbers: their digits, and their value, [acc] being the value of
    the digits read before. *)
Definition hex_chars (s : string) : Prop :=
  Forall (fun a => In a (list_ascii_of_string "0123456789ABCDEF")) (list_ascii_of_string s).
Definition digit_value (a : ascii) : N := let n := N_of_ascii a in (if (n <? 58) then n - 48 else n - 55)%N.
Fixpoint hex_value (s : string) (acc : N) : N :=
  match s with "" => acc | String a t => hex_value t (acc * 16 + digit_value a)%N end.

(** Hexadecimal digits of a byte and of a word. *)
Definition unit_digits (u : unit_id) : nat := match u with U8 => 2 | U32 => 8 end.

(** The text of one byte or word. *)
Definition unit_text (u : unit_id) (v : N) (s : string) : Prop :=
  exists t, s = "0x" ++ t /\ String.length t = unit_digits u /\ hex_chars t /\ hex_value t 0 = v.

(** The families' modules, and the variants of [UmpMessage], [BytesMessage] and
    [Packet] for them. *)
Definition family_names (f : family) : string * string :=
  match f with
  | Utility => ("utility", "Utility") | SystemCommon => ("system_common", "SystemCommon")
  | ChannelVoice1 => ("channel_voice1", "ChannelVoice1") | ChannelVoice2 => ("channel_voice2", "ChannelVoice2")
  | Sysex7 => ("sysex7", "Sysex7") | Sysex8 => ("sysex8", "Sysex8")
  | FlexData => ("flex_data", "FlexData") | UmpStream => ("ump_stream", "UmpStream")
  end.

(** The text [inner], as the field of a variant called [name]. *)
Definition around (name inner : string) : string := name ++ "(" ++ inner ++ ")".
