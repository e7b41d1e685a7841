(** The texts of errors, and the alternate form [{:#?}] of the [Debug] texts of messages and packets (Show.v).

    Error texts are modelled as strings of ASCII characters: how [str]'s [Debug] prints a character of 128 or more
    depends on tables of the Unicode standard.  All error texts in /repo are ASCII. *)
From Coq Require Import NArith List String Ascii Bool.
From Verif Require Import Base Values Props Message Aggregate SpecAggregate Packet Show.
Import ListNotations.
Local Open Scope string_scope.

(** [{:?}] and [{:#?}]. *)
Inductive style := Plain | Alternate.

Definition nl : ascii := "010"%char.

(** core::fmt::builders, [PadAdapter]: four spaces at the start of every line.  [fresh]: at the start of a line. *)
Fixpoint pad (fresh : bool) (s : string) : string :=
  match s with
  | "" => ""
  | String a t => (if fresh then "    " else "") ++ String a (pad (Ascii.eqb a nl) t)
  end.

(** core::fmt::builders, [DebugTuple] with one field, the derived [Debug] of a tuple struct or variant: in the
    alternate form the field and the comma behind it are written through the [PadAdapter]. *)
Definition tuple1 (st : style) (name inner : string) : string :=
  match st with
  | Plain => in_variant name inner
  | Alternate => name ++ "(" ++ String nl (pad true (inner ++ "," ++ String nl "")) ++ ")"
  end.

(** [{:?}] and [{:#?}] of a message in [UmpMessage] or [BytesMessage] (message.rs 14, 92).  The message's own text is
    the same in both (derives.rs 431-465 writes every part with a format of its own). *)
Definition show_message_as (st : style) (u : unit_id) (f : family) (a : aggregate) : string :=
  let inner := show_struct u (struct_name (fst a)) (snd a) in
  tuple1 st (variant_name f)
    (match f with Sysex7 | Sysex8 => inner | _ => tuple1 st (struct_name (fst a)) inner end).
(** ... and of a [Packet] (midi2/src/packet.rs 5). *)
Definition show_packet_as (st : style) (p : packet) : string :=
  tuple1 st (kind_name (fst p)) (show_struct U32 "Packet" (snd p)).

(** core::str, [Debug] of a [str] of ASCII characters: [char::escape_debug_ext] of each, single quotes excepted. *)
Definition low_hex (d : N) : ascii := ascii_of_N (if (d <? 10)%N then 48 + d else 87 + d)%N.
Definition escape (a : ascii) : string :=
  let n := N_of_ascii a in
  if (n =? 0)%N then "\0" else if (n =? 9)%N then "\t" else if (n =? 10)%N then "\n" else if (n =? 13)%N then "\r"
  else if (n =? 34)%N then String "\" (String a "") else if (n =? 92)%N then "\\"
  else if ((n <? 32) || (n =? 127))%N then
    "\u{" ++ (if (n <? 16)%N then "" else String (low_hex (n / 16)) "") ++ String (low_hex (n mod 16)) "}"
  else String a "".
Fixpoint escapes (s : string) : string :=
  match s with "" => "" | String a t => escape a ++ escapes t end.
Definition quote : string := String (ascii_of_N 34) "".
Definition debug_str (s : string) : string := quote ++ escapes s ++ quote.

(** error.rs 1-5: [Error].  [BufferOverflow] (19-20) has no contents; [InvalidData] (22-23) has a text. *)
Inductive error := Overflow | Invalid (text : string).
(** error.rs 7-11, 13-17: [From<BufferOverflow>], [From<InvalidData>] *)
Definition from_overflow (_ : unit) : error := Overflow.
Definition from_invalid (text : string) : error := Invalid text.

(** error.rs 19, 22: derived [Debug] of [BufferOverflow] and [InvalidData] *)
Definition debug_overflow (_ : style) : string := "BufferOverflow".
Definition debug_invalid (st : style) (text : string) : string := tuple1 st "InvalidData" (debug_str text).
(** error.rs 29-33, 39-43: their [Display] is their [Debug], with the flags of the formatter: [{}] and [{:#}] *)
Definition display_overflow (st : style) : string := debug_overflow st.
Definition display_invalid (st : style) (text : string) : string := debug_invalid st text.
(** error.rs 1: derived [Debug] of [Error]; a variant without fields is its name *)
Definition debug_error (st : style) (e : error) : string :=
  match e with
  | Overflow => "BufferOverflow"
  | Invalid text => tuple1 st "InvalidData" (debug_invalid st text)
  end.

(** A client that reports what went wrong.  Model of

      fn keep<const N: usize>(words: &[u32]) -> Result<UmpMessage<[u32; N]>, midi2::error::Error> {
          let message = UmpMessage::try_from(words)?;
          Ok(message.try_rebuffer_into()?)
      }

    over message.rs 32-89 and derives.rs 205-238; [?] converts the errors by error.rs 7-17. *)
Definition keep (n : nat) (b : list N) : outcome (aggregate + error) :=
  r <- ump_try_from b ;;
  match r with
  | Err e => Val (inr (from_invalid e))
  | Ok a => match agg_try_rebuffer_array a n with Ok a' => Val (inl a') | Err _ => Val (inr (from_overflow tt)) end
  end.
