(** SPECIFICATION.  Vocabulary for printed errors and the alternate form of Debug texts (C69). *)
From Coq Require Import NArith List String Ascii Bool.
Import ListNotations.
Local Open Scope string_scope.

(** Characters below 128. *)
Definition is_ascii (s : string) : Prop := Forall (fun a => (N_of_ascii a < 128)%N) (list_ascii_of_string s).

(** Characters from the space to the tilde, without the double quote and the backslash. *)
Definition readable (s : string) : Prop :=
  Forall (fun a => let n := N_of_ascii a in (32 <= n < 127 /\ n <> 34 /\ n <> 92)%N) (list_ascii_of_string s).

(** One text of several lines; a line in a block of the given depth. *)
Definition newline : ascii := "010"%char.
Definition of_lines (l : list string) : string := String.concat (String newline "") l.
Fixpoint at_depth (n : nat) (line : string) : string :=
  match n with O => line | S k => "    " ++ at_depth k line end.

(** A text without its layout: line breaks, the spaces behind them and the comma before them are left out.
    [fresh]: since the line break there were only spaces. *)
Definition starts_line (s : string) : bool := match s with String a _ => Ascii.eqb a newline | "" => false end.
Fixpoint joined (fresh : bool) (s : string) : string :=
  match s with
  | "" => ""
  | String a t =>
      if Ascii.eqb a newline then joined true t
      else if fresh && Ascii.eqb a " " then joined true t
      else if Ascii.eqb a "," && starts_line t then joined false t
      else String a (joined false t)
  end.
Definition without_layout (s : string) : string := joined false s.

(** A text between double quotes. *)
Definition quoted (s : string) : string := String (ascii_of_N 34) (s ++ String (ascii_of_N 34) "").
