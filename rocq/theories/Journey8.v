(** Client programs that take one [Sysex8] message through edits and copies.  Nothing
    here models new code; each case names the method it stands for. *)
From Coq Require Import NArith List Bool Arith String.
From Verif Require Import Base BitOps Values Props Message Sysex Splice Aggregate SpecEdits SysexClient SpecSysex SpecJourney8.
Import ListNotations.
Local Open Scope nat_scope.

(** What the client holds: a [Sysex8] over a [Vec<u32>] or a [[u32; n]], by the
    contents of its buffer. *)
Record held8 := { k_array : bool; k_buffer : list N }.
Definition holding (array : bool) (b : list N) : held8 := {| k_array := array; k_buffer := b |}.

(** A copy that fails leaves the client with what it had. *)
Definition take_step8 (s : leg8) (h : held8) : outcome (held8 * bool) :=
  match s with
  (* traits.rs 561-662, sysex8.rs 21-45: the [Sysex] methods, [set_group] *)
  | Edit8 e =>
      if k_array h then r <- try_edit EightBit e (k_buffer h) ;; Val (holding true (fst r), snd r)
      else b <- apply_edit EightBit e (k_buffer h) ;; Val (holding false b, true)
  (* generate_message.rs 390-468: [rebuffer_into], [try_rebuffer_into],
     [array_rebuffer_into] *)
  | CopyToVec8 => Val (holding false (rebuffer_vec (k_buffer h)), true)
  | CopyToArray8 n =>
      Val (match try_rebuffer_array (k_buffer h) n with Ok b => (holding true b, true) | Err _ => (h, false) end)
  | CopyData8 n => a <- agg_array_rebuffer U32 (CSysex8, k_buffer h) n ;; Val (holding true (snd a), true)
  end.

Fixpoint journey8 (ss : list leg8) (h : held8) : outcome (held8 * list bool) :=
  match ss with
  | [] => Val (h, [])
  | s :: t =>
      r <- take_step8 s h ;;
      q <- journey8 t (fst r) ;;
      Val (fst q, snd r :: snd q)
  end.

(** sysex8.rs 21-45: [new], [try_new] *)
Definition set_out8 (array : option nat) : outcome (res held8) :=
  match array with
  | None => b <- sx_new fmt8 ;; Val (Ok (holding false b))
  | Some n => b <-? sx_try_new fmt8 n ;; Val (Ok (holding true b))
  end.
