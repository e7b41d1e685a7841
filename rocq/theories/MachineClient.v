(** Client programs over the model in machine arithmetic: SysexClient.v for a
    given build.  Nothing here models new code. *)
From Coq Require Import NArith List Bool Arith.
From Verif Require Import Base BitOps Machine Sysex Splice MachineSysex SpecSysex SpecEdits SysexClient.
Import ListNotations.
Local Open Scope nat_scope.

Definition apply_edit_m (bd : build) (fm : form) (e : edit) (b : list N) : outcome (list N) :=
  let o := ump_ops_m bd (fmt_for fm) Growable in
  match e with
  | SetPayload src => set_payload_m bd o b src
  | SplicePayload src lo hi => splice_m bd o b src lo hi
  | InsertPayload src i => insert_payload_m bd o b src i
  | AppendPayload src => append_payload_m bd o b src
  | AppendByte v => append_byte_m bd o b v
  | SetByte v i => set_byte_m bd (fmt_for fm) b v i
  | SetGroup g => set_group (fmt_for fm) b g
  end.
Definition apply_edit_b_m (bd : build) (e : edit) (b : list N) : outcome (list N) :=
  let o := bytes_ops_m bd Growable in
  match e with
  | SetPayload src => set_payload_m bd o b src
  | SplicePayload src lo hi => splice_m bd o b src lo hi
  | InsertPayload src i => insert_payload_m bd o b src i
  | AppendPayload src => append_payload_m bd o b src
  | AppendByte v => append_byte_m bd o b v
  | SetByte v i => set_byte_b_m bd b v i
  | SetGroup _ => Val b
  end.
Definition try_edit_m (bd : build) (fm : form) (e : edit) (b : list N) : outcome (list N * bool) :=
  let o := ump_ops_m bd (fmt_for fm) Fixed in
  match e with
  | SetPayload src => try_set_payload_m bd o b src
  | SplicePayload src lo hi => try_splice_m bd o b src lo hi
  | InsertPayload src i => try_insert_payload_m bd o b src i
  | AppendPayload src => try_append_payload_m bd o b src
  | AppendByte v => try_append_byte_m bd o b v
  | SetByte v i => b' <- set_byte_m bd (fmt_for fm) b v i ;; Val (b', true)
  | SetGroup g => b' <- set_group (fmt_for fm) b g ;; Val (b', true)
  end.
Definition try_edit_b_m (bd : build) (e : edit) (b : list N) : outcome (list N * bool) :=
  let o := bytes_ops_m bd Fixed in
  match e with
  | SetPayload src => try_set_payload_m bd o b src
  | SplicePayload src lo hi => try_splice_m bd o b src lo hi
  | InsertPayload src i => try_insert_payload_m bd o b src i
  | AppendPayload src => try_append_payload_m bd o b src
  | AppendByte v => try_append_byte_m bd o b v
  | SetByte v i => b' <- set_byte_b_m bd b v i ;; Val (b', true)
  | SetGroup _ => Val (b, true)
  end.

(** Iterator calls, each followed by [len()]. *)
Fixpoint run_calls_m (bd : build) (f : fmt) (cs : list call) (it : iter) : outcome (list (option N * nat)) :=
  match cs with
  | [] => Val []
  | c :: t =>
      r <- match c with Next => it_next_m bd f it | Nth n => it_nth_m bd f it n end ;;
      q <- run_calls_m bd f t (snd r) ;;
      Val ((fst r, it_len (snd r)) :: q)
  end.
Fixpoint run_calls_b_m (bd : build) (cs : list call) (it : iter_b) : outcome (list (option N * nat)) :=
  match cs with
  | [] => Val []
  | c :: t =>
      r <- match c with Next => ib_next it | Nth n => ib_nth_m bd it n end ;;
      n <- ib_len (snd r) ;;
      q <- run_calls_b_m bd t (snd r) ;;
      Val ((fst r, n) :: q)
  end.
