(** Client programs over the model: one method call per edit or iterator call.
    Nothing here models new code; each case names the method it stands for. *)
From Coq Require Import NArith List Bool Arith.
From Verif Require Import Base BitOps Sysex Splice SpecSysex SpecEdits.
Import ListNotations.
Local Open Scope nat_scope.

(** The constants of the two message types (sysex7.rs 13, sysex8.rs 9). *)
Definition fmt_for (fm : form) : fmt := match fm with SevenBit => fmt7 | EightBit => fmt8 end.

(** [Sysex7]/[Sysex8] over a [Vec<u32>]: traits.rs 561-662 and the [set_*]
    methods of sysex7.rs and sysex8.rs. *)
Definition apply_edit (fm : form) (e : edit) (b : list N) : outcome (list N) :=
  let o := ump_ops (fmt_for fm) Growable in
  match e with
  | SetPayload src => set_payload o b src
  | SplicePayload src lo hi => splice o b src lo hi
  | InsertPayload src i => insert_payload o b src i
  | AppendPayload src => append_payload o b src
  | AppendByte v => append_byte o b v
  | SetByte v i => set_byte (fmt_for fm) b v i
  | SetGroup g => set_group (fmt_for fm) b g
  end.

(** [Sysex7] over a [Vec<u8>].  The group of a byte message is not stored
    (sysex7.rs 225-239). *)
Definition apply_edit_b (e : edit) (b : list N) : outcome (list N) :=
  let o := bytes_ops Growable in
  match e with
  | SetPayload src => set_payload o b src
  | SplicePayload src lo hi => splice o b src lo hi
  | InsertPayload src i => insert_payload o b src i
  | AppendPayload src => append_payload o b src
  | AppendByte v => append_byte o b v
  | SetByte v i => set_byte_b b v i
  | SetGroup _ => Val b
  end.

(** [Sysex7]/[Sysex8] over an array or slice of [u32]: the [try_*] methods.
    The boolean is [Ok]. *)
Definition try_edit (fm : form) (e : edit) (b : list N) : outcome (list N * bool) :=
  let o := ump_ops (fmt_for fm) Fixed in
  match e with
  | SetPayload src => try_set_payload o b src
  | SplicePayload src lo hi => try_splice o b src lo hi
  | InsertPayload src i => try_insert_payload o b src i
  | AppendPayload src => try_append_payload o b src
  | AppendByte v => try_append_byte o b v
  | SetByte v i => b' <- set_byte (fmt_for fm) b v i ;; Val (b', true)
  | SetGroup g => b' <- set_group (fmt_for fm) b g ;; Val (b', true)
  end.

(** [Sysex7] over an array or slice of [u8]. *)
Definition try_edit_b (e : edit) (b : list N) : outcome (list N * bool) :=
  let o := bytes_ops Fixed in
  match e with
  | SetPayload src => try_set_payload o b src
  | SplicePayload src lo hi => try_splice o b src lo hi
  | InsertPayload src i => try_insert_payload o b src i
  | AppendPayload src => try_append_payload o b src
  | AppendByte v => try_append_byte o b v
  | SetByte v i => b' <- set_byte_b b v i ;; Val (b', true)
  | SetGroup _ => Val (b, true)
  end.

(** Histories: client programs that call the methods above one after another; nothing in the
    repository corresponds to them. *)
Fixpoint run_edits (step : edit -> list N -> outcome (list N)) (es : list edit) (b : list N)
  : outcome (list N) :=
  match es with
  | [] => Val b
  | e :: t => b' <- step e b ;; run_edits step t b'
  end.
Fixpoint run_tries (step : edit -> list N -> outcome (list N * bool)) (es : list edit) (b : list N)
  : outcome (list N * list bool) :=
  match es with
  | [] => Val (b, [])
  | e :: t =>
      r <- step e b ;;
      q <- run_tries step t (fst r) ;;
      Val (fst q, snd r :: snd q)
  end.

(** Iterator calls, each followed by [len()]: [next], [nth] and [len] of sysex7.rs 859-957,
    1008-1016 and sysex8.rs 217-301. *)
Fixpoint run_calls (f : fmt) (cs : list call) (it : iter) : outcome (list (option N * nat)) :=
  match cs with
  | [] => Val []
  | c :: t =>
      r <- match c with Next => it_next f it | Nth n => it_nth f it n end ;;
      q <- run_calls f t (snd r) ;;
      Val ((fst r, it_len (snd r)) :: q)
  end.
Fixpoint run_calls_b (cs : list call) (it : iter_b) : outcome (list (option N * nat)) :=
  match cs with
  | [] => Val []
  | c :: t =>
      r <- match c with Next => ib_next it | Nth n => ib_nth it n end ;;
      n <- ib_len (snd r) ;;
      q <- run_calls_b t (snd r) ;;
      Val ((fst r, n) :: q)
  end.
