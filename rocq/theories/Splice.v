(** Payload editing: midi2/src/detail/helpers.rs 92-254, the provided methods of
    [Sysex] (midi2/src/traits.rs) and the conversions of sysex7.rs 286-410.

    The algorithm of helpers.rs is generic over the [SysexInternal] trait; here
    it is a function of a record of the trait's operations. *)
From Coq Require Import NArith List String Bool Arith.
From Verif Require Import Base BitOps Schema Props Helpers Message Sysex.
Import ListNotations.
Local Open Scope string_scope.
Local Open Scope list_scope.
Local Open Scope nat_scope.

(** traits.rs 667-704 [SysexInternal] and the parts of [Sysex] the algorithm uses, with
    [resize] already chosen ([resize] for growable buffers, [try_resize] for
    fixed ones).  [Some n] from [o_resize] is [Err(SysexTryResizeError(n))]. *)
Record ops := {
  o_compact : list N -> outcome (list N);
  o_payload_size : list N -> outcome nat;
  o_resize : list N -> nat -> outcome (list N * option nat);
  o_write : list N -> N -> nat -> outcome (list N);
  o_move : list N -> nat -> nat -> outcome (list N)
}.

(** An iterator handed in by the caller (helpers.rs 92-101, 115-124): the items it will yield and what its
    [size_hint] says.  Nothing relates the two: [size_hint] is advisory. *)
Record source := { s_items : list N; s_hint : nat * option nat }.

(** core::ops::Bound, matched in helpers.rs 161-170 *)
Inductive bound := Included (v : nat) | Excluded (v : nat) | Unbounded.

(** helpers.rs 161-170 *)
Definition begin_of (r : bound) : nat :=
  match r with Included v => v | Excluded v => v + 1 | Unbounded => 0 end.
Definition end_of (r : bound) (initial : nat) : nat :=
  match r with Included v => v + 1 | Excluded v => v | Unbounded => initial end.

(** helpers.rs 173-177 *)
Definition estimate (h : nat * option nat) : nat :=
  match h with (_, Some u) => u | (l, None) => l end.

(** helpers.rs 198-208: write items while there is room.  Returns the buffer,
    the number written so far, the items left and whether the source ran dry
    ([break 'main]). *)
Fixpoint fill (o : ops) (b : list N) (data : list N) (at_ written room : nat)
  : outcome (list N * nat * list N * bool) :=
  if written <? room then
    match data with
    | v :: t => b' <- o_write o b v (at_ + written) ;; fill o b' t at_ (S written) room
    | [] => Val (b, written, [], true)
    end
  else Val (b, written, data, false).

(** helpers.rs 197-245: the main loop.  Each round leaves the loop or writes at
    least one item, so [fuel = S (length items)] loses nothing.  [Ok] carries the
    buffer, the number of items written and the tail; [Err] the buffer. *)
Inductive looped := Done (b : list N) (written tail : nat) | Overflow (b : list N).

Fixpoint main_loop (fuel : nat) (o : ops) (b : list N) (data : list N)
  (begin_ splice initial written est tail extra : nat) : outcome looped :=
  match fuel with
  | O => Panic
  | S k =>
      r <- fill o b data begin_ written est ;;
      let '(b1, w, rest, dry) := r in
      if dry then Val (Done b1 w tail)
      else
        (* debug_assert_eq!(written, running_data_size_estimate) *)
        if negb (w =? est) then Panic
        else
          match rest with
          | [] => Val (Done b1 w tail)
          | _ =>
              let est1 := est + extra in
              let to := begin_ + est1 in
              n <- sub_chk (est1 + initial) splice ;;
              st <- (if tail <? to then
                       q <- o_resize o b1 n ;;
                       match q with
                       | (b2, None) => Val (b2, est1, to)
                       | (b2, Some sz) =>
                           d <- sub_chk initial splice ;;
                           let est2 := sz - d in
                           to2 <- sub_chk (begin_ + est2) splice ;;
                           Val (b2, est2, to2)
                       end
                     else Val (b1, est1, to)) ;;
              let '(b2, est2, to2) := st in
              b3 <- o_move o b2 tail to2 ;;
              if est2 <=? w then Val (Overflow b3)
              else main_loop k o b3 rest begin_ splice initial w est2 (begin_ + est2) (extra * 2)
          end
  end.

(** helpers.rs 142-254: [detail::try_splice_sysex_data].  The boolean is [Ok]. *)
Definition splice_detail (o : ops) (b : list N) (src : source) (lo hi : bound)
  : outcome (list N * bool) :=
  b0 <- o_compact o b ;;
  initial <- o_payload_size o b0 ;;
  let b_ := begin_of lo in
  let e_ := end_of hi initial in
  splice <- sub_chk e_ b_ ;;
  let est0 := estimate (s_hint src) in
  st <- (if e_ <? e_ + est0 - splice then
           n <- sub_chk (est0 + initial) splice ;;
           q <- o_resize o b0 n ;;
           match q with
           | (b1, None) => Val (b1, est0)
           | (b1, Some sz) => d <- sub_chk initial splice ;; Val (b1, sz - d)
           end
         else Val (b0, est0)) ;;
  let '(b1, est) := st in
  let tail := e_ + est - splice in
  b2 <- o_move o b1 e_ tail ;;
  l <- main_loop (S (List.length (s_items src))) o b2 (s_items src) b_ splice initial 0 est tail 1 ;;
  match l with
  | Overflow b3 => Val (b3, false)
  | Done b3 w tail' =>
      b4 <- o_move o b3 tail' (b_ + w) ;;
      n <- sub_chk (w + initial) splice ;;
      q <- o_resize o b4 n ;;
      match q with (b5, None) => Val (b5, true) | (b5, Some _) => Val (b5, false) end
  end.

(** helpers.rs 115-135: [splice_sysex_data] on a growable buffer *)
Definition splice (o : ops) (b : list N) (src : source) (lo hi : bound) : outcome (list N) :=
  r <- splice_detail o b src lo hi ;;
  match r with (b', true) => Val b' | (_, false) => Panic end.

(** helpers.rs 92-113: [try_splice_sysex_data] on a fixed buffer.  The buffer is
    returned in both cases because the caller still owns the message after an
    [Err(BufferOverflow)]. *)
Definition try_splice (o : ops) (b : list N) (src : source) (lo hi : bound)
  : outcome (list N * bool) :=
  r <- splice_detail o b src lo hi ;;
  match r with
  | (b', true) => Val (b', true)
  | (b', false) => q <- o_resize o b' 0 ;; Val (fst q, false)
  end.

(** traits.rs 561-662: the provided methods ([try_insert_payload],
    [try_append_payload], ... are the same over [try_splice]); sysex7.rs
    449-468, sysex8.rs 352-370: [set_payload], [try_set_payload]. *)
Definition insert_payload (o : ops) (b : list N) (src : source) (i : nat) : outcome (list N) :=
  splice o b src (Included i) (Excluded i).
Definition append_payload (o : ops) (b : list N) (src : source) : outcome (list N) :=
  n <- o_payload_size o b ;; insert_payload o b src n.
Definition append_byte (o : ops) (b : list N) (v : N) : outcome (list N) :=
  append_payload o b {| s_items := [v]; s_hint := (1, Some 1) |}.
Definition set_payload (o : ops) (b : list N) (src : source) : outcome (list N) :=
  q <- o_resize o b 0 ;; insert_payload o (fst q) src 0.

Definition try_insert_payload (o : ops) (b : list N) (src : source) (i : nat)
  : outcome (list N * bool) :=
  try_splice o b src (Included i) (Excluded i).
Definition try_append_payload (o : ops) (b : list N) (src : source) : outcome (list N * bool) :=
  n <- o_payload_size o b ;; try_insert_payload o b src n.
Definition try_append_byte (o : ops) (b : list N) (v : N) : outcome (list N * bool) :=
  try_append_payload o b {| s_items := [v]; s_hint := (1, Some 1) |}.
Definition try_set_payload (o : ops) (b : list N) (src : source) : outcome (list N * bool) :=
  q <- o_resize o b 0 ;;
  match q with
  | (b', None) => try_insert_payload o b' src 0
  | (b', Some _) => Val (b', false)
  end.

(** The four instances.  sysex7.rs 527-578, sysex8.rs 419-438: the two ways of
    resizing a UMP buffer. *)
Definition ump_ops (f : fmt) (k : room) : ops :=
  {| o_compact := compact f; o_payload_size := payload_size f;
     o_resize := try_resize f k; o_write := write_datum f; o_move := move_tail f |}.
Definition bytes_ops (k : room) : ops :=
  {| o_compact := fun b => Val b; o_payload_size := payload_size_b;
     o_resize := match k with
                 | Fixed => try_resize_b
                 | Custom _ => try_resize_bytes k
                 | _ => fun b n => b' <- resize_b b n ;; Val (b', None)
                 end;
     o_write := write_datum_b; o_move := move_tail_b |}.

(** ** Conversion between the two forms of [Sysex7] *)

(** [PayloadIterator] as a source for the other form (sysex7.rs 368-410, 955-957): what draining it yields
    and its [size_hint]. *)
Definition source_of_ump (b : list N) : outcome source :=
  it <- payload fmt7 b ;; l <- payload_list fmt7 b ;;
  Val {| s_items := l; s_hint := (it_len it, Some (it_len it)) |}.
Definition source_of_bytes (b : list N) : outcome source :=
  it <- payload_b b ;; l <- payload_list_b b ;;
  Val {| s_items := l; s_hint := ib_size_hint it |}.

(** sysex7.rs 368-410: [try_from_other] after the buffer is made.  The group of
    a byte message reads as 0 (sysex7.rs 204-211). *)
Definition ump_from_bytes (k : room) (buffer : list N) (b : list N)
  : outcome (list N * bool) :=
  b1 <- upd buffer 0 (fun x => set_nibble32 x 0 3) ;;
  b2 <- set_group fmt7 b1 0 ;;
  src <- source_of_bytes b ;;
  match k with
  | Fixed => try_set_payload (ump_ops fmt7 k) b2 src
  | _ => r <- set_payload (ump_ops fmt7 k) b2 src ;; Val (r, true)
  end.
Definition bytes_from_ump (k : room) (buffer : list N) (b : list N)
  : outcome (list N * bool) :=
  b1 <- init_b buffer ;;
  g <- group b ;;
  src <- source_of_ump b ;;
  match k with
  | Fixed => try_set_payload (bytes_ops k) b1 src
  | _ => r <- set_payload (bytes_ops k) b1 src ;; Val (r, true)
  end.

(** sysex7.rs 286-332: [from_bytes], [from_ump] into a [Vec] *)
Definition sysex7_from_bytes (b : list N) : outcome (list N) :=
  r <- ump_from_bytes Growable (vec_resize [] 2) b ;; Val (fst r).
Definition sysex7_from_ump (b : list N) : outcome (list N) :=
  r <- bytes_from_ump Growable (vec_resize [] 2) b ;; Val (fst r).

(** sysex7.rs 334-366: [try_from_bytes], [try_from_ump] into an array of [n] *)
Definition sysex7_try_from_bytes (b : list N) (n : nat) : outcome (res (list N)) :=
  if fixed_try_resize (repeat 0%N n) 2 then
    r <- ump_from_bytes Fixed (repeat 0%N n) b ;;
    match r with (b', true) => Val (Ok b') | _ => Val (Err "BufferOverflow") end
  else Val (Err "BufferOverflow").
Definition sysex7_try_from_ump (b : list N) (n : nat) : outcome (res (list N)) :=
  if fixed_try_resize (repeat 0%N n) 2 then
    r <- bytes_from_ump Fixed (repeat 0%N n) b ;;
    match r with (b', true) => Val (Ok b') | _ => Val (Err "BufferOverflow") end
  else Val (Err "BufferOverflow").
