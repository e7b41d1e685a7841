(** Payload editing from any iterator: midi2/src/detail/helpers.rs 92-254 again, with the
    iterator as a caller may write it.  Splice.v takes the finite list of the items instead.

    The functions take the number of rounds of the main loop they may spend; [None] means
    that the loop is still running. *)
From Coq Require Import NArith List String Bool Arith.
From Verif Require Import Base BitOps Props Message Sysex Splice SpecSysex SysexClient.
Import ListNotations.
Local Open Scope list_scope.
Local Open Scope nat_scope.

(** core::iter::Iterator: the answer to the first, second, ... call of [next], and what
    [size_hint] says before the first call.  The answers may go on for ever, and an answer may
    follow a [None].  Simplified: [next] does not panic; Unwind.v has iterators that do. *)
Record feed := { fd_answer : nat -> option N; fd_hint : nat * option nat }.

(** core::iter::Peekable (helpers.rs 180): how often the iterator has been asked, and the answer that has been
    peeked at *)
Record peekable := { pk_calls : nat; pk_slot : option (option N) }.
Definition pk_new : peekable := {| pk_calls := 0; pk_slot := None |}.
Definition pk_next (f : feed) (p : peekable) : option N * peekable :=
  match pk_slot p with
  | Some v => (v, {| pk_calls := pk_calls p; pk_slot := None |})
  | None => (fd_answer f (pk_calls p), {| pk_calls := S (pk_calls p); pk_slot := None |})
  end.
Definition pk_peek (f : feed) (p : peekable) : option N * peekable :=
  match pk_slot p with
  | Some v => (v, p)
  | None => (fd_answer f (pk_calls p),
             {| pk_calls := S (pk_calls p); pk_slot := Some (fd_answer f (pk_calls p)) |})
  end.

(** helpers.rs 198-208; [k] is [running_data_size_estimate - written], saturating *)
Fixpoint fill_f (k : nat) (o : ops) (f : feed) (b : list N) (p : peekable) (at_ written : nat)
  : outcome (list N * nat * peekable * bool) :=
  match k with
  | O => Val (b, written, p, false)
  | S k' =>
      match pk_next f p with
      | (Some v, p') => b' <- o_write o b v (at_ + written) ;; fill_f k' o f b' p' at_ (S written)
      | (None, p') => Val (b, written, p', true)
      end
  end.

(** helpers.rs 197-245 *)
Fixpoint main_loop_f (fuel : nat) (o : ops) (f : feed) (b : list N) (p : peekable)
  (begin_ splice initial written est tail extra : nat) : option (outcome (looped * peekable)) :=
  match fuel with
  | O => None
  | S k =>
      match fill_f (est - written) o f b p begin_ written with
      | Panic => Some Panic
      | Val (b1, w, p1, true) => Some (Val (Done b1 w tail, p1))
      | Val (b1, w, p1, false) =>
          if negb (w =? est) then Some Panic
          else
            match pk_peek f p1 with
            | (None, p2) => Some (Val (Done b1 w tail, p2))
            | (Some _, p2) =>
                let est1 := est + extra in
                let to := begin_ + est1 in
                match (n <- sub_chk (est1 + initial) splice ;;
                       st <- (if tail <? to then
                                q <- o_resize o b1 n ;;
                                match q with
                                | (b2, None) => Val (b2, est1, to)
                                | (b2, Some sz) =>
                                    d <- sub_chk initial splice ;;
                                    let est2 := sz - d in
                                    to2 <- sub_chk (begin_ + est2) splice ;;
                                    Val (b2, est2, to2)
                                end
                              else Val (b1, est1, to)) ;;
                       let '(b2, est2, to2) := st in
                       b3 <- o_move o b2 tail to2 ;; Val (b3, est2))
                with
                | Panic => Some Panic
                | Val (b3, est2) =>
                    if est2 <=? w then Some (Val (Overflow b3, p2))
                    else main_loop_f k o f b3 p2 begin_ splice initial w est2 (begin_ + est2) (extra * 2)
                end
            end
      end
  end.

(** What follows a computation that may still be running; no code of its own *)
Definition then_do {A B} (x : option (outcome A)) (k : A -> outcome B) : option (outcome B) :=
  match x with None => None | Some r => Some (v <- r ;; k v) end.

(** helpers.rs 142-254.  Besides the buffer and whether the call succeeded: how often the iterator was asked. *)
Definition splice_detail_f (fuel : nat) (o : ops) (b : list N) (f : feed) (lo hi : bound)
  : option (outcome (list N * bool * nat)) :=
  match (b0 <- o_compact o b ;;
         initial <- o_payload_size o b0 ;;
         let b_ := begin_of lo in
         let e_ := end_of hi initial in
         splice <- sub_chk e_ b_ ;;
         let est0 := estimate (fd_hint f) in
         st <- (if e_ <? e_ + est0 - splice then
                  n <- sub_chk (est0 + initial) splice ;;
                  q <- o_resize o b0 n ;;
                  match q with
                  | (b1, None) => Val (b1, est0)
                  | (b1, Some sz) => d <- sub_chk initial splice ;; Val (b1, sz - d)
                  end
                else Val (b0, est0)) ;;
         let '(b1, est) := st in
         b2 <- o_move o b1 e_ (e_ + est - splice) ;;
         Val (b2, initial, b_, splice, est, e_ + est - splice))
  with
  | Panic => Some Panic
  | Val (b2, initial, b_, splice, est, tail) =>
      then_do (main_loop_f fuel o f b2 pk_new b_ splice initial 0 est tail 1) (fun r =>
        match r with
        | (Overflow b3, p) => Val (b3, false, pk_calls p)
        | (Done b3 w tail', p) =>
            b4 <- o_move o b3 tail' (b_ + w) ;;
            n <- sub_chk (w + initial) splice ;;
            q <- o_resize o b4 n ;;
            match q with
            | (b5, None) => Val (b5, true, pk_calls p)
            | (b5, Some _) => Val (b5, false, pk_calls p)
            end
        end)
  end.

(** helpers.rs 115-135 *)
Definition splice_f (fuel : nat) (o : ops) (b : list N) (f : feed) (lo hi : bound)
  : option (outcome (list N * nat)) :=
  then_do (splice_detail_f fuel o b f lo hi) (fun r =>
    match r with (b', true, c) => Val (b', c) | (_, false, _) => Panic end).

(** helpers.rs 92-113 *)
Definition try_splice_f (fuel : nat) (o : ops) (b : list N) (f : feed) (lo hi : bound)
  : option (outcome (list N * bool * nat)) :=
  then_do (splice_detail_f fuel o b f lo hi) (fun r =>
    match r with
    | (b', true, c) => Val (b', true, c)
    | (b', false, c) => q <- o_resize o b' 0 ;; Val (fst q, false, c)
    end).

(** The methods that take an iterator: traits.rs 561-662, sysex7.rs 449-468, sysex8.rs 352-370 *)
Inductive feeding :=
| SetFrom (f : feed)
| SpliceFrom (f : feed) (lo hi : bound)
| InsertFrom (f : feed) (i : nat)
| AppendFrom (f : feed).

Definition feed_edit (fuel : nat) (o : ops) (b : list N) (e : feeding) : option (outcome (list N * nat)) :=
  match e with
  | SetFrom f =>
      match o_resize o b 0 with
      | Panic => Some Panic
      | Val q => splice_f fuel o (fst q) f (Included 0) (Excluded 0)
      end
  | SpliceFrom f lo hi => splice_f fuel o b f lo hi
  | InsertFrom f i => splice_f fuel o b f (Included i) (Excluded i)
  | AppendFrom f =>
      match o_payload_size o b with
      | Panic => Some Panic
      | Val n => splice_f fuel o b f (Included n) (Excluded n)
      end
  end.
Definition feed_try (fuel : nat) (o : ops) (b : list N) (e : feeding) : option (outcome (list N * bool * nat)) :=
  match e with
  | SetFrom f =>
      match o_resize o b 0 with
      | Panic => Some Panic
      | Val (b', None) => try_splice_f fuel o b' f (Included 0) (Excluded 0)
      | Val (b', Some _) => Some (Val (b', false, 0))
      end
  | SpliceFrom f lo hi => try_splice_f fuel o b f lo hi
  | InsertFrom f i => try_splice_f fuel o b f (Included i) (Excluded i)
  | AppendFrom f =>
      match o_payload_size o b with
      | Panic => Some Panic
      | Val n => try_splice_f fuel o b f (Included n) (Excluded n)
      end
  end.

(** [Sysex7] and [Sysex8] in packets and [Sysex7] in bytes, over a [Vec] and over an array or slice *)
Definition feed_packets (fuel : nat) (fm : form) := feed_edit fuel (ump_ops (fmt_for fm) Growable).
Definition feed_bytes (fuel : nat) := feed_edit fuel (bytes_ops Growable).
Definition try_feed_packets (fuel : nat) (fm : form) := feed_try fuel (ump_ops (fmt_for fm) Fixed).
Definition try_feed_bytes (fuel : nat) := feed_try fuel (bytes_ops Fixed).
