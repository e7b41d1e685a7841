(** Payload editing from an iterator that may panic: midi2/src/detail/helpers.rs 92-254 a third time.  A panic of
    the caller's [next] or [size_hint] unwinds through the editing method; the caller may catch it and go on using
    the message.  Nothing on the way catches the panic, and none of the values dropped touches the message, so the
    message keeps what its buffer holds at that moment.

    As in Feed.v, [None] means that the loop is still running, and [Panic] that the code of the crate itself
    panicked. *)
From Coq Require Import NArith List String Bool Arith.
From Verif Require Import Base BitOps Props Message Sysex Splice SpecSysex SysexClient.
Import ListNotations.
Local Open Scope list_scope.
Local Open Scope nat_scope.

(** One call of core::iter::Iterator::next *)
Inductive reply := Item (v : N) | NoMore | Throws.
(** The answer to the first, second, ... call of [next], and what [size_hint] says before the first call ([None]: it
    panics) *)
Record risky := { rk_answer : nat -> reply; rk_hint : option (nat * option nat) }.

(** A computation came to its end, or the panic of the iterator ended it when the buffer was [b]. *)
Inductive run (A : Type) := Ran (x : A) | Unwound (b : list N).
Arguments Ran {A} x.
Arguments Unwound {A} b.

(** core::iter::Peekable (helpers.rs 180), as in Feed.v.  [Peekable::next] and [Peekable::peek] ask the iterator only if no answer has
    been peeked at. *)
Record peeking := { pe_calls : nat; pe_slot : option reply }.
Definition pe_new : peeking := {| pe_calls := 0; pe_slot := None |}.
Definition pe_next (r : risky) (p : peeking) : reply * peeking :=
  match pe_slot p with
  | Some v => (v, {| pe_calls := pe_calls p; pe_slot := None |})
  | None => (rk_answer r (pe_calls p), {| pe_calls := S (pe_calls p); pe_slot := None |})
  end.
Definition pe_peek (r : risky) (p : peeking) : reply * peeking :=
  match pe_slot p with
  | Some v => (v, p)
  | None => (rk_answer r (pe_calls p),
             {| pe_calls := S (pe_calls p); pe_slot := Some (rk_answer r (pe_calls p)) |})
  end.

(** helpers.rs 198-208; [k] is [running_data_size_estimate - written], saturating *)
Fixpoint fill_u (k : nat) (o : ops) (r : risky) (b : list N) (p : peeking) (at_ written : nat)
  : outcome (run (list N * nat * peeking * bool)) :=
  match k with
  | O => Val (Ran (b, written, p, false))
  | S k' =>
      match pe_next r p with
      | (Item v, p') => b' <- o_write o b v (at_ + written) ;; fill_u k' o r b' p' at_ (S written)
      | (NoMore, p') => Val (Ran (b, written, p', true))
      | (Throws, _) => Val (Unwound b)
      end
  end.

(** helpers.rs 197-245 *)
Fixpoint main_loop_u (fuel : nat) (o : ops) (r : risky) (b : list N) (p : peeking)
  (begin_ splice initial written est tail extra : nat) : option (outcome (run looped)) :=
  match fuel with
  | O => None
  | S k =>
      match fill_u (est - written) o r b p begin_ written with
      | Panic => Some Panic
      | Val (Unwound b1) => Some (Val (Unwound b1))
      | Val (Ran (b1, w, p1, true)) => Some (Val (Ran (Done b1 w tail)))
      | Val (Ran (b1, w, p1, false)) =>
          if negb (w =? est) then Some Panic
          else
            match pe_peek r p1 with
            | (Throws, _) => Some (Val (Unwound b1))
            | (NoMore, _) => Some (Val (Ran (Done b1 w tail)))
            | (Item _, p2) =>
                let est1 := est + extra in
                let to := begin_ + est1 in
                match (n <- sub_chk (est1 + initial) splice ;;
                       st <- (if tail <? to then
                                q <- o_resize o b1 n ;;
                                match q with
                                | (b2, None) => Val (b2, est1, to)
                                | (b2, Some sz) =>
                                    d <- sub_chk initial splice ;;
                                    let est2 := sz - d in
                                    to2 <- sub_chk (begin_ + est2) splice ;;
                                    Val (b2, est2, to2)
                                end
                              else Val (b1, est1, to)) ;;
                       let '(b2, est2, to2) := st in
                       b3 <- o_move o b2 tail to2 ;; Val (b3, est2))
                with
                | Panic => Some Panic
                | Val (b3, est2) =>
                    if est2 <=? w then Some (Val (Ran (Overflow b3)))
                    else main_loop_u k o r b3 p2 begin_ splice initial w est2 (begin_ + est2) (extra * 2)
                end
            end
      end
  end.

(** helpers.rs 142-254; [size_hint] is called (173) when the message is in order and the range is known *)
Definition splice_detail_u (fuel : nat) (o : ops) (b : list N) (r : risky) (lo hi : bound)
  : option (outcome (run (list N * bool))) :=
  match (b0 <- o_compact o b ;;
         initial <- o_payload_size o b0 ;;
         let b_ := begin_of lo in
         let e_ := end_of hi initial in
         splice <- sub_chk e_ b_ ;;
         match rk_hint r with
         | None => Val (Unwound b0)
         | Some hint =>
             let est0 := estimate hint in
             st <- (if e_ <? e_ + est0 - splice then
                      n <- sub_chk (est0 + initial) splice ;;
                      q <- o_resize o b0 n ;;
                      match q with
                      | (b1, None) => Val (b1, est0)
                      | (b1, Some sz) => d <- sub_chk initial splice ;; Val (b1, sz - d)
                      end
                    else Val (b0, est0)) ;;
             let '(b1, est) := st in
             b2 <- o_move o b1 e_ (e_ + est - splice) ;;
             Val (Ran (b2, initial, b_, splice, est, e_ + est - splice))
         end)
  with
  | Panic => Some Panic
  | Val (Unwound b0) => Some (Val (Unwound b0))
  | Val (Ran (b2, initial, b_, splice, est, tail)) =>
      match main_loop_u fuel o r b2 pe_new b_ splice initial 0 est tail 1 with
      | None => None
      | Some Panic => Some Panic
      | Some (Val (Unwound b3)) => Some (Val (Unwound b3))
      | Some (Val (Ran (Overflow b3))) => Some (Val (Ran (b3, false)))
      | Some (Val (Ran (Done b3 w tail'))) =>
          Some (b4 <- o_move o b3 tail' (b_ + w) ;;
                n <- sub_chk (w + initial) splice ;;
                q <- o_resize o b4 n ;;
                match q with
                | (b5, None) => Val (Ran (b5, true))
                | (b5, Some _) => Val (Ran (b5, false))
                end)
      end
  end.

(** helpers.rs 115-135 *)
Definition splice_u (fuel : nat) (o : ops) (b : list N) (r : risky) (lo hi : bound)
  : option (outcome (run (list N))) :=
  match splice_detail_u fuel o b r lo hi with
  | None => None
  | Some Panic => Some Panic
  | Some (Val (Unwound b')) => Some (Val (Unwound b'))
  | Some (Val (Ran (b', true))) => Some (Val (Ran b'))
  | Some (Val (Ran (_, false))) => Some Panic
  end.

(** helpers.rs 92-113: a panic passes by the reset of the message *)
Definition try_splice_u (fuel : nat) (o : ops) (b : list N) (r : risky) (lo hi : bound)
  : option (outcome (run (list N * bool))) :=
  match splice_detail_u fuel o b r lo hi with
  | None => None
  | Some Panic => Some Panic
  | Some (Val (Unwound b')) => Some (Val (Unwound b'))
  | Some (Val (Ran (b', true))) => Some (Val (Ran (b', true)))
  | Some (Val (Ran (b', false))) => Some (q <- o_resize o b' 0 ;; Val (Ran (fst q, false)))
  end.

(** The methods that take an iterator: traits.rs 561-662, sysex7.rs 449-468, sysex8.rs 352-370 *)
Inductive risk :=
| SetRisky (r : risky)
| SpliceRisky (r : risky) (lo hi : bound)
| InsertRisky (r : risky) (i : nat)
| AppendRisky (r : risky).

Definition risk_edit (fuel : nat) (o : ops) (b : list N) (x : risk) : option (outcome (run (list N))) :=
  match x with
  | SetRisky r =>
      match o_resize o b 0 with
      | Panic => Some Panic
      | Val q => splice_u fuel o (fst q) r (Included 0) (Excluded 0)
      end
  | SpliceRisky r lo hi => splice_u fuel o b r lo hi
  | InsertRisky r i => splice_u fuel o b r (Included i) (Excluded i)
  | AppendRisky r =>
      match o_payload_size o b with
      | Panic => Some Panic
      | Val n => splice_u fuel o b r (Included n) (Excluded n)
      end
  end.
Definition risk_try (fuel : nat) (o : ops) (b : list N) (x : risk) : option (outcome (run (list N * bool))) :=
  match x with
  | SetRisky r =>
      match o_resize o b 0 with
      | Panic => Some Panic
      | Val (b', None) => try_splice_u fuel o b' r (Included 0) (Excluded 0)
      | Val (b', Some _) => Some (Val (Ran (b', false)))
      end
  | SpliceRisky r lo hi => try_splice_u fuel o b r lo hi
  | InsertRisky r i => try_splice_u fuel o b r (Included i) (Excluded i)
  | AppendRisky r =>
      match o_payload_size o b with
      | Panic => Some Panic
      | Val n => try_splice_u fuel o b r (Included n) (Excluded n)
      end
  end.

(** [Sysex7] and [Sysex8] in packets and [Sysex7] in bytes, over a [Vec] and over an array or slice *)
Definition risk_packets (fuel : nat) (fm : form) := risk_edit fuel (ump_ops (fmt_for fm) Growable).
Definition risk_bytes (fuel : nat) := risk_edit fuel (bytes_ops Growable).
Definition try_risk_packets (fuel : nat) (fm : form) := risk_try fuel (ump_ops (fmt_for fm) Fixed).
Definition try_risk_bytes (fuel : nat) := risk_try fuel (bytes_ops Fixed).
