(** The sender of Letters.v without a heap: every message is written in an array of its own,
    which may be longer than the message, with the fallible methods, whose errors the client
    ignores,

      let mut m = Sysex7::<[u32; N]>::new();  let _ = m.try_set_payload(..);

    Nothing here models new code of the crate. *)
From Coq Require Import NArith List.
From Verif Require Import Base Values Props Message MessageTable SpecFixed Sysex Splice SpecSysex SpecEdits SysexClient
  Text SpecText TextClient Aggregate Packet StreamClient Receiver Letters.
Import ListNotations.

(** A letter on an array of [n] words.  [new()] on arrays: generate_message.rs 557-590 for
    fixed-size messages, and with the size checked at run time instead of compile time, 592-617, for
    the others. *)
Definition written_in (n : nat) (l : letter) : outcome aggregate :=
  match l with
  | Fields m h => b <- array_new U32 m n ;; b' <- run_sets U32 m b h ;; Val (CFixed m, b')
  | Exclusive fm es =>
      b <- unwrapped (sx_try_new (fmt_for fm) n) ;; r <- run_tries (try_edit fm) es b ;;
      Val (match fm with SevenBit => CSysex7 | EightBit => CSysex8 end, fst r)
  | FlexText K h =>
      b <- unwrapped (flex_try_new K n) ;; r <- run_try flex_try_do h b ;; Val (CFlexText K, fst r)
  | StreamText K h =>
      b <- unwrapped (stream_try_new K n) ;; r <- run_try (stream_try_do (sk_off K)) h b ;; Val (CStreamText K, fst r)
  end.

Fixpoint sent_in (ls : list (nat * letter)) : outcome (list packet) :=
  match ls with
  | [] => Val []
  | (n, l) :: t => m <- written_in n l ;; p <- all_packets m ;; q <- sent_in t ;; Val (p ++ q)
  end.
Definition correspondence_in (ls : list (nat * letter)) : outcome (res (list (res aggregate))) :=
  ps <- sent_in ls ;; received (wire_words ps).
