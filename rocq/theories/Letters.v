(** Two client programs, one at each end of a connection that carries Universal MIDI
    Packets: the first writes messages with the methods of the crate, each over a
    [Vec<u32>] of its own, and sends their packets,

      for m in &messages { for p in m.packets() { send(&p) } }

    the second cuts the words that arrive into packets (StreamClient.v), and puts the
    messages together again (Receiver.v).  Nothing here models new code of the crate. *)
From Coq Require Import NArith List.
From Verif Require Import Base Values Props Message MessageTable SpecFixed Sysex Splice SpecSysex SpecEdits SysexClient
  Text SpecText TextClient Aggregate Packet StreamClient Receiver.
Import ListNotations.

(** A message to be written: its type, and the calls on the new message. *)
Inductive letter :=
| Fields (m : Message.message) (h : history)            (* setters: generate_message.rs 159-214 *)
| Exclusive (fm : form) (es : list edit)                (* Sysex7, Sysex8: traits.rs 561-662 *)
| FlexText (K : flex_kind) (h : list flex_edit)         (* flex_data/text.rs 41-61 *)
| StreamText (K : stream_kind) (h : list stream_edit).  (* ump_stream.rs 225-249 *)

(** [new()], then the calls. *)
Definition written (l : letter) : outcome aggregate :=
  match l with
  | Fields m h => b <- new U32 m ;; b' <- run_sets U32 m b h ;; Val (CFixed m, b')
  | Exclusive fm es =>
      b <- sx_new (fmt_for fm) ;; b' <- run_edits (apply_edit fm) es b ;;
      Val (match fm with SevenBit => CSysex7 | EightBit => CSysex8 end, b')
  | FlexText K h => b <- flex_new K ;; b' <- run_all flex_do h b ;; Val (CFlexText K, b')
  | StreamText K h => b <- stream_new K ;; b' <- run_all (stream_do (sk_off K)) h b ;; Val (CStreamText K, b')
  end.

(** The packets sent: packets.rs 7-40, of one message after the other. *)
Fixpoint sent (ls : list letter) : outcome (list packet) :=
  match ls with
  | [] => Val []
  | l :: t => m <- written l ;; p <- all_packets m ;; q <- sent t ;; Val (p ++ q)
  end.

(** The words of the packets arrive at the receiver, who expects one sender. *)
Definition wire_words (ps : list packet) : list N := List.concat (map packet_data ps).
Definition received (words : list N) : outcome (res (list (res aggregate))) :=
  ps <-? read_packets words ;;
  r <- receive_all (fun _ => Val 0%N) [] ps ;;
  Val (Ok (map snd (snd r))).
Definition correspondence (ls : list letter) : outcome (res (list (res aggregate))) :=
  ps <- sent ls ;; received (wire_words ps).
