(** The second client program that comes with the crate:
    examples/no_std_dynamic_message_generator/src/main.rs.  Messages are built one
    behind the other in regions of one array of bytes, and kept as pointers into it.

    [orders] stands for the blocks of [generate] (lines 76-104), which differ only in
    the type, the size of the region and the setters called; [example] gives those
    of the program. *)
From Coq Require Import NArith List String Bool Arith.
From Verif Require Import Base Values Props Message MessageTable SpecFixed Sysex Splice SpecSysex SpecEdits SysexClient
  Text Aggregate SpecAggregate Clients Show.
Import ListNotations.
Local Open Scope string_scope.
Local Open Scope list_scope.
Local Open Scope nat_scope.

(** One block: the type, the region's size and the calls on the new message. *)
Inductive order :=
| Simple (m : Message.message) (n : nat) (h : history)     (* lines 76-78, 83-86, 90-93 *)
| Exclusive (n : nat) (s : source).                (* lines 100-102 *)

Definition order_size (o : order) : nat := match o with Simple _ n _ => n | Exclusive n _ => n end.
Definition order_type (o : order) : concrete := match o with Simple m _ _ => CFixed m | Exclusive _ _ => CSysex7 end.

(** Lines 77-78, 84-86, 91-93: [try_new_with_buffer(message_buffer)?], then setters;
    lines 101-102: [try_new_with_buffer(message_buffer)?] and [try_set_payload(..)?] *)
Definition build (o : order) (region : list N) : outcome (res (list N)) :=
  match o with
  | Simple m _ h =>
      b <-? try_new_with_buffer U8 m region ;;
      b' <- run_sets U8 m b h ;; Val (Ok b')
  | Exclusive _ s =>
      b <-? try_new_with_buffer_b region ;;
      r <- try_set_payload (bytes_ops Fixed) b s ;;
      match r with (b', true) => Val (Ok b') | (_, false) => Val (Err "BufferOverflow") end
  end.

(** Lines 7-15, 26-34: a message over [Buffer], a pointer to [p_len] bytes at [p_at];
    what it refers to is read from the array as it is then. *)
Record pointer := { p_type : concrete; p_at : nat; p_len : nat }.
Definition deref (mem : list N) (p : pointer) : aggregate :=
  (p_type p, firstn (p_len p) (skipn (p_at p) mem)).

(** Lines 70-110: [split_at_mut] panics when too little is left, the store into
    [messages] when it is full.  [at_] is where the unused part of the array begins,
    [kept] is [messages[0..number_of_messages]]. *)
Fixpoint generate (slots : nat) (mem : list N) (at_ : nat) (kept : list pointer) (os : list order)
  : outcome (res (list N * list pointer)) :=
  match os with
  | [] => Val (Ok (mem, kept))
  | o :: t =>
      let n := order_size o in
      if List.length mem - at_ <? n then Panic else
      region <-? build o (firstn n (skipn at_ mem)) ;;
      let mem := firstn at_ mem ++ region ++ skipn (at_ + n) mem in
      if slots <=? List.length kept then Panic else
      generate slots mem (at_ + n) (kept ++ [{| p_type := order_type o; p_at := at_; p_len := n |}]) t
  end.

(** Lines 36-53: [MessageIterator], drained: the messages in the order kept. *)
Definition messages_of (mem : list N) (kept : list pointer) : list aggregate := map (deref mem) kept.

(** Lines 74-104 *)
Definition example : list order :=
  [Simple cv1_channel_pressure 2 [("pressure", VNum 0x50)];
   Simple cv1_note_on 3 [("note_number", VNum 0x38); ("velocity", VNum 0x20)];
   Simple cv1_control_change 3 [("control", VNum 0x34); ("control_data", VNum 0x2A)];
   Exclusive 22 (listed (map N.of_nat (seq 0 20)))].

(** Lines 61-68, 113-118: [main]; the lines printed.  128 bytes, 16 slots. *)
Definition family_shown (c : concrete) : family := match c with CSysex7 => Sysex7 | _ => ChannelVoice1 end.
Definition generator_main : outcome (list string) :=
  r <- generate 16 (repeat 0%N 128) 0 [] example ;;
  match r with
  | Ok (mem, kept) => Val (map (fun a => show_message U8 (family_shown (fst a)) a) (messages_of mem kept))
  | Err _ => Panic
  end.
