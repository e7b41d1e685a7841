(** A payload iterator behind the adaptors of core::iter, as a client writes them: [m.payload().skip(3).take(5)].
    The payload iterators are those of Sysex.v (midi2/src/sysex7.rs 854-957, midi2/src/sysex8.rs 213-301); the adaptors
    are modelled after the standard library, because they call [nth] and [size_hint] of the iterator inside. *)
From Coq Require Import NArith List Bool Arith.
From Verif Require Import Base Message Sysex Splice SpecSysex SysexClient Feed.
Import ListNotations.
Local Open Scope nat_scope.

(** An iterator in use: the payload iterator of a message in packets or in bytes, [Skip] and [Take] around one *)
Inductive pipe :=
| PPackets (f : fmt) (it : iter)
| PBytes (it : iter_b)
| PSkip (n : nat) (p : pipe)
| PTake (n : nat) (p : pipe).

(** [nth]: sysex7.rs 890-946, sysex8.rs 236-283.  core::iter::Skip adds what it has still to skip; core::iter::Take does not go beyond its end, but exhausts
    itself if asked to.  Simplified: positions do not exceed [usize::MAX]. *)
Fixpoint pipe_nth (p : pipe) (n : nat) : outcome (option N * pipe) :=
  match p with
  | PPackets f it => r <- it_nth f it n ;; Val (fst r, PPackets f (snd r))
  | PBytes it => r <- ib_nth it n ;; Val (fst r, PBytes (snd r))
  | PSkip m q => r <- pipe_nth q (m + n) ;; Val (fst r, PSkip 0 (snd r))
  | PTake m q =>
      if n <? m then r <- pipe_nth q n ;; Val (fst r, PTake (m - n - 1) (snd r))
      else if m =? 0 then Val (None, p)
      else r <- pipe_nth q (m - 1) ;; Val (None, PTake 0 (snd r))
  end.
(** [next]: sysex7.rs 857-888, sysex8.rs 217-234.  core::iter::Skip begins with a call of [nth]. *)
Fixpoint pipe_next (p : pipe) : outcome (option N * pipe) :=
  match p with
  | PPackets f it => r <- it_next f it ;; Val (fst r, PPackets f (snd r))
  | PBytes it => r <- ib_next it ;; Val (fst r, PBytes (snd r))
  | PSkip m q =>
      if m =? 0 then r <- pipe_next q ;; Val (fst r, PSkip 0 (snd r))
      else r <- pipe_nth q m ;; Val (fst r, PSkip 0 (snd r))
  | PTake m q =>
      if m =? 0 then Val (None, p)
      else r <- pipe_next q ;; Val (fst r, PTake (m - 1) (snd r))
  end.
(** [size_hint]: sysex7.rs 955-957, sysex8.rs 292-294; for the adaptors core::iter *)
Fixpoint pipe_hint (p : pipe) : nat * option nat :=
  match p with
  | PPackets _ it => (it_len it, Some (it_len it))
  | PBytes it => ib_size_hint it
  | PSkip m q => match pipe_hint q with (lo, hi) => (lo - m, option_map (fun x => x - m) hi) end
  | PTake m q =>
      if m =? 0 then (0, Some 0)
      else match pipe_hint q with
           | (lo, Some x) => (min lo m, Some (if x <? m then x else m))
           | (lo, None) => (min lo m, Some m)
           end
  end.

(** [map] and [chain] of such iterators.  The function mapped does not panic ([u8::from], for instance, which leaves the
    number as it is). *)
Inductive stream :=
| SOf (p : pipe)
| SMap (g : N -> N) (s : stream)
| SChain (a : option stream) (s : stream).
Fixpoint stream_next (s : stream) : outcome (option N * stream) :=
  match s with
  | SOf p => r <- pipe_next p ;; Val (fst r, SOf (snd r))
  | SMap g q => r <- stream_next q ;; Val (option_map g (fst r), SMap g (snd r))
  | SChain None q => r <- stream_next q ;; Val (fst r, SChain None (snd r))
  | SChain (Some a) q =>
      r <- stream_next a ;;
      match r with
      | (Some v, a') => Val (Some v, SChain (Some a') q)
      | (None, _) => r' <- stream_next q ;; Val (fst r', SChain None (snd r'))
      end
  end.
Fixpoint stream_hint (s : stream) : nat * option nat :=
  match s with
  | SOf p => pipe_hint p
  | SMap _ q => stream_hint q
  | SChain None q => stream_hint q
  | SChain (Some a) q =>
      match stream_hint a, stream_hint q with
      | (l1, Some u1), (l2, Some u2) => (l1 + l2, Some (u1 + u2))
      | (l1, _), (l2, _) => (l1 + l2, None)
      end
  end.

(** The answer to the [k]-th call of [next], from 0 *)
Fixpoint nth_answer (s : stream) (k : nat) : outcome (option N) :=
  r <- stream_next s ;;
  match k with O => Val (fst r) | S j => nth_answer (snd r) j end.
(** What an editing method gets to see of the iterator.  Only used where no call panics. *)
Definition feed_from (s : stream) : feed :=
  {| fd_answer := fun k => match nth_answer s k with Val v => v | Panic => None end; fd_hint := stream_hint s |}.

(** The expressions a client writes.  [Payload] is [payload()] (sysex7.rs 420-447, sysex8.rs 337-350) of a message in packets, [BytePayload] of one in bytes. *)
Inductive cut :=
| Payload (fm : form) (b : list N)
| BytePayload (b : list N)
| Skipped (n : nat) (c : cut)
| Taken (n : nat) (c : cut).
Inductive pipeline :=
| Piece (c : cut)
| Mapped (g : N -> N) (p : pipeline)
| Joined (p q : pipeline).
Fixpoint open_cut (c : cut) : outcome pipe :=
  match c with
  | Payload fm b => it <- payload (fmt_for fm) b ;; Val (PPackets (fmt_for fm) it)
  | BytePayload b => it <- payload_b b ;; Val (PBytes it)
  | Skipped n d => p <- open_cut d ;; Val (PSkip n p)
  | Taken n d => p <- open_cut d ;; Val (PTake n p)
  end.
Fixpoint open_pipe (p : pipeline) : outcome stream :=
  match p with
  | Piece c => q <- open_cut c ;; Val (SOf q)
  | Mapped g q => s <- open_pipe q ;; Val (SMap g s)
  | Joined p1 p2 => s1 <- open_pipe p1 ;; s2 <- open_pipe p2 ;; Val (SChain (Some s1) s2)
  end.
