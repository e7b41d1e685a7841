(** Client programs that take one text message through setter calls, copies and parsers.  Nothing here models new code;
    each case names the method it stands for. *)
From Coq Require Import NArith List Bool Arith String.
From Verif Require Import Base Values Message Text Aggregate SpecText TextClient Packet SpecTextJourney.
Import ListNotations.
Local Open Scope nat_scope.

(** What the client holds: a text message over a [Vec<u32>] or a [[u32; n]], by the contents of its buffer. *)
Record text_held := { th_place : text_place; th_buffer : list N }.

(** The methods of one message type. *)
Record text_api (E : Type) := {
  ta_set : E -> list N -> outcome (list N);                 (* the setters, on a vector *)
  ta_try_set : E -> list N -> outcome (list N * bool);      (* and on an array *)
  ta_type : concrete;
  ta_parse : list N -> outcome (res (list N)) }.            (* [try_from] on words *)
Arguments ta_set {E}. Arguments ta_try_set {E}. Arguments ta_type {E}. Arguments ta_parse {E}.
Definition flex_api (K : flex_kind) : text_api flex_edit :=
  {| ta_set := flex_do; ta_try_set := flex_try_do; ta_type := CFlexText K; ta_parse := flex_try_from K |}.
Definition stream_api (K : stream_kind) : text_api stream_edit :=
  {| ta_set := stream_do (sk_off K); ta_try_set := stream_try_do (sk_off K); ta_type := CStreamText K;
     ta_parse := stream_try_from K |}.

Definition now_in (p : text_place) (b : list N) : text_held * bool := ({| th_place := p; th_buffer := b |}, true).

(** A step that fails leaves the client with what it had; the boolean is [Ok]. *)
Definition text_step {E} (A : text_api E) (s : text_leg E) (h : text_held) : outcome (text_held * bool) :=
  let b := th_buffer h in
  match s with
  | Call e =>
      match th_place h with
      | TextVec => b' <- ta_set A e b ;; Val (now_in TextVec b')
      | TextArray => r <- ta_try_set A e b ;; Val ({| th_place := TextArray; th_buffer := fst r |}, snd r)
      end
  (* generate_message.rs 390-468: [rebuffer_into], [try_rebuffer_into], [array_rebuffer_into] *)
  | ToVec => Val (now_in TextVec (rebuffer_vec b))
  | ToArray n => Val (match try_rebuffer_array b n with Ok b' => now_in TextArray b' | Err _ => (h, false) end)
  | DataToArray n => a <- agg_array_rebuffer U32 (ta_type A, b) n ;; Val (now_in TextArray (snd a))
  (* [M::try_from(m.data())] and [rebuffer_into] a [Vec] *)
  | Parsed =>
      d <- concrete_data U32 (ta_type A) b ;;
      r <- ta_parse A d ;;
      Val (match r with Ok b' => now_in TextVec (rebuffer_vec b') | Err _ => (h, false) end)
  end.

Fixpoint text_journey {E} (A : text_api E) (ss : list (text_leg E)) (h : text_held) : outcome (text_held * list bool) :=
  match ss with
  | [] => Val (h, [])
  | s :: t => r <- text_step A s h ;; q <- text_journey A t (fst r) ;; Val (fst q, snd r :: snd q)
  end.

(** [new] on a vector, [try_new] on an array of [n] words. *)
Definition flex_set_out (K : flex_kind) (p : text_place) (n : nat) : outcome text_held :=
  b <- (match p with TextVec => flex_new K | TextArray => unwrapped (flex_try_new K n) end) ;;
  Val {| th_place := p; th_buffer := b |}.
Definition stream_set_out (K : stream_kind) (p : text_place) (n : nat) : outcome text_held :=
  b <- (match p with TextVec => stream_new K | TextArray => unwrapped (stream_try_new K n) end) ;;
  Val {| th_place := p; th_buffer := b |}.
