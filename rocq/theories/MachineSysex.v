(** System exclusive messages in machine arithmetic: the functions of Sysex.v and
    Splice.v whose arithmetic or [debug_assert!]s depend on the build, and their
    callers, for a given build.  The name of each is that of the function it
    mirrors with [_m] appended, and it cites the same lines.

    Functions that are not repeated here (validation, [data], fields,
    [write_datum] of the packet form, [next] and [len] of the byte form) only add
    constants to indices that have just been compared with the length of a
    buffer, or divide before they multiply. *)
From Coq Require Import NArith List String Bool Arith.
From Verif Require Import Base BitOps Schema Props Helpers Message Machine Sysex Splice SpecSysex SpecEdits.
Import ListNotations.
Local Open Scope list_scope.
Local Open Scope nat_scope.

(** ** Reading *)

(** sysex7.rs 1001-1003, sysex8.rs 309-311: the subtraction is on [usize] *)
Definition packet_size_m (bd : build) (f : fmt) (c : list N) : outcome nat :=
  msub bd (N.to_nat (nibble32 (hd0 c) 3)) (N.to_nat (f_ext f)).

Fixpoint sum_sizes_m (bd : build) (f : fmt) (l : list (list N)) (acc : nat) : outcome nat :=
  match l with
  | [] => Val acc
  | c :: t => s <- packet_size_m bd f c ;; a <- madd bd acc s ;; sum_sizes_m bd f t a
  end.

(** sysex7.rs 431-444, sysex8.rs 337-351 *)
Definition payload_m (bd : build) (f : fmt) (b : list N) : outcome iter :=
  d <- sx_data f b ;;
  s <- sum_sizes_m bd f (chunks_exact (f_words f) d) 0 ;;
  Val {| it_data := b; it_payload := 0; it_packet := 0; it_left := s |}.

(** sysex7.rs 521-523, sysex8.rs 371-373 *)
Definition payload_size_m (bd : build) (f : fmt) (b : list N) : outcome nat :=
  it <- payload_m bd f b ;; Val (it_len it).

(** sysex7.rs 997-999, sysex8.rs 315-317 *)
Definition current_size_m (bd : build) (f : fmt) (it : iter) : outcome nat :=
  a <- mmul bd (it_packet it) (f_words f) ;;
  e <- madd bd a (f_words f) ;;
  if (e <? a) || (List.length (it_data it) <? e) then Panic
  else packet_size_m bd f (firstn (e - a) (skipn a (it_data it))).

(** sysex7.rs 975-980, sysex8.rs 222-226 *)
Fixpoint it_skip_aux_m (fuel : nat) (bd : build) (f : fmt) (it : iter) : outcome iter :=
  if it_left it =? 0 then Val it
  else
    s <- current_size_m bd f it ;;
    if s =? 0 then
      match fuel with
      | O => Panic
      | S k =>
          p <- madd bd (it_packet it) 1 ;;
          it_skip_aux_m k bd f {| it_data := it_data it; it_payload := 0;
                                  it_packet := p; it_left := it_left it |}
      end
    else Val it.
Definition it_skip_m (bd : build) (f : fmt) (it : iter) : outcome iter :=
  it_skip_aux_m (List.length (it_data it)) bd f it.

(** sysex7.rs 965-969, sysex8.rs 304-308 *)
Definition it_value_m (bd : build) (f : fmt) (it : iter) : outcome N :=
  a <- mmul bd (it_packet it) (f_words f) ;;
  p <- madd bd (it_payload it) (f_head f) ;;
  i <- madd bd a (p / 4) ;;
  get_unit f (it_data it) i (p mod 4).

(** sysex7.rs 982-995, sysex8.rs 318-328 *)
Definition it_advance_m (bd : build) (f : fmt) (it : iter) : outcome iter :=
  p <- madd bd (it_payload it) 1 ;;
  l <- (if it_left it =? 0 then Val 0 else msub bd (it_left it) 1) ;;
  s <- current_size_m bd f it ;;
  let at_end := if f_seven f then p =? s else s <=? p in
  k <- (if at_end then madd bd (it_packet it) 1 else Val (it_packet it)) ;;
  let it' := {| it_data := it_data it; it_payload := if at_end then 0 else p;
                it_packet := k; it_left := l |} in
  if f_seven f then it_skip_m bd f it' else Val it'.

(** sysex7.rs 869-880, sysex8.rs 217-231 *)
Definition it_next_m (bd : build) (f : fmt) (it : iter) : outcome (option N * iter) :=
  if it_left it =? 0 then Val (None, it)
  else
    it1 <- it_skip_m bd f it ;;
    v <- it_value_m bd f it1 ;;
    it2 <- it_advance_m bd f it1 ;;
    Val (Some v, it2).

(** sysex7.rs 916-930, sysex8.rs 256-270 *)
Fixpoint nth_loop_m (bd : build) (f : fmt) (it : iter) (l : list (list N)) (k n : nat)
  : outcome (option iter) :=
  match l with
  | [] => Val None
  | c :: t =>
      s <- packet_size_m bd f c ;;
      if n <? s then
        p <- madd bd (it_packet it) k ;;
        left <- msub bd (it_left it) n ;;
        Val (Some {| it_data := it_data it; it_payload := n; it_packet := p; it_left := left |})
      else
        left <- msub bd (it_left it) s ;;
        nth_loop_m bd f {| it_data := it_data it; it_payload := it_payload it;
                           it_packet := it_packet it; it_left := left |} t (S k) (n - s)
  end.

(** sysex7.rs 896-943, sysex8.rs 236-283 *)
Definition it_nth_m (bd : build) (f : fmt) (it : iter) (n : nat) : outcome (option N * iter) :=
  a <- mmul bd (it_packet it) (f_words f) ;;
  if List.length (it_data it) <? a then Panic
  else
    match chunks_exact (f_words f) (skipn a (it_data it)) with
    | [] => Val (None, it_exhausted it)
    | c :: rest =>
        s <- packet_size_m bd f c ;;
        remaining <- msub bd s (it_payload it) ;;
        if n <? remaining then
          p <- madd bd (it_payload it) n ;;
          left <- msub bd (it_left it) n ;;
          r <- it_next_m bd f {| it_data := it_data it; it_payload := p;
                                 it_packet := it_packet it; it_left := left |} ;;
          match r with
          | (None, it') => Val (None, it_exhausted it')
          | _ => Val r
          end
        else
          left <- msub bd (it_left it) remaining ;;
          o <- nth_loop_m bd f {| it_data := it_data it; it_payload := it_payload it;
                                  it_packet := it_packet it; it_left := left |} rest 1 (n - remaining) ;;
          match o with
          | None => Val (None, it_exhausted it)
          | Some it' =>
              r <- it_next_m bd f it' ;;
              match r with
              | (None, it'') => Val (None, it_exhausted it'')
              | _ => Val r
              end
          end
    end.

(** sysex7.rs 892-895: [nth] of the byte form *)
Definition ib_nth_m (bd : build) (it : iter_b) (n : nat) : outcome (option N * iter_b) :=
  i <- madd bd (ib_index it) n ;;
  ib_next {| ib_data := ib_data it; ib_index := i |}.

(** sysex7.rs 484, 709, sysex8.rs 382, 623: here the size of a packet is computed on [u8] *)
Definition packet_size8_m (bd : build) (f : fmt) (x : N) : outcome nat :=
  s <- msub8 bd (nibble32 x 3) (f_ext f) ;; Val (N.to_nat s).

(** sysex7.rs 479-494, sysex8.rs 374-394 *)
Fixpoint set_byte_aux_m (fuel : nat) (bd : build) (f : fmt) (b : list N) (v : N) (i p : nat)
  : outcome (list N) :=
  a <- mmul bd p (f_words f) ;;
  x <- idx b a ;;
  s <- packet_size8_m bd f x ;;
  if i <? s then
    j <- madd bd i (f_head f) ;;
    w <- madd bd a (j / 4) ;;
    put_unit f b w (j mod 4) v
  else
    match fuel with
    | O => Panic
    | S k => p' <- madd bd p 1 ;; set_byte_aux_m k bd f b v (i - s) p'
    end.
Definition set_byte_m (bd : build) (f : fmt) (b : list N) (v : N) (i : nat) : outcome (list N) :=
  set_byte_aux_m (List.length b) bd f b v i 0.
(** sysex7.rs 475-478 *)
Definition set_byte_b_m (bd : build) (b : list N) (v : N) (i : nat) : outcome (list N) :=
  j <- madd bd i 1 ;; upd b j (fun x => set_septet8 x v).

(** ** Resizing, writing and moving payload *)

(** sysex7.rs 812-822, sysex8.rs 570-580 *)
Definition buffer_size_m (bd : build) (f : fmt) (n : nat) : outcome nat :=
  if n mod f_cap f =? 0 then
    if n =? 0 then Val (f_words f)
    else if f_seven f then Val (n / 3)
    else m <- mmul bd n 4 ;; Val (m / 13)
  else
    q <- madd bd (n / f_cap f) 1 ;; mmul bd (f_words f) q.

(** sysex7.rs 769-807, sysex8.rs 527-565: only [payload_size as u8 + 1] can
    leave its type *)
Definition head_packet_m (bd : build) (f : fmt) (k n : nat) (g : N) (i : nat) (b : list N)
  : outcome (list N) :=
  let full := (N.of_nat (f_cap f) + f_ext f)%N in
  b1 <- upd b (f_words f * i) (fun x => set_nibble32 x 0 (f_type f)) ;;
  b2 <- (if i =? 0 then Val b1
         else upd b1 (f_words f * i) (fun x => set_nibble32 x 1 g)) ;;
  if S i <? k then
    upd b2 (f_words f * i)
      (fun x => set_nibble32 (set_nibble32 x 2 (if i =? 0 then 1 else 2)) 3 full)
  else if i =? 0 then
    s8 <- madd8 bd (N.of_nat n mod 256) (f_ext f) ;;
    s <- u4_new s8 ;;
    upd b2 0 (fun x => set_nibble32 (set_nibble32 x 2 0) 3 s)
  else if n mod f_cap f =? 0 then
    upd b2 (f_words f * i) (fun x => set_nibble32 (set_nibble32 x 2 3) 3 full)
  else
    s <- u4_new (N.of_nat (n mod f_cap f) + f_ext f) ;;
    b3 <- upd b2 (f_words f * i) (fun x => set_nibble32 (set_nibble32 x 2 3) 3 s) ;;
    zero_tail f i (n mod f_cap f) b3.

(** sysex7.rs 738-810, sysex8.rs 495-568 *)
Definition try_resize_m (bd : build) (f : fmt) (k : room) (b : list N) (n : nat)
  : outcome (list N * option nat) :=
  sz <- buffer_size_m bd f n ;;
  let '(b1, ok) := request k b sz in
  let size := if ok then sz else List.length b1 in
  n' <- (if ok then Val n else mmul bd (List.length b1 / f_words f) (f_cap f)) ;;
  let packets := min (size / f_words f) (List.length b1 / f_words f) in
  b2 <- fold_left (fun acc i => b' <- acc ;;
          g <- idx b' 0 ;; head_packet_m bd f packets n' (nibble32 g 1) i b')
          (seq 0 packets) (Val b1) ;;
  Val (b2, if ok then None else Some n').

(** sysex7.rs 623-626, sysex8.rs 459-462 *)
Definition byte_index_m (bd : build) (f : fmt) (i : nat) : outcome nat :=
  q <- madd bd 1 (i / f_cap f) ;;
  h <- mmul bd (f_head f) q ;;
  madd bd i h.

Definition copy_byte_m (bd : build) (f : fmt) (b : list N) (src dst : nat) : outcome (list N) :=
  s <- byte_index_m bd f src ;;
  d <- byte_index_m bd f dst ;;
  v <- get_octet b (s / 4) (s mod 4) ;;
  put_octet b (d / 4) (d mod 4) v.

(** sysex7.rs 600-650, sysex8.rs 452-483 *)
Definition move_tail_m (bd : build) (f : fmt) (b : list N) (tail to : nat) : outcome (list N) :=
  _ <- massert bd (is_compact f b) ;;
  n <- payload_size_m bd f b ;;
  if tail <? to then
    e <- msub bd n (to - tail) ;;
    fold_left (fun acc i => b' <- acc ;;
        j <- madd bd i (to - tail) ;; copy_byte_m bd f b' i j)
      (rev (seq tail (e - tail))) (Val b)
  else if to <? tail then
    fold_left (fun acc i => b' <- acc ;;
        j <- msub bd i (tail - to) ;; copy_byte_m bd f b' i j)
      (seq tail (n - tail)) (Val b)
  else Val b.

(** sysex7.rs 703-732, sysex8.rs 613-642 *)
Fixpoint compact_loop_m (fuel : nat) (bd : build) (f : fmt) (b : list N) (src dp di : nat)
  : outcome (list N) :=
  a <- mmul bd src (f_words f) ;;
  x <- idx b a ;;
  let status := nibble32 x 2 in
  if (status =? 0)%N then Val b
  else
    s <- packet_size8_m bd f x ;;
    r <- compact_packet f b src 0 s dp di ;;
    let '(b', dp', di') := r in
    if (status =? 3)%N then Val b'
    else match fuel with
         | O => Panic
         | S k => src' <- madd bd src 1 ;; compact_loop_m k bd f b' src' dp' di'
         end.

(** sysex7.rs 652-659, 687-736; sysex8.rs 485-492, 602-646 *)
Definition compact_m (bd : build) (f : fmt) (b : list N) : outcome (list N) :=
  if is_compact f b then Val b
  else
    n <- payload_size_m bd f b ;;
    b1 <- compact_loop_m (List.length b) bd f b 0 0 0 ;;
    r <- try_resize_m bd f Untouched b1 n ;;
    match r with (b2, None) => Val b2 | _ => Panic end.

(** sysex7.rs 527-541 *)
Definition resize_b_m (bd : build) (b : list N) (n : nat) : outcome (list N) :=
  sz <- madd bd n 2 ;;
  old <- payload_size_b b ;;
  let b1 := vec_resize b sz in
  b2 <- (if old <? n then j <- madd bd old 1 ;; upd b1 j (fun _ => 0%N) else Val b1) ;;
  e <- msub bd sz 1 ;;
  upd b2 e (fun _ => 0xF7%N).

(** sysex7.rs 551-572 *)
Definition try_resize_bytes_m (bd : build) (k : room) (b : list N) (n : nat)
  : outcome (list N * option nat) :=
  old <- payload_size_b b ;;
  n2 <- madd bd n 2 ;;
  let '(b0, ok) := request k b n2 in
  let sz := if ok then n2 else List.length b0 in
  b1 <- (if old <? sz then j <- madd bd old 1 ;; upd b0 j (fun _ => 0%N) else Val b0) ;;
  e <- msub bd sz 1 ;;
  b2 <- upd b1 e (fun _ => 0xF7%N) ;;
  Val (b2, if ok then None else Some (List.length b0 - 2)).

(** sysex7.rs 585-587 *)
Definition write_datum_b_m (bd : build) (b : list N) (v : N) (i : nat) : outcome (list N) :=
  j <- madd bd i 1 ;; upd b j (fun _ => v).

(** sysex7.rs 606-619 *)
Definition move_tail_b_m (bd : build) (b : list N) (tail to : nat) : outcome (list N) :=
  n <- payload_size_b b ;;
  if tail <? to then
    s <- madd bd 1 tail ;;
    e <- madd bd s (n - to) ;;
    d <- madd bd to 1 ;;
    copy_within b s e d
  else if to <? tail then
    s <- madd bd 1 tail ;;
    e <- madd bd 1 n ;;
    d <- madd bd to 1 ;;
    copy_within b s e d
  else Val b.

(** ** The editing algorithm *)

(** helpers.rs 161-170 *)
Definition begin_of_m (bd : build) (r : bound) : outcome nat :=
  match r with Included v => Val v | Excluded v => madd bd v 1 | Unbounded => Val 0 end.
Definition end_of_m (bd : build) (r : bound) (initial : nat) : outcome nat :=
  match r with Included v => madd bd v 1 | Excluded v => Val v | Unbounded => Val initial end.

(** helpers.rs 198-208; [written] stays below [room], so adding one cannot overflow *)
Fixpoint fill_m (bd : build) (o : ops) (b : list N) (data : list N) (at_ written room : nat)
  : outcome (list N * nat * list N * bool) :=
  if written <? room then
    match data with
    | v :: t =>
        j <- madd bd at_ written ;;
        b' <- o_write o b v j ;; fill_m bd o b' t at_ (S written) room
    | [] => Val (b, written, [], true)
    end
  else Val (b, written, data, false).

(** helpers.rs 197-245.  Each round but the first leaves the loop or writes at
    least one item, in every build, so [fuel = S (length items)] loses nothing. *)
Fixpoint main_loop_m (fuel : nat) (bd : build) (o : ops) (b : list N) (data : list N)
  (begin_ splice initial written est tail extra : nat) : outcome looped :=
  match fuel with
  | O => Panic
  | S k =>
      r <- fill_m bd o b data begin_ written est ;;
      let '(b1, w, rest, dry) := r in
      if dry then Val (Done b1 w tail)
      else
        _ <- massert bd (w =? est) ;;
        match rest with
        | [] => Val (Done b1 w tail)
        | _ =>
            est1 <- madd bd est extra ;;
            to <- madd bd begin_ est1 ;;
            st <- (if tail <? to then
                     m <- madd bd est1 initial ;;
                     n <- msub bd m splice ;;
                     q <- o_resize o b1 n ;;
                     match q with
                     | (b2, None) => Val (b2, est1, to)
                     | (b2, Some sz) =>
                         d <- msub bd initial splice ;;
                         let est2 := sz - d in
                         t <- madd bd begin_ est2 ;;
                         to2 <- msub bd t splice ;;
                         Val (b2, est2, to2)
                     end
                   else Val (b1, est1, to)) ;;
            let '(b2, est2, to2) := st in
            b3 <- o_move o b2 tail to2 ;;
            tail2 <- madd bd begin_ est2 ;;
            extra2 <- mmul bd extra 2 ;;
            if est2 <=? w then Val (Overflow b3)
            else main_loop_m k bd o b3 rest begin_ splice initial w est2 tail2 extra2
        end
  end.

(** helpers.rs 142-254 *)
Definition splice_detail_m (bd : build) (o : ops) (b : list N) (src : source) (lo hi : bound)
  : outcome (list N * bool) :=
  b0 <- o_compact o b ;;
  initial <- o_payload_size o b0 ;;
  b_ <- begin_of_m bd lo ;;
  e_ <- end_of_m bd hi initial ;;
  splice <- msub bd e_ b_ ;;
  let est0 := estimate (s_hint src) in
  t0 <- madd bd e_ est0 ;;
  t1 <- msub bd t0 splice ;;
  st <- (if e_ <? t1 then
           m <- madd bd est0 initial ;;
           n <- msub bd m splice ;;
           q <- o_resize o b0 n ;;
           match q with
           | (b1, None) => Val (b1, est0)
           | (b1, Some sz) => d <- msub bd initial splice ;; Val (b1, sz - d)
           end
         else Val (b0, est0)) ;;
  let '(b1, est) := st in
  t2 <- madd bd e_ est ;;
  tail <- msub bd t2 splice ;;
  b2 <- o_move o b1 e_ tail ;;
  l <- main_loop_m (S (List.length (s_items src))) bd o b2 (s_items src) b_ splice initial 0 est tail 1 ;;
  match l with
  | Overflow b3 => Val (b3, false)
  | Done b3 w tail' =>
      to <- madd bd b_ w ;;
      b4 <- o_move o b3 tail' to ;;
      m <- madd bd w initial ;;
      n <- msub bd m splice ;;
      q <- o_resize o b4 n ;;
      match q with (b5, None) => Val (b5, true) | (b5, Some _) => Val (b5, false) end
  end.

(** helpers.rs 115-135 and 92-113 *)
Definition splice_m (bd : build) (o : ops) (b : list N) (src : source) (lo hi : bound)
  : outcome (list N) :=
  r <- splice_detail_m bd o b src lo hi ;;
  match r with (b', true) => Val b' | (_, false) => Panic end.
Definition try_splice_m (bd : build) (o : ops) (b : list N) (src : source) (lo hi : bound)
  : outcome (list N * bool) :=
  r <- splice_detail_m bd o b src lo hi ;;
  match r with
  | (b', true) => Val (b', true)
  | (b', false) => q <- o_resize o b' 0 ;; Val (fst q, false)
  end.

(** The operations on each kind of buffer: sysex7.rs 525-660, sysex8.rs 418-493 *)
Definition ump_ops_m (bd : build) (f : fmt) (k : room) : ops :=
  {| o_compact := compact_m bd f; o_payload_size := payload_size_m bd f;
     o_resize := try_resize_m bd f k; o_write := write_datum f; o_move := move_tail_m bd f |}.
Definition bytes_ops_m (bd : build) (k : room) : ops :=
  {| o_compact := fun b => Val b; o_payload_size := payload_size_b;
     o_resize := match k with
                 | Fixed | Custom _ => try_resize_bytes_m bd k
                 | _ => fun b n => b' <- resize_b_m bd b n ;; Val (b', None)
                 end;
     o_write := write_datum_b_m bd; o_move := move_tail_b_m bd |}.

(** ** The methods: traits.rs 561-662, sysex7.rs 449-468, sysex8.rs 352-370 *)
Definition insert_payload_m (bd : build) (o : ops) (b : list N) (src : source) (i : nat)
  : outcome (list N) :=
  splice_m bd o b src (Included i) (Excluded i).
Definition append_payload_m (bd : build) (o : ops) (b : list N) (src : source) : outcome (list N) :=
  n <- o_payload_size o b ;; insert_payload_m bd o b src n.
Definition append_byte_m (bd : build) (o : ops) (b : list N) (v : N) : outcome (list N) :=
  append_payload_m bd o b {| s_items := [v]; s_hint := (1, Some 1) |}.
Definition set_payload_m (bd : build) (o : ops) (b : list N) (src : source) : outcome (list N) :=
  q <- o_resize o b 0 ;; insert_payload_m bd o (fst q) src 0.
Definition try_insert_payload_m (bd : build) (o : ops) (b : list N) (src : source) (i : nat)
  : outcome (list N * bool) :=
  try_splice_m bd o b src (Included i) (Excluded i).
Definition try_append_payload_m (bd : build) (o : ops) (b : list N) (src : source)
  : outcome (list N * bool) :=
  n <- o_payload_size o b ;; try_insert_payload_m bd o b src n.
Definition try_append_byte_m (bd : build) (o : ops) (b : list N) (v : N) : outcome (list N * bool) :=
  try_append_payload_m bd o b {| s_items := [v]; s_hint := (1, Some 1) |}.
Definition try_set_payload_m (bd : build) (o : ops) (b : list N) (src : source)
  : outcome (list N * bool) :=
  q <- o_resize o b 0 ;;
  match q with
  | (b', None) => try_insert_payload_m bd o b' src 0
  | (b', Some _) => Val (b', false)
  end.
