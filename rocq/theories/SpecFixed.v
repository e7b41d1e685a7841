(** SPECIFICATION.  Vocabulary for the properties of the fixed-size messages.
    Everything here is in terms of the API of a message ([get], [set],
    [try_from], [data], ...) and of the wire layout of SpecLayout.v. *)
From Coq Require Import NArith List String Bool Arith.
From Verif Require Import Base Values Props Message MessageTable SpecLayout.
Import ListNotations.
Local Open Scope string_scope.
Local Open Scope N_scope.

(** The Rust type of field [f]. *)
Definition field_type (m : message) (f : string) : option ty :=
  option_map prop_ty (field (m_fields m) f).

(** [v] is a value of field [f]'s type that has a wire code of its own. *)
Definition storable (m : message) (f : string) (v : value) : Prop :=
  exists t, field_type m f = Some t /\ has_type t v = true /\ representable v = true.

(** [f] is a field with a getter and a setter, represented on the wire by [w]. *)
Definition settable_field (u : unit_id) (m : message) (f : string) (w : wire) : Prop :=
  In (f, w) (layout u (m_name m)) /\ settable w = true.

(** A buffer that can hold the message: at least [MIN_SIZE] units.  The crate's
    [MIN_SIZE] of a byte-form song position pointer is one byte short. *)
Definition holds (u : unit_id) (m : message) (b : list N) : Prop :=
  wf_buf u b /\ (min_size u m <= List.length b)%nat /\
  (u = U8 -> m_name m = "system_common::SongPositionPointer" -> (3 <= List.length b)%nat).

(** [try_from] succeeds and refers to the slice it was given. *)
Definition accepts (u : unit_id) (m : message) (b : list N) : Prop :=
  try_from u m b = Val (Ok b).

(** Every field of the message, including the constant ones, holds bits with an
    assigned meaning. *)
Definition meaningful (u : unit_id) (m : message) (b : list N) : Prop :=
  forall f w, In (f, w) (layout u (m_name m)) -> decode w b <> None.

(** The crate's [MIN_SIZE] is the size of the message on the wire. *)
Definition sized (u : unit_id) (m : message) : Prop := min_size u m = units u (m_name m).

(** Families whose [validate] functions scan the whole slice in packets. *)
Definition scans_packets (m : message) : bool :=
  String.prefix "flex_data::" (m_name m) || String.prefix "ump_stream::" (m_name m).

(** All whole 4-word packets of the slice agree in a field of their first word. *)
Definition packets_agree (lo n : N) (b : list N) : Prop :=
  forall i, (i < List.length b / 4)%nat -> bits b (Seg (4 * i) lo n) = bits b (Seg 0 lo n).

(** [k] is the number of leading packets of UMP type [t]; a partial last packet
    counts. *)
Definition leading (stride : nat) (t : N) (b : list N) (k : nat) : Prop :=
  (k <= (List.length b + stride - 1) / stride)%nat /\
  (forall i, (i < k)%nat -> bits b (Seg (stride * i) 28 4) = t) /\
  ((k < (List.length b + stride - 1) / stride)%nat -> bits b (Seg (stride * k) 28 4) <> t).

(** A run of [k] packets framed Complete, or Start Continue* End, by the field
    [fmt] of packet number [i]; codes [c] [s] [m] [e]. *)
Definition framed (fmt : nat -> N) (c s m e : N) (k : nat) : Prop :=
  (k = 1%nat /\ fmt 0%nat = c) \/
  ((1 < k)%nat /\ fmt 0%nat = s /\ (forall i, (0 < i < k - 1)%nat -> fmt i = m) /\
   fmt (k - 1)%nat = e).

(** A history of setter calls, oldest first. *)
Definition history := list (string * value).

Fixpoint run_sets (u : unit_id) (m : message) (b : list N) (h : history) : outcome (list N) :=
  match h with
  | [] => Val b
  | (f, v) :: t => b' <- set u m b f v ;; run_sets u m b' t
  end.

(** The value of the last call of [g]'s setter in a history. *)
Fixpoint last_set (g : string) (h : history) : option value :=
  match h with
  | [] => None
  | (f, v) :: t =>
      match last_set g t with
      | Some x => Some x
      | None => if String.eqb f g then Some v else None
      end
  end.

Definition legal (u : unit_id) (m : message) (h : history) : Prop :=
  Forall (fun fv => (exists w, settable_field u m (fst fv) w) /\ storable m (fst fv) (snd fv)) h.

(** The tail of a buffer does not begin with another UMP stream packet. *)
Definition quiet_tail (t : list N) : Prop :=
  (List.length t < 4)%nat \/ bits t (Seg 0 28 4) <> 0xF.

(** What a field of a fresh message reads as. *)
Definition default_value (w : wire) : value :=
  match w with
  | Number _ | Septets _ _ => VNum 0
  | Flag _ => VBool false
  | Array l => VNums (repeat 0 (List.length l))
  | Code _ k =>
      match k with
      | KTonic => VTonic TC
      | KKeySF => VKeySF (Sharps 0)
      | KChordSF => VChordSF Natural
      | KChordType => VChordType ClearChord
      | KAlteration => VAlt None
      | KUiHint => VUiHint Undeclared
      | KPort => VPort None
      | KDirection => VDir Bidirectional
      end
  | Attribute _ _ => VAttr None
  | Controller _ _ => VCtl (Modulation 0)
  | Guarded _ _ _ | OptChannel _ _ => VOptNum None
  | GroupAddress _ _ | Fixed _ _ => VUnit
  | Absent v => v
  end.

(** Message types whose construction is not broken by a [MIN_SIZE] below the
    size of the message. *)
Definition constructible (u : unit_id) (m : message) : Prop :=
  match u with
  | U8 => m_name m <> "system_common::SongPositionPointer"
  | U32 => m_name m <> "ump_stream::FunctionBlockDiscovery"
  end.

(** Bits of the message that belong to no field are zero. *)
Definition reserved_zero (u : unit_id) (m : message) (b : list N) : Prop :=
  forall w j, (w < min_size u m)%nat -> j < unit_bits u ->
    (forall f x s, In (f, x) (layout u (m_name m)) -> In s (occupies x) -> ~ in_seg s w j) ->
    N.testbit (nth w b 0) j = false.

(** A clean MIDI 1.0 byte message: a status byte, then data bytes. *)
Definition clean_bytes (d : list N) : Prop :=
  exists s t, d = s :: t /\ 0x80 <= s < 0x100 /\ Forall (fun x => x < 0x80) t.

(** In a caller-supplied buffer, what follows a UMP stream message must not
    begin with another UMP stream packet. *)
Definition calm (m : message) (b : list N) : Prop :=
  String.prefix "ump_stream::" (m_name m) = true -> quiet_tail (skipn (min_size U32 m) b).

(** A UMP stream message that is complete in its first packet. *)
Definition complete (m : message) (b : list N) : Prop :=
  String.prefix "ump_stream::" (m_name m) = true -> bits b (Seg 0 26 2) = 0.

(** The spelling under which the getter returns a per-note controller; [None]
    when the setter panics. *)
Definition reads_back (c : controller) : option controller :=
  match c with
  | SoundVariation d => Some (SoundController 1 d)
  | Timbre d => Some (SoundController 2 d)
  | ReleaseTime d => Some (SoundController 3 d)
  | AttackTime d => Some (SoundController 4 d)
  | Brightness d => Some (SoundController 5 d)
  | DecayTime d => Some (SoundController 6 d)
  | VebratoRate d => Some (SoundController 7 d)
  | VebratoDepth d => Some (SoundController 8 d)
  | VebratoDelay d => Some (SoundController 9 d)
  | Undefined d => Some (SoundController 10 d)
  | ReverbSendLevel d | ChorusSendLevel d => Some (EffectDepth 1 d)
  | SoundController i d =>
      if (1 <=? i) && (i <=? 10) then Some (SoundController i d) else None
  | EffectDepth i d => if (1 <=? i) && (i <=? 4) then Some (EffectDepth i d) else None
  | c => Some c
  end.

(** Message types whose [MIN_SIZE] in the crate differs from the standard. *)
Definition odd_sizes : list (unit_id * string) := [
  (U8, "system_common::TimeCode"); (U8, "system_common::SongPositionPointer");
  (U8, "system_common::TuneRequest"); (U32, "ump_stream::FunctionBlockDiscovery")].

(** How many units a slice must have to be taken for such a message: as many as the standard
    says, but for the types above. *)
Definition demanded (u : unit_id) (name : string) : nat :=
  match u with
  | U8 =>
      if String.eqb name "system_common::TimeCode" then 3
      else if String.eqb name "system_common::SongPositionPointer" then 2
      else if String.eqb name "system_common::TuneRequest" then 2
      else units U8 name
  | U32 => if String.eqb name "ump_stream::FunctionBlockDiscovery" then 1 else units U32 name
  end%nat.

(** The number written in a list of 7-bit groups, least significant first. *)
Definition groups (l : list N) : N := fold_right (fun g acc => g mod 128 + 128 * acc) 0 l.
