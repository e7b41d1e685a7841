(** MIDI-CI: midi2/src/ci/*.rs and the code generated by
    midi2_proc/src/generate_ci.rs for [DiscoveryQuery].

    A [DiscoveryQuery<VERSION, B>] wraps a [Sysex7<B>] over a byte buffer
    (generate_ci.rs 268-285), so its value is that buffer.  The version is a
    const parameter and the trait bound [CiVersion<N>] of each method (getters
    181-204, setters 206-252, impls 405-426) a condition for the call to compile:
    the model's clients must respect it.  ci/old_mod.rs and ci/property.rs are not
    compiled (ci.rs 3-6 does not name them). *)
From Coq Require Import NArith List String Bool Arith.
From Verif Require Import Base BitOps Encode7 Helpers Message Sysex.
Import ListNotations.
Local Open Scope string_scope.
Local Open Scope list_scope.
Local Open Scope nat_scope.

(** ** ci/device_id.rs *)

(** device_id.rs 3-8 *)
Inductive device_id := Channel (c : N) | Group | FunctionBlock.
(** device_id.rs 17-29 *)
Definition device_id_from_u8 (v : N) : res device_id :=
  if (v =? 0x7F)%N then Ok FunctionBlock
  else if (v =? 0x7E)%N then Ok Group
  else if (v <? 0x0F)%N then Ok (Channel v)
  else Err "Couldn't interpreset Device ID field".
(** device_id.rs 30-36 *)
Definition device_id_to_u8 (d : device_id) : N :=
  match d with Group => 0x7E | FunctionBlock => 0x7F | Channel c => c end.

(** ** Properties *)

(** The fields of ci/discovery.rs 9-58 in order *)
Inductive ci_prop :=
| UniversalSysexByte            (* ci/common_properties.rs 8-35 *)
| DeviceIdToFunctionBlock       (* ci/common_properties.rs 65-92 *)
| SubId1                        (* ci/common_properties.rs 94-121 *)
| SubId2                        (* ci/common_properties.rs 123-154, STATUS = 0x70 *)
| Source                        (* ci/common_properties.rs 156-183 *)
| BroadcastDestination          (* ci/common_properties.rs 214-246 *)
| DeviceManufacturer            (* discovery.rs 60-93 *)
| DeviceFamily                  (* discovery.rs 95-124 *)
| ModelNumber                   (* discovery.rs 126-155 *)
| SoftwareVersion               (* discovery.rs 157-192 *)
| CiSupport (bit : N)           (* discovery.rs 194-225 *)
| MaxSysexSize                  (* discovery.rs 227-256 *)
| OutputPathId.                 (* discovery.rs 258-285 *)

(** The [#[version]] attribute of each field, discovery.rs 9-58 *)
Definition prop_version (p : ci_prop) : N := match p with OutputPathId => 2 | _ => 1 end.

Definition discovery_query : list ci_prop :=
  [UniversalSysexByte; DeviceIdToFunctionBlock; SubId1; SubId2; Source; BroadcastDestination;
   DeviceManufacturer; DeviceFamily; ModelNumber; SoftwareVersion;
   CiSupport 3; CiSupport 4; CiSupport 5; CiSupport 6; MaxSysexSize; OutputPathId].

(** discovery.rs 9-58: the fields with getters and setters *)
Inductive field :=
| FSource | FManufacturer | FFamily | FModel | FSoftware
| FProcessInquiry | FPropertyExchange | FProfileConfiguration | FProtocolNegotiation
| FMaxSysexSize | FOutputPathId.
(** their [#[property]] attributes *)
Definition field_prop (f : field) : ci_prop :=
  match f with
  | FSource => Source | FManufacturer => DeviceManufacturer | FFamily => DeviceFamily | FModel => ModelNumber
  | FSoftware => SoftwareVersion
  | FProcessInquiry => CiSupport 3 | FPropertyExchange => CiSupport 4
  | FProfileConfiguration => CiSupport 5 | FProtocolNegotiation => CiSupport 6
  | FMaxSysexSize => MaxSysexSize | FOutputPathId => OutputPathId
  end.
(** Values of the field types: [()], [u14]/[u28]/[u7], [[u7; N]], [bool] *)
Inductive ci_value := CiUnit | CiNum (n : N) | CiBytes (l : list N) | CiFlag (f : bool).

(** [ux::u7::new(b[i])] *)
Definition idx_u7 (b : list N) (i : nat) : outcome N := x <- idx b i ;; u7_new x.

(** [u14::from_u7s(&b[i..i + 2])], [u28::from_u7s(&b[i..i + 4])] *)
Definition read14 (b : list N) (i : nat) : outcome N :=
  x0 <- idx b i ;; x1 <- idx b (i + 1) ;; Val (u14_from_u7s x0 x1).
Definition read28 (b : list N) (i : nat) : outcome N :=
  x0 <- idx b i ;; x1 <- idx b (i + 1) ;; x2 <- idx b (i + 2) ;; x3 <- idx b (i + 3) ;;
  Val (u28_from_u7s x0 x1 x2 x3).

(** Assignments [b[i] = l[0]; b[i + 1] = l[1]; ...] *)
Fixpoint put_bytes (b : list N) (i : nat) (l : list N) : outcome (list N) :=
  match l with
  | [] => Val b
  | x :: t => b' <- upd b i (fun _ => x) ;; put_bytes b' (i + 1) t
  end.

(** [ReadProperty::read] *)
Definition ci_read (p : ci_prop) (b : list N) : outcome ci_value :=
  match p with
  | Source => n <- read28 b 6 ;; Val (CiNum n)
  | DeviceManufacturer =>
      x <- idx_u7 b 14 ;; y <- idx_u7 b 15 ;; z <- idx_u7 b 16 ;; Val (CiBytes [x; y; z])
  | DeviceFamily => n <- read14 b 17 ;; Val (CiNum n)
  | ModelNumber => n <- read14 b 19 ;; Val (CiNum n)
  | SoftwareVersion =>
      w <- idx_u7 b 21 ;; x <- idx_u7 b 22 ;; y <- idx_u7 b 23 ;; z <- idx_u7 b 24 ;;
      Val (CiBytes [w; x; y; z])
  | CiSupport i => x <- idx b 25 ;; Val (CiFlag (bit8 x i))
  | MaxSysexSize => n <- read28 b 26 ;; Val (CiNum n)
  | OutputPathId => n <- idx_u7 b 30 ;; Val (CiNum n)
  | UniversalSysexByte | DeviceIdToFunctionBlock | SubId1 | SubId2 | BroadcastDestination => Val CiUnit
  end.

(** [ReadProperty::validate] *)
Definition ci_validate (p : ci_prop) (b : list N) : outcome (res unit) :=
  match p with
  | UniversalSysexByte =>
      x <- idx b 1 ;; Val (check (x =? 0x7E)%N "Expected Universal Sysex Byte: 0x7E")
  | DeviceIdToFunctionBlock =>
      x <- idx b 2 ;; Val (check (x =? 0x7F)%N "Expected DeviceID: To Function Block (0x7F)")
  | SubId1 =>
      x <- idx b 3 ;; Val (check (x =? 0x0D)%N "Expected Universal Sysex Sub Id #1: Midi CI (0x0D)")
  | SubId2 =>
      x <- idx b 4 ;; Val (check (x =? 0x70)%N "Incorrect Universal Sysex Sub Id #2 field")
  | BroadcastDestination =>
      n <- read28 b 10 ;; Val (check (n =? 0xFFFFFFF)%N "Expected broadcast destination MUID")
  | _ => Val (Ok tt)
  end.

(** [WriteProperty::write]; a value of another type does not compile *)
Definition ci_write (p : ci_prop) (v : ci_value) (b : list N) : outcome (list N) :=
  match p, v with
  | UniversalSysexByte, CiUnit => upd b 1 (fun _ => 0x7E%N)
  | DeviceIdToFunctionBlock, CiUnit => upd b 2 (fun _ => 0x7F%N)
  | SubId1, CiUnit => upd b 3 (fun _ => 0x0D%N)
  | SubId2, CiUnit => upd b 4 (fun _ => 0x70%N)
  | Source, CiNum n => put_bytes b 6 (u28_to_u7s n)
  | BroadcastDestination, CiUnit => put_bytes b 10 (u28_to_u7s 0xFFFFFFF)
  | DeviceManufacturer, CiBytes [x; y; z] => put_bytes b 14 [x; y; z]
  | DeviceFamily, CiNum n => put_bytes b 17 (u14_to_u7s n)
  | ModelNumber, CiNum n => put_bytes b 19 (u14_to_u7s n)
  | SoftwareVersion, CiBytes [w; x; y; z] => put_bytes b 21 [w; x; y; z]
  | CiSupport i, CiFlag f => upd b 25 (fun x => set_bit8 x i f)
  | MaxSysexSize, CiNum n => put_bytes b 26 (u28_to_u7s n)
  | OutputPathId, CiNum n => upd b 30 (fun _ => n)
  | _, _ => Panic
  end.

(** [WriteProperty::default] *)
Definition ci_default (p : ci_prop) : ci_value :=
  match p with
  | Source | DeviceFamily | ModelNumber | MaxSysexSize | OutputPathId => CiNum 0
  | DeviceManufacturer => CiBytes [0; 0; 0]%N
  | SoftwareVersion => CiBytes [0; 0; 0; 0]%N
  | CiSupport _ => CiFlag false
  | UniversalSysexByte | DeviceIdToFunctionBlock | SubId1 | SubId2 | BroadcastDestination => CiUnit
  end.

(** ** generate_ci.rs *)

(** generate_ci.rs 428-448 with discovery.rs 5-8; [Sysex7<B>::MIN_SIZE] is 2 over bytes *)
Definition ci_min (v : N) : nat :=
  if (v =? 1)%N then 31 else if (v =? 2)%N then 32 else 2.

(** generate_ci.rs 162-184: [initialise_property_statements] *)
Fixpoint ci_init (v : N) (ps : list ci_prop) (b : list N) : outcome (list N) :=
  match ps with
  | [] => Val b
  | p :: t =>
      b' <- (if (prop_version p <=? v)%N then ci_write p (ci_default p) b else Val b) ;;
      ci_init v t b'
  end.

(** generate_ci.rs 303-329: [new] *)
Definition ci_new (v : N) : outcome (list N) :=
  b <- new_b ;;
  n <- sub_chk (ci_min v) 2 ;;
  b <- resize_b b n ;;
  b <- (if 5 <? List.length b then upd b 5 (fun _ => v) else Val b) ;;
  ci_init v discovery_query b.
(** generate_ci.rs 331-356: [new_with_buffer] *)
Definition ci_new_with_buffer (v : N) (b : list N) : outcome (list N) :=
  b <- new_with_buffer_b b ;;
  n <- sub_chk (ci_min v) 2 ;;
  b <- resize_b b n ;;
  b <- (if 5 <? List.length b then upd b 5 (fun _ => v) else Val b) ;;
  ci_init v discovery_query b.

(** [SysexInternal::try_resize(..)?] *)
Definition ci_try_resize (b : list N) (n : nat) : outcome (res (list N)) :=
  r <- try_resize_b b n ;;
  match r with
  | (b', None) => Val (Ok b')
  | (_, Some _) => Val (Err "BufferOverflow")
  end.
(** generate_ci.rs 358-382: [try_new] on an array of [n] bytes *)
Definition ci_try_new (v : N) (n : nat) : outcome (res (list N)) :=
  b <-? try_new_b n ;;
  k <- sub_chk (ci_min v) 2 ;;
  b <-? ci_try_resize b k ;;
  b <- upd b 5 (fun _ => v) ;;
  b <- ci_init v discovery_query b ;; Val (Ok b).
(** generate_ci.rs 384-407: [try_new_with_buffer] *)
Definition ci_try_new_with_buffer (v : N) (b : list N) : outcome (res (list N)) :=
  b <-? try_new_with_buffer_b b ;;
  k <- sub_chk (ci_min v) 2 ;;
  b <-? ci_try_resize b k ;;
  b <- upd b 5 (fun _ => v) ;;
  b <- ci_init v discovery_query b ;; Val (Ok b).

(** generate_ci.rs 526-539: the validation steps *)
Fixpoint ci_validates (v : N) (ps : list ci_prop) (b : list N) : outcome (res unit) :=
  match ps with
  | [] => Val (Ok tt)
  | p :: t =>
      _ <-? (if (prop_version p <=? v)%N then ci_validate p b else Val (Ok tt)) ;;
      ci_validates v t b
  end.
(** generate_ci.rs 525-557: [TryFrom<&[u8]>] *)
Definition ci_try_from (v : N) (b : list N) : outcome (res (list N)) :=
  if List.length b <? ci_min v then Val (Err "Slice is too short") else
  x <- idx b 5 ;;
  if negb (x =? v)%N then Val (Err "Incorrect CI version") else
  b' <-? Val (try_from_b b) ;;
  _ <-? ci_validates v discovery_query b' ;;
  Val (Ok b').

(** generate_ci.rs 480-523: the getters of the trait [Ci] ([source] is
    [ci_read Source]); ci/common_properties.rs 37-63, 185-212 *)
Definition ci_device_id (b : list N) : outcome device_id :=
  x <- idx b 2 ;; match device_id_from_u8 x with Ok d => Val d | Err _ => Panic end.
Definition ci_destination (b : list N) : outcome N := read28 b 10.

(** generate_ci.rs 450-460: [Deref] to [Sysex7], so [data], [payload] and
    [payload_size] are those of Sysex.v. *)
Definition ci_data (b : list N) : outcome (list N) := data_b b.
Definition ci_payload (b : list N) : outcome (list N) := payload_list_b b.

(** generate_ci.rs 559-585: [rebuffer_from], [try_rebuffer_from] *)
Definition ci_rebuffer_vec (b : list N) : list N := rebuffer_vec b.
Definition ci_try_rebuffer_array (b : list N) (n : nat) : res (list N) := try_rebuffer_array b n.
