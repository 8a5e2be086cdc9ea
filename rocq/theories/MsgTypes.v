(** pyogp/lib/base/message/msgtypes.py *)
From Verif Require Export Prelude.

(** msgtypes.py:83-110, class MsgType: range(20) in this order.  A type value
    outside 0..19 (in practice [None], produced by the template parser for an
    unknown type name) is [None : option mvt]. *)
Inductive mvt :=
| MVT_FIXED | MVT_VARIABLE | MVT_U8 | MVT_U16 | MVT_U32 | MVT_U64
| MVT_S8 | MVT_S16 | MVT_S32 | MVT_S64 | MVT_F32 | MVT_F64
| MVT_LLVector3 | MVT_LLVector3d | MVT_LLVector4 | MVT_LLQuaternion
| MVT_LLUUID | MVT_BOOL | MVT_IP_ADDR | MVT_IP_PORT.

Definition mvt_eqb (a b : mvt) : bool :=
  match a, b with
  | MVT_FIXED, MVT_FIXED | MVT_VARIABLE, MVT_VARIABLE | MVT_U8, MVT_U8
  | MVT_U16, MVT_U16 | MVT_U32, MVT_U32 | MVT_U64, MVT_U64 | MVT_S8, MVT_S8
  | MVT_S16, MVT_S16 | MVT_S32, MVT_S32 | MVT_S64, MVT_S64 | MVT_F32, MVT_F32
  | MVT_F64, MVT_F64 | MVT_LLVector3, MVT_LLVector3 | MVT_LLVector3d, MVT_LLVector3d
  | MVT_LLVector4, MVT_LLVector4 | MVT_LLQuaternion, MVT_LLQuaternion
  | MVT_LLUUID, MVT_LLUUID | MVT_BOOL, MVT_BOOL | MVT_IP_ADDR, MVT_IP_ADDR
  | MVT_IP_PORT, MVT_IP_PORT => true
  | _, _ => false
  end.

(** msgtypes.py:123-163, sizeof (falls off the end, returning None, for an
    unknown type). *)
Definition sizeof_mvt (t : mvt) : Z :=
  match t with
  | MVT_FIXED => -1
  | MVT_VARIABLE => -1
  | MVT_U8 => 1
  | MVT_U16 => 2
  | MVT_U32 => 4
  | MVT_U64 => 8
  | MVT_S8 => 1
  | MVT_S16 => 2
  | MVT_S32 => 4
  | MVT_S64 => 8
  | MVT_F32 => 4
  | MVT_F64 => 8
  | MVT_LLVector3 => 12
  | MVT_LLVector3d => 24
  | MVT_LLVector4 => 16
  | MVT_LLQuaternion => 12
  | MVT_LLUUID => 16
  | MVT_BOOL => 1
  | MVT_IP_ADDR => 4
  | MVT_IP_PORT => 2
  end.
Definition sizeof (t : option mvt) : option Z := option_map sizeof_mvt t.

(** msgtypes.py:37-40, MsgBlockType; [None] when the parser met an unknown
    block type name. *)
Inductive mbt := MBT_SINGLE | MBT_MULTIPLE | MBT_VARIABLE.

(** msgtypes.py:50-55, PackFlags *)
Definition LL_ZERO_CODE_FLAG : Z := 0x80.
Definition LL_RELIABLE_FLAG : Z := 0x40.
Definition LL_RESENT_FLAG : Z := 0x20.
Definition LL_ACK_FLAG : Z := 0x10.
Definition LL_NONE : Z := 0.

(** msgtypes.py:22-30, PacketLayout *)
Definition PACKET_ID_LENGTH : Z := 6.
Definition PHL_OFFSET : Z := 5.

(** msgtypes.py:62-66, MsgFrequency: the Python constants are -1, 4, 2, 1;
    [freq_code] gives them back. *)
Inductive freq := FIXED | LOW | MEDIUM | HIGH.
Definition freq_code (f : freq) : Z :=
  match f with FIXED => -1 | LOW => 4 | MEDIUM => 2 | HIGH => 1 end.
Definition freq_eqb (a b : freq) : bool :=
  match a, b with
  | FIXED, FIXED | LOW, LOW | MEDIUM, MEDIUM | HIGH, HIGH => true
  | _, _ => false
  end.

(** msgtypes.py:68-80 *)
Inductive trust := LL_TRUSTED | LL_NOTRUST.
Inductive encoding := LL_UNENCODED | LL_ZEROCODED.
Inductive deprecation := LL_DEPRECATED | LL_UDPDEPRECATED | LL_UDPBLACKLISTED | LL_NOTDEPRECATED.
