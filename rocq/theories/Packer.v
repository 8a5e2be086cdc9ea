(** pyogp/lib/base/message/data_packer.py and data_unpacker.py *)
From Verif Require Export MsgTypes Datatypes.

(** How a type is packed (data_packer.py:31-51): one struct integer item, one
    struct float item, or one of the Python methods. *)
Inductive packfn :=
| FInt (signed : bool) (n : nat)
| FFloat (double : bool)
| FVec3 | FVec3d | FVec4 | FQuat | FUuid | FString.

(** data_packer.py:30-51, DataPacker.__init__: the table. *)
Definition packer_table (t : mvt) : endian * packfn :=
  match t with
  | MVT_FIXED => (BE, FString)
  | MVT_VARIABLE => (BE, FString)
  | MVT_S8 => (BE, FInt true 1)
  | MVT_U8 => (BE, FInt false 1)
  | MVT_BOOL => (BE, FInt false 1)
  | MVT_LLUUID => (BE, FUuid)
  | MVT_IP_ADDR => (BE, FString)
  | MVT_IP_PORT => (BE, FInt false 2)
  | MVT_U16 => (LE, FInt false 2)
  | MVT_U32 => (LE, FInt false 4)
  | MVT_U64 => (LE, FInt false 8)
  | MVT_S16 => (LE, FInt true 2)
  | MVT_S32 => (LE, FInt true 4)
  | MVT_S64 => (LE, FInt true 8)
  | MVT_F32 => (LE, FFloat false)
  | MVT_F64 => (LE, FFloat true)
  | MVT_LLVector3 => (LE, FVec3)
  | MVT_LLVector3d => (LE, FVec3d)
  | MVT_LLVector4 => (LE, FVec4)
  | MVT_LLQuaternion => (LE, FQuat)
  end.

(** struct.pack(endian + '<k>f', *l): the items in order. *)
Fixpoint pack_nums (en : endian) (double : bool) (l : list num) : res bytes :=
  match l with
  | [] => Ok []
  | n :: l' =>
      do f <- num_float n;
      do b <- pack_float en double f;
      do r <- pack_nums en double l';
      Ok (b ++ r)
  end.

(** data_packer.py:68-70, __pack_tuple, on any value: [len] fails with
    TypeError on objects without a length; the characters of a non-empty string
    are not floats (struct.error). *)
Definition pack_tuple (en : endian) (double : bool) (v : pyval) : res bytes :=
  match v with
  | VTuple l => pack_nums en double l
  | VStr [] | VUni [] => Ok []
  | VStr _ | VUni _ => Err StructError
  | _ => Err TypeErr
  end.

(** data_packer.py:72-75, __pack_vector3 *)
Definition pack_vector3 (en : endian) (v : pyval) : res bytes :=
  match v with
  | VVec3 x y z => pack_tuple en false (VTuple [NF x; NF y; NF z])
  | _ => pack_tuple en false v
  end.

(** [n >= 0] and [-n] on numbers *)
Definition num_nonneg (n : num) : bool :=
  match n with NI z => 0 <=? z | NF f => SFleb fzero f end.
Definition num_neg (n : num) : num :=
  match n with NI z => NI (- z) | NF f => NF (fneg f) end.

(** helpers.py:122-128, Helpers.pack_quaternion_to_vector3: [quaternion[3]]
    raises IndexError on a short tuple. *)
Definition pack_quaternion_to_vector3 (l : list num) : res (list num) :=
  match l with
  | q0 :: q1 :: q2 :: q3 :: _ =>
      if num_nonneg q3 then Ok [q0; q1; q2] else Ok [num_neg q0; num_neg q1; num_neg q2]
  | _ => Err IndexErr
  end.

(** data_packer.py:83-87, __pack_quat.  A string of 4 or more characters passes
    the comparison with 0 (Python 2 orders str above int) and then fails in
    struct. *)
Definition pack_quat (en : endian) (v : pyval) : res bytes :=
  match v with
  | VQuat x y z w =>
      do l <- pack_quaternion_to_vector3 [NF x; NF y; NF z; NF w];
      pack_nums en false l
  | VTuple l =>
      do l' <- pack_quaternion_to_vector3 l;
      pack_nums en false l'
  | VStr s => if Nat.leb 4 (List.length s) then Err StructError else Err IndexErr
  | VUni s => if Nat.leb 4 (List.length s) then Err StructError else Err IndexErr
  | _ => Err TypeErr
  end.

(** data_packer.py:89-94, __pack_uuid: anything that is not a pyogp UUID must
    have an attribute [bytes]. *)
Definition pack_uuid (v : pyval) : res bytes :=
  match v with
  | VUUID u => Ok (uuid_get_bytes u)
  | VStdUUID u => Ok (be_bytes 16 u)
  | _ => Err AttributeErr
  end.

(** data_packer.py:96-103, __pack_string: UTF-8 and NUL-terminated. *)
Definition pack_string (v : pyval) : res bytes :=
  match v with
  | VNone => Ok [x00]
  | VUni u => Ok (utf8 u ++ [x00])
  | VStr s => Ok (s ++ [x00])
  | _ => Err TypeErr
  end.

(** data_packer.py:53-66, pack_data.  [et] is the endian override
    (EndianType.NONE is [None]).  An unknown type gives Python's None. *)
Definition pack_data (pv : pyver) (v : pyval) (t : option mvt) (et : option endian)
  : res (option bytes) :=
  match t with
  | None => Ok None
  | Some t =>
      let '(en0, fn) := packer_table t in
      let en := match et with Some e => e | None => en0 end in
      res_map (@Some bytes)
        match fn with
        | FInt sg n => do z <- as_pyint pv v; pack_int pv en sg n z
        | FFloat d => do f <- as_pyfloat v; pack_float en d f
        | FVec3 => pack_vector3 en v
        | FVec3d => pack_tuple en true v
        | FVec4 => pack_tuple en false v
        | FQuat => pack_quat en v
        | FUuid => pack_uuid v
        | FString => pack_string v
        end
  end.

(** data_unpacker.py:33-54, DataUnpacker.__init__: the table.  It differs from
    the packer's only in MVT_FIXED ('<', irrelevant for strings). *)
Definition unpacker_table (t : mvt) : endian * packfn :=
  match t with
  | MVT_FIXED => (LE, FString)
  | MVT_VARIABLE => (BE, FString)
  | MVT_S8 => (BE, FInt true 1)
  | MVT_U8 => (BE, FInt false 1)
  | MVT_BOOL => (BE, FInt false 1)
  | MVT_LLUUID => (BE, FUuid)
  | MVT_IP_ADDR => (BE, FString)
  | MVT_IP_PORT => (BE, FInt false 2)
  | MVT_U16 => (LE, FInt false 2)
  | MVT_U32 => (LE, FInt false 4)
  | MVT_U64 => (LE, FInt false 8)
  | MVT_S16 => (LE, FInt true 2)
  | MVT_S32 => (LE, FInt true 4)
  | MVT_S64 => (LE, FInt true 8)
  | MVT_F32 => (LE, FFloat false)
  | MVT_F64 => (LE, FFloat true)
  | MVT_LLVector3 => (LE, FVec3)
  | MVT_LLVector3d => (LE, FVec3d)
  | MVT_LLVector4 => (LE, FVec4)
  | MVT_LLQuaternion => (LE, FQuat)
  end.

(** struct.unpack(endian + '<k>f', s) with k = len(s) / itemsize
    (data_unpacker.py:87-89, __unpack_tuple): struct.error unless the length is
    a multiple of the item size. *)
Fixpoint unpack_nums (en : endian) (double : bool) (k : nat) (s : bytes) : res (list num) :=
  match k with
  | O => match s with [] => Ok [] | _ => Err StructError end
  | S k' =>
      let w := if double then 8%nat else 4%nat in
      do f <- unpack_float en double (firstn w s);
      do r <- unpack_nums en double k' (skipn w s);
      Ok (NF f :: r)
  end.
Definition unpack_tuple (en : endian) (double : bool) (s : bytes) : res (list num) :=
  unpack_nums en double (Nat.div (List.length s) (if double then 8 else 4)) s.

(** One attempt of data_unpacker.py:63-85 (the dispatch on the table). *)
Definition unpack_raw (t : mvt) (et : option endian) (d : bytes) : res pyval :=
  let '(en0, fn) := unpacker_table t in
  let en := match et with Some e => e | None => en0 end in
  match fn with
  | FInt sg n => res_map VInt (unpack_int en sg n d)
  | FFloat db => res_map VFloat (unpack_float en db d)
  | FVec3 => res_map (fun '(x, y, z) => VVec3 x y z) (vec3_unpack d 0)
  | FVec3d => res_map VTuple (unpack_tuple en true d)
  | FVec4 => res_map VTuple (unpack_tuple en false d)
  | FQuat => res_map (fun '(x, y, z, w) => VQuat x y z w) (quat_unpack d 0)
  | FUuid => res_map VUUID (uuid_unpack d 0)
  | FString => Ok (VStr d)
  end.

(** The [except struct.error] of lines 75-77 and 81-83. *)
Definition wrap_struct_error {A} (r : res A) : res A :=
  match r with
  | Err StructError => Err DataUnpackingErr
  | _ => r
  end.

(** data_unpacker.py:56-85, unpack_data.  [si] is start_index, [vs] var_size
    (both -1 by default); [sizeof] of an unknown type is None, and adding it to
    an int is a TypeError; an unknown type otherwise gives None. *)
Definition unpack_data (data : bytes) (t : option mvt) (si vs : Z) (et : option endian)
  : res pyval :=
  do d <- (if si =? -1 then Ok data
           else if vs =? -1 then
             match sizeof t with
             | Some n => Ok (pyslice data si (si + n))
             | None => Err TypeErr
             end
           else Ok (pyslice data si (si + vs)));
  match t with
  | None => Ok VNone
  | Some t => wrap_struct_error (unpack_raw t et d)
  end.
