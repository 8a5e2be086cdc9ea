(** Python values that message fields hold. *)
From Verif Require Export PyStruct.

Inductive num := NI (z : Z) | NF (f : pyfloat).

(** [VStr] is a byte string (Python 2 str), [VUni] a unicode object as a list
    of code points, [VTuple] a tuple or list of numbers, [VVec3], [VQuat],
    [VUUID] the classes of pyogp/lib/base/datatypes.py (33, 107, 181; a UUID is
    its 128-bit integer), [VStdUUID] the standard library's uuid.UUID.
    Other Python objects are not represented. *)
Inductive pyval :=
| VNone
| VBool (b : bool)
| VInt (z : Z)
| VStr (s : bytes)
| VUni (u : list Z)
| VFloat (f : pyfloat)
| VTuple (l : list num)
| VVec3 (x y z : pyfloat)
| VQuat (x y z w : pyfloat)
| VUUID (u : Z)
| VStdUUID (u : Z).

(** The integer struct sees for an integer format ('B', 'H', ...): ints, bools,
    and floats (truncated, with a DeprecationWarning); struct.error otherwise.
    Python 2.7 turns the OverflowError of int(inf) into struct.error.
    Simplifications: uuid.UUID has an __int__ and would be accepted; Python 2.6
    reports some of the refused values as TypeError, and refuses (rather than
    masks) floats beyond 2^63.  No theorem speaks of these cases. *)
Definition as_pyint (pv : pyver) (v : pyval) : res Z :=
  match v with
  | VInt z => Ok z
  | VBool b => Ok (if b then 1 else 0)
  | VFloat f =>
      match int_of_float f, pv with
      | Err OverflowErr, Py27 => Err StructError
      | r, _ => r
      end
  | _ => Err StructError
  end.

(** The double struct sees for 'f' and 'd'; every failure of the conversion is
    reported as struct.error. *)
Definition num_float (n : num) : res pyfloat :=
  match n with
  | NF f => Ok f
  | NI z => match float_of_int z with Ok f => Ok f | Err _ => Err StructError end
  end.
Definition as_pyfloat (v : pyval) : res pyfloat :=
  match v with
  | VFloat f => Ok f
  | VInt z => num_float (NI z)
  | VBool b => num_float (NI (if b then 1 else 0))
  | _ => Err StructError
  end.

(** u.encode('utf-8').  Simplification: no special treatment of surrogates. *)
Definition utf8_char (c : Z) : bytes :=
  if c <? 0x80 then [chr c]
  else if c <? 0x800 then [chr (0xC0 + c / 64); chr (0x80 + c mod 64)]
  else if c <? 0x10000 then
    [chr (0xE0 + c / 4096); chr (0x80 + (c / 64) mod 64); chr (0x80 + c mod 64)]
  else
    [chr (0xF0 + c / 262144); chr (0x80 + (c / 4096) mod 64);
     chr (0x80 + (c / 64) mod 64); chr (0x80 + c mod 64)].
Definition utf8 (u : list Z) : bytes := flat_map utf8_char u.
