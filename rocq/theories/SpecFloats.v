(** Specification vocabulary for float fields (C02, C04): real numbers and the
    IEEE-754 formats.  [rv] is the real value of a finite float. *)
From Coq Require Import ZArith Reals Floats.SpecFloat.
From Flocq Require Import Core BinarySingleNaN.
From Verif Require Import PyFloat MsgTypes Values.
Open Scope Z_scope.

Definition rv (f : pyfloat) : R := SF2R radix2 f.

(** Round to nearest, ties to even, in binary32 and binary64 (gradual
    underflow, unbounded above); Flocq's rounding operator. *)
Definition rn32 (x : R) : R := round radix2 (FLT_exp (-149) 24) ZnearestE x.
Definition rn64 (x : R) : R := round radix2 (FLT_exp (-1074) 53) ZnearestE x.

(** The real number that an IEEE-754 interchange pattern with [ew] exponent and
    [mw] mantissa bits denotes (exponent field not all ones). *)
Definition ieee_real (mw ew z : Z) : R :=
  let s := z / 2 ^ (mw + ew) in
  let be := (z / 2 ^ mw) mod 2 ^ ew in
  let fr := z mod 2 ^ mw in
  let bias := 2 ^ (ew - 1) - 1 in
  ((if s =? 0 then 1 else -1) *
   (if be =? 0 then IZR fr * bpow radix2 (1 - bias - mw)
    else IZR (2 ^ mw + fr) * bpow radix2 (be - bias - mw)))%R.

Definition finite_float (f : pyfloat) : Prop :=
  match f with S754_zero _ | S754_finite _ _ _ => True | _ => False end.
(** The sign bit is clear / set. *)
Definition positive_or_zero (f : pyfloat) : Prop :=
  match f with S754_zero _ | S754_infinity false | S754_finite false _ _ => True | _ => False end.
Definition negative_or_nan (f : pyfloat) : Prop :=
  match f with S754_infinity true | S754_finite true _ _ | S754_nan => True | _ => False end.
Definition opposite (f : pyfloat) : pyfloat :=
  match f with
  | S754_zero s => S754_zero (negb s)
  | S754_infinity s => S754_infinity (negb s)
  | S754_nan => S754_nan
  | S754_finite s m e => S754_finite (negb s) m e
  end.

(** 1 - (x2 + y2 + z2) computed in binary64, each operation rounded. *)
Definition w_square (x y z : R) : R :=
  rn64 (1 - rn64 (rn64 (rn64 (x * x) + rn64 (y * y)) + rn64 (z * z))).

(** The vector types: component type and number; a Vector3 is an object, the
    other two are tuples of floats. *)
Definition vector_shape (t : mvt) : option (mvt * nat) :=
  match t with
  | MVT_LLVector3 => Some (MVT_F32, 3%nat)
  | MVT_LLVector3d => Some (MVT_F64, 3%nat)
  | MVT_LLVector4 => Some (MVT_F32, 4%nat)
  | _ => None
  end.
Definition components (t : mvt) (v : pyval) : option (mvt * list pyfloat) :=
  match t, v with
  | MVT_LLVector3, VVec3 x y z => Some (MVT_F32, [x; y; z])
  | MVT_LLVector3d, VTuple [NF x; NF y; NF z] => Some (MVT_F64, [x; y; z])
  | MVT_LLVector4, VTuple [NF x; NF y; NF z; NF w] => Some (MVT_F32, [x; y; z; w])
  | _, _ => None
  end.
