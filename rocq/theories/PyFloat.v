(** Python floats: IEEE-754 binary64, represented by the standard library's
    [SpecFloat.spec_float]; and the two struct formats 'f' and 'd'.

    Simplification: NaN payloads are not represented; every NaN is written as
    the default quiet NaN (0x7ff8000000000000 / 0x7fc00000). *)
From Verif Require Export Prelude.
From Coq Require Export Floats.SpecFloat.

Notation pyfloat := spec_float.

Definition valid64 (f : pyfloat) : bool :=
  match f with
  | S754_finite _ m e => bounded 53 1024 m e
  | _ => true
  end.
Definition valid32 (f : pyfloat) : bool :=
  match f with
  | S754_finite _ m e => bounded 24 128 m e
  | _ => true
  end.

Definition sgn (s : bool) : Z := if s then 1 else 0.

(** Interchange encoding of a binary(1+ew+mw) number as an integer: sign bit,
    [ew] exponent bits, [mw] mantissa bits.  [emin] is the exponent of the unit
    in the last place of subnormals (-1074 or -149). *)
Definition bits_of_float (mw ew emin : Z) (f : pyfloat) : Z :=
  match f with
  | S754_zero s => sgn s * 2 ^ (mw + ew)
  | S754_infinity s => sgn s * 2 ^ (mw + ew) + (2 ^ ew - 1) * 2 ^ mw
  | S754_nan => (2 ^ ew - 1) * 2 ^ mw + 2 ^ (mw - 1)
  | S754_finite s m e =>
      sgn s * 2 ^ (mw + ew) +
      (if 2 ^ mw <=? Z.pos m
       then (e - emin + 1) * 2 ^ mw + (Z.pos m - 2 ^ mw)
       else Z.pos m)
  end.

Definition float_of_bits (mw ew emin : Z) (z : Z) : pyfloat :=
  let s := 0 <? z / 2 ^ (mw + ew) in
  let e := (z / 2 ^ mw) mod 2 ^ ew in
  let m := z mod 2 ^ mw in
  if e =? 0 then
    match m with
    | Z.pos p => S754_finite s p emin
    | _ => S754_zero s
    end
  else if e =? 2 ^ ew - 1 then
    if m =? 0 then S754_infinity s else S754_nan
  else
    match m + 2 ^ mw with
    | Z.pos p => S754_finite s p (e + emin - 1)
    | _ => S754_nan
    end.

Definition bits64 := bits_of_float 52 11 (-1074).
Definition of_bits64 := float_of_bits 52 11 (-1074).
Definition bits32 := bits_of_float 23 8 (-149).
Definition of_bits32 := float_of_bits 23 8 (-149).

(** C conversion (float)x, round to nearest even. *)
Definition to_single (f : pyfloat) : pyfloat :=
  match f with
  | S754_finite s m e => binary_round 24 128 s m e
  | _ => f
  end.
(** C conversion (double)x of a float: exact; re-normalises the mantissa. *)
Definition to_double (f : pyfloat) : pyfloat :=
  match f with
  | S754_finite s m e => binary_round 53 1024 s m e
  | _ => f
  end.

(** The integer that struct.pack('f', x) writes; CPython's _PyFloat_Pack4
    raises OverflowError when a finite x becomes infinite. *)
Definition pack_f32 (f : pyfloat) : res Z :=
  match f with
  | S754_finite _ _ _ =>
      match to_single f with
      | S754_infinity _ => Err OverflowErr
      | g => Ok (bits32 g)
      end
  | _ => Ok (bits32 f)
  end.
Definition unpack_f32 (z : Z) : pyfloat := to_double (of_bits32 z).
Definition pack_f64 (f : pyfloat) : res Z := Ok (bits64 f).
Definition unpack_f64 (z : Z) : pyfloat := of_bits64 z.

(** binary64 arithmetic used by the code. *)
Definition fmul := SFmul 53 1024.
Definition fadd := SFadd 53 1024.
Definition fsub := SFsub 53 1024.
Definition fsqrt := SFsqrt 53 1024.
Definition fdiv := SFdiv 53 1024.
Definition fneg := SFopp.
Definition fzero : pyfloat := S754_zero false.
Definition fone : pyfloat := S754_finite false 4503599627370496 (-52).

(** float(n) for a Python int: nearest even, OverflowError when too large. *)
Definition float_of_int (n : Z) : res pyfloat :=
  match n with
  | 0 => Ok fzero
  | Z.pos p => match binary_round 53 1024 false p 0 with
               | S754_infinity _ => Err OverflowErr | f => Ok f end
  | Z.neg p => match binary_round 53 1024 true p 0 with
               | S754_infinity _ => Err OverflowErr | f => Ok f end
  end.

(** int(x) for a Python float: truncation toward zero. *)
Definition int_of_float (f : pyfloat) : res Z :=
  match f with
  | S754_zero _ => Ok 0
  | S754_infinity _ => Err OverflowErr
  | S754_nan => Err ValueErr
  | S754_finite s m e =>
      let a := if e <? 0 then Z.pos m / 2 ^ (- e) else Z.pos m * 2 ^ e in
      Ok (if s then - a else a)
  end.
