(** Python's float(text) and str(float), which datatypes.py:45-53, 79, 104,
    119-131 and template_parser.py:89 use.  These are CPython built-ins
    (Objects/floatobject.c, Python/pystrtod.c, Python/dtoa.c of 2.7; C's strtod
    and "%.12g" in 2.6), modelled in the C locale.

    Simplifications: Python 2.7 reads an exponent beyond 19999 as 19999, and a
    text has at most MAX_DIGITS digits; neither is modelled (the value would
    differ only for texts with thousands of zeros).  A NaN has no sign here. *)
From Verif Require Export PyFloat Datatypes PyRegex.
Open Scope list_scope.

(** ** float(text) *)

(** The longest run of digits at the front, and what follows. *)
Fixpoint take_digits (s : bytes) : bytes * bytes :=
  match s with
  | [] => ([], [])
  | b :: s' => if is_digit b then let '(d, r) := take_digits s' in (b :: d, r) else ([], s)
  end.
Definition digits_value (ds : bytes) : Z := fold_left (fun a d => 10 * a + (ord d - 48)) ds 0.
(** An optional sign: is it a minus, and what follows. *)
Definition take_sign (s : bytes) : bool * bytes :=
  match s with
  | b :: s' => if Byte.eqb b x2d then (true, s') else if Byte.eqb b x2b then (false, s') else (false, s)
  | [] => (false, [])
  end.
Definition lower_byte (b : byte) : byte :=
  if (65 <=? ord b) && (ord b <=? 90) then chr (ord b + 32) else b.
Definition same_word (w s : bytes) : bool :=
  if list_eq_dec Byte.byte_eq_dec (map lower_byte s) w then true else false.

(** The double nearest to (-1)^neg * m * 10^e, ties to even; an infinity when
    it is too large. *)
Definition nearest_decimal (neg : bool) (m e : Z) : pyfloat :=
  match m with
  | Z.pos p =>
      if 0 <=? e then binary_round 53 1024 neg (Z.to_pos (m * 10 ^ e)) 0
      else fdiv (S754_finite neg p 0) (S754_finite false (Z.to_pos (10 ^ - e)) 0)
  | _ => S754_zero neg
  end.

(** What follows the digits: nothing, or an exponent. *)
Definition read_exponent (s : bytes) : option Z :=
  match s with
  | [] => Some 0
  | b :: s' =>
      if Byte.eqb b x65 || Byte.eqb b x45 then
        let '(neg, s1) := take_sign s' in
        let '(ds, r) := take_digits s1 in
        match ds, r with
        | _ :: _, [] => Some (if neg then - digits_value ds else digits_value ds)
        | _, _ => None
        end
      else None
  end.

(** float(s) *)
Definition float_of_text (s : bytes) : res pyfloat :=
  let '(neg, s1) := take_sign (strip_by is_ws s) in
  if same_word (bytes_of_string "inf") s1 || same_word (bytes_of_string "infinity") s1
  then Ok (S754_infinity neg)
  else if same_word (bytes_of_string "nan") s1 then Ok S754_nan
  else
    let '(ip, s2) := take_digits s1 in
    let '(fp, s3) := match s2 with
                     | b :: s' => if Byte.eqb b x2e then take_digits s' else ([], s2)
                     | [] => ([], [])
                     end in
    match ip ++ fp, read_exponent s3 with
    | _ :: _, Some e => Ok (nearest_decimal neg (digits_value (ip ++ fp)) (e - zlen fp))
    | _, _ => Err ValueErr
    end.

(** ** str(float) *)

(** The number of decimal digits of a positive integer. *)
Fixpoint count_digits (fuel : nat) (z : Z) : Z :=
  match fuel with
  | O => 1
  | S fuel' => if z <? 10 then 1 else 1 + count_digits fuel' (z / 10)
  end.
Definition decimal_digits (z : Z) : Z := count_digits (Z.to_nat (Z.log2 z)) z.
(** The decimal exponent of num/den: 10^k <= num/den < 10^(k+1). *)
Definition decimal_exponent (num den : Z) : Z :=
  if den <=? num then decimal_digits (num / den) - 1 else - decimal_digits ((den - 1) / num).
(** num/den to the nearest integer, ties to even. *)
Definition nearest_integer (num den : Z) : Z :=
  let q := num / den in
  let r := num mod den in
  match 2 * r ?= den with
  | Lt => q
  | Gt => q + 1
  | Eq => if Z.even q then q else q + 1
  end.
(** num/den to twelve significant digits: d * 10^(k - 11), 10^11 <= d < 10^12. *)
Definition twelve_digits (num den : Z) : Z * Z :=
  let k := decimal_exponent num den in
  let s := 11 - k in
  let d := if 0 <=? s then nearest_integer (num * 10 ^ s) den else nearest_integer num (den * 10 ^ - s) in
  if d =? 10 ^ 12 then (10 ^ 11, k + 1) else (d, k).

Definition digit_char (z : Z) : byte := chr (48 + z).
(** [n] digits, the most significant first. *)
Fixpoint digits_text (n : nat) (z : Z) : bytes :=
  match n with
  | O => []
  | S n' => digits_text n' (z / 10) ++ [digit_char (z mod 10)]
  end.
Definition strip_zeros (s : bytes) : bytes := rev (lstrip_by (Byte.eqb x30) (rev s)).
Definition exponent_text (k : Z) : bytes :=
  [x65; if k <? 0 then x2d else x2b] ++
  (if Z.abs k <? 100 then digits_text 2 (Z.abs k) else digits_text 3 (Z.abs k)).
(** The layout of the digits: with an exponent when it is below -4 or at least
    12 (11 in Python 2.7), else with a decimal point. *)
Definition lay_out (pv : pyver) (d k : Z) : bytes :=
  let ds := strip_zeros (digits_text 12 d) in
  if (k <? -4) || (match pv with Py26 => 12 | Py27 => 11 end <=? k) then
    firstn 1 ds ++ (match skipn 1 ds with [] => [] | f => x2e :: f end) ++ exponent_text k
  else if 0 <=? k then
    let n := Z.to_nat (k + 1) in
    firstn n ds ++ repeat x30 (n - List.length ds) ++ [x2e] ++
    match skipn n ds with [] => [x30] | f => f end
  else
    [x30; x2e] ++ repeat x30 (Z.to_nat (- k - 1)) ++ ds.

(** str(f) *)
Definition text_of_float (pv : pyver) (f : pyfloat) : bytes :=
  match f with
  | S754_zero s => (if s then [x2d] else []) ++ bytes_of_string "0.0"
  | S754_infinity s => (if s then [x2d] else []) ++ bytes_of_string "inf"
  | S754_nan => bytes_of_string "nan"
  | S754_finite s m e =>
      let '(d, k) := if 0 <=? e then twelve_digits (Z.pos m * 2 ^ e) 1 else twelve_digits (Z.pos m) (2 ^ - e) in
      (if s then [x2d] else []) ++ lay_out pv d k
  end.
