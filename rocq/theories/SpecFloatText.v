(** Vocabulary for the statements about the text of a float (C95, C96): what a
    numeral is and which number it denotes, in terms of real numbers. *)
From Coq Require Import ZArith Reals.
From Flocq Require Import Core BinarySingleNaN.
From Verif Require Import PyFloat Packer Objects SpecCodec SpecFloats SpecObjects.
Open Scope Z_scope.

Definition radix10 : radix := Build_radix 10 eq_refl.
(** 10^k *)
Definition ten (k : Z) : R := bpow radix10 k.

(** ** Numerals *)
Definition cipher (c : byte) : Prop := 48 <= byte_value c <= 57.
Definition ciphers_value (l : bytes) : Z := in_base 10 (map (fun c => byte_value c - 48) l).
(** "", "+" or "-" *)
Inductive sign_text : bytes -> bool -> Prop :=
| no_sign : sign_text [] false
| plus_sign : sign_text [x2b] false
| minus_sign : sign_text [x2d] true.
(** "12" or "12.5" or "12." or ".5": the digits before and after the point *)
Inductive mantissa_text : bytes -> bytes -> bytes -> Prop :=
| whole : forall ip, mantissa_text ip ip []
| pointed : forall ip fp, mantissa_text (ip ++ [x2e] ++ fp) ip fp.
(** nothing, or "e5", "E+05", "e-5" *)
Inductive exponent_part : bytes -> Z -> Prop :=
| no_exponent : exponent_part [] 0
| an_exponent : forall c sg neg ds, In c [x65; x45] -> sign_text sg neg -> Forall cipher ds -> ds <> [] ->
    exponent_part (c :: sg ++ ds) (if neg then - ciphers_value ds else ciphers_value ds).
(** [t] is a decimal numeral with sign [neg] and absolute value [x]. *)
Definition decimal_text (t : bytes) (neg : bool) (x : R) : Prop :=
  exists sg mt ex ip fp e, t = sg ++ mt ++ ex /\ sign_text sg neg /\
    mantissa_text mt ip fp /\ Forall cipher ip /\ Forall cipher fp /\ ip ++ fp <> [] /\
    exponent_part ex e /\ x = (IZR (ciphers_value (ip ++ fp)) * ten (e - zlen fp))%R.

(** [a] is the lower case letter [b] or its capital. *)
Definition same_letter (a b : byte) : Prop := a = b \/ byte_value a + 32 = byte_value b.
Definition spells (w : string) (s : bytes) : Prop := Forall2 same_letter s (bytes_of_string w).
(** [t] is the name of an infinity or of the NaN [f]. *)
Definition special_text (t : bytes) (f : pyfloat) : Prop :=
  exists sg neg w, t = sg ++ w /\ sign_text sg neg /\
    ((spells "inf" w \/ spells "infinity" w) /\ f = S754_infinity neg \/
     spells "nan" w /\ f = S754_nan).

(** [f] is the double nearest to the number with sign [neg] and absolute value
    [x], ties to even; an infinity when it is too large. *)
Definition signed (neg : bool) (x : R) : R := if neg then (- x)%R else x.
Definition is_nearest (neg : bool) (x : R) (f : pyfloat) : Prop :=
  valid64 f = true /\
  ((rn64 x < bpow radix2 1024)%R -> finite_float f /\ rv f = signed neg (rn64 x) /\ sign_SF f = neg) /\
  ((bpow radix2 1024 <= rn64 x)%R -> f = S754_infinity neg).

(** float(s) is [f]. *)
Definition reads_as (s : bytes) (f : pyfloat) : Prop :=
  exists t, trimmed s t /\
    ((exists neg x, decimal_text t neg x /\ is_nearest neg x f) \/ special_text t f).

(** ** Printing *)

(** Round to nearest, ties to even, with twelve significant decimal digits. *)
Definition rn12 (x : R) : R := round radix10 (FLX_exp 12) ZnearestE x.

(** [ds] are the significant digits: the first is not zero, nor is the last. *)
Definition significant (ds : bytes) : Prop :=
  Forall cipher ds /\ (forall r, ds <> x30 :: r) /\ (forall r, ds <> r ++ [x30]) /\ ds <> [] /\ zlen ds <= 12.
(** The text of d1.d2d3... * 10^k. *)
Definition zeros (n : Z) : bytes := repeat x30 (Z.to_nat n).
Inductive plain_text (ds : bytes) (k : Z) : bytes -> Prop :=
| below_one : k < 0 -> plain_text ds k ([x30; x2e] ++ zeros (- k - 1) ++ ds)
| integral : zlen ds <= k + 1 -> plain_text ds k (ds ++ zeros (k + 1 - zlen ds) ++ [x2e; x30])
| mixed : forall ip fp, ds = ip ++ fp -> zlen ip = k + 1 -> ip <> [] -> fp <> [] ->
    plain_text ds k (ip ++ [x2e] ++ fp).
Inductive exponent_digits : Z -> bytes -> Prop :=
| two_digits : forall a b, cipher a -> cipher b -> exponent_digits (ciphers_value [a; b]) [a; b]
| three_digits : forall a b c, cipher a -> cipher b -> cipher c -> a <> x30 ->
    exponent_digits (ciphers_value [a; b; c]) [a; b; c].
Inductive scientific_text (ds : bytes) (k : Z) : bytes -> Prop :=
| scientific : forall c fp x, ds = c :: fp -> exponent_digits (Z.abs k) x ->
    scientific_text ds k ([c] ++ (match fp with [] => [] | _ => [x2e] ++ fp end) ++
                          [x65; if k <? 0 then x2d else x2b] ++ x).
(** From which power of ten on the exponent is written. *)
Definition exponent_from (pv : pyver) : Z := match pv with Py26 => 12 | Py27 => 11 end.
(** The text of the positive number [x], which has at most twelve significant
    digits: they are followed by a power of ten if x < 0.0001 or x >= 10^12
    (10^11 in Python 2.7), and not otherwise. *)
Definition printed_as (pv : pyver) (x : R) (t : bytes) : Prop :=
  exists ds k, significant ds /\ x = (IZR (ciphers_value ds) * ten (k + 1 - zlen ds))%R /\
    ((k < -4 \/ exponent_from pv <= k) /\ scientific_text ds k t \/
     -4 <= k < exponent_from pv /\ plain_text ds k t).

(** ** Printing and reading back *)
(** [g] is what is read when [f] is printed: rounded to twelve digits, then to
    the nearest double; the sign is kept. *)
Definition through_text (f g : pyfloat) : Prop :=
  valid64 g = true /\
  (finite_float f -> finite_float g /\ sign_SF g = sign_SF f /\ rv g = rn64 (rn12 (rv f))) /\
  (~ finite_float f -> g = f).
Definition each3 (P : pyfloat -> Prop) (v : vec3) : Prop := let '(x, y, z) := v in P x /\ P y /\ P z.
Definition pairwise3 (P : pyfloat -> pyfloat -> Prop) (v w : vec3) : Prop :=
  let '(x, y, z) := v in let '(x', y', z') := w in P x x' /\ P y y' /\ P z z'.
(** The double nearest to 1.000000000003e-312, or its opposite. *)
Definition the_odd_double (f : pyfloat) : Prop :=
  finite_float f /\ Rabs (rv f) = (IZR 202402253308 * bpow radix2 (-1074))%R.
(** [f] is the double nearest to a decimal number of at most twelve digits, not
    below the smallest normal double; or it is zero. *)
Definition short_decimal (f : pyfloat) : Prop :=
  finite_float f /\
  (rv f = 0%R \/ exists n j, Z.abs n < 10 ^ 12 /\ (bpow radix2 (-1022) <= Rabs (IZR n * ten j))%R /\
     rv f = rn64 (IZR n * ten j)).
