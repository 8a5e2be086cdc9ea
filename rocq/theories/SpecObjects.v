(** Vocabulary for the statements about Vector3 / Quaternion objects, the text
    of a vector, base64 and uuencoded text, and packed floats (C64-C67). *)
From Coq Require Import Reals.
From Flocq Require Import Core BinarySingleNaN.
From Verif Require Import Objects Packer SpecCodec SpecFloats.
Open Scope Z_scope.

(** [b] are the four bytes of [f] as a little-endian F32; [b] reads as [f]. *)
Definition written_f32 (f : pyfloat) (b : bytes) : Prop :=
  pack_data Py27 (VFloat f) (Some MVT_F32) None = Ok (Some b).
Definition read_f32 (f : pyfloat) (b : bytes) : Prop :=
  unpack_data b (Some MVT_F32) (-1) (-1) None = Ok (VFloat f).

(** A finite double of absolute value at most 2^k. *)
Definition moderate (k : Z) (f : pyfloat) : Prop :=
  valid64 f = true /\ finite_float f /\ (Rabs (rv f) <= bpow radix2 k)%R.
Definition moderate3 (k : Z) (v : vec3) : Prop :=
  let '(x, y, z) := v in moderate k x /\ moderate k y /\ moderate k z.
Definition valid3 (v : vec3) : Prop :=
  let '(x, y, z) := v in valid64 x = true /\ valid64 y = true /\ valid64 z = true.
Definition finite3 (v : vec3) : Prop :=
  let '(x, y, z) := v in finite_float x /\ finite_float y /\ finite_float z.

(** The differences of the coordinates *)
Definition differences (a b : vec3) : R * R * R :=
  let '(ax, ay, az) := a in let '(bx, by_, bz) := b in
  (rv ax - rv bx, rv ay - rv by_, rv az - rv bz)%R.
(** dx*dx + dy*dy + dz*dz, every operation rounded to binary64 *)
Definition rounded_square (d : R) : R := rn64 (rn64 d * rn64 d).
Definition rounded_sum (d : R * R * R) : R :=
  let '(dx, dy, dz) := d in
  rn64 (rn64 (rounded_square dx + rounded_square dy) + rounded_square dz).

(** [f] is the coordinate given as [v]: a float as it is, an int or a bool
    rounded to the nearest double. *)
Definition integer_of (v : pyval) : option Z :=
  match v with VInt n => Some n | VBool b => Some (if b then 1 else 0) | _ => None end.
Definition coordinate (v : pyval) (f : pyfloat) : Prop :=
  v = VFloat f \/
  exists n, integer_of v = Some n /\ valid64 f = true /\ finite_float f /\ rv f = rn64 (IZR n).
Definition too_big (v : pyval) : Prop :=
  exists n, integer_of v = Some n /\ (bpow radix2 1024 <= Rabs (rn64 (IZR n)))%R.
Definition a_number (v : pyval) : Prop := (exists f, v = VFloat f) \/ exists n, integer_of v = Some n.
Definition a_text (v : pyval) : Prop := (exists s, v = VStr s) \/ exists u, v = VUni u.

(** ** Text *)
Definition angle (c : byte) : bool := Byte.eqb c x3c || Byte.eqb c x3e.
(** [s] without the angle brackets is [fs] joined by commas. *)
Fixpoint comma_joined (fs : list bytes) : bytes :=
  match fs with
  | [] => []
  | [f] => f
  | f :: fs' => f ++ [x2c] ++ comma_joined fs'
  end.
Definition has_fields (s : bytes) (fs : list bytes) : Prop :=
  fs <> [] /\ Forall (fun f => ~ In x2c f) fs /\
  filter (fun c => negb (angle c)) s = comma_joined fs.
(** space, tab, newline, vertical tab, form feed, carriage return *)
Definition white (c : byte) : Prop := In c [x20; x09; x0a; x0b; x0c; x0d].
(** [t] is [s] without the white space around it. *)
Definition trimmed (s t : bytes) : Prop :=
  exists l r, s = l ++ t ++ r /\ Forall white l /\ Forall white r /\
    (forall c t', t = c :: t' -> ~ white c) /\ (forall c t', t = t' ++ [c] -> ~ white c).

(** ** Positional numerals, most significant digit first *)
Definition in_base (base : Z) (ds : list Z) : Z := fold_left (fun a d => base * a + d) ds 0.
Definition base64_chars : bytes :=
  bytes_of_string "ABCDEFGHIJKLMNOPQRSTUVWXYZabcdefghijklmnopqrstuvwxyz0123456789+/".
Definition base64_char (c : byte) (d : Z) : Prop :=
  0 <= d < 64 /\ nth_error base64_chars (Z.to_nat d) = Some c.
(** the character whose code is 32 + d *)
Definition uu_char (c : byte) (d : Z) : Prop := 0 <= d < 64 /\ byte_value c = 32 + d.
(** The digits [ds] in base 64 spell the bytes [data] followed by [6 * n - 8 *
    len] zero bits. *)
Definition sixbit (data : bytes) (ds : list Z) : Prop :=
  8 * zlen data <= 6 * zlen ds /\
  in_base 64 ds = value_msb_first data * 2 ^ (6 * zlen ds - 8 * zlen data).

(** ** Packed floats *)
(** [b] is the n-byte little-endian [u]. *)
Definition code (n : Z) (b : bytes) (u : Z) : Prop := zlen b = n /\ value_lsb_first b = u.
(** The two packed formats: bytes, largest code, and the function reading them. *)
Definition code_bytes (wide : bool) : Z := if wide then 2 else 1.
Definition code_max (wide : bool) : Z := if wide then 65535 else 255.
Definition unpack_code (wide : bool) : bytes -> Z -> pyfloat -> pyfloat -> res pyfloat :=
  if wide then packed_u16_to_float else packed_u8_to_float.
(** lo + (hi - lo) * (u / max), every operation rounded to binary64 (u / max is
    u times the rounded 1 / max); what is smaller than one step is zero. *)
Definition step_of (max : Z) (lo hi : R) : R := rn64 (rn64 (hi - lo) * rn64 (1 / IZR max)).
Definition interpolated (max : Z) (lo hi : R) (u : Z) : R :=
  let x := rn64 (rn64 (rn64 (IZR u * rn64 (1 / IZR max)) * rn64 (hi - lo)) + lo) in
  if Rlt_bool (Rabs x) (step_of max lo hi) then 0%R else x.
