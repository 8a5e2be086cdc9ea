(** struct.pack / struct.unpack for the single-item formats the code uses. *)
From Verif Require Export Prelude PyFloat.

(** Interpreter regime for out-of-range integers (see DESIGN.md):
    Python <= 2.6 masks 1/2/4-byte items (DeprecationWarning),
    Python 2.7 raises struct.error; 8-byte items raise in both. *)
Inductive pyver := Py26 | Py27.

Inductive endian := LE | BE.

(** [n] little-endian bytes of [z] (of its low 8n bits). *)
Fixpoint le_bytes (n : nat) (z : Z) : bytes :=
  match n with
  | O => []
  | S n' => chr z :: le_bytes n' (z / 256)
  end.
Definition be_bytes (n : nat) (z : Z) : bytes := rev (le_bytes n z).
Definition enc (en : endian) (n : nat) (z : Z) : bytes :=
  match en with LE => le_bytes n z | BE => be_bytes n z end.

(** value of little-endian bytes *)
Fixpoint le_val (s : bytes) : Z :=
  match s with
  | [] => 0
  | b :: s' => ord b + 256 * le_val s'
  end.
Definition be_val (s : bytes) : Z := le_val (rev s).
Definition dec (en : endian) (s : bytes) : Z :=
  match en with LE => le_val s | BE => be_val s end.

(** two's complement reading of an unsigned [n]-byte value *)
Definition to_signed (n : nat) (u : Z) : Z :=
  if u <? 2 ^ (8 * Z.of_nat n - 1) then u else u - 2 ^ (8 * Z.of_nat n).

Definition in_range (signed : bool) (n : nat) (z : Z) : bool :=
  if signed then (- 2 ^ (8 * Z.of_nat n - 1) <=? z) && (z <? 2 ^ (8 * Z.of_nat n - 1))
  else (0 <=? z) && (z <? 2 ^ (8 * Z.of_nat n)).

(** struct.pack of one integer item of [n] bytes. *)
Definition pack_int (pv : pyver) (en : endian) (signed : bool) (n : nat) (z : Z) : res bytes :=
  if in_range signed n z then Ok (enc en n z)
  else match pv with
       | Py27 => Err StructError
       | Py26 => if Nat.ltb n 8 then Ok (enc en n z) else Err OverflowErr
       end.

(** struct.unpack of one integer item; wrong length is struct.error. *)
Definition unpack_int (en : endian) (signed : bool) (n : nat) (s : bytes) : res Z :=
  if Nat.eqb (List.length s) n
  then Ok (if signed then to_signed n (dec en s) else dec en s)
  else Err StructError.

(** 'f' and 'd' items *)
Definition pack_float (en : endian) (double : bool) (f : pyfloat) : res bytes :=
  if double then res_map (enc en 8) (pack_f64 f) else res_map (enc en 4) (pack_f32 f).
Definition unpack_float (en : endian) (double : bool) (s : bytes) : res pyfloat :=
  if double then
    if Nat.eqb (List.length s) 8 then Ok (unpack_f64 (dec en s)) else Err StructError
  else
    if Nat.eqb (List.length s) 4 then Ok (unpack_f32 (dec en s)) else Err StructError.
