(** pyogp/lib/base/datatypes.py: Vector3, Quaternion, UUID. *)
From Verif Require Export Values.

(** datatypes.py:57-63, Vector3.unpack_from_bytes (always little endian). *)
Definition vec3_unpack (s : bytes) (offset : Z) : res (pyfloat * pyfloat * pyfloat) :=
  do x <- unpack_float LE false (pyslice s offset (offset + 4));
  do y <- unpack_float LE false (pyslice s (offset + 4) (offset + 8));
  do z <- unpack_float LE false (pyslice s (offset + 8) (offset + 12));
  Ok (x, y, z).

(** datatypes.py:65-68, Vector3.get_bytes *)
Definition vec3_get_bytes (x y z : pyfloat) : res bytes :=
  do a <- pack_float LE false x;
  do b <- pack_float LE false y;
  do c <- pack_float LE false z;
  Ok (a ++ b ++ c).

(** datatypes.py:87-92, Vector3.dist_squared *)
Definition dist_squared (a b : pyfloat * pyfloat * pyfloat) : pyfloat :=
  let '(ax, ay, az) := a in
  let '(bx, by_, bz) := b in
  let x := fsub ax bx in
  let y := fsub ay by_ in
  let z := fsub az bz in
  fadd (fadd (fmul x x) (fmul y y)) (fmul z z).

(** t > 0 for a float *)
Definition fpos (t : pyfloat) : bool := SFltb fzero t.

(** datatypes.py:146-157: W recovered from X, Y, Z.
    Simplification: the Python int 0 of line 157 is the float +0.0 here. *)
Definition quat_w (x y z : pyfloat) : pyfloat :=
  let t := fsub fone (fadd (fadd (fmul x x) (fmul y y)) (fmul z z)) in
  if fpos t then fsqrt t else fzero.

(** datatypes.py:135-157, Quaternion.unpack_from_bytes.  The bare [except]
    of line 150 catches the struct.error of line 148. *)
Definition quat_unpack (s : bytes) (offset : Z) : res (pyfloat * pyfloat * pyfloat * pyfloat) :=
  do x <- unpack_float LE false (pyslice s offset (offset + 4));
  do y <- unpack_float LE false (pyslice s (offset + 4) (offset + 8));
  do z <- unpack_float LE false (pyslice s (offset + 8) (offset + 12));
  match unpack_float LE false (pyslice s (offset + 12) (offset + 16)) with
  | Ok w => Ok (x, y, z, w)
  | Err _ => Ok (x, y, z, quat_w x y z)
  end.

(** datatypes.py:159-162, Quaternion.get_bytes *)
Definition quat_get_bytes (x y z w : pyfloat) : res bytes :=
  do a <- pack_float LE false x;
  do b <- pack_float LE false y;
  do c <- pack_float LE false z;
  do d <- pack_float LE false w;
  Ok (a ++ b ++ c ++ d).

(** datatypes.py:207-211, UUID.unpack_from_bytes: uuid.UUID(bytes=...) raises
    ValueError unless it is given 16 bytes. *)
Definition uuid_unpack (s : bytes) (offset : Z) : res Z :=
  let b := pyslice s offset (offset + 16) in
  if Nat.eqb (List.length b) 16 then Ok (be_val b) else Err ValueErr.

(** datatypes.py:213-216, UUID.get_bytes *)
Definition uuid_get_bytes (u : Z) : bytes := be_bytes 16 u.

(** str(uuid.UUID): 32 lower-case hex digits grouped 8-4-4-4-12. *)
Definition hexdigit_lower (z : Z) : byte :=
  if z <? 10 then chr (48 + z) else chr (87 + z).
Fixpoint hex_digits (n : nat) (z : Z) : bytes :=   (* most significant first *)
  match n with
  | O => []
  | S n' => hex_digits n' (z / 16) ++ [hexdigit_lower (z mod 16)]
  end.
Definition dash : byte := x2d.
Definition uuid_str (u : Z) : bytes :=
  let h := hex_digits 32 u in
  firstn 8 h ++ [dash] ++ firstn 4 (skipn 8 h) ++ [dash] ++ firstn 4 (skipn 12 h)
    ++ [dash] ++ firstn 4 (skipn 16 h) ++ [dash] ++ skipn 20 h.

(** uuid.UUID(string) of a byte string: removes "urn:" and "uuid:", strips "{}"
    at both ends, removes "-"; requires 32 characters (ValueError), then
    long(hex, 16), which raises nothing but ValueError.
    Simplification: unicode strings, in which long() accepts the digits and
    spaces of other scripts, are left out. *)
Definition hexval (b : byte) : option Z :=
  let z := ord b in
  if (48 <=? z) && (z <=? 57) then Some (z - 48)
  else if (97 <=? z) && (z <=? 102) then Some (z - 87)
  else if (65 <=? z) && (z <=? 70) then Some (z - 55)
  else None.
(** isspace() *)
Definition is_ws (b : byte) : bool :=
  Byte.eqb b x20 || ((9 <=? ord b) && (ord b <=? 13)).
Fixpoint lstrip_by (f : byte -> bool) (s : bytes) : bytes :=
  match s with
  | [] => []
  | b :: s' => if f b then lstrip_by f s' else s
  end.
(** The longest run of digits at the front: its value, and what follows. *)
Fixpoint read_hex (acc : Z) (s : bytes) : Z * bytes :=
  match s with
  | [] => (acc, [])
  | b :: s' => match hexval b with
               | Some d => read_hex (16 * acc + d) s'
               | None => (acc, s)
               end
  end.
(** long(s, 16): PyLong_FromString of Python 2.6 and 2.7.  White space, a sign,
    white space, 0x, at least one digit, L, white space.  (There are no minus signs
    left in [s]; a NUL is rejected as any other character.) *)
Definition skip_plus (s : bytes) : bytes :=
  match s with c :: s' => if Byte.eqb c x2b then s' else s | [] => s end.
Definition skip_0x (s : bytes) : bytes :=
  match s with
  | c :: d :: s' => if Byte.eqb c x30 && (Byte.eqb d x78 || Byte.eqb d x58) then s' else s
  | _ => s
  end.
Definition skip_L (s : bytes) : bytes :=
  match s with c :: s' => if Byte.eqb c x4c || Byte.eqb c x6c then s' else s | [] => s end.
Definition long16 (s : bytes) : option Z :=
  let s := skip_0x (lstrip_by is_ws (skip_plus (lstrip_by is_ws s))) in
  let '(z, rest) := read_hex 0 s in
  if Nat.eqb (List.length rest) (List.length s) then None
  else match lstrip_by is_ws (skip_L rest) with [] => Some z | _ => None end.
(** s.replace(pat, '') for a non-empty pattern, left to right *)
Fixpoint prefix_of (p s : bytes) : bool :=
  match p, s with
  | [], _ => true
  | a :: p', b :: s' => Byte.eqb a b && prefix_of p' s'
  | _ :: _, [] => false
  end.
Fixpoint remove_all (p : bytes) (skip : nat) (s : bytes) : bytes :=
  match s with
  | [] => []
  | b :: s' =>
      match skip with
      | S k => remove_all p k s'
      | O => if prefix_of p s then remove_all p (Nat.pred (List.length p)) s'
             else b :: remove_all p O s'
      end
  end.
Definition is_brace (b : byte) : bool := Byte.eqb b x7b || Byte.eqb b x7d.
Definition strip_by (f : byte -> bool) (s : bytes) : bytes :=
  rev (lstrip_by f (rev (lstrip_by f s))).
Definition uuid_parse (s : bytes) : res Z :=
  let h := remove_all (bytes_of_string "urn:") 0 s in
  let h := remove_all (bytes_of_string "uuid:") 0 h in
  let h := remove_all [dash] 0 (strip_by is_brace h) in
  if Nat.eqb (List.length h) 32 then
    match long16 h with Some z => Ok z | None => Err ValueErr end
  else Err ValueErr.

(** datatypes.py:223-224, UUID.copy *)
Definition uuid_copy (u : Z) : res Z := uuid_parse (uuid_str u).
(** datatypes.py:237-241, UUID.__eq__ against another value (only UUID objects
    have an attribute [uuid]) *)
Definition uuid_eq (u : Z) (other : pyval) : bool :=
  match other with VUUID v => u =? v | _ => false end.
(** datatypes.py:244-248, UUID.__xor__: uuid.UUID(int=...) raises ValueError
    outside [0, 2^128), then the result goes through its text form. *)
Definition uuid_xor (u v : Z) : res Z :=
  let t := Z.lxor u v in
  if (0 <=? t) && (t <? 2 ^ 128) then uuid_parse (uuid_str t) else Err ValueErr.
(** datatypes.py:198-205, UUID.random: [fresh] is what uuid4() returned. *)
Definition nil_text : bytes := bytes_of_string "00000000-0000-0000-0000-000000000000".
Definition bytes_eqb (a b : bytes) : bool :=
  if list_eq_dec Byte.byte_eq_dec a b then true else false.
Definition uuid_random (u fresh : Z) : Z * option Z :=
  if bytes_eqb (uuid_str u) nil_text then (fresh, Some fresh) else (u, None).
