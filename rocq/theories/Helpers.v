(** pyogp/lib/base/helpers.py (pack_quaternion_to_vector3 is in Packer.v) *)
From Verif Require Export Datatypes.

(** "%02X" % ord(x): two upper-case hex digits *)
Definition hexdigit_upper (z : Z) : byte :=
  if z <? 10 then chr (48 + z) else chr (55 + z).
Definition hex2 (b : byte) : bytes :=
  [hexdigit_upper (ord b / 16); hexdigit_upper (ord b mod 16)].

(** helpers.py:42-48, Helpers.bytes_to_hex *)
Definition bytes_to_hex (data : bytes) : bytes :=
  strip_by is_ws (flat_map (fun x => hex2 x ++ [x20]) data).

(** binascii.unhexlify: TypeError on odd length or a non-hex character *)
Fixpoint unhexlify (s : bytes) : res bytes :=
  match s with
  | [] => Ok []
  | a :: b :: s' =>
      match hexval a, hexval b with
      | Some x, Some y => do r <- unhexlify s'; Ok (chr (16 * x + y) :: r)
      | _, _ => Err TypeErr
      end
  | _ => Err TypeErr
  end.

(** helpers.py:61-71, Helpers.hex_to_ascii.  (unhexlify checks the length
    first; both failures are the same TypeError.) *)
Definition hex_to_ascii (data : bytes) : res bytes :=
  match unhexlify data with
  | Err TypeErr => Err DataParsingErr
  | r => r
  end.

(** helpers.py:132-140, Helpers.int_to_bytes: four native unsigned chars *)
Definition int_to_bytes (pv : pyver) (data : Z) : res bytes :=
  do a <- pack_int pv LE false 1 (data mod 256);
  do b <- pack_int pv LE false 1 (Z.shiftr data 8 mod 256);
  do c <- pack_int pv LE false 1 (Z.shiftr data 16 mod 256);
  do d <- pack_int pv LE false 1 (Z.shiftr data 24 mod 256);
  Ok (a ++ b ++ c ++ d).

(** helpers.py:83-119, packed_u16_to_float and packed_u8_to_float for float
    bounds: [n] is the item width, [maxv] its maximum. *)
Definition fabs := SFabs.
Definition packed_to_float (n : nat) (maxv : Z) (s : bytes) (offset : Z) (lower upper : pyfloat)
  : res pyfloat :=
  do fm <- float_of_int maxv;
  let oo := fdiv fone fm in
  do u <- unpack_int LE false n (pyslice s offset (offset + Z.of_nat n));
  do fu <- float_of_int u;
  let v := fmul fu oo in
  let delta := fsub upper lower in
  let v := fmul v delta in
  let v := fadd v lower in
  let max_error := fmul delta oo in
  Ok (if SFltb (fabs v) max_error then fzero else v).
Definition packed_u16_to_float := packed_to_float 2 65535.
Definition packed_u8_to_float := packed_to_float 1 255.
