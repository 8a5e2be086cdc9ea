(** Specification vocabulary for field encodings (C01-C05, C08), written
    without reference to how the model packs anything. *)
From Verif Require Import MsgTypes Values.

(** The number a byte string denotes, by position. *)
Definition byte_value (b : byte) : Z := Z.of_N (Byte.to_N b).
Fixpoint value_lsb_first (s : bytes) : Z :=
  match s with
  | [] => 0
  | b :: s' => byte_value b + 256 * value_lsb_first s'
  end.
Definition value_msb_first (s : bytes) : Z :=
  fold_left (fun acc b => 256 * acc + byte_value b) s 0.
Definition value (en : endian) (s : bytes) : Z :=
  match en with LE => value_lsb_first s | BE => value_msb_first s end.

(** The ten integer field types: width in bytes, signed?, byte order. *)
Definition int_spec (t : mvt) : option (Z * bool * endian) :=
  match t with
  | MVT_U8 => Some (1, false, BE)
  | MVT_BOOL => Some (1, false, BE)
  | MVT_S8 => Some (1, true, BE)
  | MVT_U16 => Some (2, false, LE)
  | MVT_S16 => Some (2, true, LE)
  | MVT_IP_PORT => Some (2, false, BE)
  | MVT_U32 => Some (4, false, LE)
  | MVT_S32 => Some (4, true, LE)
  | MVT_U64 => Some (8, false, LE)
  | MVT_S64 => Some (8, true, LE)
  | _ => None
  end.

(** [z] is representable in [size] bytes. *)
Definition fits (signed : bool) (size z : Z) : Prop :=
  if signed then - 2 ^ (8 * size - 1) <= z < 2 ^ (8 * size - 1)
  else 0 <= z < 2 ^ (8 * size).

(** The byte order in force: the requested one, or the type's own. *)
Definition order (requested : option endian) (own : endian) : endian :=
  match requested with Some e => e | None => own end.

(** The bytes of a string or unicode object (UTF-8 as in RFC 3629). *)
Definition utf8_spec_char (c : Z) (s : bytes) : Prop :=
  (0 <= c < 2 ^ 7 /\ map byte_value s = [c]) \/
  (2 ^ 7 <= c < 2 ^ 11 /\ exists a b, 0 <= b < 64 /\ c = a * 64 + b /\
     map byte_value s = [192 + a; 128 + b]) \/
  (2 ^ 11 <= c < 2 ^ 16 /\ exists a b d, 0 <= b < 64 /\ 0 <= d < 64 /\
     c = a * 4096 + b * 64 + d /\ map byte_value s = [224 + a; 128 + b; 128 + d]) \/
  (2 ^ 16 <= c < 2 ^ 21 /\ exists a b d e, 0 <= b < 64 /\ 0 <= d < 64 /\ 0 <= e < 64 /\
     c = a * 262144 + b * 4096 + d * 64 + e /\
     map byte_value s = [240 + a; 128 + b; 128 + d; 128 + e]).
Inductive utf8_spec : list Z -> bytes -> Prop :=
| utf8_nil : utf8_spec [] []
| utf8_cons c u s s' : utf8_spec_char c s -> utf8_spec u s' -> utf8_spec (c :: u) (s ++ s').

(** The contents of a text value. *)
Inductive text_bytes : pyval -> bytes -> Prop :=
| text_none : text_bytes VNone []
| text_str s : text_bytes (VStr s) s
| text_uni u s : utf8_spec u s -> text_bytes (VUni u) s.

(** The tail of NULs of a byte string. *)
Definition ends_in_nul (s : bytes) : Prop := exists s', s = s' ++ [x00].
Definition without_trailing_nuls (s r : bytes) : Prop :=
  (exists n, s = r ++ repeat x00 n) /\ ~ ends_in_nul r.
