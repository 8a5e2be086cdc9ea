(** pyogp/lib/base/datatypes.py: the classes Vector3 and Quaternion as a user
    sees them (their encodings are in Datatypes.v); and the text encodings of
    helpers.py that Helpers.v leaves out. *)
From Verif Require Export Helpers.

(** float(v).  [txt] is what float() makes of a text: nothing in the repository
    depends on how.  Simplification: a unicode text goes through UTF-8. *)
Definition py_float (txt : bytes -> res pyfloat) (v : pyval) : res pyfloat :=
  match v with
  | VFloat f => Ok f
  | VInt z => float_of_int z
  | VBool b => float_of_int (if b then 1 else 0)
  | VStr s => txt s
  | VUni u => txt (utf8 u)
  | _ => Err TypeErr
  end.

Definition vec3 : Type := pyfloat * pyfloat * pyfloat.
Definition quat : Type := pyfloat * pyfloat * pyfloat * pyfloat.

(** datatypes.py:36-55, Vector3.__init__ *)
Definition vec3_new (txt : bytes -> res pyfloat) (b : option bytes) (offset : Z) (x y z : pyval) : res vec3 :=
  match b with
  | Some s => vec3_unpack s offset
  | None => do x <- py_float txt x; do y <- py_float txt y; do z <- py_float txt z; Ok (x, y, z)
  end.
(** datatypes.py:110-133, Quaternion.__init__ *)
Definition quat_new (txt : bytes -> res pyfloat) (b : option bytes) (offset : Z) (x y z w : pyval) : res quat :=
  match b with
  | Some s => quat_unpack s offset
  | None => do x <- py_float txt x; do y <- py_float txt y; do z <- py_float txt z; do w <- py_float txt w;
            Ok (x, y, z, w)
  end.
(** datatypes.py:74-75, Vector3.copy *)
Definition vec3_copy (txt : bytes -> res pyfloat) (v : vec3) : res vec3 :=
  let '(x, y, z) := v in vec3_new txt None 0 (VFloat x) (VFloat y) (VFloat z).
(** datatypes.py:168-169, Quaternion.copy *)
Definition quat_copy (txt : bytes -> res pyfloat) (q : quat) : res quat :=
  let '(x, y, z, w) := q in quat_new txt None 0 (VFloat x) (VFloat y) (VFloat z) (VFloat w).

(** datatypes.py:77-80, Vector3.__repr__; [show] is str() of a float. *)
Definition vec3_repr (show : pyfloat -> bytes) (v : vec3) : bytes :=
  let '(x, y, z) := v in [x3c] ++ show x ++ [x2c; x20] ++ show y ++ [x2c; x20] ++ show z ++ [x3e].

(** s.split(','): at least one piece *)
Fixpoint split_commas (s : bytes) : list bytes :=
  match s with
  | [] => [[]]
  | b :: s' =>
      let l := split_commas s' in
      if Byte.eqb b x2c then [] :: l
      else match l with
           | p :: l' => (b :: p) :: l'
           | [] => [[b]]
           end
  end.
(** [f(d) for d in l]: the first exception ends it *)
Fixpoint for_all_in {A B} (f : A -> res B) (l : list A) : res (list B) :=
  match l with
  | [] => Ok []
  | d :: l' => do b <- f d; do r <- for_all_in f l'; Ok (b :: r)
  end.
(** datatypes.py:95-105, Vector3.parse *)
Definition vec3_parse (txt : bytes -> res pyfloat) (s : bytes) : res vec3 :=
  let s := remove_all [x3e] 0 (remove_all [x3c] 0 s) in
  let dims := split_commas s in
  if Nat.eqb (List.length dims) 3 then
    do fs <- for_all_in (fun d => txt (strip_by is_ws d)) dims;
    match fs with
    | [x; y; z] => vec3_new txt None 0 (VFloat x) (VFloat y) (VFloat z)
    | _ => Err ValueErr
    end
  else Err ValueErr.

(** binascii.b2a_base64: groups of three bytes as four characters, '=' padding,
    and a newline. *)
Definition base64_alphabet : bytes :=
  bytes_of_string "ABCDEFGHIJKLMNOPQRSTUVWXYZabcdefghijklmnopqrstuvwxyz0123456789+/".
Definition b64 (z : Z) : byte := nth (Z.to_nat (z mod 64)) base64_alphabet x3d.
Fixpoint b2a_base64_groups (s : bytes) : bytes :=
  match s with
  | a :: b :: c :: s' =>
      let n := ord a * 65536 + ord b * 256 + ord c in
      b64 (n / 262144) :: b64 (n / 4096) :: b64 (n / 64) :: b64 n :: b2a_base64_groups s'
  | [a; b] =>
      let n := ord a * 65536 + ord b * 256 in
      [b64 (n / 262144); b64 (n / 4096); b64 (n / 64); x3d]
  | [a] =>
      let n := ord a * 65536 in
      [b64 (n / 262144); b64 (n / 4096); x3d; x3d]
  | [] => []
  end.
(** helpers.py:74-81, Helpers.bytes_to_base64 *)
Definition bytes_to_base64 (data : bytes) : bytes := b2a_base64_groups data ++ [x0a].

(** binascii.b2a_uu: at most 45 bytes; a length character, then four characters
    for every group of three bytes (the last one padded with zeros), and a
    newline. *)
Definition uu (z : Z) : byte := chr (32 + z mod 64).
Fixpoint b2a_uu_groups (s : bytes) : bytes :=
  match s with
  | a :: b :: c :: s' =>
      let n := ord a * 65536 + ord b * 256 + ord c in
      uu (n / 262144) :: uu (n / 4096) :: uu (n / 64) :: uu n :: b2a_uu_groups s'
  | [a; b] =>
      let n := ord a * 65536 + ord b * 256 in [uu (n / 262144); uu (n / 4096); uu (n / 64); uu n]
  | [a] =>
      let n := ord a * 65536 in [uu (n / 262144); uu (n / 4096); uu (n / 64); uu n]
  | [] => []
  end.
(** helpers.py:51-58, Helpers.bytes_to_ascii *)
Definition bytes_to_ascii (data : bytes) : res bytes :=
  if 45 <? zlen data then Err BinasciiErr
  else Ok ([uu (zlen data)] ++ b2a_uu_groups data ++ [x0a]).
