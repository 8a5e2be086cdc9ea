(** Field encodings: properties C01, C02, C03, C04, C05, C08.
    Vocabulary: SpecCodec.v and SpecFloats.v. *)
From Coq Require Import Reals.
From Flocq Require Import Core BinarySingleNaN.
From Verif Require Lib.
From Verif Require Import Packer Serializer Deserializer SpecCodec SpecFloats CodecProofs FieldProofs FloatField.
Open Scope Z_scope.

(** ** C01 *)
Theorem C01_int_roundtrip pv t size sg en et z pre post :
  int_spec t = Some (size, sg, en) -> fits sg size z ->
  exists b, pack_data pv (VInt z) (Some t) et = Ok (Some b) /\ zlen b = size /\
    value (order et en) b = z mod 2 ^ (8 * size) /\
    unpack_data b (Some t) (-1) (-1) et = Ok (VInt z) /\
    unpack_data (pre ++ b ++ post) (Some t) (zlen pre) (-1) et = Ok (VInt z).
Proof. exact (int_roundtrip pv t size sg en et z pre post). Qed.
Print Assumptions C01_int_roundtrip.
Example C01_int_roundtrip_ex : int_spec MVT_S16 = Some (2, true, LE) /\ fits true 2 (-2) /\
  pack_data Py27 (VInt (-2)) (Some MVT_S16) None = Ok (Some [xfe; xff]) /\
  pack_data Py27 (VInt 258) (Some MVT_IP_PORT) None = Ok (Some [x01; x02]).
Proof. repeat split; unfold fits; cbn; lia. Qed.

Theorem C01_int_out_of_range pv t size sg en et z :
  int_spec t = Some (size, sg, en) -> ~ fits sg size z ->
  match pv with
  | Py27 => pack_data pv (VInt z) (Some t) et = Err StructError
  | Py26 =>
      if size <? 8 then
        exists b, pack_data pv (VInt z) (Some t) et = Ok (Some b) /\ zlen b = size /\
                  value (order et en) b = z mod 2 ^ (8 * size)
      else pack_data pv (VInt z) (Some t) et = Err OverflowErr
  end.
Proof. exact (int_out_of_range pv t size sg en et z). Qed.
Print Assumptions C01_int_out_of_range.
Example C01_int_out_of_range_ex : ~ fits false 1 300 /\
  pack_data Py26 (VInt 300) (Some MVT_U8) None = Ok (Some [x2c]) /\
  pack_data Py27 (VInt 300) (Some MVT_U8) None = Err StructError /\
  ~ fits false 8 (2 ^ 64) /\ pack_data Py26 (VInt (2 ^ 64)) (Some MVT_U64) None = Err OverflowErr.
Proof. repeat split; unfold fits; cbn; lia. Qed.

Theorem C01_int_decode pv t size sg en et b :
  int_spec t = Some (size, sg, en) ->
  (zlen b = size -> exists z, unpack_data b (Some t) (-1) (-1) et = Ok (VInt z) /\ fits sg size z /\
     value (order et en) b = z mod 2 ^ (8 * size) /\
     pack_data pv (VInt z) (Some t) et = Ok (Some b)) /\
  (zlen b <> size -> unpack_data b (Some t) (-1) (-1) et = Err DataUnpackingErr).
Proof. exact (int_decode pv t size sg en et b). Qed.
Print Assumptions C01_int_decode.
Example C01_int_decode_ex : unpack_data [x80; x00] (Some MVT_S16) (-1) (-1) (Some BE) = Ok (VInt (-32768)).
Proof. reflexivity. Qed.

(** ** C02 *)
Theorem C02_f64_roundtrip pv f et pre post : valid64 f = true ->
  exists b, pack_data pv (VFloat f) (Some MVT_F64) et = Ok (Some b) /\ zlen b = 8 /\
    unpack_data b (Some MVT_F64) (-1) (-1) et = Ok (VFloat f) /\
    unpack_data (pre ++ b ++ post) (Some MVT_F64) (zlen pre) (-1) et = Ok (VFloat f) /\
    (finite_float f -> ieee_real 52 11 (value (order et LE) b) = rv f).
Proof. exact (f64_roundtrip pv f et pre post). Qed.
Print Assumptions C02_f64_roundtrip.
Example C02_f64_roundtrip_ex : valid64 (S754_finite true 1 (-1074)) = true /\
  pack_data Py26 (VFloat (S754_finite true 1 (-1074))) (Some MVT_F64) None =
    Ok (Some [x01; x00; x00; x00; x00; x00; x00; x80]).
Proof. split; vm_compute; reflexivity. Qed.

Theorem C02_f32_rounds pv f et pre post : valid64 f = true -> finite_float f ->
  ((Rabs (rn32 (rv f)) < bpow radix2 128)%R ->
   exists b g, pack_data pv (VFloat f) (Some MVT_F32) et = Ok (Some b) /\ zlen b = 4 /\
     ieee_real 23 8 (value (order et LE) b) = rn32 (rv f) /\
     unpack_data b (Some MVT_F32) (-1) (-1) et = Ok (VFloat g) /\
     unpack_data (pre ++ b ++ post) (Some MVT_F32) (zlen pre) (-1) et = Ok (VFloat g) /\
     valid64 g = true /\ finite_float g /\ rv g = rn32 (rv f) /\ sign_SF g = sign_SF f) /\
  ((bpow radix2 128 <= Rabs (rn32 (rv f)))%R ->
   pack_data pv (VFloat f) (Some MVT_F32) et = Err OverflowErr).
Proof. exact (f32_finite pv f et pre post). Qed.
Print Assumptions C02_f32_rounds.
(** 0.1 is rounded up; 2^128 overflows *)
Example C02_f32_rounds_ex :
  valid64 (S754_finite false 7205759403792794 (-56)) = true /\
  pack_data Py26 (VFloat (S754_finite false 7205759403792794 (-56))) (Some MVT_F32) None =
    Ok (Some [xcd; xcc; xcc; x3d]) /\
  valid64 (S754_finite false 4503599627370496 76) = true /\
  pack_data Py26 (VFloat (S754_finite false 4503599627370496 76)) (Some MVT_F32) None = Err OverflowErr.
Proof. repeat split; vm_compute; reflexivity. Qed.

Theorem C02_f32_special pv f et : ~ finite_float f ->
  exists b, pack_data pv (VFloat f) (Some MVT_F32) et = Ok (Some b) /\ zlen b = 4 /\
    unpack_data b (Some MVT_F32) (-1) (-1) et = Ok (VFloat f).
Proof. exact (f32_special pv f et). Qed.
Print Assumptions C02_f32_special.
Example C02_f32_special_ex : ~ finite_float (S754_infinity true).
Proof. exact (fun x => x). Qed.

Theorem C02_f32_pattern pv b et : zlen b = 4 ->
  exists g, unpack_data b (Some MVT_F32) (-1) (-1) et = Ok (VFloat g) /\ valid64 g = true /\
    (finite_float g -> rv g = ieee_real 23 8 (value (order et LE) b)) /\
    (g <> S754_nan -> pack_data pv (VFloat g) (Some MVT_F32) et = Ok (Some b)).
Proof. exact (f32_pattern pv b et). Qed.
Print Assumptions C02_f32_pattern.
Example C02_f32_pattern_ex :
  unpack_data [x01; x00; x00; x80] (Some MVT_F32) (-1) (-1) None =
    Ok (VFloat (S754_finite true 4503599627370496 (-201))) /\
  pack_data Py26 (VFloat (S754_finite true 4503599627370496 (-201))) (Some MVT_F32) None =
    Ok (Some [x01; x00; x00; x80]).
Proof. split; vm_compute; reflexivity. Qed.

Theorem C02_vector_write pv et t v ct fl : components t v = Some (ct, fl) -> forall b,
  pack_data pv v (Some t) et = Ok (Some b) <->
  exists bs, Forall2 (fun f b => pack_data pv (VFloat f) (Some ct) et = Ok (Some b)) fl bs /\
    b = List.concat bs /\ zlen b = sizeof_mvt t.
Proof. exact (vector_write pv et t v ct fl). Qed.
Print Assumptions C02_vector_write.
Theorem C02_vector_read t ct gs bs : vector_shape t = Some (ct, List.length gs) ->
  Forall2 (fun g b => unpack_data b (Some ct) (-1) (-1) None = Ok (VFloat g)) gs bs ->
  exists v, unpack_data (List.concat bs) (Some t) (-1) (-1) None = Ok v /\ components t v = Some (ct, gs).
Proof. exact (vector_read t ct gs bs). Qed.
Print Assumptions C02_vector_read.
(** (1, -2, 0) *)
Definition one_f := S754_finite false 4503599627370496 (-52).
Definition neg_two_f := S754_finite true 4503599627370496 (-51).
Example C02_vector_ex :
  components MVT_LLVector3 (VVec3 one_f neg_two_f (S754_zero false)) =
    Some (MVT_F32, [one_f; neg_two_f; S754_zero false]) /\
  pack_data Py26 (VVec3 one_f neg_two_f (S754_zero false)) (Some MVT_LLVector3) None =
    Ok (Some [x00; x00; x80; x3f; x00; x00; x00; xc0; x00; x00; x00; x00]) /\
  vector_shape MVT_LLVector3 = Some (MVT_F32, 3%nat).
Proof. repeat split; vm_compute; reflexivity. Qed.

(** ** C03 *)
Theorem C03_uuid_roundtrip pv u (std : bool) et et' pre post : 0 <= u < 2 ^ 128 ->
  exists b, pack_data pv (if std then VStdUUID u else VUUID u) (Some MVT_LLUUID) et = Ok (Some b) /\
    zlen b = 16 /\ value_msb_first b = u /\
    unpack_data b (Some MVT_LLUUID) (-1) (-1) et' = Ok (VUUID u) /\
    unpack_data (pre ++ b ++ post) (Some MVT_LLUUID) (zlen pre) (-1) et' = Ok (VUUID u).
Proof. exact (uuid_roundtrip pv u std et et' pre post). Qed.
Print Assumptions C03_uuid_roundtrip.
Theorem C03_uuid_decode pv b et : zlen b = 16 ->
  exists u, 0 <= u < 2 ^ 128 /\ unpack_data b (Some MVT_LLUUID) (-1) (-1) et = Ok (VUUID u) /\
    pack_data pv (VUUID u) (Some MVT_LLUUID) et = Ok (Some b).
Proof. exact (uuid_decode pv b et). Qed.
Print Assumptions C03_uuid_decode.
Theorem C03_uuid_short b et : zlen b < 16 ->
  unpack_data b (Some MVT_LLUUID) (-1) (-1) et = Err ValueErr.
Proof. exact (uuid_decode_bad b et). Qed.
Print Assumptions C03_uuid_short.
Theorem C03_uuid_long b et : 16 <= zlen b ->
  unpack_data b (Some MVT_LLUUID) (-1) (-1) et =
  unpack_data (firstn 16 b) (Some MVT_LLUUID) (-1) (-1) et.
Proof. exact (uuid_decode_long b et). Qed.
Print Assumptions C03_uuid_long.
Example C03_ex : pack_data Py26 (VUUID 0x0102030405060708090a0b0c0d0e0f10) (Some MVT_LLUUID) None =
  Ok (Some [x01; x02; x03; x04; x05; x06; x07; x08; x09; x0a; x0b; x0c; x0d; x0e; x0f; x10]).
Proof. reflexivity. Qed.

(** ** C04 *)
Theorem C04_quat_write_nonneg pv et x y z w : positive_or_zero w ->
  pack_data pv (VQuat x y z w) (Some MVT_LLQuaternion) et = pack_data pv (VVec3 x y z) (Some MVT_LLVector3) et.
Proof. exact (quat_write_nonneg pv et x y z w). Qed.
Print Assumptions C04_quat_write_nonneg.
Theorem C04_quat_write_neg pv et x y z w : negative_or_nan w ->
  pack_data pv (VQuat x y z w) (Some MVT_LLQuaternion) et =
  pack_data pv (VVec3 (opposite x) (opposite y) (opposite z)) (Some MVT_LLVector3) et.
Proof. exact (quat_write_neg pv et x y z w). Qed.
Print Assumptions C04_quat_write_neg.
Theorem C04_quat_write_sym pv et x y z w : (forall s, w <> S754_zero s) -> w <> S754_nan ->
  pack_data pv (VQuat x y z w) (Some MVT_LLQuaternion) et =
  pack_data pv (VQuat (opposite x) (opposite y) (opposite z) (opposite w)) (Some MVT_LLQuaternion) et.
Proof. exact (quat_write_sym pv et x y z w). Qed.
Print Assumptions C04_quat_write_sym.
Example C04_write_ex : positive_or_zero one_f /\ negative_or_nan neg_two_f /\
  pack_data Py26 (VQuat one_f neg_two_f one_f neg_two_f) (Some MVT_LLQuaternion) None =
    Ok (Some [x00; x00; x80; xbf; x00; x00; x00; x40; x00; x00; x80; xbf]).
Proof. repeat split; vm_compute; reflexivity. Qed.
Theorem C04_quat_read a b c x y z :
  unpack_data a (Some MVT_F32) (-1) (-1) None = Ok (VFloat x) ->
  unpack_data b (Some MVT_F32) (-1) (-1) None = Ok (VFloat y) ->
  unpack_data c (Some MVT_F32) (-1) (-1) None = Ok (VFloat z) ->
  exists w, unpack_data (a ++ b ++ c) (Some MVT_LLQuaternion) (-1) (-1) None = Ok (VQuat x y z w) /\
    valid64 w = true /\ finite_float w /\ sign_SF w = false /\
    (finite_float x /\ finite_float y /\ finite_float z ->
      ((0 < w_square (rv x) (rv y) (rv z))%R -> rv w = rn64 (sqrt (w_square (rv x) (rv y) (rv z)))) /\
      ((w_square (rv x) (rv y) (rv z) <= 0)%R -> rv w = 0%R)) /\
    (~ (finite_float x /\ finite_float y /\ finite_float z) -> rv w = 0%R).
Proof. exact (quat_read_w a b c x y z). Qed.
Print Assumptions C04_quat_read.
(** (0.5, 0.5, 0.5) has W = 0.5 *)
Example C04_read_ex :
  unpack_data [x00; x00; x00; x3f; x00; x00; x00; x3f; x00; x00; x00; x3f] (Some MVT_LLQuaternion) (-1) (-1) None =
  let h := S754_finite false 4503599627370496 (-53) in Ok (VQuat h h h h).
Proof. vm_compute. reflexivity. Qed.
Theorem C04_quat_read16 a b c d rest x y z w et :
  unpack_data a (Some MVT_F32) (-1) (-1) None = Ok (VFloat x) ->
  unpack_data b (Some MVT_F32) (-1) (-1) None = Ok (VFloat y) ->
  unpack_data c (Some MVT_F32) (-1) (-1) None = Ok (VFloat z) ->
  unpack_data d (Some MVT_F32) (-1) (-1) None = Ok (VFloat w) ->
  unpack_data (a ++ b ++ c ++ d ++ rest) (Some MVT_LLQuaternion) (-1) (-1) et = Ok (VQuat x y z w).
Proof. exact (quat_read16 a b c d rest x y z w et). Qed.
Print Assumptions C04_quat_read16.
Theorem C04_quat_read_short b et : zlen b < 12 ->
  unpack_data b (Some MVT_LLQuaternion) (-1) (-1) et = Err DataUnpackingErr.
Proof. exact (quat_read_short b et). Qed.
Print Assumptions C04_quat_read_short.
(** From 12 to 15 bytes: those after the twelfth do not matter. *)
Theorem C04_quat_read_between b et : 12 <= zlen b < 16 ->
  unpack_data b (Some MVT_LLQuaternion) (-1) (-1) et = unpack_data (firstn 12 b) (Some MVT_LLQuaternion) (-1) (-1) et.
Proof.
  intros L. rewrite !unpack_whole. cbv [unpack_raw unpacker_table quat_unpack].
  assert (forall i, 0 <= i -> i + 4 <= 12 -> pyslice (firstn 12 b) i (i + 4) = pyslice b i (i + 4)) as E.
  { intros i A B. rewrite !Lib.pyslice_pos by lia. rewrite skipn_firstn_comm, firstn_firstn. f_equal. lia. }
  assert (forall s, zlen s < 16 -> unpack_float LE false (pyslice s (0 + 12) (0 + 16)) = Err StructError) as N.
  { intros s M. unfold unpack_float. pose proof (Lib.pyslice_length s (0 + 12) (0 + 16) ltac:(lia)) as P.
    destruct (Nat.eqb_spec (List.length (pyslice s (0 + 12) (0 + 16))) 4); [|reflexivity]. unfold zlen in *. lia. }
  rewrite (N b) by lia. rewrite (N (firstn 12 b)) by (unfold zlen in *; rewrite firstn_length; lia).
  rewrite (E 0 : 0 <= 0 -> 0 + 4 <= 12 -> _ = _) by lia.
  pose proof (E (0 + 4) ltac:(lia) ltac:(lia)) as E4. change (0 + 4 + 4) with (0 + 8) in E4. rewrite E4.
  pose proof (E (0 + 8) ltac:(lia) ltac:(lia)) as E8. change (0 + 8 + 4) with (0 + 12) in E8. rewrite E8. reflexivity.
Qed.
Print Assumptions C04_quat_read_between.
Example C04_between_ex : unpack_data (repeat x00 15) (Some MVT_LLQuaternion) (-1) (-1) None =
  Ok (VQuat (S754_zero false) (S754_zero false) (S754_zero false) one_f).
Proof. vm_compute. reflexivity. Qed.

(** ** C05 *)
Theorem C05_variable_write pv b v var s p :
  tv_type v = Some MVT_VARIABLE -> tv_size v = Some p -> p = 1 \/ p = 2 \/ p = 4 ->
  get_variable b (tv_name v) = Ok var -> text_bytes (v_data var) s ->
  (zlen s + 1 < 2 ^ (8 * p) ->
   exists len, build_var pv b v = Ok (len ++ s ++ [x00]) /\ zlen len = p /\
               value_lsb_first len = zlen s + 1) /\
  (2 ^ (8 * p) <= zlen s + 1 ->
   match pv with
   | Py27 => build_var pv b v = Err StructError
   | Py26 => exists len, build_var pv b v = Ok (len ++ s ++ [x00]) /\ zlen len = p /\
               value_lsb_first len = (zlen s + 1) mod 2 ^ (8 * p)
   end).
Proof. exact (variable_write pv b v var s p). Qed.
Print Assumptions C05_variable_write.
Theorem C05_variable_read v p pre len s post :
  tv_type v = Some MVT_VARIABLE -> tv_size v = Some p -> p = 1 \/ p = 2 \/ p = 4 ->
  zlen len = p -> value_lsb_first len = zlen s ->
  decode_var (pre ++ (len ++ s) ++ post) v (zlen pre) =
    Ok (Some (VStr (if String.eqb (tv_name v) "Data" then s else rstrip0 s),
              zlen pre + zlen (len ++ s))).
Proof. exact (variable_read v p pre len s post). Qed.
Print Assumptions C05_variable_read.
Theorem C05_variable_roundtrip pv b v var s p pre post :
  tv_type v = Some MVT_VARIABLE -> tv_size v = Some p -> p = 1 \/ p = 2 \/ p = 4 ->
  get_variable b (tv_name v) = Ok var -> text_bytes (v_data var) s ->
  zlen s + 1 < 2 ^ (8 * p) ->
  exists f r, build_var pv b v = Ok f /\ zlen f = p + zlen s + 1 /\
    decode_var (pre ++ f ++ post) v (zlen pre) = Ok (Some (VStr r, zlen pre + zlen f)) /\
    (tv_name v = "Data"%string -> r = s ++ [x00]) /\
    (tv_name v <> "Data"%string -> without_trailing_nuls s r /\ (r = s <-> ~ ends_in_nul s)).
Proof. exact (variable_roundtrip pv b v var s p pre post). Qed.
Print Assumptions C05_variable_roundtrip.
(** The unicode text U+00E9 U+20AC in a 1-byte Variable field *)
Example C05_ex :
  let v := {| tv_name := "Message"; tv_type := Some MVT_VARIABLE; tv_size := Some 1 |} in
  let b := mk_block "ChatData" [("Message"%string, VUni [0xe9; 0x20ac])] in
  text_bytes (VUni [0xe9; 0x20ac]) [xc3; xa9; xe2; x82; xac] /\
  build_var Py26 b v = Ok [x06; xc3; xa9; xe2; x82; xac; x00] /\
  decode_var [x06; xc3; xa9; xe2; x82; xac; x00] v 0 = Ok (Some (VStr [xc3; xa9; xe2; x82; xac], 7)).
Proof.
  split; [|split; vm_compute; reflexivity]. constructor.
  apply (utf8_ok [0xe9; 0x20ac]). repeat constructor; lia.
Qed.

(** ** C08 *)
Theorem C08_raw_roundtrip pv b v t var s n pre post :
  tv_type v = Some t -> t = MVT_FIXED \/ t = MVT_IP_ADDR -> tv_size v = Some n ->
  get_variable b (tv_name v) = Ok var -> text_bytes (v_data var) s ->
  exists f, build_var pv b v = Ok f /\ zlen f = zlen s + 1 /\
    (zlen s = n -> decode_var (pre ++ f ++ post) v (zlen pre) = Ok (Some (VStr s, zlen pre + zlen f - 1))) /\
    (zlen s = n - 1 -> decode_var (pre ++ f ++ post) v (zlen pre) = Ok (Some (VStr (s ++ [x00]), zlen pre + zlen f))).
Proof. exact (raw_roundtrip pv b v t var s n pre post). Qed.
Print Assumptions C08_raw_roundtrip.
Example C08_ex :
  let v := {| tv_name := "IP"; tv_type := Some MVT_IP_ADDR; tv_size := Some 4 |} in
  build_var Py26 (mk_block "B" [("IP"%string, VStr [x7f; x00; x00; x01])]) v = Ok [x7f; x00; x00; x01; x00] /\
  decode_var [x7f; x00; x00; x01; x00] v 0 = Ok (Some (VStr [x7f; x00; x00; x01], 4)).
Proof. split; reflexivity. Qed.
