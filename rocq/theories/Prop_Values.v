(** Values of every kind in every kind of field: property C76.
    Vocabulary: SpecCodec.v, SpecFloats.v and SpecValues.v. *)
From Coq Require Import Reals Lra.
From Flocq Require Import Core BinarySingleNaN.
From Verif Require Import Packer SpecCodec SpecFloats SpecValues ValueProofs.
Open Scope Z_scope.

(** ** Integer fields *)
Theorem C76_whole_numbers pv t size sg en et v z :
  int_spec t = Some (size, sg, en) -> whole_number v z ->
  pv = Py27 \/ fits sg size z ->
  pack_data pv v (Some t) et = pack_data pv (VInt z) (Some t) et.
Proof. intros H1 H2 _. exact (int_whole pv t size sg en et v z H1 H2). Qed.
Print Assumptions C76_whole_numbers.
Theorem C76_every_finite_float_is_whole f : finite_float f -> exists z, whole_number (VFloat f) z.
Proof. exact (int_float_whole f). Qed.
Print Assumptions C76_every_finite_float_is_whole.
Theorem C76_int_field_refuses pv t size sg en et v : int_spec t = Some (size, sg, en) ->
  (forall s, v = VFloat (S754_infinity s) ->
     pack_data pv v (Some t) et = Err match pv with Py27 => StructError | Py26 => OverflowErr end) /\
  (v = VFloat S754_nan -> pack_data pv v (Some t) et = Err ValueErr) /\
  (not_a_number_value v ->
     match pv with
     | Py27 => pack_data pv v (Some t) et = Err StructError
     | Py26 => exists e, pack_data pv v (Some t) et = Err e
     end).
Proof. exact (int_refused pv t size sg en et v). Qed.
Print Assumptions C76_int_field_refuses.
(** -2.5 in a signed byte is written as -2 *)
Example C76_whole_ex : whole_number (VFloat (S754_finite true 5629499534213120 (-51))) (-2) /\ fits true 1 (-2) /\
  pack_data Py27 (VFloat (S754_finite true 5629499534213120 (-51))) (Some MVT_S8) None = Ok (Some [xfe]) /\
  pack_data Py27 (VBool true) (Some MVT_BOOL) None = Ok (Some [x01]) /\
  not_a_number_value (VStr [x31]) /\ pack_data Py27 (VStr [x31]) (Some MVT_U8) None = Err StructError.
Proof.
  split; [|split; [unfold fits; cbn; lia|repeat split; vm_compute; reflexivity]].
  apply whole_float; [exact I| |];
  (assert (rv (S754_finite true 5629499534213120 (-51)) = - (5 / 2))%R as ->;
    [unfold rv, SF2R, F2R; cbn; lra|]).
  - rewrite !Rabs_left by lra. lra.
  - lra.
Qed.

(** ** Float fields *)
Theorem C76_ints_in_float_fields pv t et n v :
  t = MVT_F32 \/ t = MVT_F64 -> v = VInt n \/ (exists b, v = VBool b /\ n = (if b : bool then 1 else 0)) ->
  ((Rabs (rn64 (IZR n)) < bpow radix2 1024)%R ->
     exists f, finite_float f /\ rv f = rn64 (IZR n) /\
       pack_data pv v (Some t) et = pack_data pv (VFloat f) (Some t) et) /\
  ((bpow radix2 1024 <= Rabs (rn64 (IZR n)))%R -> pack_data pv v (Some t) et = Err StructError).
Proof. exact (float_int pv t et n v). Qed.
Print Assumptions C76_ints_in_float_fields.
Theorem C76_float_field_refuses pv t et v : t = MVT_F32 \/ t = MVT_F64 ->
  not_a_number_value v -> pack_data pv v (Some t) et = Err StructError.
Proof. exact (float_refused pv t et v). Qed.
Print Assumptions C76_float_field_refuses.
Example C76_float_ex : pack_data Py26 (VInt (-2)) (Some MVT_F32) None = Ok (Some [x00; x00; x00; xc0]) /\
  pack_data Py26 (VInt (2 ^ 1024)) (Some MVT_F64) None = Err StructError /\
  pack_data Py27 VNone (Some MVT_F64) None = Err StructError.
Proof. repeat split; vm_compute; reflexivity. Qed.

(** ** Vectors: a tuple of any length is accepted and written element by
    element; the field has its declared width only if the length is right. *)
Theorem C76_vector_tuple pv t elt k et l b : vector_shape t = Some (elt, k) ->
  pack_data pv (VTuple l) (Some t) et = Ok (Some b) <->
  exists parts, Forall2 (fun n p => pack_data pv (element n) (Some elt) (Some (order et LE)) = Ok (Some p)) l parts /\
    b = List.concat parts.
Proof. exact (vector_tuple pv t elt k et l b). Qed.
Print Assumptions C76_vector_tuple.
Theorem C76_vector_width pv t elt k et l b : vector_shape t = Some (elt, k) ->
  pack_data pv (VTuple l) (Some t) et = Ok (Some b) ->
  (sizeof (Some t) = Some (zlen b) <-> List.length l = k).
Proof. exact (vector_width pv t elt k et l b). Qed.
Print Assumptions C76_vector_width.
Theorem C76_vector_error pv t elt k et l e : vector_shape t = Some (elt, k) ->
  pack_data pv (VTuple l) (Some t) et = Err e ->
  exists n, In n l /\ pack_data pv (element n) (Some elt) (Some (order et LE)) = Err e.
Proof. exact (vector_error pv t elt k et l e). Qed.
Print Assumptions C76_vector_error.
Theorem C76_vector_other_values pv t elt k et v : vector_shape t = Some (elt, k) ->
  (v = VStr [] \/ v = VUni [] -> pack_data pv v (Some t) et = Ok (Some [])) /\
  ((exists s, s <> [] /\ v = VStr s) \/ (exists u, u <> [] /\ v = VUni u) -> pack_data pv v (Some t) et = Err StructError) /\
  (forall x y z, v = VVec3 x y z ->
     (t = MVT_LLVector3 -> pack_data pv v (Some t) et = pack_data pv (VTuple [NF x; NF y; NF z]) (Some t) et) /\
     (t <> MVT_LLVector3 -> pack_data pv v (Some t) et = Err TypeErr)) /\
  (~ is_sequence v -> (forall x y z, v <> VVec3 x y z) -> pack_data pv v (Some t) et = Err TypeErr).
Proof. exact (vector_other pv t elt k et v). Qed.
Print Assumptions C76_vector_other_values.
(** Two numbers in a three-component field: 8 bytes instead of 12 *)
Example C76_vector_ex : vector_shape MVT_LLVector3 = Some (MVT_F32, 3%nat) /\
  pack_data Py27 (VTuple [NI 1; NI 2]) (Some MVT_LLVector3) None =
    Ok (Some [x00; x00; x80; x3f; x00; x00; x00; x40]) /\
  sizeof (Some MVT_LLVector3) = Some 12 /\
  pack_data Py27 (VVec3 fone fone fone) (Some MVT_LLVector3d) None = Err TypeErr /\
  pack_data Py27 (VTuple [NI 1; NI (2 ^ 1024)]) (Some MVT_LLVector4) None = Err StructError.
Proof. repeat split; vm_compute; reflexivity. Qed.

(** ** Quaternions *)
Theorem C76_quat_tuple pv et a b c d l :
  (fourth_nonneg d -> pack_data pv (VTuple (a :: b :: c :: d :: l)) (Some MVT_LLQuaternion) et =
                      pack_data pv (VTuple [a; b; c]) (Some MVT_LLVector3) et) /\
  (fourth_negative d -> pack_data pv (VTuple (a :: b :: c :: d :: l)) (Some MVT_LLQuaternion) et =
                      pack_data pv (VTuple [opposite_num a; opposite_num b; opposite_num c]) (Some MVT_LLVector3) et).
Proof. exact (quat_tuple pv et a b c d l). Qed.
Print Assumptions C76_quat_tuple.
Theorem C76_quat_other_values pv et v :
  (forall x y z w, v = VQuat x y z w ->
     pack_data pv v (Some MVT_LLQuaternion) et = pack_data pv (VTuple [NF x; NF y; NF z; NF w]) (Some MVT_LLQuaternion) et) /\
  ((exists l, (List.length l < 4)%nat /\ v = VTuple l) \/ (exists s, (List.length s < 4)%nat /\ v = VStr s) \/
   (exists u, (List.length u < 4)%nat /\ v = VUni u) -> pack_data pv v (Some MVT_LLQuaternion) et = Err IndexErr) /\
  ((exists s, (4 <= List.length s)%nat /\ v = VStr s) \/ (exists u, (4 <= List.length u)%nat /\ v = VUni u) ->
     pack_data pv v (Some MVT_LLQuaternion) et = Err StructError) /\
  (~ is_sequence v -> (forall x y z w, v <> VQuat x y z w) -> pack_data pv v (Some MVT_LLQuaternion) et = Err TypeErr).
Proof. exact (quat_other pv et v). Qed.
Print Assumptions C76_quat_other_values.
Example C76_quat_ex : fourth_negative (NI (-1)) /\
  pack_data Py27 (VTuple [NI 1; NI 0; NF fone; NI (-1); NI 7]) (Some MVT_LLQuaternion) None =
    Ok (Some [x00; x00; x80; xbf; x00; x00; x00; x00; x00; x00; x80; xbf]) /\
  pack_data Py27 (VTuple [NI 1; NI 0; NI 2]) (Some MVT_LLQuaternion) None = Err IndexErr.
Proof. repeat split; vm_compute; reflexivity. Qed.

(** ** UUIDs, text and unknown types *)
Theorem C76_uuid_field pv et v :
  (forall u, v = VStdUUID u -> pack_data pv v (Some MVT_LLUUID) et = pack_data pv (VUUID u) (Some MVT_LLUUID) et) /\
  ((forall u, v <> VUUID u) -> (forall u, v <> VStdUUID u) ->
     pack_data pv v (Some MVT_LLUUID) et = Err AttributeErr).
Proof. split; [intros u ->; exact (uuid_same pv et u)|exact (uuid_other pv et v)]. Qed.
Print Assumptions C76_uuid_field.
Theorem C76_text_field pv t et v : t = MVT_FIXED \/ t = MVT_VARIABLE \/ t = MVT_IP_ADDR ->
  (forall s, text_bytes v s -> pack_data pv v (Some t) et = Ok (Some (s ++ [x00]))) /\
  (~ is_text v -> pack_data pv v (Some t) et = Err TypeErr).
Proof. exact (text_kinds pv t et v). Qed.
Print Assumptions C76_text_field.
Theorem C76_unknown_type pv v t et : pack_data pv v t et = Ok None <-> t = None.
Proof. exact (none_iff pv v t et). Qed.
Print Assumptions C76_unknown_type.
Example C76_text_ex : pack_data Py27 VNone (Some MVT_VARIABLE) None = Ok (Some [x00]) /\
  pack_data Py27 (VInt 5) (Some MVT_VARIABLE) None = Err TypeErr /\
  pack_data Py27 (VStr [x41]) (Some MVT_LLUUID) None = Err AttributeErr.
Proof. repeat split; vm_compute; reflexivity. Qed.
