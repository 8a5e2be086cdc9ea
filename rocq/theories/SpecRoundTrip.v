(** Vocabulary for the serialize/deserialize round trip (C07, C26): which values
    a template variable can carry, and how they come back. *)
From Coq Require Import Reals.
From Flocq Require Import Core BinarySingleNaN.
From Verif Require Import SpecCodec SpecFloats.
From Verif Require Export Template SpecWire SpecLayout SpecTemplate.
Open Scope Z_scope.

(** ** Single values *)
(** A float that fits a field with items of type [ct] (F32 or F64): in an F32
    field, infinities, NaN, or what rounds to less than 2^128. *)
Definition float_fits (ct : mvt) (f : pyfloat) : Prop :=
  valid64 f = true /\ (ct = MVT_F32 -> finite_float f -> (Rabs (rn32 (rv f)) < bpow radix2 128)%R).
(** How it comes back: an F64 item unchanged, an F32 item rounded to single
    precision. *)
Definition float_back (ct : mvt) (f g : pyfloat) : Prop :=
  match ct with
  | MVT_F32 => (finite_float f -> finite_float g /\ rv g = rn32 (rv f) /\ sign_SF g = sign_SF f) /\
               (~ finite_float f -> g = f)
  | _ => g = f
  end.
(** Integers and booleans. *)
Inductive int_value : pyval -> Z -> Prop :=
| iv_int z : int_value (VInt z) z
| iv_true : int_value (VBool true) 1
| iv_false : int_value (VBool false) 0.

(** Integers where floats are expected: the nearest double. *)
Definition int_as_float (z : Z) (f : pyfloat) : Prop :=
  valid64 f = true /\ finite_float f /\ rv f = rn64 (IZR z) /\ sign_SF f = (z <? 0).
Inductive item_for : num -> pyfloat -> Prop :=
| item_float f : item_for (NF f) f
| item_int z f : int_as_float z f -> item_for (NI z) f.
Definition minus (n : num) : num := match n with NI z => NI (- z) | NF f => NF (opposite f) end.
(** [stands_for t x x']: in a field of type [t], [x] may be given instead of the
    proper [x']: an int or bool for a float, a tuple for a vector or quaternion
    (whose negative W turns the signs of the other three; a fifth and further
    elements are ignored). *)
Inductive stands_for : mvt -> pyval -> pyval -> Prop :=
| sf_same t x : stands_for t x x
| sf_number t x z f : t = MVT_F32 \/ t = MVT_F64 -> int_value x z -> int_as_float z f -> stands_for t x (VFloat f)
| sf_vector3 l x y z : Forall2 item_for l [x; y; z] -> stands_for MVT_LLVector3 (VTuple l) (VVec3 x y z)
| sf_tuple t l fl : t = MVT_LLVector3d \/ t = MVT_LLVector4 -> Forall2 item_for l fl ->
    stands_for t (VTuple l) (VTuple (map NF fl))
| sf_quat a b c n rest x y z w : Forall2 item_for [a; b; c] [x; y; z] -> item_for n w -> positive_or_zero w ->
    stands_for MVT_LLQuaternion (VTuple (a :: b :: c :: n :: rest)) (VQuat x y z w)
| sf_quat_neg a b c n rest x y z w w' : Forall2 item_for [minus a; minus b; minus c] [x; y; z] ->
    item_for n w' -> negative_or_nan w' -> positive_or_zero w ->
    stands_for MVT_LLQuaternion (VTuple (a :: b :: c :: n :: rest)) (VQuat x y z w).

(** [proper_value v x]: [x] is a value for the template variable [v], ... *)
Definition proper_value (v : tvar) (x : pyval) : Prop :=
  match tv_type v with
  | None => False
  | Some MVT_VARIABLE => exists s p, text_bytes x s /\ tv_size v = Some p /\ zlen s + 1 < 2 ^ (8 * p)
  | Some MVT_FIXED | Some MVT_IP_ADDR => exists s, text_bytes x s /\ tv_size v = Some (zlen s + 1)
  | Some MVT_LLUUID => exists u, (x = VUUID u \/ x = VStdUUID u) /\ 0 <= u < 2 ^ 128
  | Some MVT_LLQuaternion => exists a b c w, x = VQuat a b c w /\ Forall (float_fits MVT_F32) [a; b; c]
  | Some MVT_F32 => exists f, x = VFloat f /\ float_fits MVT_F32 f
  | Some MVT_F64 => exists f, x = VFloat f /\ float_fits MVT_F64 f
  | Some t =>
      match int_spec t with
      | Some (size, sg, _) => exists z, int_value x z /\ fits sg size z
      | None => exists ct fl, components t x = Some (ct, fl) /\ Forall (float_fits ct) fl
      end
  end.

(** ... and is received as [y]. *)
Definition received_as (v : tvar) (x y : pyval) : Prop :=
  match tv_type v with
  | None => False
  | Some MVT_VARIABLE => exists s, text_bytes x s /\
      if String.eqb (tv_name v) "Data" then y = VStr (s ++ [x00])
      else exists r, without_trailing_nuls s r /\ y = VStr r
  | Some MVT_FIXED | Some MVT_IP_ADDR => exists s, text_bytes x s /\ y = VStr (s ++ [x00])
  | Some MVT_LLUUID => exists u, (x = VUUID u \/ x = VStdUUID u) /\ y = VUUID u
  | Some MVT_LLQuaternion => exists a b c w a' b' c' w', x = VQuat a b c w /\ y = VQuat a' b' c' w' /\
      (positive_or_zero w -> Forall2 (float_back MVT_F32) [a; b; c] [a'; b'; c']) /\
      (negative_or_nan w -> Forall2 (float_back MVT_F32) [opposite a; opposite b; opposite c] [a'; b'; c']) /\
      finite_float w' /\ sign_SF w' = false /\
      (finite_float a' /\ finite_float b' /\ finite_float c' ->
        ((0 < w_square (rv a') (rv b') (rv c'))%R -> rv w' = rn64 (sqrt (w_square (rv a') (rv b') (rv c')))) /\
        ((w_square (rv a') (rv b') (rv c') <= 0)%R -> rv w' = 0%R)) /\
      (~ (finite_float a' /\ finite_float b' /\ finite_float c') -> rv w' = 0%R)
  | Some MVT_F32 => exists f g, x = VFloat f /\ y = VFloat g /\ float_back MVT_F32 f g
  | Some MVT_F64 => y = x
  | Some t =>
      match int_spec t with
      | Some _ => exists z, int_value x z /\ y = VInt z
      | None => exists ct fl gl, components t x = Some (ct, fl) /\ components t y = Some (ct, gl) /\
                  Forall2 (float_back ct) fl gl
      end
  end.

(** [in_range v x]: [x] is, or stands for, a value for the template variable [v]. *)
Definition in_range (v : tvar) (x : pyval) : Prop :=
  exists t x', tv_type v = Some t /\ stands_for t x x' /\ proper_value v x'.
(** [comes_back v x y]: the value [x] of the template variable [v] is received as [y]. *)
Definition comes_back (v : tvar) (x y : pyval) : Prop :=
  exists t x', tv_type v = Some t /\ stands_for t x x' /\ received_as v x' y.

(** ** Messages *)
(** The number of instances that a block of the template may have. *)
Definition right_count (tb : tblock) (n : Z) : Prop :=
  match tb_type tb with
  | Some MBT_SINGLE => n = 1
  | Some MBT_MULTIPLE => n = tb_number tb
  | Some MBT_VARIABLE => n <= 255
  | None => False
  end.
(** The message has every block of the template, as often as it may have it,
    with a suitable value for every variable. *)
Definition conforming (t : template) (m : message) : Prop :=
  forall tb, In tb (t_blocks t) -> exists l, get_block (m_blocks m) (tb_name tb) = Ok l /\
    right_count tb (zlen l) /\
    forall b v, In b l -> In v (tb_vars tb) -> exists x, block_getitem b (tv_name v) = Ok x /\ in_range v x.
(** The instances that a message has of the blocks called [name]. *)
Definition instances (m : message) (name : string) : list block :=
  match get_block (m_blocks m) name with Ok l => l | Err _ => [] end.
(** One instance and how it comes back. *)
Definition block_back (tb : tblock) (b b' : block) : Prop :=
  b_name b' = tb_name tb /\ b_list b' = map tv_name (tb_vars tb) /\
  forall v, In v (tb_vars tb) -> exists x y,
    block_getitem b (tv_name v) = Ok x /\ block_getitem b' (tv_name v) = Ok y /\ comes_back v x y.
(** The blocks that the template mentions and the message has an instance of, in
    the template's order. *)
Definition present (t : template) (m : message) (names : list string) : Prop :=
  exists tbs, names = map tb_name tbs /\
    tbs = filter (fun tb => match instances m (tb_name tb) with [] => false | _ => true end) (t_blocks t).
(** The received message [m'] is the sent message [m], up to [comes_back]. *)
Definition message_back (t : template) (m m' : message) : Prop :=
  m_name m' = m_name m /\ m_flags m' = m_flags m /\ m_id m' = m_id m /\
  m_acks m' = [] /\ m_num_acks m' = 0 /\ m_reliable m' = Z.testbit (m_flags m) reliable_bit /\
  present t m (map fst (m_blocks m')) /\
  forall tb, In tb (t_blocks t) ->
    Forall2 (block_back tb) (instances m (tb_name tb)) (instances m' (tb_name tb)) /\
    map b_number (instances m' (tb_name tb)) = map Z.of_nat (seq 0 (List.length (instances m (tb_name tb)))).

(** A template that can be sent and received: a codable number, known types and
    sizes, no two blocks, and in one block no two variables, of the same name. *)
Definition usable (t : template) : Prop :=
  (exists f, t_freq t = Some f /\ codable f (t_num t)) /\ well_formed t /\
  NoDup (map tb_name (t_blocks t)) /\ forall tb, In tb (t_blocks t) -> NoDup (map tv_name (tb_vars tb)).
(** Send flags and a packet id that the header can carry: the flags claim neither
    zero-coding nor acks. *)
Definition plain_header (pv : pyver) (m : message) : Prop :=
  0 <= m_flags m < 256 /\ Z.testbit (m_flags m) zero_bit = false /\ Z.testbit (m_flags m) ack_bit = false /\
  0 <= m_id m < 2 ^ 32 /\ written pv true 4 (m_id m).
