(** Proofs for C76. *)
From Coq Require Import ZArith Lia Bool Reals Psatz.
From Flocq Require Import Core BinarySingleNaN.
From Coq Require Import Floats.SpecFloat ZifyBool ZifyNat.
From Verif Require Import Packer Lib SpecCodec CodecProofs FieldProofs FloatProofs SpecFloats FloatRound FloatField SpecValues ObjectProofs WaitingProofs.
Open Scope Z_scope.

Lemma trunc_unique (r : R) z : (Rabs (IZR z) <= Rabs r < Rabs (IZR z) + 1)%R -> (0 <= IZR z * r)%R -> z = Ztrunc r.
Proof.
  intros [A B] C. destruct (Rle_lt_dec 0 r) as [P|P].
  - rewrite Ztrunc_floor by exact P. symmetry. apply Zfloor_imp. rewrite plus_IZR.
    rewrite (Rabs_pos_eq r) in A, B by exact P.
    assert (0 <= IZR z)%R as N.
    { destruct (Rle_lt_dec 0 (IZR z)) as [N|N]; [exact N|]. exfalso.
      rewrite Rabs_left in A by exact N. assert (r = 0 \/ 0 < r)%R as [E|E] by lra; [lra|nra]. }
    rewrite Rabs_pos_eq in A, B by exact N. lra.
  - rewrite Ztrunc_ceil by lra. symmetry. apply Zceil_imp. rewrite minus_IZR.
    rewrite (Rabs_left r) in A, B by exact P.
    assert (IZR z <= 0)%R as N by (destruct (Rle_lt_dec (IZR z) 0) as [N|N]; [exact N|exfalso; nra]).
    rewrite Rabs_left1 in A, B by exact N. lra.
Qed.
Lemma trunc_exists (r : R) : exists z, (Rabs (IZR z) <= Rabs r < Rabs (IZR z) + 1)%R /\ (0 <= IZR z * r)%R.
Proof.
  exists (Ztrunc r). destruct (Rle_lt_dec 0 r) as [P|P].
  - rewrite Ztrunc_floor by exact P. pose proof (Zfloor_lb r) as L. pose proof (Zfloor_ub r) as U.
    assert (0 <= IZR (Zfloor r))%R as N by (apply IZR_le, Zfloor_lub; exact P).
    rewrite !Rabs_pos_eq by lra. split; [lra|nra].
  - rewrite Ztrunc_ceil by lra. pose proof (Zceil_ub r) as L.
    assert (IZR (Zceil r) <= 0)%R as N by (apply IZR_le, Zceil_glb; lra).
    assert (IZR (Zceil r) < r + 1)%R as U.
    { rewrite <- (Z.opp_involutive (Zceil r)), opp_IZR. unfold Zceil. rewrite Z.opp_involutive.
      pose proof (Zfloor_ub (- r)). lra. }
    rewrite !Rabs_left1 by lra. split; [lra|nra].
Qed.

Lemma whole_pyint pv v z : whole_number v z -> as_pyint pv v = Ok z.
Proof.
  destruct 1 as [z| | |f z F A B]; try reflexivity. cbn [as_pyint]. rewrite (trunc_int f F).
  rewrite <- (trunc_unique _ _ A B). reflexivity.
Qed.

Lemma int_item t size sg en : int_spec t = Some (size, sg, en) ->
  exists n, packer_table t = (en, FInt sg n).
Proof. destruct t; cbn; try discriminate; intros [= <- <- <-]; eexists; reflexivity. Qed.

Lemma int_whole pv t size sg en et v z : int_spec t = Some (size, sg, en) -> whole_number v z ->
  pack_data pv v (Some t) et = pack_data pv (VInt z) (Some t) et.
Proof.
  intros Hi W. destruct (int_item t size sg en Hi) as [n E]. unfold pack_data. rewrite E.
  rewrite (whole_pyint pv v z W). reflexivity.
Qed.
Lemma int_float_whole f : finite_float f -> exists z, whole_number (VFloat f) z.
Proof. intros F. destruct (trunc_exists (rv f)) as (z & A & B). exists z. now constructor. Qed.
Lemma int_refused pv t size sg en et v : int_spec t = Some (size, sg, en) ->
  (forall s, v = VFloat (S754_infinity s) ->
     pack_data pv v (Some t) et = Err match pv with Py27 => StructError | Py26 => OverflowErr end) /\
  (v = VFloat S754_nan -> pack_data pv v (Some t) et = Err ValueErr) /\
  (not_a_number_value v ->
     match pv with
     | Py27 => pack_data pv v (Some t) et = Err StructError
     | Py26 => exists e, pack_data pv v (Some t) et = Err e
     end).
Proof.
  intros Hi. destruct (int_item t size sg en Hi) as [n E]. unfold pack_data. rewrite E.
  split; [|split].
  - intros s ->. destruct pv; reflexivity.
  - intros ->. destruct pv; reflexivity.
  - intros V. destruct v; try easy; destruct pv; try reflexivity; eexists; reflexivity.
Qed.

(** ** Float fields *)
Lemma float_int pv t et n v : t = MVT_F32 \/ t = MVT_F64 -> v = VInt n \/ (exists b, v = VBool b /\ n = (if b : bool then 1 else 0)) ->
  ((Rabs (rn64 (IZR n)) < bpow radix2 1024)%R ->
     exists f, finite_float f /\ rv f = rn64 (IZR n) /\
       pack_data pv v (Some t) et = pack_data pv (VFloat f) (Some t) et) /\
  ((bpow radix2 1024 <= Rabs (rn64 (IZR n)))%R -> pack_data pv v (Some t) et = Err StructError).
Proof.
  intros Ht Hv. assert (as_pyfloat v = num_float (NI n)) as E.
  { destruct Hv as [->|(b & -> & ->)]; reflexivity. }
  destruct (float_of_int_rv n) as [H1 H2]. split.
  - intros L. destruct (H1 L) as (f & Ef & [_ F] & R). exists f. split; [now apply finite_SF|]. split; [exact R|].
    destruct Ht as [-> | ->]; unfold pack_data, packer_table; rewrite E; cbn [num_float]; rewrite Ef; reflexivity.
  - intros L. specialize (H2 L).
    destruct Ht as [-> | ->]; unfold pack_data, packer_table; rewrite E; cbn [num_float]; rewrite H2; reflexivity.
Qed.
Lemma float_refused pv t et v : t = MVT_F32 \/ t = MVT_F64 ->
  not_a_number_value v -> pack_data pv v (Some t) et = Err StructError.
Proof. intros [-> | ->] V; destruct v; try easy; reflexivity. Qed.

(** ** Vectors *)
Lemma pack_element pv n d en : pack_data pv (element n) (Some (if d : bool then MVT_F64 else MVT_F32)) (Some en) =
  res_map (@Some bytes) (do f <- num_float n; pack_float en d f).
Proof. destruct n, d; reflexivity. Qed.
Lemma pack_float_len en d f b : pack_float en d f = Ok b -> zlen b = if d then 8 else 4.
Proof.
  unfold pack_float. destruct d; intros H.
  - destruct (pack_f64 f); cbn in H; [|discriminate]. injection H as <-. apply zlen_enc.
  - destruct (pack_f32 f); cbn in H; [|discriminate]. injection H as <-. apply zlen_enc.
Qed.
Lemma pack_nums_iff pv en d l b : pack_nums en d l = Ok b <->
  exists parts, Forall2 (fun n p => pack_data pv (element n) (Some (if d then MVT_F64 else MVT_F32)) (Some en) = Ok (Some p)) l parts /\
    b = List.concat parts.
Proof.
  revert b. induction l as [|n l IH]; intros b; cbn [pack_nums].
  - split.
    + intros [= <-]. exists []. split; constructor.
    + intros (p & H & ->). inversion H. reflexivity.
  - split.
    + intros H. destruct (num_float n) as [f|e] eqn:En; cbn [bind] in H; [|discriminate].
      destruct (pack_float en d f) as [p|e] eqn:Ef; cbn [bind] in H; [|discriminate].
      destruct (pack_nums en d l) as [r|e]; cbn [bind] in H; [|discriminate]. injection H as <-.
      destruct (proj1 (IH r) eq_refl) as (ps & H1 & ->). exists (p :: ps). split; [|reflexivity].
      constructor; [|exact H1]. rewrite pack_element, En. cbn [bind]. rewrite Ef. reflexivity.
    + intros (ps & H & ->). inversion H as [|? p ? ps' Hn Hr]; subst. rewrite pack_element in Hn.
      destruct (num_float n) as [f|e]; cbn [bind res_map] in *; [|discriminate].
      destruct (pack_float en d f) as [p'|e]; cbn [bind res_map] in *; [|discriminate]. injection Hn as ->.
      rewrite (proj2 (IH (List.concat ps'))) by eauto. reflexivity.
Qed.
Lemma pack_nums_err en d l e : pack_nums en d l = Err e ->
  exists n, In n l /\ (do f <- num_float n; pack_float en d f) = Err e.
Proof.
  induction l as [|n l IH]; cbn [pack_nums]; intros H; [discriminate|].
  destruct (num_float n) as [f|e'] eqn:En; cbn [bind] in H.
  2:{ exists n. split; [now left|]. rewrite En. exact H. }
  destruct (pack_float en d f) as [p|e'] eqn:Ef; cbn [bind] in H.
  2:{ exists n. split; [now left|]. rewrite En. cbn [bind]. rewrite Ef. exact H. }
  destruct (pack_nums en d l) as [r|e']; cbn [bind] in H; [discriminate|].
  destruct (IH H) as (m & A & B). exists m. split; [now right|exact B].
Qed.
Lemma parts_len pv en (d : bool) (l : list num) parts :
  Forall2 (fun n p => pack_data pv (element n) (Some (if d then MVT_F64 else MVT_F32)) (Some en) = Ok (Some p)) l parts ->
  zlen (List.concat parts) = (if d : bool then 8 else 4) * zlen l.
Proof.
  induction 1 as [|n p l ps H _ IH]; [destruct d; reflexivity|]. cbn [List.concat]. rewrite zlen_app, IH, zlen_cons.
  rewrite pack_element in H. destruct (num_float n) as [f|]; cbn [bind res_map] in H; [|discriminate].
  destruct (pack_float en d f) as [q|] eqn:E; cbn [res_map] in H; [|discriminate]. injection H as ->.
  rewrite (pack_float_len _ _ _ _ E). destruct d; lia.
Qed.

Lemma vector_pack t elt k : vector_shape t = Some (elt, k) ->
  exists d, elt = (if d : bool then MVT_F64 else MVT_F32) /\ sizeof (Some t) = Some ((if d then 8 else 4) * Z.of_nat k) /\
  forall pv l et, pack_data pv (VTuple l) (Some t) et = res_map (@Some bytes) (pack_nums (order et LE) d l).
Proof.
  destruct t; cbn [vector_shape]; try discriminate; intros [= <- <-]; [exists false|exists true|exists false];
    (split; [reflexivity|]); (split; [reflexivity|]); reflexivity.
Qed.
Lemma vector_tuple pv t elt k et l b : vector_shape t = Some (elt, k) ->
  pack_data pv (VTuple l) (Some t) et = Ok (Some b) <->
  exists parts, Forall2 (fun n p => pack_data pv (element n) (Some elt) (Some (order et LE)) = Ok (Some p)) l parts /\
    b = List.concat parts.
Proof.
  intros H. destruct (vector_pack t elt k H) as (d & -> & _ & E). rewrite E, <- pack_nums_iff.
  destruct (pack_nums (order et LE) d l); cbn [res_map]; split; congruence.
Qed.
Lemma vector_width pv t elt k et l b : vector_shape t = Some (elt, k) ->
  pack_data pv (VTuple l) (Some t) et = Ok (Some b) ->
  (sizeof (Some t) = Some (zlen b) <-> List.length l = k).
Proof.
  intros H P. pose proof P as Q. rewrite (vector_tuple pv t elt k et l b H) in Q. destruct Q as (parts & F & ->).
  destruct (vector_pack t elt k H) as (d & -> & S & _). rewrite S, (parts_len pv _ d l parts F).
  unfold zlen. split; [intros [= G]|intros ->; reflexivity]. destruct d; lia.
Qed.
Lemma vector_error pv t elt k et l e : vector_shape t = Some (elt, k) ->
  pack_data pv (VTuple l) (Some t) et = Err e ->
  exists n, In n l /\ pack_data pv (element n) (Some elt) (Some (order et LE)) = Err e.
Proof.
  intros H. destruct (vector_pack t elt k H) as (d & -> & _ & E). rewrite E. intros P.
  destruct (pack_nums (order et LE) d l) as [|e'] eqn:F; cbn [res_map] in P; [discriminate|]. injection P as ->.
  destruct (pack_nums_err _ _ _ _ F) as (n & A & B). exists n. split; [exact A|]. rewrite pack_element, B. reflexivity.
Qed.
Lemma vector_other pv t elt k et v : vector_shape t = Some (elt, k) ->
  (v = VStr [] \/ v = VUni [] -> pack_data pv v (Some t) et = Ok (Some [])) /\
  ((exists s, s <> [] /\ v = VStr s) \/ (exists u, u <> [] /\ v = VUni u) -> pack_data pv v (Some t) et = Err StructError) /\
  (forall x y z, v = VVec3 x y z ->
     (t = MVT_LLVector3 -> pack_data pv v (Some t) et = pack_data pv (VTuple [NF x; NF y; NF z]) (Some t) et) /\
     (t <> MVT_LLVector3 -> pack_data pv v (Some t) et = Err TypeErr)) /\
  (~ is_sequence v -> (forall x y z, v <> VVec3 x y z) -> pack_data pv v (Some t) et = Err TypeErr).
Proof.
  intros H. destruct t; cbn [vector_shape] in H; try discriminate; (split; [|split; [|split]]).
  all: try (intros [-> | ->]; reflexivity).
  all: try (intros [(s & N & ->)|(u & N & ->)]; [destruct s|destruct u]; try congruence; reflexivity).
  all: try (intros x y z ->; split; [try discriminate|try congruence]; reflexivity).
  all: intros S V; destruct v; try (exfalso; apply S; exact I); try reflexivity; exfalso; eapply V; reflexivity.
Qed.

(** ** Quaternions *)
Lemma quat_tuple pv et a b c d l :
  (fourth_nonneg d -> pack_data pv (VTuple (a :: b :: c :: d :: l)) (Some MVT_LLQuaternion) et =
                      pack_data pv (VTuple [a; b; c]) (Some MVT_LLVector3) et) /\
  (fourth_negative d -> pack_data pv (VTuple (a :: b :: c :: d :: l)) (Some MVT_LLQuaternion) et =
                      pack_data pv (VTuple [opposite_num a; opposite_num b; opposite_num c]) (Some MVT_LLVector3) et).
Proof.
  assert (forall n, num_neg n = opposite_num n) as E.
  { intros [z|f]; cbn [num_neg opposite_num]; [reflexivity|]. now destruct f. }
  unfold pack_data, packer_table, pack_quat, pack_quaternion_to_vector3. rewrite (E a), (E b), (E c). split; intros H.
  - assert (num_nonneg d = true) as ->; [|reflexivity].
    destruct d as [z|f]; cbn in *; [lia|]. destruct f as [s|[|]| |[|] m e]; try easy.
  - assert (num_nonneg d = false) as ->; [|reflexivity].
    destruct d as [z|f]; cbn in *; [lia|]. destruct f as [s|[|]| |[|] m e]; try easy.
Qed.
Lemma quat_other pv et v :
  (forall x y z w, v = VQuat x y z w ->
     pack_data pv v (Some MVT_LLQuaternion) et = pack_data pv (VTuple [NF x; NF y; NF z; NF w]) (Some MVT_LLQuaternion) et) /\
  ((exists l, (List.length l < 4)%nat /\ v = VTuple l) \/ (exists s, (List.length s < 4)%nat /\ v = VStr s) \/
   (exists u, (List.length u < 4)%nat /\ v = VUni u) -> pack_data pv v (Some MVT_LLQuaternion) et = Err IndexErr) /\
  ((exists s, (4 <= List.length s)%nat /\ v = VStr s) \/ (exists u, (4 <= List.length u)%nat /\ v = VUni u) ->
     pack_data pv v (Some MVT_LLQuaternion) et = Err StructError) /\
  (~ is_sequence v -> (forall x y z w, v <> VQuat x y z w) -> pack_data pv v (Some MVT_LLQuaternion) et = Err TypeErr).
Proof.
  split; [|split; [|split]].
  - intros x y z w ->. reflexivity.
  - intros [(l & L & ->)|[(s & L & ->)|(u & L & ->)]]; unfold pack_data, packer_table, pack_quat.
    + destruct l as [|a [|b [|c [|d l]]]]; cbn in L; try lia; reflexivity.
    + replace (Nat.leb 4 (List.length s)) with false by lia. reflexivity.
    + replace (Nat.leb 4 (List.length u)) with false by lia. reflexivity.
  - intros [(s & L & ->)|(u & L & ->)]; unfold pack_data, packer_table, pack_quat.
    + replace (Nat.leb 4 (List.length s)) with true by lia. reflexivity.
    + replace (Nat.leb 4 (List.length u)) with true by lia. reflexivity.
  - intros S V. destruct v; try (exfalso; apply S; exact I); try reflexivity. exfalso; eapply V; reflexivity.
Qed.

(** ** UUIDs, text, unknown types *)
Lemma uuid_other pv et v : (forall u, v <> VUUID u) -> (forall u, v <> VStdUUID u) ->
  pack_data pv v (Some MVT_LLUUID) et = Err AttributeErr.
Proof. intros A B. destruct v; try reflexivity; [now destruct (A u)|now destruct (B u)]. Qed.
Lemma uuid_same pv et u : pack_data pv (VStdUUID u) (Some MVT_LLUUID) et = pack_data pv (VUUID u) (Some MVT_LLUUID) et.
Proof. reflexivity. Qed.
Lemma text_kinds pv t et v : t = MVT_FIXED \/ t = MVT_VARIABLE \/ t = MVT_IP_ADDR ->
  (forall s, text_bytes v s -> pack_data pv v (Some t) et = Ok (Some (s ++ [x00]))) /\
  (~ is_text v -> pack_data pv v (Some t) et = Err TypeErr).
Proof.
  intros Ht. split.
  - intros s T. apply pack_text in T.
    destruct Ht as [-> | [-> | ->]]; unfold pack_data, packer_table; rewrite T; reflexivity.
  - intros N. destruct v; try (exfalso; apply N; exact I); destruct Ht as [-> | [-> | ->]]; reflexivity.
Qed.
Lemma none_iff pv v t et : pack_data pv v t et = Ok None <-> t = None.
Proof.
  unfold pack_data. destruct t as [t|]; [|split; reflexivity]. destruct (packer_table t) as [en fn].
  split; [|discriminate]. match goal with |- res_map _ ?r = _ -> _ => destruct r; cbn [res_map] end; discriminate.
Qed.
