(** Float, vector and quaternion fields. *)
From Coq Require Import ZArith Lia Bool Reals Psatz.
From Flocq Require Import Core BinarySingleNaN.
From Coq Require Import Floats.SpecFloat ZifyBool ZifyNat.
From Verif Require Import Packer Lib SpecCodec CodecProofs FloatProofs SpecFloats FloatRound.
Open Scope Z_scope.

(** ** Interchange patterns denote what IEEE-754 says *)
Section Ieee.
  Context (mw ew : Z) (Hmw : 1 < mw) (Hew : 2 < ew).
  Lemma ieee_ofbits emin z : emin = 3 - 2 ^ (ew - 1) - (mw + 1) -> 0 <= z < 2 * 2 ^ (mw + ew) ->
    is_finite_SF (float_of_bits mw ew emin z) = true ->
    ieee_real mw ew z = rv (float_of_bits mw ew emin z).
  Proof.
    intros He Hz. unfold ieee_real, float_of_bits, rv.
    assert (Hp : 0 < 2 ^ (mw + ew)) by (apply Z.pow_pos_nonneg; lia).
    assert (Hm : 0 < 2 ^ mw) by (apply Z.pow_pos_nonneg; lia).
    assert (Hs : 0 <= z / 2 ^ (mw + ew) < 2).
    { split; [apply Z.div_pos; lia|apply Z.div_lt_upper_bound; lia]. }
    pose proof (Z.mod_pos_bound z (2 ^ mw) Hm) as Hfr.
    set (s := z / 2 ^ (mw + ew)) in *. set (be := (z / 2 ^ mw) mod 2 ^ ew). set (fr := z mod 2 ^ mw) in *.
    assert (Hsg : (if s =? 0 then 1 else -1)%R = if 0 <? s then (-1)%R else 1%R).
    { destruct (Z.eqb_spec s 0), (Z.ltb_spec 0 s); try lia; reflexivity. }
    rewrite Hsg. clear Hsg.
    assert (Hsig : forall p e', SF2R radix2 (S754_finite (0 <? s) p e') =
       ((if 0 <? s then -1 else 1) * (IZR (Z.pos p) * bpow radix2 e'))%R).
    { intros p e'. unfold SF2R, F2R. cbn [Fnum Fexp]. destruct (0 <? s); cbn [cond_Zopp]; [|ring].
      rewrite opp_IZR. ring. }
    destruct (Z.eqb_spec be 0) as [Hbe|Hbe].
    - destruct fr as [|p|p] eqn:E; [|intros _|exfalso; lia].
      + intros _. cbn [SF2R]. rewrite Rmult_0_l, Rmult_0_r. reflexivity.
      + rewrite Hsig. replace (1 - (2 ^ (ew - 1) - 1) - mw) with emin by lia. reflexivity.
    - destruct (Z.eqb_spec be (2 ^ ew - 1)) as [H1|H1]; [destruct (fr =? 0); discriminate|].
      destruct (fr + 2 ^ mw) as [|p|p] eqn:E; [lia| |lia]. intros _.
      rewrite Hsig. rewrite <- E. rewrite (Z.add_comm fr). do 3 f_equal; lia.
  Qed.
End Ieee.
Lemma ieee64 z : 0 <= z < 2 ^ 64 -> is_finite_SF (of_bits64 z) = true -> ieee_real 52 11 z = rv (of_bits64 z).
Proof. intros H. apply ieee_ofbits; try lia; exact H. Qed.
Lemma ieee32 z : 0 <= z < 2 ^ 32 -> is_finite_SF (of_bits32 z) = true -> ieee_real 23 8 z = rv (of_bits32 z).
Proof. intros H. apply ieee_ofbits; try lia; exact H. Qed.

Lemma finite_SF f : finite_float f <-> is_finite_SF f = true.
Proof. destruct f; cbn; split; try easy. Qed.

(** ** F64 *)
Lemma f64_roundtrip pv f et pre post : valid64 f = true ->
  exists b, pack_data pv (VFloat f) (Some MVT_F64) et = Ok (Some b) /\ zlen b = 8 /\
    unpack_data b (Some MVT_F64) (-1) (-1) et = Ok (VFloat f) /\
    unpack_data (pre ++ b ++ post) (Some MVT_F64) (zlen pre) (-1) et = Ok (VFloat f) /\
    (finite_float f -> ieee_real 52 11 (value (order et LE) b) = rv f).
Proof.
  intros Hv. pose proof (bits64_range f Hv) as Hr.
  assert (Hd : forall en, dec en (enc en 8 (bits64 f)) = bits64 f).
  { intros en. rewrite dec_enc. apply Z.mod_small. exact Hr. }
  assert (Hu : unpack_raw MVT_F64 et (enc (order et LE) 8 (bits64 f)) = Ok (VFloat f)).
  { cbv [unpack_raw unpacker_table unpack_float]. change (match et with Some e => e | None => LE end) with (order et LE).
    rewrite enc_length, Nat.eqb_refl. cbn [res_map]. unfold unpack_f64. rewrite Hd. now rewrite of_bits64_bits64. }
  exists (enc (order et LE) 8 (bits64 f)). split; [reflexivity|]. split; [apply zlen_enc|].
  split; [rewrite unpack_whole, Hu; reflexivity|].
  split; [rewrite unpack_at by (rewrite zlen_enc; reflexivity); rewrite Hu; reflexivity|].
  intros Hf. rewrite value_dec, Hd. rewrite ieee64; [now rewrite of_bits64_bits64|exact Hr|].
  rewrite of_bits64_bits64 by exact Hv. now apply finite_SF.
Qed.

(** ** F32 *)
Lemma unpack_f32_raw et b : List.length b = 4%nat ->
  unpack_raw MVT_F32 et b = Ok (VFloat (unpack_f32 (dec (order et LE) b))).
Proof.
  intros H. cbv [unpack_raw unpacker_table unpack_float].
  change (match et with Some e => e | None => LE end) with (order et LE).
  now rewrite H.
Qed.
Lemma pack_f32_data pv f et : pack_data pv (VFloat f) (Some MVT_F32) et =
  res_map (@Some _) (res_map (enc (order et LE) 4) (pack_f32 f)).
Proof. reflexivity. Qed.

Lemma of32_finite z : is_finite_SF (unpack_f32 z) = true -> is_finite_SF (of_bits32 z) = true.
Proof.
  unfold unpack_f32. intros H. pose proof (to_double_shape (of_bits32 z) (of_bits32_valid z)) as Hs.
  destruct (of_bits32 z); auto; rewrite Hs in H; exact H.
Qed.
Lemma unpack_f32_rv z : is_finite_SF (of_bits32 z) = true -> rv (unpack_f32 z) = rv (of_bits32 z).
Proof.
  unfold unpack_f32. pose proof (of_bits32_valid z) as Hv.
  destruct (of_bits32 z) as [s|s| |s m e]; cbn; try easy. intros _.
  now destruct (to_double_finite s m e Hv) as (_ & H & _).
Qed.

Lemma f32_finite pv f et pre post : valid64 f = true -> finite_float f ->
  ((Rabs (rn32 (rv f)) < bpow radix2 128)%R ->
   exists b g, pack_data pv (VFloat f) (Some MVT_F32) et = Ok (Some b) /\ zlen b = 4 /\
     ieee_real 23 8 (value (order et LE) b) = rn32 (rv f) /\
     unpack_data b (Some MVT_F32) (-1) (-1) et = Ok (VFloat g) /\
     unpack_data (pre ++ b ++ post) (Some MVT_F32) (zlen pre) (-1) et = Ok (VFloat g) /\
     valid64 g = true /\ finite_float g /\ rv g = rn32 (rv f) /\ sign_SF g = sign_SF f) /\
  ((bpow radix2 128 <= Rabs (rn32 (rv f)))%R ->
   pack_data pv (VFloat f) (Some MVT_F32) et = Err OverflowErr).
Proof.
  intros Hv Hf. rewrite pack_f32_data.
  assert (Hz : forall z, 0 <= z < 2 ^ 32 -> dec (order et LE) (enc (order et LE) 4 z) = z).
  { intros z H. rewrite dec_enc. apply Z.mod_small. exact H. }
  destruct f as [s|s| |s m e]; try easy.
  - assert (E0 : rn32 (rv (S754_zero s)) = 0%R) by (apply round_0; apply valid_rnd_N). rewrite E0, Rabs_R0.
    split; intros H.
    2:{ exfalso. pose proof (bpow_gt_0 radix2 128). lra. }
    exists (enc (order et LE) 4 (bits32 (S754_zero s))), (S754_zero s).
    assert (Hr : 0 <= bits32 (S754_zero s) < 2 ^ 32) by (apply bits32_range; reflexivity).
    split; [reflexivity|]. split; [apply zlen_enc|].
    split; [rewrite value_dec, Hz by exact Hr; rewrite ieee32; [rewrite of_bits32_bits32; reflexivity|exact Hr|rewrite of_bits32_bits32; reflexivity]|].
    assert (Hu : unpack_raw MVT_F32 et (enc (order et LE) 4 (bits32 (S754_zero s))) = Ok (VFloat (S754_zero s))).
    { rewrite unpack_f32_raw by apply enc_length. rewrite Hz by exact Hr. unfold unpack_f32.
      rewrite of_bits32_bits32; reflexivity. }
    split; [rewrite unpack_whole, Hu; reflexivity|].
    split; [rewrite unpack_at by (rewrite zlen_enc; reflexivity); rewrite Hu; reflexivity|].
    repeat split.
  - destruct (pack_f32_finite s m e Hv) as [Hok Hov]. split; intros H.
    2:{ rewrite (Hov H). reflexivity. }
    destruct (Hok H) as (z & y & H1 & H2 & H3 & H4 & H5 & H6 & H7).
    exists (enc (order et LE) 4 z), y. rewrite H1.
    split; [reflexivity|]. split; [apply zlen_enc|].
    assert (Hfz : is_finite_SF (of_bits32 z) = true) by (apply of32_finite; rewrite H3; exact H5).
    split.
    { rewrite value_dec, Hz by exact H2. rewrite ieee32; [|exact H2|exact Hfz].
      rewrite <- unpack_f32_rv by exact Hfz. rewrite H3. exact H7. }
    assert (Hu : unpack_raw MVT_F32 et (enc (order et LE) 4 z) = Ok (VFloat y)).
    { rewrite unpack_f32_raw by apply enc_length. rewrite Hz by exact H2. now rewrite H3. }
    split; [rewrite unpack_whole, Hu; reflexivity|].
    split; [rewrite unpack_at by (rewrite zlen_enc; reflexivity); rewrite Hu; reflexivity|].
    repeat split; auto. now apply finite_SF.
Qed.
Lemma f32_special pv f et : ~ finite_float f ->
  exists b, pack_data pv (VFloat f) (Some MVT_F32) et = Ok (Some b) /\ zlen b = 4 /\
    unpack_data b (Some MVT_F32) (-1) (-1) et = Ok (VFloat f).
Proof.
  intros Hf. exists (enc (order et LE) 4 (bits32 f)).
  assert (Hv : valid32 f = true) by (destruct f; try reflexivity; exfalso; apply Hf; exact I).
  split; [destruct f; try reflexivity; exfalso; apply Hf; exact I|]. split; [apply zlen_enc|].
  rewrite unpack_whole, unpack_f32_raw by apply enc_length. cbn [wrap_struct_error]. do 2 f_equal.
  rewrite dec_enc. unfold unpack_f32.
  change (2 ^ (8 * Z.of_nat 4)) with (2 ^ 32). rewrite Z.mod_small by (apply bits32_range; exact Hv).
  rewrite of_bits32_bits32 by exact Hv. destruct f; try reflexivity; exfalso; apply Hf; exact I.
Qed.
Lemma f32_pattern pv b et : zlen b = 4 ->
  exists g, unpack_data b (Some MVT_F32) (-1) (-1) et = Ok (VFloat g) /\ valid64 g = true /\
    (finite_float g -> rv g = ieee_real 23 8 (value (order et LE) b)) /\
    (g <> S754_nan -> pack_data pv (VFloat g) (Some MVT_F32) et = Ok (Some b)).
Proof.
  intros Hl. assert (Hl' : List.length b = 4%nat) by (unfold zlen in Hl; lia).
  pose proof (dec_range (order et LE) b) as Hr. rewrite Hl in Hr. change (8 * 4) with 32 in Hr.
  rewrite unpack_whole, unpack_f32_raw by exact Hl'. eexists. split; [reflexivity|].
  set (z := dec (order et LE) b) in *. pose proof (of_bits32_valid z) as Hv.
  split.
  { unfold unpack_f32. destruct (of_bits32 z) as [s|s| |s m e]; try reflexivity.
    now destruct (to_double_finite s m e Hv). }
  split.
  - intros Hf. apply finite_SF in Hf. apply of32_finite in Hf. rewrite value_dec. fold z.
    rewrite ieee32 by assumption. now apply unpack_f32_rv.
  - intros Hn. rewrite pack_f32_data. unfold unpack_f32.
    assert (Hn' : of_bits32 z <> S754_nan).
    { intros E. apply Hn. unfold unpack_f32. rewrite E. reflexivity. }
    rewrite pack_f32_widened by assumption. cbn [res_map].
    rewrite bits32_of_bits32 by assumption. unfold z. now rewrite enc_dec.
Qed.
Lemma f32_bad_length b et : zlen b <> 4 ->
  unpack_data b (Some MVT_F32) (-1) (-1) et = Err DataUnpackingErr.
Proof.
  intros Hl. rewrite unpack_whole. cbv [unpack_raw unpacker_table unpack_float].
  destruct (Nat.eqb_spec (List.length b) 4) as [E|E]; [unfold zlen in Hl; lia|reflexivity].
Qed.

(** ** Vectors: componentwise *)
Lemma num_f f : num_float (NF f) = Ok f. Proof. reflexivity. Qed.

Section Components.
  Context (pv : pyver) (et : option endian).
  Definition item (double : bool) : mvt := if double then MVT_F64 else MVT_F32.
  Lemma pack_item_f double f : pack_data pv (VFloat f) (Some (item double)) et =
    res_map (@Some _) (pack_float (order et LE) double f).
  Proof. destruct double; reflexivity. Qed.
  Lemma pack_nums_all double fl bs :
    Forall2 (fun f b => pack_data pv (VFloat f) (Some (item double)) et = Ok (Some b)) fl bs ->
    pack_nums (order et LE) double (map NF fl) = Ok (List.concat bs).
  Proof.
    induction 1 as [|f b fl bs H1 H2 IH]; [reflexivity|]. cbn [map pack_nums]. rewrite num_f. cbn [bind].
    rewrite pack_item_f in H1. destruct (pack_float (order et LE) double f) as [b'|]; [|discriminate].
    injection H1 as ->. cbn [bind]. rewrite IH. reflexivity.
  Qed.
  Lemma pack_nums_inv double fl b :
    pack_nums (order et LE) double (map NF fl) = Ok b ->
    exists bs, Forall2 (fun f b => pack_data pv (VFloat f) (Some (item double)) et = Ok (Some b)) fl bs /\      b = List.concat bs.
  Proof.
    revert b. induction fl as [|f fl IH]; intros b; cbn [map pack_nums].
    - intros [= <-]. exists []. split; [constructor|reflexivity].
    - rewrite num_f. cbn [bind]. destruct (pack_float (order et LE) double f) as [c|] eqn:E; [|discriminate].
      cbn [bind]. destruct (pack_nums (order et LE) double (map NF fl)) as [r|] eqn:E2; [|discriminate].
      cbn [bind]. intros [= <-]. destruct (IH r eq_refl) as (bs & H1 & ->).
      exists (c :: bs). split; [constructor; auto|reflexivity]. rewrite pack_item_f, E. reflexivity.
  Qed.
End Components.

Lemma vec_pack_nums pv et t v ct fl : components t v = Some (ct, fl) ->
  exists d, ct = item d /\ pack_data pv v (Some t) et = res_map (@Some _) (pack_nums (order et LE) d (map NF fl)) /\    Z.of_nat (List.length fl) * sizeof_mvt ct = sizeof_mvt t.
Proof.
  intros H. destruct t; try discriminate H.
  - destruct v; try discriminate H. injection H as <- <-. exists false. repeat split; reflexivity.
  - destruct v; try discriminate H. destruct l as [|[|x] [|[|y] [|[|z] [|]]]]; try discriminate H.
    injection H as <- <-. exists true. repeat split; reflexivity.
  - destruct v; try discriminate H. destruct l as [|[|x] [|[|y] [|[|z] [|[|w] [|]]]]]; try discriminate H.
    injection H as <- <-. exists false. repeat split; reflexivity.
Qed.
Lemma item_len pv et d f b : pack_data pv (VFloat f) (Some (item d)) et = Ok (Some b) ->
  zlen b = sizeof_mvt (item d).
Proof.
  rewrite pack_item_f. unfold pack_float. destruct d; cbn.
  - intros [= <-]. rewrite zlen_enc. reflexivity.
  - destruct (pack_f32 f); [|discriminate]. cbn. intros [= <-]. rewrite zlen_enc. reflexivity.
Qed.
Lemma concat_len {A} (bs : list (list A)) n : Forall (fun b => zlen b = n) bs ->
  zlen (List.concat bs) = Z.of_nat (List.length bs) * n.
Proof.
  induction 1 as [|b bs H1 H2 IH]; [reflexivity|]. cbn [List.concat List.length]. rewrite zlen_app, IH, H1. lia.
Qed.
Lemma vector_write pv et t v ct fl : components t v = Some (ct, fl) -> forall b,
  pack_data pv v (Some t) et = Ok (Some b) <->
  exists bs, Forall2 (fun f b => pack_data pv (VFloat f) (Some ct) et = Ok (Some b)) fl bs /\    b = List.concat bs /\ zlen b = sizeof_mvt t.
Proof.
  intros H b. destruct (vec_pack_nums pv et t v ct fl H) as (d & -> & Hp & Hs). rewrite Hp. split.
  - destruct (pack_nums (order et LE) d (map NF fl)) as [c|] eqn:E; [|discriminate]. intros [= <-].
    destruct (pack_nums_inv pv et d fl c E) as (bs & H1 & ->). exists bs. repeat split; auto.
    rewrite (concat_len bs (sizeof_mvt (item d))).
    + rewrite <- (Forall2_len _ _ _ H1). exact Hs.
    + clear -H1. induction H1; constructor; auto. eapply item_len; eassumption.
  - intros (bs & H1 & -> & _). rewrite (pack_nums_all pv et d fl bs H1). reflexivity.
Qed.
Lemma unpack_float_raw d et b : unpack_raw (item d) et b = res_map VFloat (unpack_float (order et LE) d b).
Proof. destruct d; reflexivity. Qed.
Lemma unpack_item_ok d b g : unpack_data b (Some (item d)) (-1) (-1) None = Ok (VFloat g) ->
  unpack_float LE d b = Ok g /\ List.length b = if d then 8%nat else 4%nat.
Proof.
  rewrite unpack_whole, unpack_float_raw. cbn [order]. unfold unpack_float.
  destruct d.
  - destruct (Nat.eqb_spec (List.length b) 8); [|discriminate]. cbn. intros [= <-]. auto.
  - destruct (Nat.eqb_spec (List.length b) 4); [|discriminate]. cbn. intros [= <-]. auto.
Qed.
Lemma unpack_nums_all d gs bs :
  Forall2 (fun g b => unpack_data b (Some (item d)) (-1) (-1) None = Ok (VFloat g)) gs bs ->
  unpack_nums LE d (List.length gs) (List.concat bs) = Ok (map NF gs).
Proof.
  induction 1 as [|g b gs bs H1 H2 IH]; [reflexivity|]. cbn [List.length unpack_nums List.concat map].
  apply unpack_item_ok in H1 as [H1 Hl].
  rewrite <- Hl, firstn_app, Nat.sub_diag, firstn_all, firstn_O, app_nil_r, H1. cbn [bind].
  rewrite skipn_app, Nat.sub_diag, skipn_all, skipn_O. cbn [app]. rewrite IH. reflexivity.
Qed.
Lemma unpack_tuple_all d gs bs :
  Forall2 (fun g b => unpack_data b (Some (item d)) (-1) (-1) None = Ok (VFloat g)) gs bs ->
  unpack_tuple LE d (List.concat bs) = Ok (map NF gs).
Proof.
  intros H. unfold unpack_tuple. rewrite <- (unpack_nums_all d gs bs H). f_equal.
  assert (Hl : zlen (List.concat bs) = Z.of_nat (List.length bs) * (if d then 8 else 4)).
  { apply concat_len. clear -H. induction H as [|g b gs bs H1 H2 IH]; constructor; auto.
    apply unpack_item_ok in H1 as [_ Hl]. unfold zlen. rewrite Hl. destruct d; reflexivity. }
  rewrite (Forall2_len _ _ _ H). unfold zlen in Hl.
  symmetry. apply Nat.div_unique_exact; destruct d; lia.
Qed.
Lemma vec3_slices (a b c rest : bytes) : List.length a = 4%nat -> List.length b = 4%nat -> List.length c = 4%nat ->
  let s := a ++ b ++ c ++ rest in
  pyslice s 0 (0 + 4) = a /\ pyslice s (0 + 4) (0 + 8) = b /\ pyslice s (0 + 8) (0 + 12) = c.
Proof.
  intros Ha Hb Hc s. assert (Ha' : zlen a = 4) by (unfold zlen; lia).
  assert (Hb' : zlen b = 4) by (unfold zlen; lia). assert (Hc' : zlen c = 4) by (unfold zlen; lia).
  split; [|split].
  - apply (pyslice_mid [] a (b ++ c ++ rest)); unfold zlen; cbn; lia.
  - apply (pyslice_mid a b (c ++ rest)); lia.
  - unfold s. replace (a ++ b ++ c ++ rest) with ((a ++ b) ++ c ++ rest) by now rewrite <- app_assoc.
    apply pyslice_mid; rewrite zlen_app; lia.
Qed.
Lemma vector_read t ct gs bs : vector_shape t = Some (ct, List.length gs) ->
  Forall2 (fun g b => unpack_data b (Some ct) (-1) (-1) None = Ok (VFloat g)) gs bs ->
  exists v, unpack_data (List.concat bs) (Some t) (-1) (-1) None = Ok v /\ components t v = Some (ct, gs).
Proof.
  intros Hs H. rewrite unpack_whole. destruct t; try discriminate Hs; injection Hs as Hc Hl; subst ct.
  - destruct gs as [|x [|y [|z [|]]]]; try discriminate Hl.
    apply Forall2_len in H as Hlb.
    destruct bs as [|a [|b [|c [|]]]]; try discriminate Hlb.
    inversion H as [|? ? ? ? Ha H1]; subst; inversion H1 as [|? ? ? ? Hb H2]; subst;
      inversion H2 as [|? ? ? ? Hc _]; subst.
    apply (unpack_item_ok false) in Ha as [Ha La], Hb as [Hb Lb], Hc as [Hc Lc].
    exists (VVec3 x y z). split; [|reflexivity].
    cbv [unpack_raw unpacker_table vec3_unpack].
    destruct (vec3_slices a b c [] La Lb Lc) as (S1 & S2 & S3).
    cbn [List.concat]. rewrite S1, S2, S3, Ha, Hb, Hc. reflexivity.
  - destruct gs as [|x [|y [|z [|]]]]; try discriminate Hl.
    exists (VTuple (map NF [x; y; z])). split; [|reflexivity].
    cbv [unpack_raw unpacker_table]. rewrite (unpack_tuple_all true _ _ H). reflexivity.
  - destruct gs as [|x [|y [|z [|w [|]]]]]; try discriminate Hl.
    exists (VTuple (map NF [x; y; z; w])). split; [|reflexivity].
    cbv [unpack_raw unpacker_table]. rewrite (unpack_tuple_all false _ _ H). reflexivity.
Qed.

(** ** Quaternions *)
Lemma opp_fneg f : opposite f = fneg f.
Proof. destruct f; reflexivity. Qed.
Lemma quat_write_nonneg pv et x y z w : positive_or_zero w ->
  pack_data pv (VQuat x y z w) (Some MVT_LLQuaternion) et = pack_data pv (VVec3 x y z) (Some MVT_LLVector3) et.
Proof.
  intros H. cbv [pack_data packer_table pack_quat pack_quaternion_to_vector3 num_nonneg].
  assert (E : SFleb fzero w = true) by (destruct w as [s|[|]| |[|] m e]; cbn in H |- *; easy).
  rewrite E. reflexivity.
Qed.
Lemma quat_write_neg pv et x y z w : negative_or_nan w ->
  pack_data pv (VQuat x y z w) (Some MVT_LLQuaternion) et =
  pack_data pv (VVec3 (opposite x) (opposite y) (opposite z)) (Some MVT_LLVector3) et.
Proof.
  intros H. cbv [pack_data packer_table pack_quat pack_quaternion_to_vector3 num_nonneg].
  assert (E : SFleb fzero w = false) by (destruct w as [s|[|]| |[|] m e]; cbn in H |- *; easy).
  rewrite E, !opp_fneg. reflexivity.
Qed.
Lemma opposite_involutive f : opposite (opposite f) = f.
Proof. destruct f; cbn; rewrite ?negb_involutive; reflexivity. Qed.
Lemma quat_write_sym pv et x y z w : (forall s, w <> S754_zero s) -> w <> S754_nan ->
  pack_data pv (VQuat x y z w) (Some MVT_LLQuaternion) et =
  pack_data pv (VQuat (opposite x) (opposite y) (opposite z) (opposite w)) (Some MVT_LLQuaternion) et.
Proof.
  intros H0 Hn. assert (C : positive_or_zero w /\ negative_or_nan (opposite w) \/
    negative_or_nan w /\ positive_or_zero (opposite w)).
  { destruct w as [s|[|]| |[|] m e]; cbn; try tauto; exfalso; eauto. now apply (H0 s). }
  destruct C as [[A B]|[A B]].
  - rewrite quat_write_nonneg by exact A. rewrite quat_write_neg by exact B. now rewrite !opposite_involutive.
  - rewrite quat_write_neg by exact A. now rewrite quat_write_nonneg by exact B.
Qed.

(** W recovered from components that are not all finite *)
Lemma fmul_nonfin x y : is_finite_SF x = false -> is_finite_SF (fmul x y) = false \/ exists s, y = S754_zero s.
Proof. destruct x, y; cbn; try easy; intros _; eauto. Qed.
Definition bad (f : pyfloat) : Prop := f = S754_infinity false \/ f = S754_nan.
Lemma sq_bad x : is_finite_SF x = false -> bad (fmul x x).
Proof. unfold bad. destruct x as [s|[|]| |s m e]; cbn; try easy; auto. Qed.
Lemma binary_round_aux_sign prec emax s m e l r :
  binary_round_aux prec emax s m e l = r ->
  r = S754_nan \/ r = S754_zero s \/ r = S754_infinity s \/ exists m' e', r = S754_finite s m' e'.
Proof.
  unfold binary_round_aux. intros <-.
  destruct (shr_fexp _ _ _ _ _) as [mrs e']. destruct (shr_fexp _ _ _ _ _) as [mrs' e''].
  destruct (shr_m mrs'); eauto. destruct (_ <=? _); eauto 6.
Qed.
Lemma sq_nonneg x : valid64 x = true -> bad (fmul x x) \/ (is_finite_SF (fmul x x) = true /\ sign_SF (fmul x x) = false).
Proof.
  intros Hv. destruct x as [s|s| |s m e]; [right; destruct s; auto|left; apply sq_bad; auto..|].
  unfold fmul, SFmul. rewrite xorb_nilpotent.
  destruct (binary_round_aux_sign 53 1024 false (Z.pos (m * m)) (e + e) loc_Exact _ eq_refl)
    as [E|[E|[E|(m' & e' & E)]]]; rewrite E; unfold bad; cbn; auto.
Qed.
Lemma binary_round_sign prec emax s m e : let r := binary_round prec emax s m e in
  r = S754_nan \/ r = S754_zero s \/ r = S754_infinity s \/ exists m' e', r = S754_finite s m' e'.
Proof.
  unfold binary_round. cbv zeta. destruct (shl_align _ _ _) as [mz ez].
  eapply binary_round_aux_sign; reflexivity.
Qed.
Definition nonneg (f : pyfloat) : Prop := bad f \/ (is_finite_SF f = true /\ sign_SF f = false).
Lemma add_nonneg x y : nonneg x -> nonneg y -> nonneg (fadd x y) /\ (bad x \/ bad y -> bad (fadd x y)).
Proof.
  intros Hx Hy. split.
  - destruct Hx as [[->| ->]|[Fx Sx]], Hy as [[->| ->]|[Fy Sy]]; unfold nonneg, bad.
    all: try (left; cbn; auto; fail).
    + destruct y as [s|s| |s m e]; cbn in *; try discriminate; left; auto.
    + destruct x as [s|s| |s m e]; cbn in *; try discriminate; left; auto.
    + destruct x as [s|s| |s m e]; cbn in *; try discriminate; left; auto.
    + destruct x as [s|s| |s m e]; cbn in Fx, Sx; try discriminate; subst s;
      destruct y as [s|s| |s m' e']; cbn in Fy, Sy; try discriminate; subst s; cbn; auto.
      unfold fadd, SFadd, cond_Zopp. set (k := Z.min e e').
      assert (Hp : exists p, Z.pos (fst (shl_align m e k)) + Z.pos (fst (shl_align m' e' k)) = Z.pos p)
        by (eexists; reflexivity).
      destruct Hp as [p Hp]. cbn [Z.add] in Hp. injection Hp as Hp. rewrite Hp.
      destruct (binary_round_sign 53 1024 false p k) as [E|[E|[E|(m'' & e'' & E)]]]; rewrite E; cbn; auto.
  - intros Hb. unfold bad in *. destruct Hx as [[->| ->]|[Fx Sx]], Hy as [[->| ->]|[Fy Sy]]; cbn; auto.
    + destruct y as [s|s| |s m e]; cbn in *; try discriminate; auto.
    + destruct x as [s|s| |s m e]; cbn in *; try discriminate; auto.
    + destruct x as [s|s| |s m e]; cbn in *; try discriminate; auto.
    + destruct Hb as [[->| ->]|[->| ->]]; discriminate.
Qed.
Lemma quat_w_bad x y z : valid64 x = true -> valid64 y = true -> valid64 z = true ->
  ~ (finite_float x /\ finite_float y /\ finite_float z) -> quat_w x y z = fzero.
Proof.
  intros Vx Vy Vz H. unfold quat_w.
  assert (Hb : bad (fadd (fadd (fmul x x) (fmul y y)) (fmul z z))).
  { pose proof (sq_nonneg x Vx) as Nx. pose proof (sq_nonneg y Vy) as Ny. pose proof (sq_nonneg z Vz) as Nz.
    destruct (add_nonneg _ _ Nx Ny) as [N1 B1]. destruct (add_nonneg _ _ N1 Nz) as [N2 B2].
    rewrite !finite_SF in H.
    destruct (is_finite_SF z) eqn:Ez; [|apply B2; right; now apply sq_bad].
    apply B2. left. apply B1.
    destruct (is_finite_SF x) eqn:Ex; [|left; now apply sq_bad].
    destruct (is_finite_SF y) eqn:Ey; [|right; now apply sq_bad]. exfalso. auto. }
  destruct Hb as [->| ->]; reflexivity.
Qed.

Lemma quat_read12 a b c x y z :
  unpack_data a (Some MVT_F32) (-1) (-1) None = Ok (VFloat x) ->
  unpack_data b (Some MVT_F32) (-1) (-1) None = Ok (VFloat y) ->
  unpack_data c (Some MVT_F32) (-1) (-1) None = Ok (VFloat z) ->
  unpack_data (a ++ b ++ c) (Some MVT_LLQuaternion) (-1) (-1) None = Ok (VQuat x y z (quat_w x y z)).
Proof.
  intros Ha Hb Hc. apply (unpack_item_ok false) in Ha as [Ha La], Hb as [Hb Lb], Hc as [Hc Lc].
  rewrite unpack_whole. cbv [unpack_raw unpacker_table quat_unpack].
  destruct (vec3_slices a b c [] La Lb Lc) as (S1 & S2 & S3). rewrite app_nil_r in S1, S2, S3.
  rewrite S1, S2, S3, Ha, Hb, Hc. cbn [bind].
  assert (E : pyslice (a ++ b ++ c) (0 + 12) (0 + 16) = []).
  { rewrite pyslice_pos by lia. rewrite skipn_all2; [apply firstn_nil|]. rewrite !app_length, La, Lb, Lc. cbn; lia. }
  rewrite E. reflexivity.
Qed.
Lemma quat_read16 a b c d rest x y z w et :
  unpack_data a (Some MVT_F32) (-1) (-1) None = Ok (VFloat x) ->
  unpack_data b (Some MVT_F32) (-1) (-1) None = Ok (VFloat y) ->
  unpack_data c (Some MVT_F32) (-1) (-1) None = Ok (VFloat z) ->
  unpack_data d (Some MVT_F32) (-1) (-1) None = Ok (VFloat w) ->
  unpack_data (a ++ b ++ c ++ d ++ rest) (Some MVT_LLQuaternion) (-1) (-1) et = Ok (VQuat x y z w).
Proof.
  intros Ha Hb Hc Hd. apply (unpack_item_ok false) in Ha as [Ha La], Hb as [Hb Lb], Hc as [Hc Lc], Hd as [Hd Ld].
  rewrite unpack_whole. cbv [unpack_raw unpacker_table quat_unpack].
  destruct (vec3_slices a b c (d ++ rest) La Lb Lc) as (S1 & S2 & S3).
  rewrite S1, S2, S3, Ha, Hb, Hc. cbn [bind].
  assert (E : pyslice (a ++ b ++ c ++ d ++ rest) (0 + 12) (0 + 16) = d).
  { replace (a ++ b ++ c ++ d ++ rest) with ((a ++ b ++ c) ++ d ++ rest) by now rewrite <- !app_assoc.
    apply pyslice_mid; rewrite ?zlen_app; unfold zlen; rewrite La, Lb, Lc, ?Ld; reflexivity. }
  rewrite E, Hd. reflexivity.
Qed.

Lemma f32_value_bound b x et : unpack_data b (Some MVT_F32) (-1) (-1) et = Ok (VFloat x) ->
  valid64 x = true /\ (finite_float x -> (Rabs (rv x) <= bpow radix2 128)%R).
Proof.
  intros H. assert (Hl : zlen b = 4).
  { destruct (Z.eq_dec (zlen b) 4) as [E|E]; [exact E|]. rewrite f32_bad_length in H by exact E. discriminate. }
  assert (Hl' : List.length b = 4%nat) by (unfold zlen in Hl; lia).
  rewrite unpack_whole, unpack_f32_raw in H by exact Hl'. injection H as H.
  set (z := dec (order et LE) b) in *. pose proof (of_bits32_valid z) as Hv. subst x. split.
  - unfold unpack_f32. destruct (of_bits32 z) as [s|s| |s m e]; try reflexivity.
    now destruct (to_double_finite s m e Hv).
  - intros Hf. apply finite_SF in Hf. apply of32_finite in Hf. rewrite unpack_f32_rv by exact Hf.
    destruct (of_bits32 z) as [s|s| |s m e]; try discriminate Hf.
    + unfold rv, SF2R. rewrite Rabs_R0. apply bpow_ge_0.
    + apply Rlt_le. now apply valid32_format.
Qed.

(** Reading 12 bytes: W is recomputed, and never negative. *)
Lemma quat_read_w a b c x y z :
  unpack_data a (Some MVT_F32) (-1) (-1) None = Ok (VFloat x) ->
  unpack_data b (Some MVT_F32) (-1) (-1) None = Ok (VFloat y) ->
  unpack_data c (Some MVT_F32) (-1) (-1) None = Ok (VFloat z) ->
  exists w, unpack_data (a ++ b ++ c) (Some MVT_LLQuaternion) (-1) (-1) None = Ok (VQuat x y z w) /\    valid64 w = true /\ finite_float w /\ sign_SF w = false /\    (finite_float x /\ finite_float y /\ finite_float z ->
      ((0 < w_square (rv x) (rv y) (rv z))%R -> rv w = rn64 (sqrt (w_square (rv x) (rv y) (rv z)))) /\      ((w_square (rv x) (rv y) (rv z) <= 0)%R -> rv w = 0%R)) /\    (~ (finite_float x /\ finite_float y /\ finite_float z) -> rv w = 0%R).
Proof.
  intros Ha Hb Hc. exists (quat_w x y z). split; [now apply quat_read12|].
  destruct (f32_value_bound _ _ _ Ha) as [Vx Bx]. destruct (f32_value_bound _ _ _ Hb) as [Vy By].
  destruct (f32_value_bound _ _ _ Hc) as [Vz Bz].
  assert (D : (finite_float x /\ finite_float y /\ finite_float z) \/ ~ (finite_float x /\ finite_float y /\ finite_float z)).
  { rewrite !finite_SF. destruct (is_finite_SF x), (is_finite_SF y), (is_finite_SF z); intuition congruence. }
  destruct D as [(Fx & Fy & Fz)|D].
  - assert (Gx : fin64 x) by (split; [exact Vx|now apply finite_SF]).
    assert (Gy : fin64 y) by (split; [exact Vy|now apply finite_SF]).
    assert (Gz : fin64 z) by (split; [exact Vz|now apply finite_SF]).
    destruct (quat_w_finite x y z Gx Gy Gz (Bx Fx) (By Fy) (Bz Fz)) as ([W1 W2] & W3 & W4 & W5).
    split; [exact W1|]. split; [now apply finite_SF|]. split; [exact W3|]. split; [auto|]. intros N. exfalso. auto.
  - rewrite (quat_w_bad x y z Vx Vy Vz D). repeat split; try reflexivity. all: intros; exfalso; auto.
Qed.
Lemma quat_read_short b et : zlen b < 12 ->
  unpack_data b (Some MVT_LLQuaternion) (-1) (-1) et = Err DataUnpackingErr.
Proof.
  intros Hl. rewrite unpack_whole. cbv [unpack_raw unpacker_table quat_unpack].
  assert (H : forall i, 0 <= i -> (exists f, unpack_float LE false (pyslice b i (i + 4)) = Ok f /\ i + 4 <= zlen b) \/
     unpack_float LE false (pyslice b i (i + 4)) = Err StructError).
  { intros i Hi. unfold unpack_float. pose proof (pyslice_length b i (i + 4) ltac:(lia)) as E.
    destruct (Nat.eqb_spec (List.length (pyslice b i (i + 4))) 4); [|right; reflexivity].
    left. eexists. split; [reflexivity|]. unfold zlen in *. lia. }
  change (0 + 8) with ((0 + 4) + 4) at 1. change (0 + 12) with ((0 + 8) + 4) at 1.
  destruct (H 0 ltac:(lia)) as [(f & -> & L0)| ->]; [|reflexivity]. cbn [bind].
  destruct (H (0 + 4) ltac:(lia)) as [(f1 & -> & L1)| ->]; [|reflexivity]. cbn [bind].
  destruct (H (0 + 8) ltac:(lia)) as [(f2 & E2 & L2)|E2]; [exfalso; lia|].
  rewrite E2. reflexivity.
Qed.
