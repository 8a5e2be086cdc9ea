(** Proofs about Vector3 and Quaternion objects and packed floats: C64, C67. *)
From Coq Require Import Reals Lra.
From Flocq Require Import Core BinarySingleNaN.
From Verif Require Import Objects Packer Lib SpecCodec SpecFloats SpecObjects CodecProofs FloatProofs FloatRound FloatField.
Open Scope Z_scope.

(** ** Bytes *)
Lemma written_pack f b : written_f32 f b <-> pack_float LE false f = Ok b.
Proof.
  unfold written_f32. rewrite pack_f32_data. cbn [order]. unfold pack_float.
  destruct (pack_f32 f); cbn; split; congruence.
Qed.
Lemma read_unpack f b : read_f32 f b <-> unpack_float LE false b = Ok f.
Proof.
  unfold read_f32. rewrite unpack_whole. cbv [unpack_raw unpacker_table unpack_float].
  destruct (Nat.eqb (List.length b) 4); cbn; split; congruence.
Qed.
Lemma written_len f b : written_f32 f b -> zlen b = 4.
Proof.
  rewrite written_pack. unfold pack_float. destruct (pack_f32 f); cbn; intros H; [|easy].
  injection H as <-. apply (zlen_enc LE 4).
Qed.
Lemma read_len f b : read_f32 f b -> zlen b = 4.
Proof.
  rewrite read_unpack. unfold unpack_float. destruct (Nat.eqb_spec (List.length b) 4) as [E|E]; [|easy].
  intros _. unfold zlen. lia.
Qed.
Lemma vec3_bytes x y z s : vec3_get_bytes x y z = Ok s <->
  exists a b c, written_f32 x a /\ written_f32 y b /\ written_f32 z c /\ s = a ++ b ++ c.
Proof.
  unfold vec3_get_bytes. setoid_rewrite written_pack.
  destruct (pack_float LE false x) as [a|]; cbn [bind]; [|split; [discriminate|intros (a & b & c & H & _); discriminate]].
  destruct (pack_float LE false y) as [b|]; cbn [bind]; [|split; [discriminate|intros (a' & b & c & _ & H & _); discriminate]].
  destruct (pack_float LE false z) as [c|]; cbn [bind]; [|split; [discriminate|intros (a' & b' & c & _ & _ & H & _); discriminate]].
  split; [intros [= <-]; eauto 8|]. intros (a' & b' & c' & [= <-] & [= <-] & [= <-] & ->). reflexivity.
Qed.
Lemma quat_bytes x y z w s : quat_get_bytes x y z w = Ok s <->
  exists a b c d, written_f32 x a /\ written_f32 y b /\ written_f32 z c /\ written_f32 w d /\ s = a ++ b ++ c ++ d.
Proof.
  unfold quat_get_bytes. setoid_rewrite written_pack.
  destruct (pack_float LE false x) as [a|]; cbn [bind]; [|split; [discriminate|intros (a & b & c & d & H & _); discriminate]].
  destruct (pack_float LE false y) as [b|]; cbn [bind]; [|split; [discriminate|intros (a' & b & c & d & _ & H & _); discriminate]].
  destruct (pack_float LE false z) as [c|]; cbn [bind]; [|split; [discriminate|intros (a' & b' & c & d & _ & _ & H & _); discriminate]].
  destruct (pack_float LE false w) as [d|]; cbn [bind]; [|split; [discriminate|intros (a' & b' & c' & d & _ & _ & _ & H & _); discriminate]].
  split; [intros [= <-]; eauto 10|]. intros (a' & b' & c' & d' & [= <-] & [= <-] & [= <-] & [= <-] & ->). reflexivity.
Qed.
Lemma slice_at (pre b post : bytes) i j : i = zlen pre -> j = zlen pre + zlen b -> pyslice (pre ++ b ++ post) i j = b.
Proof. intros -> ->. now apply pyslice_mid. Qed.
Lemma vec3_read txt pre a b c post x y z vx vy vz : read_f32 x a -> read_f32 y b -> read_f32 z c ->
  vec3_new txt (Some (pre ++ (a ++ b ++ c) ++ post)) (zlen pre) vx vy vz = Ok (x, y, z).
Proof.
  intros Ha Hb Hc. pose proof (read_len _ _ Ha) as La. pose proof (read_len _ _ Hb) as Lb. pose proof (read_len _ _ Hc) as Lc.
  rewrite read_unpack in *. cbn [vec3_new]. unfold vec3_unpack.
  assert (E1 : pyslice (pre ++ (a ++ b ++ c) ++ post) (zlen pre) (zlen pre + 4) = a).
  { rewrite <- !app_assoc. apply slice_at; lia. }
  assert (E2 : pyslice (pre ++ (a ++ b ++ c) ++ post) (zlen pre + 4) (zlen pre + 8) = b).
  { replace (pre ++ (a ++ b ++ c) ++ post) with ((pre ++ a) ++ b ++ (c ++ post)) by now rewrite <- !app_assoc.
    apply slice_at; rewrite zlen_app; lia. }
  assert (E3 : pyslice (pre ++ (a ++ b ++ c) ++ post) (zlen pre + 8) (zlen pre + 12) = c).
  { replace (pre ++ (a ++ b ++ c) ++ post) with ((pre ++ a ++ b) ++ c ++ post) by now rewrite <- !app_assoc.
    apply slice_at; rewrite !zlen_app; lia. }
  rewrite E1, Ha. cbn [bind]. rewrite E2, Hb. cbn [bind]. rewrite E3, Hc. reflexivity.
Qed.
Lemma quat_read txt pre a b c d post x y z w vx vy vz vw :
  read_f32 x a -> read_f32 y b -> read_f32 z c -> read_f32 w d ->
  quat_new txt (Some (pre ++ (a ++ b ++ c ++ d) ++ post)) (zlen pre) vx vy vz vw = Ok (x, y, z, w).
Proof.
  intros Ha Hb Hc Hd. pose proof (read_len _ _ Ha) as La. pose proof (read_len _ _ Hb) as Lb. pose proof (read_len _ _ Hc) as Lc.
  pose proof (read_len _ _ Hd) as Ld.
  rewrite read_unpack in *. cbn [quat_new]. unfold quat_unpack.
  assert (E1 : pyslice (pre ++ (a ++ b ++ c ++ d) ++ post) (zlen pre) (zlen pre + 4) = a).
  { rewrite <- !app_assoc. apply slice_at; lia. }
  assert (E2 : pyslice (pre ++ (a ++ b ++ c ++ d) ++ post) (zlen pre + 4) (zlen pre + 8) = b).
  { replace (pre ++ (a ++ b ++ c ++ d) ++ post) with ((pre ++ a) ++ b ++ (c ++ d ++ post)) by now rewrite <- !app_assoc.
    apply slice_at; rewrite zlen_app; lia. }
  assert (E3 : pyslice (pre ++ (a ++ b ++ c ++ d) ++ post) (zlen pre + 8) (zlen pre + 12) = c).
  { replace (pre ++ (a ++ b ++ c ++ d) ++ post) with ((pre ++ a ++ b) ++ c ++ d ++ post) by now rewrite <- !app_assoc.
    apply slice_at; rewrite !zlen_app; lia. }
  assert (E4 : pyslice (pre ++ (a ++ b ++ c ++ d) ++ post) (zlen pre + 12) (zlen pre + 16) = d).
  { replace (pre ++ (a ++ b ++ c ++ d) ++ post) with ((pre ++ a ++ b ++ c) ++ d ++ post) by now rewrite <- !app_assoc.
    apply slice_at; rewrite !zlen_app; lia. }
  rewrite E1, Ha. cbn [bind]. rewrite E2, Hb. cbn [bind]. rewrite E3, Hc. cbn [bind]. rewrite E4, Hd. reflexivity.
Qed.
Lemma unpack_short (pre s : bytes) i : 0 <= i -> zlen s < i + 4 ->
  unpack_float LE false (pyslice (pre ++ s) (zlen pre + i) (zlen pre + i + 4)) = Err StructError.
Proof.
  intros Hi Hs. unfold unpack_float.
  destruct (Nat.eqb_spec (List.length (pyslice (pre ++ s) (zlen pre + i) (zlen pre + i + 4))) 4) as [E|E]; [|reflexivity].
  exfalso. pose proof (zlen_nonneg pre). rewrite pyslice_pos in E by lia.
  rewrite firstn_length, skipn_length, app_length in E. unfold zlen in *. lia.
Qed.
Lemma unpack_any (b : bytes) : (exists f, unpack_float LE false b = Ok f) \/ unpack_float LE false b = Err StructError.
Proof. unfold unpack_float. destruct (Nat.eqb _ _); eauto. Qed.
Lemma vec3_short txt pre s vx vy vz : zlen s < 12 ->
  vec3_new txt (Some (pre ++ s)) (zlen pre) vx vy vz = Err StructError.
Proof.
  intros H. cbn [vec3_new]. unfold vec3_unpack.
  destruct (unpack_any (pyslice (pre ++ s) (zlen pre) (zlen pre + 4))) as [[f ->]| ->]; [|reflexivity]. cbn [bind].
  destruct (unpack_any (pyslice (pre ++ s) (zlen pre + 4) (zlen pre + 8))) as [[g ->]| ->]; [|reflexivity]. cbn [bind].
  replace (zlen pre + 12) with (zlen pre + 8 + 4) by lia. now rewrite unpack_short by lia.
Qed.
Lemma quat_short txt pre s vx vy vz vw : zlen s < 12 ->
  quat_new txt (Some (pre ++ s)) (zlen pre) vx vy vz vw = Err StructError.
Proof.
  intros H. cbn [quat_new]. unfold quat_unpack.
  destruct (unpack_any (pyslice (pre ++ s) (zlen pre) (zlen pre + 4))) as [[f ->]| ->]; [|reflexivity]. cbn [bind].
  destruct (unpack_any (pyslice (pre ++ s) (zlen pre + 4) (zlen pre + 8))) as [[g ->]| ->]; [|reflexivity]. cbn [bind].
  replace (zlen pre + 12) with (zlen pre + 8 + 4) by lia. now rewrite unpack_short by lia.
Qed.
(** Twelve bytes without a NaN survive being read and written. *)
Lemma read_written f b : read_f32 f b -> f <> S754_nan -> written_f32 f b.
Proof.
  intros H Hn. destruct (f32_pattern Py27 b None (read_len _ _ H)) as (g & E & _ & _ & W).
  unfold read_f32 in H. rewrite E in H. injection H as ->. exact (W Hn).
Qed.
Lemma read_exists b : zlen b = 4 -> exists f, read_f32 f b.
Proof. intros H. destruct (f32_pattern Py27 b None H) as (g & E & _). exists g. exact E. Qed.

(** ** dist_squared *)
Lemma round_aux_opp prec emax s m e l :
  binary_round_aux prec emax (negb s) m e l = opposite (binary_round_aux prec emax s m e l).
Proof.
  unfold binary_round_aux. destruct (shr_fexp _ _ _ _ _) as [mrs e']. destruct (shr_fexp _ _ _ _ _) as [mrs' e''].
  destruct (shr_m mrs'); try reflexivity. destruct (_ <=? _); reflexivity.
Qed.
Lemma round_opp prec emax s m e : binary_round prec emax (negb s) m e = opposite (binary_round prec emax s m e).
Proof. unfold binary_round. destruct (shl_align _ _ _). apply round_aux_opp. Qed.
Lemma sq_opp x : fmul (opposite x) (opposite x) = fmul x x.
Proof. destruct x as [s|s| |s m e]; cbn; auto; destruct s; reflexivity. Qed.
Lemma cond_sub s a b : cond_Zopp s a - b = - (b - cond_Zopp s a). Proof. lia. Qed.
Lemma fsub_swap x y : fmul (fsub x y) (fsub x y) = fmul (fsub y x) (fsub y x).
Proof.
  destruct x as [s|s| |s m e], y as [s'|s'| |s' m' e'];
    try (destruct s, s'; reflexivity); try (destruct s; reflexivity); try (destruct s'; reflexivity); try reflexivity.
  - unfold fsub, SFsub. rewrite (Z.min_comm e' e). set (k := Z.min e e').
    set (a := cond_Zopp s _). set (b := cond_Zopp s' _).
    replace (b - a) with (- (a - b)) by lia.
    destruct (a - b) as [|p|p]; cbn [Z.opp SpecFloat.binary_normalize]; auto.
    + change true with (negb false) at 1 2. rewrite round_opp. symmetry. apply sq_opp.
    + change true with (negb false). rewrite round_opp. apply sq_opp.
Qed.
Lemma dist_sym a b : dist_squared a b = dist_squared b a.
Proof.
  destruct a as [[ax ay] az], b as [[bx b_y] bz]. unfold dist_squared.
  now rewrite (fsub_swap ax bx), (fsub_swap ay b_y), (fsub_swap az bz).
Qed.

Lemma fsub_valid x y : valid64 x = true -> valid64 y = true -> valid64 (fsub x y) = true.
Proof.
  rewrite !valid64_binary. intros Hx Hy.
  rewrite <- (B2SF_SF2B 53 1024 x Hx), <- (B2SF_SF2B 53 1024 y Hy). rewrite sfsub_b. apply valid_binary_B2SF.
Qed.
Lemma dist_nonneg a b : valid3 a -> valid3 b -> positive_or_zero (dist_squared a b) \/ dist_squared a b = S754_nan.
Proof.
  destruct a as [[ax ay] az], b as [[bx b_y] bz]. intros (A1 & A2 & A3) (B1 & B2 & B3). unfold dist_squared.
  pose proof (sq_nonneg _ (fsub_valid _ _ A1 B1)) as N1. pose proof (sq_nonneg _ (fsub_valid _ _ A2 B2)) as N2.
  pose proof (sq_nonneg _ (fsub_valid _ _ A3 B3)) as N3.
  destruct (add_nonneg _ _ N1 N2) as [N4 _]. destruct (add_nonneg _ _ N4 N3) as [N5 _].
  destruct N5 as [[->| ->]|[F S]]; [left; exact I|auto|left].
  match type of F with is_finite_SF ?t = _ => set (d := t) in * end. clearbody d.
  destruct d as [s|s| |s m e]; try discriminate F; cbn in S; subst; exact I.
Qed.

Lemma fin_fin64 f : valid64 f = true -> finite_float f -> fin64 f.
Proof. intros V F. split; [exact V|now apply finite_SF]. Qed.
Lemma fsub_self x : valid64 x = true -> finite_float x -> fsub x x = S754_zero false.
Proof.
  intros V F. destruct x as [s|s| |s m e]; try easy; [destruct s; reflexivity|].
  unfold fsub, SFsub. now rewrite Z.sub_diag.
Qed.
Lemma dist_self a : valid3 a -> finite3 a -> dist_squared a a = S754_zero false.
Proof.
  destruct a as [[x y] z]. intros (A & B & C) (D & E & F). unfold dist_squared.
  now rewrite !fsub_self by assumption.
Qed.
Lemma moderate_fin k f : moderate k f -> fin64 f. Proof. intros (V & F & _). now apply fin_fin64. Qed.
Lemma diff_bound k x y : moderate k x -> moderate k y -> (Rabs (rv x - rv y) <= bpow radix2 (k + 1))%R.
Proof.
  intros (_ & _ & Hx) (_ & _ & Hy). replace (rv x - rv y)%R with (rv x + - rv y)%R by lra.
  apply abs_add_bound; [exact Hx|now rewrite Rabs_Ropp].
Qed.
Lemma diff_sq k x y : 0 <= k <= 509 -> moderate k x -> moderate k y ->
  let d := fsub x y in fin64 (fmul d d) /\ rv (fmul d d) = rounded_square (rv x - rv y) /\
  (Rabs (rv (fmul d d)) <= bpow radix2 1020)%R.
Proof.
  intros Hk Hx Hy d. pose proof (diff_bound k x y Hx Hy) as Hb.
  destruct (fsub_fin x y (k + 1)) as [F R]; [lia|eapply moderate_fin; eauto..|exact Hb|]. fold d in F, R.
  assert (Hd : (Rabs (rv d) <= bpow radix2 510)%R).
  { rewrite R. apply rn64_bound; [lia|]. eapply Rle_trans; [exact Hb|]. apply bpow_le. lia. }
  assert (Hs : (Rabs (rv d * rv d) <= bpow radix2 1020)%R).
  { rewrite Rabs_mult. change 1020 with (510 + 510). rewrite bpow_plus. apply Rmult_le_compat; auto; apply Rabs_pos. }
  destruct (fmul_fin d d 1020) as [F' R']; auto; [lia|]. split; [exact F'|].
  split; [rewrite R', R; reflexivity|]. rewrite R'. apply rn64_bound; [lia|exact Hs].
Qed.
Lemma dist_value k a b : 0 <= k <= 509 -> moderate3 k a -> moderate3 k b ->
  fin64 (dist_squared a b) /\ rv (dist_squared a b) = rounded_sum (differences a b).
Proof.
  intros Hk. destruct a as [[ax ay] az], b as [[bx b_y] bz]. intros (A1 & A2 & A3) (B1 & B2 & B3).
  destruct (diff_sq k ax bx Hk A1 B1) as (F1 & R1 & L1). destruct (diff_sq k ay b_y Hk A2 B2) as (F2 & R2 & L2).
  destruct (diff_sq k az bz Hk A3 B3) as (F3 & R3 & L3). unfold dist_squared.
  destruct (fadd_fin _ _ 1021 ltac:(lia) F1 F2) as [F4 R4].
  { apply (abs_add_bound _ _ 1020); assumption. }
  assert (L4 : (Rabs (rv (fadd (fmul (fsub ax bx) (fsub ax bx)) (fmul (fsub ay b_y) (fsub ay b_y)))) <= bpow radix2 1021)%R).
  { rewrite R4. apply rn64_bound; [lia|]. apply (abs_add_bound _ _ 1020); assumption. }
  destruct (fadd_fin _ _ 1022 ltac:(lia) F4 F3) as [F5 R5].
  { apply (abs_add_bound _ _ 1021); [exact L4|]. eapply Rle_trans; [exact L3|]. apply bpow_le. lia. }
  split; [exact F5|]. rewrite R5, R4, R1, R2, R3. reflexivity.
Qed.

(** monotone *)
Lemma rn64_le x y : (x <= y)%R -> (rn64 x <= rn64 y)%R.
Proof. intros H. unfold rn64. apply round_le; auto. - apply FLT_exp_valid. reflexivity. - apply valid_rnd_N. Qed.
Lemma rn64_0 : rn64 0 = 0%R. Proof. apply round_0. apply valid_rnd_N. Qed.
Lemma rn64_abs x : rn64 (Rabs x) = Rabs (rn64 x).
Proof.
  unfold rn64. destruct (Rcase_abs x) as [H|H].
  - rewrite (Rabs_left x H). rewrite round_NE_opp. symmetry. apply Rabs_left1. rewrite <- rn64_0. apply rn64_le. lra.
  - rewrite (Rabs_right x H). symmetry. apply Rabs_pos_eq. rewrite <- rn64_0. apply rn64_le. lra.
Qed.
Lemma rounded_square_mono d d' : (Rabs d <= Rabs d')%R -> (0 <= rounded_square d <= rounded_square d')%R.
Proof.
  intros H. unfold rounded_square.
  assert (S : forall x, (rn64 x * rn64 x = Rabs (rn64 x) * Rabs (rn64 x))%R).
  { intros x. rewrite <- Rabs_mult. symmetry. apply Rabs_pos_eq. apply Rle_0_sqr. }
  split.
  - rewrite <- rn64_0 at 1. apply rn64_le. apply Rle_0_sqr.
  - apply rn64_le. rewrite !S, <- !rn64_abs.
    assert (0 <= rn64 (Rabs d))%R by (rewrite <- rn64_0; apply rn64_le; apply Rabs_pos).
    pose proof (rn64_le _ _ H). now apply Rmult_le_compat.
Qed.
Lemma rounded_sum_mono dx dy dz dx' dy' dz' :
  (Rabs dx <= Rabs dx')%R -> (Rabs dy <= Rabs dy')%R -> (Rabs dz <= Rabs dz')%R ->
  (rounded_sum (dx, dy, dz) <= rounded_sum (dx', dy', dz'))%R.
Proof.
  intros Hx Hy Hz. apply rounded_square_mono in Hx, Hy, Hz. unfold rounded_sum.
  apply rn64_le. apply Rplus_le_compat; [|lra]. apply rn64_le. lra.
Qed.

(** ** float(n) *)
Notation B := (binary_float 53 1024).
Lemma float_of_int_norm n : float_of_int n =
  match SpecFloat.binary_normalize 53 1024 n 0 false with S754_infinity _ => Err OverflowErr | f => Ok f end.
Proof. destruct n; reflexivity. Qed.
Lemma float_of_int_rv n :
  ((Rabs (rn64 (IZR n)) < bpow radix2 1024)%R ->
   exists f, float_of_int n = Ok f /\ fin64 f /\ rv f = rn64 (IZR n)) /\
  ((bpow radix2 1024 <= Rabs (rn64 (IZR n)))%R -> float_of_int n = Err OverflowErr).
Proof.
  rewrite float_of_int_norm, normalize_equiv.
  pose proof (binary_normalize_correct 53 1024 Hp64 Hm64 mode_NE n 0 false) as H. cbv zeta in H.
  assert (E : F2R (Float radix2 n 0) = IZR n) by (unfold F2R; cbn; lra). rewrite E in H.
  change (round radix2 (SpecFloat.fexp 53 1024) (round_mode mode_NE) (IZR n)) with (rn64 (IZR n)) in H.
  set (b := BinarySingleNaN.binary_normalize 53 1024 Hp64 Hm64 mode_NE n 0 false) in *.
  split; intros Hb.
  - rewrite Rlt_bool_true in H by exact Hb. destruct H as (H1 & H2 & _).
    exists (B2SF b). split; [|split; [now apply b_fin64|now rewrite rv_b]].
    destruct b; try reflexivity; discriminate.
  - rewrite Rlt_bool_false in H by exact Hb. rewrite H. reflexivity.
Qed.
Lemma float_of_int_sign n f : float_of_int n = Ok f -> sign_SF f = (n <? 0).
Proof.
  rewrite float_of_int_norm, normalize_equiv.
  pose proof (binary_normalize_correct 53 1024 Hp64 Hm64 mode_NE n 0 false) as H. cbv zeta in H.
  assert (E : F2R (Float radix2 n 0) = IZR n) by (unfold F2R; cbn; lra). rewrite E in H.
  set (b := BinarySingleNaN.binary_normalize 53 1024 Hp64 Hm64 mode_NE n 0 false) in *.
  destruct (Rlt_bool _ _) in H.
  - destruct H as (_ & F & S). intros X.
    assert (B2SF b = f) as <- by (destruct b; try discriminate; injection X as <-; reflexivity).
    transitivity (Bsign b); [now destruct b|]. rewrite S.
    destruct (Rcompare_spec (IZR n) 0) as [C|C|C].
    + apply lt_IZR in C. symmetry. lia.
    + apply eq_IZR in C. subst. reflexivity.
    + apply lt_IZR in C. symmetry. lia.
  - rewrite H. discriminate.
Qed.
Lemma int_format z : Z.abs z <= 2 ^ 53 -> rn64 (IZR z) = IZR z.
Proof.
  intros H. unfold rn64. apply round_generic; [apply valid_rnd_N|].
  destruct (Z.eq_dec (Z.abs z) (2 ^ 53)) as [E|E].
  - assert (IZR z = bpow radix2 53 \/ IZR z = (- bpow radix2 53)%R) as [G|G].
    { change (bpow radix2 53) with (IZR (2 ^ 53)). rewrite <- opp_IZR.
      destruct (Z.abs_spec z) as [[_ A]|[_ A]]; [left|right]; f_equal; lia. }
    + rewrite G. apply generic_format_bpow. unfold FLT_exp. lia.
    + rewrite G. apply generic_format_opp, generic_format_bpow. unfold FLT_exp. lia.
  - apply generic_format_FLT. exists (Float radix2 z 0); cbn [Fnum Fexp]; [unfold F2R; cbn; lra|cbn; lia|lia].
Qed.
Lemma rn64_int_nonzero n : n <> 0 -> rn64 (IZR n) <> 0%R.
Proof.
  intros N Z. assert (1 <= Rabs (IZR n))%R as A by (rewrite <- abs_IZR; apply IZR_le; lia).
  apply rn64_le in A. rewrite rn64_abs, Z, Rabs_R0 in A.
  replace (rn64 1) with 1%R in A; [lra|]. symmetry. apply (int_format 1). lia.
Qed.
Lemma float_of_small n : Z.abs n <= 2 ^ 53 -> exists f, float_of_int n = Ok f /\ fin64 f /\ rv f = IZR n.
Proof.
  intros H. destruct (float_of_int_rv n) as [G _]. rewrite int_format in G by exact H. apply G.
  rewrite <- abs_IZR. apply Rle_lt_trans with (IZR (2 ^ 53)); [now apply IZR_le|].
  change (IZR (2 ^ 53)) with (bpow radix2 53). now apply bpow_lt.
Qed.

Lemma py_float_number txt v : a_number v ->
  (~ too_big v -> exists f, py_float txt v = Ok f /\ coordinate v f) /\
  (too_big v -> py_float txt v = Err OverflowErr).
Proof.
  intros [[f ->]|[n Hn]].
  - split; [intros _; exists f; split; [reflexivity|now left]|]. intros (n & Hn & _). discriminate.
  - assert (E : py_float txt v = float_of_int n) by (destruct v; try discriminate Hn; cbn in Hn; injection Hn as <-; reflexivity).
    rewrite E. destruct (float_of_int_rv n) as [H1 H2]. split.
    + intros Hb. destruct (Rlt_le_dec (Rabs (rn64 (IZR n))) (bpow radix2 1024)) as [L|L].
      * destruct (H1 L) as (f & Ef & [V F] & R). exists f. split; [exact Ef|]. right. exists n.
        repeat split; auto. now apply finite_SF.
      * exfalso. apply Hb. exists n. auto.
    + intros (m & Hm & L). rewrite Hn in Hm. injection Hm as <-. auto.
Qed.
Lemma py_float_dec txt v : a_number v -> (exists f, py_float txt v = Ok f /\ coordinate v f /\ ~ too_big v) \/
  (too_big v /\ py_float txt v = Err OverflowErr).
Proof.
  intros H. destruct (py_float_number txt v H) as [A C].
  destruct H as [[f ->]|[n Hn]].
  - left. exists f. split; [reflexivity|]. split; [now left|]. intros (n & Hn & _). discriminate.
  - destruct (Rlt_le_dec (Rabs (rn64 (IZR n))) (bpow radix2 1024)) as [L|L].
    + assert (N : ~ too_big v).
      { intros (m & Hm & L'). rewrite Hn in Hm. injection Hm as <-. lra. }
      destruct (A N) as (f & E & F). left. eauto.
    + right. assert (too_big v) by (exists n; auto). auto.
Qed.
Lemma vec3_coordinates txt a b c : a_number a -> a_number b -> a_number c ->
  (~ too_big a -> ~ too_big b -> ~ too_big c -> exists x y z,
     vec3_new txt None 0 a b c = Ok (x, y, z) /\ coordinate a x /\ coordinate b y /\ coordinate c z) /\
  (too_big a \/ too_big b \/ too_big c -> vec3_new txt None 0 a b c = Err OverflowErr).
Proof.
  intros Ha Hb Hc. cbn [vec3_new].
  destruct (py_float_dec txt a Ha) as [(x & -> & Cx & Na)|[Ta ->]]; cbn [bind]; [|split; [easy|auto]].
  destruct (py_float_dec txt b Hb) as [(y & -> & Cy & Nb)|[Tb ->]]; cbn [bind]; [|split; [easy|auto]].
  destruct (py_float_dec txt c Hc) as [(z & -> & Cz & Nc)|[Tc ->]]; cbn [bind]; [|split; [easy|auto]].
  split; [intros _ _ _; exists x, y, z; auto|]. tauto.
Qed.
Lemma py_float_other txt v : ~ a_number v -> ~ a_text v -> py_float txt v = Err TypeErr.
Proof.
  unfold a_number, a_text. intros N T. destruct v; try reflexivity.
  - destruct N. right. eexists. reflexivity.
  - destruct N. right. eexists. reflexivity.
  - destruct T. left. eexists. reflexivity.
  - destruct T. right. eexists. reflexivity.
  - destruct N. left. eexists. reflexivity.
Qed.
(** a number that fits, or neither number nor text *)
Lemma py_float_either txt v : (a_number v /\ ~ too_big v) \/ (~ a_number v /\ ~ a_text v) ->
  (exists f, py_float txt v = Ok f /\ a_number v) \/ (py_float txt v = Err TypeErr /\ ~ a_number v).
Proof.
  intros [[N B]|[N T]].
  - destruct (py_float_number txt v N) as [A _]. destruct (A B) as (f & E & _). eauto.
  - right. split; [now apply py_float_other|exact N].
Qed.
Lemma vec3_other txt o a b c :
  Forall (fun v => (a_number v /\ ~ too_big v) \/ (~ a_number v /\ ~ a_text v)) [a; b; c] ->
  Exists (fun v => ~ a_number v) [a; b; c] -> vec3_new txt None o a b c = Err TypeErr.
Proof.
  intros F X. inversion F as [|? ? Ha F1]; subst. inversion F1 as [|? ? Hb F2]; subst. inversion F2 as [|? ? Hc _]; subst.
  cbn [vec3_new].
  destruct (py_float_either txt a Ha) as [(x & -> & Na)|[-> _]]; cbn [bind]; [|reflexivity].
  destruct (py_float_either txt b Hb) as [(y & -> & Nb)|[-> _]]; cbn [bind]; [|reflexivity].
  destruct (py_float_either txt c Hc) as [(z & -> & Nc)|[-> _]]; cbn [bind]; [|reflexivity].
  repeat (inversion X as [? ? X0|? ? X0]; subst; clear X; [contradiction|rename X0 into X]). inversion X.
Qed.
Lemma quat_other txt o a b c d :
  Forall (fun v => (a_number v /\ ~ too_big v) \/ (~ a_number v /\ ~ a_text v)) [a; b; c; d] ->
  Exists (fun v => ~ a_number v) [a; b; c; d] -> quat_new txt None o a b c d = Err TypeErr.
Proof.
  intros F X. inversion F as [|? ? Ha F1]; subst. inversion F1 as [|? ? Hb F2]; subst. inversion F2 as [|? ? Hc F3]; subst.
  inversion F3 as [|? ? Hd _]; subst. cbn [quat_new].
  destruct (py_float_either txt a Ha) as [(x & -> & Na)|[-> _]]; cbn [bind]; [|reflexivity].
  destruct (py_float_either txt b Hb) as [(y & -> & Nb)|[-> _]]; cbn [bind]; [|reflexivity].
  destruct (py_float_either txt c Hc) as [(z & -> & Nc)|[-> _]]; cbn [bind]; [|reflexivity].
  destruct (py_float_either txt d Hd) as [(w & -> & Nd)|[-> _]]; cbn [bind]; [|reflexivity].
  repeat (inversion X as [? ? X0|? ? X0]; subst; clear X; [contradiction|rename X0 into X]). inversion X.
Qed.
Lemma quat_coordinates txt a b c d : a_number a -> a_number b -> a_number c -> a_number d ->
  (~ too_big a -> ~ too_big b -> ~ too_big c -> ~ too_big d -> exists x y z w,
     quat_new txt None 0 a b c d = Ok (x, y, z, w) /\
     coordinate a x /\ coordinate b y /\ coordinate c z /\ coordinate d w) /\
  (too_big a \/ too_big b \/ too_big c \/ too_big d -> quat_new txt None 0 a b c d = Err OverflowErr).
Proof.
  intros Ha Hb Hc Hd. cbn [quat_new].
  destruct (py_float_dec txt a Ha) as [(x & -> & Cx & Na)|[Ta ->]]; cbn [bind]; [|split; [easy|auto]].
  destruct (py_float_dec txt b Hb) as [(y & -> & Cy & Nb)|[Tb ->]]; cbn [bind]; [|split; [easy|auto]].
  destruct (py_float_dec txt c Hc) as [(z & -> & Cz & Nc)|[Tc ->]]; cbn [bind]; [|split; [easy|auto]].
  destruct (py_float_dec txt d Hd) as [(w & -> & Cw & Nd)|[Td ->]]; cbn [bind]; [|split; [easy|auto]].
  split; [intros _ _ _ _; exists x, y, z, w; auto|]. tauto.
Qed.

(** ** Division, absolute value, comparison *)
Lemma sfdiv_b (x y : B) : fdiv (B2SF x) (B2SF y) = B2SF (Bdiv mode_NE x y).
Proof.
  unfold fdiv. case x as [sx|sx| |sx mx ex Bx]; case y as [sy|sy| |sy my ey By]; [now trivial..|].
  simpl. rewrite B2SF_SF2B. set (melz := SFdiv_core_binary _ _ _ _ _ _). case melz as [[mz ez] lz].
  apply binary_round_aux_equiv.
Qed.
Lemma fdiv_fin x y k : -1074 <= k < 1024 -> fin64 x -> fin64 y -> rv y <> 0%R ->
  (Rabs (rv x / rv y) <= bpow radix2 k)%R -> fin64 (fdiv x y) /\ rv (fdiv x y) = rn64 (rv x / rv y).
Proof.
  intros Hk Hx Hy Hn Hb. destruct (fin64_b x Hx) as (bx & <- & Fx & Rx).
  destruct (fin64_b y Hy) as (b2 & <- & Fy & Ry). rewrite <- Rx, <- Ry in *.
  rewrite sfdiv_b. pose proof (Bdiv_correct 53 1024 Hp64 Hm64 mode_NE bx b2 Hn) as H.
  change (round radix2 (SpecFloat.fexp 53 1024) (round_mode mode_NE) (B2R bx / B2R b2)) with
    (rn64 (B2R bx / B2R b2)) in H.
  rewrite (small_lt _ k) in H; [|lia|apply rn64_bound; [lia|exact Hb]].
  destruct H as (H1 & H2 & _). rewrite Fx in H2.
  split; [now apply b_fin64|]. now rewrite rv_b.
Qed.
Lemma fltb_fin x y : fin64 x -> fin64 y -> SFltb x y = Rlt_bool (rv x) (rv y).
Proof.
  intros Hx Hy. destruct (fin64_b x Hx) as (bx & <- & Fx & Rx). destruct (fin64_b y Hy) as (b2 & <- & Fy & Ry).
  rewrite <- Rx, <- Ry. exact (Bltb_correct 53 1024 bx b2 Fx Fy).
Qed.
Lemma fabs_fin x : fin64 x -> fin64 (fabs x) /\ rv (fabs x) = Rabs (rv x).
Proof.
  intros [V F]. destruct x as [s|s| |s m e]; try discriminate F.
  - split; [split; reflexivity|]. cbn. now rewrite Rabs_R0.
  - split; [split; auto|]. unfold rv, SF2R, fabs, SFabs. rewrite <- F2R_Zabs. f_equal. now destruct s.
Qed.
Lemma fin64_finite f : fin64 f -> valid64 f = true /\ finite_float f.
Proof. intros [V F]. split; [exact V|now apply finite_SF]. Qed.

(** ** Packed floats *)
Lemma one_again wide : match float_of_int (code_max wide) with Ok f => fmul f (fdiv fone f) = fone | Err _ => False end.
Proof. destruct wide; vm_compute; reflexivity. Qed.
Section Packed.
  Variable wide : bool.
  Notation M := (code_max wide).
  Lemma M_range : 255 <= M <= 65535. Proof. destruct wide; cbn; lia. Qed.
  Lemma unpack_code_def s o lo hi : unpack_code wide s o lo hi =
    packed_to_float (Z.to_nat (code_bytes wide)) M s o lo hi.
  Proof. destruct wide; reflexivity. Qed.
  Let q := rn64 (1 / IZR M).
  Lemma inv_pos : (0 < 1 / IZR M <= 1)%R.
  Proof.
    pose proof M_range. assert (1 <= IZR M)%R by (apply IZR_le; lia). split.
    - apply Rdiv_lt_0_compat; lra.
    - apply Rmult_le_reg_r with (IZR M); [lra|]. unfold Rdiv. rewrite Rmult_assoc, Rinv_l by lra. lra.
  Qed.
  Lemma q_range : (0 <= q <= 1)%R.
  Proof.
    pose proof inv_pos. unfold q. split; [rewrite <- rn64_0 at 1; apply rn64_le; lra|].
    replace 1%R with (rn64 1) at 2 by (apply (int_format 1); lia). apply rn64_le. lra.
  Qed.
  Lemma oo_fin : exists fm, float_of_int M = Ok fm /\ fin64 (fdiv fone fm) /\ rv (fdiv fone fm) = q.
  Proof.
    pose proof M_range. destruct (float_of_small M) as (fm & E & F & R); [lia|].
    exists fm. split; [exact E|]. destruct fone_fin as [F1 R1].
    assert (HM : (1 <= IZR M)%R) by (apply IZR_le; lia).
    destruct (fdiv_fin fone fm 0) as [A D]; auto; try lia.
    - rewrite R. lra.
    - rewrite R1, R. pose proof inv_pos. rewrite Rabs_pos_eq by lra. cbn. lra.
    - split; [exact A|]. rewrite D, R1, R. reflexivity.
  Qed.
  (** 1/max times max is 1 after rounding *)
  Lemma q_max : rn64 (IZR M * q) = 1%R.
  Proof.
    destruct oo_fin as (fm & E & F & R). pose proof M_range.
    destruct (float_of_small M) as (fm' & E' & F' & R'); [lia|].
    assert (fm' = fm) by congruence. subst fm'.
    destruct (fmul_fin fm (fdiv fone fm) 16) as [_ G]; auto; try lia.
    { rewrite R', R. pose proof q_range. rewrite Rabs_pos_eq.
      - apply Rle_trans with (IZR 65536 * 1)%R; [|cbn; lra].
        apply Rmult_le_compat; try lra; apply IZR_le; lia.
      - apply Rmult_le_pos; [apply IZR_le; lia|lra]. }
    rewrite R', R in G. rewrite <- G. destruct fone_fin as [_ R1]. rewrite <- R1. f_equal.
    pose proof (one_again wide) as G1. rewrite E in G1. exact G1.
  Qed.

  Definition raw_value (lo hi : R) (u : Z) : R :=
    rn64 (rn64 (rn64 (IZR u * q) * rn64 (hi - lo)) + lo).
  Lemma uq_range u : 0 <= u <= M -> (0 <= rn64 (IZR u * q) <= 1)%R.
  Proof.
    intros H. pose proof q_range. split.
    - rewrite <- rn64_0 at 1. apply rn64_le. apply Rmult_le_pos; [apply IZR_le; lia|lra].
    - rewrite <- q_max. apply rn64_le. apply Rmult_le_compat_r; [lra|apply IZR_le; lia].
  Qed.
  Lemma packed_ok lo hi pre b post u k : 0 <= k <= 1000 -> moderate k lo -> moderate k hi ->
    code (code_bytes wide) b u -> exists f,
      unpack_code wide (pre ++ b ++ post) (zlen pre) lo hi = Ok f /\ fin64 f /\
      rv f = interpolated M (rv lo) (rv hi) u.
  Proof.
    intros Hk Hl Hh [Lb Vb]. rewrite unpack_code_def. unfold packed_to_float.
    destruct oo_fin as (fm & -> & Fo & Ro). cbn [bind].
    assert (Hn : Z.of_nat (Z.to_nat (code_bytes wide)) = code_bytes wide) by (destruct wide; reflexivity).
    rewrite Hn. rewrite slice_at by (rewrite ?Lb; reflexivity).
    assert (Eu : unpack_int LE false (Z.to_nat (code_bytes wide)) b = Ok u).
    { unfold unpack_int. replace (List.length b) with (Z.to_nat (code_bytes wide)) by (unfold zlen in Lb; lia).
      rewrite Nat.eqb_refl. cbn [dec]. rewrite <- value_lsb_le. now rewrite Vb. }
    rewrite Eu. cbn [bind].
    assert (Hu : 0 <= u <= M).
    { rewrite <- Vb, value_lsb_le. pose proof (le_val_range b) as G. rewrite Lb in G. destruct wide; cbn in *; lia. }
    destruct (float_of_small u) as (fu & -> & Fu & Ru); [pose proof M_range; lia|]. cbn [bind].
    pose proof (uq_range u Hu) as Hq.
    destruct (fmul_fin fu (fdiv fone fm) 16) as [F1 R1]; auto; try lia.
    { rewrite Ru, Ro. pose proof q_range. pose proof M_range. rewrite Rabs_pos_eq.
      - apply Rle_trans with (IZR 65536 * 1)%R; [|cbn; lra].
        apply Rmult_le_compat; try lra; apply IZR_le; lia.
      - apply Rmult_le_pos; [apply IZR_le; lia|lra]. }
    rewrite Ru, Ro in R1.
    pose proof (diff_bound k hi lo Hh Hl) as Hd.
    destruct (fsub_fin hi lo (k + 1)) as [F2 R2]; [lia|eapply moderate_fin; eauto..|exact Hd|].
    assert (Hd' : (Rabs (rn64 (rv hi - rv lo)) <= bpow radix2 (k + 1))%R) by (apply rn64_bound; [lia|exact Hd]).
    assert (B3 : (Rabs (rn64 (IZR u * q) * rn64 (rv hi - rv lo)) <= bpow radix2 (k + 1))%R).
    { rewrite Rabs_mult. replace (bpow radix2 (k + 1)) with (1 * bpow radix2 (k + 1))%R by lra.
      apply Rmult_le_compat; auto using Rabs_pos. rewrite Rabs_pos_eq; lra. }
    destruct (fmul_fin (fmul fu (fdiv fone fm)) (fsub hi lo) (k + 1)) as [F3 R3]; auto; [lia|now rewrite R1, R2|].
    rewrite R1, R2 in R3.
    assert (B4 : (Rabs (rn64 (rn64 (IZR u * q) * rn64 (rv hi - rv lo)) + rv lo) <= bpow radix2 (k + 1 + 1))%R).
    { apply abs_add_bound; [apply rn64_bound; [lia|exact B3]|].
      destruct Hl as (_ & _ & Hl). eapply Rle_trans; [exact Hl|]. apply bpow_le. lia. }
    destruct (fadd_fin (fmul (fmul fu (fdiv fone fm)) (fsub hi lo)) lo (k + 1 + 1)) as [F4 R4]; auto;
      [lia|eapply moderate_fin; eauto|now rewrite R3|]. rewrite R3 in R4.
    destruct (fmul_fin (fsub hi lo) (fdiv fone fm) (k + 1)) as [F5 R5]; auto; [lia| |].
    { rewrite R2, Ro, Rabs_mult. pose proof q_range. rewrite (Rabs_pos_eq q) by lra.
      replace (bpow radix2 (k + 1)) with (bpow radix2 (k + 1) * 1)%R by lra.
      apply Rmult_le_compat; auto using Rabs_pos; lra. }
    rewrite R2, Ro in R5.
    eexists. split; [reflexivity|].
    destruct (fabs_fin _ F4) as [F6 R6]. rewrite fltb_fin by assumption. rewrite R6, R4, R5.
    unfold interpolated, step_of. fold q. cbv zeta.
    destruct (Rlt_bool _ _).
    - split; [split; reflexivity|reflexivity].
    - split; [exact F4|exact R4].
  Qed.

  Lemma packed_short pre b lo hi : zlen b < code_bytes wide ->
    unpack_code wide (pre ++ b) (zlen pre) lo hi = Err StructError.
  Proof.
    intros H. rewrite unpack_code_def. unfold packed_to_float.
    destruct oo_fin as (fm & -> & _). cbn [bind]. unfold unpack_int.
    match goal with |- context [Nat.eqb ?a ?c] => destruct (Nat.eqb_spec a c) as [E|E] end; [|reflexivity].
    exfalso. pose proof (zlen_nonneg pre). pose proof (zlen_nonneg b).
    assert (0 <= code_bytes wide) by (destruct wide; cbn; lia).
    rewrite pyslice_pos in E by lia. rewrite firstn_length, skipn_length, app_length in E. unfold zlen in *. lia.
  Qed.

  Lemma raw_mono lo hi u u' : (lo <= hi)%R -> 0 <= u <= u' -> (raw_value lo hi u <= raw_value lo hi u')%R.
  Proof.
    intros H Hu. unfold raw_value. pose proof q_range. apply rn64_le. apply Rplus_le_compat_r. apply rn64_le.
    apply Rmult_le_compat_r.
    - rewrite <- rn64_0 at 1. apply rn64_le. lra.
    - apply rn64_le. apply Rmult_le_compat_r; [lra|apply IZR_le; lia].
  Qed.
  Lemma step_pos lo hi : (lo <= hi)%R -> (0 <= step_of M lo hi)%R.
  Proof.
    intros H. unfold step_of. fold q. pose proof q_range. rewrite <- rn64_0 at 1. apply rn64_le.
    apply Rmult_le_pos; [|lra]. rewrite <- rn64_0 at 1. apply rn64_le. lra.
  Qed.
  Lemma interp_mono lo hi u u' : (lo <= hi)%R -> 0 <= u <= u' ->
    (interpolated M lo hi u <= interpolated M lo hi u')%R.
  Proof.
    intros H Hu. pose proof (raw_mono lo hi u u' H Hu) as R. pose proof (step_pos lo hi H) as S.
    unfold interpolated. fold q. fold (raw_value lo hi u) (raw_value lo hi u'). cbv zeta.
    destruct (Rlt_bool_spec (Rabs (raw_value lo hi u)) (step_of M lo hi)) as [L|L];
    destruct (Rlt_bool_spec (Rabs (raw_value lo hi u')) (step_of M lo hi)) as [L'|L']; try lra;
      unfold Rabs in *; destruct (Rcase_abs (raw_value lo hi u)), (Rcase_abs (raw_value lo hi u')); lra.
  Qed.
  (** endpoints, when the width of the interval is a double *)
  Lemma fin_exact x : fin64 x -> rn64 (rv x) = rv x.
  Proof.
    intros H. destruct (fin64_b x H) as (b & _ & _ & R). rewrite <- R.
    apply round_generic; [apply valid_rnd_N|]. apply (generic_format_B2R 53 1024 b).
  Qed.
  Lemma raw_0 lo hi : rn64 lo = lo -> raw_value lo hi 0 = lo.
  Proof. intros H. unfold raw_value. rewrite Rmult_0_l, rn64_0, Rmult_0_l, rn64_0, Rplus_0_l. exact H. Qed.
  Lemma raw_max lo hi : rn64 hi = hi -> rn64 (hi - lo) = (hi - lo)%R -> raw_value lo hi M = hi.
  Proof.
    intros H E. unfold raw_value. rewrite q_max, E, Rmult_1_l, E. replace (hi - lo + lo)%R with hi by lra. exact H.
  Qed.
  Lemma interp_ends lo hi : rn64 lo = lo -> rn64 hi = hi -> rn64 (hi - lo) = (hi - lo)%R ->
    interpolated M lo hi 0 = (if Rlt_bool (Rabs lo) (step_of M lo hi) then 0 else lo)%R /\
    interpolated M lo hi M = (if Rlt_bool (Rabs hi) (step_of M lo hi) then 0 else hi)%R.
  Proof.
    intros Hl Hh Hd. unfold interpolated. fold q. fold (raw_value lo hi 0) (raw_value lo hi M). cbv zeta.
    now rewrite raw_0, raw_max.
  Qed.
  Lemma interp_within lo hi u : (lo <= hi)%R -> rn64 lo = lo -> rn64 hi = hi -> rn64 (hi - lo) = (hi - lo)%R ->
    0 <= u <= M -> interpolated M lo hi u = 0%R \/ (lo <= interpolated M lo hi u <= hi)%R.
  Proof.
    intros H Hl Hh Hd Hu. unfold interpolated. fold q. fold (raw_value lo hi u). cbv zeta.
    destruct (Rlt_bool _ _); [now left|right]. split.
    - rewrite <- (raw_0 lo hi) at 1 by exact Hl. apply raw_mono; [exact H|lia].
    - rewrite <- (raw_max lo hi) at 2 by assumption. apply raw_mono; [exact H|lia].
  Qed.
End Packed.
