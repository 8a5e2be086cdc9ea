(** Conversions between binary64 and binary32, and the quaternion arithmetic,
    in terms of real numbers. *)
From Coq Require Import ZArith Lia Bool Reals Psatz.
From Flocq Require Import Core BinarySingleNaN.
From Coq Require Import Floats.SpecFloat.
From Verif Require Import PyFloat Lib FloatProofs Datatypes SpecFloats.
Open Scope Z_scope.

Lemma rlt_bool_lt x y : (x < y)%R -> Rlt_bool x y = true.
Proof. apply Rlt_bool_true. Qed.

Lemma to_single_finite s m e : valid64 (S754_finite s m e) = true ->
  let f := S754_finite s m e in
  valid32 (to_single f) = true /\
  ((Rabs (rn32 (rv f)) < bpow radix2 128)%R ->
     rv (to_single f) = rn32 (rv f) /\ is_finite_SF (to_single f) = true /\ sign_SF (to_single f) = s) /\
  ((bpow radix2 128 <= Rabs (rn32 (rv f)))%R -> to_single f = S754_infinity s).
Proof.
  intros Hv f. unfold f, to_single.
  rewrite binary_round_equiv.
  destruct (binary_round_correct 24 128 Hp32 Hm32 mode_NE s m e) as [H1 H2].
  split; [exact H1|]. cbv zeta in H2.
  change (F2R {| Fnum := cond_Zopp s (Z.pos m); Fexp := e |}) with (rv (S754_finite s m e)) in H2.
  change (round radix2 (fexp 24 128) (round_mode mode_NE) (rv (S754_finite s m e)))
    with (rn32 (rv (S754_finite s m e))) in H2.
  split; intros H.
  - rewrite Rlt_bool_true in H2 by exact H. exact H2.
  - rewrite Rlt_bool_false in H2 by exact H. exact H2.
Qed.

Lemma valid32_format s m e : valid32 (S754_finite s m e) = true ->
  generic_format radix2 (FLT_exp (-149) 24) (rv (S754_finite s m e)) /\
  (Rabs (rv (S754_finite s m e)) < bpow radix2 128)%R.
Proof.
  intros Hv. rewrite valid32_binary in Hv.
  pose proof (generic_format_B2R 24 128 (SF2B (prec:=24) (emax:=128) _ Hv)) as H1.
  pose proof (abs_B2R_lt_emax 24 128 (SF2B (prec:=24) (emax:=128) _ Hv)) as H2.
  rewrite B2R_SF2B in H1, H2. split; [exact H1|exact H2].
Qed.

Lemma to_double_finite s m e : valid32 (S754_finite s m e) = true ->
  let f := S754_finite s m e in
  valid64 (to_double f) = true /\ rv (to_double f) = rv f /\
  is_finite_SF (to_double f) = true /\ sign_SF (to_double f) = s.
Proof.
  intros Hv f. unfold f, to_double.
  destruct (valid32_format s m e Hv) as [Hf Hlt].
  rewrite binary_round_equiv.
  destruct (binary_round_correct 53 1024 Hp64 Hm64 mode_NE s m e) as [H1 H2].
  split; [exact H1|]. cbv zeta in H2.
  change (F2R {| Fnum := cond_Zopp s (Z.pos m); Fexp := e |}) with (rv (S754_finite s m e)) in H2.
  assert (Hr : round radix2 (fexp 53 1024) (round_mode mode_NE) (rv (S754_finite s m e)) =
               rv (S754_finite s m e)).
  { apply round_generic; [apply valid_rnd_N|].
    apply (generic_inclusion_mag radix2 (FLT_exp (-149) 24)); [|exact Hf].
    intros _. unfold fexp, FLT_exp, emin. lia. }
  rewrite Hr in H2. rewrite Rlt_bool_true in H2; [exact H2|].
  eapply Rlt_le_trans; [exact Hlt|]. apply bpow_le. lia.
Qed.

(** Two valid finite floats with the same real value and sign are equal. *)
Lemma finite_inj prec emax (Hp : Prec_gt_0 prec) (Hm : Prec_lt_emax prec emax) f g :
  valid_binary prec emax f = true -> valid_binary prec emax g = true ->
  is_finite_SF f = true -> is_finite_SF g = true ->
  rv f = rv g -> sign_SF f = sign_SF g -> f = g.
Proof.
  intros Vf Vg Ff Fg Hr Hs.
  assert (H : SF2B f Vf = SF2B g Vg).
  { apply B2R_Bsign_inj.
    - now rewrite is_finite_SF2B.
    - now rewrite is_finite_SF2B.
    - now rewrite !B2R_SF2B.
    - now rewrite !Bsign_SF2B. }
  rewrite <- (B2SF_SF2B prec emax f Vf), <- (B2SF_SF2B prec emax g Vg). now rewrite H.
Qed.

Lemma to_double_shape g : valid32 g = true ->
  match g with
  | S754_finite s _ _ => exists m' e', to_double g = S754_finite s m' e'
  | _ => to_double g = g
  end.
Proof.
  destruct g as [s|s| |s m e]; intros Hv; try reflexivity.
  destruct (to_double_finite s m e Hv) as (H1 & H2 & H3 & H4).
  destruct (to_double (S754_finite s m e)) as [s'|s'| |s' m' e'] eqn:E; try discriminate H3.
  - exfalso. cbn in H2. symmetry in H2. apply eq_0_F2R in H2. destruct s; discriminate.
  - cbn in H4. subst. eauto.
Qed.

(** Narrowing a widened single gives it back. *)
Lemma to_single_to_double g : valid32 g = true -> to_single (to_double g) = g.
Proof.
  intros Hv. pose proof (to_double_shape g Hv) as Hsh.
  destruct g as [s|s| |s m e]; try reflexivity.
  destruct Hsh as (m' & e' & E).
  destruct (to_double_finite s m e Hv) as (H1 & H2 & H3 & H4).
  rewrite E in *.
  destruct (valid32_format s m e Hv) as [Hf Hlt].
  destruct (to_single_finite s m' e' H1) as (V & Hok & _).
  assert (Hr : rn32 (rv (S754_finite s m' e')) = rv (S754_finite s m e)).
  { rewrite H2. apply round_generic; [apply valid_rnd_N|exact Hf]. }
  rewrite Hr in Hok. destruct (Hok Hlt) as (A & B & C).
  apply (finite_inj 24 128 Hp32 Hm32); auto.
Qed.

Lemma pack_f32_widened g : valid32 g = true -> g <> S754_nan -> pack_f32 (to_double g) = Ok (bits32 g).
Proof.
  intros Hv Hn. pose proof (to_double_shape g Hv) as Hsh. pose proof (to_single_to_double g Hv) as Hs.
  destruct g as [s|s| |s m e]; try reflexivity.
  destruct Hsh as (m' & e' & E). unfold pack_f32. rewrite E in *. now rewrite Hs.
Qed.

Lemma pack_f32_finite s m e : valid64 (S754_finite s m e) = true ->
  let f := S754_finite s m e in
  ((Rabs (rn32 (rv f)) < bpow radix2 128)%R ->
     exists z y, pack_f32 f = Ok z /\ 0 <= z < 2 ^ 32 /\ unpack_f32 z = y /\ valid64 y = true /\
       is_finite_SF y = true /\ sign_SF y = s /\ rv y = rn32 (rv f)) /\
  ((bpow radix2 128 <= Rabs (rn32 (rv f)))%R -> pack_f32 f = Err OverflowErr).
Proof.
  intros Hv f. destruct (to_single_finite s m e Hv) as (V & Hok & Hov). split; intros H.
  - destruct (Hok H) as (A & B & C). fold f in V, A, B, C.
    exists (bits32 (to_single f)), (to_double (to_single f)).
    unfold pack_f32. unfold f at 1.
    split; [fold f; destruct (to_single f); try reflexivity; discriminate|].
    split; [now apply bits32_range|].
    split; [unfold unpack_f32; now rewrite of_bits32_bits32|].
    destruct (to_single f) as [s'|s'| |s' m' e'] eqn:E; try discriminate B.
    + cbn in C. subst. auto.
    + cbn in C. subst s'. destruct (to_double_finite s m' e' V) as (X1 & X2 & X3 & X4).
      repeat split; auto. congruence.
  - specialize (Hov H). unfold pack_f32, f. cbv zeta in Hov. rewrite Hov. reflexivity.
Qed.

(** ** Quaternions *)
Section Ops.
  Notation B := (binary_float 53 1024).
  Lemma sfmul_b (x y : B) : fmul (B2SF x) (B2SF y) = B2SF (Bmult mode_NE x y).
  Proof.
    unfold fmul. case x as [sx|sx| |sx mx ex Bx]; case y as [sy|sy| |sy my ey By]; [now trivial..|].
    simpl. rewrite B2SF_SF2B. apply binary_round_aux_equiv.
  Qed.
  Lemma normalize_equiv m e szero :
    SpecFloat.binary_normalize 53 1024 m e szero =
    B2SF (BinarySingleNaN.binary_normalize 53 1024 Hp64 Hm64 mode_NE m e szero).
  Proof.
    case m as [|p|p]; [now simpl| |]; simpl; rewrite B2SF_SF2B; apply binary_round_equiv.
  Qed.
  Lemma sfadd_b (x y : B) : fadd (B2SF x) (B2SF y) = B2SF (Bplus mode_NE x y).
  Proof.
    unfold fadd. case x as [sx|sx| |sx mx ex Bx]; case y as [sy|sy| |sy my ey By];
      [now (trivial || simpl; case Bool.eqb)..|]. apply normalize_equiv.
  Qed.
  Lemma sfsub_b (x y : B) : fsub (B2SF x) (B2SF y) = B2SF (Bminus mode_NE x y).
  Proof.
    unfold fsub. case x as [sx|sx| |sx mx ex Bx]; case y as [sy|sy| |sy my ey By];
      [now (trivial || simpl; case Bool.eqb)..|]. simpl. unfold Zminus.
    rewrite <- cond_Zopp_negb. apply normalize_equiv.
  Qed.
  Lemma sfsqrt_b (x : B) : fsqrt (B2SF x) = B2SF (Bsqrt mode_NE x).
  Proof.
    unfold fsqrt. case x as [sx|sx| |sx mx ex Bx]; [now (trivial || case sx)..|].
    case sx; [reflexivity|]. simpl. rewrite B2SF_SF2B.
    set (melz := SFsqrt_core_binary _ _ _ _). case melz as [[mz ez] lz].
    apply binary_round_aux_equiv.
  Qed.

  Lemma rn64_bound v k : -1074 <= k -> (Rabs v <= bpow radix2 k)%R -> (Rabs (rn64 v) <= bpow radix2 k)%R.
  Proof.
    intros Hk Hv. unfold rn64. apply abs_round_le_generic; auto.
    - apply FLT_exp_valid. reflexivity.
    - apply valid_rnd_N.
    - apply generic_format_bpow. unfold FLT_exp. lia.
  Qed.
  Definition fin64 (f : pyfloat) : Prop := valid64 f = true /\ is_finite_SF f = true.
  Lemma fin64_b f : fin64 f -> exists b : B, B2SF b = f /\ is_finite b = true /\ B2R b = rv f.
  Proof.
    intros [V F]. rewrite valid64_binary in V. exists (SF2B f V).
    split; [apply B2SF_SF2B|]. split; [now rewrite is_finite_SF2B|apply B2R_SF2B].
  Qed.
  Lemma b_fin64 (b : B) : is_finite b = true -> fin64 (B2SF b).
  Proof. intros H. split; [rewrite valid64_binary; apply valid_binary_B2SF|now rewrite is_finite_SF_B2SF]. Qed.
  Lemma rv_b (b : B) : rv (B2SF b) = B2R b.
  Proof. apply SF2R_B2SF. Qed.

  Lemma small_lt v k : k < 1024 -> (Rabs v <= bpow radix2 k)%R -> Rlt_bool (Rabs v) (bpow radix2 1024) = true.
  Proof. intros Hk Hv. apply Rlt_bool_true. eapply Rle_lt_trans; [exact Hv|]. now apply bpow_lt. Qed.

  Lemma fmul_fin x y k : -1074 <= k < 1024 -> fin64 x -> fin64 y -> (Rabs (rv x * rv y) <= bpow radix2 k)%R ->
    fin64 (fmul x y) /\ rv (fmul x y) = rn64 (rv x * rv y).
  Proof.
    intros Hk Hx Hy Hb. destruct (fin64_b x Hx) as (bx & <- & Fx & Rx).
    destruct (fin64_b y Hy) as (b2 & <- & Fy & Ry). rewrite <- Rx, <- Ry in *.
    rewrite sfmul_b. pose proof (Bmult_correct 53 1024 Hp64 Hm64 mode_NE bx b2) as H.
    change (round radix2 (fexp 53 1024) (round_mode mode_NE) (B2R bx * B2R b2)) with
      (rn64 (B2R bx * B2R b2)) in H.
    rewrite (small_lt _ k) in H; [|lia|apply rn64_bound; [lia|exact Hb]].
    destruct H as (H1 & H2 & _). rewrite Fx, Fy in H2.
    split; [now apply b_fin64|]. now rewrite rv_b.
  Qed.
  Lemma fadd_fin x y k : -1074 <= k < 1024 -> fin64 x -> fin64 y -> (Rabs (rv x + rv y) <= bpow radix2 k)%R ->
    fin64 (fadd x y) /\ rv (fadd x y) = rn64 (rv x + rv y).
  Proof.
    intros Hk Hx Hy Hb. destruct (fin64_b x Hx) as (bx & <- & Fx & Rx).
    destruct (fin64_b y Hy) as (b2 & <- & Fy & Ry). rewrite <- Rx, <- Ry in *.
    rewrite sfadd_b. pose proof (Bplus_correct 53 1024 Hp64 Hm64 mode_NE bx b2 Fx Fy) as H.
    change (round radix2 (fexp 53 1024) (round_mode mode_NE) (B2R bx + B2R b2)) with
      (rn64 (B2R bx + B2R b2)) in H.
    rewrite (small_lt _ k) in H; [|lia|apply rn64_bound; [lia|exact Hb]].
    destruct H as (H1 & H2 & _).
    split; [now apply b_fin64|]. now rewrite rv_b.
  Qed.
  Lemma fsub_fin x y k : -1074 <= k < 1024 -> fin64 x -> fin64 y -> (Rabs (rv x - rv y) <= bpow radix2 k)%R ->
    fin64 (fsub x y) /\ rv (fsub x y) = rn64 (rv x - rv y).
  Proof.
    intros Hk Hx Hy Hb. destruct (fin64_b x Hx) as (bx & <- & Fx & Rx).
    destruct (fin64_b y Hy) as (b2 & <- & Fy & Ry). rewrite <- Rx, <- Ry in *.
    rewrite sfsub_b. pose proof (Bminus_correct 53 1024 Hp64 Hm64 mode_NE bx b2 Fx Fy) as H.
    change (round radix2 (fexp 53 1024) (round_mode mode_NE) (B2R bx - B2R b2)) with
      (rn64 (B2R bx - B2R b2)) in H.
    rewrite (small_lt _ k) in H; [|lia|apply rn64_bound; [lia|exact Hb]].
    destruct H as (H1 & H2 & _).
    split; [now apply b_fin64|]. now rewrite rv_b.
  Qed.
  Lemma fpos_fin t : fin64 t -> fpos t = Rlt_bool 0 (rv t).
  Proof.
    intros Ht. destruct (fin64_b t Ht) as (b & <- & F & R). rewrite <- R.
    unfold fpos. change (Bltb (B754_zero false : B) b = Rlt_bool 0 (B2R b)).
    now rewrite Bltb_correct.
  Qed.
  Lemma fsqrt_fin t : fin64 t -> (0 < rv t)%R ->
    fin64 (fsqrt t) /\ sign_SF (fsqrt t) = false /\ rv (fsqrt t) = rn64 (sqrt (rv t)).
  Proof.
    intros Ht Hp. destruct (fin64_b t Ht) as (b & <- & F & R). rewrite <- R in *.
    rewrite sfsqrt_b. destruct (Bsqrt_correct 53 1024 Hp64 Hm64 mode_NE b) as (H1 & H2 & H3).
    assert (Hb : exists m e Hb, b = B754_finite false m e Hb).
    { destruct b as [s|s| |[|] m e Hbd]; cbn in Hp; try (exfalso; lra).
      - exfalso. revert Hp. apply Rle_not_lt. apply Rlt_le. now apply F2R_lt_0.
      - eauto. }
    destruct Hb as (m & e & Hbd & ->).
    assert (Hfin : is_finite (Bsqrt mode_NE (B754_finite false m e Hbd : B)) = true) by exact H2.
    split; [now apply b_fin64|]. rewrite rv_b. split; [|exact H1].
    assert (Hs : Bsign (Bsqrt mode_NE (B754_finite false m e Hbd : B)) = false).
    { rewrite H3; [reflexivity|]. now destruct (Bsqrt _ _). }
    now destruct (Bsqrt _ _).
  Qed.
  Lemma fone_fin : fin64 fone /\ rv fone = 1%R.
  Proof.
    split; [split; reflexivity|]. unfold rv, fone, SF2R, F2R. cbn [Fnum Fexp cond_Zopp].
    change (bpow radix2 (-52)) with (/ IZR (2 ^ 52))%R. change (Z.pos 4503599627370496) with (2 ^ 52).
    apply Rinv_r. apply IZR_neq. lia.
  Qed.

  Lemma abs_sq_bound a : (Rabs a <= bpow radix2 128)%R -> (Rabs (a * a) <= bpow radix2 256)%R.
  Proof.
    intros H. rewrite Rabs_mult. change 256 with (128 + 128). rewrite bpow_plus.
    apply Rmult_le_compat; auto; apply Rabs_pos.
  Qed.
  Lemma abs_add_bound a b k : (Rabs a <= bpow radix2 k)%R -> (Rabs b <= bpow radix2 k)%R ->
    (Rabs (a + b) <= bpow radix2 (k + 1))%R.
  Proof.
    intros Ha Hb. eapply Rle_trans; [apply Rabs_triang|]. rewrite bpow_plus.
    change (bpow radix2 1) with 2%R. lra.
  Qed.
  Lemma abs_weaken a k k' : k <= k' -> (Rabs a <= bpow radix2 k)%R -> (Rabs a <= bpow radix2 k')%R.
  Proof. intros Hk H. eapply Rle_trans; [exact H|]. now apply bpow_le. Qed.

  Lemma quat_w_finite x y z :
    fin64 x -> fin64 y -> fin64 z ->
    (Rabs (rv x) <= bpow radix2 128)%R -> (Rabs (rv y) <= bpow radix2 128)%R ->
    (Rabs (rv z) <= bpow radix2 128)%R ->
    let t := w_square (rv x) (rv y) (rv z) in
    fin64 (quat_w x y z) /\ sign_SF (quat_w x y z) = false /\
    ((0 < t)%R -> rv (quat_w x y z) = rn64 (sqrt t)) /\ ((t <= 0)%R -> rv (quat_w x y z) = 0%R).
  Proof.
    intros Hx Hy Hz Bx By Bz t.
    apply abs_sq_bound in Bx, By, Bz.
    destruct (fmul_fin x x 256 ltac:(lia) Hx Hx Bx) as [Fxx Rxx].
    destruct (fmul_fin y y 256 ltac:(lia) Hy Hy By) as [Fyy Ryy].
    destruct (fmul_fin z z 256 ltac:(lia) Hz Hz Bz) as [Fzz Rzz].
    apply rn64_bound in Bx, By, Bz; [|lia..].
    rewrite <- Rxx in Bx. rewrite <- Ryy in By. rewrite <- Rzz in Bz.
    pose proof (abs_add_bound _ _ _ Bx By) as Bxy. change (256 + 1) with 257 in Bxy.
    destruct (fadd_fin _ _ 257 ltac:(lia) Fxx Fyy Bxy) as [Fxy Rxy].
    apply rn64_bound in Bxy; [|lia]. rewrite <- Rxy in Bxy.
    apply (abs_weaken _ 256 257 ltac:(lia)) in Bz.
    pose proof (abs_add_bound _ _ _ Bxy Bz) as Bs. change (257 + 1) with 258 in Bs.
    destruct (fadd_fin _ _ 258 ltac:(lia) Fxy Fzz Bs) as [Fs Rs].
    apply rn64_bound in Bs; [|lia]. rewrite <- Rs in Bs.
    destruct fone_fin as [F1 R1].
    assert (B1 : (Rabs (rv fone) <= bpow radix2 258)%R).
    { rewrite R1, Rabs_R1. change 1%R with (bpow radix2 0). apply bpow_le. lia. }
    assert (Bd : (Rabs (rv fone - rv (fadd (fadd (fmul x x) (fmul y y)) (fmul z z))) <= bpow radix2 259)%R).
    { unfold Rminus. apply (abs_add_bound _ _ 258); [exact B1|]. now rewrite Rabs_Ropp. }
    destruct (fsub_fin _ _ 259 ltac:(lia) F1 Fs Bd) as [Ft Rt].
    unfold quat_w. set (tt := fsub fone _) in *.
    assert (Et : rv tt = t).
    { rewrite Rt, R1, Rs, Rxy, Rxx, Ryy, Rzz. reflexivity. }
    rewrite fpos_fin by exact Ft. rewrite Et.
    destruct (Rlt_bool_spec 0 t) as [Hp|Hp].
    - rewrite <- Et in Hp. destruct (fsqrt_fin tt Ft Hp) as (A & C & D).
      repeat split; auto; try apply A.
      + intros _. rewrite D, Et. reflexivity.
      + intros H. exfalso. lra.
    - repeat split; intros; try lra.
  Qed.
End Ops.
