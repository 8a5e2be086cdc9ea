(** Proofs about printing a float and reading it back (C96). *)
From Coq Require Import ZArith Lia Reals Psatz.
From Flocq Require Import Core Relative BinarySingleNaN.
From Coq Require Import Floats.SpecFloat ZifyBool.
From Verif Require Import FloatText Objects Lib SpecCodec SpecFloats SpecObjects SpecFloatText FloatProofs FloatRound FloatField ObjectTextProofs ObjectProofs FloatReadProofs FloatShowProofs.
Open Scope Z_scope.

(** ** A printed text is a numeral *)
Definition numeral_char (c : byte) : Prop := cipher c \/ In c [x2e; x65; x2b; x2d].
Lemma sign_bytes_text s : sign_text (sign_bytes s) s. Proof. destruct s; constructor. Qed.
Lemma exponent_digits_value n x : exponent_digits n x -> Forall cipher x /\ x <> [] /\ ciphers_value x = n.
Proof. intros [a b A B|a b c A B C N]; repeat split; auto; discriminate. Qed.
Lemma printed_decimal pv s x u : printed_as pv x u -> decimal_text (sign_bytes s ++ u) s x.
Proof.
  intros (ds & k & (F & H1 & H2 & NE & L) & X & H).
  destruct H as [[K P]|[K P]].
  - destruct P as [c fp e -> D]. apply exponent_digits_value in D as (FD & ND & VD).
    inversion F as [|? ? C FP]; subst.
    exists (sign_bytes s), ([c] ++ match fp with [] => [] | _ => [x2e] ++ fp end),
      ([x65; if k <? 0 then x2d else x2b] ++ e), [c], fp, k.
    split; [now rewrite <- !app_assoc|]. split; [apply sign_bytes_text|]. split.
    { destruct fp; [apply (whole [c])|apply (pointed [c])]. }
    split; [auto|]. split; [exact FP|]. split; [discriminate|]. split.
    { assert (Q : exponent_part (x65 :: [if k <? 0 then x2d else x2b] ++ e) (if k <? 0 then - ciphers_value e else ciphers_value e)).
      { apply an_exponent; auto with datatypes. destruct (k <? 0); constructor. }
      replace (if k <? 0 then - ciphers_value e else ciphers_value e) with k in Q; [exact Q|]. destruct (k <? 0) eqn:EK; lia. }
    change (c :: fp) with ([c] ++ fp). do 2 f_equal. rewrite zlen_app. change (zlen [c]) with 1. lia.
  - destruct P as [K'|K'|ip fp -> LI NI NF].
    + exists (sign_bytes s), ([x30] ++ [x2e] ++ zeros (- k - 1) ++ ds), [], [x30], (zeros (- k - 1) ++ ds), 0.
      rewrite app_nil_r. split; [reflexivity|]. split; [apply sign_bytes_text|]. split; [apply pointed|].
      split; [repeat constructor; apply cipher_zero|]. split; [apply Forall_app; split; [apply zeros_ciphers|exact F]|].
      split; [discriminate|]. split; [constructor|]. rewrite X. rewrite !value_app. unfold zeros.
      rewrite zeros_value, zlen_app, zlen_repeat. change (ciphers_value [x30]) with 0. rewrite Z2Nat.id by lia.
      f_equal; f_equal; lia.
    + exists (sign_bytes s), ((ds ++ zeros (k + 1 - zlen ds)) ++ [x2e] ++ [x30]), [], (ds ++ zeros (k + 1 - zlen ds)), [x30], 0.
      rewrite app_nil_r. split; [now rewrite <- app_assoc|]. split; [apply sign_bytes_text|]. split; [apply pointed|].
      split; [apply Forall_app; split; [exact F|apply zeros_ciphers]|]. split; [repeat constructor; apply cipher_zero|].
      split; [intros H; apply app_eq_nil in H as [_ H]; discriminate|]. split; [constructor|]. rewrite X. rewrite !value_app.
      unfold zeros. rewrite zeros_value, zlen_repeat, Z2Nat.id by lia. change (ciphers_value [x30]) with 0. change (zlen [x30]) with 1.
      rewrite !Z.add_0_r, !mult_IZR, <- !ten_Z, !Rmult_assoc, <- !ten_add by lia. do 2 f_equal. lia.
    + apply Forall_app in F as [F1 F2].
      exists (sign_bytes s), (ip ++ [x2e] ++ fp), [], ip, fp, 0.
      rewrite app_nil_r. split; [reflexivity|]. split; [apply sign_bytes_text|]. split; [apply pointed|].
      split; [exact F1|]. split; [exact F2|]. split; [exact NE|]. split; [constructor|]. rewrite X, zlen_app. do 2 f_equal. lia.
Qed.
Lemma decimal_chars t neg x : decimal_text t neg x -> Forall (fun c => numeral_char c \/ c = x45) t.
Proof.
  intros (sg & mt & ex & ip & fp & e & -> & S & M & F1 & F2 & N & X & _).
  assert (C : forall l, Forall cipher l -> Forall (fun c => numeral_char c \/ c = x45) l).
  { intros l. apply Forall_impl. unfold numeral_char. tauto. }
  assert (G : forall s n, sign_text s n -> Forall (fun c => numeral_char c \/ c = x45) s).
  { intros s n [| |]; repeat constructor; left; right; cbn; tauto. }
  apply Forall_app. split; [eapply G, S|]. apply Forall_app. split.
  - destruct M as [ip|ip fp]; [now apply C|]. apply Forall_app. split; [now apply C|].
    constructor; [left; right; cbn; tauto|now apply C].
  - destruct X as [|c sg' neg' ds I S' F N']; [constructor|]. constructor.
    + cbn in I. destruct I as [<-|[<-|[]]]; [left; right; cbn; tauto|now right].
    + apply Forall_app. split; [eapply G, S'|now apply C].
Qed.
Lemma numeral_plain c : numeral_char c \/ c = x45 -> ~ In c [x3c; x3e; x2c] /\ ~ white c.
Proof.
  intros [[C|C]| ->].
  - split; intros H; cbn in H; unfold cipher, byte_value in C; decompose [or] H; subst; cbn in C; try lia; try contradiction.
  - cbn in C. split; intros H; cbn in H; decompose [or] C; subst; decompose [or] H; try discriminate; try contradiction.
  - split; intros H; cbn in H; decompose [or] H; try discriminate; try contradiction.
Qed.
Lemma plain_trimmed t : Forall (fun c => ~ white c) t -> trimmed t t.
Proof.
  intros F. exists [], []. rewrite app_nil_r. repeat split; auto.
  - intros c t' ->. now inversion F.
  - intros c t' ->. apply Forall_app in F as [_ F]. now inversion F.
Qed.
Lemma text_plain pv f : valid64 f = true -> Forall (fun c => ~ In c [x3c; x3e; x2c] /\ ~ white c) (text_of_float pv f).
Proof.
  intros V. destruct f as [s|s| |s m e].
  1-3: try destruct s; repeat constructor; cbn; intros H; decompose [or] H; try discriminate; try contradiction.
  destruct (show_finite pv s m e V) as (u & -> & P). apply (printed_decimal pv s) in P. apply decimal_chars in P.
  revert P. apply Forall_impl. exact numeral_plain.
Qed.

(** ** Real numbers *)
Notation b64 := (bpow radix2 (-1074)).
Notation fmt12 := (generic_format radix10 (FLX_exp 12)).
Notation fmt64 := (generic_format radix2 (FLT_exp (-1074) 53)).
Local Instance FLX12 : Valid_exp (FLX_exp 12) := FLX_exp_valid 12.
Local Instance FLT64 : Valid_exp (FLT_exp (-1074) 53) := FLT_exp_valid (-1074) 53.
Lemma rn12_format x : fmt12 (rn12 x). Proof. apply generic_format_round; [exact FLX12|apply valid_rnd_N]. Qed.
Lemma rn64_format x : fmt64 (rn64 x). Proof. apply generic_format_round; [exact FLT64|apply valid_rnd_N]. Qed.
Lemma rn12_le x y : (x <= y)%R -> (rn12 x <= rn12 y)%R.
Proof. apply round_le; [exact FLX12|apply valid_rnd_N]. Qed.

(** The gaps around a twelve-digit number *)
Lemma gap_up y : (0 < y)%R -> fmt12 y -> (succ radix10 (FLX_exp 12) y - y >= y * ten (-12))%R.
Proof.
  intros P F. rewrite succ_eq_pos by lra. pose proof (ulp_FLX_ge radix10 12 y) as H. rewrite Rabs_pos_eq in H by lra.
  unfold ten. change (- (12)) with (-12) in H. lra.
Qed.
Lemma gap_down_ulp y : (0 < y)%R -> fmt12 y ->
  y = ten (mag radix10 y - 1) /\ (y - pred radix10 (FLX_exp 12) y = ten (mag radix10 y - 13))%R \/
  (y - pred radix10 (FLX_exp 12) y = ulp radix10 (FLX_exp 12) y)%R.
Proof.
  intros P F. rewrite pred_eq_pos by lra. unfold pred_pos.
  case Req_bool_spec; intros H.
  - left. split; [exact H|]. unfold FLX_exp, ten. replace (mag radix10 y - 13) with (mag radix10 y - 1 - 12) by lia. ring.
  - right. ring.
Qed.
Lemma gap_down y : (0 < y)%R -> fmt12 y -> (y - pred radix10 (FLX_exp 12) y >= y * ten (-12))%R.
Proof.
  intros P F. destruct (gap_down_ulp y P F) as [ [E ->] | -> ].
  - apply Req_ge. transitivity (ten (mag radix10 y - 1) * ten (-12))%R.
    + rewrite <- ten_add. f_equal. lia.
    + f_equal. symmetry. exact E.
  - pose proof (ulp_FLX_ge radix10 12 y) as H. rewrite Rabs_pos_eq in H by lra. unfold ten. change (- (12)) with (-12) in H. lra.
Qed.
Lemma rn12_near y z : fmt12 y -> (z - y < (succ radix10 (FLX_exp 12) y - y) / 2)%R -> (y - z < (y - pred radix10 (FLX_exp 12) y) / 2)%R ->
  rn12 z = y.
Proof.
  intros F U D. apply Rle_antisym.
  - apply round_N_le_midp; [exact FLX12|exact F|]. lra.
  - apply round_N_ge_midp; [exact FLX12|exact F|]. lra.
Qed.
Lemma near_abs y z g : fmt12 y -> (Rabs (z - y) < g / 2)%R -> (g <= succ radix10 (FLX_exp 12) y - y)%R ->
  (g <= y - pred radix10 (FLX_exp 12) y)%R -> rn12 z = y.
Proof. intros F A U D. apply Rabs_def2 in A. apply rn12_near; [exact F|lra|lra]. Qed.

(** Normal doubles *)
Lemma stable_normal y : fmt12 y -> (bpow radix2 (-1022) <= y)%R -> rn12 (rn64 y) = y.
Proof.
  intros F N. pose proof (bpow_gt_0 radix2 (-1022)) as P0. assert (P : (0 < y)%R) by lra.
  apply (near_abs y (rn64 y) (y * ten (-12))); [exact F| |apply Rge_le, gap_up; auto|apply Rge_le, gap_down; auto].
  pose proof (relative_error_N_FLT radix2 (-1074) 53 eq_refl (fun x => negb (Z.even x)) y) as R.
  rewrite Rabs_pos_eq in R by lra. specialize (R N).
  change (round radix2 (FLT_exp (-1074) 53) ZnearestE y) with (rn64 y) in R.
  eapply Rle_lt_trans; [exact R|]. 
  assert (Q : (/ 2 * bpow radix2 (- (53) + 1) < ten (-12) / 2)%R).
  { change (-12) with (- (12)). rewrite ten_opp, ten_Z by lia. change (- (53) + 1) with (- (52)). rewrite bpow_opp.
    rewrite <- (IZR_Zpower radix2) by lia. change (radix2 ^ 52) with 4503599627370496. change (10 ^ 12) with 1000000000000. lra. }
  replace (y * ten (-12) / 2)%R with (ten (-12) / 2 * y)%R by field. now apply Rmult_lt_compat_r.
Qed.

(** Small numbers, all of whose doubles are multiples of 2^-1074 *)
Lemma b64_value : b64 = (/ IZR (2 ^ 1074))%R.
Proof. change (-1074) with (- (1074)). rewrite bpow_opp. now rewrite <- (IZR_Zpower radix2). Qed.
Lemma multiple x : fmt64 x -> exists n, x = (IZR n * b64)%R.
Proof.
  intros F. apply generic_format_FIX_FLT in F. apply FIX_format_generic in F. destruct F as [[n e] -> He]. cbn in He. subst e.
  exists n. reflexivity.
Qed.
(** p/q < r/s for positive numbers *)
Lemma ratio_lt p q r s : 0 < q -> 0 < s -> p * s < r * q -> (IZR p / IZR q < IZR r / IZR s)%R.
Proof.
  intros Q S H. apply IZR_lt in Q, S, H. rewrite !mult_IZR in H.
  apply Rmult_lt_reg_r with (IZR q * IZR s)%R; [nra|].
  replace (IZR p / IZR q * (IZR q * IZR s))%R with (IZR p * IZR s)%R by (field; lra).
  replace (IZR r / IZR s * (IZR q * IZR s))%R with (IZR r * IZR q)%R by (field; lra). exact H.
Qed.
Lemma ten_neg k : 0 <= k -> ten (- k) = (1 / IZR (10 ^ k))%R.
Proof. intros H. rewrite ten_opp, ten_Z by exact H. unfold Rdiv. ring. Qed.
Lemma b64_1 n : (IZR n * b64 = IZR n / IZR (2 ^ 1074))%R.
Proof. rewrite b64_value. reflexivity. Qed.

Lemma b64_lt_324_5 : (5 * ten (-324) > b64)%R.
Proof.
  rewrite <- (Rmult_1_l b64). rewrite (b64_1 1). change (-324) with (- (324)). rewrite ten_neg by lia.
  replace (5 * (1 / IZR (10 ^ 324)))%R with (IZR 5 / IZR (10 ^ 324))%R by (unfold Rdiv; ring). apply Rlt_gt. apply ratio_lt; reflexivity.
Qed.
Lemma b64_gt_324 : (4 * ten (-324) < b64)%R.
Proof.
  rewrite <- (Rmult_1_l b64). rewrite (b64_1 1). change (-324) with (- (324)). rewrite ten_neg by lia.
  replace (4 * (1 / IZR (10 ^ 324)))%R with (IZR 4 / IZR (10 ^ 324))%R by (unfold Rdiv; ring). apply ratio_lt; reflexivity.
Qed.
Lemma ten_succ k : ten (k + 1) = (10 * ten k)%R.
Proof. rewrite ten_add, Rmult_comm. f_equal. Qed.
Lemma ten323 : ten (-323) = (10 * ten (-324))%R. Proof. exact (ten_succ (-324)). Qed.

Lemma small_error y : (0 < y < bpow radix2 (-1021))%R -> (Rabs (rn64 y - y) <= b64 / 2)%R.
Proof.
  intros [P U]. pose proof (error_le_half_ulp radix2 (FLT_exp (-1074) 53) (fun x => negb (Z.even x)) y) as R.
  change (round radix2 (FLT_exp (-1074) 53) ZnearestE y) with (rn64 y) in R.
  rewrite ulp_FLT_small in R; [lra|exact eq_refl|]. rewrite Rabs_pos_eq by lra. exact U.
Qed.

(** Below 10^-312 a double is read back exactly. *)
Lemma tiny_exact x : (0 < x < ten (-312))%R -> fmt64 x -> rn64 (rn12 x) = x.
Proof.
  intros [P U] F. pose proof b64_gt_324 as G. pose proof (ten_pos (-324)) as T0.
  assert (M : mag radix10 x <= -312).
  { apply mag_le_bpow; [lra|]. rewrite Rabs_pos_eq by lra. exact U. }
  assert (E : (Rabs (rn12 x - x) <= / 2 * ten (-324))%R).
  { eapply Rle_trans; [apply error_le_half_ulp; exact FLX12|]. apply Rmult_le_compat_l; [lra|].
    rewrite ulp_neq_0 by lra. apply bpow_le. unfold cexp, FLX_exp. lia. }
  assert (Y : (0 < rn12 x < bpow radix2 (-1021))%R).
  { split.
    - apply Rlt_le_trans with (ten (mag radix10 x - 1)); [apply ten_pos|].
      pose proof (bpow_mag_le radix10 x ltac:(lra)) as K1. pose proof (bpow_mag_gt radix10 x) as K2.
      rewrite Rabs_pos_eq in K1, K2 by lra.
      apply (rn12_pos_bounds x (mag radix10 x - 1) (mag radix10 x)). unfold ten. lra.
    - apply Rle_lt_trans with (ten (-312)).
      + apply Rle_trans with (rn12 (ten (-312))); [apply rn12_le; lra|]. apply (rn12_pos_bounds (ten (-312)) (-312) (-312)). lra.
      + change (-312) with (- (312)). rewrite ten_neg by lia. change (-1021) with (- (1021)). rewrite bpow_opp, <- (IZR_Zpower radix2) by lia.
        replace (/ IZR (radix2 ^ 1021))%R with (1 / IZR (2 ^ 1021))%R by (unfold Rdiv; rewrite Rmult_1_l; reflexivity). apply ratio_lt; reflexivity. }
  pose proof (small_error _ Y) as S.
  destruct (multiple x F) as (n & Ex). destruct (multiple _ (rn64_format (rn12 x))) as (n' & En).
  assert (A : (Rabs (IZR (n' - n) * b64) < b64)%R).
  { rewrite minus_IZR, Rmult_minus_distr_r, <- Ex, <- En.
    replace (rn64 (rn12 x) - x)%R with ((rn64 (rn12 x) - rn12 x) + (rn12 x - x))%R by ring.
    eapply Rle_lt_trans; [apply Rabs_triang|]. lra. }
  rewrite En, Ex. do 2 f_equal. pose proof (bpow_gt_0 radix2 (-1074)) as B0.
  rewrite Rabs_mult, (Rabs_pos_eq b64) in A by lra.
  assert (Q : (Rabs (IZR (n' - n)) < 1)%R) by (apply Rmult_lt_reg_r with b64; lra).
  rewrite <- abs_IZR in Q. apply lt_IZR in Q. lia.
Qed.

Definition odd_one : Z := 202402253308.
(** The only double printed as 1e-312. *)
Lemma only_odd x : fmt64 x -> (0 < x)%R -> rn12 x = ten (-312) -> x = (IZR odd_one * b64)%R.
Proof.
  intros F P E. destruct (multiple x F) as (n & Ex). pose proof (bpow_gt_0 radix2 (-1074)) as B0.
  pose proof (error_le_half_ulp_round radix10 (FLX_exp 12) (fun x => negb (Z.even x)) x) as R.
  change (round radix10 (FLX_exp 12) ZnearestE x) with (rn12 x) in R. rewrite E in R.
  unfold ten in R. rewrite ulp_bpow in R. change (FLX_exp 12 (-312 + 1)) with (-323) in R.
  fold (ten (-312)) in R. fold (ten (-323)) in R. rewrite Ex in *.
  assert (A : 202402253306 < n /\ n < 202402253309).
  { assert (R' : (ten (-312) - / 2 * ten (-323) <= IZR n * b64 <= ten (-312) + / 2 * ten (-323))%R).
    { apply Rabs_le_inv in R. lra. }
    assert (X1 : (ten (-312) - / 2 * ten (-323) = IZR (10 ^ 12 - 5) / IZR (10 ^ 324))%R).
    { replace (ten (-312)) with (ten (- (324)) * ten 12)%R by (rewrite <- ten_add; reflexivity).
      replace (ten (-323)) with (10 * ten (- (324)))%R by (symmetry; exact ten323).
      rewrite ten_neg, ten_Z, minus_IZR by lia. field. apply IZR_neq. discriminate. }
    assert (X2 : (ten (-312) + / 2 * ten (-323) = IZR (10 ^ 12 + 5) / IZR (10 ^ 324))%R).
    { replace (ten (-312)) with (ten (- (324)) * ten 12)%R by (rewrite <- ten_add; reflexivity).
      replace (ten (-323)) with (10 * ten (- (324)))%R by (symmetry; exact ten323).
      rewrite ten_neg, ten_Z, plus_IZR by lia. field. apply IZR_neq. discriminate. }
    rewrite X1, X2 in R'.
    assert (L : (IZR 202402253306 / IZR (2 ^ 1074) < IZR (10 ^ 12 - 5) / IZR (10 ^ 324))%R) by (apply ratio_lt; reflexivity).
    assert (U : (IZR (10 ^ 12 + 5) / IZR (10 ^ 324) < IZR 202402253309 / IZR (2 ^ 1074))%R) by (apply ratio_lt; reflexivity).
    rewrite <- b64_1 in L, U. split; apply lt_IZR; apply Rmult_lt_reg_r with b64; lra. }
  assert (C : n = 202402253307 \/ n = odd_one) by (unfold odd_one; lia). destruct C as [C|C]; [|now rewrite C].
  exfalso. clear A R F P Ex. subst n. rewrite b64_1 in E.
  pose proof (twelve_digits_spec 202402253307 (2 ^ 1074) eq_refl eq_refl) as T. 
  assert (D : twelve_digits 202402253307 (2 ^ 1074) = (999999999998, -313)) by (vm_compute; reflexivity).
  rewrite D in T. destruct T as [T1 T2]. rewrite T2 in E.
  destruct (twelve_unique 999999999998 (-313) (10 ^ 11) (-312)) as [N _]; [exact T1|unfold twelve; lia| |discriminate N].
  rewrite E, <- ten_Z, <- ten_add by lia. reflexivity.
Qed.

Theorem stable x : (0 < x)%R -> fmt64 x -> x <> (IZR odd_one * b64)%R -> rn12 (rn64 (rn12 x)) = rn12 x.
Proof.
  intros P F N. pose proof (rn12_format x) as FY. set (y := rn12 x) in *.
  destruct (Rlt_or_le x (ten (-312))) as [X|X].
  { unfold y. now rewrite (tiny_exact x (conj P X) F). }
  assert (Y : (ten (-312) <= y)%R).
  { apply Rle_trans with (rn12 (ten (-312))); [apply (rn12_pos_bounds (ten (-312)) (-312) (-312)); lra|now apply rn12_le]. }
  assert (Y' : (ten (-312) < y)%R).
  { destruct Y as [Y|Y]; [exact Y|]. exfalso. apply N. now apply only_odd. }
  pose proof (ten_pos (-312)) as T0. assert (PY : (0 < y)%R) by lra.
  destruct (Rle_or_lt (bpow radix2 (-1022)) y) as [B|B]; [now apply stable_normal|].
  assert (M : -311 <= mag radix10 y).
  { apply mag_ge_bpow. rewrite Rabs_pos_eq by lra. change (-311 - 1) with (-312). exact Y. }
  pose proof b64_lt_324_5 as G. pose proof (ten_pos (-324)) as T1.
  apply (near_abs y (rn64 y) (ten (-323))); [exact FY|..].
  - eapply Rle_lt_trans; [apply small_error; split; [exact PY|]|].
    + apply Rlt_trans with (1 := B). apply bpow_lt. lia.
    + rewrite ten323. lra.
  - rewrite succ_eq_pos by lra. apply Rle_trans with (ulp radix10 (FLX_exp 12) y); [|lra].
    rewrite ulp_neq_0 by lra. apply bpow_le. unfold cexp, FLX_exp. lia.
  - destruct (gap_down_ulp y PY FY) as [ [E ->] | -> ].
    + apply ten_le. assert (-312 < mag radix10 y - 1); [|lia]. apply ten_lt_inv. rewrite <- E. exact Y'.
    + rewrite ulp_neq_0 by lra. apply bpow_le. unfold cexp, FLX_exp. lia.
Qed.

(** What is printed is read as something positive and finite. *)
Lemma trip_positive x : (0 < x)%R -> fmt64 x -> (0 < rn64 (rn12 x))%R.
Proof.
  intros P F. destruct (Rlt_or_le x (ten (-312))) as [X|X].
  { now rewrite (tiny_exact x (conj P X) F). }
  assert (Y : (ten (-312) <= rn12 x)%R).
  { apply Rle_trans with (rn12 (ten (-312))); [apply (rn12_pos_bounds (ten (-312)) (-312) (-312)); lra|now apply rn12_le]. }
  apply Rlt_le_trans with b64; [apply bpow_gt_0|].
  assert (E : rn64 b64 = b64).
  { apply round_generic; [apply valid_rnd_N|]. apply generic_format_bpow. unfold FLT_exp. lia. }
  rewrite <- E. apply rn64_le. apply Rle_trans with (2 := Y).
  apply Rle_trans with (5 * ten (-324))%R; [pose proof b64_lt_324_5; lra|].
  apply Rle_trans with (ten (-323)); [rewrite ten323; pose proof (ten_pos (-324)); lra|]. apply ten_le. lia.
Qed.
Definition max_num : Z := (2 ^ 53 - 1) * 2 ^ 971.
Lemma max_format : fmt64 (IZR max_num).
Proof.
  apply generic_format_FLT. apply (FLT_spec radix2 (-1074) 53 (IZR max_num) (Float radix2 (2 ^ 53 - 1) 971)).
  - unfold F2R, max_num. cbn [Fnum Fexp]. rewrite mult_IZR.  f_equal.
  - reflexivity.
  - cbn [Fexp]. lia.
Qed.
Lemma trip_finite x : (0 < x <= IZR max_num)%R -> (rn64 (rn12 x) < bpow radix2 1024)%R.
Proof.
  intros [P U]. apply Rle_lt_trans with (IZR max_num).
  - rewrite <- (round_generic radix2 (FLT_exp (-1074) 53) ZnearestE (IZR max_num) max_format).
    apply rn64_le. apply Rle_trans with (rn12 (IZR max_num)); [now apply rn12_le|].
    pose proof (twelve_digits_spec max_num 1 eq_refl eq_refl) as T.
    assert (D : twelve_digits max_num 1 = (179769313486, 308)) by (vm_compute; reflexivity).
    rewrite D in T. destruct T as [_ T]. unfold Rdiv in T. rewrite Rinv_1, Rmult_1_r in T. rewrite T.
    change (308 - 11) with 297. rewrite ten_Z, <- mult_IZR by lia. apply IZR_le. vm_compute. discriminate.
  - rewrite <- (IZR_Zpower radix2) by lia. apply IZR_lt. reflexivity.
Qed.

(** ** Floats *)
Lemma rn12_opp x : rn12 (- x) = (- rn12 x)%R. Proof. apply round_NE_opp. Qed.
Lemma rn64_opp x : rn64 (- x) = (- rn64 x)%R. Proof. apply round_NE_opp. Qed.
Lemma finite_format s m e : valid64 (S754_finite s m e) = true -> fmt64 (rv (S754_finite s m e)).
Proof.
  intros V. rewrite valid64_binary in V. pose proof (generic_format_B2R 53 1024 (SF2B (prec:=53) (emax:=1024) _ V)) as H.
  rewrite B2R_SF2B in H. exact H.
Qed.
Lemma finite_max m e : valid64 (S754_finite false m e) = true -> (0 < rv (S754_finite false m e) <= IZR max_num)%R.
Proof.
  intros V. split; [apply F2R_gt_0; reflexivity|].
  unfold valid64 in V. apply (bounded_spec 53 1024 m e eq_refl) in V. unfold emin in V.
  unfold rv, SF2R, F2R, max_num. cbn [cond_Zopp Fnum Fexp]. rewrite mult_IZR. replace (IZR (2 ^ 971)) with (bpow radix2 971).
  2:{ symmetry. exact (IZR_Zpower radix2 971 ltac:(discriminate)). }
  apply Rmult_le_compat; [apply IZR_le; lia|apply bpow_ge_0|apply IZR_le; lia|apply bpow_le; lia].
Qed.

Lemma read_back pv f : valid64 f = true -> exists g, float_of_text (text_of_float pv f) = Ok g /\ through_text f g.
Proof.
  intros V. destruct f as [s|s| |s m e].
  - exists (S754_zero s). split; [destruct s; vm_compute; reflexivity|]. split; [reflexivity|]. split; [|intros []; exact I].
    intros _. repeat split. unfold rv, SF2R, rn12. rewrite round_0 by apply valid_rnd_N. symmetry. exact rn64_0.
  - exists (S754_infinity s). split; [destruct s; vm_compute; reflexivity|]. split; [reflexivity|]. split; [intros []|reflexivity].
  - exists S754_nan. split; [vm_compute; reflexivity|]. split; [reflexivity|]. split; [intros []|reflexivity].
  - destruct (show_finite pv s m e V) as (u & E & P). pose proof (text_plain pv _ V) as TP. rewrite E in *.
    apply (printed_decimal pv s) in P. set (x := rv (S754_finite false m e)) in *.
    assert (V' : valid64 (S754_finite false m e) = true) by exact V.
    pose proof (finite_max m e V') as MX. fold x in MX. pose proof (finite_format false m e V') as FX. fold x in FX.
    destruct P as (sg & mt & ex & ip & fp & e' & E' & P').
    set (g := nearest_decimal s (ciphers_value (ip ++ fp)) (e' - zlen fp)).
    assert (NR : is_nearest s (rn12 x) g).
    { destruct P' as (_ & _ & F1 & F2 & _ & _ & ->). apply nearest_decimal_ok. apply ciphers_nonneg, Forall_app. auto. }
    exists g. split.
    + apply float_reads. exists (sign_bytes s ++ u). split.
      * apply plain_trimmed. revert TP. apply Forall_impl. tauto.
      * left. exists s, (rn12 x). split; [|exact NR]. exists sg, mt, ex, ip, fp, e'. auto.
    + destruct NR as (VG & A & _). split; [exact VG|]. split; [|intros []; exact I]. intros _.
      destruct (A (trip_finite x MX)) as (FG & RG & SG). repeat split; auto.
      rewrite signed_rv. fold x. rewrite RG. destruct s; cbn [signed]; [|reflexivity]. now rewrite rn12_opp, rn64_opp.
Qed.

Lemma odd_rv s m e : valid64 (S754_finite s m e) = true -> the_odd_double (S754_finite s m e) <->
  rv (S754_finite false m e) = (IZR odd_one * b64)%R.
Proof.
  intros V. unfold the_odd_double. rewrite signed_rv, abs_signed; [|apply Rlt_le, F2R_gt_0; reflexivity]. unfold odd_one.
  split; [tauto|]. intros H. split; [exact I|exact H].
Qed.
Lemma same_text pv s m e m' e' : valid64 (S754_finite s m e) = true -> valid64 (S754_finite s m' e') = true ->
  rn12 (rv (S754_finite false m e)) = rn12 (rv (S754_finite false m' e')) ->
  text_of_float pv (S754_finite s m e) = text_of_float pv (S754_finite s m' e').
Proof.
  intros V V' E. destruct (show_finite pv s m e V) as (u & -> & P). destruct (show_finite pv s m' e' V') as (u' & -> & P').
  f_equal. rewrite E in P. eapply printed_unique; eauto.
Qed.
Lemma trip_text pv f g : valid64 f = true -> through_text f g -> ~ the_odd_double f -> text_of_float pv g = text_of_float pv f.
Proof.
  intros V (VG & A & B) N. destruct f as [s|s| |s m e].
  - destruct (A I) as (FG & SG & RG). unfold rv at 2 in RG. cbn [SF2R] in RG. unfold rn12 in RG. rewrite round_0, rn64_0 in RG by apply valid_rnd_N.
    destruct g as [s'|s'| |s' m e]; try contradiction FG.
    + cbn in SG. now subst s'.
    + exfalso. rewrite signed_rv in RG. assert (H : (0 < rv (S754_finite false m e))%R) by (apply F2R_gt_0; reflexivity).
      destruct s'; cbn [signed] in RG; lra.
  - now rewrite (B (fun H => H)).
  - now rewrite (B (fun H => H)).
  - destruct (A I) as (FG & SG & RG). cbn [sign_SF] in SG.
    assert (V' : valid64 (S754_finite false m e) = true) by exact V.
    pose proof (finite_max m e V') as MX. pose proof (finite_format false m e V') as FX.
    set (x := rv (S754_finite false m e)) in *.
    assert (RG' : rv g = signed s (rn64 (rn12 x))).
    { rewrite RG, signed_rv. fold x. destruct s; cbn [signed]; [|reflexivity]. now rewrite rn12_opp, rn64_opp. }
    pose proof (trip_positive x (proj1 MX) FX) as TP.
    destruct g as [s'|s'| |s' m' e']; try contradiction FG.
    + exfalso. unfold rv at 1 in RG'. cbn [SF2R] in RG'. destruct s; cbn [signed] in RG'; lra.
    + cbn in SG. subst s'. symmetry. apply same_text; auto. fold x.
      assert (E : rv (S754_finite false m' e') = rn64 (rn12 x)).
      { rewrite signed_rv in RG'. destruct s; cbn [signed] in RG'; lra. }
      rewrite E. symmetry. apply stable; [lra|exact FX|]. intros H. apply N. apply odd_rv; auto.
Qed.

Lemma value_inj f g : valid64 f = true -> valid64 g = true -> finite_float f -> finite_float g -> sign_SF f = sign_SF g ->
  rv f = rv g -> f = g.
Proof. intros. apply (finite_inj 53 1024 Hp64 Hm64); auto; now apply finite_SF. Qed.
Lemma odd_text pv f g : valid64 f = true -> through_text f g -> the_odd_double f -> text_of_float pv g <> text_of_float pv f.
Proof.
  intros V (VG & A & _) (FF & R). destruct f as [s|s| |s m e]; try contradiction FF.
  - exfalso. unfold rv in R. cbn [SF2R] in R. rewrite Rabs_R0 in R. pose proof (bpow_gt_0 radix2 (-1074)). lra.
  - assert (E : S754_finite s m e = S754_finite s 202402253308 (-1074)).
    { apply value_inj; auto; try exact I. rewrite (signed_rv s 202402253308). f_equal.
      rewrite signed_rv in R |- *. rewrite abs_signed in R by (apply Rlt_le, F2R_gt_0; reflexivity). rewrite R. reflexivity. }
    destruct (A I) as (FG & SG & RG). cbn [sign_SF] in SG. rewrite E in *. clear E A R FF m e.
    destruct (read_back pv (S754_finite s 202402253308 (-1074)) V) as (g' & Eg & (VG' & A' & _)).
    destruct (A' I) as (FG' & SG' & RG'). cbn [sign_SF] in SG'.
    assert (g = g') as -> by (apply value_inj; auto; congruence).
    assert (C : float_of_text (text_of_float pv (S754_finite s 202402253308 (-1074))) = Ok (S754_finite s 202402253307 (-1074))).
    { destruct s, pv; vm_compute; reflexivity. }
    rewrite C in Eg. injection Eg as <-. clear. destruct s, pv; vm_compute; discriminate.
Qed.
Lemma short_exact f g : valid64 f = true -> through_text f g -> short_decimal f -> g = f.
Proof.
  intros V (VG & A & _) (FF & H). destruct (A FF) as (FG & SG & RG). apply value_inj; auto. rewrite RG. clear A RG SG FG VG.
  destruct H as [->|(n & j & N & B & ->)].
  - unfold rn12. rewrite round_0 by apply valid_rnd_N. exact rn64_0.
  - f_equal. set (y := (IZR n * ten j)%R) in *.
    assert (FY : fmt12 y).
    { apply generic_format_FLX. apply (FLX_spec radix10 12 y (Float radix10 n j)); [reflexivity|exact N]. }
    destruct (Rle_or_lt 0 y) as [P|P].
    + rewrite Rabs_pos_eq in B by exact P. now apply stable_normal.
    + rewrite Rabs_left in B by exact P. apply generic_format_opp in FY.
      pose proof (stable_normal (- y) FY B) as H. rewrite rn64_opp, rn12_opp in H. lra.
Qed.
