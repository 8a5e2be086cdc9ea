(** Proofs about str(float) (C96). *)
From Coq Require Import ZArith Lia Reals Psatz.
From Flocq Require Import Core BinarySingleNaN.
From Coq Require Import Floats.SpecFloat ZifyBool.
From Verif Require Import FloatText Lib SpecCodec SpecFloats SpecObjects SpecFloatText FloatProofs FloatRound FloatField ObjectTextProofs ObjectProofs FloatReadProofs.
Open Scope Z_scope.

Global Instance Hp12 : Prec_gt_0 12 := eq_refl _.

(** ** The decimal exponent *)
Lemma count_digits_spec fuel : forall z, 0 < z < 2 ^ (Z.of_nat fuel + 1) ->
  1 <= count_digits fuel z /\ 10 ^ (count_digits fuel z - 1) <= z < 10 ^ count_digits fuel z.
Proof.
  induction fuel as [|fuel IH]; intros z Hz; cbn [count_digits].
  - change (2 ^ (Z.of_nat 0 + 1)) with 2 in Hz. cbn. lia.
  - destruct (z <? 10) eqn:E.
    + cbn. lia.
    + assert (D : 0 < z / 10 < 2 ^ (Z.of_nat fuel + 1)).
      { split; [apply Z.div_str_pos; lia|]. apply Z.div_lt_upper_bound; [lia|].
        replace (Z.of_nat (S fuel) + 1) with (Z.succ (Z.of_nat fuel + 1)) in Hz by lia.
        rewrite Z.pow_succ_r in Hz by lia. lia. }
      destruct (IH _ D) as (C & L & U). set (n := count_digits fuel (z / 10)) in *.
      replace (1 + n - 1) with (Z.succ (n - 1)) by lia. rewrite Z.pow_succ_r by lia.
      replace (1 + n) with (Z.succ n) by lia. rewrite Z.pow_succ_r by lia.
      pose proof (Z.div_mod z 10 ltac:(lia)). pose proof (Z.mod_pos_bound z 10 ltac:(lia)). lia.
Qed.
Lemma decimal_digits_spec z : 0 < z -> 1 <= decimal_digits z /\ 10 ^ (decimal_digits z - 1) <= z < 10 ^ decimal_digits z.
Proof.
  intros H. apply count_digits_spec. split; [exact H|].
  pose proof (Z.log2_spec z H). pose proof (Z.log2_nonneg z). rewrite Z2Nat.id by lia.
  replace (Z.log2 z + 1) with (Z.succ (Z.log2 z)) by lia. lia.
Qed.

Lemma ten_add a b : ten (a + b) = (ten a * ten b)%R. Proof. apply bpow_plus. Qed.
Lemma ten_lt a b : a < b -> (ten a < ten b)%R. Proof. apply bpow_lt. Qed.
Lemma ten_le a b : a <= b -> (ten a <= ten b)%R. Proof. apply bpow_le. Qed.
Lemma ten_lt_inv a b : (ten a < ten b)%R -> a < b. Proof. apply lt_bpow. Qed.

Lemma decimal_exponent_spec num den : 0 < num -> 0 < den ->
  let k := decimal_exponent num den in (ten k <= IZR num / IZR den < ten (k + 1))%R.
Proof.
  intros Hn Hd. unfold decimal_exponent. assert (PD : (0 < IZR den)%R) by now apply (IZR_lt 0).
  assert (PN : (0 < IZR num)%R) by now apply (IZR_lt 0).
  destruct (den <=? num) eqn:E; cbv zeta.
  - assert (Q : 0 < num / den) by (apply Z.div_str_pos; lia).
    destruct (decimal_digits_spec _ Q) as (C & L & U). set (n := decimal_digits (num / den)) in *.
    replace (n - 1 + 1) with n by lia. rewrite !ten_Z by lia.
    pose proof (Z.div_mod num den ltac:(lia)) as D. pose proof (Z.mod_pos_bound num den Hd) as B.
    split.
    + apply Rmult_le_reg_r with (IZR den); [exact PD|]. unfold Rdiv. rewrite Rmult_assoc, Rinv_l, Rmult_1_r by lra.
      rewrite <- mult_IZR. apply IZR_le. nia.
    + apply Rmult_lt_reg_r with (IZR den); [exact PD|]. unfold Rdiv. rewrite Rmult_assoc, Rinv_l, Rmult_1_r by lra.
      rewrite <- mult_IZR. apply IZR_lt. nia.
  - assert (Q : 0 < (den - 1) / num) by (apply Z.div_str_pos; lia).
    destruct (decimal_digits_spec _ Q) as (C & L & U). set (n := decimal_digits ((den - 1) / num)) in *.
    pose proof (Z.div_mod (den - 1) num ltac:(lia)) as D. pose proof (Z.mod_pos_bound (den - 1) num Hn) as B.
    replace (- n + 1) with (- (n - 1)) by lia. rewrite !ten_opp, !ten_Z by lia.
    assert (P1 : 0 < 10 ^ n) by (apply Z.pow_pos_nonneg; lia).
    assert (P2 : 0 < 10 ^ (n - 1)) by (apply Z.pow_pos_nonneg; lia).
    pose proof (IZR_lt _ _ P1). pose proof (IZR_lt _ _ P2).
    split.
    + apply Rmult_le_reg_r with (IZR den * IZR (10 ^ n))%R; [nra|].
      replace (/ IZR (10 ^ n) * (IZR den * IZR (10 ^ n)))%R with (IZR den) by (field; lra).
      replace (IZR num / IZR den * (IZR den * IZR (10 ^ n)))%R with (IZR num * IZR (10 ^ n))%R by (field; lra).
      rewrite <- mult_IZR. apply IZR_le. nia.
    + apply Rmult_lt_reg_r with (IZR den * IZR (10 ^ (n - 1)))%R; [nra|].
      replace (/ IZR (10 ^ (n - 1)) * (IZR den * IZR (10 ^ (n - 1))))%R with (IZR den) by (field; lra).
      replace (IZR num / IZR den * (IZR den * IZR (10 ^ (n - 1))))%R with (IZR num * IZR (10 ^ (n - 1)))%R by (field; lra).
      rewrite <- mult_IZR. apply IZR_lt. nia.
Qed.

(** ** Rounding to an integer and to twelve digits *)
Lemma nearest_integer_spec num den : 0 < den -> nearest_integer num den = ZnearestE (IZR num / IZR den).
Proof.
  intros Hd. unfold nearest_integer, Znearest. rewrite Zfloor_div by lia.
  set (q := num / den). set (r := num mod den).
  assert (PD : (0 < IZR den)%R) by now apply (IZR_lt 0).
  pose proof (Z.div_mod num den ltac:(lia)) as D. fold q r in D. pose proof (Z.mod_pos_bound num den Hd) as B. fold r in B.
  assert (X : (IZR num / IZR den - IZR q = IZR r / IZR den)%R).
  { rewrite D, plus_IZR, mult_IZR. field. lra. }
  rewrite X.
  assert (C : Rcompare (IZR r / IZR den) (/ 2) = (2 * r ?= den)).
  { rewrite <- (Rcompare_mult_r (2 * IZR den)) by lra.
    replace (IZR r / IZR den * (2 * IZR den))%R with (IZR (2 * r)) by (rewrite mult_IZR; field; lra).
    replace (/ 2 * (2 * IZR den))%R with (IZR den) by field. apply Rcompare_IZR. }
  rewrite C. destruct (2 * r ?= den) eqn:E; [|reflexivity|].
  - apply Z.compare_eq in E.
    destruct (Z.even q) eqn:EV; cbn [negb]; [reflexivity|].
    symmetry. rewrite Zceil_floor_neq; [now rewrite Zfloor_div by lia|]. rewrite Zfloor_div by lia. fold q.
    intros H. apply Rminus_diag_eq in H. 
    assert (IZR r / IZR den = 0)%R by lra.
    assert (r = 0). { apply eq_IZR. apply Rmult_eq_reg_r with (/ IZR den)%R; [rewrite Rmult_0_l; assumption|]. apply Rinv_neq_0_compat. lra. }
    lia.
  - rewrite Z.compare_gt_iff in E. symmetry. rewrite Zceil_floor_neq; [now rewrite Zfloor_div by lia|]. rewrite Zfloor_div by lia. fold q.
    intros H. apply Rminus_diag_eq in H.
    assert (IZR r / IZR den = 0)%R by lra.
    assert (r = 0). { apply eq_IZR. apply Rmult_eq_reg_r with (/ IZR den)%R; [rewrite Rmult_0_l; assumption|]. apply Rinv_neq_0_compat. lra. }
    lia.
Qed.

Lemma rn12_at x k : (ten k <= x < ten (k + 1))%R -> rn12 x = (IZR (ZnearestE (x * ten (11 - k))) * ten (k - 11))%R.
Proof.
  intros H. unfold rn12, round, F2R, scaled_mantissa. cbn [Fnum Fexp].
  assert (M : mag radix10 x = k + 1 :> Z).
  { apply mag_unique. rewrite Rabs_pos_eq; [|pose proof (ten_pos k); lra]. unfold ten in H. now replace (k + 1 - 1) with k by lia. }
  unfold cexp. rewrite M. unfold FLX_exp. unfold ten.
  replace (- (k + 1 - 12)) with (11 - k) by lia. now replace (k + 1 - 12) with (k - 11) by lia.
Qed.
Lemma nearest_range n m x : (IZR n <= x <= IZR m)%R -> n <= ZnearestE x <= m.
Proof.
  intros [A B]. split.
  - rewrite <- (Zrnd_IZR ZnearestE n). now apply Zrnd_le; [apply valid_rnd_N|].
  - rewrite <- (Zrnd_IZR ZnearestE m). now apply Zrnd_le; [apply valid_rnd_N|].
Qed.
Definition twelve (d : Z) : Prop := 10 ^ 11 <= d < 10 ^ 12.
Lemma twelve_digits_spec num den : 0 < num -> 0 < den -> let '(d, k) := twelve_digits num den in
  twelve d /\ rn12 (IZR num / IZR den) = (IZR d * ten (k - 11))%R.
Proof.
  intros Hn Hd. unfold twelve_digits. pose proof (decimal_exponent_spec num den Hn Hd) as K. cbv zeta in K.
  set (k := decimal_exponent num den) in *. set (x := (IZR num / IZR den)%R) in *.
  assert (PD : (0 < IZR den)%R) by now apply (IZR_lt 0).
  set (d := if 0 <=? 11 - k then _ else _).
  assert (D : d = ZnearestE (x * ten (11 - k))).
  { unfold d. destruct (0 <=? 11 - k) eqn:E.
    - rewrite nearest_integer_spec by lia. f_equal. unfold x. rewrite mult_IZR, ten_Z by lia. field. lra.
    - assert (P : 0 < 10 ^ - (11 - k)) by (apply Z.pow_pos_nonneg; lia). pose proof (IZR_lt _ _ P).
      rewrite nearest_integer_spec by lia. f_equal. unfold x. replace (11 - k) with (- - (11 - k)) at 2 by lia.
      rewrite ten_opp, mult_IZR, ten_Z by lia. field. split; lra. }
  assert (R : 10 ^ 11 <= d <= 10 ^ 12).
  { rewrite D. apply nearest_range. rewrite <- !ten_Z by lia. pose proof (ten_pos (11 - k)).
    replace (ten 11) with (ten k * ten (11 - k))%R by (rewrite <- ten_add; f_equal; lia).
    replace (ten 12) with (ten (k + 1) * ten (11 - k))%R by (rewrite <- ten_add; f_equal; lia).
    split; apply Rmult_le_compat_r; lra. }
  rewrite (rn12_at x k K), <- D. destruct (d =? 10 ^ 12) eqn:E.
  - split; [unfold twelve; lia|]. replace d with (10 ^ 12) by lia. rewrite <- !ten_Z, <- !ten_add by lia. f_equal. lia.
  - split; [unfold twelve; lia|]. reflexivity.
Qed.

(** The digits and the power of ten are determined by the number. *)
Lemma twelve_size d k : twelve d -> (ten k <= IZR d * ten (k - 11) < ten (k + 1))%R.
Proof.
  intros [L U]. pose proof (ten_pos (k - 11)).
  replace (ten k) with (ten 11 * ten (k - 11))%R by (rewrite <- ten_add; f_equal; lia).
  replace (ten (k + 1)) with (ten 12 * ten (k - 11))%R by (rewrite <- ten_add; f_equal; lia).
  rewrite !ten_Z by lia. split; [apply Rmult_le_compat_r; [lra|]; now apply IZR_le|apply Rmult_lt_compat_r; [lra|]; now apply IZR_lt].
Qed.
Lemma twelve_unique d k d' k' : twelve d -> twelve d' -> (IZR d * ten (k - 11) = IZR d' * ten (k' - 11))%R -> d = d' /\ k = k'.
Proof.
  intros T T' E. pose proof (twelve_size d k T) as [A B]. pose proof (twelve_size d' k' T') as [A' B'].
  rewrite E in A, B.
  assert (k < k' + 1) by (apply ten_lt_inv; lra). assert (k' < k + 1) by (apply ten_lt_inv; lra).
  assert (k = k') by lia. subst k'. split; [|reflexivity]. apply eq_IZR.
  apply Rmult_eq_reg_r with (ten (k - 11)); [exact E|]. apply Rgt_not_eq, ten_pos.
Qed.

(** ** Digits *)
Lemma value_snoc a c : ciphers_value (a ++ [c]) = 10 * ciphers_value a + (byte_value c - 48).
Proof. unfold ciphers_value, in_base. now rewrite map_app, fold_left_app. Qed.
Lemma value_app a b : ciphers_value (a ++ b) = ciphers_value a * 10 ^ zlen b + ciphers_value b.
Proof.
  induction b as [|c b IH] using rev_ind.
  - rewrite app_nil_r. change (zlen (@nil byte)) with 0. change (ciphers_value []) with 0. lia.
  - rewrite app_assoc, !value_snoc, IH. rewrite zlen_app. change (zlen [c]) with 1.
    pose proof (zlen_nonneg b). rewrite Z.pow_add_r by lia. lia.
Qed.
Lemma value_bound l : Forall cipher l -> 0 <= ciphers_value l < 10 ^ zlen l.
Proof.
  induction l as [|c l IH] using rev_ind; intros F.
  - cbn. lia.
  - apply Forall_app in F as [F1 F2]. inversion F2 as [|? ? C _]; subst. specialize (IH F1).
    rewrite value_snoc, zlen_app. change (zlen [c]) with 1. pose proof (zlen_nonneg l).
    rewrite Z.pow_add_r by lia. unfold cipher in C. lia.
Qed.
Lemma digit_char_value z : 0 <= z < 10 -> byte_value (digit_char z) = 48 + z.
Proof. intros H. change (byte_value (digit_char z)) with (ord (chr (48 + z))). rewrite ord_chr. apply Z.mod_small. lia. Qed.
Lemma digits_text_spec n : forall z, 0 <= z < 10 ^ Z.of_nat n ->
  Forall cipher (digits_text n z) /\ List.length (digits_text n z) = n /\ ciphers_value (digits_text n z) = z.
Proof.
  induction n as [|n IH]; intros z Hz; cbn [digits_text].
  - change (10 ^ Z.of_nat 0) with 1 in Hz. repeat split; [constructor|]. cbn. lia.
  - pose proof (Z.mod_pos_bound z 10 ltac:(lia)) as B. pose proof (Z.div_mod z 10 ltac:(lia)) as D.
    assert (Q : 0 <= z / 10 < 10 ^ Z.of_nat n).
    { split; [apply Z.div_pos; lia|]. apply Z.div_lt_upper_bound; [lia|].
      replace (Z.of_nat (S n)) with (Z.succ (Z.of_nat n)) in Hz by lia. rewrite Z.pow_succ_r in Hz by lia. lia. }
    destruct (IH _ Q) as (F & L & V). repeat split.
    + apply Forall_app. split; [exact F|]. repeat constructor; rewrite digit_char_value; lia.
    + rewrite app_length, L. cbn. lia.
    + rewrite value_snoc, V, digit_char_value by lia. lia.
Qed.
Lemma byte_value_inj a b : byte_value a = byte_value b -> a = b.
Proof. intros H. rewrite <- (chr_ord a), <- (chr_ord b). f_equal. exact H. Qed.
Lemma digits_text_value l : Forall cipher l -> digits_text (List.length l) (ciphers_value l) = l.
Proof.
  induction l as [|c l IH] using rev_ind; intros F; [reflexivity|].
  apply Forall_app in F as [F1 F2]. inversion F2 as [|? ? C _]; subst. specialize (IH F1). unfold cipher in C.
  rewrite app_length. cbn [List.length]. rewrite Nat.add_1_r. cbn [digits_text]. rewrite value_snoc.
  replace ((10 * ciphers_value l + (byte_value c - 48)) / 10) with (ciphers_value l).
  2:{ apply (Z.div_unique_pos _ _ _ (byte_value c - 48)); lia. }
  replace ((10 * ciphers_value l + (byte_value c - 48)) mod 10) with (byte_value c - 48).
  2:{ apply (Z.mod_unique_pos _ _ (ciphers_value l)); lia. }
  rewrite IH. do 2 f_equal. apply byte_value_inj. rewrite digit_char_value; lia.
Qed.
Lemma zeros_value n : ciphers_value (repeat x30 n) = 0.
Proof.
  induction n as [|n IH]; [reflexivity|]. change (repeat x30 (S n)) with ([x30] ++ repeat x30 n). rewrite value_app, IH. cbn. lia.
Qed.
Lemma cipher_zero : cipher x30. Proof. unfold cipher, byte_value. cbn. lia. Qed.
Lemma zeros_ciphers n : Forall cipher (repeat x30 n).
Proof. induction n; cbn; constructor; auto using cipher_zero. Qed.
Lemma zlen_repeat n : zlen (repeat x30 n) = Z.of_nat n.
Proof. unfold zlen. now rewrite repeat_length. Qed.
Lemma rev_repeat_zero n : rev (repeat x30 n) = repeat x30 n.
Proof.
  induction n as [|n IH]; [reflexivity|]. cbn [repeat rev]. rewrite IH. clear. induction n; cbn; congruence.
Qed.

Lemma lstrip_zeros s : exists n, s = repeat x30 n ++ lstrip_by (Byte.eqb x30) s /\
  forall r, lstrip_by (Byte.eqb x30) s <> x30 :: r.
Proof.
  induction s as [|b s (n & E & N)]; cbn [lstrip_by].
  - exists 0%nat. split; [reflexivity|discriminate].
  - destruct (Byte.eqb x30 b) eqn:EB.
    + apply byte_eqb_iff in EB as <-. exists (S n). split; [cbn; now rewrite <- E|exact N].
    + exists 0%nat. split; [reflexivity|]. intros r [= -> _]. discriminate EB.
Qed.
Lemma strip_zeros_spec s : exists n, s = strip_zeros s ++ repeat x30 n /\ forall r, strip_zeros s <> r ++ [x30].
Proof.
  unfold strip_zeros. destruct (lstrip_zeros (rev s)) as (n & E & N). exists n. split.
  - rewrite <- (rev_involutive s) at 1. rewrite E at 1. now rewrite rev_app_distr, rev_repeat_zero.
  - intros r H. apply (f_equal (@rev byte)) in H. rewrite rev_involutive, rev_app_distr in H. cbn in H. now apply N in H.
Qed.
Lemma strip_zeros_app ds n : (forall r, ds <> r ++ [x30]) -> strip_zeros (ds ++ repeat x30 n) = ds.
Proof.
  intros N. unfold strip_zeros. rewrite rev_app_distr, rev_repeat_zero.
  assert (E : lstrip_by (Byte.eqb x30) (repeat x30 n ++ rev ds) = rev ds).
  { induction n as [|n IH]; [|exact IH]. cbn [repeat app].
    destruct (rev ds) as [|c l] eqn:ER; [reflexivity|]. cbn [lstrip_by]. rewrite byte_eqb_no; [reflexivity|].
    intros <-. apply (f_equal (@rev byte)) in ER. rewrite rev_involutive in ER. cbn in ER. now apply N in ER. }
  now rewrite E, rev_involutive.
Qed.

(** The significant digits of a twelve-digit number. *)
Lemma significant_of d : twelve d -> let ds := strip_zeros (digits_text 12 d) in
  significant ds /\ d = ciphers_value ds * 10 ^ (12 - zlen ds).
Proof.
  intros [L U] ds. destruct (digits_text_spec 12 d) as (F & N & V); [change (Z.of_nat 12) with 12; lia|].
  destruct (strip_zeros_spec (digits_text 12 d)) as (n & E & T). fold ds in E, T.
  rewrite E in F, N, V. apply Forall_app in F as [F _]. rewrite app_length, repeat_length in N.
  assert (Z12 : zlen ds + Z.of_nat n = 12) by (unfold zlen; lia).
  rewrite value_app, zeros_value, zlen_repeat in V.
  assert (V' : d = ciphers_value ds * 10 ^ (12 - zlen ds)) by (replace (12 - zlen ds) with (Z.of_nat n) by lia; lia).
  split; [|exact V']. repeat split; auto.
  - intros r Er. rewrite Er in V', F, Z12. assert (Fr : Forall cipher r) by now inversion F.
    change (x30 :: r) with ([x30] ++ r) in V'. rewrite value_app in V'. change (ciphers_value [x30]) with 0 in V'.
    change ([x30] ++ r) with (x30 :: r) in V'. rewrite zlen_cons in *. pose proof (value_bound r Fr). pose proof (zlen_nonneg r).
    assert (10 ^ 11 = 10 ^ zlen r * 10 ^ (12 - (1 + zlen r))) by (rewrite <- Z.pow_add_r by lia; f_equal; lia).
    assert (0 < 10 ^ (12 - (1 + zlen r))) by (apply Z.pow_pos_nonneg; lia). nia.
  - intros Ed. rewrite Ed in V'. cbn in V'. lia.
  - lia.
Qed.
Lemma significant_twelve ds : significant ds -> let d := ciphers_value ds * 10 ^ (12 - zlen ds) in
  twelve d /\ strip_zeros (digits_text 12 d) = ds.
Proof.
  intros (F & H1 & H2 & NE & L) d. pose proof (value_bound ds F) as B. pose proof (zlen_nonneg ds) as Z0.
  assert (P : 0 < 10 ^ (12 - zlen ds)) by (apply Z.pow_pos_nonneg; lia).
  split.
  - unfold twelve, d. destruct ds as [|c ds]; [contradiction|]. inversion F as [|? ? C Fr]; subst.
    change (c :: ds) with ([c] ++ ds) in *. rewrite value_app in *. change (ciphers_value [c]) with (0 + (byte_value c - 48)) in *.
    rewrite zlen_app in *. change (zlen [c]) with 1 in *. pose proof (value_bound ds Fr). pose proof (zlen_nonneg ds).
    assert (48 < byte_value c).
    { unfold cipher in C. assert (byte_value c <> 48); [|lia]. intros E. apply (H1 ds). cbn [app]. f_equal. now apply byte_value_inj. }
    assert (10 ^ 12 = 10 ^ (1 + zlen ds) * 10 ^ (12 - (1 + zlen ds))) by (rewrite <- Z.pow_add_r by lia; f_equal; lia).
    assert (10 ^ 11 = 10 ^ zlen ds * 10 ^ (12 - (1 + zlen ds))) by (rewrite <- Z.pow_add_r by lia; f_equal; lia).
    split; [|nia]. assert (0 < 10 ^ zlen ds) by (apply Z.pow_pos_nonneg; lia). nia.
  - assert (E : digits_text 12 d = ds ++ repeat x30 (Z.to_nat (12 - zlen ds))).
    { replace d with (ciphers_value (ds ++ repeat x30 (Z.to_nat (12 - zlen ds)))).
      - replace 12%nat with (List.length (ds ++ repeat x30 (Z.to_nat (12 - zlen ds)))).
        + apply digits_text_value. apply Forall_app. split; [exact F|apply zeros_ciphers].
        + rewrite app_length, repeat_length. unfold zlen in *. lia.
      - rewrite value_app, zeros_value, zlen_repeat, Z2Nat.id by lia. unfold d. lia. }
    rewrite E. now apply strip_zeros_app.
Qed.

(** ** The layout *)
Lemma exponent_digits_text n x : exponent_digits n x -> n < 1000 /\
  x = if n <? 100 then digits_text 2 n else digits_text 3 n.
Proof.
  intros [a b A B|a b c A B C N].
  - pose proof (value_bound [a; b] ltac:(auto)) as V. change (10 ^ zlen [a; b]) with 100 in V.
    split; [lia|]. destruct (ciphers_value [a; b] <? 100) eqn:E; [|lia]. symmetry. apply (digits_text_value [a; b]). auto.
  - pose proof (value_bound [a; b; c] ltac:(auto)) as V. change (10 ^ zlen [a; b; c]) with 1000 in V.
    split; [lia|].
    assert (ciphers_value [a; b; c] = (byte_value a - 48) * 100 + ciphers_value [b; c]).
    { change [a; b; c] with ([a] ++ [b; c]). rewrite value_app. change (ciphers_value [a]) with (0 + (byte_value a - 48)).
      change (10 ^ zlen [b; c]) with 100. lia. }
    pose proof (value_bound [b; c] ltac:(auto)). unfold cipher in A.
    assert (byte_value a <> 48) by (intros E; apply N; now apply byte_value_inj).
    destruct (ciphers_value [a; b; c] <? 100) eqn:E; [lia|]. symmetry. apply (digits_text_value [a; b; c]). auto.
Qed.
Lemma exponent_digits_ok n : 0 <= n < 1000 -> exponent_digits n (if n <? 100 then digits_text 2 n else digits_text 3 n).
Proof.
  intros H. destruct (n <? 100) eqn:E.
  - destruct (digits_text_spec 2 n) as (F & L & V); [change (10 ^ Z.of_nat 2) with 100; lia|].
    destruct (digits_text 2 n) as [|a [|b [|]]]; try discriminate L. rewrite <- V. inversion F as [|? ? A F']; subst. inversion F'; subst.
    now constructor.
  - destruct (digits_text_spec 3 n) as (F & L & V); [change (10 ^ Z.of_nat 3) with 1000; lia|].
    destruct (digits_text 3 n) as [|a [|b [|c [|]]]]; try discriminate L. rewrite <- V. inversion F as [|? ? A F']; subst. inversion F' as [|? ? B F'']; subst.
    inversion F''; subst. constructor; auto. intros ->.
    assert (ciphers_value [x30; b; c] = ciphers_value [b; c]) by reflexivity.
    pose proof (value_bound [b; c] ltac:(auto)) as W. change (10 ^ zlen [b; c]) with 100 in W. lia.
Qed.

Lemma layout_printed pv d k : twelve d -> -1000 < k < 1000 -> printed_as pv (IZR d * ten (k - 11)) (lay_out pv d k).
Proof.
  intros T K. destruct (significant_of d T) as [S V]. unfold lay_out. set (ds := strip_zeros (digits_text 12 d)) in *.
  clearbody ds. exists ds, k. split; [exact S|]. destruct S as (F & H1 & H2 & NE & L). split.
  { rewrite V, mult_IZR, <- ten_Z, Rmult_assoc, <- ten_add by lia. do 2 f_equal. lia. }
  change (match pv with Py26 => 12 | Py27 => 11 end) with (exponent_from pv).
  assert (EF : 0 < exponent_from pv) by (destruct pv; cbn; lia).
  destruct ((k <? -4) || (exponent_from pv <=? k)) eqn:E.
  - left. split; [lia|]. destruct ds as [|c fp]; [contradiction|]. cbn [firstn skipn].
    replace (match fp with [] => [] | f :: f' => x2e :: f :: f' end) with (match fp with [] => [] | _ => [x2e] ++ fp end)
      by (now destruct fp).
    apply (scientific (c :: fp) k c fp); [reflexivity|]. apply exponent_digits_ok. lia.
  - right. split; [lia|]. destruct (0 <=? k) eqn:E0.
    + set (n := Z.to_nat (k + 1)). destruct (skipn n ds) as [|f0 f] eqn:ES.
      * assert (LE : (List.length ds <= n)%nat).
        { pose proof (skipn_length n ds) as SL. rewrite ES in SL. cbn in SL. lia. }
        rewrite firstn_all2 by exact LE.
        replace (repeat x30 (n - List.length ds)) with (zeros (k + 1 - zlen ds)) by (unfold zeros, zlen, n; f_equal; lia).
        apply integral. unfold zlen, n in *. lia.
      * assert (LT : (n < List.length ds)%nat).
        { pose proof (skipn_length n ds) as SL. rewrite ES in SL. cbn in SL. lia. }
        replace (n - List.length ds)%nat with 0%nat by lia. cbn [repeat app].
        rewrite <- ES. apply (mixed ds k (firstn n ds) (skipn n ds)).
        -- now rewrite firstn_skipn.
        -- unfold zlen. rewrite firstn_length. unfold n in *. lia.
        -- intros H. apply (f_equal (@List.length byte)) in H. rewrite firstn_length in H. cbn in H. unfold n in *. lia.
        -- rewrite ES. discriminate.
    + apply below_one. lia.
Qed.
Lemma printed_layout pv x t : printed_as pv x t -> exists d k, twelve d /\ x = (IZR d * ten (k - 11))%R /\ t = lay_out pv d k.
Proof.
  intros (ds & k & S & X & H). destruct (significant_twelve ds S) as [T E].
  destruct S as (F & H1 & H2 & NE & L). pose proof (zlen_nonneg ds) as Z0.
  exists (ciphers_value ds * 10 ^ (12 - zlen ds)), k. split; [exact T|]. split.
  { rewrite X, mult_IZR, <- ten_Z, Rmult_assoc, <- ten_add by lia. do 2 f_equal. lia. }
  unfold lay_out. rewrite E. change (match pv with Py26 => 12 | Py27 => 11 end) with (exponent_from pv).
  assert (EF : 0 < exponent_from pv) by (destruct pv; cbn; lia).
  destruct H as [[K P]|[K P]].
  - replace ((k <? -4) || (exponent_from pv <=? k)) with true by lia.
    destruct P as [c fp x' -> D]. cbn [firstn skipn]. apply exponent_digits_text in D as [_ ->]. now destruct fp.
  - replace ((k <? -4) || (exponent_from pv <=? k)) with false by lia.
    destruct P as [K'|K'|ip fp -> LI NI NF].
    + now replace (0 <=? k) with false by lia.
    + assert (0 < zlen ds) by (destruct ds; [contradiction|rewrite zlen_cons; pose proof (zlen_nonneg ds); lia]).
      replace (0 <=? k) with true by lia. set (n := Z.to_nat (k + 1)).
      assert (LE : (List.length ds <= n)%nat) by (unfold zlen, n in *; lia).
      rewrite firstn_all2, skipn_all2 by exact LE. do 2 f_equal. unfold zeros, zlen, n. f_equal. lia.
    + assert (0 < zlen ip) by (destruct ip as [|c ip]; [contradiction|rewrite zlen_cons; pose proof (zlen_nonneg ip); lia]).
      replace (0 <=? k) with true by lia. set (n := Z.to_nat (k + 1)).
      assert (n = List.length ip) as -> by (unfold zlen, n in *; lia).
      rewrite firstn_app, skipn_app, Nat.sub_diag, firstn_all, skipn_all. cbn [firstn skipn app]. rewrite app_nil_r, app_length.
      replace (List.length ip - (List.length ip + List.length fp))%nat with 0%nat by lia. cbn [repeat app].
      destruct fp; [contradiction|reflexivity].
Qed.
Lemma printed_unique pv x t t' : printed_as pv x t -> printed_as pv x t' -> t = t'.
Proof.
  intros H H'. apply printed_layout in H as (d & k & T & X & ->). apply printed_layout in H' as (d' & k' & T' & X' & ->).
  destruct (twelve_unique d k d' k' T T') as [-> ->]; [congruence|reflexivity].
Qed.

(** ** Doubles *)
Lemma rn12_pos_bounds x a b : (ten a <= x <= ten b)%R -> (ten a <= rn12 x <= ten b)%R.
Proof.
  assert (G : forall k, rn12 (ten k) = ten k).
  { intros k. apply round_generic; [apply valid_rnd_N|]. apply generic_format_bpow. unfold FLX_exp. lia. }
  intros [A B]. split; [rewrite <- (G a)|rewrite <- (G b)]; apply round_le; auto; try apply valid_rnd_N; apply FLX_exp_valid; exact Hp12.
Qed.
Lemma double_range m e : valid64 (S754_finite false m e) = true ->
  (ten (-324) < rv (S754_finite false m e) < ten 309)%R.
Proof.
  intros V. pose proof V as B. rewrite valid64_binary in B.
  pose proof (abs_B2R_lt_emax 53 1024 (SF2B (prec:=53) (emax:=1024) _ B)) as U. rewrite B2R_SF2B in U.
  assert (P : (0 < rv (S754_finite false m e))%R) by (apply F2R_gt_0; reflexivity).
  change (SF2R radix2 (S754_finite false m e)) with (rv (S754_finite false m e)) in U.
  rewrite Rabs_pos_eq in U by lra. split.
  - apply Rlt_le_trans with (bpow radix2 (-1074)).
    + change (-324) with (- (324)). change (-1074) with (- (1074)). rewrite ten_opp, bpow_opp, ten_Z by lia.
      rewrite <- (IZR_Zpower radix2) by lia. apply Rinv_lt_contravar.
      * rewrite <- mult_IZR. apply IZR_lt. reflexivity.
      * apply IZR_lt. reflexivity.
    + unfold valid64 in V. apply (bounded_spec 53 1024 m e eq_refl) in V. unfold emin in V.
      unfold rv, SF2R, F2R. cbn [cond_Zopp Fnum Fexp].
      rewrite <- (Rmult_1_l (bpow radix2 (-1074))). apply Rmult_le_compat; [lra|apply bpow_ge_0|apply IZR_le; lia|apply bpow_le; lia].
  - apply Rlt_trans with (1 := U). rewrite ten_Z by lia. rewrite <- (IZR_Zpower radix2) by lia. apply IZR_lt. reflexivity.
Qed.
Lemma signed_rv s m e : rv (S754_finite s m e) = signed s (rv (S754_finite false m e)).
Proof.
  unfold rv, SF2R. destruct s; cbn [cond_Zopp signed]; [|reflexivity]. now rewrite <- F2R_Zopp.
Qed.
Lemma fraction_of m e : rv (S754_finite false m e) =
  if 0 <=? e then (IZR (Z.pos m * 2 ^ e) / IZR 1)%R else (IZR (Z.pos m) / IZR (2 ^ - e))%R.
Proof.
  unfold rv, SF2R, F2R. cbn [cond_Zopp Fnum Fexp]. destruct (0 <=? e) eqn:E.
  - rewrite mult_IZR, (IZR_Zpower radix2) by lia. field.
  - unfold Rdiv. f_equal. rewrite (IZR_Zpower radix2), <- bpow_opp by lia. f_equal. lia.
Qed.
Definition sign_bytes (s : bool) : bytes := if s then [x2d] else [].
(** The text of a finite nonzero float *)
Lemma show_finite pv s m e : valid64 (S754_finite s m e) = true -> exists u,
  text_of_float pv (S754_finite s m e) = sign_bytes s ++ u /\
  printed_as pv (rn12 (rv (S754_finite false m e))) u.
Proof.
  intros V. change (valid64 (S754_finite s m e)) with (valid64 (S754_finite false m e)) in V.
  cbn [text_of_float].
  assert (H : let '(d, k) := if 0 <=? e then twelve_digits (Z.pos m * 2 ^ e) 1 else twelve_digits (Z.pos m) (2 ^ - e) in
    twelve d /\ rn12 (rv (S754_finite false m e)) = (IZR d * ten (k - 11))%R).
  { rewrite fraction_of. destruct (0 <=? e) eqn:E.
    - apply twelve_digits_spec; [|lia]. assert (0 < 2 ^ e) by (apply Z.pow_pos_nonneg; lia). lia.
    - apply twelve_digits_spec; [lia|]. apply Z.pow_pos_nonneg; lia. }
  destruct (if 0 <=? e then _ else _) as [d k]. destruct H as [T R].
  exists (lay_out pv d k). split; [reflexivity|]. rewrite R. apply layout_printed; [exact T|].
  pose proof (double_range m e V) as [A B].
  assert (C : (ten (-324) <= rn12 (rv (S754_finite false m e)) <= ten 309)%R) by (apply rn12_pos_bounds; lra).
  rewrite R in C. pose proof (twelve_size d k T) as [D E].
  assert (k < 310) by (apply ten_lt_inv; apply Rle_lt_trans with (ten 309); [lra|apply ten_lt; lia]).
  assert (-324 < k + 1) by (apply ten_lt_inv; lra). lia.
Qed.
