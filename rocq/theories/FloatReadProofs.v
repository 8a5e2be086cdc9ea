(** Proofs about float(text) (C95). *)
From Coq Require Import ZArith Lia Reals Psatz.
From Flocq Require Import Core BinarySingleNaN.
From Coq Require Import Floats.SpecFloat ZifyBool.
From Verif Require Import FloatText Lib SpecCodec SpecFloats SpecObjects SpecFloatText FloatProofs FloatRound FloatField ObjectTextProofs ObjectProofs.
Open Scope Z_scope.

Lemma ten_Z k : 0 <= k -> ten k = IZR (10 ^ k).
Proof. intros H. unfold ten. now rewrite <- (IZR_Zpower radix10). Qed.
Lemma ten_pos k : (0 < ten k)%R. Proof. apply bpow_gt_0. Qed.
Lemma ten_opp k : ten (- k) = (/ ten k)%R. Proof. apply bpow_opp. Qed.

Lemma signed_opp neg x : rn64 (signed neg x) = signed neg (rn64 x).
Proof. destruct neg; [|reflexivity]. unfold signed, rn64. apply round_NE_opp. Qed.
Lemma rn64_nonneg x : (0 <= x)%R -> (0 <= rn64 x)%R.
Proof. intros H. rewrite <- rn64_0. now apply rn64_le. Qed.
Lemma abs_signed neg x : (0 <= x)%R -> Rabs (signed neg x) = x.
Proof. intros H. destruct neg; cbn; [rewrite Rabs_Ropp|]; now apply Rabs_pos_eq. Qed.

Lemma nearest_intro neg x f : (0 <= x)%R -> valid64 f = true ->
  (if Rlt_bool (Rabs (rn64 (signed neg x))) (bpow radix2 1024)
   then rv f = rn64 (signed neg x) /\ is_finite_SF f = true /\ sign_SF f = neg
   else f = binary_overflow 53 1024 mode_NE neg) -> is_nearest neg x f.
Proof.
  intros P V H. rewrite signed_opp, abs_signed in H by now apply rn64_nonneg.
  split; [exact V|]. split; intros B.
  - rewrite Rlt_bool_true in H by exact B. destruct H as (R & F & S). repeat split; auto. now apply finite_SF.
  - rewrite Rlt_bool_false in H by exact B. exact H.
Qed.
Lemma F2R_0 n : F2R (beta := radix2) {| Fnum := n; Fexp := 0 |} = IZR n.
Proof. unfold F2R. cbn. ring. Qed.
Lemma IZR_cond neg p : IZR (cond_Zopp neg (Z.pos p)) = signed neg (IZR (Z.pos p)).
Proof. destruct neg; cbn [cond_Zopp signed]; [apply opp_IZR|reflexivity]. Qed.
Lemma signed_mul neg a b : signed neg (a * b) = (signed neg a * b)%R.
Proof. destruct neg; cbn; ring. Qed.

Lemma nearest_decimal_ok neg m e : 0 <= m -> is_nearest neg (IZR m * ten e) (nearest_decimal neg m e).
Proof.
  intros P. assert (N : (0 <= IZR m * ten e)%R).
  { apply Rmult_le_pos; [now apply IZR_le|]. apply Rlt_le, ten_pos. }
  destruct m as [|p|p]; [| |lia].
  - rewrite Rmult_0_l. split; [reflexivity|]. rewrite rn64_0. split; intros H.
    + repeat split. destruct neg; cbn; lra.
    + exfalso. pose proof (bpow_gt_0 radix2 1024). lra.
  - unfold nearest_decimal. destruct (0 <=? e) eqn:E.
    + apply nearest_intro; [exact N|..].
      * rewrite binary_round_equiv, valid64_binary. apply (binary_round_correct 53 1024 Hp64 Hm64 mode_NE).
      * rewrite binary_round_equiv.
        set (q := Z.to_pos (Z.pos p * 10 ^ e)).
        assert (Q : Z.pos q = Z.pos p * 10 ^ e).
        { unfold q. rewrite Z2Pos.id; [reflexivity|]. assert (0 < 10 ^ e) by (apply Z.pow_pos_nonneg; lia). lia. }
        destruct (binary_round_correct 53 1024 Hp64 Hm64 mode_NE neg q 0) as [_ H].
        rewrite F2R_0, IZR_cond, Q, mult_IZR, <- ten_Z in H by lia. exact H.
    + apply nearest_intro; [exact N|..];
        unfold fdiv, SFdiv;
        set (q := Z.to_pos (10 ^ - e));
        (assert (Q : Z.pos q = 10 ^ - e) by (unfold q; rewrite Z2Pos.id; [reflexivity|]; apply Z.pow_pos_nonneg; lia));
        pose proof (Bdiv_correct_aux 53 1024 Hp64 Hm64 mode_NE neg p 0 false q 0) as [V H];
        destruct (SFdiv_core_binary 53 1024 (Z.pos p) 0 (Z.pos q) 0) as [[mz ez] lz];
        rewrite binary_round_aux_equiv; rewrite xorb_false_r in V, H |- *.
      * exact V.
      * rewrite !F2R_0, IZR_cond in H. cbn [cond_Zopp] in H. rewrite Q, <- ten_Z, ten_opp in H by lia.
        unfold Rdiv in H. rewrite Rinv_inv, <- signed_mul in H. exact H.
Qed.

(** ** Reading *)
Lemma digit_cipher c : is_digit c = true <-> cipher c.
Proof. unfold is_digit, cipher, ord, byte_value. lia. Qed.
Lemma digits_value_spec ds : digits_value ds = ciphers_value ds.
Proof.
  unfold digits_value, ciphers_value, in_base. generalize 0.
  induction ds as [|d ds IH]; intros a; cbn [map fold_left]; [reflexivity|]. apply IH.
Qed.
Lemma take_digits_spec s : let '(d, r) := take_digits s in
  s = d ++ r /\ Forall cipher d /\ (forall c r', r = c :: r' -> ~ cipher c).
Proof.
  induction s as [|b s IH]; cbn [take_digits].
  - repeat split; [constructor|discriminate].
  - destruct (is_digit b) eqn:E.
    + destruct (take_digits s) as [d r]. destruct IH as (-> & F & N). repeat split; auto.
      constructor; [now apply digit_cipher|exact F].
    + repeat split; [constructor|]. intros c r' [= <- <-] C. apply digit_cipher in C. congruence.
Qed.
Lemma take_digits_app d r : Forall cipher d -> (forall c r', r = c :: r' -> ~ cipher c) -> take_digits (d ++ r) = (d, r).
Proof.
  intros F N. induction F as [|c d C F IH]; cbn [app take_digits].
  - destruct r as [|c r]; [reflexivity|]. cbn. destruct (is_digit c) eqn:E; [|reflexivity].
    apply digit_cipher in E. exfalso. now apply (N c r).
  - apply digit_cipher in C. now rewrite C, IH.
Qed.
Lemma byte_eqb_iff a b : Byte.eqb a b = true <-> a = b.
Proof. split; [apply Byte.byte_dec_bl|apply Byte.byte_dec_lb]. Qed.
Lemma byte_eqb_no a b : a <> b -> Byte.eqb a b = false.
Proof. intros H. destruct (Byte.eqb a b) eqn:E; [|reflexivity]. now apply byte_eqb_iff in E. Qed.

Lemma take_sign_spec s : let '(neg, r) := take_sign s in exists sg, s = sg ++ r /\ sign_text sg neg.
Proof.
  destruct s as [|b s]; cbn; [exists []; split; [reflexivity|constructor]|].
  destruct (Byte.eqb b x2d) eqn:E1; [apply byte_eqb_iff in E1 as ->; exists [x2d]; split; [reflexivity|constructor]|].
  destruct (Byte.eqb b x2b) eqn:E2; [apply byte_eqb_iff in E2 as ->; exists [x2b]; split; [reflexivity|constructor]|].
  exists []; split; [reflexivity|constructor].
Qed.
Definition unsigned (s : bytes) : Prop := forall r, s <> x2d :: r /\ s <> x2b :: r.
Lemma take_sign_app sg neg r : sign_text sg neg -> unsigned r -> take_sign (sg ++ r) = (neg, r).
Proof.
  intros S U. destruct S; cbn; try reflexivity. destruct r as [|b r]; [reflexivity|]. cbn.
  destruct (U r) as [U1 U2]. rewrite !byte_eqb_no; [reflexivity|congruence..].
Qed.
Lemma cipher_unsigned c : cipher c -> c <> x2d /\ c <> x2b.
Proof. intros C. split; intros ->; unfold cipher, byte_value in C; cbn in C; lia. Qed.

Lemma lower_letter a b : 97 <= byte_value b <= 122 -> (lower_byte a = b <-> same_letter a b).
Proof.
  intros B. unfold lower_byte, same_letter. change (ord a) with (byte_value a).
  destruct ((65 <=? byte_value a) && (byte_value a <=? 90)) eqn:E.
  - assert (R : byte_value (chr (byte_value a + 32)) = byte_value a + 32).
    { change (byte_value (chr (byte_value a + 32))) with (ord (chr (byte_value a + 32))). rewrite ord_chr. apply Z.mod_small. lia. }
    split.
    + intros <-. right. now rewrite R.
    + intros [->|H]; [lia|]. rewrite H. change (byte_value b) with (ord b). apply chr_ord.
  - split; [intros ->; now left|]. intros [H|H]; [exact H|]. lia.
Qed.
Lemma same_word_iff w s : Forall (fun b => 97 <= byte_value b <= 122) (bytes_of_string w) ->
  same_word (bytes_of_string w) s = true <-> spells w s.
Proof.
  intros L. unfold same_word, spells. destruct (list_eq_dec Byte.byte_eq_dec (map lower_byte s) (bytes_of_string w)) as [E|E];
    (split; [intros H; try discriminate H|intros H; try reflexivity; exfalso]).
  - revert s E. clear H. induction L as [|b l B L IH]; intros [|a s]; cbn; try discriminate; [constructor|].
    intros [= E1 E2]. constructor; [now apply lower_letter|now apply IH].
  - apply E. clear E. revert s H. induction L as [|b l B L IH]; intros s H; inversion H; subst; [reflexivity|].
    cbn. f_equal; [now apply lower_letter|now apply IH].
Qed.
Lemma letters_inf : Forall (fun b => 97 <= byte_value b <= 122) (bytes_of_string "inf").
Proof. repeat constructor; cbn; lia. Qed.
Lemma letters_infinity : Forall (fun b => 97 <= byte_value b <= 122) (bytes_of_string "infinity").
Proof. repeat constructor; cbn; lia. Qed.
Lemma letters_nan : Forall (fun b => 97 <= byte_value b <= 122) (bytes_of_string "nan").
Proof. repeat constructor; cbn; lia. Qed.

Lemma read_exponent_sound s e : read_exponent s = Some e -> exponent_part s e.
Proof.
  destruct s as [|b s]; cbn [read_exponent]; [intros [= <-]; constructor|].
  destruct (Byte.eqb b x65 || Byte.eqb b x45) eqn:E; [|discriminate].
  pose proof (take_sign_spec s) as H. destruct (take_sign s) as [neg r]. destruct H as (sg & -> & S).
  pose proof (take_digits_spec r) as H. destruct (take_digits r) as [ds r']. destruct H as (-> & F & _).
  destruct ds as [|d ds]; [discriminate|]. destruct r' as [|c r']; [|discriminate]. intros [= <-].
  rewrite app_nil_r, digits_value_spec. constructor; auto; [|discriminate].
  apply orb_true_iff in E as [E|E]; apply byte_eqb_iff in E as ->; cbn; auto.
Qed.
Lemma ciphers_unsigned ds : Forall cipher ds -> unsigned ds.
Proof. intros F. destruct F as [|c l C F]; intros r; split; try discriminate; intros [= -> _]; now apply cipher_unsigned in C. Qed.
Lemma read_exponent_complete s e : exponent_part s e -> read_exponent s = Some e.
Proof.
  intros [|c sg neg ds I S F N]; [reflexivity|]. cbn [read_exponent].
  assert (E : Byte.eqb c x65 || Byte.eqb c x45 = true) by (cbn in I; destruct I as [<-|[<-|[]]]; reflexivity).
  rewrite E, (take_sign_app sg neg ds S) by now apply ciphers_unsigned.
  rewrite <- (app_nil_r ds) at 1. rewrite take_digits_app by (auto; discriminate).
  destruct ds as [|d ds]; [contradiction|]. now rewrite digits_value_spec.
Qed.

(** The text after the sign *)
Definition float_body (neg : bool) (s1 : bytes) : res pyfloat :=
  if same_word (bytes_of_string "inf") s1 || same_word (bytes_of_string "infinity") s1
  then Ok (S754_infinity neg)
  else if same_word (bytes_of_string "nan") s1 then Ok S754_nan
  else
    let '(ip, s2) := take_digits s1 in
    let '(fp, s3) := match s2 with
                     | b :: s' => if Byte.eqb b x2e then take_digits s' else ([], s2)
                     | [] => ([], [])
                     end in
    match ip ++ fp, read_exponent s3 with
    | _ :: _, Some e => Ok (nearest_decimal neg (digits_value (ip ++ fp)) (e - zlen fp))
    | _, _ => Err ValueErr
    end.
Lemma float_of_text_body s : float_of_text s = (let '(neg, s1) := take_sign (strip_by is_ws s) in float_body neg s1).
Proof. reflexivity. Qed.

Lemma special_word neg w f : float_body neg w = Ok f ->
  ((spells "inf" w \/ spells "infinity" w) /\ f = S754_infinity neg \/ spells "nan" w /\ f = S754_nan) \/
  exists mt ex ip fp e, w = mt ++ ex /\ mantissa_text mt ip fp /\ Forall cipher ip /\ Forall cipher fp /\ ip ++ fp <> [] /\
    exponent_part ex e /\ f = nearest_decimal neg (ciphers_value (ip ++ fp)) (e - zlen fp).
Proof.
  unfold float_body.
  destruct (same_word (bytes_of_string "inf") w || same_word (bytes_of_string "infinity") w) eqn:E1.
  { intros [= <-]. left. left. split; [|reflexivity].
    apply orb_true_iff in E1 as [E|E]; [left; apply (same_word_iff "inf" w letters_inf), E|right; apply (same_word_iff "infinity" w letters_infinity), E]. }
  destruct (same_word (bytes_of_string "nan") w) eqn:E2.
  { intros [= <-]. left. right. split; [|reflexivity]. apply (same_word_iff "nan" w letters_nan), E2. }
  pose proof (take_digits_spec w) as H. destruct (take_digits w) as [ip s2]. destruct H as (-> & F & N).
  intros H. right.
  assert (G : exists pt fp s3, s2 = pt ++ s3 /\ mantissa_text (ip ++ pt) ip fp /\ Forall cipher fp /\
     match ip ++ fp, read_exponent s3 with
     | _ :: _, Some e => Ok (nearest_decimal neg (digits_value (ip ++ fp)) (e - zlen fp))
     | _, _ => Err ValueErr
     end = Ok f).
  { destruct s2 as [|b s2].
    - exists [], [], []. split; [reflexivity|]. split; [rewrite app_nil_r; constructor|]. split; [constructor|exact H].
    - destruct (Byte.eqb b x2e) eqn:E.
      + apply byte_eqb_iff in E as ->. pose proof (take_digits_spec s2) as G. destruct (take_digits s2) as [fp s3].
        destruct G as (-> & F2 & _). exists (x2e :: fp), fp, s3. repeat split; auto. apply (pointed ip fp).
      + exists [], [], (b :: s2). split; [reflexivity|]. split; [rewrite app_nil_r; constructor|]. split; [constructor|exact H]. }
  destruct G as (pt & fp & s3 & -> & M & F2 & G). destruct (ip ++ fp) as [|d l] eqn:EL; [discriminate|].
  destruct (read_exponent s3) as [e|] eqn:ER; [|discriminate]. apply read_exponent_sound in ER.
  injection G as <-. exists (ip ++ pt), s3, ip, fp, e. rewrite EL, digits_value_spec, <- app_assoc.
  repeat split; auto. discriminate.
Qed.
Lemma spells_head w c l s : bytes_of_string w = c :: l -> 97 <= byte_value c <= 122 -> spells w s ->
  exists b s', s = b :: s' /\ 65 <= byte_value b <= 122.
Proof.
  intros E R H. unfold spells in H. rewrite E in H. inversion H as [|b ? s' ? L]; subst. exists b, s'. split; [reflexivity|].
  destruct L as [->|L]; lia.
Qed.
Lemma not_word w s c l : bytes_of_string w = c :: l -> Forall (fun b => 97 <= byte_value b <= 122) (bytes_of_string w) ->
  (forall b s', s = b :: s' -> byte_value b < 65) -> same_word (bytes_of_string w) s = false.
Proof.
  intros E L N. destruct (same_word (bytes_of_string w) s) eqn:H; [|reflexivity]. apply same_word_iff in H; [|exact L].
  assert (R : 97 <= byte_value c <= 122) by (rewrite E in L; now inversion L).
  destruct (spells_head w c l s E R H) as (b & s' & -> & B). specialize (N b s' eq_refl). lia.
Qed.
Lemma mantissa_head mt ip fp ex : mantissa_text mt ip fp -> Forall cipher ip -> Forall cipher fp -> ip ++ fp <> [] ->
  exists b s, mt ++ ex = b :: s /\ (cipher b \/ b = x2e).
Proof.
  intros M F1 F2 N. destruct M as [ip|ip fp].
  - destruct F1 as [|c l C F1]; [contradiction|]. exists c, (l ++ ex). auto.
  - destruct F1 as [|c l C F1]; [exists x2e, (fp ++ ex); auto|]. exists c, ((l ++ x2e :: fp) ++ ex). auto.
Qed.
Lemma exponent_head ex e : exponent_part ex e -> forall c r, ex = c :: r -> ~ cipher c /\ c <> x2e.
Proof.
  intros [|c sg neg ds I S F N] b r; [discriminate|]. intros [= <- _].
  cbn in I. destruct I as [<-|[<-|[]]]; split; try discriminate; unfold cipher, byte_value; cbn; lia.
Qed.
Lemma body_decimal neg mt ex ip fp e : mantissa_text mt ip fp -> Forall cipher ip -> Forall cipher fp -> ip ++ fp <> [] ->
  exponent_part ex e -> float_body neg (mt ++ ex) = Ok (nearest_decimal neg (ciphers_value (ip ++ fp)) (e - zlen fp)).
Proof.
  intros M F1 F2 N X. destruct (mantissa_head mt ip fp ex M F1 F2 N) as (b & s & E & B).
  assert (NW : forall b' s', mt ++ ex = b' :: s' -> byte_value b' < 65).
  { rewrite E. intros b' s' [= <- <-]. destruct B as [B| ->]; [unfold cipher in B; lia|vm_compute; reflexivity]. }
  unfold float_body.
  rewrite (not_word "inf" _ _ _ eq_refl letters_inf NW), (not_word "infinity" _ _ _ eq_refl letters_infinity NW),
    (not_word "nan" _ _ _ eq_refl letters_nan NW). cbn [orb]. clear E NW b s B.
  pose proof (exponent_head ex e X) as HX. apply read_exponent_complete in X.
  assert (G : match ip ++ fp, read_exponent ex with
    | _ :: _, Some e => Ok (nearest_decimal neg (digits_value (ip ++ fp)) (e - zlen fp))
    | _, _ => Err ValueErr
    end = Ok (nearest_decimal neg (ciphers_value (ip ++ fp)) (e - zlen fp))).
  { destruct (ip ++ fp) eqn:E; [contradiction|]. now rewrite X, digits_value_spec. }
  destruct M as [ip|ip fp].
  - rewrite take_digits_app; [|exact F1|intros c r H; now apply (HX c r)].
    destruct ex as [|c ex]; [exact G|]. rewrite byte_eqb_no; [exact G|]. now apply (HX c ex).
  - rewrite <- app_assoc. rewrite take_digits_app; [|exact F1|].
    + cbn [app]. change (Byte.eqb x2e x2e) with true. cbv iota.
      rewrite take_digits_app; [exact G|exact F2|intros c r H; now apply (HX c r)].
    + intros c r. cbn. intros [= <- _]. unfold cipher, byte_value. cbn. lia.
Qed.
Lemma Forall2_len {A B} (R : A -> B -> Prop) a b : Forall2 R a b -> List.length a = List.length b.
Proof. induction 1; cbn; congruence. Qed.
Lemma body_special neg w f : ((spells "inf" w \/ spells "infinity" w) /\ f = S754_infinity neg \/ spells "nan" w /\ f = S754_nan) ->
  float_body neg w = Ok f.
Proof.
  intros [[[H|H] ->]|[H ->]]; unfold float_body.
  - apply (same_word_iff "inf" w letters_inf) in H. now rewrite H.
  - apply (same_word_iff "infinity" w letters_infinity) in H. now rewrite H, orb_true_r.
  - assert (NI : spells "inf" w -> False).
    { intros I. unfold spells in *. inversion H as [|b ? s' ? L]; subst. inversion I as [|? ? ? ? L2]; subst.
      unfold same_letter, byte_value in *. destruct L as [->|L]; destruct L2 as [L2|L2]; try discriminate L2; try (subst; cbn in *; lia). }
    assert (NJ : spells "infinity" w -> False).
    { intros I. unfold spells in *. apply Forall2_len in H. apply Forall2_len in I. rewrite H in I. discriminate I. }
    destruct (same_word (bytes_of_string "inf") w) eqn:E1; [apply (same_word_iff "inf" w letters_inf) in E1; tauto|].
    destruct (same_word (bytes_of_string "infinity") w) eqn:E2; [apply (same_word_iff "infinity" w letters_infinity) in E2; tauto|].
    apply (same_word_iff "nan" w letters_nan) in H. now rewrite H.
Qed.

Lemma is_nearest_unique neg x f g : is_nearest neg x f -> is_nearest neg x g -> f = g.
Proof.
  intros (V1 & A1 & B1) (V2 & A2 & B2). destruct (Rlt_or_le (rn64 x) (bpow radix2 1024)) as [H|H].
  - destruct (A1 H) as (F1 & R1 & S1). destruct (A2 H) as (F2 & R2 & S2).
    apply (finite_inj 53 1024 Hp64 Hm64); auto; try now apply finite_SF.
    + congruence.
    + congruence.
  - now rewrite (B1 H), (B2 H).
Qed.

Lemma ciphers_nonneg ds : Forall cipher ds -> 0 <= ciphers_value ds.
Proof.
  intros F. unfold ciphers_value, in_base. assert (G : forall a, 0 <= a -> 0 <= fold_left (fun a d => 10 * a + d) (map (fun c => byte_value c - 48) ds) a).
  { induction F as [|c l C F IH]; intros a A; cbn [map fold_left]; [exact A|]. apply IH. unfold cipher in C. lia. }
  now apply G.
Qed.

Theorem float_reads s f : float_of_text s = Ok f <-> reads_as s f.
Proof.
  destruct (trimmed_exists s) as [t Ht]. rewrite float_of_text_body, (strip_trimmed s t Ht). split.
  - intros H. exists t. split; [exact Ht|]. pose proof (take_sign_spec t) as S. destruct (take_sign t) as [neg w].
    destruct S as (sg & -> & S). apply special_word in H as [H|(mt & ex & ip & fp & e & -> & M & F1 & F2 & N & X & ->)].
    + right. exists sg, neg, w. auto.
    + left. exists neg, (IZR (ciphers_value (ip ++ fp)) * ten (e - zlen fp))%R. split.
      * exists sg, mt, ex, ip, fp, e. repeat split; auto.
      * apply nearest_decimal_ok. apply ciphers_nonneg, Forall_app. auto.
  - intros (t' & Ht' & H). rewrite (trimmed_unique s t' t Ht' Ht) in *. clear t' Ht' Ht.
    destruct H as [(neg & x & (sg & mt & ex & ip & fp & e & -> & S & M & F1 & F2 & N & X & ->) & NR)|(sg & neg & w & -> & S & H)].
    + rewrite (take_sign_app sg neg _ S).
      2:{ destruct (mantissa_head mt ip fp ex M F1 F2 N) as (b & r & E & B). rewrite E. intros r'.
          split; intros [= -> _]; destruct B as [B|B]; try discriminate B; now apply cipher_unsigned in B. }
      rewrite (body_decimal neg mt ex ip fp e) by assumption. f_equal.
      apply (is_nearest_unique neg (IZR (ciphers_value (ip ++ fp)) * ten (e - zlen fp))); [|exact NR].
      apply nearest_decimal_ok. apply ciphers_nonneg, Forall_app. auto.
    + rewrite (take_sign_app sg neg w S); [now apply body_special|].
      assert (G : forall W c l, bytes_of_string W = c :: l -> 97 <= byte_value c <= 122 -> spells W w -> unsigned w).
      { intros W c l E R I. destruct (spells_head W c l w E R I) as (b & s' & -> & B). intros r.
        split; intros [= -> _]; revert B; vm_compute; intros [B1 B2]; congruence. }
      destruct H as [[[H|H] _]|[H _]]; eapply G; try exact H; try reflexivity; vm_compute; split; discriminate.
Qed.
Lemma float_error s e : float_of_text s = Err e -> e = ValueErr.
Proof.
  rewrite float_of_text_body. destruct (take_sign (strip_by is_ws s)) as [neg w]. unfold float_body.
  destruct (_ || _); [discriminate|]. destruct (same_word _ w); [discriminate|].
  destruct (take_digits w) as [ip s2].
  destruct (match s2 with [] => ([], []) | b :: s' => if Byte.eqb b x2e then take_digits s' else ([], s2) end) as [fp s3].
  destruct (ip ++ fp), (read_exponent s3); congruence.
Qed.
