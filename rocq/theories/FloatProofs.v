(** Proofs about binary64/binary32 encodings and conversions.  Uses Flocq for
    the correctness of rounding. *)
From Coq Require Import ZArith Lia Bool Reals.
From Flocq Require Import Core BinarySingleNaN.
From Coq Require Import Floats.SpecFloat.
From Coq Require Import ZifyBool ZifyNat.
From Verif Require Import PyFloat Lib.
Open Scope Z_scope.

(** ** Bounded mantissas *)
Lemma digits2_bounds m :
  2 ^ (Z.pos (digits2_pos m) - 1) <= Z.pos m < 2 ^ Z.pos (digits2_pos m).
Proof.
  rewrite Zpos_digits2_pos. exact (Zdigits_correct radix2 (Z.pos m)).
Qed.
Lemma bounded_spec prec emax m e : 0 < prec ->
  bounded prec emax m e = true <->
  ((2 ^ (prec - 1) <= Z.pos m < 2 ^ prec /\ emin prec emax <= e <= emax - prec) \/
   (Z.pos m < 2 ^ (prec - 1) /\ e = emin prec emax /\ e <= emax - prec)).
Proof.
  intros Hp. unfold bounded, canonical_mantissa, fexp.
  pose proof (digits2_bounds m) as [H1 H2]. set (d := Z.pos (digits2_pos m)) in *.
  assert (Hd : 0 < d) by (unfold d; lia).
  rewrite andb_true_iff, Z.leb_le.
  rewrite <- Zeq_is_eq_bool.
  split.
  - intros [Hc He].
    assert (Hdp : d <= prec) by lia.
    destruct (Z.eq_dec d prec) as [E|E].
    + left. rewrite E in *. split; [lia|]. lia.
    + right. split; [|lia].
      assert (2 ^ d <= 2 ^ (prec - 1)) by (apply Z.pow_le_mono_r; lia). lia.
  - intros [[Hm He]|[Hm He]].
    + assert (Hdp : d = prec).
      { assert (~ d < prec) as Ha.
        { intros Hlt. assert (2 ^ d <= 2 ^ (prec - 1)) by (apply Z.pow_le_mono_r; lia). lia. }
        assert (~ prec < d) as Hb.
        { intros Hlt. assert (2 ^ prec <= 2 ^ (d - 1)) by (apply Z.pow_le_mono_r; lia). lia. }
        lia. }
      lia.
    + assert (d < prec) as Ha.
      { destruct (Z_lt_ge_dec d prec); auto.
        assert (2 ^ (prec - 1) <= 2 ^ (d - 1)) by (apply Z.pow_le_mono_r; lia). lia. }
      lia.
Qed.

(** ** Interchange encoding *)
Section Bits.
  Context (mw ew : Z) (Hmw : 1 < mw) (Hew : 2 < ew).
  Let prec := mw + 1.
  Let emax := 2 ^ (ew - 1).
  Let emn := 3 - emax - prec.

  Definition vld (f : spec_float) : bool :=
    match f with S754_finite _ m e => bounded prec emax m e | _ => true end.

  Lemma emax_pos : 4 <= emax.
  Proof. unfold emax. change 4 with (2 ^ 2). apply Z.pow_le_mono_r; lia. Qed.
  Lemma pow_ew : 2 ^ ew = 2 * emax.
  Proof. unfold emax. rewrite <- Z.pow_succ_r by lia. f_equal. lia. Qed.
  Lemma pow_mw : 4 <= 2 ^ mw.
  Proof. change 4 with (2 ^ 2). apply Z.pow_le_mono_r; lia. Qed.

  Lemma vld_finite s m e : vld (S754_finite s m e) = true <->
    (2 ^ mw <= Z.pos m < 2 * 2 ^ mw /\ emn <= e <= emax - prec) \/
    (Z.pos m < 2 ^ mw /\ e = emn /\ e <= emax - prec).
  Proof.
    unfold vld. rewrite bounded_spec by (unfold prec; lia).
    unfold emin. fold emn. replace (prec - 1) with mw by (unfold prec; lia).
    replace (2 ^ prec) with (2 * 2 ^ mw); [reflexivity|].
    unfold prec. rewrite Z.pow_add_r by lia. lia.
  Qed.

  (** sign, biased exponent and fraction *)
  Definition assemble (s : bool) (be fr : Z) : Z := sgn s * 2 ^ (mw + ew) + (be * 2 ^ mw + fr).
  Lemma assemble_parts s be fr : 0 <= be < 2 ^ ew -> 0 <= fr < 2 ^ mw ->
    let z := assemble s be fr in
    z / 2 ^ (mw + ew) = sgn s /\ (z / 2 ^ mw) mod 2 ^ ew = be /\ z mod 2 ^ mw = fr /\
    0 <= z < 2 * 2 ^ (mw + ew).
  Proof.
    intros Hb Hf z. unfold z, assemble. rewrite Z.pow_add_r by lia.
    pose proof pow_mw as Hm. pose proof emax_pos as He. pose proof pow_ew as Hpe.
    set (M := 2 ^ mw) in *. set (E := 2 ^ ew) in *.
    assert (HME : 0 <= be * M + fr < M * E) by nia.
    assert (Hs : sgn s = 0 \/ sgn s = 1) by (destruct s; cbn; auto).
    split; [|split; [|split]].
    - symmetry. apply (Z.div_unique_pos _ _ _ (be * M + fr)); [nia|ring].
    - replace ((sgn s * (M * E) + (be * M + fr)) / M) with (sgn s * E + be).
      + symmetry. apply (Z.mod_unique_pos _ _ (sgn s)); [lia|ring].
      + apply (Z.div_unique_pos _ _ _ fr); [lia|ring].
    - symmetry. apply (Z.mod_unique_pos _ _ (sgn s * E + be)); [lia|ring].
    - destruct Hs as [-> | ->]; nia.
  Qed.
  Lemma assemble_complete z : 0 <= z < 2 * 2 ^ (mw + ew) ->
    z = assemble (0 <? z / 2 ^ (mw + ew)) ((z / 2 ^ mw) mod 2 ^ ew) (z mod 2 ^ mw) /\
    0 <= (z / 2 ^ mw) mod 2 ^ ew < 2 ^ ew /\ 0 <= z mod 2 ^ mw < 2 ^ mw.
  Proof.
    intros Hz. unfold assemble. rewrite Z.pow_add_r in * by lia.
    pose proof pow_mw as Hm. pose proof emax_pos as He. pose proof pow_ew as Hpe.
    set (M := 2 ^ mw) in *. set (E := 2 ^ ew) in *.
    assert (HE : 0 < E) by lia. assert (HM : 0 < M) by lia.
    pose proof (Z.mod_pos_bound (z / M) E HE). pose proof (Z.mod_pos_bound z M HM).
    split; [|lia].
    rewrite <- Z.div_div by lia.
    assert (Hq : sgn (0 <? z / M / E) = z / M / E).
    { assert (z / M / E < 2).
      { rewrite Z.div_div by lia. apply Z.div_lt_upper_bound; nia. }
      assert (0 <= z / M / E) by (apply Z.div_pos; [apply Z.div_pos|]; lia).
      destruct (0 <? z / M / E) eqn:Eq; cbn; lia. }
    rewrite Hq.
    pose proof (Z.div_mod (z / M) E ltac:(lia)) as D1.
    pose proof (Z.div_mod z M ltac:(lia)) as D2.
    rewrite D2 at 1. rewrite D1 at 1. ring.
  Qed.

  Notation bits := (bits_of_float mw ew emn).
  Notation ofbits := (float_of_bits mw ew emn).

  Lemma sgn_pos s : (0 <? sgn s) = s.
  Proof. destruct s; reflexivity. Qed.

  Lemma bits_assemble f : vld f = true ->
    exists s be fr, bits f = assemble s be fr /\ 0 <= be < 2 ^ ew /\ 0 <= fr < 2 ^ mw /\
      match f with
      | S754_zero s' => s' = s /\ be = 0 /\ fr = 0
      | S754_infinity s' => s' = s /\ be = 2 ^ ew - 1 /\ fr = 0
      | S754_nan => s = false /\ be = 2 ^ ew - 1 /\ fr = 2 ^ (mw - 1)
      | S754_finite s' m e => s' = s /\
          ((be = 0 /\ e = emn /\ fr = Z.pos m) \/
           (1 <= be <= 2 ^ ew - 2 /\ e = be + emn - 1 /\ fr + 2 ^ mw = Z.pos m))
      end.
  Proof.
    pose proof pow_mw as Hm. pose proof emax_pos as He. pose proof pow_ew as Hpe.
    intros Hv. destruct f as [s|s| |s m e].
    - exists s, 0, 0. unfold assemble. cbn [bits_of_float].
      repeat split; try lia.
    - exists s, (2 ^ ew - 1), 0. unfold assemble. cbn [bits_of_float].
      repeat split; try lia.
    - exists false, (2 ^ ew - 1), (2 ^ (mw - 1)). unfold assemble. cbn [bits_of_float sgn].
      assert (2 ^ mw = 2 * 2 ^ (mw - 1)) by (rewrite <- Z.pow_succ_r by lia; f_equal; lia).
      repeat split; try lia.
    - apply vld_finite in Hv. cbn [bits_of_float].
      destruct (2 ^ mw <=? Z.pos m) eqn:E.
      + destruct Hv as [[Hm1 He1]|Hv]; [|lia].
        exists s, (e - emn + 1), (Z.pos m - 2 ^ mw). unfold assemble.
        unfold emn in *. unfold prec in *.
        repeat split; try lia; right; repeat split; lia.
      + destruct Hv as [Hv|[Hm1 He1]]; [lia|].
        exists s, 0, (Z.pos m). unfold assemble.
        repeat split; try lia.
        all: left; repeat split; lia.
  Qed.

  Lemma bits_range f : vld f = true -> 0 <= bits f < 2 * 2 ^ (mw + ew).
  Proof.
    intros Hv. destruct (bits_assemble f Hv) as (s & be & fr & -> & Hb & Hf & _).
    apply (assemble_parts s be fr Hb Hf).
  Qed.

  Lemma ofbits_bits f : vld f = true -> ofbits (bits f) = f.
  Proof.
    pose proof pow_mw as Hm. pose proof emax_pos as He. pose proof pow_ew as Hpe.
    intros Hv. destruct (bits_assemble f Hv) as (s & be & fr & -> & Hb & Hf & Hd).
    destruct (assemble_parts s be fr Hb Hf) as (P1 & P2 & P3 & _).
    unfold float_of_bits. rewrite P1, P2, P3, sgn_pos.
    destruct f as [s'|s'| |s' m e].
    - destruct Hd as (-> & -> & ->). reflexivity.
    - destruct Hd as (-> & -> & ->). destruct (2 ^ ew - 1 =? 0) eqn:E; [lia|].
      rewrite Z.eqb_refl. reflexivity.
    - destruct Hd as (-> & -> & ->). destruct (2 ^ ew - 1 =? 0) eqn:E; [lia|].
      rewrite Z.eqb_refl.
      assert (0 < 2 ^ (mw - 1)) by (apply Z.pow_pos_nonneg; lia).
      destruct (2 ^ (mw - 1) =? 0) eqn:E2; [lia|]. reflexivity.
    - destruct Hd as (-> & [(-> & -> & ->)|(Hb2 & -> & Hfr)]).
      + reflexivity.
      + destruct (be =? 0) eqn:E; [lia|]. destruct (be =? 2 ^ ew - 1) eqn:E2; [lia|].
        rewrite Hfr. reflexivity.
  Qed.

  Lemma ofbits_valid z : vld (ofbits z) = true.
  Proof.
    pose proof pow_mw as Hm. pose proof emax_pos as He. pose proof pow_ew as Hpe.
    unfold float_of_bits.
    set (s := 0 <? z / 2 ^ (mw + ew)). set (be := (z / 2 ^ mw) mod 2 ^ ew).
    set (fr := z mod 2 ^ mw).
    assert (Hb : 0 <= be < 2 ^ ew) by (apply Z.mod_pos_bound; lia).
    assert (Hf : 0 <= fr < 2 ^ mw) by (apply Z.mod_pos_bound; lia).
    destruct (be =? 0) eqn:E.
    - destruct fr as [|p|p] eqn:Ef; [reflexivity| |reflexivity].
      apply vld_finite. right. unfold emn, prec in *. lia.
    - destruct (be =? 2 ^ ew - 1) eqn:E2; [destruct (fr =? 0); reflexivity|].
      destruct (fr + 2 ^ mw) as [|p|p] eqn:Ef; [reflexivity| |reflexivity].
      apply vld_finite. left. unfold emn, prec in *. lia.
  Qed.

  Lemma bits_ofbits z : 0 <= z < 2 * 2 ^ (mw + ew) -> ofbits z <> S754_nan -> bits (ofbits z) = z.
  Proof.
    pose proof pow_mw as Hm. pose proof emax_pos as He. pose proof pow_ew as Hpe.
    intros Hz. destruct (assemble_complete z Hz) as (Ez & Hb & Hf).
    rewrite Ez at 3. clear Ez. unfold float_of_bits, assemble.
    set (s := 0 <? z / 2 ^ (mw + ew)) in *. set (be := (z / 2 ^ mw) mod 2 ^ ew) in *.
    set (fr := z mod 2 ^ mw) in *.
    destruct (be =? 0) eqn:E.
    - assert (Hbe : be = 0) by lia. rewrite Hbe. intros _.
      destruct fr as [|p|p] eqn:Ef; cbn [bits_of_float]; [lia| |lia].
      destruct (2 ^ mw <=? Z.pos p) eqn:E2; lia.
    - destruct (be =? 2 ^ ew - 1) eqn:E2.
      + destruct (fr =? 0) eqn:E3; [|congruence]. intros _. cbn [bits_of_float]. lia.
      + intros _. destruct (fr + 2 ^ mw) as [|p|p] eqn:Ef; [lia| |lia].
        cbn [bits_of_float]. destruct (2 ^ mw <=? Z.pos p) eqn:E4; [|lia]. nia.
  Qed.
End Bits.

(** ** Rounding *)
Section Rounding.
  Context (prec emax : Z) (Hprec : Prec_gt_0 prec) (Hmax : Prec_lt_emax prec emax).
  Lemma rne_equiv s m l : round_nearest_even m l = choice_mode mode_NE s m l.
  Proof.
    case l; [reflexivity|intro c]. case c; [|reflexivity..]. now simpl; unfold Round.cond_incr; case Z.even.
  Qed.
  Lemma binary_round_aux_equiv sx mx ex lx :
    SpecFloat.binary_round_aux prec emax sx mx ex lx =
    BinarySingleNaN.binary_round_aux prec emax mode_NE sx mx ex lx.
  Proof.
    unfold SpecFloat.binary_round_aux, BinarySingleNaN.binary_round_aux.
    set (mrse' := shr_fexp _ _ _ _ _). case mrse'; intros mrs' e'; simpl.
    now rewrite (rne_equiv sx).
  Qed.
  Lemma binary_round_equiv s m e :
    SpecFloat.binary_round prec emax s m e = BinarySingleNaN.binary_round prec emax mode_NE s m e.
  Proof.
    unfold SpecFloat.binary_round, BinarySingleNaN.binary_round, shl_align_fexp.
    set (mz := shl_align _ _ _). case mz; intros m' e'. apply binary_round_aux_equiv.
  Qed.
End Rounding.

Global Instance Hp64 : Prec_gt_0 53 := eq_refl _.
Global Instance Hm64 : Prec_lt_emax 53 1024 := eq_refl _.
Global Instance Hp32 : Prec_gt_0 24 := eq_refl _.
Global Instance Hm32 : Prec_lt_emax 24 128 := eq_refl _.

Lemma valid64_vld f : valid64 f = vld 52 11 f.
Proof. reflexivity. Qed.
Lemma valid32_vld f : valid32 f = vld 23 8 f.
Proof. reflexivity. Qed.
Lemma valid64_binary f : valid64 f = valid_binary 53 1024 f.
Proof. reflexivity. Qed.
Lemma valid32_binary f : valid32 f = valid_binary 24 128 f.
Proof. reflexivity. Qed.

Lemma of_bits64_bits64 f : valid64 f = true -> of_bits64 (bits64 f) = f.
Proof. exact (ofbits_bits 52 11 eq_refl eq_refl f). Qed.
Lemma bits64_of_bits64 z : 0 <= z < 2 ^ 64 -> of_bits64 z <> S754_nan -> bits64 (of_bits64 z) = z.
Proof. exact (bits_ofbits 52 11 eq_refl eq_refl z). Qed.
Lemma of_bits32_bits32 f : valid32 f = true -> of_bits32 (bits32 f) = f.
Proof. exact (ofbits_bits 23 8 eq_refl eq_refl f). Qed.
Lemma bits32_of_bits32 z : 0 <= z < 2 ^ 32 -> of_bits32 z <> S754_nan -> bits32 (of_bits32 z) = z.
Proof. exact (bits_ofbits 23 8 eq_refl eq_refl z). Qed.
Lemma bits64_range f : valid64 f = true -> 0 <= bits64 f < 2 ^ 64.
Proof. exact (bits_range 52 11 eq_refl eq_refl f). Qed.
Lemma bits32_range f : valid32 f = true -> 0 <= bits32 f < 2 ^ 32.
Proof. exact (bits_range 23 8 eq_refl eq_refl f). Qed.
Lemma of_bits64_valid z : valid64 (of_bits64 z) = true.
Proof. exact (ofbits_valid 52 11 eq_refl eq_refl z). Qed.
Lemma of_bits32_valid z : valid32 (of_bits32 z) = true.
Proof. exact (ofbits_valid 23 8 eq_refl eq_refl z). Qed.
