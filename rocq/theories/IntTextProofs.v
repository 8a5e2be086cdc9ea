(** str() of an integer, and of a tuple of integers. *)
From Coq Require Import DecimalString DecimalFacts DecimalPos DecimalN DecimalZ.
From Verif Require Import Lib SpecDescribe.
Open Scope Z_scope.
Open Scope list_scope.

Lemma dv_snoc s c : decimal_value (s ++ [c]) = 10 * decimal_value s + (ord c - 48).
Proof. unfold decimal_value. now rewrite fold_left_app. Qed.
Lemma dv_acc s a : fold_left (fun a b => 10 * a + (ord b - 48)) s a = a * 10 ^ zlen s + decimal_value s.
Proof.
  revert a. induction s as [|c s IH] using rev_ind; intros a; [cbn; lia|].
  rewrite fold_left_app, dv_snoc, IH, zlen_app. cbn [fold_left]. change (zlen [c]) with 1.
  rewrite Z.pow_add_r by (try apply zlen_nonneg; lia). lia.
Qed.
Lemma dv_cons c s : decimal_value (c :: s) = (ord c - 48) * 10 ^ zlen s + decimal_value s.
Proof. unfold decimal_value at 1. cbn [fold_left]. rewrite dv_acc. lia. Qed.
Lemma dv_bound s : Forall figure s -> 0 <= decimal_value s < 10 ^ zlen s.
Proof.
  induction s as [|c s IH] using rev_ind; intros F; [cbn; lia|].
  apply Forall_app in F as [F1 F2]. inversion F2 as [|? ? C _]; subst. specialize (IH F1).
  rewrite dv_snoc, zlen_app. change (zlen [c]) with 1. rewrite Z.pow_add_r by (try apply zlen_nonneg; lia).
  unfold figure in C. unfold ord in *. lia.
Qed.
Lemma dv_inj s : forall t, Forall figure s -> Forall figure t -> zlen s = zlen t -> decimal_value s = decimal_value t -> s = t.
Proof.
  induction s as [|c s IH] using rev_ind; intros t FS FT L V.
  - destruct t; [reflexivity|]. rewrite zlen_cons in L. pose proof (zlen_nonneg t). change (zlen (@nil byte)) with 0 in L. lia.
  - destruct t as [|d t _] using rev_ind.
    { rewrite zlen_app in L. change (zlen [c]) with 1 in L. pose proof (zlen_nonneg s). change (zlen (@nil byte)) with 0 in L. lia. }
    rewrite !zlen_app in L. change (zlen [c]) with 1 in L. change (zlen [d]) with 1 in L.
    rewrite !dv_snoc in V. apply Forall_app in FS as [FS CS]. apply Forall_app in FT as [FT CT].
    inversion CS as [|? ? C _]; subst. inversion CT as [|? ? D _]; subst. unfold figure in C, D. unfold ord in *.
    assert (decimal_value s = decimal_value t) as E by lia.
    rewrite (IH t FS FT ltac:(lia) E). assert (Byte.to_N c = Byte.to_N d) as X by lia.
    assert (Some c = Some d) as [= ->]; [|reflexivity]. rewrite <- !Byte.of_to_N. now rewrite X.
Qed.
Lemma decimal_unique s t n : decimal s n -> decimal t n -> no_leading_zero s -> no_leading_zero t -> s = t.
Proof.
  intros (FS & NS & VS) (FT & NT & VT) LS LT. apply dv_inj; auto; [|congruence].
  assert (forall u, Forall figure u -> u <> [] -> no_leading_zero u -> u = [x30] \/ 10 ^ (zlen u - 1) <= decimal_value u) as K.
  { intros u F N [->|L]; [now left|]. right. destruct F as [|c u C F]; [contradiction|].
    assert (c <> x30) as CN by (intros ->; now apply (L u)).
    assert (49 <= ord c) as O.
    { unfold figure, ord in *. destruct (Z.eq_dec (Z.of_N (Byte.to_N c)) 48) as [E|]; [|lia]. exfalso. apply CN.
      assert (Some c = Some x30) as [= ->]; [|reflexivity]. rewrite <- Byte.of_to_N. replace (Byte.to_N c) with 48%N by lia. reflexivity. }
    rewrite dv_cons, zlen_cons. replace (1 + zlen u - 1) with (zlen u) by lia.
    pose proof (dv_bound u F). nia. }
  pose proof (dv_bound s FS) as BS. pose proof (dv_bound t FT) as BT.
  destruct (K s FS NS LS) as [->|MS], (K t FT NT LT) as [->|MT]; try reflexivity.
  - change (decimal_value [x30]) with 0 in *. assert (0 < 10 ^ (zlen t - 1)); [|lia].
    apply Z.pow_pos_nonneg; [lia|]. destruct t; [contradiction|]. rewrite zlen_cons. pose proof (zlen_nonneg t). lia.
  - change (decimal_value [x30]) with 0 in *. assert (0 < 10 ^ (zlen s - 1)); [|lia].
    apply Z.pow_pos_nonneg; [lia|]. destruct s; [contradiction|]. rewrite zlen_cons. pose proof (zlen_nonneg s). lia.
  - assert (forall a b, 0 <= b -> 10 ^ (a - 1) < 10 ^ b -> a <= b) as P.
    { intros a b B H. destruct (Z_lt_le_dec b a) as [G|G]; [|exact G].
      assert (10 ^ b <= 10 ^ (a - 1)) by (apply Z.pow_le_mono_r; lia). lia. }
    pose proof (P (zlen s) (zlen t) (zlen_nonneg t) ltac:(lia)). pose proof (P (zlen t) (zlen s) (zlen_nonneg s) ltac:(lia)). lia.
Qed.

(** ** The text of an integer *)
Notation utext d := (bytes_of_string (NilEmpty.string_of_uint d)).
Lemma utext_figures d : Forall figure (utext d).
Proof. induction d; cbn; constructor; auto; unfold figure, ord; cbn; lia. Qed.
Lemma utext_cons d : utext (Decimal.D0 d) = x30 :: utext d /\ utext (Decimal.D1 d) = x31 :: utext d /\
  utext (Decimal.D2 d) = x32 :: utext d /\ utext (Decimal.D3 d) = x33 :: utext d /\ utext (Decimal.D4 d) = x34 :: utext d /\
  utext (Decimal.D5 d) = x35 :: utext d /\ utext (Decimal.D6 d) = x36 :: utext d /\ utext (Decimal.D7 d) = x37 :: utext d /\
  utext (Decimal.D8 d) = x38 :: utext d /\ utext (Decimal.D9 d) = x39 :: utext d.
Proof. repeat split. Qed.
Ltac ordc := match goal with |- context [ord ?c] => let v := eval vm_compute in (ord c) in change (ord c) with v end.
Lemma of_uint_acc d : forall a, Z.pos (Pos.of_uint_acc d a) = Z.pos a * 10 ^ zlen (utext d) + decimal_value (utext d).
Proof.
  induction d as [|d IH|d IH|d IH|d IH|d IH|d IH|d IH|d IH|d IH|d IH]; intros a; [cbn; lia|..];
  destruct (utext_cons d) as (E0 & E1 & E2 & E3 & E4 & E5 & E6 & E7 & E8 & E9);
  cbn [Pos.of_uint_acc]; rewrite IH; rewrite ?E0, ?E1, ?E2, ?E3, ?E4, ?E5, ?E6, ?E7, ?E8, ?E9;
  rewrite dv_cons, zlen_cons; pose proof (zlen_nonneg (utext d)); rewrite (Z.pow_add_r 10 1 (zlen (utext d))) by lia; ordc;
  change (10 ^ 1) with 10; lia.
Qed.
Lemma of_uint_value d : Z.of_N (Pos.of_uint d) = decimal_value (utext d).
Proof.
  induction d as [|d IH|d IH|d IH|d IH|d IH|d IH|d IH|d IH|d IH|d IH]; [reflexivity|..];
  destruct (utext_cons d) as (E0 & E1 & E2 & E3 & E4 & E5 & E6 & E7 & E8 & E9);
  cbn [Pos.of_uint]; rewrite ?E0, ?E1, ?E2, ?E3, ?E4, ?E5, ?E6, ?E7, ?E8, ?E9; rewrite dv_cons; ordc;
  [rewrite IH; lia|..]; cbn [Z.of_N]; rewrite of_uint_acc; reflexivity.
Qed.
Lemma pos_text p : exists s, s = utext (Pos.to_uint p) /\ decimal s (Z.pos p) /\ no_leading_zero s.
Proof.
  eexists. split; [reflexivity|].
  pose proof (DecimalPos.Unsigned.of_to p) as OT.
  assert (decimal_value (utext (Pos.to_uint p)) = Z.pos p) as V by (rewrite <- of_uint_value, OT; reflexivity).
  split; [split; [apply utext_figures|]; split; [|now rewrite V]|].
  - intros E. rewrite E in V. cbn in V. lia.
  - right. intros r E.
    assert (Pos.to_uint p = Decimal.unorm (Pos.to_uint p)) as U.
    { pose proof (DecimalPos.Unsigned.to_of (Pos.to_uint p)) as TO. rewrite OT in TO. exact TO. }
    destruct (Pos.to_uint p) as [|d|d|d|d|d|d|d|d|d|d] eqn:D; try discriminate E.
    unfold Decimal.unorm in U. destruct (Decimal.nzhead (Decimal.D0 d)) eqn:NZ; try discriminate U.
    + injection U as ->. apply DecimalPos.Unsigned.to_uint_nonzero in D. exact D.
    + exact (nzhead_nonzero _ _ NZ).
Qed.
Lemma pos_not_nil p : Pos.to_uint p <> Decimal.Nil.
Proof. apply DecimalPos.Unsigned.to_uint_nonnil. Qed.
Lemma nilzero d : d <> Decimal.Nil -> NilZero.string_of_uint d = NilEmpty.string_of_uint d.
Proof. destruct d; auto. contradiction. Qed.
Lemma dec_int z : int_text z (dec_text z).
Proof.
  unfold dec_text. destruct z as [|p|p].
  - left. split; [lia|]. split; [|now left]. split; [repeat constructor; unfold figure, ord; cbn; lia|]. split; [discriminate|reflexivity].
  - left. split; [lia|]. destruct (pos_text p) as (s & -> & D & L). cbn [Z.to_int NilZero.string_of_int].
    rewrite nilzero by apply pos_not_nil. auto.
  - right. split; [lia|]. destruct (pos_text p) as (s & -> & D & L). cbn [Z.to_int NilZero.string_of_int].
    rewrite nilzero by apply pos_not_nil. eexists. split; [reflexivity|]. cbn [Z.opp]. auto.
Qed.
Lemma int_unique z s t : int_text z s -> int_text z t -> s = t.
Proof.
  intros [(P & D & L)|(N & r & -> & D & L)] [(P' & D' & L')|(N' & r' & -> & D' & L')]; try lia.
  - exact (decimal_unique s t z D D' L L').
  - f_equal. exact (decimal_unique r r' (- z) D D' L L').
Qed.
Lemma int_iff z s : int_text z s <-> s = dec_text z.
Proof. split; [intros H; exact (int_unique z _ _ H (dec_int z))|intros ->; apply dec_int]. Qed.

Definition list_text (z : Z) (l : list Z) : bytes := dec_text z ++ List.concat (map (fun z => [x2c; x20] ++ dec_text z) l).
Lemma listed_iff l : forall z s, listed (z :: l) s <-> s = list_text z l.
Proof.
  induction l as [|y l IH]; intros z s.
  - unfold list_text. cbn. rewrite app_nil_r. split.
    + intros H. inversion H as [? ? H1|? ? ? ? H1 H2]; subst; [now apply int_iff|inversion H2].
    + intros ->. constructor. apply dec_int.
  - split.
    + intros H. inversion H as [|? s1 ? t H1 H2]; subst. apply int_iff in H1 as ->. apply IH in H2 as ->.
      unfold list_text. cbn [map List.concat]. now rewrite <- app_assoc.
    + intros ->. unfold list_text. cbn [map List.concat]. rewrite <- app_assoc.
      apply listed_more; [apply dec_int|]. now apply IH.
Qed.
Lemma tuple_iff l s : tuple_shown l s <-> s = tuple_text l.
Proof.
  destruct l as [|z [|y l]]; split.
  - intros H. now inversion H.
  - intros ->. constructor.
  - intros H. inversion H as [|? ? H1|]; subst. apply int_iff in H1 as ->. reflexivity.
  - intros ->. constructor. apply dec_int.
  - intros H. inversion H as [| |? ? ? t H1]; subst. apply listed_iff in H1 as ->. reflexivity.
  - intros ->. change (tuple_text (z :: y :: l)) with ([x28] ++ list_text z (y :: l) ++ [x29]).
    constructor. now apply listed_iff.
Qed.
