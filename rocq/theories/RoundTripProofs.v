(** Proofs for C07: what is serialized is received again. *)
From Coq Require Import Reals.
From Flocq Require Import Core BinarySingleNaN.
From Verif Require Import Lib SpecCodec SpecFloats CodecProofs FieldProofs FloatField LayoutProofs HeaderProofs.
From Verif Require Import TemplateDict Serializer Deserializer DecodeProofs PacketProofs PacketMore PacketRules FloatProofs FloatRound ObjectProofs SpecRoundTrip.
Open Scope Z_scope.

(** ** Values *)
Lemma float_item_back pv ct f : ct = MVT_F32 \/ ct = MVT_F64 -> float_fits ct f ->
  exists b g, pack_data pv (VFloat f) (Some ct) None = Ok (Some b) /\ zlen b = sizeof_mvt ct /\
    unpack_data b (Some ct) (-1) (-1) None = Ok (VFloat g) /\ float_back ct f g.
Proof.
  intros [-> | ->] [V F].
  - assert (D : finite_float f \/ ~ finite_float f) by (destruct f; cbn; auto).
    destruct D as [D|D].
    + destruct (f32_finite pv f None [] [] V D) as [H _].
      destruct (H (F eq_refl D)) as (b & g & H1 & H2 & _ & H3 & _ & _ & H4 & H5 & H6).
      exists b, g. repeat (split; [assumption|]). split; [auto|contradiction].
    + destruct (f32_special pv f None D) as (b & H1 & H2 & H3). exists b, f. repeat (split; [assumption|]).
      split; [contradiction|auto].
  - destruct (f64_roundtrip pv f None [] [] V) as (b & H1 & H2 & H3 & _). exists b, f. repeat (split; [assumption|]). reflexivity.
Qed.
Lemma float_items_back pv ct fl : ct = MVT_F32 \/ ct = MVT_F64 -> Forall (float_fits ct) fl ->
  exists bs gs, Forall2 (fun f b => pack_data pv (VFloat f) (Some ct) None = Ok (Some b)) fl bs /\
    Forall (fun b => zlen b = sizeof_mvt ct) bs /\
    Forall2 (fun g b => unpack_data b (Some ct) (-1) (-1) None = Ok (VFloat g)) gs bs /\
    Forall2 (float_back ct) fl gs.
Proof.
  intros Hc. induction 1 as [|f fl Hf _ (bs & gs & IH1 & IH2 & IH3 & IH4)].
  - exists [], []. repeat constructor.
  - destruct (float_item_back pv ct f Hc Hf) as (b & g & H1 & H2 & H3 & H4).
    exists (b :: bs), (g :: gs). repeat split; constructor; auto.
Qed.
Lemma components_type t x ct fl : components t x = Some (ct, fl) ->
  (ct = MVT_F32 \/ ct = MVT_F64) /\ vector_shape t = Some (ct, List.length fl) /\
  sizeof_mvt t = Z.of_nat (List.length fl) * sizeof_mvt ct.
Proof.
  destruct t; cbn; try discriminate; destruct x as [| | | | | |l| | | |]; try discriminate.
  - now intros [= <- <-]; auto.
  - destruct l as [|[|] [|[|] [|[|] [|]]]]; try discriminate. intros [= <- <-]. auto.
  - destruct l as [|[|] [|[|] [|[|] [|[|] [|]]]]]; try discriminate. intros [= <- <-]. auto.
Qed.
Lemma vector_back pv t x ct fl : components t x = Some (ct, fl) -> Forall (float_fits ct) fl ->
  exists b y gl, pack_data pv x (Some t) None = Ok (Some b) /\ zlen b = sizeof_mvt t /\
    unpack_data b (Some t) (-1) (-1) None = Ok y /\ components t y = Some (ct, gl) /\ Forall2 (float_back ct) fl gl.
Proof.
  intros Hx Hf. destruct (components_type t x ct fl Hx) as (Hc & Hs & Hz).
  destruct (float_items_back pv ct fl Hc Hf) as (bs & gs & H1 & H2 & H3 & H4).
  assert (L : List.length gs = List.length fl) by (symmetry; exact (Forall2_len _ _ _ H4)).
  assert (Lb : List.length bs = List.length fl) by (symmetry; exact (Forall2_len _ _ _ H1)).
  destruct (vector_read t ct gs bs) as (y & Hy & Hcy); [now rewrite L|exact H3|].
  exists (List.concat bs), y, gs.
  assert (Lc : zlen (List.concat bs) = sizeof_mvt t).
  { rewrite (concat_len bs (sizeof_mvt ct) H2). unfold zlen. rewrite Lb. lia. }
  split; [|auto]. apply (vector_write pv None t x ct fl Hx). eauto.
Qed.
Lemma opposite_fits f : float_fits MVT_F32 f -> float_fits MVT_F32 (opposite f).
Proof.
  intros [V F]. split.
  - destruct f as [s|s| |s m e]; auto.
  - intros _ D. assert (D' : finite_float f) by (destruct f; auto). specialize (F eq_refl D').
    replace (rv (opposite f)) with (- rv f)%R.
    + unfold rn32. rewrite round_NE_opp, Rabs_Ropp. exact F.
    + destruct f as [s|s| |s m e]; cbn in *; try contradiction.
      * unfold rv, SF2R. apply Ropp_0.
      * unfold rv, SF2R. rewrite <- F2R_Zopp. destruct s; reflexivity.
Qed.
Lemma quat_part pv a b c : Forall (float_fits MVT_F32) [a; b; c] ->
  exists bs a' b' c' w', pack_data pv (VVec3 a b c) (Some MVT_LLVector3) None = Ok (Some bs) /\ zlen bs = 12 /\
    unpack_data bs (Some MVT_LLQuaternion) (-1) (-1) None = Ok (VQuat a' b' c' w') /\
    Forall2 (float_back MVT_F32) [a; b; c] [a'; b'; c'] /\
    finite_float w' /\ sign_SF w' = false /\
      (finite_float a' /\ finite_float b' /\ finite_float c' ->
        ((0 < w_square (rv a') (rv b') (rv c'))%R -> rv w' = rn64 (sqrt (w_square (rv a') (rv b') (rv c')))) /\
        ((w_square (rv a') (rv b') (rv c') <= 0)%R -> rv w' = 0%R)) /\
      (~ (finite_float a' /\ finite_float b' /\ finite_float c') -> rv w' = 0%R).
Proof.
  intros H. destruct (float_items_back pv MVT_F32 [a; b; c] (or_introl eq_refl) H) as (bs & gs & H1 & H2 & H3 & H4).
  assert (L : List.length gs = 3%nat) by (symmetry; exact (Forall2_len _ _ _ H4)).
  assert (Lb : List.length bs = 3%nat) by (symmetry; exact (Forall2_len _ _ _ H1)).
  destruct gs as [|a' [|b' [|c' [|]]]]; try discriminate L. destruct bs as [|x [|y [|z [|]]]]; try discriminate Lb.
  inversion H3 as [|? ? ? ? Hx H3']; subst. inversion H3' as [|? ? ? ? Hy H3'']; subst. inversion H3'' as [|? ? ? ? Hz _]; subst.
  destruct (quat_read_w x y z a' b' c' Hx Hy Hz) as (w' & W1 & _ & W2).
  exists (x ++ y ++ z), a', b', c', w'.
  assert (E : x ++ y ++ z = List.concat [x; y; z]) by (cbn; now rewrite app_nil_r).
  assert (Lc : zlen (x ++ y ++ z) = 12).
  { rewrite E, (concat_len _ (sizeof_mvt MVT_F32) H2). reflexivity. }
  split; [|auto]. apply (vector_write pv None MVT_LLVector3 (VVec3 a b c) MVT_F32 [a; b; c] eq_refl). eauto.
Qed.
Lemma int_back pv t size sg en x z : int_spec t = Some (size, sg, en) -> int_value x z -> fits sg size z ->
  exists b, pack_data pv x (Some t) None = Ok (Some b) /\ zlen b = sizeof_mvt t /\
    unpack_data b (Some t) (-1) (-1) None = Ok (VInt z).
Proof.
  intros Ht Hx Hf. destruct (int_roundtrip pv t size sg en None z [] [] Ht Hf) as (b & H1 & H2 & _ & H3 & _).
  exists b. split; [|split; [|exact H3]].
  - rewrite <- H1. unfold pack_data. destruct (packer_table t) as [en0 fn] eqn:E.
    destruct t; try discriminate Ht; cbn in E; injection E as <- <-; inversion Hx; reflexivity.
  - rewrite H2. destruct t; try discriminate Ht; injection Ht as <- _ _; reflexivity.
Qed.
Lemma ty_dec v t : tv_type v = Some t -> t <> MVT_VARIABLE -> tv_type v <> Some MVT_VARIABLE.
Proof. congruence. Qed.
Lemma plain_field pv v t x b y : tv_type v = Some t -> t <> MVT_VARIABLE -> tv_size v = Some (zlen b) ->
  pack_data pv x (Some t) None = Ok (Some b) -> unpack_data b (Some t) (-1) (-1) None = Ok y ->
  field_layout pv v x b /\ field_read v b y.
Proof.
  intros Ht Hn Hs Hp Hu. split.
  - apply fl_plain; [now apply (ty_dec v t)|]. now rewrite Ht.
  - apply fr_plain; [now apply (ty_dec v t)|exact Hs|]. now rewrite Ht.
Qed.
Lemma without_nuls_ex s : exists r, without_trailing_nuls s r /\ without_trailing_nuls (s ++ [x00]) r.
Proof.
  assert (N : ~ ends_in_nul (rstrip0 s)) by (intros [s' E]; now apply rstrip0_last in E).
  exists (rstrip0 s). split; [split; [apply rstrip0_spec|exact N]|]. split; [|exact N].
  destruct (rstrip0_spec s) as [n E]. exists (n + 1)%nat. rewrite E at 1. rewrite <- app_assoc. f_equal.
  rewrite repeat_app. reflexivity.
Qed.
Lemma length_bytes p n : In p [1; 2; 4] -> 0 <= n < 2 ^ (8 * p) ->
  exists len, zlen len = p /\ value_lsb_first len = n.
Proof.
  intros Hp Hn. exists (le_bytes (Z.to_nat p) n).
  split.
  - unfold zlen. rewrite le_bytes_length. cbn in Hp. lia.
  - rewrite value_lsb_le, le_val_le_bytes, Z2Nat.id by (cbn in Hp; lia). now apply Z.mod_small.
Qed.
Lemma text_field pv x s t : text_bytes x s -> t = MVT_VARIABLE \/ t = MVT_FIXED \/ t = MVT_IP_ADDR ->
  pack_data pv x (Some t) None = Ok (Some (s ++ [x00])).
Proof. intros H Ht. unfold pack_data. destruct Ht as [->|[->| ->]]; cbn; rewrite (pack_text x s H); reflexivity. Qed.
Lemma proper_back pv v x : var_ok v -> proper_value v x ->
  exists w y, field_layout pv v x w /\ field_read v w y /\ received_as v x y.
Proof.
  intros (t & n & Ht & Hn & Hok) Hr. unfold proper_value in Hr. rewrite Ht in Hr. unfold received_as. rewrite Ht.
  assert (Htext : t = MVT_FIXED \/ t = MVT_IP_ADDR ->
     (exists s, text_bytes x s /\ tv_size v = Some (zlen s + 1)) ->
     exists w y, field_layout pv v x w /\ field_read v w y /\ exists s, text_bytes x s /\ y = VStr (s ++ [x00])).
  { intros Hd (s & Hs & Hz). exists (s ++ [x00]), (VStr (s ++ [x00])).
    destruct (plain_field pv v t x (s ++ [x00]) (VStr (s ++ [x00])) Ht) as [A B]; eauto.
    - destruct Hd as [-> | ->]; discriminate.
    - rewrite zlen_app. exact Hz.
    - eapply text_field; [exact Hs|tauto].
    - rewrite unpack_whole. destruct Hd as [-> | ->]; reflexivity. }
  assert (Hint : forall size sg en, int_spec t = Some (size, sg, en) -> (exists z, int_value x z /\ fits sg size z) ->
     n = sizeof_mvt t ->
     exists w y, field_layout pv v x w /\ field_read v w y /\ exists z, int_value x z /\ y = VInt z).
  { intros size sg en Hi (z & Hx & Hf) En. destruct (int_back pv t size sg en x z Hi Hx Hf) as (b & H1 & H2 & H3).
    exists b, (VInt z). destruct (plain_field pv v t x b (VInt z) Ht) as [A B]; eauto.
    - destruct t; discriminate.
    - rewrite Hn, En, H2. reflexivity. }
  assert (Hvec : (exists ct fl, components t x = Some (ct, fl) /\ Forall (float_fits ct) fl) -> n = sizeof_mvt t ->
     exists w y, field_layout pv v x w /\ field_read v w y /\ exists ct fl gl, components t x = Some (ct, fl) /\ components t y = Some (ct, gl) /\
                  Forall2 (float_back ct) fl gl).
  { intros (ct & fl & Hc & Hf) En. destruct (vector_back pv t x ct fl Hc Hf) as (b & y & gl & H1 & H2 & H3 & H4 & H5).
    exists b, y. destruct (plain_field pv v t x b y Ht) as [A B]; eauto 10.
    - destruct t; discriminate.
    - rewrite Hn, En, H2. reflexivity. }
  destruct t; cbn [int_spec] in Hr |- *;
    try (exact (Hint _ _ _ eq_refl Hr Hok)); try (apply Htext; [auto|exact Hr]); try exact (Hvec Hr Hok).
  - (* Variable *)
    destruct Hr as (s & p & Hs & Hp & Hl). assert (p = n) by congruence. subst p.
    assert (L : zlen (s ++ [x00]) = zlen s + 1) by (rewrite zlen_app; reflexivity). pose proof (zlen_nonneg s).
    destruct (length_bytes n (zlen s + 1) Hok ltac:(lia)) as (len & L1 & L2).
    assert (FL : field_layout pv v x (len ++ s ++ [x00])).
    { eapply fl_variable; eauto.
      - eapply text_field; eauto.
      - right. cbn [fits]. rewrite L. lia.
      - rewrite L, L2, Z.mod_small; lia. }
    destruct (String.eqb_spec (tv_name v) "Data") as [N|N].
    + exists (len ++ s ++ [x00]), (VStr (s ++ [x00])). split; [exact FL|]. split; [|eauto].
      eapply fr_data; eauto. now rewrite L.
    + destruct (without_nuls_ex s) as (r & R1 & R2). exists (len ++ s ++ [x00]), (VStr r). split; [exact FL|]. split; [|eauto].
      eapply fr_text; eauto. now rewrite L.
  - (* F32 *)
    destruct Hr as (f & -> & Hf). destruct (float_item_back pv MVT_F32 f (or_introl eq_refl) Hf) as (b & g & H1 & H2 & H3 & H4).
    exists b, (VFloat g). destruct (plain_field pv v MVT_F32 (VFloat f) b (VFloat g) Ht) as [A B]; eauto; try discriminate.
    + now rewrite Hn, Hok, H2.
    + split; [exact A|]. split; [exact B|]. eauto.
  - (* F64 *)
    destruct Hr as (f & -> & Hf). destruct (float_item_back pv MVT_F64 f (or_intror eq_refl) Hf) as (b & g & H1 & H2 & H3 & H4).
    exists b, (VFloat g). destruct (plain_field pv v MVT_F64 (VFloat f) b (VFloat g) Ht) as [A B]; eauto; try discriminate.
    + now rewrite Hn, Hok, H2.
    + split; [exact A|]. split; [exact B|]. cbn in H4. congruence.
  - (* Quaternion *)
    destruct Hr as (a & b & c & w & -> & Hf).
    assert (D : (positive_or_zero w /\ ~ negative_or_nan w) \/ (negative_or_nan w /\ ~ positive_or_zero w)).
    { destruct w as [s|[]| |[] m e]; cbn; tauto. }
    destruct D as [[D D']|[D D']].
    + destruct (quat_part pv a b c Hf) as (bs & a' & b' & c' & w' & H1 & H2 & H3 & H4 & H5).
      exists bs, (VQuat a' b' c' w').
      destruct (plain_field pv v _ (VQuat a b c w) bs (VQuat a' b' c' w') Ht) as [A B]; try discriminate; auto.
      { now rewrite Hn, Hok, H2. }
      { rewrite quat_write_nonneg by exact D. exact H1. }
      split; [exact A|]. split; [exact B|]. exists a, b, c, w, a', b', c', w'. tauto.
    + assert (Hf' : Forall (float_fits MVT_F32) [opposite a; opposite b; opposite c]).
      { inversion Hf as [|? ? Fa Hf1]; subst. inversion Hf1 as [|? ? Fb Hf2]; subst. inversion Hf2 as [|? ? Fc _]; subst.
        repeat constructor; now apply opposite_fits. }
      destruct (quat_part pv _ _ _ Hf') as (bs & a' & b' & c' & w' & H1 & H2 & H3 & H4 & H5).
      exists bs, (VQuat a' b' c' w').
      destruct (plain_field pv v _ (VQuat a b c w) bs (VQuat a' b' c' w') Ht) as [A B]; try discriminate; auto.
      { now rewrite Hn, Hok, H2. }
      { rewrite quat_write_neg by exact D. exact H1. }
      split; [exact A|]. split; [exact B|]. exists a, b, c, w, a', b', c', w'. tauto.
  - (* UUID *)
    destruct Hr as (u & Hx & Hu).
    assert (E : exists b, pack_data pv x (Some MVT_LLUUID) None = Ok (Some b) /\ zlen b = 16 /\
                  unpack_data b (Some MVT_LLUUID) (-1) (-1) None = Ok (VUUID u)).
    { destruct Hx as [-> | ->].
      - destruct (uuid_roundtrip pv u false None None [] [] Hu) as (b & H1 & H2 & _ & H3 & _). eauto.
      - destruct (uuid_roundtrip pv u true None None [] [] Hu) as (b & H1 & H2 & _ & H3 & _). eauto. }
    destruct E as (b & H1 & H2 & H3). exists b, (VUUID u).
    destruct (plain_field pv v _ x b (VUUID u) Ht) as [A B]; try discriminate; auto.
    { now rewrite Hn, Hok, H2. }
    eauto.
Qed.

(** Values that stand for others are written like them. *)
Lemma float_unique f g : valid64 f = true -> valid64 g = true -> finite_float f -> finite_float g ->
  rv f = rv g -> sign_SF f = sign_SF g -> f = g.
Proof.
  intros Vf Vg Ff Fg R S. rewrite valid64_binary in Vf, Vg.
  assert (SF2B f Vf = SF2B g Vg) as E.
  { apply B2R_Bsign_inj; rewrite ?is_finite_SF2B, ?B2R_SF2B, ?Bsign_SF2B; try assumption.
    - now destruct f.
    - now destruct g. }
  apply (f_equal B2SF) in E. now rewrite !B2SF_SF2B in E.
Qed.
Lemma int_float_is z f : int_as_float z f -> float_of_int z = Ok f.
Proof.
  intros (V & F & R & S). destruct (float_of_int_rv z) as [H _].
  assert (Rabs (rv f) < bpow radix2 1024)%R as B.
  { rewrite valid64_binary in V. unfold rv. rewrite <- (B2R_SF2B 53 1024 f V). apply abs_B2R_lt_emax. }
  rewrite R in B. destruct (H B) as (g & E & (Vg & Fg) & Rg). rewrite E. f_equal.
  apply float_unique; auto.
  - now apply finite_SF.
  - congruence.
  - rewrite S, (float_of_int_sign z g E). reflexivity.
Qed.
Lemma item_is n f : item_for n f -> num_float n = Ok f.
Proof. intros [g|z g H]; [reflexivity|]. cbn. now rewrite (int_float_is z g H). Qed.
Lemma items_are en double l fl : Forall2 item_for l fl ->
  pack_nums en double l = pack_nums en double (map NF fl).
Proof.
  induction 1 as [|n f l fl H _ IH]; [reflexivity|]. cbn [pack_nums map]. rewrite (item_is n f H). cbn [num_float bind].
  now rewrite IH.
Qed.
Lemma item_nonneg n w : item_for n w -> (num_nonneg n = true /\ positive_or_zero w) \/ (num_nonneg n = false /\ negative_or_nan w).
Proof.
  intros [f|z f (V & F & R & S)]; cbn [num_nonneg].
  - destruct f as [s|[]| |[] m e]; cbn; auto.
  - destruct f as [s|s| |s m e]; cbn in F, S; try contradiction; subst s.
    + left. destruct (Z.ltb_spec z 0) as [L|L]; [|split; [lia|exact I]].
      exfalso. pose proof (int_float_is z (S754_zero true)) as E.
      assert (rn64 (IZR z) = 0%R) as R' by (rewrite <- R; reflexivity).
      apply (rn64_int_nonzero z); [lia|exact R'].
    + destruct (Z.ltb_spec z 0); [right|left]; (split; [lia|exact I]).
Qed.
Lemma neg_minus n : num_neg n = minus n.
Proof. destruct n as [z|[]]; reflexivity. Qed.
Lemma stands_pack pv t x x' et : stands_for t x x' -> pack_data pv x (Some t) et = pack_data pv x' (Some t) et.
Proof.
  intros H. unfold pack_data. destruct H as [t x|t x z f T I F|l a b c F|t l fl T F|a b c n rest x y z w F N P|a b c n rest x y z w w' F N NN P].
  - reflexivity.
  - assert (as_pyfloat x = Ok f) as E.
    { destruct I; unfold as_pyfloat, num_float; now rewrite (int_float_is _ f F). }
    destruct T as [->| ->]; cbn [packer_table]; now rewrite E.
  - cbn [packer_table pack_vector3 pack_tuple]. f_equal. exact (items_are _ _ _ [a; b; c] F).
  - destruct T as [->| ->]; cbn [packer_table pack_tuple]; f_equal; now apply items_are.
  - cbn [packer_table pack_quat pack_quaternion_to_vector3]. f_equal.
    assert (num_nonneg n = true) as ->.
    { destruct (item_nonneg n w N) as [[E _]|[_ E]]; [exact E|]. destruct w as [s|[]| |[] m e]; cbn in *; contradiction. }
    assert (num_nonneg (NF w) = true) as -> by (destruct w as [s|[]| |[] m e]; cbn in *; try contradiction; reflexivity).
    cbn [bind]. apply (items_are _ _ _ [x; y; z] F).
  - cbn [packer_table pack_quat pack_quaternion_to_vector3]. f_equal.
    assert (num_nonneg n = false) as ->.
    { destruct (item_nonneg n w' N) as [[_ E]|[E _]]; [|exact E]. destruct w' as [s|[]| |[] m e]; cbn in *; contradiction. }
    assert (num_nonneg (NF w) = true) as -> by (destruct w as [s|[]| |[] m e]; cbn in *; try contradiction; reflexivity).
    cbn [bind]. rewrite !neg_minus. apply (items_are _ _ _ [x; y; z] F).
Qed.
Lemma field_back pv v x : var_ok v -> in_range v x ->
  exists w y, field_layout pv v x w /\ field_read v w y /\ comes_back v x y.
Proof.
  intros Hv (t & x' & Ht & Hs & Hp). destruct (proper_back pv v x' Hv Hp) as (w & y & L & R & B).
  exists w, y. split; [|split; [exact R|exists t, x'; auto]].
  destruct L as [w N P|p len d T S P D Z W V].
  - apply fl_plain; [exact N|]. rewrite Ht in P |- *. now rewrite (stands_pack pv t x x' None Hs).
  - eapply fl_variable; eauto. assert (t = MVT_VARIABLE) as -> by congruence. now rewrite (stands_pack pv _ x x' None Hs).
Qed.

Lemma proper_in_range v x t : tv_type v = Some t -> proper_value v x -> in_range v x.
Proof. intros T P. exists t, x. split; [exact T|]. split; [constructor|exact P]. Qed.
Lemma stands_other t x x' : vector_shape t = None -> t <> MVT_F32 -> t <> MVT_F64 -> t <> MVT_LLQuaternion ->
  stands_for t x x' -> x' = x.
Proof. intros V A B C H. destruct H as [| ? ? ? ? [->| ->] | | ? ? ? [->| ->] | |]; try reflexivity; try congruence; discriminate. Qed.

(** ** Instances *)
Lemma fill_list vs : forall ys b, List.length vs = List.length ys ->
  b_list (fill vs ys b) = b_list b ++ map tv_name vs /\ b_number (fill vs ys b) = b_number b.
Proof.
  unfold fill. induction vs as [|v vs IH]; intros [|y ys] b L; try discriminate; cbn [combine fold_left map].
  - now rewrite app_nil_r.
  - cbn in L. destruct (IH ys (add_variable b (tv_name v) {| v_data := y; v_type := tv_type v |}) ltac:(lia)) as [I1 I2].
    cbn [fst snd] in *. rewrite I1, I2. cbn. now rewrite <- app_assoc.
Qed.
Lemma fill_other vs : forall ys b n, ~ In n (map tv_name vs) -> block_getitem (fill vs ys b) n = block_getitem b n.
Proof.
  unfold fill. induction vs as [|v vs IH]; intros [|y ys] b n N; try reflexivity. cbn [combine fold_left].
  cbn in N. rewrite IH by tauto. unfold block_getitem, get_variable, add_variable. cbn.
  rewrite (dget_dset_neq _ string_eqb_spec) by (intros ->; tauto). reflexivity.
Qed.
Lemma fill_get (R : tvar -> pyval -> Prop) vs : NoDup (map tv_name vs) -> forall ys b, Forall2 R vs ys ->
  forall v, In v vs -> exists y, block_getitem (fill vs ys b) (tv_name v) = Ok y /\ R v y.
Proof.
  induction vs as [|v vs IH]; intros N ys b H u Hu; [destruct Hu|]. cbn in N. inversion N as [|? ? N1 N2]; subst.
  inversion H as [|? y ? ys' Hy H']; subst. change (fill (v :: vs) (y :: ys') b) with
    (fill vs ys' (add_variable b (tv_name v) {| v_data := y; v_type := tv_type v |})).
  destruct Hu as [<-|Hu]; [|now apply IH].
  rewrite fill_other by exact N1. exists y. split; [|exact Hy].
  unfold block_getitem, get_variable, add_variable. cbn. rewrite (dget_dset_eq _ string_eqb_spec). reflexivity.
Qed.
Definition vars_ok (tb : tblock) : Prop := Forall var_ok (tb_vars tb) /\ NoDup (map tv_name (tb_vars tb)).
Definition fillable (tb : tblock) (b : block) : Prop :=
  forall v, In v (tb_vars tb) -> exists x, block_getitem b (tv_name v) = Ok x /\ in_range v x.
Lemma fields_back pv b vs : Forall var_ok vs ->
  (forall v, In v vs -> exists x, block_getitem b (tv_name v) = Ok x /\ in_range v x) ->
  exists ws ys, Forall2 (fun v fw => exists x, block_getitem b (tv_name v) = Ok x /\ field_layout pv v x fw) vs ws /\
    fields_read vs ws ys /\
    Forall2 (fun v y => exists x, block_getitem b (tv_name v) = Ok x /\ comes_back v x y) vs ys.
Proof.
  induction 1 as [|v vs Hv _ IH]; intros H.
  - exists [], []. repeat split; constructor.
  - destruct IH as (ws & ys & I1 & I2 & I3); [intros u Hu; apply H; now right|].
    destruct (H v (or_introl eq_refl)) as (x & Hx & Hr). destruct (field_back pv v x Hv Hr) as (w & y & F1 & F2 & F3).
    exists (w :: ws), (y :: ys). split; [constructor; eauto|]. split; [now apply fields_read_cons|]. constructor; eauto.
Qed.
Lemma instance_back pv tb b i : vars_ok tb -> fillable tb b ->
  exists w b', instance_layout pv tb b w /\ instance_read tb i w b' /\ block_back tb b b' /\ b_number b' = i.
Proof.
  intros [Hok Hnd] Hb. destruct (fields_back pv b (tb_vars tb) Hok Hb) as (ws & ys & H1 & H2 & H3).
  exists (List.concat ws), (the_block tb i ys).
  assert (L : List.length (tb_vars tb) = List.length ys) by exact (Forall2_len _ _ _ H3).
  split; [exists ws; auto|]. split; [exists ws, ys; destruct H2 as [H2 H2']; auto|].
  rewrite the_block_fill.
  destruct (fill_list (tb_vars tb) ys {| b_name := tb_name tb; b_vars := []; b_list := []; b_number := i |} L) as [Q1 Q2].
  split; [|exact Q2]. split; [apply fill_name|]. split; [exact Q1|].
  intros v Hv. destruct (fill_get _ (tb_vars tb) Hnd ys {| b_name := tb_name tb; b_vars := []; b_list := []; b_number := i |} H3 v Hv)
    as (y & Hy & x & Hx & Hc). eauto.
Qed.
Lemma instances_back pv tb l : vars_ok tb -> Forall (fillable tb) l -> forall i,
  exists ws bs, Forall2 (instance_layout pv tb) l ws /\ instances_read tb (Z.of_nat i) (List.concat ws) bs /\
    Forall2 (block_back tb) l bs /\ map b_number bs = map Z.of_nat (seq i (List.length l)).
Proof.
  intros Hok. induction 1 as [|b l Hb _ IH]; intros i.
  - exists [], []. repeat constructor.
  - destruct (IH (S i)) as (ws & bs & I1 & I2 & I3 & I4).
    destruct (instance_back pv tb b (Z.of_nat i) Hok Hb) as (w & b' & J1 & J2 & J3 & J4).
    exists (w :: ws), (b' :: bs). split; [now constructor|]. split.
    + cbn [List.concat]. constructor; [exact J2|]. replace (Z.of_nat i + 1) with (Z.of_nat (S i)) by lia. exact I2.
    + split; [now constructor|]. cbn. now rewrite J4, I4.
Qed.

(** ** Blocks *)
Definition sendable_block (m : message) (tb : tblock) : Prop :=
  exists l, get_block (m_blocks m) (tb_name tb) = Ok l /\ right_count tb (zlen l) /\ Forall (fillable tb) l.
Definition back_instances (m : message) (tb : tblock) (bs : list block) : Prop :=
  Forall2 (block_back tb) (instances m (tb_name tb)) bs /\
  map b_number bs = map Z.of_nat (seq 0 (List.length (instances m (tb_name tb)))).
Lemma block_comes_back pv m tb : vars_ok tb -> sendable_block m tb ->
  exists w bs, block_layout pv tb m w /\ block_read tb w bs /\ back_instances m tb bs.
Proof.
  intros Hok (l & Hl & Hc & Hf). destruct (instances_back pv tb l Hok Hf 0) as (ws & bs & I1 & I2 & I3 & I4).
  assert (Hb : back_instances m tb bs) by (unfold back_instances, instances; rewrite Hl; auto).
  assert (Ll : zlen l = zlen bs) by (unfold zlen; f_equal; exact (Forall2_len _ _ _ I3)).
  unfold right_count in Hc. pose proof (zlen_nonneg l) as Z0.
  destruct (tb_type tb) as [[]|] eqn:Ht; [| | |contradiction].
  - exists (List.concat ws), bs. split; [exists l, [], ws; rewrite Ht; auto|]. split; [|exact Hb].
    destruct bs as [|b [|b' bs]]; rewrite ?zlen_cons, ?zlen_nil in Ll; try (pose proof (zlen_nonneg bs)); try lia. now apply br_single.
  - exists (List.concat ws), bs. split; [exists l, [], ws; rewrite Ht; auto|]. split; [|exact Hb].
    apply br_multiple; [exact Ht|lia|exact I2].
  - assert (Hc' : 0 <= zlen l < 256) by lia.
    exists (chr (zlen l) :: List.concat ws), bs. split; [|split; [|exact Hb]].
    + exists l, [chr (zlen l)], ws. rewrite Ht. split; [exact Hl|]. split; [reflexivity|]. split; [|exact I1].
      exists (chr (zlen l)). split; [reflexivity|]. change byte_value with ord. rewrite ord_chr.
      split; [reflexivity|]. right. cbn. lia.
    + apply br_variable; [exact Ht| |exact I2]. change byte_value with ord. rewrite ord_chr. rewrite Z.mod_small by exact Hc'. exact Ll.
Qed.
Lemma blocks_come_back pv m tbs : Forall vars_ok tbs -> Forall (sendable_block m) tbs ->
  exists ws bss, Forall2 (fun tb bw => block_layout pv tb m bw) tbs ws /\
    blocks_read tbs (List.concat ws) (List.concat bss) /\ Forall2 (back_instances m) tbs bss.
Proof.
  induction 1 as [|tb tbs Hok _ IH]; intros H.
  - exists [], []. repeat constructor.
  - inversion H as [|? ? Hb H']; subst. destruct (IH H') as (ws & bss & I1 & I2 & I3).
    destruct (block_comes_back pv m tb Hok Hb) as (w & bs & J1 & J2 & J3).
    exists (w :: ws), (bs :: bss). repeat split; cbn [List.concat]; constructor; auto.
Qed.
(** Grouping the received instances by name. *)
Lemma block_back_names tb l bs : Forall2 (block_back tb) l bs -> Forall (fun b => b_name b = tb_name tb) bs.
Proof. induction 1 as [|b b' l bs (H & _) _ IH]; constructor; auto. Qed.
Lemma dkeys_add_block d b : map fst (add_block d b) =
  if in_dec string_dec (b_name b) (map fst d) then map fst d else map fst d ++ [b_name b].
Proof.
  unfold add_block.
  assert (K : forall l, map fst (sset (b_name b) l d) = if in_dec string_dec (b_name b) (map fst d) then map fst d else map fst d ++ [b_name b]).
  { intros l. induction d as [|[k x] d IH]; [reflexivity|]. cbn [dset map fst].
    destruct (String.eqb_spec (b_name b) k) as [E|E].
    - subst k. cbn [map fst]. clear IH. destruct (in_dec string_dec (b_name b) (b_name b :: map fst d)) as [_|N]; [reflexivity|]. exfalso. apply N. now left.
    - cbn [map fst]. rewrite IH. destruct (in_dec string_dec (b_name b) (map fst d)) as [I|N];
        destruct (in_dec string_dec (b_name b) (k :: map fst d)) as [I'|N']; try reflexivity.
      + exfalso. apply N'. now right.
      + exfalso. destruct I' as [I'|I']; [congruence|auto]. }
  destruct (sget (b_name b) d); apply K.
Qed.
Lemma add_same_name name : forall bs d, Forall (fun b => b_name b = name) bs ->
  map fst (fold_left add_block bs d) =
  match bs with [] => map fst d | _ => if in_dec string_dec name (map fst d) then map fst d else map fst d ++ [name] end.
Proof.
  intros bs. induction bs as [|b bs IH]; intros d H; [reflexivity|]. inversion H as [|? ? Hb H']; subst. cbn [fold_left].
  rewrite (IH (add_block d b) H'). rewrite dkeys_add_block. destruct bs as [|b2 bs]; [reflexivity|].
  destruct (in_dec string_dec (b_name b) (map fst d)) as [I|N].
  - destruct (in_dec _ _ _); [reflexivity|contradiction].
  - destruct (in_dec _ _ _) as [_|N']; [reflexivity|]. exfalso. apply N'. apply in_or_app. right. now left.
Qed.
Definition has_instance (m : message) (tb : tblock) : bool :=
  match instances m (tb_name tb) with [] => false | _ => true end.
Lemma keys_back m tbs bss : Forall2 (back_instances m) tbs bss -> NoDup (map tb_name tbs) -> forall d,
  (forall tb, In tb tbs -> ~ In (tb_name tb) (map fst d)) ->
  map fst (fold_left add_block (List.concat bss) d) = map fst d ++ map tb_name (filter (has_instance m) tbs).
Proof.
  induction 1 as [|tb bs tbs bss [Hb _] _ IH]; intros N d Hd; cbn [List.concat]; [cbn; now rewrite app_nil_r|].
  cbn in N. inversion N as [|? ? N1 N2]; subst. rewrite fold_left_app. pose proof (block_back_names _ _ _ Hb) as Hn.
  pose proof (add_same_name (tb_name tb) bs d Hn) as E. cbn [filter map]. unfold has_instance at 1.
  destruct (in_dec string_dec (tb_name tb) (map fst d)) as [I|Nd]; [exfalso; apply (Hd tb); [now left|exact I]|].
  rewrite IH; [|exact N2|].
  - rewrite E. inversion Hb as [E1 E2|? ? ? ? ? ? E1 E2]; [reflexivity|]. cbn [map]. now rewrite <- app_assoc.
  - intros u Hu. rewrite E. assert (~ In (tb_name u) (map fst d)) by (apply Hd; now right).
    destruct bs; [auto|]. rewrite in_app_iff. intros [I|[I|[]]]; [auto|]. apply N1. rewrite I. now apply in_map.
Qed.
Lemma instances_back_get m tbs bss : Forall2 (back_instances m) tbs bss -> NoDup (map tb_name tbs) ->
  forall tb, In tb tbs -> exists bs, back_instances m tb bs /\
    filter (named (tb_name tb)) (List.concat bss) = bs.
Proof.
  induction 1 as [|tb bs tbs bss Hb Hbs IH]; intros N u Hu; [destruct Hu|]. cbn in N. inversion N as [|? ? N1 N2]; subst.
  cbn [List.concat]. rewrite filter_app. pose proof (block_back_names _ _ _ (proj1 Hb)) as Hn.
  destruct Hu as [<-|Hu].
  - exists bs. split; [exact Hb|]. rewrite (filter_named_all tb bs Hn).
    assert (Z : forall tbs bss, Forall2 (back_instances m) tbs bss -> ~ In (tb_name tb) (map tb_name tbs) -> filter (named (tb_name tb)) (List.concat bss) = []).
    { clear. induction 1 as [|u bs tbs bss [Hb _] _ IH]; intros N; [reflexivity|]. cbn in N. cbn [List.concat]. rewrite filter_app, IH by tauto.
      rewrite (filter_named_none (tb_name tb) (tb_name u)); [reflexivity| |exact (block_back_names _ _ _ Hb)]. intros E. apply N. left. congruence. }
    rewrite (Z tbs bss Hbs N1). apply app_nil_r.
  - destruct (IH N2 u Hu) as (bs' & B1 & B2). exists bs'. split; [exact B1|]. rewrite B2.
    rewrite (filter_named_none (tb_name u) (tb_name tb)); [reflexivity| |exact Hn].
    intros E. apply N1. rewrite <- E. now apply in_map.
Qed.

(** ** Messages *)
Lemma same_usable t t' : same_template t t' -> t_name t' = t_name t /\ t_blocks t' = t_blocks t /\ t_freq t' = t_freq t /\ t_num t' = t_num t.
Proof. intros (A & B & C & _ & _ & _ & D). repeat split; congruence. Qed.
Lemma usable_blocks t : usable t -> Forall vars_ok (t_blocks t).
Proof.
  intros (_ & W & _ & N). apply Forall_forall. intros tb Htb. split; [|now apply N].
  apply Forall_forall. apply (proj2 (W tb Htb)).
Qed.
Lemma conforming_blocks t m : conforming t m -> Forall (sendable_block m) (t_blocks t).
Proof.
  intros H. apply Forall_forall. intros tb Htb. destruct (H tb Htb) as (l & H1 & H2 & H3). exists l.
  repeat (split; [assumption|]). apply Forall_forall. intros b Hb v Hv. now apply H3.
Qed.
Lemma round_trip_core pv' pv ts c x m t handled :
  build_dict pv' ts = Ok (dc_dict c) -> Forall sized ts -> unambiguous ts -> In t ts -> usable t ->
  m_name m = t_name t -> conforming t m -> plain_header pv m ->
  udp_allowed x (t_name t) -> udp_allowed (dc_xml c) (t_name t) ->
  dc_handled c = Some handled -> handled (t_name t) = true \/ dc_deferred c = false ->
  exists w bss flags, serialize pv (dc_dict c) x m = Ok (Some w) /\ Forall2 (back_instances m) (t_blocks t) bss /\
    byte_value flags = m_flags m /\
    deserialize c w =
      let d := fold_left add_block (List.concat bss) [] in
      if (zlen d <=? 0) && (0 <? zlen (t_blocks t)) then Err MessageDeserializationErr
      else Ok (Some {| m_name := t_name t; m_blocks := d; m_flags := m_flags m; m_id := m_id m;
                       m_eqid := 0; m_acks := []; m_num_acks := 0;
                       m_trusted := false; m_reliable := bit flags reliable_bit; m_retries := 1 |}).
Proof.
  intros Hbd Hsz [U1 U2] Hin Hus Hname Hcf (F1 & F2 & F3 & I1 & I2) Hx Hcx Hh Hw.
  destruct (build_dict_both' pv' ts (dc_dict c) t Hbd U1 U2 Hin) as (t' & G1 & G2 & S & NB).
  destruct (same_usable t t' S) as (S1 & S2 & S3 & S4).
  pose proof Hus as ((f & Ef & Cf) & _ & _ & _).
  destruct (NB f) as (number & Hhex & Wn); [congruence|].
  replace (t_num t' mod number_space f) with (t_num t) in Wn
    by (rewrite S4; symmetry; apply Z.mod_small; destruct f; cbn in *; lia).
  destruct (blocks_come_back pv m (t_blocks t) (usable_blocks t Hus) (conforming_blocks t m Hcf)) as (ws & bss & B1 & B2 & B3).
  set (flags := chr (m_flags m)). assert (Vf : byte_value flags = m_flags m).
  { change byte_value with ord. unfold flags. rewrite ord_chr. apply Z.mod_small. exact F1. }
  set (id := be_bytes 4 (m_id m)).
  assert (Lid : zlen id = 4) by (unfold id, zlen, be_bytes; rewrite rev_length, le_bytes_length; reflexivity).
  assert (Vid : value_msb_first id = m_id m).
  { rewrite value_msb_be. unfold id, be_val, be_bytes. rewrite rev_involutive, le_val_le_bytes. now apply Z.mod_small. }
  set (tail := if String.eqb (t_name t) "RegionHandshakeReply" then repeat x00 4 else []).
  set (w := [flags] ++ id ++ [x00] ++ number ++ List.concat ws ++ tail).
  assert (HL : serialize pv (dc_dict c) x m = Ok (Some w)).
  { apply serialize_layout. exists t', flags, id, number, ws, tail. rewrite Hname, S1, S2. repeat (split; [first [assumption|reflexivity]|]).
    split; [rewrite Vf; symmetry; apply Z.mod_small; exact F1|]. split; [right; cbn; lia|]. split; [exact Lid|].
    split; [rewrite Vid; symmetry; now apply Z.mod_small|]. split; [exact I2|]. split; [exact Hhex|]. split; [exact B1|reflexivity]. }
  exists w, bss, flags. split; [exact HL|]. split; [exact B3|]. split; [exact Vf|].
  assert (Bz : bit flags zero_bit = false) by (unfold bit; rewrite Vf; exact F2).
  assert (Ba : bit flags ack_bit = false) by (unfold bit; rewrite Vf; exact F3).
  assert (Ew : w = flags :: id ++ x00 :: number ++ List.concat ws ++ tail) by reflexivity.
  assert (Hun : unwrapped w w [] []).
  { exists flags, (id ++ x00 :: number ++ List.concat ws ++ tail), w. rewrite app_nil_r. split; [exact Ew|]. split; [exact Ew|].
    rewrite Ba, Bz. auto. }
  assert (Hsz' : Forall pos_block (t_blocks t')).
  { rewrite S2. rewrite Forall_forall in Hsz. apply sized_blocks, Hsz, Hin. }
  rewrite (deserialize_eq c w w [] t' handled Hh).
  - rewrite (decode_data_eq t' f flags id x00 (number ++ List.concat ws ++ tail) [] [] w); [|congruence|exact Ew|exact Lid|rewrite Ba; auto].
    change (ord x00) with 0. rewrite S2 in Hsz' |- *.
    assert (Hsk : skipn (Z.to_nat (6 + number_width f + 0)) (w ++ []) = List.concat ws ++ tail).
    { rewrite app_nil_r. replace w with (([flags] ++ id ++ [x00] ++ number) ++ List.concat ws ++ tail) by (unfold w; now rewrite <- !app_assoc).
      replace (Z.to_nat (6 + number_width f + 0)) with (List.length ([flags] ++ id ++ [x00] ++ number)).
      - now rewrite skipn_app, skipn_all, Nat.sub_diag.
      - pose proof (wire_number_len f _ number Wn) as Ln. unfold zlen in Ln, Lid. rewrite !app_length. cbn [List.length]. lia. }
    rewrite (decode_blocks_at (t_blocks t) (List.concat ws) (List.concat bss) _ [] _ tail B2 Hsz'); [|destruct f; cbn; lia|exact Hsk].
    cbn [bind]. cbv zeta. rewrite S1. change byte_value with ord in Vf. rewrite Vf, Vid.
    destruct (_ && _)%bool; reflexivity.
  - now apply (unwrapped_ok w w [] []).
  - assert (E6 : w = (flags :: id ++ [x00]) ++ number ++ List.concat ws ++ tail) by (unfold w; change (flags :: id ++ [x00]) with ([flags] ++ id ++ [x00]); now rewrite <- !app_assoc).
    rewrite E6, (decode_template_number _ _ f (t_num t) number); [rewrite <- Ef, G2; reflexivity| |exact Wn|exact Cf].
    rewrite zlen_cons, zlen_app, Lid. reflexivity.
  - rewrite S1. now apply udp_allowed_spec.
  - rewrite S1. apply orb_true_iff. rewrite negb_true_iff. exact Hw.
Qed.
Lemma concat_back_nil m tbs bss : Forall2 (back_instances m) tbs bss ->
  List.concat bss = [] <-> forall tb, In tb tbs -> instances m (tb_name tb) = [].
Proof.
  induction 1 as [|tb bs tbs bss [Hb _] _ IH]; cbn [List.concat].
  - split; [intros _ tb []|reflexivity].
  - split.
    + intros E. apply app_eq_nil in E as [-> E]. intros u [<-|Hu]; [now inversion Hb|]. now apply IH.
    + intros H. assert (E : instances m (tb_name tb) = []) by (apply H; now left). rewrite E in Hb. inversion Hb; subst.
      apply IH. intros u Hu. apply H. now right.
Qed.
Lemma instances_get d name : (match get_block d name with Ok l => l | Err _ => [] end) = match sget name d with Some l => l | None => [] end.
Proof. unfold get_block. destruct (sget name d); reflexivity. Qed.
Lemma round_trip pv' pv ts c x m t handled :
  build_dict pv' ts = Ok (dc_dict c) -> Forall sized ts -> unambiguous ts -> In t ts -> usable t ->
  m_name m = t_name t -> conforming t m -> plain_header pv m ->
  udp_allowed x (t_name t) -> udp_allowed (dc_xml c) (t_name t) ->
  dc_handled c = Some handled -> handled (t_name t) = true \/ dc_deferred c = false ->
  t_blocks t = [] \/ (exists tb, In tb (t_blocks t) /\ instances m (tb_name tb) <> []) ->
  exists w m', serialize pv (dc_dict c) x m = Ok (Some w) /\ deserialize c w = Ok (Some m') /\ message_back t m m'.
Proof.
  intros Hbd Hsz Hun Hin Hus Hname Hcf Hph Hx Hcx Hh Hw Hne.
  destruct (round_trip_core pv' pv ts c x m t handled Hbd Hsz Hun Hin Hus Hname Hcf Hph Hx Hcx Hh Hw) as (w & bss & flags & H1 & H2 & H3 & H4).
  exists w. cbv zeta in H4. set (d := fold_left add_block (List.concat bss) []) in *.
  assert (Hz : ((zlen d <=? 0) && (0 <? zlen (t_blocks t)))%bool = false).
  { destruct Hne as [->|(tb & Htb & Hi)]; [apply andb_false_r|]. apply andb_false_iff. left.
    assert (d <> []).
    { unfold d. rewrite add_blocks_empty, (concat_back_nil m _ _ H2). intros A. now apply Hi, A. }
    destruct d; [congruence|]. rewrite zlen_cons. pose proof (zlen_nonneg d). lia. }
  rewrite Hz in H4. eexists. split; [exact H1|]. split; [exact H4|].
  destruct Hus as (_ & _ & Nb & _).
  split; [cbn; congruence|]. repeat (split; [reflexivity|]). cbn [m_reliable m_blocks m_acks].
  split; [unfold bit; now rewrite H3|]. split.
  - exists (filter (has_instance m) (t_blocks t)). split; [|reflexivity].
    unfold d. rewrite (keys_back m _ _ H2 Nb []) by (cbn; tauto). reflexivity.
  - intros tb Htb. destruct (instances_back_get m _ _ H2 Nb tb Htb) as (bs & [E1 E2] & E3).
    assert (E : instances {| m_name := t_name t; m_blocks := d; m_flags := m_flags m; m_id := m_id m; m_eqid := 0; m_acks := [];
       m_num_acks := 0; m_trusted := false; m_reliable := bit flags reliable_bit; m_retries := 1 |} (tb_name tb) = bs).
    { unfold instances. cbn [m_blocks]. rewrite instances_get. unfold d. rewrite blocks_get, E3. cbn [dget]. destruct bs; reflexivity. }
    rewrite E. auto.
Qed.
(** A message whose every block is empty is sent, but not received. *)
Lemma empty_round_trip pv' pv ts c x m t handled :
  build_dict pv' ts = Ok (dc_dict c) -> Forall sized ts -> unambiguous ts -> In t ts -> usable t ->
  m_name m = t_name t -> conforming t m -> plain_header pv m ->
  udp_allowed x (t_name t) -> udp_allowed (dc_xml c) (t_name t) ->
  dc_handled c = Some handled -> handled (t_name t) = true \/ dc_deferred c = false ->
  t_blocks t <> [] -> (forall tb, In tb (t_blocks t) -> instances m (tb_name tb) = []) ->
  exists w, serialize pv (dc_dict c) x m = Ok (Some w) /\ deserialize c w = Err MessageDeserializationErr.
Proof.
  intros Hbd Hsz Hun Hin Hus Hname Hcf Hph Hx Hcx Hh Hw Hne He.
  destruct (round_trip_core pv' pv ts c x m t handled Hbd Hsz Hun Hin Hus Hname Hcf Hph Hx Hcx Hh Hw) as (w & bss & flags & H1 & H2 & H3 & H4).
  exists w. split; [exact H1|]. rewrite H4. cbv zeta. apply (concat_back_nil m _ _ H2) in He. rewrite He. cbn [fold_left].
  destruct (t_blocks t) as [|tb tbs]; [congruence|]. rewrite zlen_cons. pose proof (zlen_nonneg tbs).
  destruct (0 <? 1 + zlen tbs) eqn:E; [reflexivity|lia].
Qed.
