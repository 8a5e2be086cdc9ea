(** Proofs about the body of a packet: decode_blocks. *)
From Coq Require Import ZifyBool ZifyNat.
From Verif Require Import Deserializer Lib SpecCodec SpecWire SpecLayout CodecProofs FieldProofs HeaderProofs.
Ltac Zify.zify_post_hook ::= Z.div_mod_to_equations.

Definition pos_size (v : tvar) : Prop := forall s, tv_size v = Some s -> 1 <= s.
Definition pos_block (tb : tblock) : Prop := Forall pos_size (tb_vars tb).
Lemma sized_blocks t : sized t -> Forall pos_block (t_blocks t).
Proof.
  intros H. apply Forall_forall. intros tb Htb. apply Forall_forall. intros v Hv s Hs. eapply H; eassumption.
Qed.

(** ** Moving along the buffer *)
Lemma pyslice_shift {A} (pre s : list A) i j : 0 <= i -> 0 <= j ->
  pyslice (pre ++ s) (zlen pre + i) (zlen pre + j) = pyslice s i j.
Proof.
  intros Hi Hj. pose proof (zlen_nonneg pre). rewrite !pyslice_pos by lia.
  replace (zlen pre + j - (zlen pre + i)) with (j - i) by lia. f_equal.
  rewrite Z2Nat.inj_add, zlen_to_nat by lia. rewrite skipn_app.
  rewrite skipn_all2 by lia. cbn [app]. f_equal. lia.
Qed.
Lemma unpack_data_shift pre s t k vs et : 0 <= k -> -1 <= vs -> (vs = -1 -> exists t', t = Some t' /\ 0 <= sizeof_mvt t') ->
  unpack_data (pre ++ s) t (zlen pre + k) vs et = unpack_data s t k vs et.
Proof.
  intros Hk Hvs Ht. unfold unpack_data. pose proof (zlen_nonneg pre).
  destruct (zlen pre + k =? -1) eqn:E1; [lia|]. destruct (k =? -1) eqn:E2; [lia|].
  destruct (Z.eqb_spec vs (-1)) as [->|E3].
  - destruct (Ht eq_refl) as (t' & -> & Hs). cbn [sizeof option_map bind].
    rewrite <- (Z.add_assoc (zlen pre)), pyslice_shift by lia. reflexivity.
  - cbn [bind]. rewrite <- (Z.add_assoc (zlen pre)), pyslice_shift by lia. reflexivity.
Qed.
Lemma unpack_z_shift pre s t k et : 0 <= k -> 0 <= sizeof_mvt t ->
  unpack_z (pre ++ s) t (zlen pre + k) et = unpack_z s t k et.
Proof.
  intros Hk Ht. unfold unpack_z. rewrite unpack_data_shift; eauto; try lia.
Qed.
Definition shift {A} (n : Z) (r : dres (A * Z)) : dres (A * Z) :=
  res_map (option_map (fun '(a, p) => (a, n + p))) r.

Lemma decode_var_shift pre s v k : 0 <= k -> pos_size v ->
  decode_var (pre ++ s) v (zlen pre + k) = shift (zlen pre) (decode_var s v k).
Proof.
  intros Hk Hp. unfold decode_var. destruct (tv_size v) as [sz|] eqn:Es; [|reflexivity].
  assert (H1 : 1 <= sz) by (apply Hp; exact Es).
  assert (T : forall vs k', 0 <= vs -> 0 <= k' ->
    (if zlen (pre ++ s) <? zlen pre + k' + vs then Ok None else
          do u <- unpack_data (pre ++ s) (tv_type v) (zlen pre + k') vs None;
          let u := match tv_type v, u with
                   | Some MVT_VARIABLE, VStr s =>
                       if String.eqb (tv_name v) "Data" then u else VStr (rstrip0 s)
                   | _, _ => u
                   end in
          Ok (Some (u, zlen pre + k' + vs))) =
    shift (zlen pre) (if zlen s <? k' + vs then Ok None else
          do u <- unpack_data s (tv_type v) k' vs None;
          let u := match tv_type v, u with
                   | Some MVT_VARIABLE, VStr s =>
                       if String.eqb (tv_name v) "Data" then u else VStr (rstrip0 s)
                   | _, _ => u
                   end in
          Ok (Some (u, k' + vs)))).
  { intros vs k' Hvs Hk'. rewrite zlen_app.
    replace (zlen pre + zlen s <? zlen pre + k' + vs) with (zlen s <? k' + vs) by lia.
    destruct (zlen s <? k' + vs); [reflexivity|].
    rewrite unpack_data_shift by lia.
    destruct (unpack_data s (tv_type v) k' vs None); cbn [bind shift res_map option_map]; [|reflexivity].
    do 3 f_equal. lia. }
  assert (D : tv_type v = Some MVT_VARIABLE \/ tv_type v <> Some MVT_VARIABLE).
  { destruct (tv_type v) as [[]|]; auto; right; discriminate. }
  destruct D as [Et|Et].
  - rewrite Et in *. rewrite zlen_app.
    replace (zlen pre + zlen s <? zlen pre + k + sz) with (zlen s <? k + sz) by lia.
    destruct (zlen s <? k + sz); [reflexivity|].
    rewrite !unpack_z_shift by (cbn; lia).
    set (u := if sz =? 1 then _ else _). assert (Hu : forall z, u = Ok z -> 0 <= z).
    { assert (G : forall t, (t = MVT_U8 \/ t = MVT_U16 \/ t = MVT_U32) -> forall z, unpack_z s t k None = Ok z -> 0 <= z).
      { intros t Ht z. unfold unpack_z. intros H. inv_bind H. revert H.
        assert (Hi : exists p en, int_spec t = Some (p, false, en)) by (destruct Ht as [->|[->| ->]]; eexists _, _; reflexivity).
        destruct Hi as (p & en & Hi). unfold unpack_data in Ha. destruct (k =? -1) eqn:E; [lia|].
        cbn [bind] in Ha. change (-1 =? -1) with true in Ha. cbn [sizeof option_map bind] in Ha.
        destruct (int_decode Py26 t p false en None (pyslice s k (k + sizeof_mvt t)) Hi) as [I1 I2].
        rewrite unpack_whole in I1, I2.
        destruct (Z.eq_dec (zlen (pyslice s k (k + sizeof_mvt t))) p) as [L|L].
        - destruct (I1 L) as (z' & E1 & F & _). rewrite E1 in Ha. injection Ha as <-. intros [= <-]. unfold fits in F. lia.
        - rewrite (I2 L) in Ha. discriminate. }
      unfold u. intros z. destruct (sz =? 1); [apply G; auto|]. destruct (sz =? 2); [apply G; auto|].
      destruct (sz =? 4); [apply G; auto|discriminate]. }
    destruct u as [z|e]; cbn [bind]; [|reflexivity].
    rewrite <- (Z.add_assoc (zlen pre) k sz), <- (zlen_app pre s). apply T; [apply Hu; reflexivity|lia].
  - assert (M : forall B (x y : B), match tv_type v with Some MVT_VARIABLE => x | _ => y end = y).
    { intros. destruct (tv_type v) as [[]|]; congruence. }
    rewrite !M. cbn [bind]. apply T; lia.
Qed.

Lemma decode_var_pos data v pos y pos' : 0 <= pos -> pos_size v ->
  decode_var data v pos = Ok (Some (y, pos')) ->
  exists w, field_read v w y /\ pos' = pos + zlen w /\ exists rest, skipn (Z.to_nat pos) data = w ++ rest.
Proof.
  intros Hp Hs. unfold decode_var. destruct (tv_size v) as [sz|] eqn:Es; [|discriminate].
  assert (H1 : 1 <= sz) by (apply Hs; exact Es).
  assert (SL : forall a n, 0 <= a -> 0 <= n -> a + n <= zlen data ->
    zlen (pyslice data a (a + n)) = n /\ exists rest, skipn (Z.to_nat a) data = pyslice data a (a + n) ++ rest).
  { intros a n Ha Hn Hl. split; [rewrite pyslice_length by lia; lia|].
    rewrite pyslice_pos by lia. eexists. symmetry. apply firstn_skipn. }
  assert (D : tv_type v = Some MVT_VARIABLE \/ tv_type v <> Some MVT_VARIABLE).
  { destruct (tv_type v) as [[]|]; auto; right; discriminate. }
  destruct D as [Et|Et].
  - rewrite Et in *. destruct (zlen data <? pos + sz) eqn:E1; [discriminate|].
    assert (U : forall z, (if sz =? 1 then unpack_z data MVT_U8 pos None
       else if sz =? 2 then unpack_z data MVT_U16 pos None
       else if sz =? 4 then unpack_z data MVT_U32 pos None else Err MessageDeserializationErr) = Ok z ->
       In sz [1; 2; 4] /\ z = value_lsb_first (pyslice data pos (pos + sz))).
    { intros z. assert (G : forall t, prefix_type sz = Some t -> unpack_z data t pos None = Ok z ->
        z = value_lsb_first (pyslice data pos (pos + sz))).
      { intros t Ht Hz. destruct (prefix_int sz t Ht) as (en & Hi & Hen).
        destruct (SL pos sz Hp ltac:(lia) ltac:(lia)) as (L & rest & R).
        assert (Ed : data = firstn (Z.to_nat pos) data ++ pyslice data pos (pos + sz) ++ rest)
          by (rewrite <- R; symmetry; apply firstn_skipn).
        assert (Lf : zlen (firstn (Z.to_nat pos) data) = pos).
        { unfold zlen. rewrite firstn_length. unfold zlen in *. lia. }
        pose proof (unpack_z_int t sz en None (firstn (Z.to_nat pos) data) (pyslice data pos (pos + sz)) rest Hi L) as V.
        rewrite <- Ed, Lf in V. rewrite V in Hz. injection Hz as <-. cbn [order].
        destruct Hen as [E| ->]; [now apply (single_byte_order en LE); rewrite L|reflexivity]. }
      unfold prefix_type in G.
      destruct (Z.eqb_spec sz 1) as [->|]; [intros H; split; [cbn; auto|now apply (G MVT_U8)]|].
      destruct (Z.eqb_spec sz 2) as [->|]; [intros H; split; [cbn; auto|now apply (G MVT_U16)]|].
      destruct (Z.eqb_spec sz 4) as [->|]; [intros H; split; [cbn; auto|now apply (G MVT_U32)]|discriminate]. }
    destruct (if sz =? 1 then _ else _) as [z|e] eqn:Eu; [|discriminate]. cbn [bind].
    destruct (U z eq_refl) as (Hin & Hz). clear U.
    destruct (SL pos sz Hp ltac:(lia) ltac:(lia)) as (L & rest & R).
    assert (Hz0 : 0 <= z). { rewrite Hz. pose proof (dec_range LE (pyslice data pos (pos + sz))). rewrite <- value_dec in H. cbn [value] in H. lia. }
    destruct (zlen data <? pos + sz + z) eqn:E2; [discriminate|].
    unfold unpack_data. destruct (pos + sz =? -1) eqn:E3; [lia|]. destruct (z =? -1) eqn:E4; [lia|]. cbn [bind].
    cbv [unpack_raw unpacker_table wrap_struct_error]. cbn [bind].
    destruct (SL (pos + sz) z ltac:(lia) Hz0 ltac:(lia)) as (L2 & rest2 & R2).
    intros H. injection H as Hy Hp'.
    exists (pyslice data pos (pos + sz) ++ pyslice data (pos + sz) (pos + sz + z)). split; [|split].
    + destruct (String.eqb_spec (tv_name v) "Data") as [En|En]; subst y.
      * eapply fr_data; eauto. congruence.
      * eapply fr_text; eauto; [congruence|]. now apply rstrip0_unique.
    + rewrite zlen_app, L, L2. lia.
    + exists rest2. rewrite <- app_assoc, <- R2, R. f_equal.
      rewrite Z2Nat.inj_add by lia.
      rewrite Nat.add_comm, <- skipn_skipn, R.
      rewrite skipn_app, skipn_all2 by (unfold zlen in L; lia). cbn [app].
      replace (Z.to_nat sz - List.length (pyslice data pos (pos + sz)))%nat with O by (unfold zlen in L; lia). reflexivity.
  - assert (M : forall B (x y : B), match tv_type v with Some MVT_VARIABLE => x | _ => y end = y).
    { intros. destruct (tv_type v) as [[]|]; congruence. }
    rewrite M. cbn [bind]. destruct (zlen data <? pos + sz) eqn:E1; [discriminate|].
    destruct (SL pos sz Hp ltac:(lia) ltac:(lia)) as (L & rest & R).
    intros H. inv_bind H. injection H as Hy Hp'.
    assert (Hy' : a = y). { rewrite <- Hy. destruct (tv_type v) as [[]|]; try reflexivity. congruence. }
    exists (pyslice data pos (pos + sz)). split; [|split; [lia|eauto]].
    apply fr_plain; [exact Et|congruence|]. rewrite <- Hy'.
    unfold unpack_data in *. destruct (pos =? -1) eqn:E3; [lia|]. destruct (sz =? -1) eqn:E4; [lia|]. exact Ha.
Qed.

Lemma decode_var_read v w y post : pos_size v -> field_read v w y ->
  decode_var (w ++ post) v 0 = Ok (Some (y, zlen w)).
Proof.
  intros Hs H. inversion H as [w' y' Ht Hsz Hu|p len d Ht Hsz Hin Hl Hv Hn|p len d r Ht Hsz Hin Hl Hv Hn Hr]; subst.
  - unfold decode_var. rewrite Hsz. pose proof (Hs _ Hsz) as H1.
    assert (M : forall B (x y : B), match tv_type v with Some MVT_VARIABLE => x | _ => y end = y).
    { intros. destruct (tv_type v) as [[]|]; congruence. }
    rewrite M. cbn [bind]. rewrite zlen_app. pose proof (zlen_nonneg post).
    destruct (zlen w + zlen post <? 0 + zlen w) eqn:E; [lia|].
    assert (E' : unpack_data (w ++ post) (tv_type v) 0 (zlen w) None = Ok y).
    { rewrite <- Hu. unfold unpack_data. cbn [Z.eqb]. destruct (zlen w =? -1) eqn:E4; [lia|]. cbn [bind].
      change (w ++ post) with ([] ++ w ++ post). rewrite pyslice_mid by reflexivity. reflexivity. }
    rewrite E'. cbn [bind]. destruct (tv_type v) as [[]|]; try reflexivity. congruence.
  - assert (Hp : zlen len = 1 \/ zlen len = 2 \/ zlen len = 4) by (cbn in Hin; lia).
    pose proof (variable_read v (zlen len) [] len d post Ht Hsz Hp eq_refl Hv) as R.
    rewrite zlen_nil, Hn in R. cbn [app String.eqb Ascii.eqb Bool.eqb] in R. rewrite R. reflexivity.
  - assert (Hp : zlen len = 1 \/ zlen len = 2 \/ zlen len = 4) by (cbn in Hin; lia).
    pose proof (variable_read v (zlen len) [] len d post Ht Hsz Hp eq_refl Hv) as R.
    rewrite zlen_nil in R. apply String.eqb_neq in Hn. rewrite Hn in R. apply rstrip0_unique in Hr. rewrite Hr in R.
    cbn [app] in R. rewrite R. reflexivity.
Qed.
Lemma decode_var_at pre v w y post : pos_size v -> field_read v w y ->
  decode_var (pre ++ w ++ post) v (zlen pre) = Ok (Some (y, zlen pre + zlen w)).
Proof.
  intros Hs H. rewrite <- (Z.add_0_r (zlen pre)) at 1.
  rewrite decode_var_shift by (auto; lia). rewrite (decode_var_read v w y post Hs H). reflexivity.
Qed.

(** ** One instance *)
Definition fields_read (vs : list tvar) (ws : list bytes) (ys : list pyval) : Prop :=
  Forall2 (fun v wy => field_read v (fst wy) (snd wy)) vs (combine ws ys) /\ List.length ws = List.length ys.
Lemma fields_read_cons v vs w ws y ys : field_read v w y -> fields_read vs ws ys ->
  fields_read (v :: vs) (w :: ws) (y :: ys).
Proof. intros H [H1 H2]. split; [constructor; auto|cbn; congruence]. Qed.
Lemma fields_read_inv v vs ws ys : fields_read (v :: vs) ws ys ->
  exists w ws' y ys', ws = w :: ws' /\ ys = y :: ys' /\ field_read v w y /\ fields_read vs ws' ys'.
Proof.
  intros [H1 H2]. destruct ws as [|w ws]; [inversion H1|]. destruct ys as [|y ys]; [inversion H1|].
  inversion H1; subst. exists w, ws, y, ys. repeat split; auto.
Qed.
Lemma fields_read_nil ws ys : fields_read [] ws ys -> ws = [] /\ ys = [].
Proof. intros [H1 H2]. destruct ws, ys; try discriminate; [auto|inversion H1]. Qed.
Definition fill (vs : list tvar) (ys : list pyval) (b : block) : block :=
  fold_left (fun b vy => add_variable b (tv_name (fst vy)) {| v_data := snd vy; v_type := tv_type (fst vy) |})
            (combine vs ys) b.
Lemma the_block_fill tb i ys : the_block tb i ys =
  fill (tb_vars tb) ys {| b_name := tb_name tb; b_vars := []; b_list := []; b_number := i |}.
Proof. reflexivity. Qed.

Lemma decode_vars_shift pre s vs : Forall pos_size vs -> forall b k, 0 <= k ->
  decode_vars (pre ++ s) vs b (zlen pre + k) = shift (zlen pre) (decode_vars s vs b k).
Proof.
  induction 1 as [|v vs Hv Hvs IH]; intros b k Hk; [reflexivity|]. cbn [decode_vars].
  rewrite decode_var_shift by auto. destruct (decode_var s v k) as [[[y k']|]|e] eqn:E; cbn [shift res_map option_map bind]; try reflexivity.
  apply IH. destruct (decode_var_pos s v k y k' Hk Hv E) as (w & _ & -> & _). pose proof (zlen_nonneg w). lia.
Qed.
Lemma decode_vars_read vs : Forall pos_size vs -> forall ws ys pre post b, fields_read vs ws ys ->
  decode_vars (pre ++ List.concat ws ++ post) vs b (zlen pre) =
  Ok (Some (fill vs ys b, zlen pre + zlen (List.concat ws))).
Proof.
  induction 1 as [|v vs Hv Hvs IH]; intros ws ys pre post b H.
  - apply fields_read_nil in H as [-> ->]. cbn. do 3 f_equal. symmetry; apply Z.add_0_r.
  - apply fields_read_inv in H as (w & ws' & y & ys' & -> & -> & H1 & H2). cbn [decode_vars List.concat].
    rewrite <- app_assoc, (decode_var_at pre v w y _ Hv H1). cbn [bind].
    pose proof (IH ws' ys' (pre ++ w) post (add_variable b (tv_name v) {| v_data := y; v_type := tv_type v |}) H2) as E.
    rewrite <- app_assoc, zlen_app in E. rewrite E, zlen_app. unfold fill. cbn [combine fold_left fst snd]. do 3 f_equal. lia.
Qed.
Lemma decode_vars_inv data vs : Forall pos_size vs -> forall b pos b' pos', 0 <= pos ->
  decode_vars data vs b pos = Ok (Some (b', pos')) ->
  exists ws ys, fields_read vs ws ys /\ b' = fill vs ys b /\ pos' = pos + zlen (List.concat ws) /\
    exists rest, skipn (Z.to_nat pos) data = List.concat ws ++ rest.
Proof.
  induction 1 as [|v vs Hv Hvs IH]; intros b pos b' pos' Hp; cbn [decode_vars].
  - intros [= <- <-]. exists [], []. split; [split; [constructor|reflexivity]|]. split; [reflexivity|].
    split; [symmetry; apply Z.add_0_r|]. eexists. reflexivity.
  - intros H. inv_bind H. destruct a as [[y p1]|]; [|discriminate].
    destruct (decode_var_pos data v pos y p1 Hp Hv Ha) as (w & Hr & -> & rest & R).
    assert (Hp1 : 0 <= pos + zlen w) by (pose proof (zlen_nonneg w); lia). pose proof (zlen_nonneg w).
    destruct (IH _ _ _ _ Hp1 H) as (ws & ys & H1 & -> & -> & rest' & R').
    exists (w :: ws), (y :: ys). split; [now apply fields_read_cons|]. split; [reflexivity|].
    cbn [List.concat]. rewrite zlen_app. split; [lia|]. exists rest'.
    rewrite <- app_assoc, <- R', R. f_equal.
    rewrite Z2Nat.inj_add by lia. rewrite Nat.add_comm, <- skipn_skipn, R, zlen_to_nat, skipn_app, skipn_all, Nat.sub_diag. reflexivity.
Qed.

(** ** Instances *)
Lemma decode_instances_shift pre s tb : pos_block tb -> forall n i d k, 0 <= k ->
  decode_instances (pre ++ s) tb i n d (zlen pre + k) = shift (zlen pre) (decode_instances s tb i n d k).
Proof.
  intros Hb. induction n as [|n IH]; intros i d k Hk; [reflexivity|]. cbn [decode_instances].
  rewrite decode_vars_shift by auto.
  destruct (decode_vars s (tb_vars tb) _ k) as [[[b k']|]|e] eqn:E; cbn [shift res_map option_map bind]; try reflexivity.
  apply IH. destruct (decode_vars_inv s _ Hb _ _ _ _ Hk E) as (ws & ys & _ & _ & -> & _).
  pose proof (zlen_nonneg (List.concat ws)). lia.
Qed.
Lemma decode_instances_read tb : pos_block tb -> forall w i bs, instances_read tb i w bs ->
  forall pre post d,
  decode_instances (pre ++ w ++ post) tb i (List.length bs) d (zlen pre) =
  Ok (Some (fold_left add_block bs d, zlen pre + zlen w)).
Proof.
  intros Hb w i bs H. induction H as [i|i w b w' bs H1 H2 IH]; intros pre post d.
  - cbn. do 3 f_equal. symmetry; apply Z.add_0_r.
  - cbn [List.length decode_instances]. destruct H1 as (ws & ys & -> & -> & H1 & H1').
    rewrite <- app_assoc, (decode_vars_read _ Hb ws ys pre _ _ (conj H1 H1')). cbn [bind].
    pose proof (IH (pre ++ List.concat ws) post (add_block d (the_block tb i ys))) as E.
    rewrite <- app_assoc, zlen_app in E. rewrite <- the_block_fill, E, zlen_app. cbn [fold_left]. do 3 f_equal. lia.
Qed.
Lemma decode_instances_inv data tb : pos_block tb -> forall n i d pos d' pos', 0 <= pos ->
  decode_instances data tb i n d pos = Ok (Some (d', pos')) ->
  exists w bs, instances_read tb i w bs /\ List.length bs = n /\ d' = fold_left add_block bs d /\
    pos' = pos + zlen w /\ exists rest, skipn (Z.to_nat pos) data = w ++ rest.
Proof.
  intros Hb. induction n as [|n IH]; intros i d pos d' pos' Hp; cbn [decode_instances].
  - intros [= <- <-]. exists [], []. split; [constructor|]. repeat split; try reflexivity.
    + symmetry; apply Z.add_0_r.
    + eexists. reflexivity.
  - intros H. inv_bind H. destruct a as [[b p1]|]; [|discriminate].
    destruct (decode_vars_inv data _ Hb _ _ _ _ Hp Ha) as (ws & ys & [Hr Hr'] & -> & -> & rest & R).
    pose proof (zlen_nonneg (List.concat ws)).
    assert (Hp1 : 0 <= pos + zlen (List.concat ws)) by lia.
    destruct (IH _ _ _ _ _ Hp1 H) as (w & bs & H1 & H2 & -> & -> & rest' & R').
    exists (List.concat ws ++ w). eexists (_ :: bs). split; [constructor; [exists ws, ys; split; [reflexivity|split; [reflexivity|auto]]|exact H1]|].
    split; [cbn; congruence|]. split; [reflexivity|]. rewrite zlen_app. split; [lia|]. exists rest'.
    rewrite <- app_assoc, <- R', R. f_equal.
    rewrite Z2Nat.inj_add by lia. rewrite Nat.add_comm, <- skipn_skipn, R, zlen_to_nat, skipn_app, skipn_all, Nat.sub_diag. reflexivity.
Qed.

(** ** Blocks *)
Lemma unpack_u8_at s pos z : 0 <= pos -> unpack_z s MVT_U8 pos None = Ok z ->
  exists c rest, skipn (Z.to_nat pos) s = c :: rest /\ z = ord c.
Proof.
  intros Hp. unfold unpack_z, unpack_data. destruct (pos =? -1) eqn:E; [lia|].
  cbn [Z.eqb sizeof option_map sizeof_mvt bind]. change (-1 =? -1) with true. cbn [bind].
  rewrite pyslice_pos by lia. replace (Z.to_nat (pos + 1 - pos)) with 1%nat by lia.
  destruct (skipn (Z.to_nat pos) s) as [|c rest]; cbn; [discriminate|]. intros [= <-].
  exists c, rest. split; [reflexivity|]. unfold be_val. cbn. lia.
Qed.
Lemma unpack_u8_ok pre c post : unpack_z (pre ++ c :: post) MVT_U8 (zlen pre) None = Ok (ord c).
Proof.
  change (pre ++ c :: post) with (pre ++ [c] ++ post). rewrite (unpack_z_int MVT_U8 1 BE None pre [c] post eq_refl eq_refl). cbn [order value]. unfold value_msb_first. cbn [fold_left]. f_equal.
Qed.
Definition count_at (tb : tblock) (data : bytes) (pos : Z) : dres (Z * Z) :=
  match tb_type tb with
  | Some MBT_SINGLE => Ok (Some (1, pos))
  | Some MBT_MULTIPLE => Ok (Some (tb_number tb, pos))
  | Some MBT_VARIABLE => do c <- unpack_z data MVT_U8 pos None; Ok (Some (c, pos + 1))
  | None => Ok None
  end.
Lemma decode_blocks_cons data tb tbs d pos : decode_blocks data (tb :: tbs) d pos =
  do cp <- count_at tb data pos;
  match cp with
  | None => Ok None
  | Some (count, pos) =>
      do r <- decode_instances data tb 0 (Z.to_nat count) d pos;
      match r with
      | None => Ok None
      | Some (d', pos') => decode_blocks data tbs d' pos'
      end
  end.
Proof. reflexivity. Qed.
Lemma count_at_shift pre s tb k : 0 <= k ->
  count_at tb (pre ++ s) (zlen pre + k) = shift (zlen pre) (count_at tb s k).
Proof.
  intros Hk. unfold count_at. destruct (tb_type tb) as [[]|]; try reflexivity.
  rewrite unpack_z_shift by (cbn; lia). destruct (unpack_z s MVT_U8 k None); cbn; [|reflexivity].
  do 3 f_equal. lia.
Qed.
Lemma count_at_pos tb data pos c pos' : 0 <= pos -> count_at tb data pos = Ok (Some (c, pos')) -> 0 <= pos' .
Proof.
  intros Hp. unfold count_at. destruct (tb_type tb) as [[]|]; try discriminate; try (intros [= <- <-]; lia).
  intros H. inv_bind H. injection H as <- <-. lia.
Qed.
Lemma decode_blocks_shift pre s tbs : Forall pos_block tbs -> forall d k, 0 <= k ->
  decode_blocks (pre ++ s) tbs d (zlen pre + k) = shift (zlen pre) (decode_blocks s tbs d k).
Proof.
  induction 1 as [|tb tbs Hb Hbs IH]; intros d k Hk; [reflexivity|]. rewrite !decode_blocks_cons.
  rewrite count_at_shift by exact Hk.
  destruct (count_at tb s k) as [[[c k1]|]|e] eqn:E; cbn [shift res_map option_map bind]; try reflexivity.
  pose proof (count_at_pos _ _ _ _ _ Hk E) as Hk1.
  rewrite decode_instances_shift by auto.
  destruct (decode_instances s tb 0 (Z.to_nat c) d k1) as [[[d' k2]|]|e] eqn:E2; cbn [shift res_map option_map bind]; try reflexivity.
  apply IH. destruct (decode_instances_inv s tb Hb _ _ _ _ _ _ Hk1 E2) as (w & bs & _ & _ & _ & -> & _).
  pose proof (zlen_nonneg w). lia.
Qed.
Lemma decode_blocks_read tbs w bs : blocks_read tbs w bs -> Forall pos_block tbs -> forall pre post d,
  decode_blocks (pre ++ w ++ post) tbs d (zlen pre) = Ok (Some (fold_left add_block bs d, zlen pre + zlen w)).
Proof.
  induction 1 as [|tb w bs tbs w' bs' H1 H2 IH]; intros Hb pre post d.
  - cbn. do 3 f_equal. symmetry; apply Z.add_0_r.
  - inversion Hb as [|? ? Hb1 Hb2]; subst. rewrite decode_blocks_cons, <- app_assoc, fold_left_app.
    assert (X : exists c pre' w1, count_at tb (pre ++ w ++ w' ++ post) (zlen pre) = Ok (Some (c, zlen pre')) /\
        pre' ++ w1 = pre ++ w /\ Z.to_nat c = List.length bs /\ instances_read tb 0 w1 bs).
    { unfold count_at. inversion H1 as [w0 b Ht Hi|w0 bs0 Ht Hn Hi|c w0 bs0 Ht Hc Hi]; subst; rewrite Ht.
      - exists 1, pre, w. repeat split; auto.
      - exists (tb_number tb), pre, w. repeat split; auto. unfold zlen in Hn. lia.
      - exists (ord c), (pre ++ [c]), w0. cbn [app]. rewrite unpack_u8_ok. cbn [bind].
        split; [rewrite zlen_app; reflexivity|]. rewrite <- app_assoc. repeat split; auto.
        change byte_value with ord in Hc. unfold zlen in Hc. lia. }
    destruct X as (c & pre' & w1 & Hc & Hw & Hn & Hi). rewrite Hc. cbn [bind].
    assert (EW : pre ++ w ++ w' ++ post = pre' ++ w1 ++ w' ++ post) by (rewrite !app_assoc, Hw; reflexivity).
    assert (EL : zlen pre' + zlen w1 = zlen pre + zlen w) by (rewrite <- !zlen_app, Hw; reflexivity).
    rewrite EW, Hn, (decode_instances_read tb Hb1 w1 0 bs Hi pre' (w' ++ post) d). cbn [bind].
    pose proof (IH Hb2 (pre ++ w) post (fold_left add_block bs d)) as E.
    rewrite <- app_assoc, zlen_app in E. rewrite <- EW, EL, E, zlen_app. do 3 f_equal. lia.
Qed.
Lemma decode_blocks_inv data tbs : Forall pos_block tbs -> forall d pos d' pos', 0 <= pos ->
  decode_blocks data tbs d pos = Ok (Some (d', pos')) ->
  exists w bs, blocks_read tbs w bs /\ d' = fold_left add_block bs d /\ pos' = pos + zlen w /\
    exists rest, skipn (Z.to_nat pos) data = w ++ rest.
Proof.
  induction 1 as [|tb tbs Hb Hbs IH]; intros d pos d' pos' Hp.
  - cbn. intros [= <- <-]. exists [], []. split; [constructor|]. repeat split; [symmetry; apply Z.add_0_r|]. eexists. reflexivity.
  - rewrite decode_blocks_cons. intros H. inv_bind H. destruct a as [[c p1]|]; [|discriminate].
    pose proof (count_at_pos _ _ _ _ _ Hp Ha) as Hp1.
    inv_bind H. destruct a as [[d1 p2]|]; [|discriminate].
    destruct (decode_instances_inv data tb Hb _ _ _ _ _ _ Hp1 Ha0) as (w & bs & Hi & Hn & -> & -> & rest & R).
    pose proof (zlen_nonneg w).
    assert (Hp2 : 0 <= p1 + zlen w) by lia.
    destruct (IH _ _ _ _ Hp2 H) as (w' & bs' & Hr & -> & -> & rest' & R').
    assert (X : exists w1, block_read tb w1 bs /\ zlen w1 = p1 - pos + zlen w /\
       skipn (Z.to_nat pos) data = w1 ++ rest).
    { unfold count_at in Ha. destruct (tb_type tb) as [[]|] eqn:Et; try discriminate Ha.
      - injection Ha as <- <-. exists w. split.
        + destruct bs as [|b [|]]; try discriminate Hn. now apply br_single.
        + split; [lia|exact R].
      - injection Ha as <- <-. exists w. split; [|split; [lia|exact R]]. apply br_multiple; auto. unfold zlen. lia.
      - inv_bind Ha. injection Ha as <- <-. apply unpack_u8_at in Ha1 as (cb & r & Hc & ->); [|exact Hp].
        exists (cb :: w). split; [apply br_variable; auto; change byte_value with ord; unfold zlen; pose proof (ord_range cb); lia|].
        rewrite zlen_cons. split; [lia|]. rewrite Hc. cbn [app]. f_equal. rewrite <- R.
        rewrite Z2Nat.inj_add by lia. change (Z.to_nat 1) with 1%nat. rewrite Nat.add_comm, <- skipn_skipn, Hc. reflexivity. }
    destruct X as (w1 & Hb1 & Hl & R1).
    exists (w1 ++ w'), (bs ++ bs'). split; [now constructor|]. rewrite fold_left_app. split; [reflexivity|].
    rewrite zlen_app. split; [lia|]. exists rest'. rewrite <- app_assoc, R1, <- R'.
    f_equal. replace (p1 + zlen w) with (zlen w1 + pos) by lia. pose proof (zlen_nonneg w1).
    rewrite Z2Nat.inj_add by lia. rewrite <- skipn_skipn, R1, zlen_to_nat, skipn_app, skipn_all, Nat.sub_diag. reflexivity.
Qed.
