(** Proofs about serialize: C06, C18, C19. *)
From Coq Require Import ZifyBool ZifyNat.
From Verif Require Import Serializer Lib SpecCodec SpecWire SpecLayout CodecProofs FieldProofs HeaderProofs.
Ltac Zify.zify_post_hook ::= Z.div_mod_to_equations.

Lemma need_some r w : need r = Ok w <-> r = Ok (Some w).
Proof. destruct r as [[b|]|]; cbn; split; congruence. Qed.

(** An integer item: what pack_data writes, in both regimes. *)
Lemma int_layout pv t size sg en et z w : int_spec t = Some (size, sg, en) -> size <= 4 ->
  need (pack_data pv (VInt z) (Some t) et) = Ok w <->
  zlen w = size /\ value (order et en) w = z mod 2 ^ (8 * size) /\ written pv sg size z.
Proof.
  intros Hi H4. rewrite need_some. unfold written.
  assert (U : forall w', pack_data pv (VInt z) (Some t) et = Ok (Some w') -> zlen w' = size ->
     value (order et en) w' = z mod 2 ^ (8 * size) ->
     zlen w = size /\ value (order et en) w = z mod 2 ^ (8 * size) -> w = w').
  { intros w' _ L' V' [L V]. apply (dec_inj (order et en)); [unfold zlen in *; lia|].
    rewrite <- !value_dec. congruence. }
  destruct (in_range sg (Z.to_nat size) z) eqn:E.
  - assert (F : fits sg size z).
    { apply fits_in_range in E. rewrite Z2Nat.id in E; [exact E|]. destruct t; cbn in Hi; try discriminate; injection Hi as <- _ _; lia. }
    destruct (int_roundtrip pv t size sg en et z [] [] Hi F) as (b & H1 & H2 & H3 & _). split.
    + intros H. assert (b = w) by congruence. subst b. auto.
    + intros (L & V & _). rewrite (U b); auto.
  - assert (F : ~ fits sg size z).
    { intros F. assert (in_range sg (Z.to_nat size) z = true); [|congruence]. apply fits_in_range.
      rewrite Z2Nat.id; [exact F|]. destruct t; cbn in Hi; try discriminate; injection Hi as <- _ _; lia. }
    pose proof (int_out_of_range pv t size sg en et z Hi F) as H. destruct pv.
    + assert (E8 : (size <? 8) = true) by lia. rewrite E8 in H. destruct H as (b & H1 & H2 & H3). split.
      * intros H. assert (b = w) by congruence. subst b. auto.
      * intros (L & V & _). rewrite (U b); auto.
    + rewrite H. split; [discriminate|]. intros (_ & _ & [H0|H0]); [discriminate|contradiction].
Qed.

Lemma build_var_layout pv b v w : build_var pv b v = Ok w <->
  exists x, block_getitem b (tv_name v) = Ok x /\ field_layout pv v x w.
Proof.
  unfold build_var, block_getitem. destruct (get_variable b (tv_name v)) as [var|e]; cbn [bind res_map].
  2:{ split; [discriminate|]. intros (x & H & _). discriminate. }
  assert (P : tv_type v <> Some MVT_VARIABLE ->
    ((do data <- pack_data pv (v_data var) (tv_type v) None; need (Ok data)) = Ok w <->
     exists x, Ok (v_data var) = Ok x /\ field_layout pv v x w)).
  { intros Ht. destruct (pack_data pv (v_data var) (tv_type v) None) as [[d|]|e] eqn:E; cbn [bind need].
    - split.
      + intros [= <-]. eexists. split; [reflexivity|]. now constructor.
      + intros (x & [= <-] & H). inversion H; subst; [congruence|contradiction].
    - split; [discriminate|]. intros (x & [= <-] & H). inversion H; subst; [congruence|contradiction].
    - split; [discriminate|]. intros (x & [= <-] & H). inversion H; subst; [congruence|contradiction]. }
  destruct (tv_type v) as [t|] eqn:Et; [|apply P; discriminate].
  destruct (mvt_eqb t MVT_VARIABLE) eqn:Ev.
  2:{ assert (N : Some t <> Some MVT_VARIABLE) by (intros [= ->]; discriminate Ev).
      specialize (P N). rewrite <- P. destruct t; try discriminate Ev; reflexivity. }
  assert (t = MVT_VARIABLE) by (destruct t; try discriminate Ev; reflexivity). subst t. clear P Ev.
  destruct (pack_data pv (v_data var) (Some MVT_VARIABLE) None) as [[d|]|e] eqn:E; cbn [bind].
  2,3: split; [discriminate|]; intros (x & [= <-] & H); inversion H; subst; congruence.
  assert (S : forall p t, tv_size v = Some p -> prefix_type p = Some t ->
    (do len <- need (pack_data pv (VInt (zlen d)) (Some t) None); Ok (len ++ d)) = Ok w <->
    (exists x, Ok (v_data var) = Ok x /\ field_layout pv v x w)).
  { intros p t Hs Hp. destruct (prefix_int p t Hp) as (en & Hi & Hen).
    assert (Hp4 : In p [1; 2; 4]).
    { unfold prefix_type in Hp. destruct (Z.eqb_spec p 1); [cbn; auto|]. destruct (Z.eqb_spec p 2); [cbn; auto|].
      destruct (Z.eqb_spec p 4); [cbn; auto|discriminate]. }
    assert (Hl : forall len, zlen len = p -> value en len = value_lsb_first len).
    { intros len H. destruct Hen as [->| ->]; [|reflexivity]. now apply (single_byte_order en LE). }
    assert (Hle : p <= 4) by (cbn in Hp4; lia).
    split.
    - intros H. inv_bind H. injection H as <-. apply (int_layout pv t p false en None _ _ Hi Hle) in Ha.
      destruct Ha as (A1 & A2 & A3). eexists. split; [reflexivity|].
      apply fl_variable with (p := p); auto. cbn [order] in A2. rewrite <- Hl by exact A1. exact A2.
    - intros (x & [= <-] & H). inversion H as [w' N|p' len d' _ Hs' Hin Hd Hlen Hw Hv]; subst; [congruence|].
      assert (zlen len = p) by congruence. assert (d' = d) by congruence. subst d' p.
      assert (L : need (pack_data pv (VInt (zlen d)) (Some t) None) = Ok len).
      { apply (int_layout pv t (zlen len) false en None _ _ Hi Hle). cbn [order]. rewrite Hl by reflexivity. auto. }
      rewrite L. reflexivity. }
  assert (B : forall p, tv_size v = p -> (forall q, p = Some q -> ~ In q [1; 2; 4]) ->
    (do len <- Err (MessageSerializationErr "variable size" "unrecognized variable size"); Ok (len ++ d)) = Ok w <->
    (exists x, Ok (v_data var) = Ok x /\ field_layout pv v x w)).
  { intros p Hs Hn. split; [discriminate|]. intros (x & [= <-] & H).
    inversion H as [w' N|p' len d' _ Hs' Hin Hd Hlen Hw Hv]; subst; [congruence|]. exfalso. eapply Hn; eassumption. }
  destruct (tv_size v) as [p|] eqn:Es.
  - destruct (Z.eq_dec p 1) as [->|N1]; [apply (S 1 MVT_U8 eq_refl eq_refl)|].
    destruct (Z.eq_dec p 2) as [->|N2]; [apply (S 2 MVT_U16 eq_refl eq_refl)|].
    destruct (Z.eq_dec p 4) as [->|N4]; [apply (S 4 MVT_U32 eq_refl eq_refl)|].
    assert (Eq : match p with
                 | 1 => need (pack_data pv (VInt (zlen d)) (Some MVT_U8) None)
                 | 2 => need (pack_data pv (VInt (zlen d)) (Some MVT_U16) None)
                 | 4 => need (pack_data pv (VInt (zlen d)) (Some MVT_U32) None)
                 | _ => Err (MessageSerializationErr "variable size" "unrecognized variable size")
                 end = Err (MessageSerializationErr "variable size" "unrecognized variable size")).
    { destruct p as [|[|[|[]|]|]|]; try reflexivity; contradiction. }
    rewrite Eq. apply (B (Some p) eq_refl). intros q [= <-]. cbn. lia.
  - apply (B None eq_refl). discriminate.
Qed.

Lemma build_vars_layout pv b vs w : build_vars pv b vs = Ok w <->
  exists ws, w = List.concat ws /\
    Forall2 (fun v fw => exists x, block_getitem b (tv_name v) = Ok x /\ field_layout pv v x fw) vs ws.
Proof.
  revert w. induction vs as [|v vs IH]; intros w; cbn [build_vars].
  - split.
    + intros [= <-]. exists []. split; [reflexivity|constructor].
    + intros (ws & -> & H). inversion H; subst. reflexivity.
  - split.
    + intros H. inv_bind H. inv_bind H. injection H as <-. apply build_var_layout in Ha.
      apply IH in Ha0 as (ws & -> & Hw). exists (a :: ws). split; [reflexivity|]. constructor; auto.
    + intros (ws & -> & H). inversion H as [|? fw ? ws' H1 H2]; subst.
      apply build_var_layout in H1. rewrite H1. cbn [bind List.concat].
      assert (E : build_vars pv b vs = Ok (List.concat ws')) by (apply IH; eauto). rewrite E. reflexivity.
Qed.
Lemma build_instances_layout pv tb bl w : build_instances pv tb bl = Ok w <->
  exists ws, w = List.concat ws /\ Forall2 (instance_layout pv tb) bl ws.
Proof.
  revert w. induction bl as [|b bl IH]; intros w; cbn [build_instances].
  - split.
    + intros [= <-]. exists []. split; [reflexivity|constructor].
    + intros (ws & -> & H). inversion H; subst. reflexivity.
  - split.
    + intros H. inv_bind H. inv_bind H. injection H as <-. apply build_vars_layout in Ha.
      apply IH in Ha0 as (ws & -> & Hw). exists (a :: ws). split; [reflexivity|]. constructor; auto.
    + intros (ws & -> & H). inversion H as [|? fw ? ws' H1 H2]; subst.
      apply build_vars_layout in H1. rewrite H1. cbn [bind List.concat].
      assert (E : build_instances pv tb bl = Ok (List.concat ws')) by (apply IH; eauto). rewrite E. reflexivity.
Qed.

Lemma count_layout pv n w : 0 <= n ->
  pack_int pv BE false 1 n = Ok w <-> exists c, w = [c] /\ byte_value c = n mod 256 /\ written pv false 1 n.
Proof.
  intros Hn. assert (E : pack_int pv BE false 1 n = need (pack_data pv (VInt n) (Some MVT_U8) None)).
  { cbn. destruct (pack_int pv BE false 1 n); reflexivity. }
  rewrite E, (int_layout pv MVT_U8 1 false BE None n w eq_refl) by lia. cbn [order value].
  change (2 ^ (8 * 1)) with 256. split.
  - intros (L & V & W). destruct w as [|c [|c' w]]; unfold zlen in L; cbn in L; try lia.
    exists c. unfold value_msb_first in V. cbn in V. split; [reflexivity|]. split; [lia|exact W].
  - intros (c & -> & V & W). split; [reflexivity|]. split; [|exact W]. unfold value_msb_first. cbn. lia.
Qed.

Lemma build_block_layout pv tb m w : build_block pv tb m = Ok w <-> block_layout pv tb m w.
Proof.
  unfold build_block, block_layout. destruct (get_block (m_blocks m) (tb_name tb)) as [l|e]; cbn [bind].
  2:{ split; [discriminate|]. intros (l & c & ws & H & _). discriminate. }
  assert (T : forall count, (do body <- build_instances pv tb l; Ok (count ++ body)) = Ok w <->
    exists ws, w = count ++ List.concat ws /\ Forall2 (instance_layout pv tb) l ws).
  { intros count. split.
    - intros H. inv_bind H. injection H as <-. apply build_instances_layout in Ha as (ws & -> & Hw). eauto.
    - intros (ws & -> & Hw). assert (E : build_instances pv tb l = Ok (List.concat ws)) by (apply build_instances_layout; eauto).
      rewrite E. reflexivity. }
  destruct (tb_type tb) as [[]|]; cbn [bind].
  - rewrite (T []). split.
    + intros (ws & E & H). exists l, [], ws. auto.
    + intros (l' & c & ws & [= <-] & E & -> & H). eauto.
  - destruct (Z.eqb_spec (tb_number tb) (zlen l)) as [En|En]; cbn [bind].
    + rewrite (T []). split.
      * intros (ws & E & H). exists l, [], ws. repeat split; auto.
      * intros (l' & c & ws & [= <-] & E & [-> _] & H). eauto.
    + split; [discriminate|]. intros (l' & c & ws & [= <-] & E & [_ E'] & H). exfalso. auto.
  - pose proof (zlen_nonneg l). split.
    + intros H1. inv_bind H1. apply count_layout in Ha as (c & -> & V & W); [|lia]. apply T in H1 as (ws & -> & Hw).
      exists l, [c], ws. split; [reflexivity|]. split; [reflexivity|]. split; [exists c; auto|exact Hw].
    + intros (l' & c & ws & [= <-] & -> & (c' & -> & V & W) & Hw).
      assert (E : pack_int pv BE false 1 (zlen l) = Ok [c']) by (apply count_layout; [lia|eauto]).
      rewrite E. cbn [bind]. apply T. eauto.
  - rewrite (T []). split.
    + intros (ws & E & H). exists l, [], ws. auto.
    + intros (l' & c & ws & [= <-] & E & -> & H). eauto.
Qed.
Lemma build_blocks_layout pv tbs m w : build_blocks pv tbs m = Ok w <->
  exists ws, w = List.concat ws /\ Forall2 (fun tb bw => block_layout pv tb m bw) tbs ws.
Proof.
  revert w. induction tbs as [|tb tbs IH]; intros w; cbn [build_blocks].
  - split.
    + intros [= <-]. exists []. split; [reflexivity|constructor].
    + intros (ws & -> & H). inversion H; subst. reflexivity.
  - split.
    + intros H. inv_bind H. inv_bind H. injection H as <-. apply build_block_layout in Ha.
      apply IH in Ha0 as (ws & -> & Hw). exists (a :: ws). split; [reflexivity|]. constructor; auto.
    + intros (ws & -> & H). inversion H as [|? fw ? ws' H1 H2]; subst.
      apply build_block_layout in H1. rewrite H1. cbn [bind List.concat].
      assert (E : build_blocks pv tbs m = Ok (List.concat ws')) by (apply IH; eauto). rewrite E. reflexivity.
Qed.

Lemma udp_allowed_spec x name : udp_allowed x name <-> validate_udp_msg x name = Ok true.
Proof.
  unfold udp_allowed, validate_udp_msg. destruct (sget name x) as [[f|]|]; [|split; [tauto|discriminate]|tauto].
  destruct (String.eqb_spec f "template"); split; congruence.
Qed.
Lemma udp_banned_spec x name : udp_banned x name <-> validate_udp_msg x name = Ok false.
Proof.
  unfold udp_banned, validate_udp_msg. destruct (sget name x) as [[f|]|].
  - destruct (String.eqb_spec f "template"); split; try congruence.
    + intros (? & [= <-] & H). contradiction.
    + eauto.
  - split; [|discriminate]. intros (? & H & _). discriminate.
  - split; [|discriminate]. intros (? & H & _). discriminate.
Qed.

Lemma flags_layout pv z w : need (pack_data pv (VInt z) (Some MVT_U8) None) = Ok w <->
  exists c, w = [c] /\ byte_value c = z mod 256 /\ written pv false 1 z.
Proof.
  rewrite (int_layout pv MVT_U8 1 false BE None z w eq_refl) by lia. cbn [order value].
  change (2 ^ (8 * 1)) with 256. split.
  - intros (L & V & W). destruct w as [|c [|c' w]]; unfold zlen in L; cbn in L; try lia.
    exists c. unfold value_msb_first in V. cbn in V. split; [reflexivity|]. split; [lia|exact W].
  - intros (c & -> & V & W). split; [reflexivity|]. split; [|exact W]. unfold value_msb_first. cbn. lia.
Qed.
Lemma id_layout pv z w : need (pack_data pv (VInt z) (Some MVT_S32) (Some BE)) = Ok w <->
  zlen w = 4 /\ value_msb_first w = z mod 2 ^ 32 /\ written pv true 4 z.
Proof. apply (int_layout pv MVT_S32 4 true LE (Some BE) z w eq_refl). lia. Qed.

Lemma serialize_layout pv d x m w : serialize pv d x m = Ok (Some w) <-> packet_layout pv d x m w.
Proof.
  unfold serialize, packet_layout. destruct (get_template d (m_name m)) as [t|].
  2:{ split; [discriminate|]. intros (t & f & i & n & ws & tl & H & _). discriminate. }
  assert (O : need (pack_data pv (VInt 0) (Some MVT_U8) None) = Ok [x00]) by (destruct pv; reflexivity).
  assert (Z0 : pack_int pv BE false 4 0 = Ok (repeat x00 4)) by reflexivity.
  split.
  - intros H. inv_bind H. destruct a; [|discriminate]. cbn [negb] in H.
    inv_bind H. apply flags_layout in Ha0 as (c & -> & Vc & Wc).
    inv_bind H. apply id_layout in Ha0 as (Li & Vi & Wi).
    rewrite O in H. cbn [bind] in H. inv_bind H. apply need_some in Ha0. injection Ha0 as Hn.
    inv_bind H. apply build_blocks_layout in Ha0 as (ws & -> & Hw). inv_bind H. injection H as <-.
    exists t, c, a, a0, ws, a1. split; [reflexivity|]. split; [now apply udp_allowed_spec|].
    split; [reflexivity|]. repeat (split; [assumption|]).
    destruct (String.eqb (t_name t) "RegionHandshakeReply").
    + rewrite Z0 in Ha0. now injection Ha0 as <-.
    + now injection Ha0 as <-.
  - intros (t' & c & i & n & ws & tl & [= <-] & Ha & -> & Vc & Wc & Li & Vi & Wi & Hn & Hw & ->).
    apply udp_allowed_spec in Ha. rewrite Ha. cbn [bind negb].
    assert (E1 : need (pack_data pv (VInt (m_flags m)) (Some MVT_U8) None) = Ok [c]) by (apply flags_layout; eauto).
    assert (E2 : need (pack_data pv (VInt (m_id m)) (Some MVT_S32) (Some BE)) = Ok i) by (apply id_layout; auto).
    assert (E3 : build_blocks pv (t_blocks t) m = Ok (List.concat ws)) by (apply build_blocks_layout; eauto).
    rewrite E1, E2, O, Hn, E3. cbn [bind need].
    destruct (String.eqb (t_name t) "RegionHandshakeReply"); [rewrite Z0|]; reflexivity.
Qed.

(** Nothing else matters. *)
Lemma build_vars_same pv b b' vs :
  (forall v, In v vs -> block_getitem b (tv_name v) = block_getitem b' (tv_name v)) ->
  build_vars pv b vs = build_vars pv b' vs.
Proof.
  induction vs as [|v vs IH]; intros H; [reflexivity|]. cbn [build_vars].
  assert (E : build_var pv b v = build_var pv b' v).
  { specialize (H v (or_introl eq_refl)). unfold block_getitem in H. unfold build_var.
    unfold get_variable in *. destruct (sget (tv_name v) (b_vars b)), (sget (tv_name v) (b_vars b')); cbn in *; try discriminate; [|reflexivity].
    injection H as ->. reflexivity. }
  rewrite E, IH; auto. intros v' Hv'. apply H. now right.
Qed.
Lemma build_instances_same pv tb l l' :
  Forall2 (fun b b' => forall v, In v (tb_vars tb) -> block_getitem b (tv_name v) = block_getitem b' (tv_name v)) l l' ->
  build_instances pv tb l = build_instances pv tb l'.
Proof.
  induction 1 as [|b b' l l' H1 H2 IH]; [reflexivity|]. cbn [build_instances].
  rewrite IH, (build_vars_same pv b b' (tb_vars tb) H1). reflexivity.
Qed.
Lemma serialize_same pv d x m m' t : get_template d (m_name m) = Some t -> same_for t m m' ->
  serialize pv d x m = serialize pv d x m'.
Proof.
  intros Ht (Hn & Hf & Hi & Hb). unfold serialize. rewrite <- Hn, Ht, <- Hf, <- Hi.
  assert (E : build_blocks pv (t_blocks t) m = build_blocks pv (t_blocks t) m').
  { revert Hb. generalize (t_blocks t). induction l as [|tb tbs IH]; intros Hb; [reflexivity|].
    cbn [build_blocks]. rewrite IH by (intros tb' H; apply Hb; now right).
    assert (E : build_block pv tb m = build_block pv tb m'); [|now rewrite E].
    specialize (Hb tb (or_introl eq_refl)). unfold build_block, get_block in *.
    destruct (sget (tb_name tb) (m_blocks m)) as [l|], (sget (tb_name tb) (m_blocks m')) as [l'|]; try contradiction; [|reflexivity].
    cbn [bind]. rewrite (build_instances_same pv tb l l' Hb). unfold zlen. rewrite (Forall2_len _ _ _ Hb). reflexivity. }
  now rewrite E.
Qed.
