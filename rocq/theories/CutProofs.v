(** Proofs for C77. *)
From Coq Require Import ZifyBool ZifyNat.
From Verif Require Import Deserializer SpecCodec SpecWire SpecLayout SpecCut Lib CodecProofs FieldProofs HeaderProofs ZeroProofs LayoutProofs DecodeProofs PacketProofs PacketMore PacketForms PacketRules.
Ltac Zify.zify_post_hook ::= Z.div_mod_to_equations.

Lemma skipn_step (data w rest : bytes) pos : 0 <= pos -> skipn (Z.to_nat pos) data = w ++ rest ->
  skipn (Z.to_nat (pos + zlen w)) data = rest.
Proof.
  intros Hp E. rewrite Z2Nat.inj_add by (pose proof (zlen_nonneg w); lia).
  rewrite Nat.add_comm, <- skipn_skipn, E, zlen_to_nat, skipn_app, skipn_all, Nat.sub_diag. reflexivity.
Qed.
Lemma skipn_zlen (data : bytes) pos : 0 <= pos -> zlen (skipn (Z.to_nat pos) data) = Z.max 0 (zlen data - pos).
Proof. intros H. unfold zlen. rewrite skipn_length. lia. Qed.

(** ** One field *)
Lemma float_total en db s : List.length s = (if db : bool then 8 else 4)%nat -> exists f, unpack_float en db s = Ok f.
Proof. intros H. unfold unpack_float. destruct db; rewrite H; cbn [Nat.eqb]; eexists; reflexivity. Qed.
Lemma nums_total en db k : forall s, List.length s = ((if db : bool then 8 else 4) * k)%nat -> exists l, unpack_nums en db k s = Ok l.
Proof.
  induction k as [|k IH]; intros s H; cbn [unpack_nums].
  - destruct s; [eexists; reflexivity|]. destruct db; cbn in H; lia.
  - destruct (float_total en db (firstn (if db then 8 else 4) s)) as [f ->]; [rewrite firstn_length; destruct db; lia|].
    cbn [bind]. destruct (IH (skipn (if db then 8 else 4) s)) as [l ->]; [rewrite skipn_length; destruct db; lia|]. eexists; reflexivity.
Qed.
Lemma slice_len (d : bytes) a b : 0 <= a <= b -> b <= zlen d -> List.length (pyslice d a b) = Z.to_nat (b - a).
Proof. intros H1 H2. pose proof (pyslice_length d a b ltac:(lia)) as L. unfold zlen in *. lia. Qed.
Lemma unpack_raw_total ty d : match ty with MVT_FIXED | MVT_VARIABLE => True | _ => zlen d = sizeof_mvt ty end ->
  exists y, unpack_raw ty None d = Ok y.
Proof.
  intros H. unfold unpack_raw.
  assert (I : forall en sg n, zlen d = Z.of_nat n -> exists y, res_map VInt (unpack_int en sg n d) = Ok y).
  { intros en sg n E. unfold unpack_int. replace (Nat.eqb (List.length d) n) with true by (unfold zlen in E; lia). eexists; reflexivity. }
  assert (F : forall en db, zlen d = (if db : bool then 8 else 4) -> exists y, res_map VFloat (unpack_float en db d) = Ok y).
  { intros en db E. destruct (float_total en db d) as [f ->]; [unfold zlen in E; destruct db; lia|]. eexists; reflexivity. }
  assert (T : forall en db k, zlen d = (if db : bool then 8 else 4) * Z.of_nat k -> exists y, res_map VTuple (unpack_tuple en db d) = Ok y).
  { intros en db k E. unfold unpack_tuple.
    replace (Nat.div (List.length d) (if db then 8 else 4)) with k.
    - destruct (nums_total en db k d) as [l ->]; [unfold zlen in E; destruct db; lia|]. eexists; reflexivity.
    - unfold zlen in E. destruct db; [apply Nat.div_unique with 0%nat|apply Nat.div_unique with 0%nat]; lia. }
  destruct ty; cbn [unpacker_table] in *; try (eexists; reflexivity).
  all: try (apply I; exact H).
  all: try (apply F; exact H).
  - unfold vec3_unpack. cbn [sizeof_mvt] in H.
    destruct (float_total LE false (pyslice d 0 (0 + 4))) as [x ->]; [rewrite slice_len; lia|]. cbn [bind].
    destruct (float_total LE false (pyslice d (0 + 4) (0 + 8))) as [y ->]; [rewrite slice_len; lia|]. cbn [bind].
    destruct (float_total LE false (pyslice d (0 + 8) (0 + 12))) as [z ->]; [rewrite slice_len; lia|]. eexists; reflexivity.
  - apply T with 3%nat. exact H.
  - apply T with 4%nat. exact H.
  - unfold quat_unpack. cbn [sizeof_mvt] in H.
    destruct (float_total LE false (pyslice d 0 (0 + 4))) as [x ->]; [rewrite slice_len; lia|]. cbn [bind].
    destruct (float_total LE false (pyslice d (0 + 4) (0 + 8))) as [y ->]; [rewrite slice_len; lia|]. cbn [bind].
    destruct (float_total LE false (pyslice d (0 + 8) (0 + 12))) as [z ->]; [rewrite slice_len; lia|]. cbn [bind].
    destruct (unpack_float LE false (pyslice d (0 + 12) (0 + 16))); eexists; reflexivity.
  - unfold uuid_unpack. cbn [sizeof_mvt] in H. rewrite slice_len by lia. eexists; reflexivity.
Qed.
Lemma unpack_at_total data ty pos n : 0 <= pos -> 0 <= n -> pos + n <= zlen data ->
  match ty with MVT_FIXED | MVT_VARIABLE => True | _ => n = sizeof_mvt ty end ->
  exists y, unpack_data data (Some ty) pos n None = Ok y.
Proof.
  intros Hp Hn Hl H. unfold unpack_data. destruct (pos =? -1) eqn:E1; [lia|]. destruct (n =? -1) eqn:E2; [lia|]. cbn [bind].
  destruct (unpack_raw_total ty (pyslice data pos (pos + n))) as [y ->]; [|eexists; reflexivity].
  pose proof (pyslice_length data pos (pos + n) ltac:(lia)) as L. destruct ty; auto; lia.
Qed.

(** A field is read, or it is cut off. *)
Lemma decode_var_gen data v w y pos rest : pos_size v -> field_read v w y -> 0 <= pos ->
  skipn (Z.to_nat pos) data = w ++ rest -> decode_var data v pos = Ok (Some (y, pos + zlen w)).
Proof.
  intros Hs H Hp E. pose proof (field_nonempty v w y Hs H) as N.
  destruct (Z_le_gt_dec pos (zlen data)) as [L|L].
  - destruct (firstn_skipn_at data (Z.to_nat pos) w rest E) as (pre & -> & Lp); [unfold zlen in L; lia|].
    replace pos with (zlen pre) by (unfold zlen; lia). now apply decode_var_at.
  - rewrite skipn_all2 in E by (unfold zlen in L; lia). destruct w; [congruence|discriminate].
Qed.
Lemma prefix_read data p pos : In p [1; 2; 4] -> 0 <= pos -> pos + p <= zlen data ->
  (if p =? 1 then unpack_z data MVT_U8 pos None
   else if p =? 2 then unpack_z data MVT_U16 pos None
   else if p =? 4 then unpack_z data MVT_U32 pos None else Err MessageDeserializationErr) =
  Ok (value_lsb_first (firstn (Z.to_nat p) (skipn (Z.to_nat pos) data))).
Proof.
  intros Hin Hp Hl.
  set (len := firstn (Z.to_nat p) (skipn (Z.to_nat pos) data)).
  assert (Ll : zlen len = p).
  { unfold len, zlen. rewrite firstn_length, skipn_length. unfold zlen in Hl. cbn in Hin. lia. }
  assert (Ed : data = firstn (Z.to_nat pos) data ++ len ++ skipn (Z.to_nat p) (skipn (Z.to_nat pos) data)).
  { unfold len. rewrite firstn_skipn, firstn_skipn. reflexivity. }
  assert (Lf : zlen (firstn (Z.to_nat pos) data) = pos).
  { unfold zlen. rewrite firstn_length. unfold zlen in *. cbn in Hin. lia. }
  assert (G : forall t en, int_spec t = Some (p, false, en) -> en = LE \/ p = 1 -> unpack_z data t pos None = Ok (value_lsb_first len)).
  { intros t en Hi He. pose proof (unpack_z_int t p en None (firstn (Z.to_nat pos) data) len
      (skipn (Z.to_nat p) (skipn (Z.to_nat pos) data)) Hi Ll) as V.
    rewrite <- Ed, Lf in V. rewrite V. cbn [order]. f_equal.
    destruct He as [-> |E]; [reflexivity|]. apply (single_byte_order en LE). congruence. }
  cbn [In] in Hin. destruct Hin as [<-|[<-|[<-|[]]]]; cbn [Z.eqb Pos.eqb]; eapply G; try reflexivity; auto.
Qed.
Lemma decode_var_cases data v pos : var_ok v -> 0 <= pos ->
  let w := skipn (Z.to_nat pos) data in
  (exists y p, decode_var data v pos = Ok (Some (y, p)) /\ ~ field_cut v w) \/
  (decode_var data v pos = Ok None /\ field_cut v w).
Proof.
  intros (ty & s & Ht & Hs & Hok) Hp w. assert (Hw : zlen w = Z.max 0 (zlen data - pos)) by now apply skipn_zlen.
  assert (D : ty = MVT_VARIABLE \/ ty <> MVT_VARIABLE) by (destruct ty; auto; right; discriminate).
  destruct D as [-> |D].
  - assert (H1 : 1 <= s) by (cbn in Hok; lia).
    unfold decode_var. rewrite Hs, Ht. destruct (zlen data <? pos + s) eqn:E1.
    { right. split; [reflexivity|]. apply fc_prefix with s; auto. lia. }
    assert (L1 : pos + s <= zlen data) by lia.
    rewrite (prefix_read data s pos Hok Hp L1). cbn [bind]. fold w.
    set (len := firstn (Z.to_nat s) w). set (z := value_lsb_first len).
    assert (Hz : 0 <= z).
    { unfold z. pose proof (dec_range LE len). rewrite <- value_dec in H. cbn [value] in H. lia. }
    assert (Ll : zlen len = s) by (unfold len, zlen; rewrite firstn_length; unfold zlen in *; lia).
    assert (Ew : w = len ++ skipn (Z.to_nat s) w) by (unfold len; now rewrite firstn_skipn).
    assert (Ld : zlen (skipn (Z.to_nat s) w) = zlen data - pos - s) by (rewrite skipn_zlen; lia).
    destruct (zlen data <? pos + s + z) eqn:E2.
    + right. split; [reflexivity|]. eapply fc_text; eauto. rewrite Ld. fold z. lia.
    + destruct (unpack_at_total data MVT_VARIABLE (pos + s) z) as [y Ey]; [lia|exact Hz|lia|exact I|]. rewrite Ey. cbn [bind].
      left. do 2 eexists. split; [reflexivity|]. intros C.
      destruct C as [s' C _ _|p _ C1 C2|p len' d _ C1 C2 C3 C4].
      * congruence.
      * assert (p = s) by congruence. subst p. lia.
      * assert (p = s) by congruence. subst p. rewrite Ew in C2.
        apply app_inj_zlen in C2 as [C2 C5]; [|congruence]. subst len' d. fold z in C4. lia.
  - assert (Hn : ty <> MVT_VARIABLE) by exact D.
    assert (H1 : 1 <= s) by (destruct ty; cbn in Hok; try congruence; lia).
    unfold decode_var. rewrite Hs.
    assert (M : forall B (x y : B), match tv_type v with Some MVT_VARIABLE => x | _ => y end = y).
    { intros. rewrite Ht. destruct ty; congruence. }
    rewrite M. cbn [bind]. destruct (zlen data <? pos + s) eqn:E1.
    + right. split; [reflexivity|]. eapply fc_plain; eauto; [congruence|lia].
    + left. rewrite Ht. destruct (unpack_at_total data ty pos s) as [y ->]; [lia|lia|lia|destruct ty; auto; congruence|]. cbn [bind].
      do 2 eexists. split; [reflexivity|]. intros [s' C1 C2 C3|p C1|p len d C1]; try congruence.
      assert (s' = s) by congruence. subst s'. lia.
Qed.

(** ** The fields of an instance *)
Lemma read_not_cut v w y rest : var_ok v -> field_read v w y -> ~ field_cut v (w ++ rest).
Proof.
  intros Hv Hr Hc. destruct (decode_var_cases (w ++ rest) v 0 Hv ltac:(lia)) as [(y' & p & _ & N)|(E & _)].
  - now apply N.
  - rewrite (decode_var_gen (w ++ rest) v w y 0 rest (var_ok_pos v Hv) Hr) in E by (auto; lia). discriminate.
Qed.
Lemma decode_vars_cases data vs : Forall var_ok vs -> forall b pos, 0 <= pos ->
  let w := skipn (Z.to_nat pos) data in
  (exists b' p, decode_vars data vs b pos = Ok (Some (b', p)) /\ ~ fields_cut vs w) \/
  (decode_vars data vs b pos = Ok None /\ fields_cut vs w).
Proof.
  induction 1 as [|v vs Hv Hvs IH]; intros b pos Hp w; cbn [decode_vars].
  - left. do 2 eexists. split; [reflexivity|]. intros C. inversion C.
  - destruct (decode_var_cases data v pos Hv Hp) as [(y & p & E & N)|(E & C)]; rewrite E; cbn [bind].
    2:{ right. split; [reflexivity|]. now constructor. }
    destruct (decode_var_pos data v pos y p Hp (var_ok_pos v Hv) E) as (fw & Hr & -> & rest & R).
    destruct (IH (add_variable b (tv_name v) {| v_data := y; v_type := tv_type v |}) (pos + zlen fw)) as [(b' & p & E' & N')|(E' & C)];
      [pose proof (zlen_nonneg fw); lia| |].
    + left. exists b', p. split; [exact E'|]. intros C. inversion C as [? ? ? C1|? ? w1 y1 w1' C1 C2 E1]; subst; [now apply N|].
      apply N'. rewrite (skipn_step data fw rest pos Hp R).
      assert (W : w1 ++ w1' = fw ++ rest) by (rewrite <- R; unfold w in *; congruence).
      assert (Ew : w = w1 ++ w1') by congruence.
      pose proof (decode_var_gen data v w1 y1 pos w1' (var_ok_pos v Hv) C1 Hp Ew) as E2. rewrite E in E2. injection E2 as _ L.
      apply app_inj_zlen in W as [_ ->]; [exact C2|lia].
    + right. split; [exact E'|]. unfold w. rewrite R. eapply fsc_later; eauto.
      rewrite (skipn_step data fw rest pos Hp R) in C. exact C.
Qed.

(** ** Instances *)
Lemma instance_prefix tb i w b i' w' b' r r' : pos_block tb -> instance_read tb i w b -> instance_read tb i' w' b' ->
  w ++ r = w' ++ r' -> r = r'.
Proof.
  intros Hb (ws & ys & -> & _ & F & L) (ws' & ys' & -> & _ & F' & L') E.
  set (b0 := {| b_name := tb_name tb; b_vars := []; b_list := []; b_number := i |}).
  pose proof (decode_vars_read (tb_vars tb) Hb ws ys [] r b0 (conj F L)) as D.
  pose proof (decode_vars_read (tb_vars tb) Hb ws' ys' [] r' b0 (conj F' L')) as D'.
  cbn [app] in D, D'. rewrite E, D' in D. injection D as _ D.
  apply app_inj_zlen in E as [_ E]; [exact E|]. lia.
Qed.
Lemma instance_of_vars data tb i pos b p : pos_block tb -> 0 <= pos ->
  decode_vars data (tb_vars tb) {| b_name := tb_name tb; b_vars := []; b_list := []; b_number := i |} pos = Ok (Some (b, p)) ->
  exists w rest, instance_read tb i w b /\ skipn (Z.to_nat pos) data = w ++ rest /\ p = pos + zlen w.
Proof.
  intros Hb Hp E. destruct (decode_vars_inv data (tb_vars tb) Hb _ _ _ _ Hp E) as (ws & ys & [F L] & -> & -> & rest & R).
  exists (List.concat ws), rest. split; [|auto]. exists ws, ys. auto.
Qed.
Lemma read_fields_not_cut tb i w b rest : block_ok tb -> instance_read tb i w b -> ~ fields_cut (tb_vars tb) (w ++ rest).
Proof.
  intros Hb (ws & ys & -> & _ & F & L) C.
  destruct (decode_vars_cases (List.concat ws ++ rest) (tb_vars tb) (proj2 Hb)
    {| b_name := tb_name tb; b_vars := []; b_list := []; b_number := i |} 0 ltac:(lia)) as [(b' & p & _ & N)|(E & _)]; [now apply N|].
  pose proof (decode_vars_read (tb_vars tb) (block_ok_pos tb Hb) ws ys [] rest {| b_name := tb_name tb; b_vars := []; b_list := []; b_number := i |} (conj F L)) as D.
  cbn [app] in D. change (zlen (@nil byte)) with 0 in D. congruence.
Qed.
Lemma decode_instances_cases data tb : block_ok tb -> forall n i d pos, 0 <= pos ->
  let w := skipn (Z.to_nat pos) data in
  (exists d' p, decode_instances data tb i n d pos = Ok (Some (d', p)) /\ ~ instances_cut tb i n w) \/
  (decode_instances data tb i n d pos = Ok None /\ instances_cut tb i n w).
Proof.
  intros Hb. pose proof (block_ok_pos tb Hb) as Hpb. induction n as [|n IH]; intros i d pos Hp w; cbn [decode_instances].
  - left. do 2 eexists. split; [reflexivity|]. intros C. inversion C.
  - destruct (decode_vars_cases data (tb_vars tb) (proj2 Hb) {| b_name := tb_name tb; b_vars := []; b_list := []; b_number := i |} pos Hp)
      as [(b & p & E & N)|(E & C)]; rewrite E; cbn [bind].
    2:{ right. split; [reflexivity|]. now constructor. }
    destruct (instance_of_vars data tb i pos b p Hpb Hp E) as (iw & rest & Hi & R & ->).
    destruct (IH (i + 1) (add_block d b) (pos + zlen iw)) as [(d' & p & E' & N')|(E' & C)]; [pose proof (zlen_nonneg iw); lia| |].
    + left. exists d', p. split; [exact E'|]. intros C. inversion C as [? ? ? C1|? ? w1 b1 w1' C1 C2 E1 E2 E3]; subst; [now apply N|].
      apply N'. rewrite (skipn_step data iw rest pos Hp R). assert (W : w1 ++ w1' = iw ++ rest) by (rewrite <- R; unfold w in *; congruence).
      rewrite (instance_prefix tb i w1 b1 i iw b w1' rest Hpb C1 Hi W) in C2. exact C2.
    + right. split; [exact E'|]. unfold w. rewrite R. eapply ic_later; eauto. rewrite <- (skipn_step data iw rest pos Hp R). exact C.
Qed.

(** ** Blocks *)
Lemma block_prefix tb w bs w' bs' r r' : pos_block tb -> block_read tb w bs -> block_read tb w' bs' ->
  w ++ r = w' ++ r' -> r = r'.
Proof.
  intros Hb H H' E.
  assert (B : blocks_read [tb] (w ++ []) (bs ++ [])) by (constructor; [exact H|constructor]).
  assert (B' : blocks_read [tb] (w' ++ []) (bs' ++ [])) by (constructor; [exact H'|constructor]).
  rewrite app_nil_r in B, B'. assert (P : Forall pos_block [tb]) by (constructor; auto).
  pose proof (decode_blocks_read [tb] w _ B P [] r []) as D. pose proof (decode_blocks_read [tb] w' _ B' P [] r' []) as D'.
  cbn [app] in D, D'. rewrite E, D' in D. injection D as _ D. apply app_inj_zlen in E as [_ E]; [exact E|]. lia.
Qed.
Lemma count_cases data tb pos : tb_type tb <> None -> 0 <= pos ->
  let w := skipn (Z.to_nat pos) data in
  (tb_type tb = Some MBT_SINGLE /\ count_at tb data pos = Ok (Some (1, pos))) \/
  (tb_type tb = Some MBT_MULTIPLE /\ count_at tb data pos = Ok (Some (tb_number tb, pos))) \/
  (tb_type tb = Some MBT_VARIABLE /\ exists c w', w = c :: w' /\ count_at tb data pos = Ok (Some (byte_value c, pos + 1)) /\
     skipn (Z.to_nat (pos + 1)) data = w') \/
  (tb_type tb = Some MBT_VARIABLE /\ w = [] /\ count_at tb data pos = Err DataUnpackingErr).
Proof.
  intros Ht Hp w. unfold count_at. destruct (tb_type tb) as [[]|]; [auto|auto| |congruence].
  right; right. destruct w as [|c w'] eqn:E.
  - right. split; [reflexivity|]. split; [reflexivity|].
    destruct (unpack_z data MVT_U8 pos None) as [z|e] eqn:U.
    + apply unpack_u8_at in U as (c & r & U & _); [|exact Hp]. unfold w in E. congruence.
    + cbn [bind]. f_equal. eapply unpack_z_err; [|exact U]. discriminate.
  - left. split; [reflexivity|]. exists c, w'. split; [reflexivity|].
    assert (R : skipn (Z.to_nat pos) data = [c] ++ w') by exact E.
    assert (L : pos <= zlen data). { pose proof (skipn_zlen data pos Hp) as L. unfold w in E. rewrite E, zlen_cons in L. pose proof (zlen_nonneg w'). lia. }
    destruct (firstn_skipn_at data (Z.to_nat pos) [c] w' R) as (pre & -> & Lp); [unfold zlen in L; lia|].
    replace pos with (zlen pre) by (unfold zlen; lia). cbn [app]. rewrite unpack_u8_ok. cbn [bind]. split; [reflexivity|].
    replace (pre ++ c :: w') with ((pre ++ [c]) ++ w') by (rewrite <- app_assoc; reflexivity).
    replace (zlen pre + 1) with (zlen (pre ++ [c])) by (rewrite zlen_app; reflexivity).
    rewrite zlen_to_nat, skipn_app, skipn_all, Nat.sub_diag. reflexivity.
Qed.

Lemma decode_blocks_cases data tbs : Forall block_ok tbs -> forall d pos, 0 <= pos ->
  let w := skipn (Z.to_nat pos) data in
  (exists d' p, decode_blocks data tbs d pos = Ok (Some (d', p)) /\ ~ blocks_cut tbs w /\ ~ count_missing tbs w) \/
  (decode_blocks data tbs d pos = Ok None /\ blocks_cut tbs w /\ ~ count_missing tbs w) \/
  (decode_blocks data tbs d pos = Err DataUnpackingErr /\ ~ blocks_cut tbs w /\ count_missing tbs w).
Proof.
  induction 1 as [|tb tbs Hb Hbs IH]; intros d pos Hp w.
  { left. do 2 eexists. split; [reflexivity|]. split; intros C; inversion C. }
  pose proof (block_ok_pos tb Hb) as Hpb. rewrite decode_blocks_cons.
  (* what can be said once the first block is read *)
  assert (Later : forall bw bs rest, block_read tb bw bs -> w = bw ++ rest -> ~ block_cut tb w ->
    (blocks_cut (tb :: tbs) w <-> blocks_cut tbs rest) /\ (count_missing (tb :: tbs) w <-> count_missing tbs rest)).
  { intros bw bs rest Hr E N. split; split.
    - intros C. inversion C as [? ? ? C1|? w1 bs1 ? w1' C1 C2 E1 E2]; subst; [congruence|].
      rewrite (block_prefix tb w1 bs1 bw bs w1' rest Hpb C1 Hr) in C2 by congruence. exact C2.
    - intros C. rewrite E. eapply bsc_later; eauto.
    - intros C. inversion C as [? ? C1 E1 E2|? w1 bs1 ? w1' C1 C2 E1 E2].
      + exfalso. rewrite <- E2 in E. symmetry in E. apply app_eq_nil in E as [-> ->]. inversion Hr; congruence.
      + rewrite (block_prefix tb w1 bs1 bw bs w1' rest Hpb C1 Hr) in C2 by congruence. exact C2.
    - intros C. rewrite E. eapply cm_later; eauto. }
  (* the instances, from the position [p] on *)
  assert (Inst : forall n p head, count_at tb data pos = Ok (Some (n, p)) -> 0 <= p ->
    w = head ++ skipn (Z.to_nat p) data -> p = pos + zlen head ->
    (block_cut tb w <-> instances_cut tb 0 (Z.to_nat n) (skipn (Z.to_nat p) data)) ->
    (forall iw bs, instances_read tb 0 iw bs -> List.length bs = Z.to_nat n -> block_read tb (head ++ iw) bs) ->
    ~ (tb_type tb = Some MBT_VARIABLE /\ w = []) ->
    let r := (do cp <- count_at tb data pos;
              match cp with
              | None => Ok None
              | Some (count, pos) =>
                  do r <- decode_instances data tb 0 (Z.to_nat count) d pos;
                  match r with None => Ok None | Some (d', pos') => decode_blocks data tbs d' pos' end
              end) in
    (exists d' p, r = Ok (Some (d', p)) /\ ~ blocks_cut (tb :: tbs) w /\ ~ count_missing (tb :: tbs) w) \/
    (r = Ok None /\ blocks_cut (tb :: tbs) w /\ ~ count_missing (tb :: tbs) w) \/
    (r = Err DataUnpackingErr /\ ~ blocks_cut (tb :: tbs) w /\ count_missing (tb :: tbs) w)).
  { intros n p head Ec Hp' Ew Ep Hcut Hread Hnv r. unfold r. clear r. rewrite Ec. cbn [bind].
    destruct (decode_instances_cases data tb Hb (Z.to_nat n) 0 d p Hp') as [(d' & p' & E & N)|(E & C)]; rewrite E; cbn [bind].
    - destruct (decode_instances_inv data tb Hpb _ _ _ _ _ _ Hp' E) as (iw & bs & Hi & Hl & -> & -> & rest & R).
      assert (Hr : block_read tb (head ++ iw) bs) by (apply Hread; auto).
      assert (E2 : w = (head ++ iw) ++ rest) by (rewrite Ew, R, app_assoc; reflexivity).
      destruct (Later (head ++ iw) bs rest Hr E2) as [L1 L2]; [rewrite Hcut; exact N|].
      pose proof (IH (fold_left add_block bs d) (p + zlen iw)) as K. cbv zeta in K.
      rewrite (skipn_step data iw rest p Hp' R) in K. pose proof (zlen_nonneg iw).
      destruct K as [(d1 & p1 & K1 & K2 & K3)|[(K1 & K2 & K3)|(K1 & K2 & K3)]]; [lia| | |].
      + left. exists d1, p1. split; [exact K1|]. split; tauto.
      + right; left. split; [exact K1|]. tauto.
      + right; right. split; [exact K1|]. tauto.
    - right; left. split; [reflexivity|]. assert (BC : block_cut tb w) by now apply Hcut. split; [now constructor|].
      intros M. inversion M as [? ? C1 E1 E2|? w1 bs1 ? w1' C1 C2 E1 E2].
      + apply Hnv. auto.
      + rewrite <- E2 in BC. clear Later Hread IH E M. subst.
        assert (X : forall w1 bs1 r, block_read tb w1 bs1 -> ~ block_cut tb (w1 ++ r)); [|eapply X; eauto].
        clear - Hb Hpb. intros w1 bs1 r Hr Hc.
        assert (Y : forall i w bs, instances_read tb i w bs -> forall r, ~ instances_cut tb i (List.length bs) (w ++ r)).
        { induction 1 as [i|i w b w' bs H1 H2 IH]; intros r0 C; cbn [List.length] in C; inversion C as [? ? ? C1|? ? w2 b2 w2' C1 C2 E1 E2 E3]; subst.
          - rewrite <- app_assoc in C1. eapply read_fields_not_cut; eauto.
          - rewrite <- app_assoc in E3. apply (IH r0). rewrite <- (instance_prefix tb i w2 b2 i w b w2' (w' ++ r0) Hpb C1 H1 E3). exact C2. }
        inversion Hr as [w0 b T Hi|w0 bs0 T Hn Hi|c w0 bs0 T Hn Hi]; subst; inversion Hc as [w2 T2 C2|w2 T2 C2|c2 w2 T2 C2]; subst; try congruence.
        * apply (Y 0 w1 [b] Hi r C2).
        * apply (Y 0 w1 bs1 Hi r). replace (List.length bs1) with (Z.to_nat (tb_number tb)) by (unfold zlen in Hn; lia). exact C2.
        * cbn [app] in *. match goal with H : _ :: _ = _ :: _ |- _ => injection H as -> -> | _ => idtac end.
          apply (Y 0 w0 bs1 Hi r). replace (List.length bs1) with (Z.to_nat (byte_value c)) by (unfold zlen in Hn; lia). exact C2. }
  destruct (count_cases data tb pos (proj1 Hb) Hp) as [(T & Ec)|[(T & Ec)|[(T & c & w' & Ew & Ec & R)|(T & Ew & Ec)]]].
  - apply (Inst 1 pos [] Ec Hp eq_refl); [cbn; lia| | |intros [T' _]; congruence].
    + split; [intros C; inversion C; [assumption|congruence|congruence]|]. intros C. now apply bc_single.
    + intros iw bs Hi Hl. destruct bs as [|b [|]]; try discriminate Hl. now apply br_single.
  - apply (Inst (tb_number tb) pos [] Ec Hp eq_refl); [cbn; lia| | |intros [T' _]; congruence].
    + split; [intros C; inversion C; [congruence|assumption|congruence]|]. intros C. now apply bc_multiple.
    + intros iw bs Hi Hl. apply br_multiple; auto. unfold zlen. lia.
  - apply (Inst (byte_value c) (pos + 1) [c] Ec); [lia|rewrite R; exact Ew|reflexivity| | |].
    + rewrite R. fold w in Ew. rewrite Ew. split; [intros C; inversion C; [congruence|congruence|assumption]|]. intros C. now apply bc_variable.
    + intros iw bs Hi Hl. cbn [app]. apply br_variable; auto. unfold zlen. pose proof (ord_range c). change byte_value with ord in *. lia.
    + fold w in Ew. intros [_ E]. congruence.
  - right; right. rewrite Ec. cbn [bind]. split; [reflexivity|]. fold w in Ew. rewrite Ew. split; [|now constructor].
    intros C. inversion C as [? ? ? C1|? w1 bs1 ? w1' C1 C2 E1 E2]; subst.
    + inversion C1; congruence.
    + match goal with H : _ ++ _ = [] |- _ => apply app_eq_nil in H as [-> ->] end. inversion C1; congruence.
Qed.

(** ** Whole datagrams *)
Lemma carries_body d buf t : carries d buf t <-> exists body, body_of d buf t body.
Proof.
  split.
  - intros (plain & tr & ids & six & h & rest & f & n & Hu & Ep & H6 & Hn & Hc & Ht).
    destruct (six_split plain) as (flags & id & off & after & Eh & Hid).
    { rewrite Ep, zlen_app. pose proof (zlen_nonneg (h ++ rest)). lia. }
    eexists. exists plain, tr, ids, six, h, rest, f, n, flags, id, off, (after ++ tr).
    repeat (split; [eassumption|]). split; [|auto].
    rewrite Eh. cbn [app]. now rewrite <- app_assoc.
  - intros (body & plain & tr & ids & six & h & rest & f & n & flags & id & off & after & Hu & Ep & H6 & Hn & Hc & Ht & _).
    exists plain, tr, ids, six, h, rest, f, n. tauto.
Qed.
Definition nothing_read (t : template) (body : bytes) : Prop :=
  t_blocks t <> [] /\ exists w rest, body = w ++ rest /\ blocks_read (t_blocks t) w [].
Lemma rev_split {A} (x : A) l y r : zlen l = zlen r -> forall a b, l ++ x :: a = r ++ y :: b -> x = y /\ a = b /\ l = r.
Proof. intros L a b E. apply app_inj_zlen in E as [-> E]; [|exact L]. injection E as -> ->. auto. Qed.
Lemma body_outcome pv ts c handled buf t body :
  build_dict pv ts = Ok (dc_dict c) -> Forall well_formed ts -> dc_handled c = Some handled ->
  (forall t, In t ts -> sget (t_name t) (dc_xml c) <> Some None) ->
  body_of (dc_dict c) buf t body ->
  exists X, ((udp_allowed (dc_xml c) (t_name t) /\ (handled (t_name t) = true \/ dc_deferred c = false) /\ deserialize c buf = X) \/
             (~ udp_allowed (dc_xml c) (t_name t) /\ deserialize c buf = Ok None) \/
             (~ (handled (t_name t) = true \/ dc_deferred c = false) /\ deserialize c buf = Ok None)) /\
   (((exists m, X = Ok (Some m)) /\ ~ blocks_cut (t_blocks t) body /\ ~ count_missing (t_blocks t) body /\ ~ nothing_read t body) \/
    (X = Ok None /\ blocks_cut (t_blocks t) body /\ ~ count_missing (t_blocks t) body /\ ~ nothing_read t body) \/
    (X = Err MessageDeserializationErr /\ ~ blocks_cut (t_blocks t) body /\ (count_missing (t_blocks t) body \/ nothing_read t body))).
Proof.
  intros Hb Hw Hh Hx Hbo.
  assert (Hc : carries (dc_dict c) buf t) by (apply carries_body; eauto).
  destruct (carried_template pv ts c buf t Hb Hc) as (t0 & Hin & Hst).
  assert (Hv : sget (t_name t) (dc_xml c) <> Some None).
  { destruct Hst as (<- & _). auto. }
  rewrite Forall_forall in Hw. pose proof (Hw t0 Hin) as W. apply well_formed_blocks in W.
  destruct Hst as (_ & _ & _ & _ & _ & _ & Eb). rewrite Eb in W. clear Hc.
  destruct Hbo as (plain & tr & ids & six & h & rest & f & n & flags & id & off & after & Hu & Ep & H6 & Hn & Hc & Ht & Eh & Hid & Ebody).
  destruct (build_dict_sound pv ts _ Hb) as [_ S]. destruct (S _ _ _ Ht) as (t1 & _ & _ & Hf & _).
  pose proof (deserialize_unwrapped c buf plain tr ids Hu) as D. rewrite Ep in D at 1.
  rewrite (decode_template_number _ six f n h rest H6 Hn Hc), Ht in D. cbn [bind rest_of] in D.
  exists (finish (decode_data t (plain ++ tr))). split.
  { clear - D Hv Hh. unfold validate_udp_msg, udp_allowed in *. rewrite Hh in D.
    destruct (sget (t_name t) (dc_xml c)) as [[fl|]|]; [|congruence|].
    - destruct (String.eqb_spec fl "template") as [->|N]; cbn [bind negb] in D; [|right; left; auto].
      destruct (handled (t_name t)) eqn:E1; cbn [orb] in D; [left; auto|].
      destruct (dc_deferred c); cbn [negb] in D; [right; right|left]; split; auto; intros [|]; congruence.
    - cbn [bind negb] in D. destruct (handled (t_name t)) eqn:E1; cbn [orb] in D; [left; auto|].
      destruct (dc_deferred c); cbn [negb] in D; [right; right|left]; split; auto; intros [|]; congruence. }
  destruct (six_split plain) as (flags' & id' & off' & after' & Eh' & Hid').
  { rewrite Ep, zlen_app. pose proof (zlen_nonneg (h ++ rest)). lia. }
  assert (Eoff : off' = off).
  { rewrite Eh' in Eh. cbn [app] in Eh. rewrite <- app_assoc in Eh. cbn [app] in Eh. injection Eh as _ Eh. eapply rev_split in Eh as [-> _]; [reflexivity|lia]. }
  subst off'.
  pose proof (unwrapped_ok _ _ _ _ Hu) as (a & Hs & He).
  destruct (unwrapped_inv buf a tr plain Hs He) as (ids1 & fl & tl & tl' & _ & _ & Epl & Htr).
  assert (flags' = fl) by congruence. subst fl.
  rewrite (decode_data_eq t f flags' id' off after' tr ids1 plain Hf Eh' Hid' Htr).
  assert (Hpos : 0 <= 6 + number_width f + ord off) by (pose proof (ord_range off); destruct f; cbn [number_width]; lia).
  change byte_value with ord in Ebody.
  assert (Hpb : Forall pos_block (t_blocks t)) by (eapply Forall_impl; [|exact W]; intros; now apply block_ok_pos).
  destruct (decode_blocks_cases (plain ++ tr) (t_blocks t) W [] _ Hpos) as [(d' & p & E & N1 & N2)|[(E & N1 & N2)|(E & N1 & N2)]];
    rewrite <- Ebody in N1, N2; rewrite E; cbn [bind].
  - destruct (decode_blocks_inv _ _ Hpb _ _ _ _ Hpos E) as (w & bs & Hr & -> & -> & rest' & R). rewrite <- Ebody in R.
    assert (K : nothing_read t body <-> t_blocks t <> [] /\ bs = []).
    { split.
      - intros (K1 & w' & rest'' & Ew & Hr'). split; [exact K1|].
        pose proof (decode_blocks_at _ _ _ (plain ++ tr) [] _ rest'' Hr' Hpb Hpos ltac:(rewrite <- Ebody; exact Ew)) as E'.
        rewrite E in E'. injection E' as E' _. now apply add_blocks_empty in E'.
      - intros [K1 ->]. split; [exact K1|]. eauto. }
    destruct ((zlen (fold_left add_block bs []) <=? 0) && (0 <? zlen (t_blocks t)))%bool eqn:Ez.
    + right; right. split; [reflexivity|]. split; [exact N1|]. right. apply K. apply andb_true_iff in Ez as [Ez1 Ez2]. split.
      * intros E0. rewrite E0 in Ez2. discriminate.
      * apply add_blocks_empty. destruct (fold_left add_block bs []) as [|? l]; [reflexivity|]. rewrite zlen_cons in Ez1. pose proof (zlen_nonneg l). lia.
    + left. split; [eexists; reflexivity|]. split; [exact N1|]. split; [exact N2|]. rewrite K. intros [K1 ->]. cbn in Ez.
      destruct (t_blocks t) as [|tb l]; [congruence|]. rewrite zlen_cons in Ez. pose proof (zlen_nonneg l). lia.
  - right; left. split; [reflexivity|]. split; [exact N1|]. split; [exact N2|].
    intros (_ & w' & rest'' & Ew & Hr').
    pose proof (decode_blocks_at _ _ _ (plain ++ tr) [] _ rest'' Hr' Hpb Hpos ltac:(rewrite <- Ebody; exact Ew)) as E'. congruence.
  - right; right. split; [reflexivity|]. split; [exact N1|]. left. exact N2.
Qed.
(** A datagram: a broken header, too short, an unknown number, or a body. *)
Lemma datagram_cases c buf :
  (exists e, header_failure buf e /\ deserialize c buf = Err e) \/
  (exists plain tr ids, unwrapped buf plain tr ids /\ zlen plain <= 6 /\ deserialize c buf = Err MessageDeserializationErr) \/
  (exists plain tr ids six h rest f n, unwrapped buf plain tr ids /\ plain = six ++ h ++ rest /\ zlen six = 6 /\
     wire_number f n h /\ codable f n /\ get_template_by_pair (dc_dict c) (Some f) n = None /\ deserialize c buf = Ok None) \/
  (exists t body, body_of (dc_dict c) buf t body).
Proof.
  destruct buf as [|f tl].
  { left. exists IndexErr. split; [now constructor|reflexivity]. }
  destruct (strip_cases f tl) as [(Ea & l & c0 & E & Hl & Hs)|(tl' & tr & ids & E & Hs & Ht)].
  { left. exists IndexErr. split; [eapply hf_trailer; eauto|]. unfold deserialize. rewrite Hs. reflexivity. }
  destruct (expand (f :: tl')) as [plain|e] eqn:He.
  2:{ left. apply expand_err in He as He'. destruct He' as (-> & Hz & Hl). exists IndexErr.
      split; [eapply hf_offset; eauto|]. unfold deserialize. rewrite Hs. cbn [bind]. now rewrite He. }
  assert (Hu : unwrapped (f :: tl) plain tr ids).
  { exists f, tl', (f :: tl'). split; [exact E|]. split; [reflexivity|]. split; [exact Ht|]. now apply expand_ok. }
  pose proof (deserialize_unwrapped c _ _ _ _ Hu) as D.
  destruct (Z_le_gt_dec (zlen plain) 6) as [L|L].
  { right; left. rewrite decode_template_tiny in D by exact L. exists plain, tr, ids. auto. }
  destruct (header_cases plain) as [(e & Hsh)|(six & h & rest & g & n & Ep & H6 & Hn & Hc)]; [lia| |].
  { left. exists e. split; [eapply hf_number; eauto|]. rewrite (decode_template_short _ _ _ Hsh) in D. exact D. }
  rewrite Ep in D at 1. rewrite (decode_template_number _ six g n h rest H6 Hn Hc) in D. cbn [bind] in D.
  destruct (get_template_by_pair (dc_dict c) (Some g) n) as [t|] eqn:Eg.
  - right; right; right. exists t. apply carries_body. exists plain, tr, ids, six, h, rest, g, n. tauto.
  - right; right; left. exists plain, tr, ids, six, h, rest, g, n. cbn [rest_of] in D. tauto.
Qed.
Section Whole.
Context (pv : pyver) (ts : list template) (c : dconf) (handled : string -> bool)
  (Hb : build_dict pv ts = Ok (dc_dict c)) (Hw : Forall well_formed ts) (Hh : dc_handled c = Some handled)
  (Hx : forall t, In t ts -> sget (t_name t) (dc_xml c) <> Some None).
Let wanted (name : string) : Prop := handled name = true \/ dc_deferred c = false.
Let allowed := udp_allowed (dc_xml c).
Lemma dropped_none buf : dropped (dc_dict c) allowed wanted buf -> deserialize c buf = Ok None.
Proof.
  intros [plain tr ids six h rest f n Hu Ep H6 Hn Hc Hg|t Hc Ha|t Hc Ha|t body Hbo Hcut].
  - rewrite (deserialize_unwrapped c buf plain tr ids Hu), Ep.
    now rewrite (decode_template_number _ six f n h rest H6 Hn Hc), Hg.
  - apply carries_body in Hc as (body & Hbo). destruct (body_outcome pv ts c handled buf t body Hb Hw Hh Hx Hbo) as (X & [(A & _)|[(_ & D)|(_ & D)]] & _); [contradiction|exact D|exact D].
  - apply carries_body in Hc as (body & Hbo). destruct (body_outcome pv ts c handled buf t body Hb Hw Hh Hx Hbo) as (X & [(_ & A & _)|[(_ & D)|(_ & D)]] & _); [contradiction|exact D|exact D].
  - destruct (body_outcome pv ts c handled buf t body Hb Hw Hh Hx Hbo) as (X & [(_ & _ & D)|[(_ & D)|(_ & D)]] & O); [|exact D|exact D].
    destruct O as [(_ & N & _)|[(E & _)|(_ & N & _)]]; [contradiction|congruence|contradiction].
Qed.
Lemma rejected_err buf : rejected (dc_dict c) allowed wanted buf -> deserialize c buf = Err MessageDeserializationErr.
Proof.
  intros [plain tr ids Hu L|t body Hbo Ha Hwn Hm|t body w rest Hbo Ha Hwn Hn E Hr].
  - now rewrite (deserialize_unwrapped c buf plain tr ids Hu), decode_template_tiny.
  - destruct (body_outcome pv ts c handled buf t body Hb Hw Hh Hx Hbo) as (X & [(_ & _ & D)|[(A & D)|(A & D)]] & O); [|contradiction|contradiction].
    destruct O as [(_ & _ & N & _)|[(_ & _ & N & _)|(E & _)]]; [contradiction|contradiction|congruence].
  - assert (N : nothing_read t body) by (split; [exact Hn|eauto]).
    destruct (body_outcome pv ts c handled buf t body Hb Hw Hh Hx Hbo) as (X & [(_ & _ & D)|[(A & D)|(A & D)]] & O); [|contradiction|contradiction].
    destruct O as [(_ & _ & _ & N')|[(_ & _ & _ & N')|(E' & _)]]; [contradiction|contradiction|congruence].
Qed.
Lemma dropped_iff buf : deserialize c buf = Ok None <-> dropped (dc_dict c) allowed wanted buf.
Proof.
  split; [|apply dropped_none]. intros H.
  destruct (datagram_cases c buf) as [(e & _ & D)|[(p & tr & ids & _ & _ & D)|[(p & tr & ids & six & h & rest & f & n & Hu & Ep & H6 & Hn & Hc & Hg & D)|(t & body & Hbo)]]];
    try congruence.
  - eapply dr_unknown; eauto.
  - destruct (body_outcome pv ts c handled buf t body Hb Hw Hh Hx Hbo) as (X & [(_ & _ & D)|[(A & D)|(A & D)]] & O).
    + destruct O as [((m & E) & _)|[(E & C & _)|(E & _)]]; [congruence| |congruence]. eapply dr_cut; eauto.
    + eapply dr_banned; [|exact A]. apply carries_body. eauto.
    + eapply dr_unwanted; [|exact A]. apply carries_body. eauto.
Qed.
Lemma rejected_iff buf : deserialize c buf = Err MessageDeserializationErr <-> rejected (dc_dict c) allowed wanted buf.
Proof.
  split; [|apply rejected_err]. intros H.
  destruct (datagram_cases c buf) as [(e & Hf & D)|[(p & tr & ids & Hu & L & D)|[(p & tr & ids & six & h & rest & f & n & Hu & Ep & H6 & Hn & Hc & Hg & D)|(t & body & Hbo)]]].
  - exfalso. apply failure_kinds in Hf as [->| ->]; congruence.
  - eapply rj_short; eauto.
  - congruence.
  - destruct (body_outcome pv ts c handled buf t body Hb Hw Hh Hx Hbo) as (X & [(A & B & D)|[(A & D)|(A & D)]] & O); [|congruence|congruence].
    destruct O as [((m & E) & _)|[(E & _)|(E & _ & [C|(C & w & rest & Ew & Hr)])]]; [congruence|congruence| |].
    + eapply rj_count; eauto.
    + eapply rj_nothing; eauto.
Qed.
End Whole.
(** ** Prefixes *)
Lemma blocks_prefix tbs w bs w' bs' r r' : Forall pos_block tbs -> blocks_read tbs w bs -> blocks_read tbs w' bs' ->
  w ++ r = w' ++ r' -> w = w' /\ r = r'.
Proof.
  intros Hp H H' E.
  pose proof (decode_blocks_at tbs w bs (w ++ r) [] 0 r H Hp ltac:(lia) eq_refl) as D.
  pose proof (decode_blocks_at tbs w' bs' (w ++ r) [] 0 r' H' Hp ltac:(lia) E) as D'.
  rewrite D in D'. injection D' as _ L. apply app_inj_zlen; [lia|exact E].
Qed.
Lemma unwrapped_plain f tl : bit f zero_bit = false -> bit f ack_bit = false -> unwrapped (f :: tl) (f :: tl) [] [].
Proof.
  intros Hz Ha. exists f, tl, (f :: tl). rewrite Hz, Ha, app_nil_r. repeat split; reflexivity.
Qed.
Section Prefix.
Context (pv : pyver) (ts : list template) (c : dconf) (handled : string -> bool)
  (Hb : build_dict pv ts = Ok (dc_dict c)) (Hw : Forall well_formed ts) (Hh : dc_handled c = Some handled)
  (Hx : forall t, In t ts -> sget (t_name t) (dc_xml c) <> Some None).
Lemma truncated_never f id rest t body bs p q m :
  f :: id ++ x00 :: rest = p ++ q -> zlen id = 4 -> q <> [] ->
  bit f zero_bit = false -> bit f ack_bit = false ->
  body_of (dc_dict c) (p ++ q) t body -> blocks_read (t_blocks t) body bs ->
  deserialize c p <> Ok (Some m).
Proof.
  intros E Hid Hq Hz Ha Hbo Hr D.
  destruct (datagram_cases c p) as [(e & _ & D1)|[(pl & tr & ids & _ & _ & D1)|[(pl & tr & ids & six & h & rest1 & g & n & _ & _ & _ & _ & _ & _ & D1)|(t' & body' & Hbo')]]]; try congruence.
  pose proof (body_outcome pv ts c handled p t' body' Hb Hw Hh Hx Hbo') as (X & H & O).
  destruct H as [(_ & _ & DX)|[(_ & DX)|(_ & DX)]]; [|congruence|congruence].
  destruct O as [(_ & N1 & N2 & _)|[(E1 & _)|(E1 & _)]]; [|congruence|congruence].
  destruct p as [|f' p']; [discriminate D|]. injection E as <- E.
  destruct Hbo as (plain & tr & ids & six & h & r1 & g & n & flags & id1 & off & after & Hu & Ep & H6 & Hn & Hc & Ht & Eh & Hid1 & Ebody).
  destruct Hbo' as (plain' & tr' & ids' & six' & h' & r1' & g' & n' & flags' & id1' & off' & after' & Hu' & Ep' & H6' & Hn' & Hc' & Ht' & Eh' & Hid1' & Ebody').
  destruct (unwrapped_fun _ _ _ _ _ _ _ Hu (unwrapped_plain f (p' ++ q) Hz Ha)) as (E1 & -> & ->).
  destruct (unwrapped_fun _ _ _ _ _ _ _ Hu' (unwrapped_plain f p' Hz Ha)) as (E2 & -> & ->).
  rewrite app_nil_r in Eh, Eh', Ebody, Ebody'.
  assert (E3 : six ++ h ++ r1 = six' ++ h' ++ r1' ++ q).
  { rewrite <- Ep, E1. change (f :: p' ++ q) with ((f :: p') ++ q). rewrite <- E2, Ep', !app_assoc. reflexivity. }
  apply app_inj_zlen in E3 as [-> E3]; [|lia].
  destruct (prefix_free g n h g' n' h' r1 (r1' ++ q) Hn Hc Hn' Hc' E3) as [-> ->].
  rewrite Ht in Ht'. injection Ht' as <-.
  assert (Eo : off = x00 /\ off' = x00).
  { split.
    - rewrite E1, <- E in Eh. injection Eh as _ Eh. symmetry in Eh. eapply rev_split in Eh as [-> _]; [reflexivity|lia].
    - rewrite E2 in Eh'. injection Eh' as _ Eh'. rewrite Eh', <- app_assoc in E. cbn [app] in E. symmetry in E. eapply rev_split in E as [-> _]; [reflexivity|lia]. }
  destruct Eo as [-> ->].
  assert (L : zlen (f :: p') >= 6 + number_width g').
  { rewrite <- E2, Ep', !zlen_app, (wire_number_len g' n' h' Hn'), H6'. pose proof (zlen_nonneg r1'). lia. }
  assert (Eb : body = body' ++ q).
  { rewrite Ebody, Ebody', E1, E2. change (f :: p' ++ q) with ((f :: p') ++ q).
    change (byte_value x00) with 0. rewrite skipn_app.
    replace (Z.to_nat (6 + number_width g' + 0) - List.length (f :: p'))%nat with 0%nat by (unfold zlen in L; lia). reflexivity. }
  assert (Hc0 : carries (dc_dict c) (f :: p' ++ q) t).
  { exists plain, [], [], six', h, r1, g', n'. split; [exact Hu|]. tauto. }
  destruct (carried_template pv ts c _ t Hb Hc0) as (t0 & Hin & Hst).
  pose proof Hw as Hw'. rewrite Forall_forall in Hw'. pose proof (Hw' t0 Hin) as W. apply well_formed_blocks in W.
  destruct Hst as (_ & _ & _ & _ & _ & _ & Etb). rewrite Etb in W.
  assert (Hpb : Forall pos_block (t_blocks t)) by (eapply Forall_impl; [|exact W]; intros; now apply block_ok_pos).
  destruct (decode_blocks_cases body' (t_blocks t) W [] 0 ltac:(lia)) as [(d' & pp & K & _)|[(_ & K & _)|(_ & _ & K)]];
    [|contradiction|contradiction].
  destruct (decode_blocks_inv _ _ Hpb _ _ _ _ (Z.le_refl 0) K) as (w & bs' & Hr' & _ & _ & rest' & R). cbn [Z.to_nat skipn] in R.
  destruct (blocks_prefix (t_blocks t) body bs w bs' [] (rest' ++ q) Hpb Hr Hr') as [_ E4].
  { rewrite app_nil_r, Eb, R, app_assoc. reflexivity. }
  symmetry in E4. apply app_eq_nil in E4 as [_ E4]. contradiction.
Qed.
End Prefix.
(** A packet that was sent, cut short. *)
From Verif Require Import Serializer ObjectProofs SpecRoundTrip RoundTripProofs.
Lemma sent_truncated pv' pv ts c x m t handled w p q m' :
  build_dict pv' ts = Ok (dc_dict c) -> Forall well_formed ts -> unambiguous ts -> In t ts -> usable t ->
  dc_handled c = Some handled -> (forall t, In t ts -> sget (t_name t) (dc_xml c) <> Some None) ->
  m_name m = t_name t -> conforming t m -> plain_header pv m -> t_name t <> "RegionHandshakeReply"%string ->
  serialize pv (dc_dict c) x m = Ok (Some w) -> w = p ++ q -> q <> [] ->
  deserialize c p <> Ok (Some m').
Proof.
  intros Hbd Hwf [U1 U2] Hin Hus Hh Hx Hname Hcf (F1 & F2 & F3 & I1 & I2) Hn Hs Ew Hq.
  destruct (build_dict_both' pv' ts (dc_dict c) t Hbd U1 U2 Hin) as (t' & G1 & G2 & S & NB).
  destruct (same_usable t t' S) as (S1 & S2 & S3 & S4).
  pose proof Hus as ((f & Ef & Cf) & _ & _ & _).
  destruct (NB f) as (number & Hhex & Wn); [congruence|].
  replace (t_num t' mod number_space f) with (t_num t) in Wn
    by (rewrite S4; symmetry; apply Z.mod_small; destruct f; cbn in *; lia).
  destruct (blocks_come_back pv m (t_blocks t) (usable_blocks t Hus) (conforming_blocks t m Hcf)) as (ws & bss & B1 & B2 & B3).
  apply serialize_layout in Hs as HL.
  destruct HL as (t1 & flags & id & number' & ws' & tail & Ht1 & _ & E & Vf & _ & Lid & _ & _ & Hx1 & B1' & Htail).
  assert (t1 = t') by congruence. subst t1. assert (number' = number) by congruence. subst number'.
  rewrite S1 in Htail. destruct (String.eqb_spec (t_name t) "RegionHandshakeReply"); [congruence|]. subst tail.
  assert (Vf' : byte_value flags = m_flags m) by (rewrite Vf; apply Z.mod_small; exact F1).
  assert (Ec : List.concat ws' = List.concat ws).
  { rewrite S2 in B1'.
    assert (K1 : build_blocks pv (t_blocks t) m = Ok (List.concat ws)) by (apply build_blocks_layout; eauto).
    assert (K2 : build_blocks pv (t_blocks t) m = Ok (List.concat ws')) by (apply build_blocks_layout; eauto). congruence. }
  rewrite app_nil_r, Ec in E.
  eapply (truncated_never pv' ts c handled Hbd Hwf Hh Hx flags id (number ++ List.concat ws) t' (List.concat ws) (List.concat bss) p q m').
  - rewrite <- Ew, E. reflexivity.
  - exact Lid.
  - exact Hq.
  - unfold bit. rewrite Vf'. exact F2.
  - unfold bit. rewrite Vf'. exact F3.
  - rewrite <- Ew. exists w, [], [], ([flags] ++ id ++ [x00]), number, (List.concat ws), f, (t_num t), flags, id, x00, (number ++ List.concat ws).
    split.
    { rewrite E. apply unwrapped_plain; unfold bit; rewrite Vf'; assumption. }
    split; [rewrite E, <- !app_assoc; reflexivity|]. split; [rewrite !zlen_app, Lid; reflexivity|]. split; [exact Wn|]. split; [exact Cf|].
    split; [rewrite <- Ef; exact G2|]. split; [rewrite E, app_nil_r; reflexivity|]. split; [exact Lid|].
    rewrite app_nil_r, E. change (byte_value x00) with 0. change ([flags] ++ id ++ [x00] ++ number ++ List.concat ws) with ([flags] ++ (id ++ ([x00] ++ (number ++ List.concat ws)))).
    replace ([flags] ++ (id ++ ([x00] ++ (number ++ List.concat ws)))) with (([flags] ++ id ++ [x00] ++ number) ++ List.concat ws) by now rewrite <- !app_assoc.
    replace (Z.to_nat (6 + number_width f + 0)) with (List.length ([flags] ++ id ++ [x00] ++ number)).
    + now rewrite skipn_app, skipn_all, Nat.sub_diag.
    + pose proof (wire_number_len f _ number Wn) as Ln. unfold zlen in Ln, Lid. rewrite !app_length. cbn [List.length]. lia.
  - rewrite S2. exact B2.
Qed.
