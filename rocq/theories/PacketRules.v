(** message.xml, deferred parsing, extra header bytes, block counts
    (C16, C17, C18, C19, C20). *)
From Verif Require Import Deserializer Serializer SpecCodec SpecWire SpecLayout Lib CodecProofs FieldProofs HeaderProofs ZeroProofs LayoutProofs DecodeProofs PacketProofs PacketMore PacketForms.

(** ** C16 *)
Lemma serialize_banned pv d x m t : get_template d (m_name m) = Some t -> udp_banned x (t_name t) ->
  serialize pv d x m = Ok None.
Proof. intros Ht Hb. apply udp_banned_spec in Hb. unfold serialize. rewrite Ht, Hb. reflexivity. Qed.
Lemma serialize_no_flavor pv d x m t : get_template d (m_name m) = Some t -> sget (t_name t) x = Some None ->
  serialize pv d x m = Err KeyErr.
Proof. intros Ht Hb. unfold serialize, validate_udp_msg. rewrite Ht, Hb. reflexivity. Qed.
Lemma serialize_allowed pv d x m : (forall t, get_template d (m_name m) = Some t -> udp_allowed x (t_name t)) ->
  serialize pv d x m = serialize pv d [] m.
Proof.
  intros H. unfold serialize. destruct (get_template d (m_name m)) as [t|]; [|reflexivity].
  specialize (H t eq_refl). apply udp_allowed_spec in H. rewrite H. reflexivity.
Qed.
Definition with_xml (c : dconf) (x : xmltable) : dconf :=
  {| dc_dict := dc_dict c; dc_xml := x; dc_deferred := dc_deferred c; dc_handled := dc_handled c |}.
Lemma deserialize_banned c buf t : carries (dc_dict c) buf t -> udp_banned (dc_xml c) (t_name t) ->
  deserialize c buf = Ok None.
Proof.
  intros Hc Hb. apply udp_banned_spec in Hb. destruct (deserialize_carries c buf t Hc) as (p & tr & ids & _ & ->).
  cbn [rest_of]. rewrite Hb. reflexivity.
Qed.
Lemma deserialize_no_flavor c buf t : carries (dc_dict c) buf t -> sget (t_name t) (dc_xml c) = Some None ->
  deserialize c buf = Err KeyErr.
Proof.
  intros Hc Hb. destruct (deserialize_carries c buf t Hc) as (p & tr & ids & _ & ->).
  cbn [rest_of]. unfold validate_udp_msg. rewrite Hb. reflexivity.
Qed.
Lemma deserialize_conf c c' buf : dc_dict c' = dc_dict c ->
  (forall t data, carries (dc_dict c) buf t -> rest_of c (Some t) data = rest_of c' (Some t) data) ->
  deserialize c buf = deserialize c' buf.
Proof.
  intros Ed H. destruct (deserialize_cases c buf) as [(e & Hf & ->)|[(t & p & tr & ids & Hc & Hu & ->)|[Hno _]]].
  - symmetry. now apply failure_eq.
  - destruct (deserialize_carries c' buf t) as (p' & tr' & ids' & Hu' & ->); [congruence|].
    destruct (unwrapped_fun _ _ _ _ _ _ _ Hu Hu') as (<- & <- & _). now apply H.
  - destruct (deserialize_cases c' buf) as [(e & Hf & E)|[(t & p & tr & ids & Hc & _)|_]].
    + rewrite E. now apply failure_eq.
    + exfalso. apply (Hno t). congruence.
    + unfold deserialize. rewrite Ed. destruct (strip_acks buf) as [[a tr]|e] eqn:Hs; cbn [bind]; [|reflexivity].
      destruct (expand a) as [p|e] eqn:He; cbn [bind]; [|reflexivity].
      destruct (decode_template (dc_dict c) p) as [[t|]|e] eqn:Et; cbn [bind]; try reflexivity.
      exfalso. destruct (unwrapped_inv _ _ _ _ Hs He) as (ids & f & tl & tl' & Hu & _).
      destruct (Z_le_gt_dec (zlen p) 6) as [L|L]; [rewrite decode_template_tiny in Et by exact L; discriminate|].
      destruct (header_cases p) as [(e & Hsh)|(six & h & rest & g & n & Ep & H6 & Hn & Hcd)]; [lia| |].
      * rewrite (decode_template_short _ _ _ Hsh) in Et. discriminate.
      * apply (Hno t). exists p, tr, ids, six, h, rest, g, n.
        rewrite Ep, (decode_template_number _ six g n h rest H6 Hn Hcd) in Et. injection Et as Et. tauto.
Qed.
Lemma deserialize_allowed c buf : (forall t, carries (dc_dict c) buf t -> udp_allowed (dc_xml c) (t_name t)) ->
  deserialize c buf = deserialize (with_xml c []) buf.
Proof.
  intros H. apply deserialize_conf; [reflexivity|]. intros t data Hc. specialize (H t Hc). apply udp_allowed_spec in H.
  cbn [rest_of]. rewrite H. reflexivity.
Qed.

(** ** C17 *)
Definition with_deferred (c : dconf) (b : bool) : dconf :=
  {| dc_dict := dc_dict c; dc_xml := dc_xml c; dc_deferred := b; dc_handled := dc_handled c |}.
Lemma deferred_unhandled c handled buf t : dc_deferred c = true -> dc_handled c = Some handled ->
  carries (dc_dict c) buf t -> handled (t_name t) = false -> sget (t_name t) (dc_xml c) <> Some None ->
  deserialize c buf = Ok None.
Proof.
  intros Hd Hh Hc Hn Hx. destruct (deserialize_carries c buf t Hc) as (p & tr & ids & _ & ->). cbn [rest_of].
  unfold validate_udp_msg. destruct (sget (t_name t) (dc_xml c)) as [[fl|]|]; [|congruence|].
  - destruct (String.eqb fl "template"); cbn [bind negb]; [|reflexivity]. rewrite Hh, Hn, Hd. reflexivity.
  - cbn [bind negb]. rewrite Hh, Hn, Hd. reflexivity.
Qed.
Lemma deferred_handled c handled buf : dc_handled c = Some handled ->
  (forall t, carries (dc_dict c) buf t -> handled (t_name t) = true) ->
  deserialize c buf = deserialize (with_deferred c false) buf.
Proof.
  intros Hh H. apply deserialize_conf; [reflexivity|]. intros t data Hc. specialize (H t Hc).
  cbn [rest_of with_deferred dc_xml dc_handled dc_deferred]. rewrite Hh, H, orb_true_r. reflexivity.
Qed.

(** ** C20 *)
Lemma extra_ignored pv ts c fl id off f n num ex ex' body tr ids :
  build_dict pv ts = Ok (dc_dict c) -> Forall sized ts ->
  bit fl zero_bit = false -> zlen id = 4 -> wire_number f n num -> codable f n ->
  zlen ex = byte_value off -> zlen ex' = byte_value off ->
  (if bit fl ack_bit then ack_trailer tr ids else tr = [] /\ ids = []) ->
  deserialize c ((fl :: id ++ off :: num ++ ex ++ body) ++ tr) =
  deserialize c ((fl :: id ++ off :: num ++ ex' ++ body) ++ tr).
Proof.
  intros Hbd Hsz Hz Hid Hn Hc Hx Hx' Ht. pose proof (built_wf _ _ _ Hbd Hsz) as Hwf.
  assert (U : forall e, unwrapped ((fl :: id ++ off :: num ++ e ++ body) ++ tr) (fl :: id ++ off :: num ++ e ++ body) tr ids).
  { intros e. exists fl, (id ++ off :: num ++ e ++ body), (fl :: id ++ off :: num ++ e ++ body). rewrite Hz. auto. }
  assert (T : forall e, decode_template (dc_dict c) (fl :: id ++ off :: num ++ e ++ body) = Ok (get_template_by_pair (dc_dict c) (Some f) n)).
  { intros e. rewrite <- (decode_template_number (dc_dict c) ((fl :: id) ++ [off]) f n num (e ++ body)); auto.
    - f_equal. cbn. now rewrite <- app_assoc.
    - rewrite zlen_app, zlen_cons. change (zlen [off]) with 1. lia. }
  rewrite (deserialize_unwrapped c _ _ _ _ (U ex)), (deserialize_unwrapped c _ _ _ _ (U ex')), !T. cbn [bind].
  destruct (get_template_by_pair (dc_dict c) (Some f) n) as [t|] eqn:Eg; [|reflexivity]. destruct (Hwf f n t Eg) as [Hf Hb].
  cbn [rest_of]. destruct (validate_udp_msg (dc_xml c) (t_name t)) as [[]|e]; cbn [bind negb]; try reflexivity.
  destruct (dc_handled c) as [h|]; [|reflexivity]. destruct (h (t_name t) || negb (dc_deferred c))%bool; [|reflexivity].
  f_equal.
  rewrite (decode_data_eq t f fl id off (num ++ ex ++ body) tr ids _ Hf eq_refl Hid Ht).
  rewrite (decode_data_eq t f fl id off (num ++ ex' ++ body) tr ids _ Hf eq_refl Hid Ht).
  assert (P : forall e, zlen e = ord off -> 6 + number_width f + ord off = zlen (fl :: id ++ off :: num ++ e) + 0).
  { intros e He. rewrite zlen_cons, zlen_app, zlen_cons, zlen_app, (wire_number_len f n num Hn). lia. }
  assert (S : forall e, (fl :: id ++ off :: num ++ e ++ body) ++ tr = (fl :: id ++ off :: num ++ e) ++ body ++ tr).
  { intros e. cbn. rewrite <- !app_assoc. cbn. rewrite <- !app_assoc. reflexivity. }
  rewrite !S. change byte_value with ord in *. rewrite (P ex Hx).
  rewrite (decode_blocks_pre (fl :: id ++ off :: num ++ ex) (fl :: id ++ off :: num ++ ex')) by (auto; try lia; pose proof (P ex Hx); pose proof (P ex' Hx'); lia).
  reflexivity.
Qed.
(** A packet laid out as the protocol says (extra header bytes before the
    message number) is identified by its extra bytes. *)
Lemma extra_names d fl id off f n h e' body t :
  bit fl zero_bit = false -> bit fl ack_bit = false -> zlen id = 4 ->
  wire_number f n h -> codable f n -> get_template_by_pair d (Some f) n = Some t ->
  carries d (fl :: id ++ off :: (h ++ e') ++ body) t.
Proof.
  intros Hz Ha Hid Hn Hc Hg. exists (fl :: id ++ off :: (h ++ e') ++ body), [], [], (fl :: id ++ [off]), h, (e' ++ body), f, n.
  split. { exists fl, (id ++ off :: (h ++ e') ++ body), (fl :: id ++ off :: (h ++ e') ++ body). rewrite app_nil_r, Hz, Ha. auto. }
  split; [cbn; rewrite <- !app_assoc; reflexivity|]. split; [rewrite zlen_cons, zlen_app; change (zlen [off]) with 1; lia|]. auto.
Qed.

(** ** Grouping the decoded blocks *)
Lemma add_block_get d b name : sget name (add_block d b) =
  if String.eqb (b_name b) name then Some (match sget name d with Some l => l | None => [] end ++ [b]) else sget name d.
Proof.
  unfold add_block. destruct (String.eqb_spec (b_name b) name) as [->|N].
  - destruct (sget name d) as [l|]; rewrite (dget_dset_eq _ string_eqb_spec); reflexivity.
  - destruct (sget (b_name b) d) as [l|]; now rewrite (dget_dset_neq _ string_eqb_spec) by congruence.
Qed.
Definition named (name : string) (b : block) : bool := String.eqb (b_name b) name.
Lemma blocks_get bs : forall d name, sget name (fold_left add_block bs d) =
  match filter (named name) bs with
  | [] => sget name d
  | l => Some (match sget name d with Some l0 => l0 | None => [] end ++ l)
  end.
Proof.
  induction bs as [|b bs IH]; intros d name; [reflexivity|]. cbn [fold_left filter]. rewrite IH, add_block_get.
  unfold named at 2. destruct (String.eqb (b_name b) name); [|reflexivity].
  destruct (filter (named name) bs); [reflexivity|]. now rewrite <- app_assoc.
Qed.
Lemma fill_name vs ys : forall b, b_name (fill vs ys b) = b_name b.
Proof.
  unfold fill. revert ys. induction vs as [|v vs IH]; intros [|y ys] b; try reflexivity. cbn [combine fold_left].
  rewrite IH. reflexivity.
Qed.
Lemma the_block_name tb i ys : b_name (the_block tb i ys) = tb_name tb.
Proof. rewrite the_block_fill, fill_name. reflexivity. Qed.
Lemma instances_names tb i w bs : instances_read tb i w bs -> Forall (fun b => b_name b = tb_name tb) bs.
Proof.
  induction 1 as [|i w b w' bs (ws & ys & _ & -> & _) _ IH]; constructor; auto. apply the_block_name.
Qed.
Lemma block_names tb w bs : block_read tb w bs -> Forall (fun b => b_name b = tb_name tb) bs.
Proof. destruct 1; eapply instances_names; eassumption. Qed.
Lemma block_count tb w bs : block_read tb w bs -> decoded_count tb (zlen bs).
Proof.
  unfold decoded_count. destruct 1 as [w b Ht|w bs Ht Hn|c w bs Ht Hc]; rewrite Ht; auto.
  rewrite <- Hc. pose proof (ord_range c). change byte_value with ord. lia.
Qed.
Lemma filter_named_all tb bs : Forall (fun b => b_name b = tb_name tb) bs -> filter (named (tb_name tb)) bs = bs.
Proof.
  induction 1 as [|b bs Hb _ IH]; [reflexivity|]. cbn. unfold named. rewrite Hb, String.eqb_refl. now f_equal.
Qed.
Lemma filter_named_none name name' bs : name <> name' -> Forall (fun b => b_name b = name') bs -> filter (named name) bs = [].
Proof.
  intros N. induction 1 as [|b bs Hb _ IH]; [reflexivity|]. cbn. unfold named. rewrite Hb.
  destruct (String.eqb_spec name' name); [congruence|exact IH].
Qed.
Lemma blocks_other tbs w bs name : blocks_read tbs w bs -> ~ In name (map tb_name tbs) -> filter (named name) bs = [].
Proof.
  induction 1 as [|tb w bs tbs w' bs' H1 H2 IH]; intros Hn; [reflexivity|]. rewrite filter_app.
  cbn in Hn. rewrite (filter_named_none name (tb_name tb)), IH by (auto; eapply block_names; exact H1). reflexivity.
Qed.
Lemma blocks_counts tbs w bs : blocks_read tbs w bs -> NoDup (map tb_name tbs) ->
  forall tb, In tb tbs -> exists w', block_read tb w' (filter (named (tb_name tb)) bs).
Proof.
  induction 1 as [|tb w bs tbs w' bs' H1 H2 IH]; intros Hn tb0 Hin; [destruct Hin|]. cbn in Hn. inversion Hn as [|? ? Hn1 Hn2]; subst.
  rewrite filter_app. destruct Hin as [<-|Hin].
  - rewrite (blocks_other tbs w' bs' _ H2 Hn1), app_nil_r, filter_named_all by (eapply block_names; exact H1). eauto.
  - rewrite (filter_named_none (tb_name tb0) (tb_name tb)); [cbn; now apply IH| |eapply block_names; exact H1].
    intros E. apply Hn1. rewrite <- E. now apply in_map.
Qed.
(** What a decoded message contains, block by block. *)
Lemma decoded_blocks pv ts c handled buf m : build_dict pv ts = Ok (dc_dict c) -> Forall sized ts -> dc_handled c = Some handled ->
  deserialize c buf = Ok (Some m) ->
  exists t, carries (dc_dict c) buf t /\ m_name m = t_name t /\
   (NoDup (map tb_name (t_blocks t)) ->
    forall tb, In tb (t_blocks t) -> exists w l, block_read tb w l /\ decoded_count tb (zlen l) /\
      get_block (m_blocks m) (tb_name tb) = if zlen l =? 0 then Err KeyErr else Ok l) /\
   (forall name, ~ In name (map tb_name (t_blocks t)) -> get_block (m_blocks m) name = Err KeyErr).
Proof.
  intros Hbd Hsz Hh H. apply (deserialize_says pv ts c handled _ _ Hbd Hsz Hh) in H.
  destruct H as (plain & tr0 & ids0 & t & g & n & h & rest0 & Hu & (six & Ep & E6) & Hn & Hc & Hg & Hal & Hw &
      flags & id & off & after & body & rest & bs & Eh & Hid & Hsk & Hr & Hne & Hname & Hfl & Hidv & Hbl & _).
  exists t. split; [exists plain, tr0, ids0, six, h, rest0, g, n; tauto|]. split; [exact Hname|]. split.
  - intros Hnd tb Hin. destruct (blocks_counts _ _ _ Hr Hnd tb Hin) as (w & Hb). exists w, (filter (named (tb_name tb)) bs).
    split; [exact Hb|]. split; [eapply block_count; exact Hb|]. unfold get_block. rewrite Hbl, blocks_get. cbn [dget].
    destruct (filter (named (tb_name tb)) bs) as [|b l]; [reflexivity|]. rewrite zlen_cons. pose proof (zlen_nonneg l).
    destruct (1 + zlen l =? 0) eqn:E; [lia|reflexivity].
  - intros name Hn'. unfold get_block. rewrite Hbl, blocks_get, (blocks_other _ _ _ _ Hr Hn'). reflexivity.
Qed.

(** ** C18, C19 *)
Lemma build_blocks_fails pv m pre tb post e : Forall (fun tb => exists w, block_layout pv tb m w) pre ->
  build_block pv tb m = Err e -> build_blocks pv (pre ++ tb :: post) m = Err e.
Proof.
  intros H He. induction H as [|tb0 pre (w & Hw) _ IH]; cbn [app build_blocks].
  - now rewrite He.
  - apply build_block_layout in Hw. rewrite Hw. cbn [bind]. now rewrite IH.
Qed.
Lemma serialize_fails pv d x m t num pre tb post e :
  get_template d (m_name m) = Some t -> udp_allowed x (t_name t) -> t_hex t = Some num ->
  written pv false 1 (m_flags m) -> written pv true 4 (m_id m) ->
  t_blocks t = pre ++ tb :: post -> Forall (fun tb => exists w, block_layout pv tb m w) pre ->
  build_block pv tb m = Err e -> serialize pv d x m = Err e.
Proof.
  intros Ht Hx Hh Hf Hi Eb Hp He. unfold serialize. rewrite Ht. apply udp_allowed_spec in Hx. rewrite Hx. cbn [bind negb].
  assert (F : exists w, need (pack_data pv (VInt (m_flags m)) (Some MVT_U8) None) = Ok w).
  { exists [chr (m_flags m)]. apply flags_layout. exists (chr (m_flags m)). split; [reflexivity|]. split; [apply ord_chr|exact Hf]. }
  assert (I : exists w, need (pack_data pv (VInt (m_id m)) (Some MVT_S32) (Some BE)) = Ok w).
  { exists (be_bytes 4 (m_id m)). apply id_layout. split; [apply (zlen_enc BE)|]. split; [|exact Hi].
    rewrite value_msb_be. apply (dec_enc BE 4 (m_id m)). }
  destruct F as (w1 & ->), I as (w2 & ->). cbn [bind].
  assert (O : need (pack_data pv (VInt 0) (Some MVT_U8) None) = Ok [x00]) by (destruct pv; reflexivity). rewrite O. cbn [bind].
  rewrite Hh. cbn [need bind]. rewrite Eb, (build_blocks_fails pv m pre tb post e Hp He). reflexivity.
Qed.
Lemma count_mismatch pv m tb l : get_block (m_blocks m) (tb_name tb) = Ok l -> tb_type tb = Some MBT_MULTIPLE ->
  zlen l <> tb_number tb -> build_block pv tb m = Err (MessageSerializationErr (tb_name tb) "block data mismatch").
Proof.
  intros Hl Ht Hn. unfold build_block. rewrite Hl. cbn [bind]. rewrite Ht. destruct (Z.eqb_spec (tb_number tb) (zlen l)); [congruence|reflexivity].
Qed.
Lemma count_overflow m tb l : get_block (m_blocks m) (tb_name tb) = Ok l -> tb_type tb = Some MBT_VARIABLE ->
  255 < zlen l -> build_block Py27 tb m = Err StructError.
Proof.
  intros Hl Ht Hn. unfold build_block. rewrite Hl. cbn [bind]. rewrite Ht. cbn [bind]. unfold pack_int.
  replace (in_range false 1 (zlen l)) with false by (unfold in_range; change (2 ^ (8 * Z.of_nat 1)) with 256; lia). reflexivity.
Qed.
Lemma missing_block pv m tb : sget (tb_name tb) (m_blocks m) = None -> build_block pv tb m = Err KeyErr.
Proof. intros H. unfold build_block, get_block. rewrite H. reflexivity. Qed.
Lemma build_vars_missing pv b pre v post : Forall (fun v => exists x w, block_getitem b (tv_name v) = Ok x /\ field_layout pv v x w) pre ->
  sget (tv_name v) (b_vars b) = None -> build_vars pv b (pre ++ v :: post) = Err KeyErr.
Proof.
  intros H Hv. induction H as [|v0 pre (x & w & Hx & Hw) _ IH]; cbn [app build_vars].
  - unfold build_var, get_variable. rewrite Hv. reflexivity.
  - assert (E : build_var pv b v0 = Ok w) by (apply build_var_layout; eauto). rewrite E. cbn [bind]. rewrite IH. reflexivity.
Qed.
Lemma missing_variable pv m tb lpre b lpost vpre v vpost :
  get_block (m_blocks m) (tb_name tb) = Ok (lpre ++ b :: lpost) ->
  match tb_type tb with
  | Some MBT_MULTIPLE => zlen (lpre ++ b :: lpost) = tb_number tb
  | Some MBT_VARIABLE => written pv false 1 (zlen (lpre ++ b :: lpost))
  | _ => True
  end ->
  Forall (fun b => exists w, instance_layout pv tb b w) lpre ->
  tb_vars tb = vpre ++ v :: vpost ->
  Forall (fun v => exists x w, block_getitem b (tv_name v) = Ok x /\ field_layout pv v x w) vpre ->
  sget (tv_name v) (b_vars b) = None ->
  build_block pv tb m = Err KeyErr.
Proof.
  intros Hl Hc Hpre Ev Hvp Hv. unfold build_block. rewrite Hl. cbn [bind].
  assert (B : build_instances pv tb (lpre ++ b :: lpost) = Err KeyErr).
  { clear Hl Hc. induction Hpre as [|b0 lpre' (w & Hw) _ IH]; cbn [app build_instances].
    - rewrite Ev, (build_vars_missing pv b vpre v vpost Hvp Hv). reflexivity.
    - apply build_vars_layout in Hw. rewrite Hw. cbn [bind]. rewrite IH. reflexivity. }
  destruct (tb_type tb) as [[]|]; cbn [bind].
  - rewrite B. reflexivity.
  - rewrite Hc, Z.eqb_refl. cbn [bind]. rewrite B. reflexivity.
  - assert (P : exists w, pack_int pv BE false 1 (zlen (lpre ++ b :: lpost)) = Ok w).
    { exists [chr (zlen (lpre ++ b :: lpost))]. apply count_layout; [apply zlen_nonneg|].
      eexists. split; [reflexivity|]. split; [apply ord_chr|exact Hc]. }
    destruct P as (w & ->). cbn [bind]. rewrite B. reflexivity.
  - rewrite B. reflexivity.
Qed.
Lemma layout_block pv d x m t w tb : get_template d (m_name m) = Some t -> serialize pv d x m = Ok (Some w) ->
  In tb (t_blocks t) -> exists bw, block_layout pv tb m bw.
Proof.
  intros Ht H Hin. apply serialize_layout in H. destruct H as (t' & fl & id & num & ws & tl & Ht' & _ & _ & _ & _ & _ & _ & _ & _ & F & _).
  rewrite Ht in Ht'. injection Ht' as <-. apply In_nth_error in Hin as (k & Hk).
  clear -F Hk. revert k Hk. induction F as [|tb0 w0 tbs ws H F IH]; intros [|k] Hk; cbn in Hk; try discriminate; [injection Hk as <-; eauto|eauto].
Qed.
Lemma Forall2_in {A B} (R : A -> B -> Prop) l l' a : Forall2 R l l' -> In a l -> exists b, In b l' /\ R a b.
Proof. induction 1 as [|x y l l' H F IH]; [intros []|]. intros [->|Hin]; [exists y; cbn; auto|destruct (IH Hin) as (b & ? & ?); exists b; cbn; auto]. Qed.
Lemma count_byte pv d x m t w tb l : get_template d (m_name m) = Some t -> serialize pv d x m = Ok (Some w) ->
  In tb (t_blocks t) -> tb_type tb = Some MBT_VARIABLE -> get_block (m_blocks m) (tb_name tb) = Ok l ->
  exists before c ws after, w = before ++ [c] ++ List.concat ws ++ after /\ byte_value c = zlen l mod 256 /\
    Forall2 (instance_layout pv tb) l ws /\ (pv = Py27 -> zlen l <= 255).
Proof.
  intros Ht H Hin Hv Hl. apply serialize_layout in H.
  destruct H as (t' & fl & id & num & ws & tl & Ht' & _ & -> & _ & _ & _ & _ & _ & _ & F & _).
  rewrite Ht in Ht'. injection Ht' as <-. apply in_split in Hin as (pre & post & Eb). rewrite Eb in F.
  apply Forall2_app_inv_l in F as (ws1 & ws2 & _ & F & ->). inversion F as [|? bw ? ws3 Hb _ E1 E2]; subst.
  destruct Hb as (l' & count & iws & Hl' & -> & Hc & Hi). rewrite Hl in Hl'. injection Hl' as <-. rewrite Hv in Hc.
  destruct Hc as (c & -> & Hc & Hw). exists ([fl] ++ id ++ [x00] ++ num ++ List.concat ws1), c, iws, (List.concat ws3 ++ tl).
  split. { rewrite concat_app. cbn. repeat (rewrite <- app_assoc; cbn). reflexivity. }
  split; [exact Hc|]. split; [exact Hi|]. intros ->. destruct Hw as [Hw|Hw]; [discriminate|]. cbn in Hw. lia.
Qed.
Lemma py26_silent m tb l ws : tb_type tb = Some MBT_VARIABLE -> get_block (m_blocks m) (tb_name tb) = Ok l ->
  Forall2 (instance_layout Py26 tb) l ws -> block_layout Py26 tb m (chr (zlen l mod 256) :: List.concat ws).
Proof.
  intros Ht Hl Hi. exists l, [chr (zlen l mod 256)], ws. split; [exact Hl|]. split; [reflexivity|]. split; [|exact Hi]. rewrite Ht.
  eexists. split; [reflexivity|]. split; [|now left]. change byte_value with ord. rewrite ord_chr. apply Z.mod_mod. lia.
Qed.
Lemma single_unchecked pv m tb l ws : tb_type tb = Some MBT_SINGLE -> get_block (m_blocks m) (tb_name tb) = Ok l ->
  Forall2 (instance_layout pv tb) l ws -> block_layout pv tb m (List.concat ws).
Proof. intros Ht Hl Hi. exists l, [], ws. rewrite Ht. auto. Qed.
Lemma sent_counts pv d x m t w tb : get_template d (m_name m) = Some t -> serialize pv d x m = Ok (Some w) ->
  In tb (t_blocks t) ->
  exists l, get_block (m_blocks m) (tb_name tb) = Ok l /\
    (tb_type tb = Some MBT_MULTIPLE -> zlen l = tb_number tb) /\
    forall b v, In b l -> In v (tb_vars tb) -> exists y, block_getitem b (tv_name v) = Ok y.
Proof.
  intros Ht H Hin. destruct (layout_block pv d x m t w tb Ht H Hin) as (bw & l & count & ws & Hl & _ & Hc & Hi).
  exists l. split; [exact Hl|]. split; [intros E; rewrite E in Hc; tauto|].
  intros b v Hb Hv. destruct (Forall2_in _ _ _ _ Hi Hb) as (iw & _ & fws & _ & F).
  destruct (Forall2_in _ _ _ _ F Hv) as (fw & _ & y & Hy & _). eauto.
Qed.
Lemma decoded_one pv ts c handled buf m t tb :
  build_dict pv ts = Ok (dc_dict c) -> Forall sized ts -> dc_handled c = Some handled ->
  deserialize c buf = Ok (Some m) -> carries (dc_dict c) buf t -> NoDup (map tb_name (t_blocks t)) ->
  In tb (t_blocks t) -> exists l, decoded_count tb (zlen l) /\ get_block (m_blocks m) (tb_name tb) = if zlen l =? 0 then Err KeyErr else Ok l.
Proof.
  intros Hbd Hsz Hh H Hc Hnd Hin. destruct (decoded_blocks pv ts c handled buf m Hbd Hsz Hh H) as (t' & Hc' & _ & Hb & _).
  rewrite <- (carries_fun _ _ _ _ Hc Hc') in Hb. destruct (Hb Hnd tb Hin) as (w & l & _ & Hd & Hg). eauto.
Qed.
Lemma at_most_255 pv ts c handled buf m' t tb l :
  build_dict pv ts = Ok (dc_dict c) -> Forall sized ts -> dc_handled c = Some handled ->
  deserialize c buf = Ok (Some m') -> carries (dc_dict c) buf t -> NoDup (map tb_name (t_blocks t)) ->
  In tb (t_blocks t) -> tb_type tb = Some MBT_VARIABLE -> get_block (m_blocks m') (tb_name tb) = Ok l -> 1 <= zlen l <= 255.
Proof.
  intros Hbd Hsz Hh H Hc Hnd Hin Ht Hl. destruct (decoded_one _ _ _ _ _ _ _ _ Hbd Hsz Hh H Hc Hnd Hin) as (l' & Hd & Hg).
  unfold decoded_count in Hd. rewrite Ht in Hd. rewrite Hl in Hg. destruct (zlen l' =? 0) eqn:E; [discriminate|]. injection Hg as ->. lia.
Qed.
Lemma single_decoded pv ts c handled buf m t tb :
  build_dict pv ts = Ok (dc_dict c) -> Forall sized ts -> dc_handled c = Some handled ->
  deserialize c buf = Ok (Some m) -> carries (dc_dict c) buf t -> NoDup (map tb_name (t_blocks t)) ->
  In tb (t_blocks t) -> tb_type tb = Some MBT_SINGLE -> exists b, get_block (m_blocks m) (tb_name tb) = Ok [b].
Proof.
  intros Hbd Hsz Hh H Hc Hnd Hin Ht. destruct (decoded_one _ _ _ _ _ _ _ _ Hbd Hsz Hh H Hc Hnd Hin) as (l' & Hd & Hg).
  unfold decoded_count in Hd. rewrite Ht in Hd. rewrite Hd in Hg. destruct l' as [|b [|b' l']]; [discriminate|exists b; exact Hg|].
  rewrite !zlen_cons in Hd. pose proof (zlen_nonneg l'). lia.
Qed.
Lemma failure_kinds buf e : header_failure buf e -> e = IndexErr \/ e = StructError.
Proof. intros [H|f tl l c H|f tl tr ids H|p tr ids e0 Hu (six & _ & [[-> _]|[-> _]])]; auto. Qed.
Lemma seven_bytes c six : zlen six = 6 -> bit (hd x00 six) zero_bit = false -> bit (hd x00 six) ack_bit = false ->
  deserialize c (six ++ [xff]) = Err IndexErr.
Proof.
  intros H6 Hz Ha. apply failure_eq. apply (hf_number _ (six ++ [xff]) [] []).
  - destruct six as [|f six]; [discriminate|]. cbn [hd] in Hz, Ha. exists f, (six ++ [xff]), (f :: six ++ [xff]).
    rewrite app_nil_r, Hz, Ha. auto.
  - exists six. split; [exact H6|]. left. auto.
Qed.
Lemma ack_trailer_for ids : zlen ids <= 255 -> Forall (fun i => 0 <= i < 2 ^ 32) ids -> exists tr, ack_trailer tr ids.
Proof.
  intros Hl F. exists (List.concat (map (le_bytes 4) ids) ++ [chr (zlen ids)]), (map (le_bytes 4) ids), (chr (zlen ids)).
  split; [reflexivity|]. split. { change byte_value with ord. rewrite ord_chr. pose proof (zlen_nonneg ids). lia. }
  clear Hl. induction F as [|i ids Hi F IH]; [constructor|]. cbn [map]. constructor; [|exact IH]. split; [reflexivity|].
  rewrite value_lsb_le, le_val_le_bytes. apply Z.mod_small. exact Hi.
Qed.
Lemma serialize_only pv d x m m' : m_name m = m_name m' -> m_blocks m = m_blocks m' -> m_flags m = m_flags m' -> m_id m = m_id m' ->
  serialize pv d x m = serialize pv d x m'.
Proof.
  intros Hn Hb Hf Hi. unfold serialize. rewrite Hn, Hf, Hi.
  assert (E : forall tbs, build_blocks pv tbs m = build_blocks pv tbs m').
  { induction tbs as [|tb tbs IH]; [reflexivity|]. cbn [build_blocks]. unfold build_block. rewrite Hb, IH. reflexivity. }
  destruct (get_template d (m_name m')) as [t|]; [|reflexivity]. now rewrite E.
Qed.
Lemma serialize_unknown pv d x m : get_template d (m_name m) = None -> serialize pv d x m = Err AttributeErr.
Proof. intros H. unfold serialize. now rewrite H. Qed.
Lemma layout_fun pv d x m w w' : packet_layout pv d x m w -> packet_layout pv d x m w' -> w = w'.
Proof. intros H H'. apply serialize_layout in H, H'. congruence. Qed.
