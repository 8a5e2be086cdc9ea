(** Zero-coding, acks, message.xml, deferred parsing, extra header bytes
    (C13, C14, C16, C17, C20). *)
From Verif Require Import Deserializer Serializer SpecCodec SpecWire SpecLayout Lib CodecProofs FieldProofs HeaderProofs ZeroProofs LayoutProofs DecodeProofs PacketProofs PacketMore.

(** ** Flag arithmetic *)
Lemma bits_plus fl fl' k : In k [4; 7] -> bit fl k = false -> ord fl' = ord fl + 2 ^ k ->
  bit fl' k = true /\ forall j, j <> k -> bit fl' j = bit fl j.
Proof.
  intros Hk Hb Ho. unfold bit. change byte_value with ord. rewrite Ho. unfold bit in Hb. change byte_value with ord in Hb.
  assert (E : ord fl + 2 ^ k = Z.lor (ord fl) (2 ^ k)).
  { rewrite <- Z.lxor_lor, <- Z.add_nocarry_lxor; [reflexivity| |];
      apply Z.bits_inj'; intros j Hj; rewrite Z.land_spec, Z.bits_0; rewrite Z.pow2_bits_eqb by (cbn in Hk; lia);
      destruct (Z.eqb_spec k j) as [<-|]; rewrite ?Hb, ?andb_false_r, ?andb_false_l; reflexivity. }
  rewrite E. split.
  - rewrite Z.lor_spec, Z.pow2_bits_true by (cbn in Hk; lia). apply orb_true_r.
  - intros j Hj. rewrite Z.lor_spec, Z.pow2_bits_eqb by (cbn in Hk; lia).
    destruct (Z.eqb_spec k j); [congruence|]. apply orb_false_r.
Qed.

(** ** Changing the first byte *)
Lemma decode_template_head d a a' s : decode_template d (a :: s) = decode_template d (a' :: s).
Proof.
  unfold decode_template, PACKET_ID_LENGTH. rewrite !zlen_cons. destruct (1 + zlen s <=? 6); [reflexivity|].
  rewrite !pyslice_pos by lia. reflexivity.
Qed.
Lemma decode_blocks_pre pre pre' s tbs d k : Forall pos_block tbs -> zlen pre = zlen pre' -> 0 <= k ->
  decode_blocks (pre ++ s) tbs d (zlen pre + k) = decode_blocks (pre' ++ s) tbs d (zlen pre + k).
Proof. intros Hb Hl Hk. rewrite decode_blocks_shift by auto. rewrite Hl, decode_blocks_shift by auto. reflexivity. Qed.
Lemma decode_blocks_six a b s tbs d k : Forall pos_block tbs -> 6 <= zlen s + 1 -> 0 <= k ->
  decode_blocks (a :: s) tbs d (6 + k) = decode_blocks (b :: s) tbs d (6 + k).
Proof.
  intros Hb Hl Hk. rewrite <- (firstn_skipn 5 s).
  change (a :: firstn 5 s ++ skipn 5 s) with ((a :: firstn 5 s) ++ skipn 5 s).
  change (b :: firstn 5 s ++ skipn 5 s) with ((b :: firstn 5 s) ++ skipn 5 s).
  assert (L : forall x, zlen (x :: firstn 5 s) = 6).
  { intros x. rewrite zlen_cons. unfold zlen in *. rewrite firstn_length. lia. }
  pose proof (decode_blocks_pre (a :: firstn 5 s) (b :: firstn 5 s) (skipn 5 s) tbs d k Hb (eq_trans (L a) (eq_sym (L b))) Hk) as P.
  rewrite L in P. exact P.
Qed.
Lemma decode_data_head t f fl fl' s tr ids k : Forall pos_block (t_blocks t) -> t_freq t = Some f -> 6 <= zlen s + 1 ->
  In k [4; 7] -> bit fl k = false -> ord fl' = ord fl + 2 ^ k -> k = 7 ->
  (if bit fl ack_bit then ack_trailer tr ids else tr = [] /\ ids = []) ->
  decode_data t ((fl' :: s) ++ tr) = res_map (option_map (reflagged (ord fl') ids)) (decode_data t ((fl :: s) ++ tr)).
Proof.
  intros Hb Hf Hl Hk Hz Ho -> Ht. destruct (bits_plus fl fl' 7 Hk Hz Ho) as [B1 B2].
  destruct (six_split (fl :: s)) as (flags & id & off & after & Eh & Hid); [rewrite zlen_cons; lia|].
  injection Eh as <- Es.
  rewrite (decode_data_eq t f fl' id off after tr ids (fl' :: s)), (decode_data_eq t f fl id off after tr ids (fl :: s)); auto;
    try congruence.
  - rewrite (B2 reliable_bit) by (cbv; congruence).
    cbn [app]. rewrite <- !Z.add_assoc.
    rewrite (decode_blocks_six fl' fl) by (auto; try (rewrite zlen_app; pose proof (zlen_nonneg tr); lia);
      pose proof (ord_range off); destruct f; cbn [number_width]; lia).
    destruct (decode_blocks (fl :: s ++ tr) (t_blocks t) [] _) as [[[d p]|]|e]; cbn [bind res_map option_map]; try reflexivity.
    destruct (_ && _)%bool; reflexivity.
  - rewrite (B2 ack_bit) by (cbv; congruence). exact Ht.
Qed.
Lemma finish_map g r : finish (res_map (option_map g) r) = res_map (option_map g) (finish r).
Proof. destruct r as [[m|]|[]]; reflexivity. Qed.

(** ** C13 *)
Lemma zero_coded_same pv ts c fl fl' id off ex q s tr ids :
  build_dict pv ts = Ok (dc_dict c) -> Forall sized ts ->
  bit fl zero_bit = false -> byte_value fl' = byte_value fl + 128 ->
  zlen id = 4 -> zlen ex = byte_value off -> zero_coded s q ->
  (if bit fl ack_bit then ack_trailer tr ids else tr = [] /\ ids = []) ->
  deserialize c ((fl' :: id ++ off :: ex ++ s) ++ tr) =
  res_map (option_map (reflagged (byte_value fl') ids)) (deserialize c ((fl :: id ++ off :: ex ++ q) ++ tr)).
Proof.
  intros Hbd Hsz Hz Ho Hid Hex Hzc Ht. pose proof (built_wf _ _ _ Hbd Hsz) as Hwf.
  change byte_value with ord in *.
  destruct (bits_plus fl fl' 7 ltac:(cbn; auto) Hz Ho) as [B1 B2].
  assert (U0 : unwrapped ((fl :: id ++ off :: ex ++ q) ++ tr) (fl :: id ++ off :: ex ++ q) tr ids).
  { exists fl, (id ++ off :: ex ++ q), (fl :: id ++ off :: ex ++ q). split; [reflexivity|]. split; [reflexivity|]. split; [exact Ht|].
    now rewrite Hz. }
  assert (U1 : unwrapped ((fl' :: id ++ off :: ex ++ s) ++ tr) (fl' :: id ++ off :: ex ++ q) tr ids).
  { exists fl', (id ++ off :: ex ++ s), (fl' :: id ++ off :: ex ++ s). split; [reflexivity|]. split; [reflexivity|]. split.
    - rewrite (B2 ack_bit) by (cbv; congruence). exact Ht.
    - change zero_bit with 7. rewrite B1. exists off.
      assert (L : List.length id = 4%nat) by (unfold zlen in Hid; lia).
      split.
      + change (fl' :: id ++ off :: ex ++ s) with ((fl' :: id) ++ off :: ex ++ s).
        rewrite nth_error_app2 by (cbn; lia). cbn [List.length]. rewrite L. reflexivity.
      + cbv zeta. exists q. change byte_value with ord.
        assert (E : fl' :: id ++ off :: ex ++ s = (fl' :: id ++ off :: ex) ++ s) by (cbn; rewrite <- app_assoc; reflexivity).
        assert (Lp : Z.to_nat (6 + ord off) = List.length (fl' :: id ++ off :: ex)).
        { cbn [List.length]. rewrite app_length. cbn [List.length]. unfold zlen in *. pose proof (ord_range off). lia. }
        rewrite E, Lp, skipn_app, skipn_all, Nat.sub_diag, firstn_app, firstn_all, Nat.sub_diag. cbn [skipn firstn app]. rewrite app_nil_r.
        split; [rewrite <- (zero_coded_expand s q Hzc); apply expansion_ok|]. rewrite <- app_assoc. reflexivity. }
  rewrite (deserialize_unwrapped c _ _ _ _ U0), (deserialize_unwrapped c _ _ _ _ U1).
  rewrite (decode_template_head _ fl' fl).
  destruct (decode_template (dc_dict c) (fl :: id ++ off :: ex ++ q)) as [[t|]|e] eqn:Et; cbn [bind]; try reflexivity.
  cbn [rest_of]. destruct (validate_udp_msg (dc_xml c) (t_name t)) as [[]|e]; cbn [bind negb]; try reflexivity.
  destruct (dc_handled c) as [h|]; [|reflexivity]. destruct (h (t_name t) || negb (dc_deferred c))%bool; [|reflexivity].
  rewrite <- finish_map. f_equal.
  assert (G : exists f n, get_template_by_pair (dc_dict c) (Some f) n = Some t).
  { unfold decode_template in Et. destruct (_ <=? _); [discriminate|]. unfold decode_header in Et. inv_bind Et. inv_bind Et.
    injection Et as Et. eauto. }
  destruct G as (f & n & G). destruct (Hwf f n t G) as [Hf Hb].
  apply (decode_data_head t f fl fl' _ tr ids 7); auto; [|cbn; auto].
  rewrite !zlen_app, zlen_cons, !zlen_app. pose proof (zlen_nonneg ex). pose proof (zlen_nonneg q). lia.
Qed.

(** ** C14 *)
Lemma unwrapped_fun buf plain tr ids plain' tr' ids' : unwrapped buf plain tr ids -> unwrapped buf plain' tr' ids' ->
  plain = plain' /\ tr = tr' /\ ids = ids'.
Proof.
  intros Hu Hu'. pose proof (unwrapped_ok _ _ _ _ Hu) as (a & Hs & He). pose proof (unwrapped_ok _ _ _ _ Hu') as (a' & Hs' & He').
  rewrite Hs in Hs'. injection Hs' as <- <-. rewrite He in He'. injection He' as <-. split; [reflexivity|]. split; [reflexivity|].
  destruct Hu as (f & tl & cd & -> & _ & Ht & _). destruct Hu' as (f' & tl' & cd' & E & _ & Ht' & _).
  injection E as <- _. destruct (bit f ack_bit).
  - eapply ack_trailer_fun; eauto.
  - destruct Ht as [_ ->], Ht' as [_ ->]. reflexivity.
Qed.
Lemma add_acks_unwrapped f f' tl tr ids plain : bit f ack_bit = false -> byte_value f' = byte_value f + 16 ->
  ack_trailer tr ids -> unwrapped (f :: tl) plain [] [] ->
  exists r, plain = f :: r /\ unwrapped ((f' :: tl) ++ tr) (f' :: r) tr ids.
Proof.
  intros Ha Ho Ht Hu. change byte_value with ord in Ho. destruct (bits_plus f f' 4 ltac:(cbn; auto) Ha Ho) as [B1 B2].
  pose proof (unwrapped_ok _ _ _ _ Hu) as (a & Hs & He). rewrite strip_plain in Hs by exact Ha. injection Hs as <-.
  destruct (expand_head f tl plain He) as (r & ->). exists r. split; [reflexivity|].
  exists f', tl, (f' :: tl). split; [reflexivity|]. split; [reflexivity|]. change ack_bit with 4. rewrite B1. split; [exact Ht|].
  apply expand_ok in He. rewrite (B2 zero_bit) by (cbv; congruence).
  destruct (bit f zero_bit).
  - destruct He as (o & Ho' & p & Hx & Ep). exists o. split; [exact Ho'|]. cbv zeta.
    change byte_value with ord in *. pose proof (ord_range o).
    destruct (Z.to_nat (6 + ord o)) as [|k] eqn:Ek; [lia|]. cbn [skipn firstn] in *. exists p. split; [exact Hx|].
    cbn in Ep. injection Ep as ->. reflexivity.
  - congruence.
Qed.
Lemma acked_same pv ts c handled f f' tl tr ids m :
  build_dict pv ts = Ok (dc_dict c) -> Forall sized ts -> dc_handled c = Some handled ->
  bit f ack_bit = false -> byte_value f' = byte_value f + 16 -> ack_trailer tr ids ->
  deserialize c (f :: tl) = Ok (Some m) ->
  deserialize c ((f' :: tl) ++ tr) = Ok (Some (reflagged (byte_value f') ids m)).
Proof.
  intros Hbd Hsz Hh Ha Ho Ht H. apply (deserialize_says pv ts c handled _ _ Hbd Hsz Hh) in H.
  apply (deserialize_says pv ts c handled _ _ Hbd Hsz Hh).
  destruct H as (plain & tr0 & ids0 & t & g & n & h & rest0 & Hu & (six & Ep & E6) & Hn & Hc & Hg & Hal & Hw &
      flags & id & off & after & body & rest & bs & Eh & Hid & Hsk & Hr & Hne & Hname & Hfl & Hidv & Hbl & Hac & Hna & Hrel & Heq & Htr & Hre).
  assert (X : tr0 = [] /\ ids0 = []).
  { destruct Hu as (f0 & tl0 & cd & E & _ & Ht0 & _). injection E as <- _. now rewrite Ha in Ht0. }
  destruct X as [-> ->]. rewrite app_nil_r in *.
  destruct (add_acks_unwrapped f f' tl tr ids plain Ha Ho Ht Hu) as (r & -> & Hu').
  change byte_value with ord in Ho. destruct (bits_plus f f' 4 ltac:(cbn; auto) Ha Ho) as [B1 B2].
  injection Eh as <- Er.
  exists (f' :: r), tr, ids, t, g, n, h, rest0. split; [exact Hu'|].
  split. { destruct six as [|x six]; [discriminate|]. injection Ep as <- Ep. exists (f' :: six). split; [cbn; congruence|]. rewrite zlen_cons in *. exact E6. }
  split; [exact Hn|]. split; [exact Hc|]. split; [exact Hg|]. split; [exact Hal|]. split; [exact Hw|].
  assert (K : exists rest', skipn (Z.to_nat (6 + number_width g + byte_value off)) ((f' :: r) ++ tr) = body ++ rest').
  { change byte_value with ord in *. pose proof (ord_range off).
    destruct (Z.to_nat (6 + number_width g + ord off)) as [|k] eqn:Ek; [destruct g; cbn [number_width] in Ek; lia|].
    cbn [skipn app] in Hsk |- *. rewrite skipn_app.
    destruct (le_lt_dec k (List.length r)) as [L|L].
    - rewrite Hsk. replace (k - List.length r)%nat with 0%nat by lia. cbn [skipn]. exists (rest ++ tr). now rewrite app_assoc.
    - rewrite skipn_all2 in Hsk by lia. symmetry in Hsk. apply app_eq_nil in Hsk as [-> _].
      exists (skipn (k - List.length r) tr). rewrite skipn_all2 by lia. reflexivity. }
  destruct K as (rest' & K).
  exists f', id, off, (after ++ tr), body, rest', bs. split.
  { cbn. rewrite Er, <- app_assoc. reflexivity. }
  split; [exact Hid|]. split; [exact K|]. split; [exact Hr|]. split; [exact Hne|].
  cbn -[bit byte_value]. repeat split; try assumption; try reflexivity. rewrite Hrel. symmetry. apply B2. cbv; congruence.
Qed.
Lemma acked_ids pv ts c handled f tl tr ids m :
  build_dict pv ts = Ok (dc_dict c) -> Forall sized ts -> dc_handled c = Some handled ->
  bit f ack_bit = true -> ack_trailer tr ids ->
  deserialize c ((f :: tl) ++ tr) = Ok (Some m) -> m_acks m = ids /\ m_num_acks m = zlen ids.
Proof.
  intros Hbd Hsz Hh Ha Ht H. apply (deserialize_says pv ts c handled _ _ Hbd Hsz Hh) in H.
  destruct H as (plain & tr0 & ids0 & t & g & n & h & rest0 & Hu & _ & _ & _ & _ & _ & _ & flags & id & off & after & body & rest & bs &
     _ & _ & _ & _ & _ & _ & _ & _ & _ & Hac & Hna & _).
  destruct Hu as (f0 & tl0 & cd & E & _ & Ht0 & _). injection E as <- E. rewrite Ha in Ht0.
  assert (ids0 = ids); [|subst; auto].
  assert (L : zlen tr = zlen tr0 /\ tr = tr0).
  { destruct (ack_trailer_last tr ids Ht) as (w & c0 & -> & Hc0 & Lw). destruct (ack_trailer_last tr0 ids0 Ht0) as (w' & c1 & -> & Hc1 & Lw').
    rewrite !app_assoc in E. apply app_inj_tail in E as [E ->]. rewrite Hc0 in Hc1.
    assert (w = w'); [|subst; auto]. assert (LL : List.length w = List.length w') by (unfold zlen in *; lia).
    apply (f_equal (@rev byte)) in E. rewrite !rev_app_distr in E. apply app_inj_zlen in E as [E _].
    - rewrite <- (rev_involutive w), E. apply rev_involutive.
    - rewrite !zlen_rev. unfold zlen. lia. }
  destruct L as [_ <-]. eapply ack_trailer_fun; eauto.
Qed.
(** Adding acks does not change which template a datagram carries. *)
Lemma acked_carries d f f' tl tr ids t : bit f ack_bit = false -> byte_value f' = byte_value f + 16 -> ack_trailer tr ids ->
  (carries d (f :: tl) t <-> carries d ((f' :: tl) ++ tr) t).
Proof.
  intros Ha Ho Ht. split.
  - intros (plain & tr0 & ids0 & six & h & rest & g & n & Hu & Ep & H6 & H).
    assert (X : tr0 = [] /\ ids0 = []).
    { destruct Hu as (f0 & tl0 & cd & E & _ & Ht0 & _). injection E as <- _. now rewrite Ha in Ht0. }
    destruct X as [-> ->]. destruct (add_acks_unwrapped f f' tl tr ids plain Ha Ho Ht Hu) as (r & -> & Hu').
    destruct six as [|x six]; [discriminate|]. injection Ep as <- Ep.
    exists (f' :: r), tr, ids, (f' :: six), h, rest, g, n. split; [exact Hu'|]. split; [cbn; congruence|]. rewrite zlen_cons in *. auto.
  - intros (plain & tr0 & ids0 & six & h & rest & g & n & Hu & Ep & H6 & H).
    change byte_value with ord in Ho. destruct (bits_plus f f' 4 ltac:(cbn; auto) Ha Ho) as [B1 B2].
    pose proof (unwrapped_ok _ _ _ _ Hu) as (a & Hs & He). rewrite (strip_acked f' tl tr ids B1 Ht) in Hs. injection Hs as <- <-.
    destruct (expand_head f' tl plain He) as (r & ->). destruct six as [|x six]; [discriminate|]. injection Ep as <- Ep.
    exists (f :: r), [], [], (f :: six), h, rest, g, n. split.
    + exists f, tl, (f :: tl). rewrite app_nil_r, Ha. split; [reflexivity|]. split; [reflexivity|]. split; [auto|].
      apply expand_ok in He. rewrite (B2 zero_bit) in He by (cbv; congruence). destruct (bit f zero_bit).
      * destruct He as (o & Ho' & p & Hx & Ep'). exists o. split; [exact Ho'|]. cbv zeta in *.
        change byte_value with ord in *. pose proof (ord_range o).
        destruct (Z.to_nat (6 + ord o)) as [|k] eqn:Ek; [lia|]. cbn [skipn firstn] in *. exists p. split; [exact Hx|].
        cbn in Ep'. injection Ep' as ->. reflexivity.
      * congruence.
    + split; [cbn; congruence|]. rewrite zlen_cons in *. auto.
Qed.
