(** Lemmas for C103: datagrams that announce acks without having any. *)
From Verif Require Import Lib SpecMessages MessageProofs EventsProofs HeaderProofs LayoutProofs PacketProofs PacketMore PacketForms PacketRules DispatchProofs DispatchMore.
From Verif Require Import SpecGreenlets GreenletProofs GreenletAcks GreenletMore.
From Verif Require Import SpecFloats CodecProofs SpecRoundTrip RoundTripProofs Prop_RoundTrip CopiesProofs SpecCrowd CrowdProofs.
From Verif Require Import SpecLayout SpecRoundTrip.
Open Scope Z_scope.
Open Scope list_scope.

(** What becomes of a datagram that announces acks but has none: its last byte is
    taken for their number. *)
Lemma trailer_len w ids : ack_trailer w ids -> exists l b, w = l ++ [b] /\ zlen w = 1 + 4 * byte_value b.
Proof.
  intros (ws & c & -> & BC & F). exists (List.concat ws), c. split; [reflexivity|]. rewrite zlen_app, BC. change (zlen [c]) with 1.
  assert (zlen (List.concat ws) = 4 * zlen ids) as ->; [|lia]. clear BC.
  induction F as [|a i ws ids [L _] F IH]; [reflexivity|]. cbn [List.concat]. rewrite zlen_app, zlen_cons, L, IH. lia.
Qed.
Lemma last_same (l l' : bytes) b b' : l ++ [b] = l' ++ [b'] -> b = b'.
Proof. intros E. apply app_inj_tail in E. tauto. Qed.
Lemma prefix_cut (a b c e : bytes) : a ++ b = c ++ e -> zlen a <= zlen c -> exists r, c = a ++ r /\ b = r ++ e.
Proof.
  revert c. induction a as [|x a IH]; intros c E L; [exists c; auto|].
  destruct c as [|y c]; [rewrite zlen_cons in L; change (zlen (@nil Byte.byte)) with 0 in L; pose proof (zlen_nonneg a); lia|].
  cbn in E. injection E as -> E. rewrite !zlen_cons in L. destruct (IH c E ltac:(lia)) as (r & -> & ->). exists r. auto.
Qed.
Lemma announced_fate pv ts c handled f f' tl m t g l b :
  build_dict pv ts = Ok (dc_dict c) -> Forall sized ts -> NoDup (map t_name ts) -> dc_handled c = Some handled ->
  bit f ack_bit = false -> bit f zero_bit = false -> byte_value f' = byte_value f + 16 ->
  deserialize c (f :: tl) = Ok (Some m) -> In t ts -> m_name m = t_name t -> t_freq t = Some g -> f' :: tl = l ++ [b] ->
  if 7 + number_width g + 4 * byte_value b <=? zlen (f' :: tl)
  then exists m', deserialize c (f' :: tl) = Ok (Some m')
  else exists e, In e [IndexErr; StructError; MessageDeserializationErr] /\ deserialize c (f' :: tl) = Err e.
Proof.
  intros Hbd Hsz ND Hh Ha Hz Ho H IT NM TF EL. pose proof Hbd as Hbd'. apply (deserialize_says pv ts c handled _ _ Hbd Hsz Hh) in H.
  change byte_value with ord in Ho. destruct (bits_plus f f' 4 ltac:(cbn; auto) Ha Ho) as [B1 B2].
  destruct H as (plain & tr0 & ids0 & t0 & g0 & n & h & rest0 & Hu & (six & Ep & E6) & Hn & Hc & Hg & Hal & Hw &
      flags & id & off & after & body & rest & bs & Eh & Hid & Hsk & Hr & Hne & Hname & Hfl & Hidv & Hbl & Hac & Hna & Hrel & Heq & Htr & Hre).
  assert (g0 = g) as ->.
  { destruct (built_wf _ _ _ Hbd Hsz _ _ _ Hg) as (F0 & _). destruct (build_dict_sound pv ts _ Hbd) as [_ W].
    destruct (W _ _ _ Hg) as (t1 & I1 & S1 & _). destruct S1 as (S1 & S2 & _).
    assert (t1 = t) as -> by (apply (nodup_name ts); auto; congruence). congruence. }
  destruct Hu as (f0 & tl0 & cd & E & Ec & Ht0 & Hz0). injection E as <- E.
  rewrite Ha in Ht0. destruct Ht0 as [-> ->]. rewrite Hz, Ec in Hz0. rewrite app_nil_r in *. subst tl0 cd plain.
  pose proof (wire_number_len _ _ _ Hn) as WL. change byte_value with ord in *.
  assert (zlen six + zlen h + zlen rest0 = zlen (f :: tl)) as LL by (rewrite Ep, !zlen_app; lia).
  destruct six as [|s0 six]; [discriminate|]. injection Ep as <- Ep.
  destruct (strip_cases f' tl) as [(_ & l0 & c0 & E0 & L0 & S0)|(tl' & tr & ids & E0 & S0 & T0)].
  - rewrite EL in E0. apply last_same in E0 as <-. destruct (Z.leb_spec (7 + number_width g + 4 * ord b) (zlen (f' :: tl))); [destruct g; cbn [number_width] in *; lia|].
    exists IndexErr. split; [now left|]. unfold deserialize. rewrite S0. reflexivity.
  - change (bit f' ack_bit) with (bit f' 4) in T0. rewrite B1 in T0. destruct (trailer_len _ _ T0) as (l1 & b1 & E1 & L1).
    assert (b1 = b) as ->. { rewrite EL, E1, app_assoc in E0. now apply last_same in E0. }
    assert (unwrapped (f' :: tl) (f' :: tl') tr ids) as Hu.
    { exists f', tl', (f' :: tl'). change (bit f' ack_bit) with (bit f' 4). rewrite B1. split; [exact E0|]. split; [reflexivity|]. split; [exact T0|].
      rewrite (B2 zero_bit) by (cbv; congruence). now rewrite Hz. }
    assert (zlen (f' :: tl) = zlen (f' :: tl') + (1 + 4 * ord b)) as LT by (rewrite E0, zlen_app, L1; reflexivity).
    pose proof E0 as E0'. cbn [app] in E0'. injection E0' as E0'. rewrite Ep in E0'.
    destruct (Z.leb_spec (7 + number_width g + 4 * ord b) (zlen (f' :: tl))) as [LE|GT].
    + assert (zlen (six ++ h) <= zlen tl') as LS by (rewrite zlen_app; rewrite !zlen_cons in *; lia).
      rewrite app_assoc in E0'. destruct (prefix_cut _ _ _ _ E0' LS) as (r & -> & ER).
      exists (reflagged (ord f') ids m). apply (deserialize_says pv ts c handled _ _ Hbd Hsz Hh).
      exists (f' :: (six ++ h) ++ r), tr, ids, t0, g, n, h, r. split; [exact Hu|]. split.
      { exists (f' :: six). split; [cbn; now rewrite <- app_assoc|]. rewrite zlen_cons in *. exact E6. }
      split; [exact Hn|]. split; [exact Hc|]. split; [exact Hg|]. split; [exact Hal|]. split; [exact Hw|].
      cbn [app] in E0. injection E0 as E0.
      injection Eh as <- Er. exists f', id, off, after, body, rest, bs. cbn [app]. rewrite <- E0.
      split; [now rewrite Er|]. split; [exact Hid|].
      split.
      { rewrite <- Hsk. change byte_value with ord. pose proof (ord_range off).
        destruct (Z.to_nat (6 + number_width g + ord off)) as [|k] eqn:Ek; [destruct g; cbn [number_width] in Ek; lia|]. reflexivity. }
      split; [exact Hr|]. split; [exact Hne|].
      cbn -[bit byte_value]. repeat split; try assumption; try reflexivity. rewrite Hrel. symmetry. apply B2. cbv; congruence.
    + destruct (Z_le_gt_dec (zlen (f' :: tl')) 6) as [LS|GS].
      { exists MessageDeserializationErr. split; [cbn; auto|]. rewrite (deserialize_unwrapped c _ _ _ _ Hu), (decode_template_tiny _ _ LS). reflexivity. }
      destruct (header_cases (f' :: tl')) as [(e & SH)|(six1 & h1 & r1 & g1 & n1 & E2 & L6 & N1 & C1)]; [lia| |].
      * exists e. split; [destruct SH as (? & _ & [[-> _]|[-> _]]); cbn; auto|]. rewrite (deserialize_unwrapped c _ _ _ _ Hu), (decode_template_short _ _ _ SH). reflexivity.
      * exfalso. assert ((f' :: six) ++ h ++ rest0 = six1 ++ h1 ++ (r1 ++ tr)) as E3.
        { cbn [app]. rewrite <- Ep, E0, E2, <- !app_assoc. reflexivity. }
        apply app_inj_zlen in E3 as [<- E3]; [|rewrite zlen_cons in *; lia].
        destruct (prefix_free _ _ _ _ _ _ _ _ Hn Hc N1 C1 E3) as [<- <-]. pose proof (wire_number_len _ _ _ N1) as W1.
        assert (zlen (f' :: tl') = 6 + zlen h1 + zlen r1) as W2 by (rewrite E2, !zlen_app; lia). pose proof (zlen_nonneg r1). lia.
Qed.

Lemma crowd_fate pv ts ta envs n past i x d future j env cf h a t g l b : crowd_steps (crowd_start envs) n -> same_templates pv ts envs ->
  Forall sized ts -> unambiguous ts -> In ta ts -> packet_ack_template ta -> conforming_use ts (w_log n) ->
  w_log n = past ++ (i, Net (Attempted x)) :: future -> at_data x = Some d -> announces_acks x ->
  In t ts -> m_name (at_msg x) = t_name t -> t_freq t = Some g -> d = l ++ [b] ->
  t_blocks t = [] \/ (exists tb, In tb (t_blocks t) /\ instances (at_msg x) (tb_name tb) <> []) ->
  nth_error (w_nodes n) j = Some (env, cf) -> host_address (cf_st cf) h = Some a -> trusted (cf_st cf) a = false ->
  udp_allowed (e_des_xml env) (t_name t) -> is_message_handled (s_handler (cf_st cf)) (t_name t) = true \/ e_deferred env = false ->
  if 7 + number_width g + 4 * byte_value b <=? zlen d
  then exists w rest, gevents env cf (Spawn (Receive h d (zlen d))) =
      Net (Accepted a w) :: Queued a (if Z.testbit (m_flags (at_msg x)) reliable_bit then [m_id (at_msg x)] else []) :: rest /\
    a_copy t (at_msg x) w /\ acks_from x d (m_acks w)
  else exists e, In e [IndexErr; StructError; MessageDeserializationErr] /\
    gevents env cf (Spawn (Receive h d (zlen d))) = [Queued a []] /\
    cf_pool (fst (cstep env cf (Spawn (Receive h d (zlen d))))) = cf_pool cf ++ [Finished (ORecv {| r_res := Err e; r_calls := [] |})].
Proof.
  intros S ST SZ UN IN PT CU L AD AN IT NM TF EL NE NJ HA TR UA HD. pose proof (crowd_tale _ _ S) as T.
  destruct (ta_expl _ _ T _ _ _ _ L) as (env1 & CI & HDR & _). destruct (HDR d AD) as (SE & I1 & fl & FL & MF).
  destruct (CU _ _ _ _ _ L AD) as [I2 CF].
  assert (nth_error envs j = Some env) as CJ by (rewrite <- (ta_nodes _ _ T), nth_error_map, NJ; reflexivity).
  unfold same_templates in ST. rewrite Forall_forall in ST.
  apply nth_error_In, ST in CJ as (BD & ED & HO). apply nth_error_In, ST in CI as (BD1 & ED1 & HO1).
  assert (e_ser_dict env1 = e_ser_dict env) as DD by congruence. rewrite DD in SE.
  assert (usable t /\ conforming t (at_msg x)) as [US CO].
  { destruct CF as [A|(t' & T1 & T2 & T3 & T4)].
    - destruct (answer_known _ _ _ _ _ _ _ T L A AD) as (p & AK & LP & _ & RP).
      destruct (ack_conforming ta (at_msg x) p PT AK LP RP) as (U1 & U2 & U3).
      rewrite (nodup_name ts t ta (proj1 UN) IT IN) by congruence. auto.
    - rewrite (nodup_name ts t t' (proj1 UN) IT T1) by congruence. auto. }
  assert (m_flags (at_msg x) = fl + 2 ^ ack_bit) as FM.
  { destruct MF as [MF|MF]; [|exact MF]. exfalso. unfold announces_acks in AN. rewrite MF in AN. destruct FL as [-> | ->]; discriminate. }
  pose proof (serialize_open _ _ _ _ _ SE) as SO. pose proof SO as SO'. apply serialize_layout in SO'. destruct (layout_first _ _ _ _ _ SO') as (f' & tl & ED' & FV).
  apply small_byte in FV; [|rewrite FM; destruct FL as [-> | ->]; cbn; lia].
  assert (byte_value (chr fl) = fl) as CV by (apply chr_value; destruct FL as [-> | ->]; cbn; lia).
  assert (serialize (e_pv env1) (e_ser_dict env) [] (reflagged fl [] (at_msg x)) = Ok (Some (chr fl :: tl))) as S0.
  { apply serialize_layout. apply layout_reflag with f'; [rewrite <- ED'; exact SO'|]. right. destruct FL as [-> | ->]; cbn; lia. }
  assert (plain_header (e_pv env1) (reflagged fl [] (at_msg x))) as PH.
  { unfold plain_header. cbn [reflagged m_flags m_id]. split; [destruct FL as [-> | ->]; cbn; lia|]. split; [destruct FL as [-> | ->]; reflexivity|].
    split; [destruct FL as [-> | ->]; reflexivity|]. split; [lia|]. right. unfold fits. cbn. lia. }
  destruct (round_trip pv (e_pv env1) ts (deser_conf env (cf_st cf)) [] (reflagged fl [] (at_msg x)) t (is_message_handled (s_handler (cf_st cf)))) as (d' & w0 & S' & D & B); auto.
  { cbn. now rewrite ED. }
  { exact I. }
  cbn [deser_conf dc_dict] in S'. rewrite ED in S'. rewrite S' in S0. injection S0 as ->.
  assert (0 < zlen d) as LD by (rewrite ED', zlen_cons; pose proof (zlen_nonneg tl); lia).
  destruct B as (N0 & _). cbn [reflagged m_name] in N0.
  pose proof (announced_fate pv ts (deser_conf env (cf_st cf)) (is_message_handled (s_handler (cf_st cf))) (chr fl) f' tl w0 t g l b) as F.
  rewrite <- ED' in F. specialize (F ltac:(cbn; now rewrite ED) SZ (proj1 UN) eq_refl).
  specialize (F ltac:(unfold bit; rewrite CV; destruct FL as [-> | ->]; reflexivity) ltac:(unfold bit; rewrite CV; destruct FL as [-> | ->]; reflexivity)).
  specialize (F ltac:(rewrite CV, FV, FM; reflexivity) D IT ltac:(congruence) TF EL).
  destruct (7 + number_width g + 4 * byte_value b <=? zlen d).
  - destruct F as (w & DW).
    assert (accepts env (cf_st cf) h d (zlen d) = Some (a, w)) as AC.
    { unfold accepts. rewrite HA. destruct (Z.ltb_spec 0 (zlen d)); [|lia]. rewrite DW. unfold trusted in TR. rewrite TR. reflexivity. }
    pose proof (deserialize_open _ _ _ DW) as DO. cbn [deser_conf dc_dict] in DO. rewrite ED in DO.
    destruct (any_read_back pv (e_pv env1) ts (e_ser_dict env) _ x d w t fl BD SZ UN IT US NM CO (conj I1 I2) FL MF SE DO) as [CP AF].
    exists w, (map seen (snd (cstep env cf (Spawn (Receive h d (zlen d)))))). split; [|auto].
    unfold gevents. rewrite AC, HA. destruct (Z.ltb_spec 0 (zlen d)); [|lia]. unfold acks_due. rewrite DW, TR.
    destruct CP as (_ & _ & B3 & _ & _ & B6 & _). cbn in B3, B6. rewrite B6, B3. reflexivity.
  - destruct F as (e & IE & DE).
    assert (accepts env (cf_st cf) h d (zlen d) = None) as AC.
    { unfold accepts. rewrite HA. destruct (Z.ltb_spec 0 (zlen d)); [|lia]. rewrite DE. reflexivity. }
    exists e. split; [exact IE|].
    assert (exists st, start env cf (Receive h d (zlen d)) = (st, [], Finished (ORecv {| r_res := Err e; r_calls := [] |}))) as (st & ES).
    { cbn [start]. unfold receive_check. unfold host_address in HA. rewrite HA.
      destruct (Z.leb_spec (zlen d) 0); [lia|]. pose proof (find_circuit_spec (cf_st cf) h a) as FC.
      destruct (find_circuit (cf_st cf) h a) as [st1 c0]. destruct FC as (_ & _ & _ & _ & _ & _ & HH & _).
      unfold deser_conf in DE |- *. cbn [silent e_des_dict e_des_xml e_deferred s_handler set_counts]. rewrite HH, DE. cbn [r_res]. eauto. }
    unfold gevents. rewrite AC, HA. destruct (Z.ltb_spec 0 (zlen d)); [|lia]. unfold acks_due. rewrite DE.
    cbn [cstep]. rewrite ES. split; [reflexivity|]. cbn [fst cf_pool]. try reflexivity.
Qed.
