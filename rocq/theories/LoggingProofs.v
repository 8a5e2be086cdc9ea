(** Proofs about the dispatcher with its log (Logging.v). *)
From Verif Require Export Logging.
From Verif Require Import SpecCodec SpecWire SpecLayout SpecCut SpecLogging CutProofs PacketMore PacketRules PacketProofs DecodeProofs.

(** ** The log changes nothing *)
Lemma lbind_snd {A B} (x : lres A) (f : A -> lres B) : snd (lbind x f) = bind (snd x) (fun a => snd (f a)).
Proof. destruct x as [t [a|e]]; cbn; [|reflexivity]. now destruct (f a). Qed.
Lemma bind_ext {A B} (x y : res A) (f g : A -> res B) : x = y -> (forall a, f a = g a) -> bind x f = bind y g.
Proof. intros -> E. destruct y; cbn; auto. Qed.

Lemma decode_var_same name block data v pos : snd (decode_var_l name block data v pos) = decode_var data v pos.
Proof.
  unfold decode_var_l, decode_var. destruct (tv_size v) as [size0|]; [|reflexivity].
  rewrite lbind_snd. apply bind_ext.
  - destruct (tv_type v) as [[]|]; try reflexivity. destruct (zlen data <? pos + size0); [reflexivity|].
    rewrite lbind_snd. reflexivity.
  - intros [[var_size pos']|]; [|reflexivity]. destruct (zlen data <? pos' + var_size); [reflexivity|].
    destruct (unpack_data data (tv_type v) pos' var_size None); reflexivity.
Qed.
Lemma decode_vars_same name data vs : forall b pos, snd (decode_vars_l name data vs b pos) = decode_vars data vs b pos.
Proof.
  induction vs as [|v vs IH]; intros b pos; [reflexivity|]. cbn [decode_vars_l decode_vars].
  rewrite lbind_snd. apply bind_ext; [apply decode_var_same|]. intros [[u p]|]; [apply IH|reflexivity].
Qed.
Lemma decode_instances_same name data tb n : forall i d pos,
  snd (decode_instances_l name data tb i n d pos) = decode_instances data tb i n d pos.
Proof.
  induction n as [|n IH]; intros i d pos; [reflexivity|]. cbn [decode_instances_l decode_instances].
  rewrite lbind_snd. apply bind_ext; [apply decode_vars_same|]. intros [[u p]|]; [apply IH|reflexivity].
Qed.
Lemma decode_blocks_same name data tbs : forall d pos,
  snd (decode_blocks_l name data tbs d pos) = decode_blocks data tbs d pos.
Proof.
  induction tbs as [|tb tbs IH]; intros d pos; [reflexivity|]. cbn [decode_blocks_l decode_blocks].
  rewrite lbind_snd. apply bind_ext.
  - destruct (tb_type tb) as [[]|]; try reflexivity. now rewrite lbind_snd.
  - intros [[c p]|]; [|reflexivity]. rewrite lbind_snd. apply bind_ext; [apply decode_instances_same|].
    intros [[u q]|]; [apply IH|reflexivity].
Qed.
Lemma decode_data_same t data : snd (decode_data_l t data) = decode_data t data.
Proof.
  unfold decode_data_l, decode_data.
  rewrite lbind_snd. apply bind_ext; [reflexivity|]. intros c0.
  rewrite lbind_snd. apply bind_ext; [reflexivity|]. intros id.
  rewrite lbind_snd. apply bind_ext; [reflexivity|]. intros acks.
  rewrite lbind_snd. apply bind_ext; [reflexivity|]. intros offset.
  rewrite lbind_snd. apply bind_ext; [reflexivity|]. intros fb.
  rewrite lbind_snd. apply bind_ext; [apply decode_blocks_same|]. intros [[d p]|]; [|reflexivity].
  destruct ((zlen d <=? 0) && (0 <? zlen (t_blocks t))); reflexivity.
Qed.
Lemma decode_template_same d buf : snd (decode_template_l d buf) = decode_template d buf.
Proof.
  unfold decode_template_l, decode_template. destruct (zlen buf <=? PACKET_ID_LENGTH); [reflexivity|].
  rewrite lbind_snd. cbn [snd lift]. destruct (decode_header d (pyslice buf PACKET_ID_LENGTH 12)) as [[t|]|e]; reflexivity.
Qed.
Definition conf_of (s : settings) (d : tdict) (x : xmltable) (handled : string -> bool) : dconf :=
  {| dc_dict := d; dc_xml := x; dc_deferred := ENABLE_DEFERRED_PACKET_PARSING s; dc_handled := Some handled |}.
Lemma deserialize_same s d x handled buf :
  snd (deserialize_l s d x handled buf) = deserialize (conf_of s d x handled) buf.
Proof.
  unfold deserialize_l, deserialize.
  rewrite lbind_snd. apply bind_ext; [reflexivity|]. intros [mb ta].
  rewrite lbind_snd. apply bind_ext; [reflexivity|]. intros mb'.
  rewrite lbind_snd. apply bind_ext; [apply decode_template_same|]. intros [t|]; [|reflexivity].
  rewrite lbind_snd. apply bind_ext; [reflexivity|]. intros ok. destruct (negb ok); [reflexivity|].
  cbn [dc_handled conf_of dc_deferred]. destruct (handled (t_name t) || negb (ENABLE_DEFERRED_PACKET_PARSING s)); [|reflexivity].
  rewrite <- decode_data_same. destruct (decode_data_l t (mb' ++ ta)) as [tr [r|[]]]; reflexivity.
Qed.

Lemma call_all_same cb m l : snd (call_all_l cb m l) = snd (call_all cb m l) /\
  calls_of (fst (call_all_l cb m l)) = map (fun s => (s, m)) (fst (call_all cb m l)).
Proof.
  induction l as [|s l [IH1 IH2]]; [split; reflexivity|]. cbn [call_all_l call_all]. destruct (cb s m); [split; reflexivity|].
  destruct (call_all_l cb m l) as [t r], (call_all cb m l) as [c r']. cbn in *. split; [exact IH1|now f_equal].
Qed.
Lemma calls_app t t' : calls_of (t ++ t') = calls_of t ++ calls_of t'.
Proof. apply flat_map_app. Qed.
Lemma handle_same hs cb r m : snd (handle_l hs cb r m) = snd (handle cb r m) /\
  calls_of (fst (handle_l hs cb r m)) = map (fun s => (s, m)) (fst (handle cb r m)).
Proof.
  unfold handle_l, handle. destruct (sget (m_name m) r) as [l|]; [|split; reflexivity].
  destruct (0 <? subscriber_count l); [|split; reflexivity].
  destruct (call_all_same cb m l) as [E1 E2]. destruct (call_all_l cb m l) as [t e], (call_all cb m l) as [c e'].
  cbn [fst snd] in *. split; [now f_equal|]. rewrite calls_app. destruct (handling_logged hs); exact E2.
Qed.

Lemma receive_same s hs env st href buf size :
  fst (receive_check_l s hs env st href buf size) = receive_check (with_settings s env) st href buf size.
Proof.
  unfold receive_check_l, receive_check. destruct (nth_error (s_hosts st) href) as [a|]; [|reflexivity].
  destruct (size <=? 0); [reflexivity|]. destruct (find_circuit st href a) as [st1 c].
  cbn [e_handle with_settings e_cb].
  pose proof (deserialize_same s (e_des_dict env) (e_des_xml env) (is_message_handled (s_handler (set_counts st1 (s_in st1 + 1) (s_out st1)))) buf) as D.
  unfold deser_conf. cbn [e_des_dict e_des_xml e_deferred with_settings]. unfold conf_of in D.
  rewrite <- D. destruct (deserialize_l s (e_des_dict env) (e_des_xml env) _ buf) as [t [[m|]|e]]; cbn [snd].
  - destruct (c_trusted c && negb (m_trusted m)); [reflexivity|]. destruct (HANDLE_PACKETS s); [|reflexivity].
    destruct (handle_same hs (e_cb env) (s_handler (put_circuit (set_counts st1 (s_in st1 + 1) (s_out st1)) a (handle_packet c m))) m) as [E1 E2].
    destruct (handle_l hs _ _ m) as [t' e], (handle (e_cb env) _ m) as [cs e']. cbn [fst snd] in *. now rewrite E1, E2.
  - destruct (do _ <- pyindex buf 0; unpack_z buf MVT_U32 1 (Some BE)); reflexivity.
  - reflexivity.
Qed.

Lemma serialize_l_same pv d x m : snd (serialize_l pv d x m) = serialize pv d x m.
Proof.
  unfold serialize_l. destruct (get_template d (m_name m)) as [t|] eqn:G; [|unfold serialize; now rewrite G].
  rewrite lbind_snd. cbn [snd lift]. destruct (validate_udp_msg x (t_name t)) as [[]|e] eqn:V; cbn [bind negb]; [reflexivity| |];
    unfold serialize; now rewrite G, V.
Qed.
Lemma serialize_l_ok pv d x m t b : serialize_l pv d x m = (t, Ok (Some b)) -> t = [].
Proof.
  unfold serialize_l. destruct (get_template d (m_name m)) as [tm|]; [|discriminate]. cbn.
  destruct (validate_udp_msg x (t_name tm)) as [[]|e]; cbn; [|discriminate|discriminate].
  destruct (serialize pv d x m); cbn; congruence.
Qed.
Lemma contain_same e m : snd (contain_l e m) = contain e m.
Proof. unfold contain_l, contain. destruct e; try reflexivity; destruct (msg_str_error m); reflexivity. Qed.
Lemma contain_other e e' m : e <> AssertionErr -> e' <> AssertionErr -> contain e m = contain e' m.
Proof. intros H H'. unfold contain. destruct e; try congruence; destruct e'; congruence || reflexivity. Qed.

(** [send_same] asks for the three steps of the [try] together. *)
Lemma sending_same s sock env a m :
  let r := ldo send_buffer <- serialize_l (e_pv env) (e_ser_dict env) (e_ser_xml env) m;
           ldo _ <- log_sent s a m send_buffer;
           send_packet_l sock a m send_buffer in
  match serialize (e_pv env) (e_ser_dict env) (e_ser_xml env) m with
  | Err e => snd r = Err e
  | Ok None => exists e, snd r = Err e /\ e <> AssertionErr
  | Ok (Some b) => snd r = match sock a b with Some e => Err e | None => Ok b end
  end.
Proof.
  cbv zeta. rewrite <- serialize_l_same. destruct (serialize_l (e_pv env) (e_ser_dict env) (e_ser_xml env) m) as [t [[b|]|e]]; cbn [snd].
  - rewrite lbind_snd. cbn [snd bind]. rewrite lbind_snd.
    assert (snd (log_sent s a m (Some b)) = Ok tt) as ->.
    { unfold log_sent. destruct (ENABLE_UDP_LOGGING s); [|reflexivity].
      destruct (existsb _ _ && _); [reflexivity|]. destruct (ENABLE_BYTES_TO_HEX_LOGGING s); reflexivity. }
    cbn [bind send_packet_l]. destruct (sock a b); reflexivity.
  - rewrite lbind_snd. cbn [snd bind]. rewrite lbind_snd.
    unfold log_sent. destruct (ENABLE_UDP_LOGGING s); [|exists no_data; split; [reflexivity|discriminate]].
    destruct (existsb _ _ && _); [exists no_data; split; [reflexivity|discriminate]|].
    destruct (ENABLE_BYTES_TO_HEX_LOGGING s); [exists TypeErr|exists no_data]; (split; [reflexivity|discriminate]).
  - rewrite lbind_snd. reflexivity.
Qed.

Lemma send_same s hs env st mref href md sock :
  fst (send_message_l s hs env st mref href md sock) = send_message (with_settings s env) st mref href md sock.
Proof.
  unfold send_message_l, send_message. destruct (nth_error (s_hosts st) href) as [a|]; [|reflexivity].
  destruct (nth_error (s_msgs st) mref) as [m|]; [|reflexivity]. destruct (negb (host_ok a)); [reflexivity|].
  cbn [e_handle_out with_settings e_cb].
  destruct (handle_same hs (e_cb env) (s_handler st) m) as [E1 E2].
  destruct (if HANDLE_OUTGOING_PACKETS s then handle_l hs (e_cb env) (s_handler st) m else ([], None)) as [t0 e] eqn:E.
  destruct (if HANDLE_OUTGOING_PACKETS s then handle (e_cb env) (s_handler st) m else ([], None)) as [cs e'] eqn:E'.
  assert (e = e' /\ calls_of t0 = map (fun s => (s, m)) cs) as [<- Ec].
  { destruct (HANDLE_OUTGOING_PACKETS s).
    - rewrite E in E1, E2. rewrite E' in E1, E2. auto.
    - injection E as <- <-. injection E' as <- <-. auto. }
  destruct e as [e|]; [now rewrite Ec|].
  destruct (find_circuit st href a) as [st1 c].
  destruct (match md with Reliable r => prepare_packet c mref m LL_RELIABLE_FLAG r | Plain => prepare_packet c mref m LL_NONE 0 end) as [c1 m1].
  set (st2 := match md with Plain => _ | Reliable _ => _ end). clearbody st2.
  cbn [e_pv e_ser_dict e_ser_xml with_settings].
  pose proof (sending_same s sock env a m1) as S. cbv zeta in S. rewrite Ec.
  destruct (ldo send_buffer <- serialize_l (e_pv env) (e_ser_dict env) (e_ser_xml env) m1;
           ldo _ <- log_sent s a m1 send_buffer; send_packet_l sock a m1 send_buffer) as [t r].
  cbn [snd] in S.
  destruct (serialize (e_pv env) (e_ser_dict env) (e_ser_xml env) m1) as [[b|]|e].
  - subst r. destruct (sock a b) as [e|]; [|reflexivity].
    rewrite <- contain_same. destruct (contain_l e m1). reflexivity.
  - destruct S as (e & -> & N). rewrite <- (contain_other e no_data m1 N) by discriminate.
    rewrite <- contain_same. destruct (contain_l e m1). reflexivity.
  - subst r. rewrite <- contain_same. destruct (contain_l e m1). reflexivity.
Qed.

Lemma send_new_same s hs env st m href sock :
  fst (send_new_l s hs env st m href sock) = send_new (with_settings s env) st m href sock.
Proof. apply send_same. Qed.
Lemma flush_same s hs env sock href ids : forall cur st,
  fst (flush_acks_l s hs env sock href ids cur st) = flush_acks (with_settings s env) sock href ids cur st.
Proof.
  induction ids as [|id ids IH]; intros cur st; cbn [flush_acks_l flush_acks].
  - destruct (0 <? zlen cur); [apply send_new_same|reflexivity].
  - destruct (250 <? zlen (cur ++ [id])).
    + rewrite <- (send_new_same s hs). destruct (send_new_l s hs env st (ack_message (cur ++ [id])) href sock) as [[st1 o] t].
      cbn [fst]. destruct (o_res o); [|reflexivity]. rewrite <- IH. destruct (flush_acks_l _ _ _ _ _ ids [] st1) as [[st2 o'] t']. reflexivity.
    + rewrite <- IH. destruct (flush_acks_l _ _ _ _ _ ids (cur ++ [id]) st) as [[st2 o'] t']. reflexivity.
Qed.
Lemma send_acks_same s hs env sock keys : forall st,
  fst (send_acks_l s hs env sock keys st) = send_acks (with_settings s env) sock keys st.
Proof.
  induction keys as [|k keys IH]; intros st; cbn [send_acks_l send_acks]; [reflexivity|].
  destruct (get_circuit (s_circuits st) k) as [c|]; [|apply IH].
  rewrite <- (flush_same s hs). destruct (flush_acks_l _ _ _ _ _ (c_acks c) [] st) as [[st1 o] t]. cbn [fst].
  destruct (o_res o); [|reflexivity]. rewrite <- IH. destruct (send_acks_l _ _ _ _ keys (clear_acks st1 k)) as [[st2 o'] t']. reflexivity.
Qed.
Lemma process_same s hs env st order sock :
  fst (process_acks_l s hs env st order sock) = process_acks (with_settings s env) st order sock.
Proof.
  unfold process_acks_l, process_acks. destruct (resend_all (s_unackedc st) st) as [st1 [u|e]]; [|reflexivity].
  rewrite <- (send_acks_same s hs). destruct (send_acks_l _ _ _ _ _ st1) as [[st2 o] t]. reflexivity.
Qed.
Lemma step_same s hs env st o : fst (step_l s hs env st o) = step (with_settings s env) st o.
Proof.
  destruct o; cbn [step_l step]; try reflexivity.
  - rewrite <- (send_same s hs). destruct (send_message_l s hs env st mref href md sock) as [[st1 o] t]. reflexivity.
  - rewrite <- (receive_same s hs). destruct (receive_check_l s hs env st href buf size) as [[st1 o] t]. reflexivity.
  - rewrite <- (process_same s hs). destruct (process_acks_l s hs env st order sock) as [[st1 o] t]. reflexivity.
Qed.
Lemma run_same s hs env ops : forall st,
  run (with_settings s env) st ops = (fst (run_l s hs env st ops), map fst (snd (run_l s hs env st ops))).
Proof.
  induction ops as [|o ops IH]; intros st; [reflexivity|]. cbn [run run_l]. rewrite <- (step_same s hs).
  destruct (step_l s hs env st o) as [[st1 x] t]. cbn [fst]. rewrite IH. destruct (run_l s hs env st1 ops). reflexivity.
Qed.

(** ** What does not depend on the log settings *)
Lemma essential_app t t' : essential (t ++ t') = essential t ++ essential t'.
Proof. apply filter_app. Qed.
Lemma lbind_fst {A B} (x : lres A) (f : A -> lres B) : fst (lbind x f) = fst x ++ match snd x with Ok a => fst (f a) | Err _ => [] end.
Proof. destruct x as [t [a|e]]; cbn; [|now rewrite app_nil_r]. now destruct (f a). Qed.
Lemma essential_if (b : bool) x : optional x = true -> essential (if b then [x] else []) = [].
Proof. intros H. destruct b; [|reflexivity]. cbn. now rewrite H. Qed.

Lemma deserialize_essential s s' d x handled buf : same_behaviour s s' ->
  essential (fst (deserialize_l s d x handled buf)) = essential (fst (deserialize_l s' d x handled buf)) /\
  snd (deserialize_l s d x handled buf) = snd (deserialize_l s' d x handled buf).
Proof.
  intros (_ & _ & E). split.
  2:{ rewrite !deserialize_same. unfold conf_of. now rewrite E. }
  unfold deserialize_l. rewrite E. rewrite !lbind_fst. cbn [fst snd lift app].
  destruct (strip_acks buf) as [[mb ta]|]; [|reflexivity]. rewrite !lbind_fst. cbn [fst snd lift app].
  destruct (expand mb) as [mb'|]; [|reflexivity]. rewrite !lbind_fst, !essential_app. f_equal.
  destruct (snd (decode_template_l d mb')) as [[t|]|]; [|reflexivity|reflexivity].
  rewrite !lbind_fst. cbn [fst snd lift app]. destruct (validate_udp_msg x (t_name t)) as [ok|]; [|reflexivity].
  destruct (negb ok); [reflexivity|]. destruct (handled (t_name t) || negb (ENABLE_DEFERRED_PACKET_PARSING s')); [reflexivity|].
  rewrite !lbind_fst, !essential_app. cbn [emit fst snd lift essential filter].
  now rewrite !essential_if by reflexivity.
Qed.
Lemma handle_essential hs hs' cb r m : essential (fst (handle_l hs cb r m)) = essential (fst (handle_l hs' cb r m)) /\
  snd (handle_l hs cb r m) = snd (handle_l hs' cb r m) /\ calls_of (fst (handle_l hs cb r m)) = calls_of (fst (handle_l hs' cb r m)).
Proof.
  split; [|split].
  - unfold handle_l. destruct (sget (m_name m) r) as [l|]; [|reflexivity]. destruct (0 <? subscriber_count l); [|reflexivity].
    destruct (call_all_l cb m l) as [t e]. cbn [fst]. rewrite !essential_app. now rewrite !essential_if by reflexivity.
  - now rewrite !(proj1 (handle_same _ cb r m)).
  - now rewrite !(proj2 (handle_same _ cb r m)).
Qed.
(** Equal but for optional lines. *)
Definition alike {A} (x y : A * list entry) : Prop := fst x = fst y /\ essential (snd x) = essential (snd y).

Lemma with_settings_same s s' env : same_behaviour s s' -> with_settings s env = with_settings s' env.
Proof. intros (A & B & C). unfold with_settings. now rewrite A, B, C. Qed.

Lemma receive_alike s hs s' hs' env st href buf size : same_behaviour s s' ->
  alike (receive_check_l s hs env st href buf size) (receive_check_l s' hs' env st href buf size).
Proof.
  intros S. split; [rewrite !receive_same; now rewrite (with_settings_same s s') by exact S|].
  unfold receive_check_l. destruct (nth_error (s_hosts st) href) as [a|]; [|reflexivity].
  destruct (size <=? 0); [reflexivity|]. destruct (find_circuit st href a) as [st1 c].
  destruct (deserialize_essential s s' (e_des_dict env) (e_des_xml env) (is_message_handled (s_handler (set_counts st1 (s_in st1 + 1) (s_out st1)))) buf S) as [E1 E2].
  destruct (deserialize_l s _ _ _ buf) as [t r], (deserialize_l s' _ _ _ buf) as [t' r']. cbn [fst snd] in E1, E2. subst r'.
  destruct r as [[m|]|e]; cbn [snd].
  - destruct (c_trusted c && negb (m_trusted m)); [exact E1|]. rewrite <- (proj1 S). destruct (HANDLE_PACKETS s); cbn [snd].
    + destruct (handle_essential hs hs' (e_cb env) (s_handler (put_circuit (set_counts st1 (s_in st1 + 1) (s_out st1)) a (handle_packet c m))) m) as (F1 & F2 & _).
      destruct (handle_l hs _ _ m), (handle_l hs' _ _ m). cbn [fst snd] in *. rewrite !essential_app, E1, F1. now rewrite !essential_if by reflexivity.
    + rewrite !essential_app, E1. now rewrite !essential_if by reflexivity.
  - destruct (do _ <- pyindex buf 0; unpack_z buf MVT_U32 1 (Some BE)); exact E1.
  - exact E1.
Qed.

Lemma log_sent_essential s a m b : essential (fst (log_sent s a m b)) = [].
Proof.
  unfold log_sent. destruct (ENABLE_UDP_LOGGING s); [|reflexivity]. destruct (existsb _ _ && _); [reflexivity|].
  rewrite lbind_fst. cbn [fst lift app]. destruct (snd _); reflexivity.
Qed.
(** The essential part of a sending: the serializer's, then the datagram. *)
Lemma sending_essential s sock env a m :
  essential (fst (ldo send_buffer <- serialize_l (e_pv env) (e_ser_dict env) (e_ser_xml env) m;
                  ldo _ <- log_sent s a m send_buffer; send_packet_l sock a m send_buffer)) =
  essential (fst (serialize_l (e_pv env) (e_ser_dict env) (e_ser_xml env) m)) ++
  match serialize (e_pv env) (e_ser_dict env) (e_ser_xml env) m with
  | Ok (Some b) => [Handed a m b (match sock a b with Some _ => false | None => true end)]
  | _ => []
  end.
Proof.
  rewrite lbind_fst, essential_app. f_equal. rewrite serialize_l_same.
  destruct (serialize (e_pv env) (e_ser_dict env) (e_ser_xml env) m) as [[b|]|e]; [| |reflexivity].
  - rewrite lbind_fst, essential_app, log_sent_essential. cbn [app].
    assert (snd (log_sent s a m (Some b)) = Ok tt) as ->.
    { unfold log_sent. destruct (ENABLE_UDP_LOGGING s); [|reflexivity].
      destruct (existsb _ _ && _); [reflexivity|]. destruct (ENABLE_BYTES_TO_HEX_LOGGING s); reflexivity. }
    cbn [send_packet_l]. destruct (sock a b); reflexivity.
  - rewrite lbind_fst, essential_app, log_sent_essential. destruct (snd (log_sent s a m None)); reflexivity.
Qed.
Lemma contain_l_other e e' m : e <> AssertionErr -> e' <> AssertionErr -> contain_l e m = contain_l e' m.
Proof. intros H H'. unfold contain_l. destruct e; try congruence; destruct e'; congruence || reflexivity. Qed.

Lemma send_alike s hs s' hs' env st mref href md sock : same_behaviour s s' ->
  alike (send_message_l s hs env st mref href md sock) (send_message_l s' hs' env st mref href md sock).
Proof.
  intros S. split; [rewrite !send_same; now rewrite (with_settings_same s s') by exact S|].
  unfold send_message_l. destruct (nth_error (s_hosts st) href) as [a|]; [|reflexivity].
  destruct (nth_error (s_msgs st) mref) as [m|]; [|reflexivity]. destruct (negb (host_ok a)); [reflexivity|].
  rewrite <- (proj1 (proj2 S)).
  assert (exists t0 t0' e, (if HANDLE_OUTGOING_PACKETS s then handle_l hs (e_cb env) (s_handler st) m else ([], None)) = (t0, e) /\
    (if HANDLE_OUTGOING_PACKETS s then handle_l hs' (e_cb env) (s_handler st) m else ([], None)) = (t0', e) /\
    essential t0 = essential t0') as (t0 & t0' & e & -> & -> & E0).
  { destruct (HANDLE_OUTGOING_PACKETS s); [|now exists [], [], None].
    destruct (handle_essential hs hs' (e_cb env) (s_handler st) m) as (F1 & F2 & _).
    destruct (handle_l hs _ _ m) as [t0 e], (handle_l hs' _ _ m) as [t0' e']. cbn [fst snd] in *. subst e'. eauto 6. }
  destruct e as [e|]; [exact E0|].
  destruct (find_circuit st href a) as [st1 c].
  destruct (match md with Reliable r => prepare_packet c mref m LL_RELIABLE_FLAG r | Plain => prepare_packet c mref m LL_NONE 0 end) as [c1 m1].
  set (st2 := match md with Plain => _ | Reliable _ => _ end). clearbody st2.
  pose proof (sending_same s sock env a m1) as A. pose proof (sending_same s' sock env a m1) as A'. cbv zeta in A, A'.
  pose proof (sending_essential s sock env a m1) as B. pose proof (sending_essential s' sock env a m1) as B'.
  rewrite <- B' in B. clear B'.
  destruct (ldo send_buffer <- _; ldo _ <- log_sent s a m1 send_buffer; _) as [t r].
  destruct (ldo send_buffer <- _; ldo _ <- log_sent s' a m1 send_buffer; _) as [t' r'].
  cbn [fst snd] in A, A', B.
  destruct (serialize (e_pv env) (e_ser_dict env) (e_ser_xml env) m1) as [[b|]|e].
  - subst r r'. destruct (sock a b) as [e|]; [destruct (contain_l e m1)|]; cbn [snd]; rewrite !essential_app; congruence.
  - destruct A as (e & -> & N), A' as (e' & -> & N'). rewrite (contain_l_other e' e m1 N' N). destruct (contain_l e m1); cbn [snd]; rewrite !essential_app; congruence.
  - subst r r'. destruct (contain_l e m1); cbn [snd]; rewrite !essential_app; congruence.
Qed.
Lemma flush_alike s hs s' hs' env sock href ids : same_behaviour s s' -> forall cur st,
  alike (flush_acks_l s hs env sock href ids cur st) (flush_acks_l s' hs' env sock href ids cur st).
Proof.
  intros S. induction ids as [|id ids IH]; intros cur st; cbn [flush_acks_l].
  - destruct (0 <? zlen cur); [now apply send_alike|split; reflexivity].
  - destruct (250 <? zlen (cur ++ [id])).
    + pose proof (send_alike s hs s' hs' env (set_msgs st (s_msgs st ++ [ack_message (cur ++ [id])])) (List.length (s_msgs st)) href Plain sock S) as [A B].
      unfold send_new_l. destruct (send_message_l s hs _ _ _ _ _ _) as [[st1 o] t], (send_message_l s' hs' _ _ _ _ _ _) as [[st1' o'] t'].
      cbn [fst snd] in A, B. injection A as <- <-. destruct (o_res o).
      * destruct (IH [] st1) as [C D]. destruct (flush_acks_l s hs _ _ _ ids [] st1) as [[st2 o2] t2], (flush_acks_l s' hs' _ _ _ ids [] st1) as [[st2' o2'] t2'].
        cbn [fst snd] in C, D. injection C as <- <-. split; [reflexivity|]. cbn [snd]. rewrite !essential_app, B, D. now rewrite !essential_if by reflexivity.
      * split; [reflexivity|]. cbn [snd]. rewrite !essential_app, B. now rewrite !essential_if by reflexivity.
    + destruct (IH (cur ++ [id]) st) as [C D].
      destruct (flush_acks_l s hs _ _ _ ids _ st) as [[st2 o2] t2], (flush_acks_l s' hs' _ _ _ ids _ st) as [[st2' o2'] t2'].
      cbn [fst snd] in C, D. injection C as <- <-. split; [reflexivity|]. cbn [snd]. rewrite !essential_app, D. now rewrite !essential_if by reflexivity.
Qed.
Lemma send_acks_alike s hs s' hs' env sock keys : same_behaviour s s' -> forall st,
  alike (send_acks_l s hs env sock keys st) (send_acks_l s' hs' env sock keys st).
Proof.
  intros S. induction keys as [|k keys IH]; intros st; cbn [send_acks_l]; [split; reflexivity|].
  destruct (get_circuit (s_circuits st) k) as [c|]; [|apply IH].
  destruct (flush_alike s hs s' hs' env sock (c_host c) (c_acks c) S [] st) as [A B].
  destruct (flush_acks_l s hs _ _ _ _ [] st) as [[st1 o] t], (flush_acks_l s' hs' _ _ _ _ [] st) as [[st1' o'] t'].
  cbn [fst snd] in A, B. injection A as <- <-. destruct (o_res o); [|split; [reflexivity|exact B]].
  destruct (IH (clear_acks st1 k)) as [C D]. destruct (send_acks_l s hs _ _ keys _) as [[st2 o2] t2], (send_acks_l s' hs' _ _ keys _) as [[st2' o2'] t2'].
  cbn [fst snd] in C, D. injection C as <- <-. split; [reflexivity|]. cbn [snd]. now rewrite !essential_app, B, D.
Qed.
Lemma step_alike s hs s' hs' env st o : same_behaviour s s' -> alike (step_l s hs env st o) (step_l s' hs' env st o).
Proof.
  intros S. destruct o; cbn [step_l]; try (split; reflexivity).
  - destruct (send_alike s hs s' hs' env st mref href md sock S) as [A B].
    destruct (send_message_l s hs _ _ _ _ _ _) as [[st1 o] t], (send_message_l s' hs' _ _ _ _ _ _) as [[st1' o'] t'].
    cbn [fst snd] in A, B. injection A as <- <-. split; [reflexivity|exact B].
  - destruct (receive_alike s hs s' hs' env st href buf size S) as [A B].
    destruct (receive_check_l s hs _ _ _ _ _) as [[st1 o] t], (receive_check_l s' hs' _ _ _ _ _) as [[st1' o'] t'].
    cbn [fst snd] in A, B. injection A as <- <-. split; [reflexivity|exact B].
  - unfold process_acks_l. destruct (resend_all (s_unackedc st) st) as [st0 [u|e]]; [|split; reflexivity].
    destruct (send_acks_alike s hs s' hs' env sock (arrange order (dkeys (s_circuits st0))) S st0) as [A B].
    destruct (send_acks_l s hs _ _ _ st0) as [[st1 o] t], (send_acks_l s' hs' _ _ _ st0) as [[st1' o'] t'].
    cbn [fst snd] in A, B. injection A as <- <-. split; [reflexivity|exact B].
Qed.
Lemma run_alike s hs s' hs' env ops : same_behaviour s s' -> forall st,
  let r := run_l s hs env st ops in let r' := run_l s' hs' env st ops in
  fst r = fst r' /\ map fst (snd r) = map fst (snd r') /\
  map (fun x => essential (snd x)) (snd r) = map (fun x => essential (snd x)) (snd r').
Proof.
  intros S. induction ops as [|o ops IH]; intros st; [now repeat split|]. cbn [run_l].
  destruct (step_alike s hs s' hs' env st o S) as [A B].
  destruct (step_l s hs env st o) as [[st1 x] t], (step_l s' hs' env st o) as [[st1' x'] t']. cbn [fst snd] in A, B. injection A as <- <-.
  specialize (IH st1). destruct (run_l s hs env st1 ops) as [st2 xs], (run_l s' hs' env st1 ops) as [st2' xs'].
  cbn [fst snd map] in *. destruct IH as (-> & E & F). rewrite E, F, B. now repeat split.
Qed.

(** ** The shape of what comes out *)
Inductive seg (s hs : settings) (d : tdict) : list entry -> Prop :=
| seg_line l : (forall h n i x, l <> SentLine h n i x) -> switched_on s hs l -> seg s hs d [Line l]
| seg_call u m : seg s hs d [Call u m]
| seg_printed n : seg s hs d [Printed n]
| seg_announced a m b ok : announced s (m_name m) -> seg s hs d [Line (sent_line s a m b); Handed a m b ok]
| seg_silent a m b ok : ~ announced s (m_name m) -> seg s hs d [Handed a m b ok]
| seg_banned a m tm : announced s (m_name m) -> ENABLE_BYTES_TO_HEX_LOGGING s = false -> get_template d (m_name m) = Some tm ->
    seg s hs d [Line (BannedOutLine (t_name tm)); Line (SentLine (host_shown s a) (m_name m) (m_id m) None)].
Definition segs s hs d (t : list entry) : Prop := exists gs, t = List.concat gs /\ Forall (seg s hs d) gs.
Lemma segs_nil s hs d : segs s hs d [].
Proof. now exists []. Qed.
Lemma segs_app s hs d t t' : segs s hs d t -> segs s hs d t' -> segs s hs d (t ++ t').
Proof. intros (g & -> & F) (g' & -> & F'). exists (g ++ g'). split; [now rewrite concat_app|]. now apply Forall_app. Qed.
Lemma segs_one s hs d t : seg s hs d t -> segs s hs d t.
Proof. intros H. exists [t]. cbn. rewrite app_nil_r. auto. Qed.
Lemma segs_if s hs d (b : bool) l : (b = true -> switched_on s hs l) -> (forall h n i x, l <> SentLine h n i x) ->
  segs s hs d (if b then [Line l] else []).
Proof. intros H N. destruct b; [|apply segs_nil]. apply segs_one, seg_line; auto. Qed.
Lemma segs_bind {A B} s hs d (x : lres A) (f : A -> lres B) : segs s hs d (fst x) -> (forall a, segs s hs d (fst (f a))) -> segs s hs d (fst (lbind x f)).
Proof. intros H K. rewrite lbind_fst. apply segs_app; [exact H|]. destruct (snd x); [apply K|apply segs_nil]. Qed.
Lemma segs_lift {A} s hs d (r : res A) : segs s hs d (fst (lift r)).
Proof. apply segs_nil. Qed.
Lemma segs_emit s hs d (b : bool) l : (b = true -> switched_on s hs l) -> (forall h n i x, l <> SentLine h n i x) ->
  segs s hs d (fst (emit b l)).
Proof. apply segs_if. Qed.
#[local] Hint Resolve segs_nil segs_lift : core.

Lemma decode_var_segs s hs d name block data v pos : segs s hs d (fst (decode_var_l name block data v pos)).
Proof.
  unfold decode_var_l. destruct (tv_size v) as [size0|]; [|apply segs_nil]. apply segs_bind.
  - destruct (tv_type v) as [[]|]; auto. destruct (zlen data <? pos + size0).
    + apply segs_bind; [apply segs_emit; [exact (fun _ => I)|discriminate]|auto].
    + apply segs_bind; auto.
  - intros [[vs p]|]; [|auto]. destruct (zlen data <? p + vs).
    + apply segs_bind; [apply segs_one; constructor|]. intros []. apply segs_bind; [apply segs_emit; [exact (fun _ => I)|discriminate]|auto].
    + destruct (unpack_data data (tv_type v) p vs None); [auto|]. apply segs_bind; [apply segs_emit; [exact (fun _ => I)|discriminate]|auto].
Qed.
Lemma decode_vars_segs s hs d name data vs : forall b pos, segs s hs d (fst (decode_vars_l name data vs b pos)).
Proof.
  induction vs as [|v vs IH]; intros b pos; cbn [decode_vars_l]; [auto|].
  apply segs_bind; [apply decode_var_segs|]. intros [[u p]|]; auto.
Qed.
Lemma decode_instances_segs s hs dd name data tb n : forall i d pos, segs s hs dd (fst (decode_instances_l name data tb i n d pos)).
Proof.
  induction n as [|n IH]; intros i d pos; cbn [decode_instances_l]; [auto|].
  apply segs_bind; [apply decode_vars_segs|]. intros [[u p]|]; auto.
Qed.
Lemma decode_blocks_segs s hs dd name data tbs : forall d pos, segs s hs dd (fst (decode_blocks_l name data tbs d pos)).
Proof.
  induction tbs as [|tb tbs IH]; intros d pos; cbn [decode_blocks_l]; [auto|]. apply segs_bind.
  - destruct (tb_type tb) as [[]|]; auto. apply segs_bind; auto. apply segs_bind; [apply segs_emit; [exact (fun _ => I)|discriminate]|auto].
  - intros [[c p]|]; [|auto]. apply segs_bind; [apply decode_instances_segs|]. intros [[u q]|]; auto.
Qed.
Lemma decode_data_segs s hs d t data : segs s hs d (fst (decode_data_l t data)).
Proof.
  unfold decode_data_l. repeat (apply segs_bind; [auto|]; intros ?). apply segs_bind; [apply decode_blocks_segs|].
  intros [[dd p]|]; [|auto]. destruct ((zlen dd <=? 0) && (0 <? zlen (t_blocks t))); auto.
Qed.
Lemma deserialize_segs s hs dd d x handled buf : segs s hs dd (fst (deserialize_l s d x handled buf)).
Proof.
  unfold deserialize_l. apply segs_bind; [auto|]. intros [mb ta]. apply segs_bind; [auto|]. intros mb'. apply segs_bind.
  - unfold decode_template_l. destruct (zlen mb' <=? PACKET_ID_LENGTH); [auto|]. apply segs_bind; [auto|]. intros [t|]; [auto|].
    apply segs_bind; [apply segs_emit; [exact (fun _ => I)|discriminate]|auto].
  - intros [t|]; [|auto]. apply segs_bind; [auto|]. intros ok. destruct (negb ok).
    { apply segs_bind; [apply segs_emit; [exact (fun _ => I)|discriminate]|auto]. }
    destruct (handled (t_name t) || negb (ENABLE_DEFERRED_PACKET_PARSING s)).
    + pose proof (decode_data_segs s hs dd t (mb' ++ ta)) as D. destruct (decode_data_l t (mb' ++ ta)) as [tr [r|[]]]; exact D.
    + apply segs_bind; [|auto]. apply segs_emit; [|discriminate]. intros H. cbn.
      rewrite !andb_true_iff, negb_true_iff in H. tauto.
Qed.
Lemma handle_segs s hs d cb r m : segs s hs d (fst (handle_l hs cb r m)).
Proof.
  unfold handle_l. destruct (sget (m_name m) r) as [l|]; [|apply segs_nil]. destruct (0 <? subscriber_count l); [|apply segs_nil].
  assert (segs s hs d (fst (call_all_l cb m l))) as H.
  { induction l as [|u l IH]; [apply segs_nil|]. cbn [call_all_l]. destruct (cb u m).
    - apply (segs_app s hs d [Call u m] [Line EventErrorLine]); apply segs_one; constructor; [discriminate|exact I].
    - destruct (call_all_l cb m l) as [t r']. apply (segs_app s hs d [Call u m] t); [apply segs_one; constructor|exact IH]. }
  destruct (call_all_l cb m l) as [t e]. cbn [fst] in *. apply segs_app; [|exact H].
  apply segs_if; [|discriminate]. unfold handling_logged. intros E. apply andb_true_iff in E as [E1 E2]. split; [exact E1|].
  apply negb_true_iff, andb_false_iff in E2 as [E2|E2]; [left|now right]. destruct (UDP_SPAMMERS hs); [reflexivity|discriminate].
Qed.
Lemma shown_none {A} (b : bool) (x : A) : (if b then Some x else None) = None <-> b = false.
Proof. destruct b; split; congruence. Qed.
Lemma receive_segs s hs d env st href buf size : segs s hs d (snd (receive_check_l s hs env st href buf size)).
Proof.
  unfold receive_check_l. destruct (nth_error (s_hosts st) href) as [a|]; [|apply segs_nil].
  destruct (size <=? 0); [apply segs_nil|]. destruct (find_circuit st href a) as [st1 c].
  pose proof (deserialize_segs s hs d (e_des_dict env) (e_des_xml env) (is_message_handled (s_handler (set_counts st1 (s_in st1 + 1) (s_out st1)))) buf) as D.
  destruct (deserialize_l s _ _ _ buf) as [t [[m|]|e]]; cbn [fst] in D.
  - destruct (c_trusted c && negb (m_trusted m)); [exact D|].
    match goal with |- context [t ++ ?X] => assert (segs s hs d (t ++ X)) as D' end.
    { apply segs_app; [exact D|]. apply segs_if; [|discriminate]. intros E. apply andb_true_iff in E as [E1 E2]. apply negb_true_iff in E2.
      cbn. rewrite !shown_none. tauto. }
    destruct (HANDLE_PACKETS s); [|exact D'].
    pose proof (handle_segs s hs d (e_cb env) (s_handler (put_circuit (set_counts st1 (s_in st1 + 1) (s_out st1)) a (handle_packet c m))) m) as K.
    destruct (handle_l hs _ _ m). cbn [snd]. now apply segs_app.
  - destruct (do _ <- pyindex buf 0; unpack_z buf MVT_U32 1 (Some BE)); exact D.
  - exact D.
Qed.
Lemma announced_spec s name : (ENABLE_UDP_LOGGING s && negb (existsb (String.eqb name) (UDP_SPAMMERS s) && DISABLE_SPAMMERS s)) = true <-> announced s name.
Proof.
  unfold announced. rewrite andb_true_iff, negb_true_iff. split; intros [H K]; split; auto.
  - intros [I D]. assert (existsb (String.eqb name) (UDP_SPAMMERS s) = true) as E; [|rewrite E, D in K; discriminate].
    apply existsb_exists. exists name. split; [exact I|apply String.eqb_refl].
  - destruct (existsb (String.eqb name) (UDP_SPAMMERS s)) eqn:E; [|reflexivity]. destruct (DISABLE_SPAMMERS s); [|reflexivity].
    exfalso. apply K. apply existsb_exists in E as (y & I & Y). apply String.eqb_eq in Y. subst. auto.
Qed.
Lemma log_sent_eq s a m b : log_sent s a m b =
  if ENABLE_UDP_LOGGING s && negb (existsb (String.eqb (m_name m)) (UDP_SPAMMERS s) && DISABLE_SPAMMERS s) then
    match b with
    | Some b => ([Line (sent_line s a m b)], Ok tt)
    | None => if ENABLE_BYTES_TO_HEX_LOGGING s then ([], Err TypeErr)
              else ([Line (SentLine (host_shown s a) (m_name m) (m_id m) None)], Ok tt)
    end
  else ([], Ok tt).
Proof.
  unfold log_sent, sent_line, hex_shown. destruct (ENABLE_UDP_LOGGING s); [|reflexivity]. cbn [andb].
  destruct (existsb _ _ && _); [reflexivity|]. cbn [negb]. destruct (ENABLE_BYTES_TO_HEX_LOGGING s), b; reflexivity.
Qed.
Lemma serialize_allowed_buffer pv d x m tm : get_template d (m_name m) = Some tm -> validate_udp_msg x (t_name tm) = Ok true ->
  serialize pv d x m <> Ok None.
Proof.
  intros G V. unfold serialize. rewrite G, V. cbn [bind negb].
  repeat match goal with |- bind ?r _ <> _ => destruct r; cbn [bind]; [|discriminate] end. discriminate.
Qed.
Lemma sending_segs s hs sock env a m :
  segs s hs (e_ser_dict env)
    (fst (ldo send_buffer <- serialize_l (e_pv env) (e_ser_dict env) (e_ser_xml env) m;
          ldo _ <- log_sent s a m send_buffer; send_packet_l sock a m send_buffer)).
Proof.
  unfold serialize_l. destruct (get_template (e_ser_dict env) (m_name m)) as [tm|] eqn:G; [|apply segs_nil].
  pose proof (announced_spec s (m_name m)) as AN.
  pose proof (serialize_allowed_buffer (e_pv env) (e_ser_dict env) (e_ser_xml env) m tm G) as SB.
  destruct (validate_udp_msg (e_ser_xml env) (t_name tm)) as [[]|e]; [| |apply segs_nil]; cbn [lbind lift negb emit app].
  - destruct (serialize (e_pv env) (e_ser_dict env) (e_ser_xml env) m) as [[b|]|e]; cbn [lbind lift app]; [| |apply segs_nil].
    2:{ now specialize (SB eq_refl). }
    rewrite log_sent_eq.
    destruct (ENABLE_UDP_LOGGING s && negb (existsb (String.eqb (m_name m)) (UDP_SPAMMERS s) && DISABLE_SPAMMERS s)) eqn:E.
    + apply proj1 in AN. specialize (AN eq_refl). destruct (sock a b) eqn:K; cbn [lbind send_packet_l]; rewrite K; cbn; apply segs_one; now constructor.
    + assert (~ announced s (m_name m)) as N by (intros X; apply AN in X; discriminate).
      destruct (sock a b) eqn:K; cbn [lbind send_packet_l]; rewrite K; cbn; apply segs_one; now constructor.
  - rewrite log_sent_eq. destruct (_ && _) eqn:E; [|cbn; apply segs_one, seg_line; [discriminate|exact I]].
    destruct (ENABLE_BYTES_TO_HEX_LOGGING s) eqn:X; cbn; [apply segs_one, seg_line; [discriminate|exact I]|].
    apply segs_one. eapply seg_banned; [now apply AN|exact X|exact G].
Qed.
Lemma contain_segs s hs d e m : segs s hs d (fst (contain_l e m)).
Proof.
  unfold contain_l. destruct e; auto; destruct (msg_str_error m); auto; (apply segs_one; constructor; [discriminate|exact I]).
Qed.
Lemma send_segs s hs env st mref href md sock :
  segs s hs (e_ser_dict env) (snd (send_message_l s hs env st mref href md sock)).
Proof.
  unfold send_message_l. destruct (nth_error (s_hosts st) href) as [a|]; [|apply segs_nil].
  destruct (nth_error (s_msgs st) mref) as [m|]; [|apply segs_nil]. destruct (negb (host_ok a)); [apply segs_nil|].
  assert (segs s hs (e_ser_dict env) (fst (if HANDLE_OUTGOING_PACKETS s then handle_l hs (e_cb env) (s_handler st) m else ([], None)))) as H0.
  { destruct (HANDLE_OUTGOING_PACKETS s); [apply handle_segs|apply segs_nil]. }
  destruct (if HANDLE_OUTGOING_PACKETS s then handle_l hs (e_cb env) (s_handler st) m else ([], None)) as [t0 [e|]]; [exact H0|].
  destruct (find_circuit st href a) as [st1 c].
  destruct (match md with Reliable r => prepare_packet c mref m LL_RELIABLE_FLAG r | Plain => prepare_packet c mref m LL_NONE 0 end) as [c1 m1].
  set (st2 := match md with Plain => _ | Reliable _ => _ end). clearbody st2.
  pose proof (sending_segs s hs sock env a m1) as A.
  destruct (ldo send_buffer <- _; ldo _ <- log_sent s a m1 send_buffer; _) as [t [b|e]]; cbn [fst snd] in *.
  - now apply segs_app.
  - pose proof (contain_segs s hs (e_ser_dict env) e m1) as B. destruct (contain_l e m1). cbn [fst snd] in *.
    apply segs_app; [exact H0|]. now apply segs_app.
Qed.
Lemma flush_segs s hs env sock href ids : forall cur st,
  segs s hs (e_ser_dict env) (snd (flush_acks_l s hs env sock href ids cur st)).
Proof.
  induction ids as [|id ids IH]; intros cur st; cbn [flush_acks_l].
  - destruct (0 <? zlen cur); [apply send_segs|apply segs_nil].
  - assert (segs s hs (e_ser_dict env) (if LOG_VERBOSE s && negb (DISABLE_SPAMMERS s) then [Line (AckingLine id)] else [])) as L.
    { apply segs_if; [|discriminate]. intros E. apply andb_true_iff in E as [E1 E2]. apply negb_true_iff in E2. now split. }
    destruct (250 <? zlen (cur ++ [id])).
    + unfold send_new_l.
      pose proof (send_segs s hs env (set_msgs st (s_msgs st ++ [ack_message (cur ++ [id])])) (List.length (s_msgs st)) href Plain sock) as A.
      destruct (send_message_l s hs _ _ _ _ _ _) as [[st1 o] t]. cbn [snd] in A. destruct (o_res o).
      * specialize (IH [] st1). destruct (flush_acks_l s hs _ _ _ ids [] st1) as [[st2 o2] t2]. cbn [snd] in *.
        apply segs_app; [exact L|]. now apply segs_app.
      * now apply segs_app.
    + specialize (IH (cur ++ [id]) st). destruct (flush_acks_l s hs _ _ _ ids _ st) as [[st2 o2] t2]. cbn [snd] in *. now apply segs_app.
Qed.
Lemma send_acks_segs s hs env sock keys : forall st, segs s hs (e_ser_dict env) (snd (send_acks_l s hs env sock keys st)).
Proof.
  induction keys as [|k keys IH]; intros st; cbn [send_acks_l]; [apply segs_nil|].
  destruct (get_circuit (s_circuits st) k) as [c|]; [|apply IH].
  pose proof (flush_segs s hs env sock (c_host c) (c_acks c) [] st) as A.
  destruct (flush_acks_l s hs _ _ _ _ [] st) as [[st1 o] t]. cbn [snd] in A. destruct (o_res o); [|exact A].
  specialize (IH (clear_acks st1 k)). destruct (send_acks_l s hs _ _ keys _) as [[st2 o2] t2]. cbn [snd] in *. now apply segs_app.
Qed.
Lemma step_segs s hs env st o : segs s hs (e_ser_dict env) (snd (step_l s hs env st o)).
Proof.
  destruct o; cbn [step_l]; try apply segs_nil.
  - pose proof (send_segs s hs env st mref href md sock) as A. destruct (send_message_l s hs _ _ _ _ _ _) as [[st1 o] t]. exact A.
  - pose proof (receive_segs s hs (e_ser_dict env) env st href buf size) as A. destruct (receive_check_l s hs _ _ _ _ _) as [[st1 o] t]. exact A.
  - unfold process_acks_l. destruct (resend_all (s_unackedc st) st) as [st0 [u|e]]; [|apply segs_nil].
    pose proof (send_acks_segs s hs env sock (arrange order (dkeys (s_circuits st0))) st0) as A.
    destruct (send_acks_l s hs _ _ _ st0) as [[st1 o] t]. exact A.
Qed.
Lemma run_segs s hs env ops : forall st x t, In (x, t) (snd (run_l s hs env st ops)) -> segs s hs (e_ser_dict env) t.
Proof.
  induction ops as [|o ops IH]; intros st x t; [intros []|]. cbn [run_l].
  pose proof (step_segs s hs env st o) as A. destruct (step_l s hs env st o) as [[st1 y] t1]. cbn [snd] in A.
  specialize (IH st1 x t). destruct (run_l s hs env st1 ops) as [st2 xs]. cbn [snd] in *. intros [H|H]; [|now apply IH].
  injection H as <- <-. exact A.
Qed.

(** ** Reading the shape *)
Lemma split_app {A} (l1 : list A) : forall l2 pre x post, l1 ++ l2 = pre ++ x :: post ->
  (exists post', l1 = pre ++ x :: post' /\ post = post' ++ l2) \/ (exists pre', pre = l1 ++ pre' /\ l2 = pre' ++ x :: post).
Proof.
  induction l1 as [|a l1 IH]; intros l2 pre x post H; cbn in H.
  - right. exists pre. auto.
  - destruct pre as [|p pre]; cbn in H; injection H as -> H.
    + left. exists l1. auto.
    + destruct (IH _ _ _ _ H) as [(post' & -> & ->)|(pre' & -> & ->)]; [left; exists post'|right; exists pre']; auto.
Qed.
Ltac unseg := repeat match goal with
  | H : _ :: _ = ?p ++ _ :: _ |- _ => is_var p; destruct p as [|? p]; cbn in H; try discriminate H; injection H; clear H; intros; subst
  | H : [] = ?p ++ _ :: _ |- _ => exfalso; destruct p; discriminate H
  end.
Lemma segs_switched s hs d t l : segs s hs d t -> In (Line l) t -> switched_on s hs l.
Proof.
  intros (gs & -> & F) I. apply in_concat in I as (g & G & I). rewrite Forall_forall in F. apply F in G.
  destruct G; cbn in I; repeat (destruct I as [I|I]; [try discriminate I; try (injection I as <-)|]); try contradiction I; auto.
  - cbn. unfold host_shown, hex_shown. rewrite !shown_none. tauto.
  - exact Logic.I.
  - cbn. unfold host_shown. rewrite !shown_none. tauto.
Qed.
Lemma segs_handed s hs d t pre a m b ok post : segs s hs d t -> t = pre ++ Handed a m b ok :: post ->
  announced s (m_name m) -> exists pre', pre = pre' ++ [Line (sent_line s a m b)].
Proof.
  intros (gs & -> & F) E AN. revert pre E. induction gs as [|g gs IH]; intros pre E; [destruct pre; discriminate|].
  cbn [List.concat] in E. apply Forall_cons_iff in F as [Hg F].
  apply split_app in E as [(post' & E & _)|(pre' & -> & E)].
  - destruct Hg; unseg; try contradiction. now exists [].
  - destruct (IH F pre' E) as (p & ->). exists (g ++ p). now rewrite app_assoc.
Qed.
Lemma segs_sent s hs d t pre h n i x post : segs s hs d t -> t = pre ++ Line (SentLine h n i x) :: post ->
  (exists a m b ok post', post = Handed a m b ok :: post' /\ SentLine h n i x = sent_line s a m b /\ announced s (m_name m)) \/
  (x = None /\ ENABLE_BYTES_TO_HEX_LOGGING s = false /\ exists pre' tm, pre = pre' ++ [Line (BannedOutLine (t_name tm))] /\ get_template d n = Some tm).
Proof.
  intros (gs & -> & F) E. revert pre E. induction gs as [|g gs IH]; intros pre E; [destruct pre; discriminate|].
  cbn [List.concat] in E. apply Forall_cons_iff in F as [Hg F].
  apply split_app in E as [(post' & E & ->)|(pre' & -> & E)].
  - destruct Hg as [l N SW|u m|k|a m b ok AN|a m b ok AN|a m tm AN HX G];
      unseg; try (now exfalso; eapply N).
    + left. exists a, m, b, ok, (List.concat gs). auto.
    + right. split; [reflexivity|]. split; [exact HX|]. exists [], tm. auto.
  - destruct (IH F pre' E) as [H|(X & HX & p & tm & -> & G)]; [now left|right]. split; [exact X|]. split; [exact HX|]. exists (g ++ p), tm. split; [now rewrite app_assoc|exact G].
Qed.

(** ** Calls and datagrams *)
Lemma taken_app t t' : taken (t ++ t') = taken t ++ taken t'.
Proof. apply flat_map_app. Qed.
(** Nothing but lines and prints. *)
Definition still (t : list entry) : Prop := calls_of t = [] /\ taken t = [].
Lemma still_nil : still [].
Proof. now split. Qed.
Lemma still_app t t' : still t -> still t' -> still (t ++ t').
Proof. intros [A B] [C D]. split; [now rewrite calls_app, A, C|now rewrite taken_app, B, D]. Qed.
Lemma still_if (b : bool) l : still (if b then [Line l] else []).
Proof. now destruct b. Qed.
Lemma still_bind {A B} (x : lres A) (f : A -> lres B) : still (fst x) -> (forall a, still (fst (f a))) -> still (fst (lbind x f)).
Proof. intros H K. rewrite lbind_fst. apply still_app; [exact H|]. destruct (snd x); [apply K|apply still_nil]. Qed.
#[local] Hint Resolve still_nil still_if : core.
Lemma decode_vars_still name data vs : forall b pos, still (fst (decode_vars_l name data vs b pos)).
Proof.
  induction vs as [|v vs IH]; intros b pos; cbn [decode_vars_l]; [auto|]. apply still_bind; [|intros [[u p]|]; auto].
  unfold decode_var_l. destruct (tv_size v) as [size0|]; [|auto]. apply still_bind.
  - destruct (tv_type v) as [[]|]; auto. destruct (zlen data <? pos + size0); apply still_bind; cbn; auto.
  - intros [[k p]|]; [|auto]. destruct (zlen data <? p + k); [now cbn|].
    destruct (unpack_data data (tv_type v) p k None); now cbn.
Qed.
Lemma decode_instances_still name data tb n : forall i d pos, still (fst (decode_instances_l name data tb i n d pos)).
Proof.
  induction n as [|n IH]; intros i d pos; cbn [decode_instances_l]; [auto|].
  apply still_bind; [apply decode_vars_still|]. intros [[u p]|]; auto.
Qed.
Lemma decode_blocks_still name data tbs : forall d pos, still (fst (decode_blocks_l name data tbs d pos)).
Proof.
  induction tbs as [|tb tbs IH]; intros d pos; cbn [decode_blocks_l]; [auto|]. apply still_bind.
  - destruct (tb_type tb) as [[]|]; solve [auto | apply still_bind; auto | now cbn].
  - intros [[c p]|]; [|auto]. apply still_bind; [apply decode_instances_still|]. intros [[u q]|]; auto.
Qed.
Lemma deserialize_still s d x handled buf : still (fst (deserialize_l s d x handled buf)).
Proof.
  unfold deserialize_l. apply still_bind; [auto|]. intros [mb ta]. apply still_bind; [auto|]. intros mb'. apply still_bind.
  - unfold decode_template_l. destruct (zlen mb' <=? PACKET_ID_LENGTH); [auto|]. apply still_bind; [auto|]. intros [t|]; now cbn.
  - intros [t|]; [|auto]. apply still_bind; [auto|]. intros ok. destruct (negb ok); [now cbn|].
    destruct (handled (t_name t) || negb (ENABLE_DEFERRED_PACKET_PARSING s)); [|apply still_bind; cbn; auto].
    assert (still (fst (decode_data_l t (mb' ++ ta)))) as D; [|destruct (decode_data_l t (mb' ++ ta)) as [tr [r|[]]]; exact D].
    unfold decode_data_l. repeat (apply still_bind; [auto|]; intros ?). apply still_bind; [apply decode_blocks_still|].
    intros [[dd p]|]; [|auto]. destruct ((zlen dd <=? 0) && (0 <? zlen (t_blocks t))); auto.
Qed.
Lemma handle_taken hs cb r m : taken (fst (handle_l hs cb r m)) = [].
Proof.
  unfold handle_l. destruct (sget (m_name m) r) as [l|]; [|reflexivity]. destruct (0 <? subscriber_count l); [|reflexivity].
  assert (taken (fst (call_all_l cb m l)) = []) as H.
  { induction l as [|u l IH]; [reflexivity|]. cbn [call_all_l]. destruct (cb u m); [reflexivity|]. destruct (call_all_l cb m l). exact IH. }
  destruct (call_all_l cb m l) as [t e]. cbn [fst] in *. rewrite taken_app, H. now destruct (handling_logged hs).
Qed.
Lemma receive_out s hs env st href buf size :
  let '(_, r, t) := receive_check_l s hs env st href buf size in r_calls r = calls_of t /\ taken t = [].
Proof.
  unfold receive_check_l. destruct (nth_error (s_hosts st) href) as [a|]; [|now split].
  destruct (size <=? 0); [now split|]. destruct (find_circuit st href a) as [st1 c].
  pose proof (deserialize_still s (e_des_dict env) (e_des_xml env) (is_message_handled (s_handler (set_counts st1 (s_in st1 + 1) (s_out st1)))) buf) as D.
  destruct (deserialize_l s _ _ _ buf) as [t [[m|]|e]]; destruct D as [D1 D2]; cbn [fst] in D1, D2.
  - destruct (c_trusted c && negb (m_trusted m)); [now split|].
    match goal with |- context [t ++ ?X] => assert (still (t ++ X)) as [D3 D4] by (apply still_app; [now split|auto]) end.
    destruct (HANDLE_PACKETS s); [|now split].
    pose proof (handle_taken hs (e_cb env) (s_handler (put_circuit (set_counts st1 (s_in st1 + 1) (s_out st1)) a (handle_packet c m))) m) as K.
    destruct (handle_l hs _ _ m). cbn [fst] in K. rewrite calls_app, D3, taken_app, D4, K. now split.
  - destruct (do _ <- pyindex buf 0; unpack_z buf MVT_U32 1 (Some BE)); now split.
  - now split.
Qed.
Lemma sending_out s sock env a m :
  let '(t, r) := ldo send_buffer <- serialize_l (e_pv env) (e_ser_dict env) (e_ser_xml env) m;
                 ldo _ <- log_sent s a m send_buffer; send_packet_l sock a m send_buffer in
  calls_of t = [] /\ taken t = match r with Ok b => [(a, m, b)] | Err _ => [] end.
Proof.
  assert (still (fst (serialize_l (e_pv env) (e_ser_dict env) (e_ser_xml env) m))) as S.
  { unfold serialize_l. destruct (get_template _ _); [|auto]. apply still_bind; [auto|]. intros ok. destruct (negb ok); now cbn. }
  destruct (serialize_l (e_pv env) (e_ser_dict env) (e_ser_xml env) m) as [t0 [sb|e]]; destruct S as [S1 S2]; cbn [fst] in S1, S2; [|now split].
  cbn [lbind]. assert (still (fst (log_sent s a m sb))) as L.
  { rewrite log_sent_eq. destruct (_ && _); [|auto]. destruct sb; [now cbn|]. destruct (ENABLE_BYTES_TO_HEX_LOGGING s); now cbn. }
  destruct (log_sent s a m sb) as [t1 [u|e]]; destruct L as [L1 L2]; cbn [fst] in L1, L2; cbn [lbind].
  - destruct sb as [b|]; cbn [send_packet_l lift].
    + destruct (sock a b); rewrite !calls_app, !taken_app, S1, S2, L1, L2; now split.
    + rewrite !calls_app, !taken_app, S1, S2, L1, L2; now split.
  - rewrite !calls_app, !taken_app, S1, S2, L1, L2; now split.
Qed.
Lemma contain_still e m : still (fst (contain_l e m)).
Proof. unfold contain_l. destruct e; auto; destruct (msg_str_error m); now cbn. Qed.
Definition out_ok (o : dout) (t : list entry) : Prop := o_calls o = calls_of t /\ taken_attempts (o_sends o) = taken t.
Lemma send_out s hs env st mref href md sock :
  let '(_, o, t) := send_message_l s hs env st mref href md sock in out_ok o t.
Proof.
  unfold send_message_l, out_ok. destruct (nth_error (s_hosts st) href) as [a|]; [|now split].
  destruct (nth_error (s_msgs st) mref) as [m|]; [|now split]. destruct (negb (host_ok a)); [now split|].
  assert (taken (fst (if HANDLE_OUTGOING_PACKETS s then handle_l hs (e_cb env) (s_handler st) m else ([], None))) = []) as H0.
  { destruct (HANDLE_OUTGOING_PACKETS s); [apply handle_taken|reflexivity]. }
  destruct (if HANDLE_OUTGOING_PACKETS s then handle_l hs (e_cb env) (s_handler st) m else ([], None)) as [t0 [e|]]; cbn [fst] in H0; [now rewrite H0|].
  destruct (find_circuit st href a) as [st1 c].
  destruct (match md with Reliable r => prepare_packet c mref m LL_RELIABLE_FLAG r | Plain => prepare_packet c mref m LL_NONE 0 end) as [c1 m1].
  set (st2 := match md with Plain => _ | Reliable _ => _ end). clearbody st2.
  pose proof (sending_out s sock env a m1) as A.
  destruct (ldo send_buffer <- _; ldo _ <- log_sent s a m1 send_buffer; _) as [t [b|e]]; destruct A as [A1 A2].
  - cbn. rewrite calls_app, taken_app, A1, A2, H0, app_nil_r. now split.
  - destruct (contain_still e m1) as [B1 B2]. destruct (contain_l e m1) as [t' r]. cbn [fst o_calls o_sends] in *.
    rewrite !calls_app, !taken_app, A1, A2, H0, B1, B2, !app_nil_r. now split.
Qed.
Lemma out_app o1 o2 t1 t2 : out_ok o1 t1 -> out_ok o2 t2 -> out_ok (app_out o1 o2) (t1 ++ t2).
Proof.
  intros [A B] [C D]. split; cbn [app_out o_calls o_sends]; [now rewrite calls_app, A, C|].
  unfold taken_attempts. rewrite flat_map_app, taken_app. unfold taken_attempts in *. now rewrite B, D.
Qed.
Lemma out_line o t (b : bool) l : out_ok o t -> out_ok o ((if b then [Line l] else []) ++ t).
Proof. intros [A B]. split; now destruct b. Qed.
Lemma flush_out s hs env sock href ids : forall cur st,
  let '(_, o, t) := flush_acks_l s hs env sock href ids cur st in out_ok o t.
Proof.
  induction ids as [|id ids IH]; intros cur st; cbn [flush_acks_l].
  - destruct (0 <? zlen cur); [apply send_out|now split].
  - destruct (250 <? zlen (cur ++ [id])).
    + unfold send_new_l.
      pose proof (send_out s hs env (set_msgs st (s_msgs st ++ [ack_message (cur ++ [id])])) (List.length (s_msgs st)) href Plain sock) as A.
      destruct (send_message_l s hs _ _ _ _ _ _) as [[st1 o] t]. destruct (o_res o).
      * specialize (IH [] st1). destruct (flush_acks_l s hs _ _ _ ids [] st1) as [[st2 o2] t2]. apply out_line. now apply out_app.
      * now apply out_line.
    + specialize (IH (cur ++ [id]) st). destruct (flush_acks_l s hs _ _ _ ids _ st) as [[st2 o2] t2]. now apply out_line.
Qed.
Lemma send_acks_out s hs env sock keys : forall st, let '(_, o, t) := send_acks_l s hs env sock keys st in out_ok o t.
Proof.
  induction keys as [|k keys IH]; intros st; cbn [send_acks_l]; [now split|].
  destruct (get_circuit (s_circuits st) k) as [c|]; [|apply IH].
  pose proof (flush_out s hs env sock (c_host c) (c_acks c) [] st) as A.
  destruct (flush_acks_l s hs _ _ _ _ [] st) as [[st1 o] t]. destruct (o_res o); [|exact A].
  specialize (IH (clear_acks st1 k)). destruct (send_acks_l s hs _ _ keys _) as [[st2 o2] t2]. now apply out_app.
Qed.
Definition outcome_ok (x : outcome) (t : list entry) : Prop :=
  match x with
  | OUnit => t = []
  | OSend o => o_calls o = calls_of t /\ taken_attempts (o_sends o) = taken t
  | ORecv r => r_calls r = calls_of t /\ taken t = []
  end.
Lemma step_out s hs env st o : let '(_, x, t) := step_l s hs env st o in outcome_ok x t.
Proof.
  destruct o; cbn [step_l step send_retry]; try reflexivity; try (now split).
  - pose proof (send_out s hs env st mref href md sock) as A. destruct (send_message_l s hs _ _ _ _ _ _) as [[st1 o] t]. exact A.
  - pose proof (receive_out s hs env st href buf size) as A. destruct (receive_check_l s hs _ _ _ _ _) as [[st1 o] t]. exact A.
  - unfold process_acks_l. destruct (resend_all (s_unackedc st) st) as [st0 [u|e]]; [|now split].
    pose proof (send_acks_out s hs env sock (arrange order (dkeys (s_circuits st0))) st0) as A.
    destruct (send_acks_l s hs _ _ _ st0) as [[st1 o] t]. exact A.
Qed.
Lemma run_out s hs env ops : forall st x t, In (x, t) (snd (run_l s hs env st ops)) -> outcome_ok x t.
Proof.
  induction ops as [|o ops IH]; intros st x t; [intros []|]. cbn [run_l].
  pose proof (step_out s hs env st o) as A. destruct (step_l s hs env st o) as [[st1 y] t1].
  specialize (IH st1 x t). destruct (run_l s hs env st1 ops) as [st2 xs]. cbn [snd] in *. intros [H|H]; [|now apply IH].
  injection H as <- <-. exact A.
Qed.
