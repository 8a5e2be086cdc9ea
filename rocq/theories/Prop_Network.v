(** Managers talking to each other: C60, C61 and C62.  Vocabulary: SpecNetwork.v
    (with SpecManager.v, SpecDispatch.v and, for C62, SpecRoundTrip.v). *)
From Verif Require Import Lib Samples SpecNetwork PacketRules DispatchProofs DispatchMore ManagerProofs NetworkProofs StormProofs DeliveryProofs.
From Verif Require Import SpecFloats SpecRoundTrip RoundTripProofs Prop_Dispatch Prop_Manager Prop_RoundTrip.
From Verif Require Import SpecLayout SpecRoundTrip.
Open Scope Z_scope.

(** ** C60 *)
(** Nothing a manager sends has appended acks. *)
Theorem C60_no_acks_on_wire n d : net_reachable n -> In d (n_wire n) -> bare d.
Proof. exact (net_bare n d). Qed.
Print Assumptions C60_no_acks_on_wire.
(** The ids outstanding at a node are all those it ever sent reliably. *)
Theorem C60_all_outstanding n i a id : net_reachable n -> (waiting n i a id <-> once_sent n i a id).
Proof. exact (net_waiting n i a id). Qed.
Print Assumptions C60_all_outstanding.
(** Once outstanding, outstanding for ever. *)
Theorem C60_never_acknowledged n n' i a id : net_reachable n -> net_steps n n' -> waiting n i a id -> waiting n' i a id.
Proof. exact (net_waiting_forever n n' i a id). Qed.
Print Assumptions C60_never_acknowledged.

(** ** C61 *)
Theorem C61_one_ack env host eq ops m b data order sock m' es :
  Forall host_keeping ops -> m = fst (mrun env (mm_init host eq) ops) -> mm_pc m = PRecv -> data <> [] ->
  mstep env m (MLoop (RData b data) order sock) = (m', es) -> answered env m b data es.
Proof. exact (one_ack env host eq ops m b data order sock m' es). Qed.
Print Assumptions C61_one_ack.
(** And the acks are sent at no other time: any other step of the manager makes
    no call of process_acks. *)
Theorem C61_no_other_acks env host eq ops m o m' es acks :
  Forall host_keeping ops -> m = fst (mrun env (mm_init host eq) ops) ->
  mstep env m o = (m', es) -> In (EAcks acks) es ->
  exists b data order sock, o = MLoop (RData b data) order sock /\ data <> [] /\ mm_pc m = PRecv.
Proof. exact (acks_only_received env host eq ops m o m' es acks). Qed.
Print Assumptions C61_no_other_acks.

(** ** C62 *)
(** Manager [m1] sends the message [w] from its queue; the datagram [d] it gives
    to the socket, when [m2] receives it, makes [m2]'s loop call the subscribers
    with a message [w'] that says the same as the one sent, and is acknowledged
    if and only if it was sent reliably. *)
Theorem C62_delivered env1 m1 r order sock m1' msg rel o x w env2 m2 src pv' ts t :
  m_reachable env1 m1 -> mstep env1 m1 (MLoop r order sock) = (m1', [ESend msg rel o]) -> In x (o_sends o) ->
  nth_error (s_msgs (mm_disp m1)) msg = Some w ->
  m_id (at_msg x) < 2 ^ 31 -> pending_acks (mm_disp m1) (at_addr x) = [] -> (forall d, sock (at_addr x) d = None) ->
  build_dict pv' ts = Ok (e_ser_dict env1) -> e_des_dict env2 = e_ser_dict env1 -> Forall sized ts -> unambiguous ts -> In t ts -> usable t ->
  m_name w = t_name t -> conforming t w ->
  t_blocks t = [] \/ (exists tb, In tb (t_blocks t) /\ instances w (tb_name tb) <> []) ->
  udp_allowed (e_ser_xml env1) (t_name t) -> udp_allowed (e_des_xml env2) (t_name t) ->
  m_reachable env2 m2 -> mm_pc m2 = PRecv -> e_handle env2 = true -> is_message_handled (s_handler (mm_disp m2)) (t_name t) = true ->
  trusted (mm_disp m2) src = false ->
  exists d w', at_data x = Some d /\ message_back t (at_msg x) w' /\
    acks_due env2 (mm_disp m2) src d = (if rel then [m_id (at_msg x)] else []) /\
    forall order2 sock2, exists m2' ro acks, mstep env2 m2 (MLoop (RData src d) order2 sock2) = (m2', ERecv ro :: acks) /\
      r_calls ro = map (fun s => (s, w')) (fst (handle (e_cb env2) (s_handler (mm_disp m2)) w')) /\
      r_res ro = match snd (handle (e_cb env2) (s_handler (mm_disp m2)) w') with Some e => Err e | None => Ok (Some w') end.
Proof. exact (deliver env1 m1 r order sock m1' msg rel o x w env2 m2 src pv' ts t). Qed.
Print Assumptions C62_delivered.

(** ** C63 *)
(** A manager without a subscriber to PacketAck answers an acknowledgement with
    an acknowledgement, which its peer will answer in turn. *)
Theorem C63_ack_of_ack env host eq ops m b data order sock m' es pv' ts t :
  Forall host_keeping ops -> m = fst (mrun env (mm_init host eq) ops) -> mm_pc m = PRecv ->
  e_deferred env = true -> is_message_handled (s_handler (mm_disp m)) "PacketAck" = false ->
  sget "PacketAck"%string (e_des_xml env) <> Some None ->
  outgoing_quiet env (mm_disp m) -> host_ok b = true -> ack_datagram (e_des_dict env) data ->
  mstep env m (MLoop (RData b data) order sock) = (m', es) ->
  exists ro o x n, es = [ERecv ro; EAcks o] /\ r_calls ro = [] /\ sequence_number data = Some n /\
    o_sends o = [x] /\ at_addr x = b /\ acknowledges (at_msg x) [n] /\ mm_pc m' = PDrain /\
    (build_dict pv' ts = Ok (e_ser_dict env) -> Forall sized ts -> unambiguous ts -> In t ts -> packet_ack_template t ->
     udp_allowed (e_ser_xml env) "PacketAck" -> m_id (at_msg x) < 2 ^ 31 -> (forall d, sock b d = None) ->
     exists d, at_data x = Some d /\ ack_datagram (e_ser_dict env) d).
Proof.
  intros F EM PC DF NH XM Q HO (t0 & CA & TN) E.
  destruct (ack_acked env host eq ops m b data order sock m' es t0 F EM PC DF NH XM Q HO CA TN E)
    as (ro & o & x & n & EA & RC & SN & OS & AA & AK & PD & N0 & I1 & AD).
  exists ro, o, x, n. repeat (split; [assumption|]). intros BD SZ UN IN PT UA ID SK.
  set (c := {| dc_dict := e_ser_dict env; dc_xml := e_ser_xml env; dc_deferred := false; dc_handled := Some (fun _ => true) |}).
  destruct (C26_decodes pv' (e_pv env) ts c (e_ser_xml env) (at_msg x) [n] t (fun _ => true)) as (d & w & S & D & MN & _); auto.
  - unfold zlen. cbn. lia.
  - lia.
  - right. unfold fits. cbn. lia.
  - exists d. split.
    + rewrite AD. unfold put_on_wire. cbn in S. rewrite S, AA, SK. reflexivity.
    + destruct (decoded_blocks pv' ts c (fun _ => true) d w BD SZ eq_refl D) as (t1 & C1 & N1 & _). exists t1. split; [exact C1|congruence].
Qed.
Print Assumptions C63_ack_of_ack.
(** Two such managers keep a PacketAck going back and forth [k] times, for any [k]
    for which the packet numbers stay below 2^31, without their applications
    doing anything. *)
Theorem C63_volley pv' ts t : Forall sized ts -> unambiguous ts -> In t ts -> packet_ack_template t ->
  forall k env1 env2 a1 a2 m1 m2 d,
  Forall (fun env => e_deferred env = true /\ udp_allowed (e_des_xml env) "PacketAck" /\ udp_allowed (e_ser_xml env) "PacketAck" /\
                     build_dict pv' ts = Ok (e_ser_dict env) /\ e_des_dict env = e_ser_dict env) [env1; env2] ->
  host_ok a1 = true -> host_ok a2 = true -> resting env1 m1 -> resting env2 m2 ->
  last_number (mm_disp m1) a2 + Z.of_nat k < 2 ^ 31 -> last_number (mm_disp m2) a1 + Z.of_nat k < 2 ^ 31 ->
  ack_datagram (e_des_dict env1) d -> volley env1 env2 a1 a2 k m1 m2 d.
Proof.
  intros SZ UN IN PT. induction k as [|k IH]; [intros; exact I|].
  intros env1 env2 a1 a2 m1 m2 d FE H1 H2 R1 R2 L1 L2 (t0 & CA & TN).
  pose proof FE as FE'. inversion FE' as [|? ? (DF & XD & XS & BD & ED) FE2]; subst.
  destruct (resting_returns env1 m1 a2 d t0 R1 DF) as (m' & ro & o & x & n & RUN & OS & AA & AK & N0 & PU & ID & I1 & R' & LN); auto.
  { unfold udp_allowed in XD. destruct (sget "PacketAck"%string (e_des_xml env1)) as [[f|]|]; [discriminate|contradiction|discriminate]. }
  set (c := {| dc_dict := e_ser_dict env1; dc_xml := e_ser_xml env1; dc_deferred := false; dc_handled := Some (fun _ => true) |}).
  destruct (C26_decodes pv' (e_pv env1) ts c (e_ser_xml env1) (at_msg x) [n] t (fun _ => true)) as (d' & w & S & D & MN & _); auto.
  { unfold zlen. cbn. lia. }
  { lia. }
  { right. unfold fits. cbn. lia. }
  exists m', d'. split.
  - exists ro, o, x. repeat (split; [assumption|]). rewrite PU. unfold put_on_wire. cbn in S. rewrite S, AA. reflexivity.
  - apply IH; auto; try lia.
    + inversion FE2 as [|? ? P2 _]; subst. repeat constructor; apply P2 || apply (Forall_inv FE).
    + destruct (decoded_blocks pv' ts c (fun _ => true) d' w BD SZ eq_refl D) as (t1 & C1 & N1 & _). exists t1. split; [|congruence].
      inversion FE2 as [|? ? (_ & _ & _ & BD2 & ED2) _]; subst. cbn in C1. rewrite ED2.
      assert (e_ser_dict env2 = e_ser_dict env1) as -> by congruence. exact C1.
Qed.
Print Assumptions C63_volley.

(** ** A case: two managers exchanging a reliable message and its PacketAck *)
(** One step at node [i], computed. *)
Definition net_do (n : network) (io : nat * mop) : network :=
  match nth_error (n_nodes n) (fst io) with
  | None => n
  | Some (env, m) =>
      let r := mstep env m (snd io) in
      {| n_nodes := firstn (fst io) (n_nodes n) ++ (env, fst r) :: skipn (S (fst io)) (n_nodes n);
         n_wire := n_wire n ++ datagrams (snd r); n_log := n_log n ++ map (pair (fst io)) (snd r) |}
  end.
Lemma net_do_step n io : may (n_wire n) (snd io) -> net_do n io = n \/ net_step n (net_do n io).
Proof.
  intros M. unfold net_do. destruct (nth_error (n_nodes n) (fst io)) as [[env m]|] eqn:E; [|now left]. right.
  destruct n as [ns w l]. cbn [n_nodes n_wire n_log] in *. destruct (nth_error_split _ _ E) as (b & a & -> & L).
  rewrite <- L, firstn_app, Nat.sub_diag, firstn_all, firstn_O, app_nil_r.
  replace (skipn (S (List.length b)) (b ++ (env, m) :: a)) with a
    by (rewrite skipn_app, skipn_all2 by lia; replace (S (List.length b) - List.length b)%nat with 1%nat by lia; reflexivity).
  apply (net_at (List.length b) b env m a (snd io)); auto. apply surjective_pairing.
Qed.
Fixpoint net_ok (n : network) (ios : list (nat * mop)) : Prop :=
  match ios with [] => True | io :: tl => may (n_wire n) (snd io) /\ net_ok (net_do n io) tl end.
Lemma net_do_steps ios : forall n0 n, net_steps n0 n -> net_ok n ios -> net_steps n0 (fold_left net_do ios n).
Proof.
  induction ios as [|io ios IH]; intros n0 n S; cbn; [auto|]. intros [M K]. apply IH; [|exact K].
  destruct (net_do_step n io M) as [->|N]; [exact S|]. exact (ns_step _ _ _ S N).
Qed.
Definition nw_sender : list mop :=
  [MUser (NewMsg s_msg2); MEnqueue 0 true false; mg_quiet; mg_quiet; mg_quiet; mg_quiet].
(** What it sends, and the PacketAck it gets. *)
Definition nw_data : bytes :=
  [x40; x00; x00; x00; x01; x00; x03; x07; x02; x03; x68; x69; x00; x05; x01; x00; x01].
Definition nw_ack : bytes :=
  [x00; x00; x00; x00; x01; x00; xff; xff; xff; xfb; x01; x01; x00; x00; x00].
Definition nw_before : list (nat * mop) :=
  map (pair 0%nat) nw_sender ++ [(1, mg_quiet); (1, mg_quiet)]%nat.
Definition nw_after : list (nat * mop) :=
  [(1, MUser (SetHandler [("Ping"%string, [d_sub])])); (1, MLoop (RData d_a nw_data) [] d_sock);
   (0, mg_quiet); (0, mg_quiet); (0, MLoop (RData d_b nw_ack) [] d_sock)]%nat.
Definition nw_start := net_start [(d_env, d_b, None); (d_env, d_a, Some eq_init)].
Definition nw_1 := fold_left net_do nw_before nw_start.
Definition nw_2 := fold_left net_do nw_after nw_1.
Lemma net_trans a b c : net_steps a b -> net_steps b c -> net_steps a c.
Proof. intros A B. induction B as [|b c d B IH S]; [exact A|]. exact (ns_step _ _ _ (IH A) S). Qed.
Lemma nw_steps1 : net_steps nw_start nw_1.
Proof. apply net_do_steps; [constructor|]. vm_compute. auto 20. Qed.
Lemma nw_steps2 : net_steps nw_1 nw_2.
Proof. apply net_do_steps; [constructor|]. vm_compute. auto 20. Qed.
(** The message and its PacketAck both arrive; the sender's id 1 is still
    outstanding, and the sender answers the PacketAck with one of its own. *)
Example C60_ex : net_reachable nw_1 /\ net_steps nw_1 nw_2 /\ waiting nw_1 0 d_b 1 /\ waiting nw_2 0 d_b 1 /\
  In nw_ack (n_wire nw_2) /\ List.length (n_wire nw_2) = 3%nat /\ once_sent nw_2 0 d_b 1.
Proof.
  assert (R1 : net_reachable nw_1) by (eexists; exact nw_steps1).
  assert (W : waiting nw_1 0 d_b 1).
  { destruct (nth_error (n_nodes nw_1) 0) as [[env m]|] eqn:E; [|discriminate]. exists env, m. split; [exact E|].
    revert E. vm_compute. intros [= _ <-]. left. reflexivity. }
  assert (W2 : waiting nw_2 0 d_b 1) by exact (C60_never_acknowledged _ _ _ _ _ R1 nw_steps2 W).
  assert (R2 : net_reachable nw_2) by (destruct R1 as (cs & S); exists cs; exact (net_trans _ _ _ S nw_steps2)).
  split; [exact R1|]. split; [exact nw_steps2|]. split; [exact W|]. split; [exact W2|].
  split; [vm_compute; auto|]. split; [vm_compute; reflexivity|]. now apply C60_all_outstanding.
Qed.
Definition nw_ops1 : list mop := [mg_quiet; mg_quiet; MUser (SetHandler [("Ping"%string, [d_sub])])].
Definition nw_m1 : mstate := fst (mrun d_env (mm_init d_a (Some eq_init)) nw_ops1).
Example C61_ex : Forall host_keeping nw_ops1 /\ mm_pc nw_m1 = PRecv /\
  acks_due d_env (mm_disp nw_m1) d_a nw_data = [1] /\
  exists ro o x, snd (mstep d_env nw_m1 (MLoop (RData d_a nw_data) [] d_sock)) = [ERecv ro; EAcks o] /\
    o_sends o = [x] /\ at_addr x = d_a /\ at_data x = Some nw_ack.
Proof.
  split; [repeat constructor|]. split; [reflexivity|]. split; [vm_compute; reflexivity|].
  vm_compute. do 3 eexists. repeat split; reflexivity.
Qed.
Definition nw_m0 : mstate := fst (mrun d_env (mm_init d_b None) (firstn 5 nw_sender)).
Lemma d_sized : Forall sized (d_ack :: s_ts).
Proof.
  constructor; [|exact s_sized]. intros tb v s [<-|[]] [<-|[]]. cbn. intros [= <-]. lia.
Qed.
Lemma d_unambiguous : unambiguous (d_ack :: s_ts).
Proof. split; cbn; repeat constructor; cbn; intuition congruence. Qed.
Lemma d_built : build_dict Py27 (d_ack :: s_ts) = Ok d_dict.
Proof. reflexivity. Qed.

Lemma s_conforming2 : conforming s_ping s_msg2.
Proof. exact (proj1 C07_ex). Qed.
(** The hypotheses of C62 hold of the exchange above. *)
Example C62_ex : exists d w w', d = nw_data /\ message_back s_ping w w' /\ m_blocks w = m_blocks s_msg2 /\
  exists m2 ro acks, mstep d_env nw_m1 (MLoop (RData d_a d) [] d_sock) = (m2, ERecv ro :: acks) /\ r_calls ro = [(d_sub, w')].
Proof.
  destruct (mstep d_env nw_m0 mg_quiet) as [m0' es] eqn:E.
  assert (exists o x, es = [ESend 0 true o] /\ o_sends o = [x] /\ m_id (at_msg x) = 1 /\ m_blocks (at_msg x) = m_blocks s_msg2 /\ at_addr x = d_b /\ at_data x = Some nw_data) as (o & x & -> & OS & ID & MB & AA & AD).
  { revert E. vm_compute. intros [= _ <-]. do 2 eexists. repeat split; reflexivity. }
  destruct (C62_delivered d_env nw_m0 RFail [] d_sock m0' 0 true o x s_msg2 d_env nw_m1 d_a Py27 (d_ack :: s_ts) s_ping)
    as (d & w' & D & B & AD2 & C).
  - eexists _, _, _. reflexivity.
  - exact E.
  - rewrite OS. now left.
  - reflexivity.
  - rewrite ID. reflexivity.
  - rewrite AA. reflexivity.
  - reflexivity.
  - exact d_built.
  - reflexivity.
  - exact d_sized.
  - exact d_unambiguous.
  - right. now left.
  - exact s_usable.
  - reflexivity.
  - exact s_conforming2.
  - right. exists s_a. split; [now left|discriminate].
  - exact I.
  - exact I.
  - eexists _, _, _. reflexivity.
  - reflexivity.
  - reflexivity.
  - reflexivity.
  - reflexivity.
  - exists d, (at_msg x), w'. rewrite AD in D. injection D as <-. split; [reflexivity|]. split; [exact B|]. split; [exact MB|].
    destruct (C [] d_sock) as (m2 & ro & acks & E2 & RC & _). exists m2, ro, acks. split; [exact E2|]. rewrite RC.
    destruct B as (MN & _). assert (m_name w' = "Ping"%string) as N.
    { rewrite MN. destruct (C45_send d_env nw_m0 mg_quiet 0 true o) as (r & od & sk & m' & _ & _ & _ & F);
        [eexists _, _, _; reflexivity|rewrite E; now left|]. rewrite OS in F. apply Forall_inv in F as (_ & _ & w & W & WN & _).
      rewrite WN. injection W as <-. reflexivity. }
    unfold handle. rewrite N. reflexivity.
Qed.
Lemma nw_ack_is_ack : ack_datagram d_dict nw_ack.
Proof.
  destruct (deserialize {| dc_dict := d_dict; dc_xml := []; dc_deferred := false; dc_handled := Some (fun _ => true) |} nw_ack) as [[w|]|] eqn:D;
    try (vm_compute in D; discriminate).
  destruct (decoded_blocks Py27 (d_ack :: s_ts) {| dc_dict := d_dict; dc_xml := []; dc_deferred := false; dc_handled := Some (fun _ => true) |}
    (fun _ => true) nw_ack w d_built d_sized eq_refl D) as (t1 & C1 & N1 & _).
  exists t1. split; [exact C1|]. rewrite <- N1. vm_compute in D. injection D as <-. reflexivity.
Qed.
(** Both managers above are in the situation of C63. *)
Definition nw_ops0 : list mop := nw_sender ++ [mg_quiet; mg_quiet].
Definition nw_m0' : mstate := fst (mrun d_env (mm_init d_b None) nw_ops0).
Example C63_ex : exists ro o x, snd (mstep d_env nw_m0' (MLoop (RData d_b nw_ack) [] d_sock)) = [ERecv ro; EAcks o] /\
  o_sends o = [x] /\ at_addr x = d_b /\ acknowledges (at_msg x) [1] /\ exists d, at_data x = Some d /\ ack_datagram d_dict d.
Proof.
  destruct (mstep d_env nw_m0' (MLoop (RData d_b nw_ack) [] d_sock)) as [m' es] eqn:E.
  assert (m_id (at_msg (hd {| at_addr := d_a; at_msg := s_msg; at_data := None |}
    (match es with [_; EAcks o] => o_sends o | _ => [] end))) = 2) as ID by (revert E; vm_compute; intros [= _ <-]; reflexivity).
  destruct (C63_ack_of_ack d_env d_b None nw_ops0 nw_m0' d_b nw_ack [] d_sock m' es Py27 (d_ack :: s_ts) d_ack)
    as (ro & o & x & n & -> & RC & SN & OS & AA & AK & _ & W); auto.
  - repeat constructor.
  - discriminate.
  - discriminate.
  - exact nw_ack_is_ack.
  - assert (n = 1) as -> by (vm_compute in SN; congruence).
    exists ro, o, x. split; [reflexivity|]. split; [exact OS|]. split; [exact AA|]. split; [exact AK|].
    apply W; auto using d_built, d_sized, d_unambiguous.
    + now left.
    + exact (proj1 C26_decodes_ex).
    + exact I.
    + cbn in ID. rewrite OS in ID. cbn in ID. rewrite ID. reflexivity.
Qed.
(** A thousand PacketAcks between the two managers, set off by one. *)
Definition nw_m1' : mstate := fst (mrun d_env (mm_init d_a (Some eq_init)) (nw_ops1 ++
  [MLoop (RData d_a nw_data) [] d_sock; mg_quiet; mg_quiet])).
Example C63_volley_ex : volley d_env d_env d_a d_b 1000 nw_m0' nw_m1' nw_ack.
Proof.
  apply (C63_volley Py27 (d_ack :: s_ts) d_ack d_sized d_unambiguous (or_introl eq_refl) (proj1 C26_decodes_ex)); try reflexivity.
  - assert (forall P : denv -> Prop, P d_env -> Forall P [d_env; d_env]) as F by (intros P H; repeat constructor; exact H).
    apply F. split; [reflexivity|]. split; [exact I|]. split; [exact I|]. split; [exact d_built|reflexivity].
  - split; [exists d_b, None, nw_ops0; split; [repeat constructor|reflexivity]|]. repeat split; try reflexivity; try discriminate.
  - split; [eexists d_a, (Some eq_init), _; split; [|reflexivity]; repeat constructor|]. repeat split; try reflexivity; try discriminate.
  - exact nw_ack_is_ack.
Qed.
