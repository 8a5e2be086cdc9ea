(** The endless exchange of PacketAcks: C63. *)
From Verif Require Import Lib SpecMessages MessageProofs SpecNetwork EventsProofs LayoutProofs PacketProofs PacketMore PacketForms PacketRules DispatchProofs DispatchMore ManagerProofs NetworkProofs.
Open Scope Z_scope.

Lemma last_number_id st a : last_number st a = last_id st a.
Proof. reflexivity. Qed.
Lemma zseq_len n : List.length (zseq n) = Z.to_nat n.
Proof. unfold zseq. now rewrite map_length, seq_length. Qed.
Lemma last_trace env ops a : 
  Z.to_nat (last_id (fst (run env init_state ops)) a) = List.length (attempts_to a (since_removal a (trace env init_state ops))).
Proof.
  destruct (history_ledger env ops a) as [L _]. rewrite <- (map_length (fun x => m_id (at_msg x))), L. now rewrite zseq_len.
Qed.
Lemma last_nonneg env st a : reachable env st -> 0 <= last_id st a.
Proof.
  intros R. destruct (reachable_good _ _ R) as [I _]. unfold last_id. destruct (circ st a) as [c|] eqn:C; [|lia].
  exact (ok_last _ (inv_circ _ I _ _ C)).
Qed.
Lemma run_snoc env ops o : fst (run env init_state (ops ++ [o])) = fst (step env (fst (run env init_state ops)) o).
Proof. generalize init_state. induction ops as [|o' ops IH]; intros st; cbn [app]; rewrite !run_fst; [reflexivity|apply IH]. Qed.
Lemma process_last env st order sock st' o x : reachable env st -> process_acks env st order sock = (st', o) -> o_sends o = [x] ->
  m_id (at_msg x) = last_id st (at_addr x) + 1 /\ last_id st' (at_addr x) = last_id st (at_addr x) + 1.
Proof.
  intros R E X. pose proof R as (ops & ->). set (a := at_addr x).
  pose proof (last_nonneg env _ a R) as P.
  assert (reachable env st') as R'.
  { replace st' with (fst (step env (fst (run env init_state ops)) (ProcessAcks order sock))) by (cbn [step]; now rewrite E).
    now apply reachable_step. }
  pose proof (last_nonneg env _ a R') as P'.
  pose proof (last_trace env ops a) as L0. pose proof (last_trace env (ops ++ [ProcessAcks order sock]) a) as L1.
  assert (attempts_to a (since_removal a (trace env init_state (ops ++ [ProcessAcks order sock]))) =
          attempts_to a (since_removal a (trace env init_state ops)) ++ [x]) as T.
  { rewrite trace_app. cbn [trace]. unfold events. cbn [step snd]. rewrite E. cbn [snd]. rewrite app_nil_r, X.
    rewrite since_attempts, attempts_app. cbn. fold a. now rewrite addr_eqb_refl. }
  rewrite run_snoc in L1. cbn [step fst] in L1. rewrite E in L1. cbn [fst] in L1.
  rewrite T, app_length in L1. cbn in L1.
  split; [|lia].
  assert (nth_error (attempts_to a (since_removal a (trace env init_state (ops ++ [ProcessAcks order sock]))))
    (List.length (attempts_to a (since_removal a (trace env init_state ops)))) = Some x) as N.
  { rewrite T, nth_error_app2, Nat.sub_diag by lia. reflexivity. }
  apply ids_in_order in N. rewrite N, <- L0. lia.
Qed.
Lemma receive_last env st href buf size a : reachable env st -> last_id (fst (receive_check env st href buf size)) a = last_id st a.
Proof.
  intros R. pose proof R as (ops & ->).
  assert (reachable env (fst (receive_check env (fst (run env init_state ops)) href buf size))) as R' by now apply receive_reach.
  pose proof (last_nonneg env _ a R') as P'. pose proof (last_nonneg env _ a R) as P.
  pose proof (last_trace env ops a) as L0. pose proof (last_trace env (ops ++ [Receive href buf size]) a) as L1.
  rewrite run_snoc in L1. cbn [step] in L1. 
  destruct (receive_check env (fst (run env init_state ops)) href buf size) as [d ro] eqn:E. cbn [fst] in *.
  rewrite trace_app in L1. cbn [trace] in L1. unfold events in L1. rewrite app_nil_r in L1.
  destruct (accepts env (fst (run env init_state ops)) href buf size) as [[b w]|].
  - rewrite since_snoc in L1. cbn [removes] in L1. rewrite attempts_app, app_length in L1. cbn in L1. lia.
  - rewrite app_nil_r in L1. lia.
Qed.
Lemma acked_state env m b data order sock m' ro o x : m_reachable env m -> mm_pc m = PRecv ->
  mstep env m (MLoop (RData b data) order sock) = (m', [ERecv ro; EAcks o]) -> o_sends o = [x] -> at_addr x = b -> mm_pc m' = PDrain ->
  exists d2, m' = mm_set m d2 (mm_queue m) PDrain /\ s_handler d2 = s_handler (mm_disp m) /\
    m_id (at_msg x) = last_id (mm_disp m) b + 1 /\ last_id d2 b = last_id (mm_disp m) b + 1.
Proof.
  intros RM PC E OS AA PD. cbn [mstep] in E. unfold loop_step in E. rewrite PC in E. unfold loop_receive in E. cbn [receive_packet] in E.
  set (d := set_hosts (mm_disp m) _) in *.
  assert (reachable env d) as RD.
  { exact (reachable_step env (mm_disp m) (SetHost (mm_sender m) b) (m_reachable_disp _ _ RM)). }
  pose proof (receive_reach env d (mm_sender m) data (zlen data) RD) as R0.
  pose proof (receive_last env d (mm_sender m) data (zlen data) b RD) as L0.
  assert (s_handler (fst (receive_check env d (mm_sender m) data (zlen data))) = s_handler (mm_disp m)) as H0.
  { unfold receive_check. destruct (nth_error (s_hosts d) (mm_sender m)) as [a|] eqn:NH; [|reflexivity].
    destruct (Z.leb_spec (zlen data) 0) as [L|L]; [reflexivity|].
    destruct (reachable_good _ _ RD) as [I _].
    destruct (receive_spec env d (mm_sender m) data (zlen data) a I NH L) as (st' & r & c' & EQ & _ & _ & _ & _ & _ & HD & _).
    unfold receive_check in EQ. rewrite NH in EQ. destruct (Z.leb_spec (zlen data) 0); [lia|]. rewrite EQ. exact HD. }
  destruct (receive_check env d (mm_sender m) data (zlen data)) as [d0 ro0]. cbn [fst] in *.
  destruct (r_res ro0); [|injection E as _ E; discriminate]. destruct (has_unacked d0); [|injection E as _ E; discriminate].
  destruct (process_acks env d0 order sock) as [d2 o2] eqn:PA.
  destruct (o_res o2) eqn:OR; [|injection E as <- _; discriminate]. injection E as <- _ ->. exists d2.
  destruct (reachable_good _ _ R0) as [I0 V0]. destruct (process_spec _ _ _ _ _ _ I0 V0 PA) as (FL & _).
  destruct (process_last _ _ _ _ _ _ _ R0 PA OS) as [I1 I2]. rewrite AA in I1, I2.
  split; [reflexivity|]. split; [rewrite (fl_handler _ _ _ _ FL); exact H0|]. rewrite L0 in I1, I2. auto.
Qed.

Lemma resting_returns env m b d t0 : resting env m -> e_deferred env = true -> sget "PacketAck"%string (e_des_xml env) <> Some None ->
  host_ok b = true -> carries (e_des_dict env) d t0 -> t_name t0 = "PacketAck"%string ->
  exists m' ro o x n, mrun env m [MLoop (RData b d) [] good_socket; MLoop RFail [] good_socket; MLoop RFail [] good_socket] =
      (m', [ERecv ro; EAcks o]) /\ o_sends o = [x] /\ at_addr x = b /\ acknowledges (at_msg x) [n] /\ 0 <= n < 2 ^ 32 /\
    put env good_socket x /\ m_id (at_msg x) = last_number (mm_disp m) b + 1 /\ 1 <= m_id (at_msg x) /\
    resting env m' /\ last_number (mm_disp m') b = last_number (mm_disp m) b + 1.
Proof.
  intros ((host & eq & ops & F & EM) & PC & MQ & MR & NH & Q) DF XM HO CA TN.
  destruct (mstep env m (MLoop (RData b d) [] good_socket)) as [m1 es] eqn:E.
  destruct (ack_acked env host eq ops m b d [] good_socket m1 es t0 F EM PC DF NH XM Q HO CA TN E)
    as (ro & o & x & n & -> & RC & SN & OS & AA & AK & PD & N0 & I1 & AD).
  destruct (acked_state env m b d [] good_socket m1 ro o x (ex_intro _ host (ex_intro _ eq (ex_intro _ ops EM))) PC E OS AA PD)
    as (d2 & EQ & HD & ID & LA).
  set (m' := mm_set m d2 [] PRecv).
  assert (mrun env m [MLoop (RData b d) [] good_socket; MLoop RFail [] good_socket; MLoop RFail [] good_socket] = (m', [ERecv ro; EAcks o])) as RUN.
  { cbn [mrun]. rewrite E, EQ. cbn [mstep loop_step mm_set mm_pc mm_queue]. rewrite MQ. unfold loop_top, mm_set. cbn. rewrite MR. cbn.
    unfold m', mm_set. rewrite MR. reflexivity. }
  exists m', ro, o, x, n. split; [exact RUN|]. repeat (split; [assumption|]). split; [|exact LA].
  split.
  - exists host, eq, (ops ++ [MLoop (RData b d) [] good_socket; MLoop RFail [] good_socket; MLoop RFail [] good_socket]).
    split; [apply Forall_app; split; [exact F|repeat constructor]|].
    assert (forall l m0, fst (mrun env m0 (l ++ [MLoop (RData b d) [] good_socket; MLoop RFail [] good_socket; MLoop RFail [] good_socket])) =
      fst (mrun env (fst (mrun env m0 l)) [MLoop (RData b d) [] good_socket; MLoop RFail [] good_socket; MLoop RFail [] good_socket])) as RA.
    { induction l as [|y l IH]; intros m0; [reflexivity|]. cbn [app]. rewrite mrun_cons. cbn [fst]. rewrite IH.
      rewrite (mrun_cons env m0 y l). reflexivity. }
    rewrite RA, <- EM, RUN. reflexivity.
  - unfold m', mm_set. cbn. rewrite MR. repeat split; auto; try (unfold is_message_handled in *; rewrite HD; assumption).
    unfold outgoing_quiet in *. rewrite HD. exact Q.
Qed.
