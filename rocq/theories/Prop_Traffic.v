(** The traffic counters: C74.  Vocabulary: SpecTraffic.v. *)
From Verif Require Import Lib Samples SpecTraffic TrafficProofs Prop_Dispatch Prop_Manager.
Local Open Scope list_scope.

(** ** C74 *)
(** Over every history of a dispatcher, packets_out is the number of datagrams
    handed to the socket and packets_in the number of datagrams given to
    receive_check. *)
Theorem C74_counters env ops : let st := fst (run env init_state ops) in
  s_out st = zlen (wired_by env ops) /\ s_in st = zlen (given_by env init_state ops).
Proof. cbv zeta. destruct (run_counts env ops init_state) as [A B]. split; [exact B|exact A]. Qed.
Print Assumptions C74_counters.
(** The same for the dispatcher of a running manager: what its loop sends and
    receives counts, and what its user sends or passes to receive_check. *)
Theorem C74_manager env host eq ops : let d := mm_disp (fst (mrun env (mm_init host eq) ops)) in
  s_out d = zlen (m_wired_by env (mm_init host eq) ops) /\ s_in d = zlen (m_given_by env (mm_init host eq) ops).
Proof.
  cbv zeta. assert (ManagerProofs.m_good env (mm_init host eq)) as G by (apply ManagerProofs.m_reachable_good; exists host, eq, []; reflexivity).
  destruct (mrun_counts env ops _ G) as [A B]. split; [exact B|exact A].
Qed.
Print Assumptions C74_manager.
(** A send returns the datagram exactly when it was put on the wire... *)
Theorem C74_returned env st mref href md sock st' o b : send_message env st mref href md sock = (st', o) ->
  o_res o = Ok (Some b) <-> exists a, on_the_wire (o_sends o) = [(a, b)].
Proof. intros H. exact (send_returns _ _ _ _ _ _ _ _ H b). Qed.
Print Assumptions C74_returned.
(** ... that is, when the message was serialized and sendto did not raise. *)
Theorem C74_handed env st mref href md sock st' o x b : send_message env st mref href md sock = (st', o) ->
  In x (o_sends o) -> at_data x = Some b <->
    serialize (e_pv env) (e_ser_dict env) (e_ser_xml env) (at_msg x) = Ok (Some b) /\ sock (at_addr x) b = None.
Proof. intros H X. exact (send_handed _ _ _ _ _ _ _ _ H x b X). Qed.
Print Assumptions C74_handed.

(** Five sends and two ack flushes; of the sends one has a failing socket and one a
    message that is not in the template; six receives, of which one of
    size 0 and one of garbage. *)
Definition c74_fail : addr -> bytes -> option exn := fun _ _ => Some (Raised 3).
Definition c74_ops : list op :=
  d_ops ++ [NewMsg (mk_message "Nonesuch" []); Send 1 0 Plain d_sock; Send 0 0 Plain c74_fail;
            Receive 0 [x00] 0; Receive 0 [x00] 1; ProcessAcks [] d_sock;
            Receive 0 (d_in_ack x0b) 19; Receive 0 ([x50; x00; x00; x00; x0c] ++ skipn 5 s_wire ++ [x00; x00; x00; x02; x01]) 19; ProcessAcks [] d_sock].
Example C74_ex : let st := fst (run d_env init_state c74_ops) in
  (s_out st, s_in st) = (5, 5) /\ List.length (attempts_of (trace d_env init_state c74_ops)) = 7%nat /\
  map fst (wired_by d_env c74_ops) = [d_a; d_b; d_a; d_a; d_a].
Proof. vm_compute. repeat split; reflexivity. Qed.
Example C74_ex_manager : (s_out (mm_disp mg_st), s_in (mm_disp mg_st)) = (5, 1) /\
  map fst (m_wired_by d_env mg_init mg_ops) = [d_b; d_a; d_a; d_a; d_a] /\
  m_given_by d_env mg_init mg_ops = [d_in x09].
Proof. vm_compute. repeat split; reflexivity. Qed.
