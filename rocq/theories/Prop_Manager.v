(** The message manager: C45 and C46.  Vocabulary: SpecManager.v. *)
From Coq Require Import Permutation.
From Verif Require Import Lib Samples SpecManager DispatchProofs DispatchMore ManagerProofs Prop_Dispatch.

(** ** A concrete manager for the examples *)
Definition mg_quiet : mop := MLoop RFail [] d_sock.
Definition mg_setup : list mop := [MUser (NewMsg s_msg); MUser (NewMsg s_msg); MUser (SetHandler [("Ping"%string, [d_sub])])].
Definition mg_init : mstate := mm_init d_a (Some eq_init).
(** Start, sleep, recvfrom; three messages enqueued, the last one urgent; one
    reliable datagram from another host; then six more steps of the loop. *)
Definition mg_ops : list mop := mg_setup ++
  [mg_quiet; mg_quiet; MEnqueue 0 false false; MEnqueue 1 true false; MEnqueue 1 false true;
   MLoop (RData d_b (d_in x09)) [] d_sock; mg_quiet; MEnqueue 0 true true; mg_quiet; mg_quiet; mg_quiet; mg_quiet; mg_quiet].
Definition mg_st : mstate := fst (mrun d_env mg_init mg_ops).

(** ** C45 *)
(** Each message enqueued is sent once, with the reliability asked for, or is
    still in the queue. *)
Theorem C45_exactly_once env host eq ops : let h := history env (mm_init host eq) ops in
  Permutation (map (fun '(msg, reliable, now) => (msg, reliable)) (enqueues h))
              (sends_of (calls h) ++ mm_queue (fst (mrun env (mm_init host eq) ops))).
Proof.
  intros h. erewrite map_ext; [exact (exactly_once env host eq ops)|]. intros [[a b] c]. reflexivity.
Qed.
Print Assumptions C45_exactly_once.
(** Which message leaves when: there is an assignment of sends to enqueues
    ([served]: the k-th send is for the [served k]-th enqueue) such that every
    send takes, among the messages waiting at that moment, the one that leaves
    first. *)
Theorem C45_order env host eq ops : let h := history env (mm_init host eq) ops in
  exists served : list nat, NoDup served /\ List.length served = List.length (sends_of (calls h)) /\
  forall past msg reliable o future, h = past ++ Did (ESend msg reliable o) :: future ->
    let k := List.length (sends_of (calls past)) in
    exists i now, nth_error served k = Some i /\ nth_error (enqueues past) i = Some (msg, reliable, now) /\
      forall j msg' reliable' now', nth_error (enqueues past) j = Some (msg', reliable', now') ->
        ~ In j (firstn k served) -> j <> i -> leaves_first i now j now'.
Proof.
  intros h. destruct (ghost_history env host eq ops) as (s & w & G). exists s. split; [|split].
  - pose proof (ghost_nodup _ _ _ _ G) as ND. clear -ND. revert ND. induction s as [|i s IH]; intros ND; [constructor|].
    cbn in ND. inversion ND as [|? ? N1 N2]; subst. constructor; [|now apply IH]. intros H. apply N1, in_or_app. now left.
  - exact (g_len _ _ _ _ G).
  - exact (g_served _ _ _ _ G).
Qed.
Print Assumptions C45_order.
(** A burst of enqueues while nothing is sent: the urgent ones in front, the
    latest first; the others behind, in order. *)
Theorem C45_burst env m ops : sends_of (snd (mrun env m ops)) = [] ->
  let es := enqueues (history env m ops) in
  mm_queue (fst (mrun env m ops)) =
    rev (map fst (filter (fun e => snd e) es)) ++ mm_queue m ++ map fst (filter (fun e => negb (snd e)) es).
Proof. exact (burst env ops m). Qed.
Print Assumptions C45_burst.
(** A drain: while nothing is enqueued, what is sent leaves from the front. *)
Theorem C45_drain env m ops : enqueues (history env m ops) = [] ->
  mm_queue m = sends_of (snd (mrun env m ops)) ++ mm_queue (fst (mrun env m ops)).
Proof. exact (drain env ops m). Qed.
Print Assumptions C45_drain.
(** What a send of the loop does: the dispatcher's send to the manager's host,
    reliably if so requested; every packet prepared is flagged accordingly. *)
Theorem C45_send env m o msg rel out : m_reachable env m -> In (ESend msg rel out) (snd (mstep env m o)) ->
  exists r order sock m', o = MLoop r order sock /\ mstep env m o = (m', [ESend msg rel out]) /\
    send_message env (mm_disp m) msg (mm_host m) (if rel then Reliable 0 else Plain) sock = (mm_disp m', out) /\
    Forall (fun x => sent_reliably x = rel /\ host_address (mm_disp m) (mm_host m) = Some (at_addr x) /\
      exists w, nth_error (s_msgs (mm_disp m)) msg = Some w /\ m_name (at_msg x) = m_name w /\ m_blocks (at_msg x) = m_blocks w) (o_sends out).
Proof.
  intros R H. destruct (step_send _ _ _ _ _ _ H) as (r & order & sock & m' & EO & _ & ES & _ & E).
  exists r, order, sock, m'. repeat split; auto. apply Forall_forall. intros x X.
  destruct (sends_reliably _ _ _ _ _ _ _ _ x (m_reachable_disp _ _ R) E X) as (A & B & C). split; [|auto]. rewrite A. now destruct rel.
Qed.
Print Assumptions C45_send.
Theorem C45_reliability env host eq ops msg rel out : In (ESend msg rel out) (snd (mrun env (mm_init host eq) ops)) ->
  Forall (fun x => sent_reliably x = rel) (o_sends out).
Proof. apply run_send. exists host, eq, []. reflexivity. Qed.
Print Assumptions C45_reliability.
Example C45_ex : sends_of (snd (mrun d_env mg_init mg_ops)) = [(1, false); (0, true); (0, false); (1, true)]%nat /\
  enqueues (history d_env mg_init mg_ops) = [(0, false, false); (1, true, false); (1, false, true); (0, true, true)]%nat /\
  mm_queue mg_st = [] /\ mm_pc mg_st = PRecv.
Proof. vm_compute. repeat split; reflexivity. Qed.
Example C45_ex_burst : mm_queue (fst (mrun d_env mg_init
   [MEnqueue 1 false false; MEnqueue 2 false true; MEnqueue 3 true false; MEnqueue 4 true true])) =
   [(4, true); (2, false); (1, false); (3, true)]%nat.
Proof. reflexivity. Qed.

(** ** C46 *)
(** The calls of the loop form iterations: one receive, at most one flush of
    acks, then sends.  No call follows one that raised. *)
Theorem C46_iterations env host eq ops : let es := snd (mrun env (mm_init host eq) ops) in
  (exists its, es = List.concat its /\ Forall an_iteration its) /\
  (forall before e after, es = before ++ e :: after -> raised e <> None -> after = []).
Proof.
  intros es. destruct (shape_history env host eq ops) as (its & cur & E & F & C). fold es in E, C.
  assert (Forall an_iteration its) as F1 by (eapply Forall_impl; [|exact F]; cbn; tauto).
  assert (Forall (fun e => raised e = None) (List.concat its)) as F2.
  { apply Forall_concat. eapply Forall_impl; [|exact F]. cbn. tauto. }
  assert (forall l, Forall (fun e => raised e = None) l -> forall before e after, l = before ++ e :: after -> raised e <> None -> after = []) as K.
  { intros l FL before e after -> N. apply Forall_app in FL as [_ FL]. inversion FL; subst. contradiction. }
  destruct (mm_pc (fst (mrun env (mm_init host eq) ops))) as [| | | |[x|]] eqn:P.
  - rewrite C. split; [exists []; split; [reflexivity|constructor]|]. now intros [|? ?].
  - rewrite E, C, app_nil_r. split; [exists its; auto|]. now apply K.
  - rewrite E, C, app_nil_r. split; [exists its; auto|]. now apply K.
  - destruct C as [C Q]. rewrite E. split.
    + exists (its ++ [cur]). rewrite concat_app. cbn. rewrite app_nil_r. split; [reflexivity|]. apply Forall_app. auto.
    + apply K, Forall_app. auto.
  - destruct C as [C (cur' & y & E' & RY & Q)]. split.
    + exists (its ++ [cur]). rewrite concat_app. cbn. rewrite app_nil_r. split; [exact E|]. apply Forall_app. auto.
    + intros before e after EE N. rewrite E, E', app_assoc in EE.
      apply split_snoc in EE as [(-> & _)|(t & -> & EE)]; [reflexivity|]. exfalso.
      assert (Forall (fun e => raised e = None) (before ++ e :: t)) as FA by (rewrite <- EE; apply Forall_app; auto).
      apply Forall_app in FA as [_ FA]. inversion FA; subst. contradiction.
  - rewrite E, C, app_nil_r. split; [exists its; auto|]. now apply K.
Qed.
Print Assumptions C46_iterations.
(** The acks are flushed exactly when some are pending after the receive. *)
Theorem C46_acks env m r order sock m' es : m_reachable env m -> mm_pc m = PRecv ->
  mstep env m (MLoop r order sock) = (m', es) ->
  exists d1 ro acks, reachable env d1 /\ es = ERecv ro :: acks /\
    ((exists v, r_res ro = Ok v) -> (acks <> [] <-> exists a, pending_acks d1 a <> [])) /\
    (acks = [] -> mm_disp m' = d1) /\
    (acks <> [] -> exists o, acks = [EAcks o] /\ process_acks env d1 order sock = (mm_disp m', o)) /\
    (forall e, r_res ro = Err e -> acks = []).
Proof.
  intros R P. destruct (m_reachable_good _ _ R) as [RD H S L]. cbn [mstep]. unfold loop_step. rewrite P. unfold loop_receive.
  destruct (receive_packet m r) as [[d buf] size] eqn:RP.
  pose proof (receive_packet_reach env m r d buf size RD RP) as R1.
  pose proof (receive_reach env d (mm_sender m) buf size R1) as R2.
  destruct (receive_check env d (mm_sender m) buf size) as [d1 ro]. cbn [fst] in R2.
  destruct (reachable_good _ _ R2) as [I _]. pose proof (has_unacked_spec d1 (inv_keys _ I)) as U.
  intros E. exists d1, ro. destruct (r_res ro) as [v|x] eqn:RR.
  - destruct (has_unacked d1).
    + destruct (process_acks env d1 order sock) as [d2 o] eqn:PA. exists [EAcks o]. split; [exact R2|].
      destruct (o_res o); injection E as <- <-; (split; [reflexivity|]); (split; [intros _; split; [intros _; now apply U|discriminate]|]);
        (split; [discriminate|]); (split; [eauto|discriminate]).
    + exists []. injection E as <- <-. split; [exact R2|]. split; [reflexivity|].
      split; [intros _; split; [congruence|intros HH; apply U in HH; discriminate]|]. split; [reflexivity|]. split; [congruence|discriminate].
  - exists []. injection E as <- <-. split; [exact R2|]. split; [reflexivity|]. split; [intros (v & V); congruence|].
    split; [reflexivity|]. split; [congruence|auto].
Qed.
Print Assumptions C46_acks.
(** Unless a subscriber to outgoing packets raises, flushing the acks never ends
    the loop. *)
Theorem C46_acks_survive env d order sock d' o : reachable env d -> outgoing_quiet env d ->
  process_acks env d order sock = (d', o) -> raised (EAcks o) = None.
Proof.
  intros R Q H. destruct (reachable_good _ _ R) as [I V]. cbn.
  destruct (process_spec _ _ _ _ _ _ I V H) as (_ & _ & _ & _ & OK & _). now rewrite (OK Q).
Qed.
Print Assumptions C46_acks_survive.
(** The queue is emptied before the next check of the loop condition: from the
    inner loop, as many steps as there are messages send them all, in order,
    and one more leads to the check - unless a send raises. *)
Theorem C46_drained env m ops : mm_pc m = PDrain -> Forall is_loop ops -> List.length ops = S (List.length (mm_queue m)) ->
  (exists e, mm_pc (fst (mrun env m ops)) = PEnd (Some e)) \/
  (sends_of (snd (mrun env m ops)) = mm_queue m /\ mm_queue (fst (mrun env m ops)) = [] /\
   mm_pc (fst (mrun env m ops)) = if mm_running m then PSleep else PEnd None).
Proof. exact (drained env ops m). Qed.
Print Assumptions C46_drained.
Theorem C46_checks_when_empty env m o : mm_pc m = PDrain -> mm_pc (fst (mstep env m o)) <> PDrain ->
  mm_queue m = [] \/ exists msg rel out e, snd (mstep env m o) = [ESend msg rel out] /\ raised (ESend msg rel out) = Some e /\
                                          mm_pc (fst (mstep env m o)) = PEnd (Some e).
Proof.
  intros P. destruct o as [msg rel now| |o|r order sock]; cbn [mstep].
  - cbn. congruence.
  - unfold stop_monitors. destruct (mm_eq m); cbn; congruence.
  - cbn. congruence.
  - unfold loop_step. rewrite P. destruct (mm_queue m) as [|[msg rel] q]; [auto|].
    destruct (send_udp_message env m msg rel sock) as [d o]. cbn. destruct (o_res o) as [v|e] eqn:OR; cbn; [congruence|].
    intros _. right. exists msg, rel, o, e. rewrite OR. auto.
Qed.
Print Assumptions C46_checks_when_empty.
(** After stop_monitors: whatever else happens, at most one more datagram is
    received (none if the loop was past its receive), and the loop ends after a
    bounded number of its steps. *)
Theorem C46_stop env m ops : let m1 := fst (stop_monitors m) in
  (List.length (receives_of (snd (mrun env m1 ops))) <= match mm_pc m with PSleep | PRecv => 1 | _ => 0 end)%nat /\
  (Forall is_loop ops -> (3 + List.length (mm_queue m) <= List.length ops)%nat -> ended (fst (mrun env m1 ops))).
Proof.
  intros m1. assert (mm_running m1 = false /\ mm_pc m1 = mm_pc m /\ mm_queue m1 = mm_queue m) as (R & P & Q).
  { unfold m1, stop_monitors. destruct (mm_eq m); auto. }
  split.
  - pose proof (stop_budget env ops m1 R) as B. rewrite P in B. unfold budget in B at 2. destruct (mm_pc m); lia.
  - intros F L. apply stop_ends; auto. unfold distance. rewrite P, Q. destruct (mm_pc m); lia.
Qed.
Print Assumptions C46_stop.
(** The check itself. *)
Theorem C46_check env m r order sock : (mm_pc m = PStart \/ mm_pc m = PDrain /\ mm_queue m = []) ->
  snd (mstep env m (MLoop r order sock)) = [] /\
  mm_pc (fst (mstep env m (MLoop r order sock))) = (if mm_running m then PSleep else PEnd None).
Proof. cbn [mstep]. unfold loop_step. intros [P|[P Q]]; rewrite P, ?Q; auto. Qed.
Print Assumptions C46_check.
(** It ends normally only if stop_monitors was called. *)
Theorem C46_only_when_stopped env host eq ops : mm_pc (fst (mrun env (mm_init host eq) ops)) = PEnd None -> In MStop ops.
Proof.
  intros P. pose proof (ends_only_stopped env ops (mm_init host eq)) as H.
  destruct (in_dec (fun a b : bool => Bool.bool_dec a b) true (map (fun o => match o with MStop => true | _ => false end) ops)) as [IN|N].
  - apply in_map_iff in IN as (o & E & IN). now destruct o.
  - exfalso. assert (~ In MStop ops) as NS.
    { intros IN. apply N. apply in_map_iff. exists MStop. auto. }
    pose proof (running_kept env ops (mm_init host eq) NS) as RK. rewrite H in RK; try exact P; discriminate.
Qed.
Print Assumptions C46_only_when_stopped.
(** An exception that escapes ends it: nothing more happens, and what is in the
    queue (and what is enqueued later) stays there. *)
Theorem C46_exception env m o e x : In e (snd (mstep env m o)) -> raised e = Some x ->
  mm_pc (fst (mstep env m o)) = PEnd (Some x).
Proof.
  destruct o as [msg rel now| |o|r order sock]; cbn [mstep snd]; try contradiction.
  unfold loop_step. destruct (mm_pc m) eqn:P; cbn [snd]; try contradiction.
  - destruct (loop_receive env m r order sock) as [m' es] eqn:L. cbn [fst snd].
    destruct (loop_receive_spec _ _ _ _ _ _ _ L) as (_ & _ & _ & _ & _ & ro & acks & _ & _ & [[_ Q]|(y & es1 & z & -> & ES & RX & Q)]);
      intros IN RE.
    + rewrite Forall_forall in Q. rewrite (Q e IN) in RE. discriminate.
    + rewrite ES in IN. apply in_app_or in IN as [IN|[<-|[]]]; [|congruence]. rewrite Forall_forall in Q. rewrite (Q e IN) in RE. discriminate.
  - destruct (mm_queue m) as [|[msg rel] q]; cbn [snd]; [contradiction|].
    destruct (send_udp_message env m msg rel sock) as [d o]. cbn [fst snd]. intros [<-|[]]. cbn. destruct (o_res o); congruence.
Qed.
Print Assumptions C46_exception.
Theorem C46_after_the_end env m ops : ended m -> snd (mrun env m ops) = [] /\ ended (fst (mrun env m ops)) /\
  let es := enqueues (history env m ops) in
  mm_queue (fst (mrun env m ops)) =
    rev (map fst (filter (fun e => snd e) es)) ++ mm_queue m ++ map fst (filter (fun e => negb (snd e)) es).
Proof.
  intros EN. pose proof EN as (e & P). destruct (ended_forever env ops m EN) as (A & B). split; [exact A|].
  split; [exists e; congruence|]. apply burst. now rewrite A.
Qed.
Print Assumptions C46_after_the_end.
(** A datagram that cannot be decoded, or that makes a subscriber raise, does
    that. *)
Theorem C46_bad_datagram env m a data order sock e : m_reachable env m -> mm_pc m = PRecv -> data <> [] ->
  deserialize (deser_conf env (mm_disp m)) data = Err e ->
  let m' := fst (mstep env m (MLoop (RData a data) order sock)) in
  mm_pc m' = PEnd (Some e) /\ mm_queue m' = mm_queue m.
Proof.
  intros R P N D m'. destruct (mstep env m (MLoop (RData a data) order sock)) as [m1 es] eqn:E.
  destruct (loop_received env m a data order sock m1 es R P N E) as (d & d1 & ro & RD & HA & HD & _ & RC & _ & HE).
  assert (0 < zlen data) as SZ by (destruct data; [congruence|unfold zlen; cbn; lia]).
  assert (deserialize (deser_conf env d) data = Err e) as D' by (unfold deser_conf in *; rewrite HD; exact D).
  destruct (receive_escapes env d 1 a data (zlen data) e RD HA SZ D') as (A & _). rewrite RC in A. cbn in A.
  unfold m'. split.
  - rewrite <- E. apply (C46_exception env m _ (ERecv ro) e); [|cbn; now rewrite A]. rewrite E. cbn. destruct es as [|z es]; [discriminate|].
    cbn in HE. injection HE as ->. now left.
  - cbn [fst]. pose proof (mstep_queue env m (MLoop (RData a data) order sock)) as Q. cbn beta iota in Q. rewrite E in Q. cbn in Q.
    cbn [mstep] in E. unfold loop_step in E. rewrite P in E. now destruct (loop_receive_spec _ _ _ _ _ _ _ E) as (-> & _).
Qed.
Print Assumptions C46_bad_datagram.
Theorem C46_subscriber_raises env m a data order sock w e : m_reachable env m -> mm_pc m = PRecv -> data <> [] ->
  deserialize (deser_conf env (mm_disp m)) data = Ok (Some w) -> trusted (mm_disp m) a = false -> e_handle env = true ->
  snd (handle (e_cb env) (s_handler (mm_disp m)) w) = Some e ->
  let m' := fst (mstep env m (MLoop (RData a data) order sock)) in
  mm_pc m' = PEnd (Some e) /\ mm_queue m' = mm_queue m.
Proof.
  intros R P N D T EH HE0 m'. destruct (mstep env m (MLoop (RData a data) order sock)) as [m1 es] eqn:E.
  destruct (loop_received env m a data order sock m1 es R P N E) as (d & d1 & ro & RD & HA & HD & CI & RC & _ & HE).
  assert (0 < zlen data) as SZ by (destruct data; [congruence|unfold zlen; cbn; lia]).
  assert (deserialize (deser_conf env d) data = Ok (Some w)) as D' by (unfold deser_conf in *; rewrite HD; exact D).
  destruct (reachable_good _ _ RD) as [I V].
  destruct (receive_spec env d 1 data (zlen data) a I HA SZ) as (st1 & r1 & c' & E1 & RV & _). rewrite RC in E1. injection E1 as <- <-.
  assert (r_res ro = Err e) as A.
  { assert (c_trusted (cur d 1 a) = false) as TC.
    { unfold cur. unfold trusted, circuit_of, get_circuit in *. rewrite CI.
      destruct (dget addr_eqb a (s_circuits (mm_disp m))); [exact T|reflexivity]. }
    inversion RV as [e' D2|e' D2 S2 EE|n D2 S2|m2 D2 T2|m2 D2 T2]; subst; try congruence.
    - assert (m2 = w) as -> by congruence. cbn. rewrite EH, HD. rewrite HE0. reflexivity. }
  unfold m'. split.
  - rewrite <- E. apply (C46_exception env m _ (ERecv ro) e); [|cbn; now rewrite A]. rewrite E. cbn. destruct es as [|z es]; [discriminate|].
    cbn in HE. injection HE as ->. now left.
  - cbn [fst]. cbn [mstep] in E. unfold loop_step in E. rewrite P in E. now destruct (loop_receive_spec _ _ _ _ _ _ _ E) as (-> & _).
Qed.
Print Assumptions C46_subscriber_raises.
(** stop_monitors without an event queue: AttributeError, with the flag cleared. *)
Theorem C46_stop_result m : mm_running (fst (stop_monitors m)) = false /\
  (mm_eq m = None -> snd (stop_monitors m) = Err AttributeErr) /\
  (forall q, mm_eq m = Some q -> snd (stop_monitors m) = Ok tt /\
     mm_eq (fst (stop_monitors m)) = Some (if eq_running q then eq_stop q else q)).
Proof.
  unfold stop_monitors. destruct (mm_eq m); cbn; repeat split; intros; try congruence.
  all: match goal with H : Some _ = Some _ |- _ => injection H as -> end; reflexivity.
Qed.
Print Assumptions C46_stop_result.
(** The manager's dispatcher is a dispatcher used by a history of its
    operations: C21-C32 hold of it. *)
Theorem C46_dispatcher env m : m_reachable env m -> reachable env (mm_disp m).
Proof. exact (m_reachable_disp env m). Qed.
Print Assumptions C46_dispatcher.

Definition kind (e : mevent) : nat := match e with ERecv _ => 0 | EAcks _ => 1 | ESend _ _ _ => 2 end.
Example C46_ex : map kind (snd (mrun d_env mg_init mg_ops)) = [0; 1; 2; 2; 2; 2]%nat /\
  Forall (fun e => raised e = None) (snd (mrun d_env mg_init mg_ops)).
Proof. vm_compute. repeat constructor. Qed.
Example C46_ex_stop : map kind (snd (mrun d_env mg_st ([MStop; MEnqueue 0 false false] ++ repeat mg_quiet 6))) = [0; 2]%nat /\
  mm_pc (fst (mrun d_env mg_st ([MStop; MEnqueue 0 false false] ++ repeat mg_quiet 6))) = PEnd None.
Proof. vm_compute. split; reflexivity. Qed.
(** A datagram too short for its header ends the loop for good, leaving the
    queued message unsent. *)
Example C46_ex_bad : let m := fst (mrun d_env mg_st [MEnqueue 0 false false; MLoop (RData d_b [x00; x01; x02]) [] d_sock; mg_quiet; mg_quiet]) in
  mm_pc m = PEnd (Some MessageDeserializationErr) /\ mm_queue m = [(0%nat, false)].
Proof. vm_compute. split; reflexivity. Qed.
Example C46_ex_reachable : m_reachable d_env mg_st.
Proof. exists d_a, (Some eq_init), mg_ops. reflexivity. Qed.
