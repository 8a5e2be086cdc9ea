(** The manager's UDP loop interrupted wherever it calls a subscriber or the socket:
    C91 and C92.  Vocabulary: SpecLiveManager.v (with SpecGreenlets.v, SpecManager.v). *)
From Coq Require Import Permutation.
From Verif Require Import Lib Samples SpecManager DispatchProofs Prop_Dispatch SpecLiveManager
  GreenletProofs GreenletAcks GreenletMore LiveManagerProofs LiveManagerMore LiveManagerAcks LiveManagerSeq Prop_Manager.

(** ** Schedules for the examples *)
Definition lm_setup : list vop :=
  map (fun o => VUser (Spawn o)) [NewMsg s_msg; NewMsg s_msg; SetHandler [("Ping"%string, [d_sub])]].
Definition lm_go : vop := VRun 0 RFail [].
Definition lm_go1 : vop := VRun 1 RFail [].
Definition lm_on (i : nat) : vop := VUser (Resume i None).
(** Two messages enqueued, the second urgent; a datagram arrives; the subscriber
    called for it sends a message and enqueues another; acks; the first send is in
    the socket when the manager is stopped; it still empties the queue. *)
Definition lm_ops : list vop := lm_setup ++
  [VStartMonitors; lm_go; lm_go; VEnqueue 0 true false; VEnqueue 1 false true;
   VRun 0 (RData d_b (d_in x09)) [];
   VUser (Spawn (Send 0 0 Plain d_sock)); VEnqueue 1 true false; lm_on 7; lm_go; lm_on 6; lm_go] ++
  repeat (lm_on 8) 6 ++
  [lm_go; lm_go; VStopMonitors; lm_on 9; lm_go; lm_go; lm_on 10; lm_go; lm_go; lm_on 11; lm_go; lm_go].
(** Stopped and started again before the first coroutine noticed. *)
Definition lm_twice : list vop := lm_setup ++
  [VStartMonitors; lm_go; lm_go; VStopMonitors; VStartMonitors; lm_go1; lm_go1; VRun 0 (RData d_b (d_in x09)) []; lm_on 6].
(** Both acknowledge the same datagram ... *)
Definition lm_both : list vop := lm_twice ++
  [lm_go; lm_go1; lm_go1; lm_on 7; lm_on 9] ++ repeat (lm_on 7) 5 ++ repeat (lm_on 9) 5 ++ [lm_go; lm_go1].
(** ... or one empties the queue the other has just added to. *)
Definition lm_late : list vop := lm_twice ++
  [lm_go; lm_on 7; VRun 1 (RData d_b (d_in x0a)) []; lm_on 9] ++ repeat (lm_on 7) 5 ++ [lm_go; lm_go1].

(** ** C91 *)
(** Whatever happens is, for the dispatcher, a schedule of its operations - so
    everything C79 and C80 say holds of a manager - and each call of a coroutine is
    one of them, with the arguments of the loop. *)
Theorem C91_dispatcher env host ops : let h := vlife env host ops in let v := vafter env host ops in
  exists xs, lv_cf v = after env xs /\ v_seen h = SpecGreenlets.history env xs /\
    forall b, In b (v_begun h) -> exists o, nth_error (spawned xs) (bg_thread b) = Some o /\ stands_for o (bg_call b).
Proof.
  intros h v. exists (vschedule env host ops). split; [apply vafter_cf|]. split; [apply vlife_seen|].
  apply Forall_forall, vlife_stands.
Qed.
Print Assumptions C91_dispatcher.
(** In particular the packets for an address are numbered 1, 2, 3, ..., and what
    waits for an acknowledgement is what was prepared as reliable and not
    acknowledged in a datagram accepted since. *)
Theorem C91_numbers env host ops a k x :
  nth_error (attempts_to a (since_removal a (network (v_seen (vlife env host ops))))) k = Some x -> m_id (at_msg x) = Z.of_nat k + 1.
Proof. rewrite vlife_seen. apply green_ids. Qed.
Print Assumptions C91_numbers.
Theorem C91_outstanding env host ops a n :
  In n (outstanding (cf_st (lv_cf (vafter env host ops))) a) <->
  unacknowledged a (since_removal a (network (v_seen (vlife env host ops)))) n.
Proof. rewrite vlife_seen, vafter_cf. apply green_outstanding. Qed.
Print Assumptions C91_outstanding.
(** Each message enqueued is taken to be sent once, with the reliability asked for,
    by whichever coroutine, or is still in the queue. *)
Theorem C91_exactly_once env host ops : let h := vlife env host ops in
  Permutation (map (fun '(msg, reliable, now) => (msg, reliable)) (v_enqueued h))
              (v_sent h ++ lv_queue (vafter env host ops)).
Proof.
  intros h. erewrite map_ext; [exact (live_exactly_once env host ops)|]. intros [[a b] c]. reflexivity.
Qed.
Print Assumptions C91_exactly_once.
(** And always the one that leaves first among those waiting then (C45). *)
Theorem C91_order env host ops : let h := vlife env host ops in
  exists served : list nat, NoDup served /\ List.length served = List.length (v_sent h) /\
  forall past b msg reliable future, h = past ++ VBegun b :: future -> bg_call b = CSend msg reliable ->
    let k := List.length (v_sent past) in
    exists i now, nth_error served k = Some i /\ nth_error (v_enqueued past) i = Some (msg, reliable, now) /\
      forall j msg' reliable' now', nth_error (v_enqueued past) j = Some (msg', reliable', now') ->
        ~ In j (firstn k served) -> j <> i -> leaves_first i now j now'.
Proof. exact (live_order env host ops). Qed.
Print Assumptions C91_order.
(** The calls of one coroutine form iterations, ... *)
Theorem C91_iterations env host ops i :
  exists its, calls_of i (vlife env host ops) = List.concat its /\ Forall v_iteration its.
Proof. exact (live_iterations env host ops i). Qed.
Print Assumptions C91_iterations.
(** ... one at a time: when it makes a call, all its earlier ones have returned,
    without an exception; *)
Theorem C91_one_call env host ops i before b after : calls_of i (vlife env host ops) = before ++ b :: after -> after <> [] ->
  call_ended (vafter env host ops) b None.
Proof. exact (live_one_call env host ops i before b after). Qed.
Print Assumptions C91_one_call.
(** an exception that ends it is that of its last call; *)
Theorem C91_ended_by env host ops i e : nth_error (lv_udp (vafter env host ops)) i = Some (VEnd (Some e)) ->
  exists before b, calls_of i (vlife env host ops) = before ++ [b] /\ call_ended (vafter env host ops) b (Some e).
Proof. exact (live_ended_by env host ops i e). Qed.
Print Assumptions C91_ended_by.
(** it ends by itself only when it finds the manager stopped, and then - unless it
    had not begun at all - with the queue empty. *)
Theorem C91_ends env host ops i : nth_error (lv_udp (vafter env host ops)) i = Some (VEnd None) ->
  exists ops1 ops2, ops = ops1 ++ ops2 /\ v_started_last (vlife env host ops1) = false /\
    (calls_of i (vlife env host ops1) = [] \/ lv_queue (vafter env host ops1) = []) /\
    calls_of i (vhistory env (vafter env host ops1) ops2) = [].
Proof. exact (live_ends env host ops i). Qed.
Print Assumptions C91_ends.
(** After stop_monitors (and until the next start_monitors) every coroutine receives
    at most once more. *)
Theorem C91_stop env host ops1 ops2 i : v_started_last (vlife env host ops1) = false -> Forall v_no_start ops2 ->
  (List.length (receptions (calls_of i (vhistory env (vafter env host ops1) ops2))) <= 1)%nat.
Proof. exact (live_stop env host ops1 ops2 i). Qed.
Print Assumptions C91_stop.
(** The manager of C45 and C46, whose calls are never interrupted, is a special case:
    every history of it can be had here, with the same queue, flag, dispatcher state
    and place in the loop at the end, and the same messages enqueued and sent. *)
Theorem C91_uninterrupted env host eq ops : let m := fst (mrun env (mm_init host eq) ops) in
  exists vops, let v := vafter env host vops in
    cf_st (lv_cf v) = mm_disp m /\ Forall (fun th => exists o, th = Finished o) (cf_pool (lv_cf v)) /\
    lv_queue v = mm_queue m /\ lv_running v = mm_running m /\
    lv_udp v = [match mm_pc m with PStart => VStart | PSleep => VSleep | PRecv => VRecv | PDrain => VDrain | PEnd e => VEnd e end] /\
    v_sent (vlife env host vops) = sends_of (snd (mrun env (mm_init host eq) ops)) /\
    v_enqueued (vlife env host vops) = enqueues (SpecManager.history env (mm_init host eq) ops).
Proof.
  intros m. destruct (live_uninterrupted env host eq ops) as (vops & [[Q F] A B C] & D & E). exists vops. repeat split; auto.
Qed.
Print Assumptions C91_uninterrupted.
Example C91_ex_uninterrupted : sends_of (snd (mrun d_env (mm_init d_a (Some eq_init)) mg_ops)) = [(1, false); (0, true); (0, false); (1, true)]%nat.
Proof. vm_compute. reflexivity. Qed.
Example C91_ex : let v := vafter d_env d_a lm_ops in let h := vlife d_env d_a lm_ops in
  lv_udp v = [VEnd None] /\ lv_queue v = [] /\ v_sent h = [(1, false); (0, true); (1, true)]%nat /\
  map bg_thread (calls_of 0 h) = [6; 8; 9; 10; 11]%nat /\
  map (fun x => m_id (at_msg x)) (attempts_to d_a (network (v_seen h))) = [1; 2; 3; 4] /\
  map (fun x => m_id (at_msg x)) (attempts_to d_b (network (v_seen h))) = [1].
Proof. vm_compute. repeat split. Qed.
Example C91_ex_stop : let v := vafter d_env d_a (lm_twice ++ [VStopMonitors]) in
  lv_udp v = [VReceive 6; VRecv] /\ v_started_last (vlife d_env d_a (lm_twice ++ [VStopMonitors])) = false /\
  map bg_thread (receptions (calls_of 1 (vhistory d_env v [lm_go1; lm_go1; lm_go1; lm_go1; lm_go1]))) = [7]%nat.
Proof. vm_compute. repeat split. Qed.

(** ** C92 *)
(** If the user leaves receiving and acknowledging to the manager and starts it again
    only after its last coroutine has ended, then, whatever its subscribers do and
    whatever else runs meanwhile, unless an exception ended a coroutine: every id to
    be acknowledged is acknowledged once, in order, or still queued. *)
Theorem C92_nothing_lost env host ops a :
  Forall leaves_it ops -> started_in_turn env (v_init env host) ops -> undisturbed (vafter env host ops) ->
  let h := v_seen (vlife env host ops) in
  all_queued a h = all_packed a h ++ pending_acks (cf_st (lv_cf (vafter env host ops))) a.
Proof. exact (live_nothing_lost env host ops a). Qed.
Print Assumptions C92_nothing_lost.
(** Even without these conditions nothing is acknowledged that was not received. *)
Theorem C92_only_received env host ops a :
  incl (all_packed a (v_seen (vlife env host ops))) (all_queued a (v_seen (vlife env host ops))).
Proof. rewrite vlife_seen. apply only_queued. Qed.
Print Assumptions C92_only_received.
Example C92_ex : Forall leaves_it lm_ops /\ started_in_turn d_env (v_init d_env d_a) lm_ops /\ undisturbed (vafter d_env d_a lm_ops) /\
  all_queued d_b (v_seen (vlife d_env d_a lm_ops)) = [9] /\ all_packed d_b (v_seen (vlife d_env d_a lm_ops)) = [9].
Proof.
  split; [repeat constructor|]. split; [vm_compute; repeat split; try discriminate; constructor|].
  split; [|vm_compute; split; reflexivity].
  intros p H. change (lv_udp (vafter d_env d_a lm_ops)) with (lv_udp (vafter d_env d_a lm_ops)) in H.
  assert (lv_udp (vafter d_env d_a lm_ops) = [VEnd None]) as E by (vm_compute; reflexivity).
  rewrite E in H. destruct H as [<-|[]]. split; discriminate.
Qed.
(** A restart that comes too early: the same datagram acknowledged twice, or not at
    all. *)
Example C92_ex_twice : let v := vafter d_env d_a lm_both in let h := v_seen (vlife d_env d_a lm_both) in
  Forall leaves_it lm_both /\ lv_udp v = [VDrain; VDrain] /\
  all_queued d_b h = [9] /\ all_packed d_b h = [9; 9] /\ pending_acks (cf_st (lv_cf v)) d_b = [].
Proof. cbv zeta. split; [repeat constructor|]. vm_compute. repeat split. Qed.
Example C92_ex_late : let v := vafter d_env d_a lm_late in let h := v_seen (vlife d_env d_a lm_late) in
  Forall leaves_it lm_late /\ lv_udp v = [VDrain; VDrain] /\
  all_queued d_b h = [9; 10] /\ all_packed d_b h = [9] /\ pending_acks (cf_st (lv_cf v)) d_b = [].
Proof. cbv zeta. split; [repeat constructor|]. vm_compute. repeat split. Qed.
