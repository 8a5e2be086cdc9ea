(** One manager, both its sides: C100.  Vocabulary: SpecWhole.v (with
    SpecLiveManager.v, SpecLiveQueue.v, SpecEvents.v). *)
From Verif Require Import Lib Samples DispatchProofs Prop_Dispatch SpecWhole LiveQueueStop WholeProofs Prop_LiveManager Prop_LiveQueue.

(** ** A history for the examples *)
Definition wx_env : wenv := {| we_env := d_env; we_host := d_a; we_queue := Some nq_env |}.
Definition wx_bare : wenv := {| we_env := d_env; we_host := d_a; we_queue := None |}.
Definition wx_q (o : post_outcome) : wop := WQueue 0 o None.
Definition wx_go : wop := WUdp 0 RFail [].
(** The event queue delivers a message to a subscriber; that subscriber asks for
    "Ping"; a datagram with a Ping comes in before it returns; the subscriber called
    for the Ping unsubscribes the event queue's other one, and enqueues a message. *)
Definition wx_ops : list wop :=
  [WUser (Spawn (NewMsg s_msg)); WHandler (HSubscribe "A" nq_s1); WHandler (HSubscribe "A" nq_s2);
   WStart; wx_q (PostErr KeyErr); wx_q (PostErr KeyErr); wx_go; wx_go; wx_q nq_seven;
   WHandler (HSubscribe "Ping" d_sub); WUdp 0 (RData d_b (d_in x09)) [];
   WHandler (HUnsubscribe "A" nq_s2); WEnqueue 0 true false; wx_q nq_seven; WUser (Resume 5 None); WUser (Resume 7 None); wx_go; wx_go].
Definition wx_calls (h : list wobs) : list (nat * string) :=
  flat_map (fun x => match x with
                     | WV (VSeen (Called s m)) => [(sb_handler s, m_name m)]
                     | WN (NDid _ (NCalled _ _ s m)) => [(sb_handler s, match q_name m with LStr n => n | _ => ""%string end)]
                     | _ => [] end) h.

(** ** C100 *)
(** The UDP side is a manager as in C91 and C92, whatever the event queue does: all
    that is said there holds of it. *)
Theorem C100_udp e ops : exists vops, wh_udp (wafter e ops) = vafter (we_env e) (we_host e) vops /\
  udp_part (wlife e ops) = vlife (we_env e) (we_host e) vops.
Proof. exists (w_udp_ops e (w_init e) ops). apply wlife_udp. Qed.
Print Assumptions C100_udp.
(** And the event queue is one as in C93 and C94. *)
Theorem C100_queue e q ops : we_queue e = Some q ->
  exists nops, w_queue (wafter e ops) = nafter q nops /\ queue_part (wlife e ops) = nlife q nops.
Proof. intros Q. exists (flat_map queue_ops ops). now apply wlife_queue. Qed.
Print Assumptions C100_queue.
(** Neither notices what the other does, except through the handler: the same
    history without the event queue's steps is the same for the UDP side, and the
    other way round. *)
Theorem C100_udp_alone e ops : let ops' := filter (fun o => negb (of_queue o)) ops in
  wh_udp (wafter e ops') = wh_udp (wafter e ops) /\ udp_part (wlife e ops') = udp_part (wlife e ops).
Proof. exact (udp_unaffected e ops). Qed.
Print Assumptions C100_udp_alone.
Theorem C100_queue_alone e q ops : we_queue e = Some q -> let ops' := filter (fun o => negb (of_udp o)) ops in
  w_queue (wafter e ops') = w_queue (wafter e ops) /\ queue_part (wlife e ops') = queue_part (wlife e ops).
Proof. exact (queue_unaffected e q ops). Qed.
Print Assumptions C100_queue_alone.
(** They share their subscribers: whoever the UDP side calls for a message is, at
    that moment, subscribed to messages of its name - no Message object being
    renamed - ... *)
Theorem C100_called_udp e ops past s m future : keep_names e (w_init e) ops ->
  wlife e ops = past ++ WV (VSeen (Called s m)) :: future -> In s (subscribed_to (m_name m) past).
Proof. exact (wlife_called_udp e ops past s m future). Qed.
Print Assumptions C100_called_udp.
(** ... and whoever the event queue calls is the k-th of those. *)
Theorem C100_called_queue e ops past i n k s m future : wlife e ops = past ++ WN (NDid i (NCalled n k s m)) :: future ->
  exists name, q_name m = LStr name /\ nth_error (subscribed_to name past) k = Some s.
Proof. exact (wlife_called_queue e ops past i n k s m future). Qed.
Print Assumptions C100_called_queue.
(** stop_monitors: until the next start_monitors every UDP coroutine receives at
    most once more; *)
Theorem C100_stop_udp e ops1 ops2 i : Forall (fun o => o <> WStart) ops2 ->
  (List.length (receptions (calls_of i (udp_part (whistory e (wafter e (ops1 ++ [WStop])) ops2)))) <= 1)%nat.
Proof. exact (stop_udp e ops1 ops2 i). Qed.
Print Assumptions C100_stop_udp.
(** if the event queue was running, it is stopped for good, and every coroutine of
    it, also one started later, posts at most the poll it was about to send and one
    closing request; *)
Theorem C100_stop_queue e q ops1 ops2 i : we_queue e = Some q -> eq_running (wh_eq (wafter e ops1)) = true ->
  let w := wafter e (ops1 ++ [WStop]) in let h := queue_part (whistory e w ops2) in
  n_stopped (w_queue (wrun e w ops2)) /\
  exists a b, n_posts i h = a ++ b /\ Forall polls a /\ Forall closes b /\
    (List.length a <= n_polls_left (nth_error (wh_pool w) i))%nat /\ (List.length b <= n_closes_left (nth_error (wh_pool w) i))%nat.
Proof.
  intros Q R w h. pose proof (stop_queue e q ops1 Q R) as S0. split.
  - rewrite (wrun_queue e q ops2 Q). now apply C94_stays_stopped.
  - unfold h. rewrite (whistory_queue e q ops2 Q).
    destruct (live_after_stop q _ (flat_map queue_ops ops2) i S0) as (a & b & A1 & A2 & A3 & A4 & A5 & _). exists a, b. now repeat split.
Qed.
Print Assumptions C100_stop_queue.
(** and it raises AttributeError exactly if there is no event queue - nothing else
    raises anything to its caller here. *)
Theorem C100_stop_raises e w o x : In (WRaised x) (wobserved e w o) <-> o = WStop /\ we_queue e = None /\ x = AttributeErr.
Proof.
  split.
  - intros H. assert (o = WStop) as ->.
    { destruct o; try reflexivity; exfalso; revert H; apply other_raise; discriminate. }
    split; [reflexivity|]. now apply (stop_raise e w).
  - intros [-> H]. now apply stop_raise.
Qed.
Print Assumptions C100_stop_raises.
(** Under the conditions of C92 every id to be acknowledged is acknowledged once, in
    order, or still queued, whatever the event queue and its subscribers do. *)
Theorem C100_nothing_lost e ops a :
  Forall leaves_to_manager ops -> w_started_in_turn e (w_init e) ops -> undisturbed (wh_udp (wafter e ops)) ->
  let h := v_seen (udp_part (wlife e ops)) in
  all_queued a h = all_packed a h ++ pending_acks (cf_st (lv_cf (wh_udp (wafter e ops)))) a.
Proof. exact (w_nothing_lost e ops a). Qed.
Print Assumptions C100_nothing_lost.

Example C100_ex : wx_calls (wlife wx_env wx_ops) = [(1, "A"%string); (1, "Ping"%string); (1, "A"%string)]%nat /\
  lv_udp (wh_udp (wafter wx_env wx_ops)) = [VAcks 9] /\ lv_queue (wh_udp (wafter wx_env wx_ops)) = [(0, true)]%nat /\
  n_posts 0 (queue_part (wlife wx_env wx_ops)) = [LMap []] /\
  subscribed_to "A" (wlife wx_env wx_ops) = [nq_s1] /\ keep_names wx_env (w_init wx_env) wx_ops.
Proof. vm_compute. repeat split. Qed.
Example C100_ex_stop : eq_running (wh_eq (wafter wx_env wx_ops)) = true /\
  let w := wafter wx_env (wx_ops ++ [WStop]) in
  n_posts 0 (queue_part (whistory wx_env w [wx_q nq_seven; wx_q nq_seven; wx_q nq_seven])) =
    [LMap [("ack"%string, LInt 7); ("done"%string, LBool true)]] /\
  lv_running (wh_udp w) = false.
Proof. vm_compute. repeat split. Qed.
(** Without an event queue: the exception, and the UDP side stops all the same. *)
Example C100_ex_bare : let h := wlife wx_bare (wx_ops ++ [WStop]) in
  skipn (List.length h - 2) h = [WV VStopped; WRaised AttributeErr] /\
  lv_running (wh_udp (wafter wx_bare (wx_ops ++ [WStop]))) = false /\
  wx_calls h = [(1, "Ping"%string)]%nat.
Proof. vm_compute. repeat split. Qed.
Definition wx_acks : list wop := wx_ops ++ repeat (WUser (Resume 9 None)) 6 ++ [wx_go].
Example C100_ex_acks : Forall leaves_to_manager wx_acks /\ w_started_in_turn wx_env (w_init wx_env) wx_acks /\
  undisturbed (wh_udp (wafter wx_env wx_acks)) /\ all_packed d_b (v_seen (udp_part (wlife wx_env wx_acks))) = [9].
Proof.
  split; [repeat constructor|]. split; [vm_compute; repeat split; try discriminate; constructor|]. split.
  - assert (lv_udp (wh_udp (wafter wx_env wx_acks)) = [VDrain]) as E by (vm_compute; reflexivity).
    intros p H. rewrite E in H. destruct H as [<-|[]]. split; discriminate.
  - vm_compute. reflexivity.
Qed.
