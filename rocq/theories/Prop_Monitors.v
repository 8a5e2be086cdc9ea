(** A manager started and stopped any number of times: C81 and C82.  Vocabulary:
    SpecMonitors.v and SpecManager.v. *)
From Coq Require Import Permutation.
From Verif Require Import Lib Samples SpecMonitors ManagerProofs MonitorProofs MonitorQueue Prop_Dispatch.

(** ** C81: the UDP coroutines *)
(** However often the manager is started and however its coroutines interleave,
    each message enqueued is sent once, by one of them, or is still queued. *)
Theorem C81_exactly_once env e host eq ops : let h := lhistory env e (mo_init host eq) ops in
  Permutation (map (fun '(msg, reliable, now) => (msg, reliable)) (enqueued h))
              (sent h ++ mm_queue (mo_manager (fst (lrun env e (mo_init host eq) ops)))).
Proof.
  intros h. erewrite map_ext; [exact (l_exactly_once env e host eq ops)|]. intros [[a b] c]. reflexivity.
Qed.
Print Assumptions C81_exactly_once.
(** The order is that of one coroutine (C45): every send takes, among the messages
    waiting at that moment, the one that leaves first. *)
Theorem C81_order env e host eq ops : let h := lhistory env e (mo_init host eq) ops in
  exists served : list nat, NoDup served /\ List.length served = List.length (sent h) /\
  forall past i msg reliable o future, h = past ++ ODid (UdpDid i (ESend msg reliable o)) :: future ->
    let k := List.length (sent past) in
    exists n now, nth_error served k = Some n /\ nth_error (enqueued past) n = Some (msg, reliable, now) /\
      forall j msg' reliable' now', nth_error (enqueued past) j = Some (msg', reliable', now') ->
        ~ In j (firstn k served) -> j <> n -> leaves_first n now j now'.
Proof. exact (l_order env e host eq ops). Qed.
Print Assumptions C81_order.
(** Each start spawns one more UDP coroutine and, if there is an event queue and
    the setting allows it, one more event queue coroutine; stopping removes none. *)
Theorem C81_one_per_start env e host eq ops : let h := lhistory env e (mo_init host eq) ops in
  let mo := fst (lrun env e (mo_init host eq) ops) in
  List.length (mo_udp mo) = starts h /\
  List.length (mo_queue mo) = match eq with Some _ => if qe_enabled e then starts h else 0%nat | None => 0%nat end.
Proof. exact (l_one_per_start env e ops (mo_init host eq)). Qed.
Print Assumptions C81_one_per_start.
(** The calls of each coroutine form iterations, and one that raises is its last. *)
Theorem C81_iterations env e host eq ops i : let r := lrun env e (mo_init host eq) ops in let es := own_calls i (snd r) in
  (exists its, es = List.concat its /\ Forall an_iteration its) /\
  (forall before x after, es = before ++ x :: after -> raised x <> None ->
     after = [] /\ exists exn, raised x = Some exn /\ nth_error (mo_udp (fst r)) i = Some (PEnd (Some exn))).
Proof. exact (l_iterations env e host eq ops i). Qed.
Print Assumptions C81_iterations.
(** A coroutine looking at the flag goes on exactly if the last call of
    start_monitors or stop_monitors was a start, whichever coroutine it spawned. *)
Theorem C81_check env e host eq ops i r order sock : let mo := fst (lrun env e (mo_init host eq) ops) in
  about_to_check mo i ->
  snd (lstep env e mo (LUdp i r order sock)) = [] /\
  nth_error (mo_udp (fst (lstep env e mo (LUdp i r order sock)))) i =
    Some (if started_last (lhistory env e (mo_init host eq) ops) then PSleep else PEnd None).
Proof.
  intros mo A. destruct (l_check env e mo i r order sock A) as [B C]. split; [exact B|]. rewrite C. unfold mo.
  rewrite l_flag. reflexivity.
Qed.
Print Assumptions C81_check.
(** and it ends without an exception only there, when the manager is stopped *)
Theorem C81_ends env e host eq ops o i p : let mo := fst (lrun env e (mo_init host eq) ops) in
  nth_error (mo_udp mo) i = Some p -> p <> PEnd None -> nth_error (mo_udp (fst (lstep env e mo o))) i = Some (PEnd None) ->
  about_to_check mo i /\ started_last (lhistory env e (mo_init host eq) ops) = false.
Proof.
  intros mo N P E. destruct (l_ends env e mo o i p N P E) as [A B]. split; [exact A|]. unfold mo in B. rewrite l_flag in B. exact B.
Qed.
Print Assumptions C81_ends.
(** A coroutine that has ended does nothing more, whatever is started. *)
Theorem C81_ended env e mo ops i x : nth_error (mo_udp mo) i = Some (PEnd x) ->
  own_calls i (snd (lrun env e mo ops)) = [] /\ nth_error (mo_udp (fst (lrun env e mo ops))) i = Some (PEnd x).
Proof. exact (l_ended env e ops mo i x). Qed.
Print Assumptions C81_ended.
(** Stopped and not started again: each coroutine receives at most once more, only
    if it was asleep or waiting for a datagram. *)
Theorem C81_stop_receives env e host eq ops0 ops i p : let mo := fst (lrun env e (mo_init host eq) ops0) in
  started_last (lhistory env e (mo_init host eq) ops0) = false -> Forall no_start ops -> nth_error (mo_udp mo) i = Some p ->
  (List.length (receives_of (own_calls i (snd (lrun env e mo ops)))) <= match p with PSleep | PRecv => 1 | _ => 0 end)%nat.
Proof.
  intros mo R F N. assert (mm_running (mo_manager mo) = false) as R' by (unfold mo; rewrite l_flag; exact R).
  destruct (l_budget env e ops mo i p R' F N) as (p' & _ & B). unfold budget in B. destruct p; lia.
Qed.
Print Assumptions C81_stop_receives.
(** It has ended once it has made as many steps as there are messages to send, and
    three more. *)
Theorem C81_stop_ends env e host eq ops0 ops i : let mo := fst (lrun env e (mo_init host eq) ops0) in
  started_last (lhistory env e (mo_init host eq) ops0) = false -> Forall no_start ops -> (i < List.length (mo_udp mo))%nat ->
  (3 + List.length (mm_queue (mo_manager mo)) + List.length (enqueued (lhistory env e mo ops)) <= steps_of i ops)%nat ->
  exists x, nth_error (mo_udp (fst (lrun env e mo ops))) i = Some (PEnd x).
Proof.
  intros mo R F L S. assert (mm_running (mo_manager mo) = false) as R' by (unfold mo; rewrite l_flag; exact R).
  destruct (nth_error (mo_udp mo) i) as [p|] eqn:N; [|apply nth_error_None in N; lia].
  apply (l_stop_ends env e ops mo i p R' F N). pose proof (dist_bound p (List.length (mm_queue (mo_manager mo)))). lia.
Qed.
Print Assumptions C81_stop_ends.
(** Whatever the coroutines do together, they leave the dispatcher in a state it
    can reach when used alone, so C19-C26 and the others hold of it. *)
Theorem C81_dispatcher env e mo : l_reachable env e mo -> reachable env (mm_disp (mo_manager mo)).
Proof. exact (l_dispatcher env e mo). Qed.
Print Assumptions C81_dispatcher.

(** Non-vacuity, and what a quick restart does: the coroutine of the first start
    does not notice the stop, and two loops go on reading the same socket. *)
Definition mo_env : qenv := {| qe_enabled := true; qe_cap := "EventQueueGet"; qe_known := fun _ => false; qe_raises := fun _ => false |}.
Definition u (i : nat) : lop := LUdp i RFail [] d_sock.
Definition mo_two : list lop :=
  [LStart; u 0; u 0; LStop; LStart; u 1; u 0; u 0; u 0; u 1; u 1; u 1].
Example C81_ex_two_loops : mo_udp (fst (lrun d_env mo_env (mo_init d_a (Some eq_init)) mo_two)) = [PRecv; PSleep] /\
  started_last (lhistory d_env mo_env (mo_init d_a (Some eq_init)) mo_two) = true /\
  starts (lhistory d_env mo_env (mo_init d_a (Some eq_init)) mo_two) = 2%nat.
Proof. vm_compute. repeat split; reflexivity. Qed.
(** Two loops share the queue: one message each, none twice. *)
Definition mo_share : list lop :=
  [LUser (NewMsg s_msg); LUser (NewMsg s_msg); LStart; LStart; u 0; u 1; u 0; u 1;
   LEnqueue 0 false false; LEnqueue 1 true false; u 0; u 1; u 1; u 0; LEnqueue 0 false true; LStop; u 0; u 0; u 1].
Example C81_ex_share : let r := lrun d_env mo_env (mo_init d_a (Some eq_init)) mo_share in
  sends_of (own_calls 0 (snd r)) = [(1, true); (0, false)]%nat /\ sends_of (own_calls 1 (snd r)) = [(0, false)]%nat /\
  mo_udp (fst r) = [PEnd None; PEnd None] /\ mm_queue (mo_manager (fst r)) = [].
Proof. vm_compute. repeat split; reflexivity. Qed.

(** ** C82: the event queue coroutines *)
(** A coroutine on its own behaves as C38 and C39 say of start(): it begins, then
    polls; if the queue is stopped, during the last poll, it closes. *)
Theorem C82_alone env e host polls closing : qe_enabled e = true -> qe_cap e = "EventQueueGet"%string ->
  (forall before p after, polls = before ++ p :: after -> p_stop p = true -> after = []) ->
  let r := lrun env e (mo_init host (Some eq_init)) (alone polls ++ (if existsb p_stop polls then [LQueue 0 closing] else [])) in
  let '(q, log, res) := eq_start (qe_known e) (qe_raises e) (qe_cap e) polls closing eq_init in
  mm_eq (mo_manager (fst r)) = Some q /\ mo_queue (fst r) = [match res with Some b => QEnd b | None => QSleep end] /\
  posts_by 0 (snd r) = l_posts log /\ delivered_by 0 (snd r) = l_delivered log.
Proof. exact (l_alone env e host polls closing). Qed.
Print Assumptions C82_alone.
(** stop_monitors stops the event queue exactly if one of its coroutines has begun:
    called earlier, it has no effect on the queue. *)
Theorem C82_stop env e mo : qe_cap e = "EventQueueGet"%string -> l_reachable env e mo -> mm_eq (mo_manager mo) <> None ->
  ~ stopped_queue mo ->
  (stopped_queue (fst (lstep env e mo LStop)) <-> exists i p, nth_error (mo_queue mo) i = Some p /\ p <> QStart).
Proof. exact (l_stop_effect env e mo). Qed.
Print Assumptions C82_stop.
(** As long as the queue is not stopped no coroutine ends or closes the
    connection, and each polls at least every other step. *)
Theorem C82_polls_on env e mo ops i p : qe_cap e = "EventQueueGet"%string -> l_reachable env e mo -> mm_eq (mo_manager mo) <> None ->
  ~ stopped_queue (fst (lrun env e mo ops)) -> nth_error (mo_queue mo) i = Some p ->
  (p = QStart \/ p = QSleep \/ p = QPost) /\
  Forall SpecMonitors.polls (posts_by i (snd (lrun env e mo ops))) /\
  (queue_steps_of i ops <= 2 * List.length (posts_by i (snd (lrun env e mo ops))) + 1)%nat.
Proof.
  intros C R NN NS N. split; [exact (l_alive env e mo i p C R NN (not_stopped_before env e mo ops NS) N)|].
  destruct (l_polls_on env e ops C mo i p (qinv_reach env e mo C R) NN NS N) as (A & B). split; [exact A|]. destruct p; lia.
Qed.
Print Assumptions C82_polls_on.
(** Once stopped, a queue stays so: start_monitors does not revive it. *)
Theorem C82_stopped_for_good env e mo ops : stopped_queue mo -> stopped_queue (fst (lrun env e mo ops)).
Proof. exact (stopped_run env e ops mo). Qed.
Print Assumptions C82_stopped_for_good.
(** After the stop a coroutine posts at most the poll it was about to make, then at
    most one closing request.  One that is not polling, or that a later start
    spawns, only posts a closing request, and delivers nothing. *)
Theorem C82_after_stop env e mo ops i : stopped_queue mo ->
  let p := nth_error (mo_queue mo) i in let r := lrun env e mo ops in
  exists a b, posts_by i (snd r) = a ++ b /\ Forall SpecMonitors.polls a /\ Forall closes b /\
    (List.length a <= polls_left p)%nat /\ (List.length b <= closes_left p)%nat /\
    (p <> Some QSleep /\ p <> Some QPost -> delivered_by i (snd r) = []).
Proof. exact (l_after_stop env e ops mo i). Qed.
Print Assumptions C82_after_stop.
(** and it ends within three steps *)
Theorem C82_stop_ends env e mo ops i : stopped_queue mo -> (i < List.length (mo_queue mo))%nat -> (3 <= queue_steps_of i ops)%nat ->
  exists result, nth_error (mo_queue (fst (lrun env e mo ops))) i = Some (QEnd result).
Proof.
  intros S L T. destruct (nth_error (mo_queue mo) i) as [p|] eqn:N; [|apply nth_error_None in N; lia].
  destruct (l_stop_ends_queue env e ops mo i p S N) as (p' & N' & D). exists (match p' with QEnd b => b | _ => true end). rewrite N'.
  assert (qdist p <= 3)%nat by (destruct p; cbn; lia). destruct p'; cbn in D; try lia. reflexivity.
Qed.
Print Assumptions C82_stop_ends.
(** How a coroutine ends: start() returns True with the queue stopped and marked
    as not running; it returns False if the closing request fails, and the mark
    stays as it was, or if the capability is not the one that is polled. *)
Theorem C82_ends env e mo i p o b q : l_reachable env e mo ->
  nth_error (mo_queue mo) i = Some p -> alive p -> mm_eq (mo_manager mo) = Some q ->
  let mo' := fst (lstep env e mo (LQueue i o)) in
  nth_error (mo_queue mo') i = Some (QEnd b) ->
  exists q', mm_eq (mo_manager mo') = Some q' /\
  if b then eq_stopped q' = true /\ eq_running q' = false
  else (p = QClosing /\ (exists x, o = PostErr x) /\ q' = q) \/
       (p = QStart /\ qe_cap e <> "EventQueueGet"%string /\
        eq_running q' = (if String.eqb (qe_cap e) "event_queue" then true else eq_running q)).
Proof. exact (queue_ends env e mo i p o b q). Qed.
Print Assumptions C82_ends.

(** Non-vacuity.  A stop before the coroutine has begun is missed, and the queue is
    polled on; stopped and started again, the queue is not polled, only closed. *)
Definition mo_new : monitors := mo_init d_a (Some eq_init).
Definition k (o : post_outcome) : lop := LQueue 0 o.
Definition answer : post_outcome := PostOk (LMap [("id"%string, LInt 7); ("events"%string, LArr [LMap [("message"%string, LStr "M"); ("body"%string, LMap [])]])]).
Example C82_ex_missed : let r := lrun d_env mo_env mo_new [LStart; LStop; k answer; k answer; k answer; k answer] in
  mo_queue (fst r) = [QPost] /\ posts_by 0 (snd r) = [LMap []; LMap [("ack"%string, LInt 7)]] /\ List.length (delivered_by 0 (snd r)) = 1%nat /\
  mm_running (mo_manager (fst r)) = false.
Proof. vm_compute. repeat split; reflexivity. Qed.
Example C82_ex_ends : let mo := fst (lrun d_env mo_env mo_new [LStart; k answer; k answer; k answer; LStop; k answer; k answer]) in
  nth_error (mo_queue mo) 0 = Some QClosing /\
  mo_queue (fst (lstep d_env mo_env mo (k answer))) = [QEnd true] /\
  mo_queue (fst (lstep d_env mo_env mo (k (PostErr KeyErr)))) = [QEnd false].
Proof. vm_compute. repeat split. Qed.
Example C82_ex_restart : let ops := [LStart; k answer; k answer; k answer; LStop; k answer; k answer; LStart; LQueue 1 answer; LQueue 1 answer] in
  let r := lrun d_env mo_env mo_new ops in
  mo_queue (fst r) = [QClosing; QEnd true] /\ mm_running (mo_manager (fst r)) = true /\
  posts_by 0 (snd r) = [LMap []; LMap [("ack"%string, LInt 7)]; LMap [("ack"%string, LInt 7); ("done"%string, LBool true)]] /\
  posts_by 1 (snd r) = [LMap [("ack"%string, LInt 7); ("done"%string, LBool true)]] /\ delivered_by 1 (snd r) = [].
Proof. vm_compute. repeat split; reflexivity. Qed.
