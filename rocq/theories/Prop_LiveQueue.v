(** The event queue interrupted wherever it calls a subscriber: C93 and C94.
    Vocabulary: SpecLiveQueue.v (with SpecEvents.v, SpecMonitors.v). *)
From Verif Require Import Lib SpecLiveQueue LiveQueueProofs LiveQueueMore LiveQueueStop LiveQueueDrive LiveQueueRunning.

(** ** Schedules for the examples *)
Definition nq_env : qenv := {| qe_enabled := true; qe_cap := "EventQueueGet"; qe_known := fun _ => false; qe_raises := fun _ => false |}.
Definition nq_s1 : sub := {| sb_handler := 1; sb_args := 0 |}.
Definition nq_s2 : sub := {| sb_handler := 2; sb_args := 0 |}.
Definition nq_event (name : string) : llsd := LMap [("message"%string, LStr name); ("body"%string, LMap [])].
Definition nq_seven : post_outcome := PostOk (LMap [("id"%string, LInt 7); ("events"%string, LArr [nq_event "A"; nq_event "C"; nq_event "B"; nq_event "A"])]).
Definition nq_eight : post_outcome := PostOk (LMap [("id"%string, LInt 8); ("events"%string, LArr [nq_event "B"])]).
Definition nq_go (i : nat) : nop := NRun i (PostErr KeyErr) None.
Definition nq_setup : list nop :=
  [NUser (HSubscribe "A" nq_s1); NUser (HSubscribe "A" nq_s2); NUser (HSubscribe "B" nq_s1)].
(** One coroutine: everything is delivered, then the next poll begins. *)
Definition nq_quiet : list nop := nq_setup ++ [NStart; nq_go 0; nq_go 0; NRun 0 nq_seven None] ++ repeat (nq_go 0) 6.
(** Somebody subscribes to "B" and unsubscribes from "A" while the first message is being delivered. *)
Definition nq_change : list nop := nq_setup ++ [NStart; nq_go 0; nq_go 0; NRun 0 nq_seven None; NUser (HSubscribe "B" nq_s2);
  nq_go 0; NUser (HUnsubscribe "A" nq_s1)] ++ repeat (nq_go 0) 5.
(** One subscriber raises KeyError, a later one ValueError; the rest of the response is lost. *)
Definition nq_raises : list nop := nq_setup ++ [NStart; nq_go 0; nq_go 0; NRun 0 nq_seven None;
  NRun 0 nq_eight (Some KeyErr); NRun 0 nq_eight (Some ValueErr); nq_go 0].
(** start_monitors called twice: the second coroutine polls while the first is still delivering. *)
Definition nq_two : list nop := nq_setup ++ [NStart; NStart; nq_go 0; nq_go 1; nq_go 0; NRun 0 nq_seven None; nq_go 1].
(** Stopped while a message is being delivered. *)
Definition nq_stops : list nop := nq_setup ++ [NStart; nq_go 0; nq_go 0; NRun 0 nq_seven None; NStopMonitors] ++ repeat (nq_go 0) 6.

(** ** C93 *)
(** Whoever is called is, at that moment, the k-th subscriber of the n-th message of
    the latest response that coroutine got; nobody raised anything but KeyError
    since, no subscriber of this message has raised, and every earlier message has
    been handed over. *)
Theorem C93_called e ops past i n k s m future : nlife e ops = past ++ NDid i (NCalled n k s m) :: future ->
  nth_error (subscribed past m) k = Some s /\
  exists past0 ms mid, past = past0 ++ NDid i (NDecoded ms) :: mid /\ same_response i mid /\ nth_error ms n = Some m /\
    ~ broken_off i mid /\ ~ key_error i n mid /\
    forall n' m', (n' < n)%nat -> nth_error ms n' = Some m' -> handed i past0 mid n' m'.
Proof. exact (live_called e ops past i n k s m future). Qed.
Print Assumptions C93_called.
(** The calls for one response go through the messages and the positions in order. *)
Theorem C93_in_turn e ops past i ms mid : nlife e ops = past ++ NDid i (NDecoded ms) :: mid -> same_response i mid ->
  in_turn (n_calls i mid).
Proof. exact (live_in_turn e ops past i ms mid). Qed.
Print Assumptions C93_in_turn.
(** A coroutine that is not in a call of a subscriber has handed over everything it
    decoded, or a subscriber raised something other than KeyError; and if nobody
    raised or touched the subscriptions, its calls are exactly the subscribers of
    each message in turn. *)
Theorem C93_complete e ops i past ms mid :
  (forall p, nth_error (nq_pool (nafter e ops)) i = Some p -> not_delivering p) ->
  nlife e ops = past ++ NDid i (NDecoded ms) :: mid -> same_response i mid ->
  delivered_or_broken_off i past ms mid /\ (untouched i ms mid -> n_calls i mid = full_delivery (subscribed past) 0 ms).
Proof.
  intros N E S. destruct (live_finished e ops i N past ms mid E S) as [_ [B|[H U]]].
  - split; [now left|]. intros [_ R]. destruct B as (n & k & x & B & _). exfalso. exact (R n k x B).
  - split; [now right|exact U].
Qed.
Print Assumptions C93_complete.
(** So it has before it posts anything. *)
Theorem C93_before_posting e ops past i d future past0 ms mid : nlife e ops = past ++ NDid i (NPosted d) :: future ->
  past = past0 ++ NDid i (NDecoded ms) :: mid -> same_response i mid ->
  delivered_or_broken_off i past0 ms mid /\ (untouched i ms mid -> n_calls i mid = full_delivery (subscribed past0) 0 ms).
Proof.
  intros P E S. destruct (live_posted e ops past i d future P past0 ms mid E S) as [_ [B|[H U]]].
  - split; [now left|]. intros [_ R]. destruct B as (n & k & x & B & _). exfalso. exact (R n k x B).
  - split; [now right|exact U].
Qed.
Print Assumptions C93_before_posting.
(** After an exception that is no KeyError nothing more of that response is delivered. *)
Theorem C93_broken_off e ops i n m k rest past ms mid :
  nth_error (nq_pool (nafter e ops)) i = Some (NCall n m k rest) ->
  nlife e ops = past ++ NDid i (NDecoded ms) :: mid -> same_response i mid -> ~ broken_off i mid.
Proof. intros P. exact (live_not_broken e ops i _ n m k rest past ms mid P eq_refl). Qed.
Print Assumptions C93_broken_off.
(** What is decoded is what the latest result of a poll holds (C41 says which messages those are). *)
Theorem C93_decoded e ops past i ms future : nlife e ops = past ++ NDid i (NDecoded ms) :: future ->
  ms = match getitem (h_result (heard_of past)) (LStr "id") with
       | Ok id => match decode_eq_result (qe_known e) id (h_result (heard_of past)) with Ok l => l | Err _ => [] end
       | Err _ => []
       end.
Proof. exact (live_decoded e ops past i ms future). Qed.
Print Assumptions C93_decoded.
(** If nothing interferes, a response is handled as the event queue of C39 and C82 handles it. *)
Theorem C93_uninterrupted e l i o raise : nth_error (nq_pool l) i = Some NPost ->
  let '(q', ev, p') := queue_step (with_raises e (message_raises raise (nq_reg l))) (nq_q l) QPost o in
  exists ops, Forall (fun x => exists y, x = NRun i o y) ops /\
    nrun e l ops = {| nq_q := q'; nq_reg := nq_reg l; nq_pool := update_nth i (same_place p') (nq_pool l) |} /\
    n_posts i (nhistory e l ops) = posted ev /\
    map (fun '(_, _, s, m) => (s, m)) (n_calls i (nhistory e l ops)) =
      flat_map (fun m => until_raise raise m (eq_subs (nq_reg l) m)) (delivered ev) /\
    as_told raise i (nhistory e l ops).
Proof. exact (live_uninterrupted e l i o raise). Qed.
Print Assumptions C93_uninterrupted.

Definition short (c : nat * nat * sub * eqmessage) : nat * nat * nat := let '(n, k, s, _) := c in (n, k, sb_handler s).
Example C93_quiet_ex : map short (n_calls 0 (nlife nq_env nq_quiet)) = [(0, 0, 1); (0, 1, 2); (2, 0, 1); (3, 0, 1); (3, 1, 2)]%nat /\
  n_posts 0 (nlife nq_env nq_quiet) = [LMap []; LMap [("ack"%string, LInt 7)]] /\
  nq_pool (nafter nq_env nq_quiet) = [NPost].
Proof. vm_compute. repeat split. Qed.
(** Subscribers that come are called; when one leaves during a call, the one behind
    it moves up and is not called. *)
Example C93_change_ex : map short (n_calls 0 (nlife nq_env nq_change)) = [(0, 0, 1); (0, 1, 2); (2, 0, 1); (2, 1, 2); (3, 0, 2)]%nat.
Proof. vm_compute. reflexivity. Qed.
Example C93_leaves_ex : map short (n_calls 0 (nlife nq_env (nq_setup ++ [NStart; nq_go 0; nq_go 0; NRun 0 nq_seven None; NUser (HUnsubscribe "A" nq_s1)] ++ repeat (nq_go 0) 4)))
  = [(0, 0, 1); (2, 0, 1); (3, 0, 2)]%nat.
Proof. vm_compute. reflexivity. Qed.
Example C93_raises_ex : map short (n_calls 0 (nlife nq_env nq_raises)) = [(0, 0, 1); (2, 0, 1)]%nat /\
  n_posts 0 (nlife nq_env nq_raises) = [LMap []; LMap [("ack"%string, LInt 7)]].
Proof. vm_compute. repeat split. Qed.
Example C93_uninterrupted_ex : nth_error (nq_pool (nafter nq_env (firstn 6 nq_quiet))) 0 = Some NPost.
Proof. reflexivity. Qed.

(** ** C94 *)
(** Every request acknowledges the latest response, whichever coroutine got it, or
    closes the queue with it. *)
Theorem C94_acks e ops past i d future : nlife e ops = past ++ NDid i (NPosted d) :: future ->
  d = poll_of (heard_of past) \/
  exists id, h_id (heard_of past) = Some id /\ equals_minus1 id = false /\ d = LMap [("ack"%string, id); ("done"%string, LBool true)].
Proof. exact (live_acks e ops past i d future). Qed.
Print Assumptions C94_acks.
(** The messages decoded carry the id that will be acknowledged. *)
Theorem C94_ids e ops past i ms future m : nlife e ops = past ++ NDid i (NDecoded ms) :: future -> In m ms ->
  h_id (heard_of past) = Some (q_id m).
Proof. exact (live_ids e ops past i ms future m). Qed.
Print Assumptions C94_ids.
(** With one coroutine at a time nothing is posted, so no response acknowledged,
    before everything decoded earlier has been handed over or broken off. *)
Theorem C94_one_at_a_time e ops past i d future j past0 ms mid : one_at_a_time e nq_init ops ->
  nlife e ops = past ++ NDid i (NPosted d) :: future ->
  past = past0 ++ NDid j (NDecoded ms) :: mid -> same_response j mid -> delivered_or_broken_off j past0 ms mid.
Proof. exact (live_one_at_a_time e ops past i d future j past0 ms mid). Qed.
Print Assumptions C94_one_at_a_time.
(** Once the queue is stopped, each coroutine posts at most the poll it was about to
    send and one closing request, in that order; only one that was delivering or
    waiting for a response calls subscribers; and it ends. *)
Theorem C94_after_stop e l ops i : n_stopped l ->
  let p := nth_error (nq_pool l) i in let h := nhistory e l ops in
  exists a b, n_posts i h = a ++ b /\ Forall polls a /\ Forall closes b /\
    (List.length a <= n_polls_left p)%nat /\ (List.length b <= n_closes_left p)%nat /\
    ((forall q, p = Some q -> q <> NSleep /\ q <> NPost /\ not_delivering q) -> n_calls i h = []).
Proof. exact (live_after_stop e l ops i). Qed.
Print Assumptions C94_after_stop.
Theorem C94_stop_ends e l ops i : n_stopped l -> (i < List.length (nq_pool l))%nat ->
  (3 + List.length (n_calls i (nhistory e l ops)) <= n_steps_of i ops)%nat ->
  exists b, nth_error (nq_pool (nrun e l ops)) i = Some (NDone b).
Proof. exact (live_stop_ends e l ops i). Qed.
Print Assumptions C94_stop_ends.
(** A queue is stopped iff stop() has been called, or stop_monitors when the queue
    was running. *)
Theorem C94_stopped_iff e ops : n_stopped (nafter e ops) <->
  In NStop ops \/
  exists before later, ops = before ++ NStopMonitors :: later /\ eq_running (nq_q (nafter e before)) = true.
Proof. unfold nafter. rewrite stopped_iff. cbn. intuition discriminate. Qed.
Print Assumptions C94_stopped_iff.
(** A stopped queue stays stopped. *)
Theorem C94_stays_stopped e l ops : n_stopped l -> n_stopped (nrun e l ops).
Proof. revert l. induction ops as [|o ops IH]; intros l S; [exact S|]. apply IH, stopped_step, S. Qed.
Print Assumptions C94_stays_stopped.
(** One coroutine at a time: the queue takes itself for running iff the last coroutine
    that has begun did not return normally -- it is still at work, or it died of an
    exception, of its closing request say. *)
Theorem C94_running e ops : qe_cap e = "EventQueueGet"%string \/ qe_cap e = "event_queue"%string -> one_at_a_time e nq_init ops ->
  eq_running (nq_q (nafter e ops)) = true <->
  exists i p, nth_error (nq_pool (nafter e ops)) i = Some p /\ p <> NBegin /\ p <> NDone true /\
    forall j p', (i < j)%nat -> nth_error (nq_pool (nafter e ops)) j = Some p' -> p' = NBegin.
Proof. exact (live_running e ops). Qed.
Print Assumptions C94_running.
(** With any other capability it never does. *)
Theorem C94_never_running e ops : qe_cap e <> "EventQueueGet"%string -> qe_cap e <> "event_queue"%string ->
  eq_running (nq_q (nafter e ops)) = false.
Proof.
  intros A B. apply (never_runs e); [intros [X|X]; [exact (A X)|exact (B X)]|reflexivity|constructor].
Qed.
Print Assumptions C94_never_running.
Lemma nq_stops_one : one_at_a_time nq_env nq_init nq_stops.
Proof. cbn. repeat (split; [intros X; first [discriminate X | constructor]|]). exact I. Qed.
Definition nq_again : list nop := nq_stops ++ [NStart; NRun 1 (PostOk LUndef) None; NRun 1 (PostOk LUndef) None].
Example C94_running_ex : eq_running (nq_q (nafter nq_env nq_stops)) = true /\
  nq_pool (nafter nq_env (nq_stops ++ [NStart])) = [NDone false; NBegin] /\
  one_at_a_time nq_env nq_init nq_again /\ eq_running (nq_q (nafter nq_env nq_again)) = false /\
  nq_pool (nafter nq_env nq_again) = [NDone false; NDone true].
Proof.
  split; [vm_compute; reflexivity|]. split; [vm_compute; reflexivity|]. split; [|split; vm_compute; reflexivity].
  unfold nq_again. apply one_app. split.
  - exact nq_stops_one.
  - split; [intros _|split; [intros X; discriminate X|split; [intros X; discriminate X|exact I]]].
    assert (nq_pool (nrun nq_env nq_init nq_stops) = [NDone false]) as -> by (vm_compute; reflexivity).
    constructor; [now exists false|constructor].
Qed.

(** With two coroutines the response is acknowledged while it is being delivered. *)
Definition nq_A : eqmessage := {| q_name := LStr "A"; q_id := LInt 7; q_blocks := [("Message_Data"%string, [{| qb_name := "Message_Data"; qb_vars := [] |}])] |}.
Example C94_two_ex : n_posts 1 (nlife nq_env nq_two) = [LMap [("ack"%string, LInt 7)]] /\
  map short (n_calls 0 (nlife nq_env nq_two)) = [(0, 0, 1)]%nat /\ ~ one_at_a_time nq_env nq_init nq_two /\
  exists past ms mid, nlife nq_env nq_two = (past ++ NDid 0 (NDecoded ms) :: mid) ++ [NDid 1 (NPosted (LMap [("ack"%string, LInt 7)]))] /\
    same_response 0 mid /\ ~ delivered_or_broken_off 0 past ms mid.
Proof.
  split; [reflexivity|]. split; [reflexivity|]. split.
  - intros O. cbn in O. destruct O as (_ & _ & _ & _ & O & _). specialize (O eq_refl). inversion O as [|x l [b X]]. discriminate X.
  - exists (firstn 7 (nlife nq_env nq_two)).
    eexists. exists [NDid 0 (NCalled 0 0 nq_s1 nq_A)]. split; [vm_compute; reflexivity|]. split.
    + intros ms [X|[]]. discriminate X.
    + intros [(n & k & x & [X|[]] & _)|H]; [discriminate X|].
      specialize (H 0%nat _ eq_refl). destruct H as [(k & [X|[]])|H]; [discriminate X|].
      assert (nobody_left nq_A [NDid 0 (NCalled 0 0 nq_s1 nq_A)]) as L
        by (intros name s _ [X|[]]; discriminate X).
      specialize (H L 1%nat nq_s2). vm_compute in H. destruct (H eq_refl) as [X|[]]. discriminate X.
Qed.
Example C94_stop_ex : map short (n_calls 0 (nlife nq_env nq_stops)) = [(0, 0, 1); (0, 1, 2); (2, 0, 1); (3, 0, 1); (3, 1, 2)]%nat /\
  n_posts 0 (nlife nq_env nq_stops) = [LMap []; LMap [("ack"%string, LInt 7); ("done"%string, LBool true)]] /\
  nq_pool (nafter nq_env nq_stops) = [NDone false] /\ one_at_a_time nq_env nq_init nq_stops /\
  n_stopped (nafter nq_env (firstn 8 nq_stops)).
Proof.
  split; [reflexivity|]. split; [reflexivity|]. split; [reflexivity|]. split; [exact nq_stops_one|reflexivity].
Qed.
