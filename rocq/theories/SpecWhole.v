(** Vocabulary for C100: one manager, its UDP side and its event queue together.
    What is seen of each side is as in SpecLiveManager.v and SpecLiveQueue.v. *)
From Verif Require Export SpecEvents SpecLiveManager SpecLiveQueue Whole.

Inductive wobs :=
| WV (x : vobs)              (* seen on the UDP side *)
| WN (x : nobs)              (* seen of the event queue *)
| WUsed (h : hop)            (* the message handler they share is used *)
| WRaised (x : exn).         (* stop_monitors raises *)
Definition wobserved (e : wenv) (w : whole) (o : wop) : list wobs :=
  match o with
  | WHandler h => [WUsed h]
  | _ =>
      map WV (vhistory (we_env e) (wh_udp w) (udp_ops w o)) ++
      match we_queue e with Some q => map WN (nhistory q (w_queue w) (queue_ops o)) | None => [] end ++
      match o, stop_raises e with WStop, Some x => [WRaised x] | _, _ => [] end
  end.
Fixpoint whistory (e : wenv) (w : whole) (ops : list wop) : list wobs :=
  match ops with
  | [] => []
  | o :: ops' => wobserved e w o ++ whistory e (wstep e w o) ops'
  end.
(** The history of a new manager, and what has become of it. *)
Definition wlife (e : wenv) (ops : list wop) : list wobs := whistory e (w_init e) ops.
Definition wafter (e : wenv) (ops : list wop) : whole := wrun e (w_init e) ops.

(** ** Parts of a history *)
Definition udp_part (h : list wobs) : list vobs := flat_map (fun x => match x with WV x => [x] | _ => [] end) h.
Definition queue_part (h : list wobs) : list nobs :=
  flat_map (fun x => match x with WN x => [x] | WUsed h => [NUsed h] | _ => [] end) h.
Definition handler_uses (h : list wobs) : list hop := flat_map (fun x => match x with WUsed h => [h] | _ => [] end) h.
(** Who is subscribed to messages of this name after such a history, whoever it was
    that subscribed and unsubscribed. *)
Definition subscribed_to (name : string) (h : list wobs) : list sub := subscriptions name [] (handler_uses h).

(** ** Conditions *)
(** No Message object is given another name while it exists. *)
Definition keeps_name (w : whole) (o : wop) : Prop :=
  match o with
  | WUser (Spawn (SetMsg r m)) =>
      forall m0, nth_error (s_msgs (cf_st (lv_cf (wh_udp w)))) r = Some m0 -> m_name m = m_name m0
  | _ => True
  end.
Fixpoint keep_names (e : wenv) (w : whole) (ops : list wop) : Prop :=
  match ops with [] => True | o :: ops' => keeps_name w o /\ keep_names e (wstep e w o) ops' end.
(** The steps that are the event queue's alone, and those that are the UDP side's alone. *)
Definition of_queue (o : wop) : bool := match o with WQueueStop | WQueue _ _ _ => true | _ => false end.
Definition of_udp (o : wop) : bool := match o with WEnqueue _ _ _ | WUser _ | WUdp _ _ _ => true | _ => false end.
(** The user leaves receiving and acknowledging to the manager. *)
Definition leaves_to_manager (o : wop) : Prop :=
  match o with
  | WUser (Spawn (Receive _ _ _)) | WUser (Spawn (ProcessAcks _ _)) => False
  | _ => True
  end.
(** start_monitors is called only when every earlier UDP coroutine has ended. *)
Fixpoint w_started_in_turn (e : wenv) (w : whole) (ops : list wop) : Prop :=
  match ops with
  | [] => True
  | o :: ops' => (o = WStart -> Forall (fun p => exists x, p = VEnd x) (lv_udp (wh_udp w))) /\
                 w_started_in_turn e (wstep e w o) ops'
  end.
