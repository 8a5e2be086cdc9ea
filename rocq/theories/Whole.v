(** pyogp/lib/base/message_manager.py as a whole: the UDP side (LiveManager.v) and
    the event queue (LiveQueue.v) of one manager, with the one message handler they
    share (message_manager.py:62-65, 101, 111).  Any coroutine of either kind, any
    operation of the dispatcher under way and the user may run wherever one of them
    calls a subscriber, sleeps or does I/O. *)
From Verif Require Export LiveManager LiveQueue.

(** What a manager is made with: the dispatcher's settings and templates, the host,
    and, if there is a capability EventQueueGet (99-104), the event queue's. *)
Record wenv := { we_env : denv; we_host : addr; we_queue : option qenv }.

(** The handler is the dispatcher's [s_handler]; the event queue has the same one. *)
Record whole := { wh_udp : live; wh_eq : eqstate; wh_pool : list npc }.
(** message_manager.py:41-112: a new manager, not started *)
Definition w_init (e : wenv) : whole :=
  {| wh_udp := v_init (we_env e) (we_host e); wh_eq := eq_init; wh_pool := [] |}.
Definition w_handler (w : whole) : registry := s_handler (cf_st (lv_cf (wh_udp w))).
Definition w_queue (w : whole) : lqueue :=
  {| nq_q := wh_eq w; nq_reg := w_handler w; nq_pool := wh_pool w |}.

(** Everything that can happen. *)
Inductive wop :=
| WStart                                 (* start_monitors (118-129) *)
| WStop                                  (* stop_monitors (134-144) *)
| WEnqueue (msg : nat) (reliable now : bool)       (* enqueue_message (150-158) *)
| WHandler (h : hop)                     (* somebody, a subscriber say, uses the message handler *)
| WUser (x : sched)                      (* an operation of the dispatcher is started, or goes on *)
| WUdp (i : nat) (r : recv) (order : list addr)    (* the i-th UDP coroutine goes on *)
| WQueueStop                             (* event_queue.stop() *)
| WQueue (i : nat) (o : post_outcome) (x : option exn).  (* the i-th coroutine of the event queue goes on *)

(** What that is for the UDP side: the handler is used through [WHandler] only. *)
Definition udp_ops (w : whole) (o : wop) : list vop :=
  match o with
  | WStart => [VStartMonitors]
  | WStop => [VStopMonitors]
  | WEnqueue msg rel now => [VEnqueue msg rel now]
  | WHandler h => [VUser (Spawn (SetHandler (fst (hstep (w_handler w) h))))]
  | WUser (Spawn (SetHandler _)) => []
  | WUser x => [VUser x]
  | WUdp i r order => [VRun i r order]
  | WQueueStop | WQueue _ _ _ => []
  end.
(** And for the event queue. *)
Definition queue_ops (o : wop) : list nop :=
  match o with
  | WStart => [NStart]
  | WStop => [NStopMonitors]
  | WHandler h => [NUser h]
  | WQueueStop => [NStop]
  | WQueue i o x => [NRun i o x]
  | _ => []
  end.
Definition wstep (e : wenv) (w : whole) (o : wop) : whole :=
  let udp := vrun (we_env e) (wh_udp w) (udp_ops w o) in
  match we_queue e with
  | Some q => let l := nrun q (w_queue w) (queue_ops o) in {| wh_udp := udp; wh_eq := nq_q l; wh_pool := nq_pool l |}
  | None => {| wh_udp := udp; wh_eq := wh_eq w; wh_pool := wh_pool w |}
  end.
(** The exception stop_monitors raises: without an event queue, [None._running]
    (143) fails, after the flag has been cleared (139). *)
Definition stop_raises (e : wenv) : option exn :=
  match we_queue e with None => Some AttributeErr | Some _ => None end.
Fixpoint wrun (e : wenv) (w : whole) (ops : list wop) : whole :=
  match ops with [] => w | o :: ops' => wrun e (wstep e w o) ops' end.
