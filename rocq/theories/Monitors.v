(** pyogp/lib/base/message_manager.py with any number of calls of start_monitors
    and stop_monitors: each start spawns one more UDP coroutine and, if there is an
    event queue, one more event queue coroutine (event_queue.py), all of them
    sharing the manager's queue, dispatcher, flags and event queue object. *)
From Verif Require Export Manager.

(** What the event queue side depends on: the setting ENABLE_REGION_EVENT_QUEUE,
    the name of the capability, which messages have templates and which ones make
    a subscriber raise (as in EventQueue.v). *)
Record qenv := {
  qe_enabled : bool;
  qe_cap : string;
  qe_known : string -> bool;
  qe_raises : eqmessage -> bool }.

(** Where a coroutine running event_queue.start is suspended: not yet begun; in
    api.sleep (176); in cap.POST (190); in the last POST (212); or it has returned
    (start()'s result). *)
Inductive qpc := QStart | QSleep | QPost | QClosing | QEnd (result : bool).

(** What an event queue coroutine does in one step: the data it posts and the
    messages it hands to the message handler. *)
Inductive qevent := QPosted (data : llsd) | QDelivered (m : eqmessage).

(** event_queue.py:173 and 208-214: the loop condition and what follows the loop *)
Definition queue_top (q : eqstate) : eqstate * list qevent * qpc :=
  if eq_stopped q then
    if equals_minus1 (eq_last q) then (set_running q false, [], QEnd true)
    else (q, [QPosted (eq_closing (eq_last q))], QClosing)
  else (q, [], QSleep).

(** event_queue.py:104-138, 164-216, 218-236, from one suspension point to the
    next; [o] is what the POST in progress met.
    Simplification: handling the messages of one response is not interrupted
    (LiveQueue.v goes without this). *)
Definition queue_step (e : qenv) (q : eqstate) (p : qpc) (o : post_outcome) : eqstate * list qevent * qpc :=
  match p with
  | QStart =>
      if String.eqb (qe_cap e) "event_queue" then
        let q := set_running q true in
        if eq_stopped q then (set_running q false, [], QEnd true) else (q, [], QEnd false)
      else if String.eqb (qe_cap e) "EventQueueGet" then queue_top (set_running q true)
      else (q, [], QEnd false)
  | QSleep => (q, [QPosted (eq_payload (eq_last q))], QPost)
  | QPost =>
      let '(q, del) := eq_after (qe_known e) (qe_raises e) q o in
      let '(q, ev, p) := queue_top q in
      (q, map QDelivered del ++ ev, p)
  | QClosing =>
      match o with
      | PostOk _ => (set_running q false, [], QEnd true)
      | PostErr _ => (q, [], QEnd false)
      end
  | QEnd _ => (q, [], p)
  end.

(** A manager with its coroutines.  [mm_pc] of the manager is not used. *)
Record monitors := {
  mo_manager : mstate;
  mo_udp : list pc;
  mo_queue : list qpc }.
Definition with_pc (m : mstate) (p : pc) : mstate := mm_set m (mm_disp m) (mm_queue m) p.

(** message_manager.py:41-116: a new manager, not started *)
Definition mo_init (host : addr) (eq : option eqstate) : monitors :=
  {| mo_manager := mm_set_running (mm_init host eq) false eq; mo_udp := []; mo_queue := [] |}.

(** message_manager.py:118-129, start_monitors *)
Definition start_monitors (e : qenv) (mo : monitors) : monitors :=
  {| mo_manager := mm_set_running (mo_manager mo) true (mm_eq (mo_manager mo));
     mo_udp := mo_udp mo ++ [PStart];
     mo_queue := match mm_eq (mo_manager mo) with
                 | Some _ => if qe_enabled e then mo_queue mo ++ [QStart] else mo_queue mo
                 | None => mo_queue mo
                 end |}.

(** Everything that can happen. *)
Inductive lop :=
| LStart
| LStop
| LQueueStop                            (* the user calls event_queue.stop() *)
| LEnqueue (msg : nat) (reliable now : bool)
| LUser (o : op)                        (* the user acts on the dispatcher or its objects *)
| LUdp (i : nat) (r : recv) (order : list addr) (sock : addr -> bytes -> option exn)
| LQueue (i : nat) (o : post_outcome).

(** What the i-th coroutine of either kind does. *)
Inductive levent := UdpDid (i : nat) (e : mevent) | QueueDid (i : nat) (e : qevent).

Definition set_manager (mo : monitors) (m : mstate) : monitors :=
  {| mo_manager := m; mo_udp := mo_udp mo; mo_queue := mo_queue mo |}.
Definition lstep (env : denv) (e : qenv) (mo : monitors) (o : lop) : monitors * list levent :=
  let m := mo_manager mo in
  match o with
  | LStart => (start_monitors e mo, [])
  | LStop => (set_manager mo (fst (stop_monitors m)), [])
  | LQueueStop => (set_manager mo (mm_set_running m (mm_running m) (option_map eq_stop (mm_eq m))), [])
  | LEnqueue msg rel now => (set_manager mo (enqueue_message m msg rel now), [])
  | LUser o => (set_manager mo (mm_set m (fst (step env (mm_disp m) o)) (mm_queue m) (mm_pc m)), [])
  | LUdp i r order sock =>
      match nth_error (mo_udp mo) i with
      | None => (mo, [])
      | Some p =>
          let '(m', es) := loop_step env (with_pc m p) r order sock in
          ({| mo_manager := with_pc m' (mm_pc m); mo_udp := update_nth i (mm_pc m') (mo_udp mo); mo_queue := mo_queue mo |},
           map (UdpDid i) es)
      end
  | LQueue i o =>
      match nth_error (mo_queue mo) i, mm_eq m with
      | Some p, Some q =>
          let '(q, ev, p) := queue_step e q p o in
          ({| mo_manager := mm_set_running m (mm_running m) (Some q); mo_udp := mo_udp mo;
              mo_queue := update_nth i p (mo_queue mo) |}, map (QueueDid i) ev)
      | _, _ => (mo, [])
      end
  end.
Fixpoint lrun (env : denv) (e : qenv) (mo : monitors) (ops : list lop) : monitors * list levent :=
  match ops with
  | [] => (mo, [])
  | o :: ops' =>
      let '(mo, es) := lstep env e mo o in
      let '(mo, es') := lrun env e mo ops' in
      (mo, es ++ es')
  end.
