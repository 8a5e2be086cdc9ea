(** pyogp/lib/base/message_manager.py, the outgoing queue and the UDP loop,
    with the receiving side of network/net.py. *)
From Verif Require Export Dispatcher EventQueue.

(** Where the UDP coroutine (message_manager.py:167-186) is suspended: about to
    start; in api.sleep(0); in recvfrom; between two sends of the inner loop;
    or ended, by an exception or normally. *)
Inductive pc := PStart | PSleep | PRecv | PDrain | PEnd (e : option exn).

(** The manager: the dispatcher's state, the Host object it sends to, the Host
    object of its NetUDPClient (net.py:31), its queue, flag and event queue.
    Simplification: one UDP coroutine (start_monitors called once); see
    Monitors.v for any number. *)
Record mstate := {
  mm_disp : dstate;
  mm_host : nat;
  mm_sender : nat;
  mm_queue : list (nat * bool);        (* outgoing_queue: (message, reliable) *)
  mm_running : bool;                   (* _is_running *)
  mm_eq : option eqstate;              (* event_queue *)
  mm_pc : pc }.

Definition mm_set (m : mstate) (d : dstate) (q : list (nat * bool)) (p : pc) : mstate :=
  {| mm_disp := d; mm_host := mm_host m; mm_sender := mm_sender m; mm_queue := q;
     mm_running := mm_running m; mm_eq := mm_eq m; mm_pc := p |}.
Definition mm_set_running (m : mstate) (b : bool) (e : option eqstate) : mstate :=
  {| mm_disp := mm_disp m; mm_host := mm_host m; mm_sender := mm_sender m;
     mm_queue := mm_queue m; mm_running := b; mm_eq := e; mm_pc := mm_pc m |}.

(** message_manager.py:94-112 and 121-125: a manager for the Host object 0,
    whose client's sender is Host object 1 (net.py:31: (None, None)), started. *)
Definition mm_init (host : addr) (eq : option eqstate) : mstate :=
  {| mm_disp := set_hosts init_state [host; (HNone, HNone)]; mm_host := 0; mm_sender := 1;
     mm_queue := []; mm_running := true; mm_eq := eq; mm_pc := PStart |}.

(** message_manager.py:150-158, enqueue_message *)
Definition enqueue_message (m : mstate) (msg : nat) (reliable now : bool) : mstate :=
  mm_set m (mm_disp m)
         (if now then (msg, reliable) :: mm_queue m else mm_queue m ++ [(msg, reliable)])
         (mm_pc m).

(** message_manager.py:134-144, stop_monitors: without an event queue,
    [None._running] fails after the flag has been cleared. *)
Definition stop_monitors (m : mstate) : mstate * res unit :=
  match mm_eq m with
  | None => (mm_set_running m false None, Err AttributeErr)
  | Some q => (mm_set_running m false (Some (if eq_running q then eq_stop q else q)), Ok tt)
  end.

(** message_manager.py:188-195, send_udp_message *)
Definition send_udp_message (env : denv) (m : mstate) (msg : nat) (reliable : bool)
  (sock : addr -> bytes -> option exn) : dstate * dout :=
  send_message env (mm_disp m) msg (mm_host m) (if reliable then Reliable 0 else Plain) sock.

(** What recvfrom does: raise, or give a datagram and its source. *)
Inductive recv := RFail | RData (a : addr) (data : bytes).

(** What the loop lets the outside world see in one step. *)
Inductive mevent :=
| ERecv (r : rout)                             (* a call of receive_check *)
| EAcks (o : dout)                             (* a call of process_acks *)
| ESend (msg : nat) (reliable : bool) (o : dout). (* a call of send_udp_message *)

(** net.py:44-54, receive_packet: (data, size), with the sender's address
    updated unless recvfrom raised. *)
Definition receive_packet (m : mstate) (r : recv) : dstate * bytes * Z :=
  match r with
  | RFail => (mm_disp m, [], 0)
  | RData a data =>
      (set_hosts (mm_disp m) (update_nth (mm_sender m) a (s_hosts (mm_disp m))), data, zlen data)
  end.

(** message_manager.py:174-180: from the return of recvfrom to the inner loop.
    Simplification: the sends of process_acks are not interrupted by other
    coroutines here; LiveManager.v does without this. *)
Definition loop_receive (env : denv) (m : mstate) (r : recv) (order : list addr)
  (sock : addr -> bytes -> option exn) : mstate * list mevent :=
  let '(d, buf, size) := receive_packet m r in
  let '(d, ro) := receive_check env d (mm_sender m) buf size in
  match r_res ro with
  | Err e => (mm_set m d (mm_queue m) (PEnd (Some e)), [ERecv ro])
  | Ok _ =>
      if has_unacked d then
        let '(d, o) := process_acks env d order sock in
        match o_res o with
        | Err e => (mm_set m d (mm_queue m) (PEnd (Some e)), [ERecv ro; EAcks o])
        | Ok _ => (mm_set m d (mm_queue m) PDrain, [ERecv ro; EAcks o])
        end
      else (mm_set m d (mm_queue m) PDrain, [ERecv ro])
  end.

(** message_manager.py:172-173: the loop condition, then the sleep *)
Definition loop_top (m : mstate) : mstate :=
  mm_set m (mm_disp m) (mm_queue m) (if mm_running m then PSleep else PEnd None).

(** message_manager.py:167-186, _udp_dispatcher from one suspension point to
    the next. *)
Definition loop_step (env : denv) (m : mstate) (r : recv) (order : list addr)
  (sock : addr -> bytes -> option exn) : mstate * list mevent :=
  match mm_pc m with
  | PStart => (loop_top m, [])
  | PSleep => (mm_set m (mm_disp m) (mm_queue m) PRecv, [])
  | PRecv => loop_receive env m r order sock
  | PDrain =>
      match mm_queue m with
      | [] => (loop_top m, [])
      | (msg, reliable) :: q =>
          let '(d, o) := send_udp_message env m msg reliable sock in
          (mm_set m d q (match o_res o with Err e => PEnd (Some e) | Ok _ => PDrain end),
           [ESend msg reliable o])
      end
  | PEnd _ => (m, [])
  end.

(** Everything that can happen to a running manager. *)
Inductive mop :=
| MEnqueue (msg : nat) (reliable now : bool)
| MStop
| MUser (o : op)                       (* the user acts on the dispatcher or its objects *)
| MLoop (r : recv) (order : list addr) (sock : addr -> bytes -> option exn).

Definition mstep (env : denv) (m : mstate) (o : mop) : mstate * list mevent :=
  match o with
  | MEnqueue msg rel now => (enqueue_message m msg rel now, [])
  | MStop => (fst (stop_monitors m), [])
  | MUser o => (mm_set m (fst (step env (mm_disp m) o)) (mm_queue m) (mm_pc m), [])
  | MLoop r order sock => loop_step env m r order sock
  end.

Fixpoint mrun (env : denv) (m : mstate) (ops : list mop) : mstate * list mevent :=
  match ops with
  | [] => (m, [])
  | o :: ops' =>
      let '(m, e) := mstep env m o in
      let '(m, es) := mrun env m ops' in
      (m, e ++ es)
  end.
