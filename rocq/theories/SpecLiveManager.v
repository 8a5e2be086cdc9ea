(** Vocabulary for C91 and C92: a manager whose coroutines may be interrupted
    wherever a subscriber or the socket is called.  Numbers, acknowledgements and
    their books are those of SpecGreenlets.v, the order of the queue that of
    SpecManager.v. *)
From Verif Require Import SpecManager.
From Verif Require Export LiveManager SpecGreenlets.

(** What is seen of a manager. *)
Inductive vobs :=
| VStarted | VStopped
| VEnqueued (msg : nat) (reliable now : bool)
| VBegun (b : begun)                   (* a coroutine calls receive_check, process_acks or send_udp_message *)
| VSeen (e : gevent).                  (* what its dispatcher lets us see (C79, C80) *)
Definition vobserved (env : denv) (v : live) (o : vop) : list vobs :=
  match o with
  | VStartMonitors => [VStarted]
  | VStopMonitors => [VStopped]
  | VEnqueue msg rel now => [VEnqueued msg rel now]
  | _ => []
  end ++ map VBegun (snd (vdoes v o)) ++ map VSeen (gtrace env (lv_cf v) (fst (vdoes v o))).
Fixpoint vhistory (env : denv) (v : live) (ops : list vop) : list vobs :=
  match ops with
  | [] => []
  | o :: ops' => vobserved env v o ++ vhistory env (vstep env v o) ops'
  end.
(** A manager made for [host] and what became of it. *)
Definition vafter (env : denv) (host : addr) (ops : list vop) : live := vrun env (v_init env host) ops.
Definition vlife (env : denv) (host : addr) (ops : list vop) : list vobs :=
  map VSeen (gtrace env (idle init_state) (v_objects host)) ++ vhistory env (v_init env host) ops.

(** ** Parts of a history *)
Definition v_enqueued (h : list vobs) : list (nat * bool * bool) :=
  flat_map (fun x => match x with VEnqueued msg rel now => [(msg, rel, now)] | _ => [] end) h.
Definition v_begun (h : list vobs) : list begun := flat_map (fun x => match x with VBegun b => [b] | _ => [] end) h.
Definition v_seen (h : list vobs) : list gevent := flat_map (fun x => match x with VSeen e => [e] | _ => [] end) h.
(** The messages taken from the queue to be sent, in that order, by whichever
    coroutine. *)
Definition v_sent (h : list vobs) : list (nat * bool) :=
  flat_map (fun b => match bg_call b with CSend msg rel => [(msg, rel)] | _ => [] end) (v_begun h).
Definition v_starts (h : list vobs) : nat :=
  List.length (filter (fun x => match x with VStarted => true | _ => false end) h).
Definition v_started_last (h : list vobs) : bool :=
  fold_left (fun b x => match x with VStarted => true | VStopped => false | _ => b end) h false.
(** What the i-th coroutine calls. *)
Definition calls_of (i : nat) (h : list vobs) : list begun := filter (fun b => Nat.eqb i (bg_by b)) (v_begun h).
Definition receptions (bs : list begun) : list begun :=
  filter (fun b => match bg_call b with CReceive _ => true | _ => false end) bs.

(** The operations of the dispatcher that a schedule starts, in that order. *)
Definition spawned (xs : list sched) : list op :=
  flat_map (fun x => match x with Spawn o => [o] | Resume _ _ => [] end) xs.
(** The operation a coroutine's call is: receive_check with what recvfrom gave, for
    the client's sender; process_acks; send_message to the manager's host, reliably
    with no repetitions if so requested. *)
Definition stands_for (o : op) (c : call) : Prop :=
  match c with
  | CReceive data => o = Receive 1 data (zlen data)
  | CAcks => exists order, o = ProcessAcks order (fun _ _ => None)
  | CSend msg reliable => o = Send msg 0 (if reliable then Reliable 0 else Plain) (fun _ _ => None)
  end.
(** How a call ended, if it has: with an exception, or not. *)
Definition call_ended (v : live) (b : begun) (e : option exn) : Prop :=
  match nth_error (cf_pool (lv_cf v)) (bg_thread b) with
  | Some (Finished (ORecv r)) => match r_res r with Err x => e = Some x | Ok _ => e = None end
  | Some (Finished (OSend o)) => match o_res o with Err x => e = Some x | Ok _ => e = None end
  | Some (Finished OUnit) => e = None
  | _ => False
  end.
(** Iterations of the loop: receive_check, possibly process_acks, any number of sends. *)
Definition v_iteration (bs : list begun) : Prop :=
  exists r acks sends, bs = r :: acks ++ sends /\ (exists data, bg_call r = CReceive data) /\
    (acks = [] \/ exists k, acks = [k] /\ bg_call k = CAcks) /\
    Forall (fun b => exists msg rel, bg_call b = CSend msg rel) sends.

(** The user leaves receiving and acknowledging to the manager. *)
Definition leaves_it (o : vop) : Prop :=
  match o with
  | VUser (Spawn (Receive _ _ _)) | VUser (Spawn (ProcessAcks _ _)) => False
  | _ => True
  end.

Definition v_no_start (o : vop) : Prop := o <> VStartMonitors.
(** The monitors are started (again) only when every earlier coroutine has ended. *)
Fixpoint started_in_turn (env : denv) (v : live) (ops : list vop) : Prop :=
  match ops with
  | [] => True
  | o :: ops' => (o = VStartMonitors -> Forall (fun p => exists e, p = VEnd e) (lv_udp v)) /\
                 started_in_turn env (vstep env v o) ops'
  end.
(** No coroutine is inside process_acks, and none was ended by an exception. *)
Definition undisturbed (v : live) : Prop :=
  forall p, In p (lv_udp v) -> (forall t, p <> VAcks t) /\ (forall e, p <> VEnd (Some e)).
