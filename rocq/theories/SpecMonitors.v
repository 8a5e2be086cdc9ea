(** Vocabulary for C81 and C82: a manager started and stopped any number of times. *)
From Verif Require Export SpecManager Monitors.

(** What is seen of a manager: what the user calls and what its coroutines do. *)
Inductive lobs :=
| OStarted | OStopped | OQueueStopped
| OEnqueued (msg : nat) (reliable now : bool)
| ODid (e : levent).
Definition lobserved (o : lop) (es : list levent) : list lobs :=
  match o with
  | LStart => [OStarted]
  | LStop => [OStopped]
  | LQueueStop => [OQueueStopped]
  | LEnqueue msg rel now => [OEnqueued msg rel now]
  | _ => []
  end ++ map ODid es.
Fixpoint lhistory (env : denv) (e : qenv) (mo : monitors) (ops : list lop) : list lobs :=
  match ops with
  | [] => []
  | o :: ops' => lobserved o (snd (lstep env e mo o)) ++ lhistory env e (fst (lstep env e mo o)) ops'
  end.
(** The states of a manager: those reached from its creation. *)
Definition l_reachable (env : denv) (e : qenv) (mo : monitors) : Prop :=
  exists host eq ops, (eq = None \/ eq = Some eq_init) /\ mo = fst (lrun env e (mo_init host eq) ops).

(** The messages enqueued, (message, reliable, now), and those sent by any of the
    UDP coroutines, in order. *)
Definition enqueued (h : list lobs) : list (nat * bool * bool) :=
  flat_map (fun x => match x with OEnqueued msg rel now => [(msg, rel, now)] | _ => [] end) h.
Definition sent (h : list lobs) : list (nat * bool) :=
  flat_map (fun x => match x with ODid (UdpDid _ (ESend msg rel _)) => [(msg, rel)] | _ => [] end) h.
(** The calls made by the i-th UDP coroutine. *)
Definition own_calls (i : nat) (es : list levent) : list mevent :=
  flat_map (fun x => match x with UdpDid j e => if Nat.eqb i j then [e] else [] | _ => [] end) es.
Definition starts (h : list lobs) : nat :=
  List.length (filter (fun x => match x with OStarted => true | _ => false end) h).
(** Was start_monitors called after the last stop_monitors? *)
Definition started_last (h : list lobs) : bool :=
  fold_left (fun b x => match x with OStarted => true | OStopped => false | _ => b end) h false.
(** The i-th UDP coroutine is about to look at the flag. *)
Definition about_to_check (mo : monitors) (i : nat) : Prop :=
  nth_error (mo_udp mo) i = Some PStart \/
  nth_error (mo_udp mo) i = Some PDrain /\ mm_queue (mo_manager mo) = [].
Definition no_start (o : lop) : Prop := o <> LStart.
Definition steps_of (i : nat) (ops : list lop) : nat :=
  List.length (filter (fun o => match o with LUdp j _ _ _ => Nat.eqb i j | _ => false end) ops).

(** ** The event queue *)
Definition stopped_queue (mo : monitors) : Prop :=
  match mm_eq (mo_manager mo) with Some q => eq_stopped q = true | None => False end.
(** The data posted, and the messages delivered, by the i-th event queue coroutine. *)
Definition posts_by (i : nat) (es : list levent) : list llsd :=
  flat_map (fun x => match x with QueueDid j (QPosted d) => if Nat.eqb i j then [d] else [] | _ => [] end) es.
Definition delivered_by (i : nat) (es : list levent) : list eqmessage :=
  flat_map (fun x => match x with QueueDid j (QDelivered m) => if Nat.eqb i j then [m] else [] | _ => [] end) es.
(** A request that ends the connection. *)
Definition closes (d : llsd) : Prop := exists last, d = LMap [("ack"%string, last); ("done"%string, LBool true)].
(** A poll. *)
Definition polls (d : llsd) : Prop := d = LMap [] \/ exists last, d = LMap [("ack"%string, last)].
Definition alive (p : qpc) : Prop := match p with QEnd _ => False | _ => True end.
Definition queue_steps_of (i : nat) (ops : list lop) : nat :=
  List.length (filter (fun o => match o with LQueue j _ => Nat.eqb i j | _ => false end) ops).
(** How many polls and closing requests a coroutine, or one not yet spawned, may
    still post once the queue is stopped. *)
Definition polls_left (p : option qpc) : nat := match p with Some QSleep => 1 | _ => 0 end.
Definition closes_left (p : option qpc) : nat := match p with Some QClosing | Some (QEnd _) => 0 | _ => 1 end.
(** A coroutine on its own: it begins; then each poll is its sleep, possibly a
    stop() of the queue while the POST is under way, and what the POST meets. *)
Definition one_poll (p : poll) : list lop :=
  LQueue 0 (PostErr KeyErr) :: (if p_stop p then [LQueueStop] else []) ++ [LQueue 0 (p_out p)].
Definition alone (polls : list poll) : list lop :=
  LStart :: LQueue 0 (PostErr KeyErr) :: flat_map one_poll polls.
