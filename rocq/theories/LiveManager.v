(** pyogp/lib/base/message_manager.py, the UDP side once more, now with its
    operations of the dispatcher cut at every call of a subscriber and of sendto
    (Greenlets.v): there other UDP coroutines, the user's greenlets and the
    subscriber itself may do anything.  The event queue is left out; what its
    subscribers do is the user's doing here. *)
From Verif Require Export Manager Greenlets.

(** Where a UDP coroutine (message_manager.py:167-186) is: about to start; in
    api.sleep(0) (173); in recvfrom (174); inside receive_check (175), process_acks
    (180) or send_udp_message (184), which is the t-th operation of the
    dispatcher's pool; at the inner loop (182); or ended, by an exception or
    normally.  [VDrain], and a call that has just begun or just returned, are no
    points of interruption in the code; letting others run there only adds
    schedules. *)
Inductive vpc :=
| VStart | VSleep | VRecv
| VReceive (t : nat) | VAcks (t : nat) | VDrain | VSend (t : nat)
| VEnd (e : option exn).

(** The manager: its dispatcher with the operations under way, its queue, flag and
    UDP coroutines.  Host object 0 is the one it sends to, 1 that of its
    NetUDPClient (net.py:31). *)
Record live := {
  lv_cf : config;
  lv_queue : list (nat * bool);        (* outgoing_queue: (message, reliable) *)
  lv_running : bool;                   (* _is_running *)
  lv_udp : list vpc }.
Definition region : nat := 0.
Definition sender : nat := 1.

(** message_manager.py:41-112: a new manager, not started *)
Definition v_objects (host : addr) : list sched := [Spawn (NewHost host); Spawn (NewHost (HNone, HNone))].
Definition v_init (env : denv) (host : addr) : live :=
  {| lv_cf := fst (crun env (idle init_state) (v_objects host)); lv_queue := []; lv_running := false; lv_udp := [] |}.

(** What a coroutine begins. *)
Inductive call := CReceive (data : bytes) | CAcks | CSend (msg : nat) (reliable : bool).
Record begun := { bg_by : nat; bg_thread : nat; bg_call : call }.

(** The result of the t-th operation, if it has returned. *)
Definition returned (cf : config) (t : nat) : option (res unit) :=
  match nth_error (cf_pool cf) t with
  | Some (Finished (ORecv r)) => Some (match r_res r with Ok _ => Ok tt | Err e => Err e end)
  | Some (Finished (OSend o)) => Some (match o_res o with Ok _ => Ok tt | Err e => Err e end)
  | Some (Finished OUnit) => Some (Ok tt)
  | _ => None
  end.

(** What coroutine [i] does when it goes on: operations it starts, one of them the
    call it waits for; the queue; where it is then.  [r]: what recvfrom did;
    [order]: the order of the circuits in process_acks. *)
Definition udp_step (v : live) (i : nat) (p : vpc) (r : recv) (order : list addr) :
  list sched * list begun * list (nat * bool) * vpc :=
  let q := lv_queue v in
  let n := List.length (cf_pool (lv_cf v)) in
  let top := if lv_running v then VSleep else VEnd None in              (* 172 *)
  let call t c := [{| bg_by := i; bg_thread := t; bg_call := c |}] in
  match p with
  | VStart => ([], [], q, top)
  | VSleep => ([], [], q, VRecv)
  | VRecv =>                                                            (* 174-177; net.py:44-54 *)
      match r with
      | RFail => ([Spawn (Receive sender [] 0)], call n (CReceive []), q, VReceive n)
      | RData a data =>
          ([Spawn (SetHost sender a); Spawn (Receive sender data (zlen data))], call (S n) (CReceive data), q, VReceive (S n))
      end
  | VReceive t =>
      match returned (lv_cf v) t with
      | None => ([], [], q, p)
      | Some (Err e) => ([], [], q, VEnd (Some e))
      | Some (Ok _) =>                                                  (* 179-180 *)
          if has_unacked (cf_st (lv_cf v))
          then ([Spawn (ProcessAcks order (fun _ _ => None))], call n CAcks, q, VAcks n)
          else ([], [], q, VDrain)
      end
  | VAcks t | VSend t =>
      match returned (lv_cf v) t with
      | None => ([], [], q, p)
      | Some (Err e) => ([], [], q, VEnd (Some e))
      | Some (Ok _) => ([], [], q, VDrain)
      end
  | VDrain =>                                                           (* 182-184, 188-195 *)
      match q with
      | [] => ([], [], q, top)
      | (msg, reliable) :: q' =>
          ([Spawn (Send msg region (if reliable then Reliable 0 else Plain) (fun _ _ => None))],
           call n (CSend msg reliable), q', VSend n)
      end
  | VEnd _ => ([], [], q, p)
  end.

(** Everything that can happen. *)
Inductive vop :=
| VStartMonitors                        (* 118-129 *)
| VStopMonitors                         (* 134-144 *)
| VEnqueue (msg : nat) (reliable now : bool)   (* 150-158 *)
| VUser (x : sched)                     (* the user starts an operation of the dispatcher, or one under way,
                                           the user's or a coroutine's, goes on *)
| VRun (i : nat) (r : recv) (order : list addr).   (* the i-th coroutine goes on *)

(** What it makes the dispatcher do, what it begins, and the new state. *)
Definition vdoes (v : live) (o : vop) : list sched * list begun :=
  match o with
  | VUser x => ([x], [])
  | VRun i r order =>
      match nth_error (lv_udp v) i with
      | Some p => let '(xs, bs, _, _) := udp_step v i p r order in (xs, bs)
      | None => ([], [])
      end
  | _ => ([], [])
  end.
Definition vstep (env : denv) (v : live) (o : vop) : live :=
  let cf := fst (crun env (lv_cf v) (fst (vdoes v o))) in
  match o with
  | VStartMonitors => {| lv_cf := cf; lv_queue := lv_queue v; lv_running := true; lv_udp := lv_udp v ++ [VStart] |}
  | VStopMonitors => {| lv_cf := cf; lv_queue := lv_queue v; lv_running := false; lv_udp := lv_udp v |}
  | VEnqueue msg rel now =>
      {| lv_cf := cf; lv_queue := if now then (msg, rel) :: lv_queue v else lv_queue v ++ [(msg, rel)];
         lv_running := lv_running v; lv_udp := lv_udp v |}
  | VUser _ => {| lv_cf := cf; lv_queue := lv_queue v; lv_running := lv_running v; lv_udp := lv_udp v |}
  | VRun i r order =>
      match nth_error (lv_udp v) i with
      | Some p => let '(_, _, q, p') := udp_step v i p r order in
                  {| lv_cf := cf; lv_queue := q; lv_running := lv_running v; lv_udp := update_nth i p' (lv_udp v) |}
      | None => v
      end
  end.
Fixpoint vrun (env : denv) (v : live) (ops : list vop) : live :=
  match ops with [] => v | o :: ops' => vrun env (vstep env v o) ops' end.
