(** pyogp/lib/base/message/udpdispatcher.py used from several places at once:
    by subscribers while they are being called, and by other greenlets while a
    datagram is being handed to the (cooperative) socket.

    An operation runs without interruption except at the points where it calls a
    subscriber (message_handler.handle, udpdispatcher.py:169 and 200) or
    sock.sendto (net.py:42).  There anything else may run, to its end or to its
    own next such point, before it goes on.  Every use inside a subscriber and
    every interleaving of greenlets is thus a schedule: a list of "start an
    operation" and "let the i-th operation go on". *)
From Verif Require Export Dispatcher.

(** The part of the environment without subscribers. *)
Definition silent (env : denv) : denv :=
  {| e_pv := e_pv env; e_ser_dict := e_ser_dict env; e_ser_xml := e_ser_xml env;
     e_des_dict := e_des_dict env; e_des_xml := e_des_xml env; e_deferred := e_deferred env;
     e_handle := false; e_handle_out := false; e_cb := fun _ _ => None |}.

(** udpdispatcher.py:287-315: where __send_acks is: the circuit (by its key, and
    its host), the position in the list it iterates over, and the circuits left.
    The list is the circuit's current one, or, after another process_acks has
    replaced it (line 315 binds a new list), the old one, [Some l]. *)
Record flush := {
  f_key : addr;
  f_host : nat;
  f_pos : nat;
  f_list : option (list Z);
  f_todo : list addr }.

(** Where a call of __send_message returns to: its user, or __send_acks, inside
    the for loop (line 308) or after it (line 313, [last]). *)
Inductive back := ToUser | ToAcks (f : flush) (last : bool).
(** What message_handler.handle was called for: a received message (169) or one
    about to be sent (200). *)
Inductive work := Deliver (m : message) | Announce (mref href : nat) (md : mode) (k : back).

(** An operation that has been started. *)
Inductive thread :=
| Finished (o : outcome)
| InHandler (name : string) (next : nat) (w : work)   (* a subscriber is being called *)
| InSocket (mref : nat) (b : bytes) (k : back)        (* in sendto *)
| Returning (r : res (option bytes)) (f : flush) (last : bool)  (* back in __send_acks *)
| AtAcks (todo : list addr).                          (* between two circuits *)
(* Simplification: [Returning] and [AtAcks] are no points of interruption in the
   code; letting others run there only adds schedules. *)

(** What an observer sees, apart from receptions (see SpecGreenlets.v). *)
Inductive mark :=
| MCall (s : sub) (m : message)
| MPut (x : attempt)             (* prepared; [at_data]: what is handed to the socket *)
| MPack (k : addr) (ids : list Z)(* __send_acks starts sending a PacketAck with these ids *)
| MEmptied (k : addr)            (* line 315 *)
| MAbandoned (k : addr).         (* an exception leaves __send_acks at this circuit *)

Definition step_result : Type := dstate * list mark * thread.

Definition back_to (k : back) (r : res (option bytes)) : thread :=
  match k with
  | ToUser => Finished (OSend (out0 r))
  | ToAcks f last => Returning r f last
  end.

(** udpdispatcher.py:203-232, 238-245: from find_circuit to the call of sendto;
    the address and the message are those the objects have now. *)
Definition transmit (env : denv) (st : dstate) (mref href : nat) (md : mode) (k : back) : step_result :=
  match nth_error (s_hosts st) href, nth_error (s_msgs st) mref with
  | Some a, Some m =>
      let '(st, c) := find_circuit st href a in
      let '(c, m) := match md with
                     | Reliable r => prepare_packet c mref m LL_RELIABLE_FLAG r
                     | Plain => prepare_packet c mref m LL_NONE 0
                     end in
      let st := set_msgs (put_circuit st a c) (update_nth mref m (s_msgs st)) in
      let st := match md with
                | Reliable _ => if c_count c <=? 0
                                then set_unackedc st (dset Nat.eqb href a (s_unackedc st))
                                else st
                | Plain => st
                end in
      let put data := [MPut {| at_addr := a; at_msg := m; at_data := data |}] in
      match serialize (e_pv env) (e_ser_dict env) (e_ser_xml env) m with
      | Err e => (st, put None, back_to k (contain e m))
      | Ok None => (st, put None, back_to k (contain no_data m))
      | Ok (Some b) => (st, put (Some b), InSocket mref b k)
      end
  | _, _ => (st, [], back_to k (Err NameErr))                    (* no such object *)
  end.

(** message_handler.py:66-82: handle is over, with the exception [e] of a
    subscriber (KeyError is swallowed); udpdispatcher.py:169-171 and 200-203. *)
Definition after_handler (env : denv) (st : dstate) (e : option exn) (w : work) : step_result :=
  match w with
  | Deliver m =>
      (st, [], Finished (ORecv {| r_res := match swallow_keyerror e with Some e => Err e | None => Ok (Some m) end;
                                  r_calls := [] |}))
  | Announce mref href md k =>
      match swallow_keyerror e with
      | Some e => (st, [], back_to k (Err e))
      | None => transmit env st mref href md k
      end
  end.

(** The message handle was called with: for an outgoing message the object as it
    is now. *)
Definition work_message (st : dstate) (w : work) : option message :=
  match w with
  | Deliver m => Some m
  | Announce mref _ _ _ => nth_error (s_msgs st) mref
  end.

(** events.py:53-65 with message_handler.py:66-82: call the subscriber at
    position [i] of the live list registered under [name], if there is one. *)
Definition enter_handler (env : denv) (st : dstate) (name : string) (i : nat) (w : work) : step_result :=
  match sget name (s_handler st), work_message st w with
  | Some l, Some m =>
      match nth_error l i with
      | Some s => (st, [MCall s m], InHandler name (S i) w)
      | None => after_handler env st None w
      end
  | _, _ => after_handler env st None w
  end.

(** udpdispatcher.py:187-200, __send_message up to find_circuit *)
Definition begin_send (env : denv) (st : dstate) (mref href : nat) (md : mode) (k : back) : step_result :=
  match nth_error (s_hosts st) href, nth_error (s_msgs st) mref with
  | Some a, Some m =>
      if negb (host_ok a) then (st, [], back_to k (Ok None))
      else if e_handle_out env then enter_handler env st (m_name m) 0 (Announce mref href md k)
      else transmit env st mref href md k
  | _, _ => (st, [], back_to k (Err NameErr))                    (* no such object *)
  end.

(** udpdispatcher.py:292-309: the iterations of the for loop up to the next full
    packet, or to the end of the list. *)
Fixpoint take_acks (rest cur : list Z) : list Z * bool :=
  match rest with
  | [] => (cur, false)
  | id :: rest' =>
      let cur := cur ++ [id] in
      if 250 <? zlen cur then (cur, true) else take_acks rest' cur
  end.

(** udpdispatcher.py:315 and on to the next circuit *)
Definition empty_queue (st : dstate) (f : flush) : step_result :=
  (clear_acks st (f_key f), [MEmptied (f_key f)], AtAcks (f_todo f)).

(** The list the for loop of line 292 iterates over. *)
Definition ack_list (st : dstate) (f : flush) : list Z :=
  match f_list f with
  | Some l => l
  | None => match get_circuit (s_circuits st) (f_key f) with Some c => c_acks c | None => [] end
  end.

(** udpdispatcher.py:292-315, from the for loop at [f] to the next send *)
Definition ack_loop (env : denv) (st : dstate) (f : flush) : step_result :=
  let '(ids, full) := take_acks (skipn (f_pos f) (ack_list st f)) [] in
  if full || (0 <? zlen ids) then
    let mref := List.length (s_msgs st) in
    let f' := {| f_key := f_key f; f_host := f_host f; f_pos := f_pos f + List.length ids;
                 f_list := f_list f; f_todo := f_todo f |} in
    let '(st, ms, th) := begin_send env (set_msgs st (s_msgs st ++ [ack_message ids])) mref
                                    (f_host f) Plain (ToAcks f' (negb full)) in
    (st, MPack (f_key f) ids :: ms, th)
  else empty_queue st f.

(** udpdispatcher.py:287-292: the next circuit of circuit_map.values() *)
Definition next_circuit (env : denv) (st : dstate) (todo : list addr) : step_result :=
  match todo with
  | [] => (st, [], Finished (OSend (out0 (Ok None))))
  | k :: todo' =>
      match get_circuit (s_circuits st) k with
      | None => (st, [], AtAcks todo')
      | Some c => ack_loop env st {| f_key := k; f_host := c_host c; f_pos := 0; f_list := None; f_todo := todo' |}
      end
  end.

(** ** Several operations in progress *)
Record config := { cf_st : dstate; cf_pool : list thread }.
Inductive sched :=
| Spawn (o : op)                        (* start this operation *)
| Resume (i : nat) (e : option exn).    (* the i-th goes on; the subscriber or sendto raised [e] *)

(** Is the thread inside process_acks? *)
Definition acking (th : thread) : bool :=
  match th with
  | InHandler _ _ (Announce _ _ _ (ToAcks _ _)) | InSocket _ _ (ToAcks _ _) | Returning _ _ _ | AtAcks _ => true
  | _ => false
  end.

(** Another thread has given the circuit [k], whose list of acks was [l], a new list. *)
Definition detach_flush (k : addr) (l : list Z) (f : flush) : flush :=
  if addr_eqb k (f_key f) then
    match f_list f with
    | None => {| f_key := f_key f; f_host := f_host f; f_pos := f_pos f; f_list := Some l; f_todo := f_todo f |}
    | Some _ => f
    end
  else f.
Definition detach_back (k : addr) (l : list Z) (b : back) : back :=
  match b with ToUser => ToUser | ToAcks f last => ToAcks (detach_flush k l f) last end.
Definition detach (k : addr) (l : list Z) (th : thread) : thread :=
  match th with
  | InHandler name i (Announce mref href md b) => InHandler name i (Announce mref href md (detach_back k l b))
  | InSocket mref buf b => InSocket mref buf (detach_back k l b)
  | Returning r f last => Returning r (detach_flush k l f) last
  | _ => th
  end.
Definition detach_all (st : dstate) (ms : list mark) (pool : list thread) : list thread :=
  fold_left (fun p x => match x with
                        | MEmptied k => map (detach k match get_circuit (s_circuits st) k with Some c => c_acks c | None => [] end) p
                        | _ => p
                        end) ms pool.

(** Start an operation.
    Simplification: circuit_manager.remove_circuit_data while a process_acks is
    under way is not modelled (it has no effect here); nothing in the library
    calls it. *)
Definition start (env : denv) (cf : config) (o : op) : step_result :=
  let st := cf_st cf in
  match o with
  | Send mref href md _ => begin_send env st mref href md ToUser
  | Receive href buf size =>
      let '(st, r) := receive_check (silent env) st href buf size in
      match r_res r with
      | Ok (Some m) => if e_handle env then enter_handler env st (m_name m) 0 (Deliver m)
                       else (st, [], Finished (ORecv r))
      | _ => (st, [], Finished (ORecv r))
      end
  | ProcessAcks order _ =>
      let '(st, r) := resend_all (s_unackedc st) st in
      match r with
      | Err e => (st, [], Finished (OSend (out0 (Err e))))
      | Ok _ => (st, [], AtAcks (arrange order (dkeys (s_circuits st))))
      end
  | RemoveCircuit _ =>
      if existsb acking (cf_pool cf) then (st, [], Finished OUnit)
      else let '(st, x) := step (silent env) st o in (st, [], Finished x)
  | _ => let '(st, x) := step (silent env) st o in (st, [], Finished x)
  end.

(** An interrupted operation goes on. *)
Definition resume (env : denv) (st : dstate) (e : option exn) (th : thread) : step_result :=
  match th with
  | Finished o => (st, [], Finished o)
  | InHandler name i w =>
      match e with
      | Some e => after_handler env st (Some e) w
      | None => enter_handler env st name i w
      end
  | InSocket mref b k =>
      match e with
      | None => (set_counts st (s_in st) (s_out st + 1), [], back_to k (Ok (Some b)))
      | Some e => (st, [], back_to k (match nth_error (s_msgs st) mref with
                                      | Some m => contain e m
                                      | None => Ok None
                                      end))
      end
  | Returning r f last =>
      match r with
      | Err e => (st, [MAbandoned (f_key f)], Finished (OSend (out0 (Err e))))
      | Ok _ => if last then empty_queue st f else ack_loop env st f
      end
  | AtAcks todo => next_circuit env st todo
  end.

Definition cstep (env : denv) (cf : config) (x : sched) : config * list mark :=
  match x with
  | Spawn o =>
      let '(st, ms, th) := start env cf o in
      ({| cf_st := st; cf_pool := cf_pool cf ++ [th] |}, ms)
  | Resume i e =>
      match nth_error (cf_pool cf) i with
      | None => (cf, [])
      | Some th =>
          let '(st, ms, th') := resume env (cf_st cf) e th in
          ({| cf_st := st; cf_pool := update_nth i th' (detach_all (cf_st cf) ms (cf_pool cf)) |}, ms)
      end
  end.
Fixpoint crun (env : denv) (cf : config) (xs : list sched) : config * list mark :=
  match xs with
  | [] => (cf, [])
  | x :: xs' =>
      let '(cf, m1) := cstep env cf x in
      let '(cf, m2) := crun env cf xs' in
      (cf, m1 ++ m2)
  end.
Definition idle (st : dstate) : config := {| cf_st := st; cf_pool := [] |}.
