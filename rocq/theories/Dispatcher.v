(** pyogp/lib/base/message/udpdispatcher.py, with network/net.py *)
From Verif Require Export Serializer Deserializer Circuit Printing.

(** What does not change during a dispatcher's life: the interpreter regime,
    the serializer's and the deserializer's dictionaries and message.xml
    tables, the settings that matter, and the behaviour of the subscribers
    (which subscriber raises what on which message). *)
Record denv := {
  e_pv : pyver;
  e_ser_dict : tdict;
  e_ser_xml : xmltable;
  e_des_dict : tdict;
  e_des_xml : xmltable;
  e_deferred : bool;              (* ENABLE_DEFERRED_PACKET_PARSING *)
  e_handle : bool;                (* HANDLE_PACKETS *)
  e_handle_out : bool;            (* HANDLE_OUTGOING_PACKETS *)
  e_cb : sub -> message -> option exn }.

(** The dispatcher and the objects it shares with its user: Host objects,
    Message objects and the message handler.
    Simplification: circuits are stored by value under their key; the second
    map [unacked_circuits] (Host object -> circuit) refers to them by key. *)
Record dstate := {
  s_hosts : list addr;
  s_msgs : list message;
  s_circuits : circuits;
  s_unackedc : list (nat * addr);
  s_in : Z;                       (* packets_in *)
  s_out : Z;                      (* packets_out *)
  s_handler : registry }.

(** udpdispatcher.py:49-65 *)
Definition init_state : dstate :=
  {| s_hosts := []; s_msgs := []; s_circuits := []; s_unackedc := [];
     s_in := 0; s_out := 0; s_handler := [] |}.
Definition receive_packet_id : Z := -1.

(** One attempt to send: the address, the Message object as prepared (its flags
    and packet id set), and the datagram if it was handed to the socket
    successfully. *)
Record attempt := { at_addr : addr; at_msg : message; at_data : option bytes }.

(** What an operation lets the outside world see. *)
Record dout := {
  o_res : res (option bytes);          (* value returned or exception *)
  o_sends : list attempt;              (* the packets prepared, in order *)
  o_calls : list (sub * message) }.    (* subscriber calls *)
Definition out0 (r : res (option bytes)) : dout := {| o_res := r; o_sends := []; o_calls := [] |}.

Definition set_circuits (st : dstate) (m : circuits) : dstate :=
  {| s_hosts := s_hosts st; s_msgs := s_msgs st; s_circuits := m;
     s_unackedc := s_unackedc st; s_in := s_in st; s_out := s_out st;
     s_handler := s_handler st |}.
Definition set_msgs (st : dstate) (l : list message) : dstate :=
  {| s_hosts := s_hosts st; s_msgs := l; s_circuits := s_circuits st;
     s_unackedc := s_unackedc st; s_in := s_in st; s_out := s_out st;
     s_handler := s_handler st |}.
Definition set_hosts (st : dstate) (l : list addr) : dstate :=
  {| s_hosts := l; s_msgs := s_msgs st; s_circuits := s_circuits st;
     s_unackedc := s_unackedc st; s_in := s_in st; s_out := s_out st;
     s_handler := s_handler st |}.
Definition set_unackedc (st : dstate) (l : list (nat * addr)) : dstate :=
  {| s_hosts := s_hosts st; s_msgs := s_msgs st; s_circuits := s_circuits st;
     s_unackedc := l; s_in := s_in st; s_out := s_out st; s_handler := s_handler st |}.
Definition set_counts (st : dstate) (i o : Z) : dstate :=
  {| s_hosts := s_hosts st; s_msgs := s_msgs st; s_circuits := s_circuits st;
     s_unackedc := s_unackedc st; s_in := i; s_out := o; s_handler := s_handler st |}.
Definition set_handler (st : dstate) (r : registry) : dstate :=
  {| s_hosts := s_hosts st; s_msgs := s_msgs st; s_circuits := s_circuits st;
     s_unackedc := s_unackedc st; s_in := s_in st; s_out := s_out st; s_handler := r |}.
Definition put_circuit (st : dstate) (a : addr) (c : circuit) : dstate :=
  set_circuits st (dset addr_eqb a c (s_circuits st)).

(** udpdispatcher.py:106-113, find_circuit for the Host object [href] whose
    current address is [a]. *)
Definition find_circuit (st : dstate) (href : nat) (a : addr) : dstate * circuit :=
  match get_circuit (s_circuits st) a with
  | Some c => (st, c)
  | None =>
      let c := new_circuit href receive_packet_id in
      (set_circuits st (add_circuit (s_circuits st) a href receive_packet_id), c)
  end.

(** The deserializer of this dispatcher (udpdispatcher.py:101-103) with the
    handler's current registrations. *)
Definition deser_conf (env : denv) (st : dstate) : dconf :=
  {| dc_dict := e_des_dict env; dc_xml := e_des_xml env; dc_deferred := e_deferred env;
     dc_handled := Some (is_message_handled (s_handler st)) |}.

(** Result of receive_check: the message returned, if any. *)
Record rout := {
  r_res : res (option message);
  r_calls : list (sub * message) }.

(** udpdispatcher.py:115-171, receive_check(host, msg_buf, msg_size) *)
Definition receive_check (env : denv) (st : dstate) (href : nat) (buf : bytes) (size : Z)
  : dstate * rout :=
  match nth_error (s_hosts st) href with
  | None => (st, {| r_res := Err NameErr; r_calls := [] |})      (* no such object *)
  | Some a =>
      if size <=? 0 then (st, {| r_res := Ok None; r_calls := [] |})
      else
        let '(st, c) := find_circuit st href a in
        let st := set_counts st (s_in st + 1) (s_out st) in
        match deserialize (deser_conf env st) buf with
        | Err e => (st, {| r_res := Err e; r_calls := [] |})
        | Ok None =>
            match (do _ <- pyindex buf 0; unpack_z buf MVT_U32 1 (Some BE)) with
            | Err e => (st, {| r_res := Err e; r_calls := [] |})
            | Ok id => (put_circuit st a (collect_ack c id), {| r_res := Ok None; r_calls := [] |})
            end
        | Ok (Some m) =>
            if c_trusted c && negb (m_trusted m)
            then (st, {| r_res := Ok None; r_calls := [] |})
            else
              let st := put_circuit st a (handle_packet c m) in
              if e_handle env then
                let '(calls, e) := handle (e_cb env) (s_handler st) m in
                (st, {| r_res := match e with Some e => Err e | None => Ok (Some m) end;
                        r_calls := map (fun s => (s, m)) calls |})
              else (st, {| r_res := Ok (Some m); r_calls := [] |})
        end
  end.

(** udpdispatcher.py:238-245: what becomes of an exception raised inside the
    [try]: AssertionError is dropped; anything else is logged together with the
    message, whose string conversion may itself raise, and then dropped. *)
Definition contain (e : exn) (m : message) : res (option bytes) :=
  match e with
  | AssertionErr => Ok None
  | _ => match msg_str_error m with Some e' => Err e' | None => Ok None end
  end.

(** net.py:39-40: send_packet(None) raises a plain Exception. *)
Definition no_data : exn := Raised 0.

(** How the packet is to be sent (keyword arguments of __send_message). *)
Inductive mode := Plain | Reliable (retries : Z).

(** udpdispatcher.py:187-245, __send_message, on the Message object [mref] and
    the Host object [href].  [sock a b] is the exception sendto raises for this
    datagram, if any.  Logging (217-229) cannot change the outcome: its only
    failure, bytes_to_hex(None), happens where send_packet would fail too.
    Simplification: the message is a Message instance (line 193). *)
Definition send_message (env : denv) (st : dstate) (mref href : nat) (md : mode)
  (sock : addr -> bytes -> option exn) : dstate * dout :=
  match nth_error (s_hosts st) href, nth_error (s_msgs st) mref with
  | Some a, Some m =>
      if negb (host_ok a) then (st, out0 (Ok None)) else
      let '(calls, e) := if e_handle_out env then handle (e_cb env) (s_handler st) m
                         else ([], None) in
      let calls := map (fun s => (s, m)) calls in
      match e with
      | Some e => (st, {| o_res := Err e; o_sends := []; o_calls := calls |})
      | None =>
          let '(st, c) := find_circuit st href a in
          let '(c, m) := match md with
                         | Reliable r => prepare_packet c mref m LL_RELIABLE_FLAG r
                         | Plain => prepare_packet c mref m LL_NONE 0
                         end in
          let st := set_msgs (put_circuit st a c) (update_nth mref m (s_msgs st)) in
          let st := match md with
                    | Reliable _ => if c_count c <=? 0
                                    then set_unackedc st (dset Nat.eqb href a (s_unackedc st))
                                    else st
                    | Plain => st
                    end in
          let out r data := {| o_res := r; o_calls := calls;
                               o_sends := [{| at_addr := a; at_msg := m; at_data := data |}] |} in
          match serialize (e_pv env) (e_ser_dict env) (e_ser_xml env) m with
          | Err e => (st, out (contain e m) None)
          | Ok None => (st, out (contain no_data m) None)
          | Ok (Some b) =>
              match sock a b with
              | Some e => (st, out (contain e m) None)
              | None => (set_counts st (s_in st) (s_out st + 1), out (Ok (Some b)) (Some b))
              end
          end
      end
  | _, _ => (st, out0 (Err NameErr))                           (* no such object *)
  end.

(** udpdispatcher.py:179-182, send_retry: the arguments are swapped, so
    is_ok is looked up on the Message (line 190). *)
Definition send_retry (st : dstate) (mref href : nat) : dstate * dout :=
  (st, out0 (Err AttributeErr)).

(** udpdispatcher.py:256-276, __resend_all_unacked: a Message has no attribute
    [buffer], so the first packet found ends it with AttributeError (after
    line 265 decremented its retries). *)
Fixpoint resend_all (l : list (nat * addr)) (st : dstate) : dstate * res unit :=
  match l with
  | [] => (st, Ok tt)
  | (_, a) :: l' =>
      match get_circuit (s_circuits st) a with
      | Some c =>
          match c_unacked c with
          | [] => resend_all l' st
          | (_, mref) :: _ =>
              match nth_error (s_msgs st) mref with
              | Some m => (set_msgs st (update_nth mref
                             (set_header m (m_flags m) (m_retries m - 1) (m_id m)) (s_msgs st)),
                           Err AttributeErr)
              | None => (st, Err AttributeErr)
              end
          end
      | None => resend_all l' st
      end
  end.

(** udpdispatcher.py:296-299: Message('PacketAck') with one Block("Packets",
    ID=packet_id) per id. *)
Definition ack_block (id : Z) : block := mk_block "Packets" [("ID"%string, VInt id)].
Definition ack_message (ids : list Z) : message :=
  fold_left (fun m id => msg_add_block m (ack_block id)) ids (mk_message "PacketAck" []).

Definition app_out (o1 o2 : dout) : dout :=
  {| o_res := o_res o2; o_sends := o_sends o1 ++ o_sends o2; o_calls := o_calls o1 ++ o_calls o2 |}.

(** Allocate a new Message object and send it to the Host object [href]. *)
Definition send_new (env : denv) (st : dstate) (m : message) (href : nat)
  (sock : addr -> bytes -> option exn) : dstate * dout :=
  let mref := List.length (s_msgs st) in
  send_message env (set_msgs st (s_msgs st ++ [m])) mref href Plain sock.

(** udpdispatcher.py:289-313: the loop over one circuit's acks.  [cur] is the
    list of ids already added to the message under construction
    (acks_this_packet is its length). *)
Fixpoint flush_acks (env : denv) (sock : addr -> bytes -> option exn) (href : nat)
  (ids cur : list Z) (st : dstate) : dstate * dout :=
  match ids with
  | [] =>
      if 0 <? zlen cur then send_new env st (ack_message cur) href sock
      else (st, out0 (Ok None))
  | id :: ids' =>
      let cur := cur ++ [id] in
      if 250 <? zlen cur then
        let '(st, o) := send_new env st (ack_message cur) href sock in
        match o_res o with
        | Err _ => (st, o)
        | Ok _ => let '(st, o') := flush_acks env sock href ids' [] st in (st, app_out o o')
        end
      else flush_acks env sock href ids' cur st
  end.

(** Clear the queue of the circuit filed under [k] (line 315). *)
Definition clear_acks (st : dstate) (k : addr) : dstate :=
  match get_circuit (s_circuits st) k with
  | Some c => put_circuit st k (set_acks c [])
  | None => st
  end.

(** udpdispatcher.py:283-315, __send_acks over the circuits in order [keys]. *)
Fixpoint send_acks (env : denv) (sock : addr -> bytes -> option exn) (keys : list addr)
  (st : dstate) : dstate * dout :=
  match keys with
  | [] => (st, out0 (Ok None))
  | k :: keys' =>
      match get_circuit (s_circuits st) k with
      | None => send_acks env sock keys' st
      | Some c =>
          let '(st, o) := flush_acks env sock (c_host c) (c_acks c) [] st in
          match o_res o with
          | Err _ => (st, o)
          | Ok _ =>
              let '(st, o') := send_acks env sock keys' (clear_acks st k) in
              (st, app_out o o')
          end
      end
  end.

(** The iteration order of a dictionary is unspecified: [arrange order keys] is
    [keys] rearranged according to [order]; it is always a permutation of
    [keys], and every permutation is obtained from some [order]. *)
Fixpoint amem (a : addr) (l : list addr) : bool :=
  match l with [] => false | b :: l' => addr_eqb a b || amem a l' end.
Fixpoint adedup (l : list addr) : list addr :=
  match l with
  | [] => []
  | a :: l' => a :: filter (fun b => negb (addr_eqb a b)) (adedup l')
  end.
Definition arrange (order keys : list addr) : list addr :=
  filter (fun a => amem a keys) (adedup order) ++ filter (fun a => negb (amem a order)) keys.

(** udpdispatcher.py:247-254, process_acks *)
Definition process_acks (env : denv) (st : dstate) (order : list addr)
  (sock : addr -> bytes -> option exn) : dstate * dout :=
  let '(st, r) := resend_all (s_unackedc st) st in
  match r with
  | Err e => (st, out0 (Err e))
  | Ok _ =>
      let '(st, o) := send_acks env sock (arrange order (dkeys (s_circuits st))) st in
      (st, {| o_res := match o_res o with Err e => Err e | Ok _ => Ok None end;
              o_sends := o_sends o; o_calls := o_calls o |})
  end.

(** udpdispatcher.py:317-322, has_unacked *)
Definition has_unacked (st : dstate) : bool :=
  existsb (fun c => 0 <? zlen (c_acks c)) (dvals (s_circuits st)).

(** Operations of a dispatcher's user. *)
Inductive op :=
| NewHost (a : addr)                      (* Host((ip, port)) *)
| SetHost (href : nat) (a : addr)         (* mutate a Host object *)
| NewMsg (m : message)                    (* create a Message object *)
| SetMsg (mref : nat) (m : message)       (* mutate a Message object *)
| SetHandler (r : registry)               (* (un)register, (un)subscribe *)
| SetTrusted (a : addr) (b : bool)        (* circuit.is_trusted = b *)
| Send (mref href : nat) (md : mode) (sock : addr -> bytes -> option exn)
| Retry (mref href : nat)
| Receive (href : nat) (buf : bytes) (size : Z)
| ProcessAcks (order : list addr) (sock : addr -> bytes -> option exn)
| RemoveCircuit (a : addr).               (* circuit_manager.remove_circuit_data *)

Inductive outcome := OUnit | OSend (o : dout) | ORecv (r : rout).

Definition step (env : denv) (st : dstate) (o : op) : dstate * outcome :=
  match o with
  | NewHost a => (set_hosts st (s_hosts st ++ [a]), OUnit)
  | SetHost h a => (set_hosts st (update_nth h a (s_hosts st)), OUnit)
  | NewMsg m => (set_msgs st (s_msgs st ++ [m]), OUnit)
  | SetMsg r m => (set_msgs st (update_nth r m (s_msgs st)), OUnit)
  | SetHandler r => (set_handler st r, OUnit)
  | SetTrusted a b =>
      (match get_circuit (s_circuits st) a with
       | Some c => put_circuit st a (set_trusted c b)
       | None => st
       end, OUnit)
  | Send m h md sock => let '(st, o) := send_message env st m h md sock in (st, OSend o)
  | Retry m h => let '(st, o) := send_retry st m h in (st, OSend o)
  | Receive h b n => let '(st, r) := receive_check env st h b n in (st, ORecv r)
  | ProcessAcks order sock =>
      let '(st, o) := process_acks env st order sock in (st, OSend o)
  | RemoveCircuit a => (set_circuits st (remove_circuit_data (s_circuits st) a), OUnit)
  end.

Fixpoint run (env : denv) (st : dstate) (ops : list op) : dstate * list outcome :=
  match ops with
  | [] => (st, [])
  | o :: ops' =>
      let '(st, x) := step env st o in
      let '(st, xs) := run env st ops' in
      (st, x :: xs)
  end.
