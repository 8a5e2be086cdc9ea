(** Vocabulary for the statements about the dispatcher (C21-C32). *)
From Verif Require Export SpecCodec SpecWire SpecLayout Dispatcher.

(** ** Looking at a dispatcher *)
(** The circuit filed under an address. *)
Definition circuit_of (st : dstate) (a : addr) : option circuit := get_circuit (s_circuits st) a.
(** The ids waiting to be acknowledged to that address. *)
Definition pending_acks (st : dstate) (a : addr) : list Z :=
  match circuit_of st a with Some c => c_acks c | None => [] end.
(** The ids of the packets sent to that address and waiting for its acknowledgement. *)
Definition outstanding (st : dstate) (a : addr) : list Z :=
  match circuit_of st a with Some c => map fst (c_unacked c) | None => [] end.
Definition host_address (st : dstate) (href : nat) : option addr := nth_error (s_hosts st) href.

(** The states a dispatcher can be in: those reached from its creation by any
    history of operations. *)
Definition reachable (env : denv) (st : dstate) : Prop := exists ops, st = fst (run env init_state ops).

(** The sequence number of a datagram: bytes 1 to 4, most significant first. *)
Definition sequence_number (buf : bytes) : option Z :=
  match buf with
  | _ :: b1 :: b2 :: b3 :: b4 :: _ => Some (value_msb_first [b1; b2; b3; b4])
  | _ => None
  end.

(** ** What happens, seen from outside *)
Inductive devent :=
| Attempted (x : attempt)                 (* a packet prepared and passed to the serializer *)
| Accepted (a : addr) (m : message)       (* a datagram from [a] parsed as [m], and not refused *)
| Removed (a : addr).                     (* the circuit for [a] was removed *)

(** receive_check(host, buf, size) parses [m] from the address [a] and does not
    refuse it: on a trusted circuit only trusted messages are let through. *)
Definition accepts (env : denv) (st : dstate) (href : nat) (buf : bytes) (size : Z) : option (addr * message) :=
  match host_address st href with
  | Some a =>
      if 0 <? size then
        match deserialize (deser_conf env st) buf with
        | Ok (Some m) =>
            if match circuit_of st a with Some c => c_trusted c | None => false end && negb (m_trusted m)
            then None else Some (a, m)
        | _ => None
        end
      else None
  | None => None
  end.
Definition events (env : denv) (st : dstate) (o : op) : list devent :=
  match o, snd (step env st o) with
  | Receive h buf size, _ => match accepts env st h buf size with Some (a, m) => [Accepted a m] | None => [] end
  | RemoveCircuit a, _ => [Removed a]
  | _, OSend d => map Attempted (o_sends d)
  | _, _ => []
  end.
Fixpoint trace (env : denv) (st : dstate) (ops : list op) : list devent :=
  match ops with
  | [] => []
  | o :: ops' => events env st o ++ trace env (fst (step env st o)) ops'
  end.

(** The part of a trace after the last removal of the circuit for [a]. *)
Definition removes (a : addr) (e : devent) : bool :=
  match e with Removed b => addr_eqb a b | _ => false end.
Definition since_removal (a : addr) (tr : list devent) : list devent :=
  fold_left (fun acc e => if removes a e then [] else acc ++ [e]) tr [].
(** The packets prepared for [a], in order. *)
Definition attempts_to (a : addr) (tr : list devent) : list attempt :=
  flat_map (fun e => match e with
                     | Attempted x => if addr_eqb a (at_addr x) then [x] else []
                     | _ => []
                     end) tr.
Definition sent_reliably (x : attempt) : bool := Z.testbit (m_flags (at_msg x)) reliable_bit.
(** The id [n] was sent reliably to [a] and no packet accepted from [a] since
    then acknowledges it. *)
Definition unacknowledged (a : addr) (tr : list devent) (n : Z) : Prop :=
  exists t1 x t2, tr = t1 ++ Attempted x :: t2 /\ at_addr x = a /\ sent_reliably x = true /\
    m_id (at_msg x) = n /\ forall m, In (Accepted a m) t2 -> ~ In n (m_acks m).

(** ** Acknowledgement packets *)
(** [ids] cut into parts: all but the last of 251 ids, the last of 1 to 251. *)
Definition packs (ids : list Z) (parts : list (list Z)) : Prop :=
  ids = List.concat parts /\
  Forall (fun p => 1 <= zlen p <= 251) parts /\ Forall (fun p => zlen p = 251) (removelast parts).
(** A PacketAck message acknowledging [ids], unreliable and without appended acks. *)
Definition acknowledges (m : message) (ids : list Z) : Prop :=
  m_name m = "PacketAck"%string /\ m_flags m = 0 /\ m_acks m = [] /\
  exists bl, m_blocks m = [("Packets"%string, bl)] /\
    Forall2 (fun b id => b_name b = "Packets"%string /\ b_list b = ["ID"%string] /\
                         block_getitem b "ID" = Ok (VInt id)) bl ids.
(** What process_acks sends for one circuit [c], whose Host object now has the
    address [t]: nothing if that address is unusable. *)
Definition acks_sent (t : addr) (ids : list Z) (xs : list attempt) : Prop :=
  if host_ok t
  then exists parts, packs ids parts /\ Forall2 (fun x p => at_addr x = t /\ acknowledges (at_msg x) p) xs parts
  else xs = [].

(** The subscribers that are notified of outgoing packets do not raise. *)
Definition outgoing_quiet (env : denv) (st : dstate) : Prop :=
  e_handle_out env = true -> forall m, snd (handle (e_cb env) (s_handler st) m) = None.
(** No two circuits confused: every circuit's Host object still has the address
    the circuit is filed under. *)
Definition hosts_kept (st : dstate) : Prop :=
  forall a c, circuit_of st a = Some c -> host_address st (c_host c) = Some a.

(** The circuit for [a] is marked trusted. *)
Definition trusted (st : dstate) (a : addr) : bool :=
  match circuit_of st a with Some c => c_trusted c | None => false end.
(** The ids that receiving [buf] from [a] adds to the queue of acks for [a]. *)
Definition acks_due (env : denv) (st : dstate) (a : addr) (buf : bytes) : list Z :=
  match deserialize (deser_conf env st) buf with
  | Err _ => []
  | Ok None => match sequence_number buf with Some n => [n] | None => [] end
  | Ok (Some m) => if trusted st a then [] else if m_reliable m then [m_id m] else []
  end.
(** The flags and retries a mode asks for. *)
Definition flags_of (md : mode) : Z := match md with Reliable _ => 2 ^ reliable_bit | Plain => 0 end.
(** The addresses whose circuits an operation may touch. *)
Definition concerns (st : dstate) (o : op) (a : addr) : Prop :=
  match o with
  | Send _ h _ _ | Receive h _ _ => host_address st h = Some a
  | SetTrusted b _ | RemoveCircuit b => b = a
  | ProcessAcks _ _ => circuit_of st a <> None \/ exists b c, circuit_of st b = Some c /\ host_address st (c_host c) = Some a
  | _ => False
  end.
