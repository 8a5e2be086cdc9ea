(** Vocabulary for the statements about several managers talking to each other
    over an unreliable network (C60, C61). *)
From Verif Require Export SpecManager.

(** What an application may do to its manager besides enqueueing and stopping:
    create and change Host and Message objects, (un)subscribe, mark circuits
    trusted.  (It does not call the dispatcher's own send and receive methods,
    nor remove circuits.) *)
Definition by_application (o : op) : Prop :=
  match o with
  | NewHost _ | SetHost _ _ | NewMsg _ | SetMsg _ _ | SetHandler _ | SetTrusted _ _ => True
  | Send _ _ _ _ | Retry _ _ | Receive _ _ _ | ProcessAcks _ _ | RemoveCircuit _ => False
  end.

(** The datagrams handed to the socket in some calls of the loop. *)
Definition datagrams (es : list mevent) : list bytes :=
  flat_map (fun e => match e with
                     | ERecv _ => []
                     | EAcks o | ESend _ _ o =>
                         flat_map (fun x => match at_data x with Some b => [b] | None => [] end) (o_sends o)
                     end) es.

(** A network: its nodes, each with its own configuration; all the datagrams
    ever sent; and what every node's loop did. *)
Record network := {
  n_nodes : list (denv * mstate);
  n_wire : list bytes;
  n_log : list (nat * mevent) }.

(** The operations a node may take, when the datagrams in [wire] are around.  A
    datagram may be delivered to any node, from any apparent source address, any
    number of times, in any order, or never; recvfrom may also fail. *)
Definition may (wire : list bytes) (o : mop) : Prop :=
  match o with
  | MEnqueue _ _ _ | MStop => True
  | MUser o => by_application o
  | MLoop RFail _ _ => True
  | MLoop (RData _ d) _ _ => In d wire
  end.

Definition net_start (cs : list (denv * addr * option eqstate)) : network :=
  {| n_nodes := map (fun '(env, host, eq) => (env, mm_init host eq)) cs; n_wire := []; n_log := [] |}.

Inductive net_step : network -> network -> Prop :=
| net_at i before env m after o m' es wire log :
    List.length before = i -> may wire o -> mstep env m o = (m', es) ->
    net_step {| n_nodes := before ++ (env, m) :: after; n_wire := wire; n_log := log |}
             {| n_nodes := before ++ (env, m') :: after; n_wire := wire ++ datagrams es;
                n_log := log ++ map (pair i) es |}.

Inductive net_steps : network -> network -> Prop :=
| ns_refl n : net_steps n n
| ns_step n1 n2 n3 : net_steps n1 n2 -> net_step n2 n3 -> net_steps n1 n3.

Definition net_reachable (n : network) : Prop := exists cs, net_steps (net_start cs) n.

(** The ids waiting at node [i] for an acknowledgement from [a]. *)
Definition waiting (n : network) (i : nat) (a : addr) (id : Z) : Prop :=
  exists env m, nth_error (n_nodes n) i = Some (env, m) /\ In id (outstanding (mm_disp m) a).
(** Node [i]'s loop once sent a message reliably to [a] as number [id]. *)
Definition once_sent (n : network) (i : nat) (a : addr) (id : Z) : Prop :=
  exists msg o x, In (i, ESend msg true o) (n_log n) /\ In x (o_sends o) /\ at_addr x = a /\ m_id (at_msg x) = id.

(** A datagram whose flags are none, or just RELIABLE: it is not zero-coded, not a
    resend, and has no appended acks. *)
Definition bare (d : bytes) : Prop := exists f tl, d = f :: tl /\ (byte_value f = 0 \/ byte_value f = 2 ^ reliable_bit).

(** ** One manager and an application that leaves Host objects alone *)
(** Everything that can happen to a manager whose application neither changes
    the address of a Host object nor works on the dispatcher directly.  Any
    datagram may arrive from anywhere. *)
Definition host_keeping (o : mop) : Prop :=
  match o with
  | MUser (SetHost _ _) => False
  | MUser o => by_application o
  | _ => True
  end.
(** What one datagram from [b] makes the loop of [m] do: receive_check; then, if
    it did not raise and the datagram is to be acknowledged, one call of
    process_acks, which (unless a subscriber to outgoing packets raises) sends
    exactly one PacketAck, to [b], with exactly that datagram's number. *)
Definition answered (env : denv) (m : mstate) (b : addr) (data : bytes) (es : list mevent) : Prop :=
  exists ro acks, es = ERecv ro :: acks /\
    match r_res ro with
    | Err e => acks = []
    | Ok _ =>
        match acks_due env (mm_disp m) b data with
        | [] => acks = []
        | n :: _ => exists o, acks = [EAcks o] /\ (outgoing_quiet env (mm_disp m) -> o_res o = Ok None) /\
            forall v, o_res o = Ok v ->
              if host_ok b then exists x, o_sends o = [x] /\ at_addr x = b /\ acknowledges (at_msg x) [n] else o_sends o = []
        end
    end.

(** A datagram with the message number of PacketAck. *)
Definition ack_datagram (dict : tdict) (d : bytes) : Prop := exists t, carries dict d t /\ t_name t = "PacketAck"%string.

(** ** A volley of PacketAcks *)
(** The last packet number given to the address [a]. *)
Definition last_number (st : dstate) (a : addr) : Z :=
  match circuit_of st a with Some c => c_last_out c | None => 0 end.
(** A manager waiting in recvfrom with nothing to send, whose application left
    Host objects alone and does not subscribe to PacketAck. *)
Definition resting (env : denv) (m : mstate) : Prop :=
  (exists host eq ops, Forall host_keeping ops /\ m = fst (mrun env (mm_init host eq) ops)) /\
  mm_pc m = PRecv /\ mm_queue m = [] /\ mm_running m = true /\
  is_message_handled (s_handler (mm_disp m)) "PacketAck" = false /\ outgoing_quiet env (mm_disp m).
(** A socket that never fails. *)
Definition good_socket : addr -> bytes -> option exn := fun _ _ => None.
(** [m] receives [d] from [b], and its loop comes back to recvfrom as [m'] having
    handed exactly one datagram to the socket: [d'], for [b]. *)
Definition returned (env : denv) (m : mstate) (b : addr) (d : bytes) (m' : mstate) (d' : bytes) : Prop :=
  exists ro o x, mrun env m [MLoop (RData b d) [] good_socket; MLoop RFail [] good_socket; MLoop RFail [] good_socket] =
    (m', [ERecv ro; EAcks o]) /\ o_sends o = [x] /\ at_addr x = b /\ at_data x = Some d'.
(** [d] goes back and forth [k] times between [m1], whose address is [a1], and
    [m2], whose address is [a2]. *)
Fixpoint volley (env1 env2 : denv) (a1 a2 : addr) (k : nat) (m1 m2 : mstate) (d : bytes) : Prop :=
  match k with
  | O => True
  | S k => exists m1' d', returned env1 m1 a2 d m1' d' /\ volley env2 env1 a2 a1 k m2 m1' d'
  end.
