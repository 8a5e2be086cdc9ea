(** Vocabulary for the statement about the traffic counters (C74). *)
From Verif Require Export SpecDispatch SpecManager.

(** The datagrams handed to the socket without an error, in order: address and bytes. *)
Definition on_the_wire (xs : list attempt) : list (addr * bytes) :=
  flat_map (fun x => match at_data x with Some b => [(at_addr x, b)] | None => [] end) xs.
Definition attempts_of (tr : list devent) : list attempt :=
  flat_map (fun e => match e with Attempted x => [x] | _ => [] end) tr.
(** What a history of a dispatcher put on the wire. *)
Definition wired_by (env : denv) (ops : list op) : list (addr * bytes) :=
  on_the_wire (attempts_of (trace env init_state ops)).

(** The datagrams given to receive_check in a history, in order: those whose
    size is positive; receive_check does nothing for the others.  [h] has to be
    the number of an existing Host object. *)
Definition given (st : dstate) (o : op) : list bytes :=
  match o with
  | Receive h buf size => if (h <? List.length (s_hosts st))%nat && (0 <? size) then [buf] else []
  | _ => []
  end.
Fixpoint given_by (env : denv) (st : dstate) (ops : list op) : list bytes :=
  match ops with
  | [] => []
  | o :: ops' => given st o ++ given_by env (fst (step env st o)) ops'
  end.

(** The same for a history of a manager: what its loop and its user do. *)
Definition m_attempts (env : denv) (m : mstate) (o : mop) : list attempt :=
  match o with
  | MUser o => attempts_of (events env (mm_disp m) o)
  | _ => flat_map (fun e => match e with EAcks d | ESend _ _ d => o_sends d | ERecv _ => [] end) (snd (mstep env m o))
  end.
Definition m_given (m : mstate) (o : mop) : list bytes :=
  match o with
  | MUser o => given (mm_disp m) o
  | MLoop (RData _ (b :: bs)) _ _ => match mm_pc m with PRecv => [b :: bs] | _ => [] end
  | _ => []
  end.
Fixpoint m_wired_by (env : denv) (m : mstate) (ops : list mop) : list (addr * bytes) :=
  match ops with
  | [] => []
  | o :: ops' => on_the_wire (m_attempts env m o) ++ m_wired_by env (fst (mstep env m o)) ops'
  end.
Fixpoint m_given_by (env : denv) (m : mstate) (ops : list mop) : list bytes :=
  match ops with
  | [] => []
  | o :: ops' => m_given m o ++ m_given_by env (fst (mstep env m o)) ops'
  end.
