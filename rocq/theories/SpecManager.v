(** Vocabulary for the statements about the message manager (C45, C46). *)
From Verif Require Export SpecDispatch Manager.

(** What is seen of a manager: messages enqueued, stop_monitors called, and the
    calls its UDP loop makes. *)
Inductive mobs :=
| Enqueued (msg : nat) (reliable now : bool)
| Stopped
| Did (e : mevent).
Definition observed (o : mop) (es : list mevent) : list mobs :=
  match o with
  | MEnqueue msg rel now => [Enqueued msg rel now]
  | MStop => [Stopped]
  | _ => []
  end ++ map Did es.
Fixpoint history (env : denv) (m : mstate) (ops : list mop) : list mobs :=
  match ops with
  | [] => []
  | o :: ops' => observed o (snd (mstep env m o)) ++ history env (fst (mstep env m o)) ops'
  end.

(** The messages enqueued, in order: (message, reliable, now). *)
Definition enqueues (h : list mobs) : list (nat * bool * bool) :=
  flat_map (fun x => match x with Enqueued msg rel now => [(msg, rel, now)] | _ => [] end) h.
(** The calls made by the loop. *)
Definition calls (h : list mobs) : list mevent :=
  flat_map (fun x => match x with Did e => [e] | _ => [] end) h.
(** The messages sent, in order: (message, reliable). *)
Definition sends_of (es : list mevent) : list (nat * bool) :=
  flat_map (fun e => match e with ESend msg rel _ => [(msg, rel)] | _ => [] end) es.
Definition receives_of (es : list mevent) : list rout :=
  flat_map (fun e => match e with ERecv r => [r] | _ => [] end) es.

(** Of two messages waiting, the [i]-th and the [j]-th enqueued, does the first
    one leave first?  Urgent ones ([now]) before the others, the latest urgent one
    first, the others in the order in which they were enqueued. *)
Definition leaves_first (i : nat) (now_i : bool) (j : nat) (now_j : bool) : Prop :=
  match now_i, now_j with
  | true, false => True
  | true, true => (j < i)%nat
  | false, false => (i < j)%nat
  | false, true => False
  end.

(** The exception a call of the loop lets through. *)
Definition raised (e : mevent) : option exn :=
  match e with
  | ERecv r => match r_res r with Err x => Some x | Ok _ => None end
  | EAcks o | ESend _ _ o => match o_res o with Err x => Some x | Ok _ => None end
  end.
Definition is_send (e : mevent) : Prop := match e with ESend _ _ _ => True | _ => False end.
(** One iteration: one receive, then possibly the acks, then the queue. *)
Definition an_iteration (es : list mevent) : Prop :=
  exists r acks sends, es = ERecv r :: acks ++ sends /\
    (acks = [] \/ exists o, acks = [EAcks o]) /\ Forall is_send sends.

(** A manager as its user can meet it. *)
Definition m_reachable (env : denv) (m : mstate) : Prop :=
  exists host eq ops, m = fst (mrun env (mm_init host eq) ops).
Definition ended (m : mstate) : Prop := exists e, mm_pc m = PEnd e.
