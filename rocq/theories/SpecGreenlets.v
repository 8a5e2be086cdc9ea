(** Vocabulary for C79 and C80: a dispatcher used by subscribers while they are
    called, and by several greenlets at once. *)
From Verif Require Export SpecDispatch Greenlets.

(** ** What happens, seen from outside *)
Inductive gevent :=
| Net (e : devent)                     (* prepared, accepted, removed: as in C21-C32 *)
| Called (s : sub) (m : message)       (* a subscriber is called *)
| Queued (a : addr) (ids : list Z)     (* these ids are to be acknowledged to [a] *)
| Packing (a : addr) (ids : list Z)    (* process_acks starts to send these ids of the queue for [a] *)
| Emptied (a : addr)                   (* process_acks is done with [a] and empties its queue *)
| Abandoned (a : addr).                (* an exception ends process_acks while it is busy with [a] *)
Definition seen (x : mark) : gevent :=
  match x with
  | MCall s m => Called s m
  | MPut x => Net (Attempted x)
  | MPack k ids => Packing k ids
  | MEmptied k => Emptied k
  | MAbandoned k => Abandoned k
  end.
(** The events of starting or continuing an operation: what it lets us see, and
    for a datagram received what is accepted and queued (as in C22 and C25). *)
Definition gevents (env : denv) (cf : config) (x : sched) : list gevent :=
  match x with
  | Spawn (Receive h buf size) =>
      match accepts env (cf_st cf) h buf size with Some (a, m) => [Net (Accepted a m)] | None => [] end ++
      match host_address (cf_st cf) h with
      | Some a => if 0 <? size then [Queued a (acks_due env (cf_st cf) a buf)] else []
      | None => []
      end
  | Spawn (RemoveCircuit a) => if existsb acking (cf_pool cf) then [] else [Net (Removed a)]
  | _ => []
  end ++ map seen (snd (cstep env cf x)).
Fixpoint gtrace (env : denv) (cf : config) (xs : list sched) : list gevent :=
  match xs with
  | [] => []
  | x :: xs' => gevents env cf x ++ gtrace env (fst (cstep env cf x)) xs'
  end.
(** What there is after a schedule, starting with a new dispatcher. *)
Definition after (env : denv) (xs : list sched) : config := fst (crun env (idle init_state) xs).
Definition history (env : denv) (xs : list sched) : list gevent := gtrace env (idle init_state) xs.
Definition network (tr : list gevent) : list devent :=
  flat_map (fun e => match e with Net d => [d] | _ => [] end) tr.

(** ** Acknowledgements *)
(** No process_acks is under way. *)
Definition at_rest (cf : config) : Prop := Forall (fun th => acking th = false) (cf_pool cf).
(** No process_acks is started while another is under way. *)
Fixpoint one_at_a_time (env : denv) (cf : config) (xs : list sched) : Prop :=
  match xs with
  | [] => True
  | x :: xs' =>
      match x with Spawn (ProcessAcks _ _) => at_rest cf | _ => True end /\
      one_at_a_time env (fst (cstep env cf x)) xs'
  end.
(** No datagram is received while a process_acks is under way. *)
Fixpoint no_reception_inside (env : denv) (cf : config) (xs : list sched) : Prop :=
  match xs with
  | [] => True
  | x :: xs' =>
      match x with Spawn (Receive _ _ _) => at_rest cf | _ => True end /\
      no_reception_inside env (fst (cstep env cf x)) xs'
  end.

(** The books for the address [a]. *)
Record books := {
  due : list Z;        (* to be acknowledged, in the order of reception, ... *)
  late : list Z;       (* ... and those that came while the last packet was being sent *)
  packed : list Z;     (* put into packets by the process_acks under way *)
  acked : list Z;      (* put into packets, the queue having been emptied since *)
  lost : list Z;       (* came too late and dropped *)
  closing : bool }.    (* the last packet (not a full one) is being sent *)
Definition no_books : books :=
  {| due := []; late := []; packed := []; acked := []; lost := []; closing := false |}.
Definition enter (a : addr) (b : books) (e : gevent) : books :=
  match e with
  | Queued k ids =>
      if addr_eqb a k then
        if closing b
        then {| due := due b; late := late b ++ ids; packed := packed b; acked := acked b; lost := lost b; closing := true |}
        else {| due := due b ++ ids; late := late b; packed := packed b; acked := acked b; lost := lost b; closing := false |}
      else b
  | Packing k ids =>
      if addr_eqb a k
      then {| due := due b; late := late b; packed := packed b ++ ids; acked := acked b; lost := lost b;
              closing := negb (zlen ids =? 251) |}
      else b
  | Emptied k =>
      if addr_eqb a k
      then {| due := due b; late := []; packed := []; acked := acked b ++ packed b; lost := lost b ++ late b; closing := false |}
      else b
  | Abandoned k =>
      if addr_eqb a k
      then {| due := due b ++ late b; late := []; packed := []; acked := acked b; lost := lost b; closing := false |}
      else b
  | Net (Removed k) => if addr_eqb a k then no_books else b
  | _ => b
  end.
Definition keep_books (a : addr) (tr : list gevent) : books := fold_left (enter a) tr no_books.
(** All ids queued for [a] since its circuit was last removed, and all ids put
    into PacketAck packets for it. *)
Definition all_queued (a : addr) (tr : list gevent) : list Z :=
  fold_left (fun l e => match e with
                        | Queued k ids => if addr_eqb a k then l ++ ids else l
                        | Net (Removed k) => if addr_eqb a k then [] else l
                        | _ => l
                        end) tr [].
Definition all_packed (a : addr) (tr : list gevent) : list Z :=
  fold_left (fun l e => match e with
                        | Packing k ids => if addr_eqb a k then l ++ ids else l
                        | Net (Removed k) => if addr_eqb a k then [] else l
                        | _ => l
                        end) tr [].
(** No process_acks ended with an exception while busy with [a]. *)
Definition never_abandoned (a : addr) (tr : list gevent) : Prop := ~ In (Abandoned a) tr.

(** ** One operation after the other *)
(** What [step] reports of an operation, against what was observed while it ran:
    the same packets (a datagram may have been handed to the socket in vain), the
    same calls, the same result. *)
Definition packets (ms : list gevent) : list attempt :=
  flat_map (fun e => match e with Net (Attempted x) => [x] | _ => [] end) ms.
Definition calls (ms : list gevent) : list (sub * message) :=
  flat_map (fun e => match e with Called s m => [(s, m)] | _ => [] end) ms.
Definition same_packet (x y : attempt) : Prop :=
  at_addr x = at_addr y /\ at_msg x = at_msg y /\ (at_data y = None \/ at_data x = at_data y).
Definition reports (o : outcome) (ms : list gevent) (seen_result : outcome) : Prop :=
  match o, seen_result with
  | OUnit, OUnit => packets ms = [] /\ calls ms = []
  | OSend d, OSend d' => o_res d' = o_res d /\ calls ms = o_calls d /\ Forall2 same_packet (packets ms) (o_sends d)
  | ORecv r, ORecv r' => r_res r' = r_res r /\ calls ms = r_calls r /\ packets ms = []
  | _, _ => False
  end.

(** ** One process_acks among others *)
(** The ids of [a] that are put into packets, and whether the queue for [a] is
    emptied (it is replaced by a new one) or given up. *)
Definition packs (a : addr) (evs : list gevent) : list Z :=
  flat_map (fun e => match e with Packing k ids => if addr_eqb a k then ids else [] | _ => [] end) evs.
Definition empties (a : addr) (evs : list gevent) : bool :=
  existsb (fun e => match e with Emptied k => addr_eqb a k | _ => false end) evs.
Definition gives_up (a : addr) (evs : list gevent) : bool :=
  existsb (fun e => match e with Abandoned k => addr_eqb a k | _ => false end) evs.
Definition goes_on (i : nat) (x : sched) : Prop := exists e, x = Resume i e.
(** What operation [i] does for [a] in the course of [xs] ... *)
Fixpoint packed_by (env : denv) (cf : config) (i : nat) (a : addr) (xs : list sched) : list Z :=
  match xs with
  | [] => []
  | x :: xs' =>
      match x with Resume j _ => if Nat.eqb i j then packs a (gevents env cf x) else [] | _ => [] end ++
      packed_by env (fst (cstep env cf x)) i a xs'
  end.
(** ... while it does not finish with it. *)
Fixpoint busy_with (env : denv) (cf : config) (i : nat) (a : addr) (xs : list sched) : Prop :=
  match xs with
  | [] => True
  | x :: xs' =>
      (goes_on i x -> empties a (gevents env cf x) = false /\ gives_up a (gevents env cf x) = false) /\
      busy_with env (fst (cstep env cf x)) i a xs'
  end.
(** The queue for [a] that was there at the beginning, as it is at the end: with
    the ids that came before another operation replaced it. *)
Fixpoint queue_kept (env : denv) (cf : config) (a : addr) (xs : list sched) : list Z :=
  match xs with
  | [] => pending_acks (cf_st cf) a
  | x :: xs' => if empties a (gevents env cf x) then pending_acks (cf_st cf) a
                else queue_kept env (fst (cstep env cf x)) a xs'
  end.
