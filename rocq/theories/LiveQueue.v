(** pyogp/lib/base/event_queue.py once more, now with the delivery of a response
    cut at every call of a subscriber: there the subscriber itself, the other
    coroutines of the same event queue (start_monitors spawns one more each time,
    message_manager.py:118-129) and the user may subscribe, unsubscribe, stop the
    queue, start another coroutine, poll, ... *)
From Verif Require Export Monitors.

(** Where a coroutine running event_queue.start is: not yet begun; in api.sleep
    (176); in cap.POST (190); in the call of the [k]-th subscriber of [m], the
    [n]-th message of the response (253-254), [rest] being the messages after it;
    in the last POST (212); or it has returned (start()'s result). *)
Inductive npc :=
| NBegin | NSleep | NPost
| NCall (n : nat) (m : eqmessage) (k : nat) (rest : list eqmessage)
| NClosing | NDone (result : bool).

(** The event queue object, the registrations of its message handler, and the
    coroutines. *)
Record lqueue := { nq_q : eqstate; nq_reg : registry; nq_pool : list npc }.
Definition nq_init : lqueue := {| nq_q := eq_init; nq_reg := []; nq_pool := [] |}.

(** What a coroutine does: it posts; it has got a response and decoded these
    messages from it; it calls the [k]-th subscriber of the [n]-th of them. *)
Inductive nevent :=
| NPosted (data : llsd)
| NDecoded (ms : list eqmessage)
| NCalled (n k : nat) (s : sub) (m : eqmessage).

(** message_handler.py:71: the subscribers of a message.
    Simplification: nothing is registered under a name that is no text. *)
Definition eq_subs (r : registry) (m : eqmessage) : list sub :=
  match q_name m with
  | LStr name => match sget name r with Some l => l | None => [] end
  | _ => []
  end.

(** event_queue.py:173 and 208-214: the loop condition and what follows the loop *)
Definition nq_top (q : eqstate) : eqstate * list nevent * npc :=
  if eq_stopped q then
    if equals_minus1 (eq_last q) then (set_running q false, [], NDone true)
    else (q, [NPosted (eq_closing (eq_last q))], NClosing)
  else (q, [], NSleep).

(** event_queue.py:253-254 with message_handler.py:66-82: the messages [ms], the
    first of which is the [n]-th of the response, up to the first subscriber. *)
Fixpoint hand_over (q : eqstate) (r : registry) (n : nat) (ms : list eqmessage) : eqstate * list nevent * npc :=
  match ms with
  | [] => nq_top q
  | m :: ms' =>
      match eq_subs r m with
      | s :: _ => (q, [NCalled n 0 s m], NCall n m 0 ms')
      | [] => hand_over q r (S n) ms'
      end
  end.

(** event_queue.py:104-138, 164-216, 238-262, events.py:53-65, from one suspension
    point to the next; [o] is what the POST in progress met, [x] the exception of
    the subscriber that was called.  With subscribers that never raise, [eq_after]
    gives all the messages decoded. *)
Definition nq_step (e : qenv) (q : eqstate) (r : registry) (p : npc) (o : post_outcome) (x : option exn)
  : eqstate * list nevent * npc :=
  match p with
  | NBegin =>
      if String.eqb (qe_cap e) "event_queue" then
        let q := set_running q true in
        if eq_stopped q then (set_running q false, [], NDone true) else (q, [], NDone false)
      else if String.eqb (qe_cap e) "EventQueueGet" then nq_top (set_running q true)
      else (q, [], NDone false)
  | NSleep => (q, [NPosted (eq_payload (eq_last q))], NPost)
  | NPost =>
      let '(q, ms) := eq_after (qe_known e) (fun _ => false) q o in
      let '(q, ev, p) := hand_over q r 0 ms in
      (q, NDecoded ms :: ev, p)
  | NCall n m k rest =>
      match x with
      | Some x =>
          match swallow_keyerror (Some x) with
          | Some _ => nq_top q                          (* caught at 256 *)
          | None => hand_over q r (S n) rest            (* message_handler.py:80 *)
          end
      | None =>
          match nth_error (eq_subs r m) (S k) with
          | Some s => (q, [NCalled n (S k) s m], NCall n m (S k) rest)
          | None => hand_over q r (S n) rest
          end
      end
  | NClosing =>
      match o with
      | PostOk _ => (set_running q false, [], NDone true)
      | PostErr _ => (q, [], NDone false)
      end
  | NDone _ => (q, [], p)
  end.

(** Everything that can happen. *)
Inductive nop :=
| NStart                                 (* start_monitors spawns event_queue.start (127-129) *)
| NStop                                  (* event_queue.stop() *)
| NStopMonitors                          (* stop_monitors (134-144) *)
| NUser (h : hop)                        (* somebody uses the message handler *)
| NRun (i : nat) (o : post_outcome) (x : option exn).   (* the i-th coroutine goes on *)

Definition set_q (l : lqueue) (q : eqstate) : lqueue := {| nq_q := q; nq_reg := nq_reg l; nq_pool := nq_pool l |}.
Definition nstep (e : qenv) (l : lqueue) (o : nop) : lqueue * list (nat * nevent) :=
  match o with
  | NStart => ({| nq_q := nq_q l; nq_reg := nq_reg l;
                  nq_pool := if qe_enabled e then nq_pool l ++ [NBegin] else nq_pool l |}, [])
  | NStop => (set_q l (eq_stop (nq_q l)), [])
  | NStopMonitors => (set_q l (if eq_running (nq_q l) then eq_stop (nq_q l) else nq_q l), [])
  | NUser h => ({| nq_q := nq_q l; nq_reg := fst (hstep (nq_reg l) h); nq_pool := nq_pool l |}, [])
  | NRun i o x =>
      match nth_error (nq_pool l) i with
      | Some p =>
          let '(q, ev, p) := nq_step e (nq_q l) (nq_reg l) p o x in
          ({| nq_q := q; nq_reg := nq_reg l; nq_pool := update_nth i p (nq_pool l) |}, map (pair i) ev)
      | None => (l, [])
      end
  end.
Fixpoint nrun (e : qenv) (l : lqueue) (ops : list nop) : lqueue :=
  match ops with [] => l | o :: ops' => nrun e (fst (nstep e l o)) ops' end.
