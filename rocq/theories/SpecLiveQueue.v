(** Vocabulary for C93 and C94: an event queue whose deliveries may be interrupted
    wherever a subscriber is called.  Subscriptions according to a history are those
    of SpecEvents.v, polls and closing requests those of SpecMonitors.v. *)
From Verif Require Export SpecEvents SpecMonitors LiveQueue.

(** What is seen of an event queue. *)
Inductive nobs :=
| NDid (i : nat) (e : nevent)                              (* the i-th coroutine posts, decodes, calls *)
| NAnswered (i : nat) (o : post_outcome)                   (* its poll has been answered, or has failed *)
| NClosed (i : nat) (o : post_outcome)                     (* the same of its closing request *)
| NReturned (i n k : nat) (x : option exn)                 (* the subscriber it called is back, with an exception or not *)
| NUsed (h : hop)                                          (* the message handler is used *)
| NStarted | NStopCalled | NStopMonitorsCalled.
Definition nobserved (l : lqueue) (o : nop) : list nobs :=
  match o with
  | NStart => [NStarted]
  | NStop => [NStopCalled]
  | NStopMonitors => [NStopMonitorsCalled]
  | NUser h => [NUsed h]
  | NRun i o x =>
      match nth_error (nq_pool l) i with
      | Some NPost => [NAnswered i o]
      | Some NClosing => [NClosed i o]
      | Some (NCall n m k rest) => [NReturned i n k x]
      | _ => []
      end
  end.
Fixpoint nhistory (e : qenv) (l : lqueue) (ops : list nop) : list nobs :=
  match ops with
  | [] => []
  | o :: ops' => nobserved l o ++ map (fun '(i, ev) => NDid i ev) (snd (nstep e l o)) ++ nhistory e (fst (nstep e l o)) ops'
  end.
(** The history of a new event queue, and what has become of it. *)
Definition nlife (e : qenv) (ops : list nop) : list nobs := nhistory e nq_init ops.
Definition nafter (e : qenv) (ops : list nop) : lqueue := nrun e nq_init ops.

(** ** Parts of a history *)
(** The uses of the message handler. *)
Definition uses (h : list nobs) : list hop := flat_map (fun x => match x with NUsed o => [o] | _ => [] end) h.
(** The subscribers of a message after such a history. *)
Definition subscribed (h : list nobs) (m : eqmessage) : list sub :=
  match q_name m with LStr name => subscriptions name [] (uses h) | _ => [] end.
(** The calls coroutine [i] makes: (message number, position, subscriber, message). *)
Definition n_calls (i : nat) (h : list nobs) : list (nat * nat * sub * eqmessage) :=
  flat_map (fun x => match x with NDid j (NCalled n k s m) => if Nat.eqb i j then [(n, k, s, m)] else [] | _ => [] end) h.
Definition n_posts (i : nat) (h : list nobs) : list llsd :=
  flat_map (fun x => match x with NDid j (NPosted d) => if Nat.eqb i j then [d] else [] | _ => [] end) h.
(** The n-th message of a response, of which these calls are made: each position
    once, messages and positions in order. *)
Fixpoint in_turn (calls : list (nat * nat * sub * eqmessage)) : Prop :=
  match calls with
  | (n, k, _, _) :: ((n', k', _, _) :: _) as rest =>
      ((n' = n /\ k' = S k) \/ ((n < n')%nat /\ k' = 0%nat)) /\ in_turn rest
  | _ => True
  end.
(** During [mid] coroutine [i] gets no other response. *)
Definition same_response (i : nat) (mid : list nobs) : Prop := forall ms, ~ In (NDid i (NDecoded ms)) mid.
(** A subscriber called by coroutine [i] raised something that is no KeyError. *)
Definition broken_off (i : nat) (mid : list nobs) : Prop :=
  exists n k x, In (NReturned i n k (Some x)) mid /\ x <> KeyErr.
(** One of the subscribers of the n-th message raised KeyError. *)
Definition key_error (i n : nat) (mid : list nobs) : Prop := exists k, In (NReturned i n k (Some KeyErr)) mid.
(** Nobody unsubscribes, or subscribes, anything from this message. *)
Definition nobody_left (m : eqmessage) (mid : list nobs) : Prop :=
  forall name s, q_name m = LStr name -> ~ In (NUsed (HUnsubscribe name s)) mid.
Definition nobody_joined (m : eqmessage) (mid : list nobs) : Prop :=
  forall name s, q_name m = LStr name -> ~ In (NUsed (HSubscribe name s)) mid.
(** The n-th message [m] of a response that came after [past] has been handed over
    during [mid]: unless one of its subscribers raised KeyError, or somebody
    unsubscribed from it, everybody who was subscribed has been called. *)
Definition handed (i : nat) (past mid : list nobs) (n : nat) (m : eqmessage) : Prop :=
  key_error i n mid \/
  (nobody_left m mid -> forall k s, nth_error (subscribed past m) k = Some s -> In (n, k, s, m) (n_calls i mid)).
(** All of them have been, or a subscriber raised something else. *)
Definition delivered_or_broken_off (i : nat) (past : list nobs) (ms : list eqmessage) (mid : list nobs) : Prop :=
  broken_off i mid \/ forall n m, nth_error ms n = Some m -> handed i past mid n m.
(** Nobody interferes with the subscriptions or raises. *)
Definition untouched (i : nat) (ms : list eqmessage) (mid : list nobs) : Prop :=
  (forall m, In m ms -> nobody_left m mid /\ nobody_joined m mid) /\ (forall n k x, ~ In (NReturned i n k (Some x)) mid).
(** The whole delivery of [ms] if nobody interferes. *)
Fixpoint positions (n k : nat) (m : eqmessage) (l : list sub) : list (nat * nat * sub * eqmessage) :=
  match l with [] => [] | s :: l' => (n, k, s, m) :: positions n (S k) m l' end.
Fixpoint full_delivery (subs : eqmessage -> list sub) (n : nat) (ms : list eqmessage) : list (nat * nat * sub * eqmessage) :=
  match ms with
  | [] => []
  | m :: ms' => positions n 0 m (subs m) ++ full_delivery subs (S n) ms'
  end.

(** ** Acknowledgements *)
(** The latest result of a poll, by whichever coroutine, and the id to acknowledge:
    that of the latest result that has one; none after a poll without a result. *)
Record heard := { h_result : llsd; h_id : option llsd }.
Definition hears (s : heard) (x : nobs) : heard :=
  match x with
  | NAnswered _ o =>
      let result := match o with PostOk v => v | PostErr _ => h_result s end in
      {| h_result := result;
         h_id := if is_none result then None
                 else match getitem result (LStr "id") with Ok id => Some id | Err _ => h_id s end |}
  | _ => s
  end.
Definition heard_of (h : list nobs) : heard := fold_left hears h {| h_result := LUndef; h_id := None |}.
(** The request that acknowledges it.  An id that is -1 is taken for none. *)
Definition poll_of (s : heard) : llsd :=
  match h_id s with
  | None => LMap []
  | Some id => if equals_minus1 id then LMap [] else LMap [("ack"%string, id)]
  end.
(** The coroutine is about to poll, or has nothing more to do. *)
Definition not_delivering (p : npc) : Prop := match p with NCall _ _ _ _ => False | _ => True end.
(** A coroutine is started only when every earlier one has ended. *)
Fixpoint one_at_a_time (e : qenv) (l : lqueue) (ops : list nop) : Prop :=
  match ops with
  | [] => True
  | o :: ops' => (o = NStart -> Forall (fun p => exists b, p = NDone b) (nq_pool l)) /\ one_at_a_time e (fst (nstep e l o)) ops'
  end.
Definition n_stopped (l : lqueue) : Prop := eq_stopped (nq_q l) = true.
(** How many polls and closing requests a coroutine, or one not yet spawned, may
    still post once the queue is stopped; how many steps it makes, apart from the
    calls of subscribers. *)
Definition n_polls_left (p : option npc) : nat := match p with Some NSleep => 1 | _ => 0 end.
Definition n_closes_left (p : option npc) : nat := match p with Some NClosing | Some (NDone _) => 0 | _ => 1 end.
Definition n_steps_of (i : nat) (ops : list nop) : nat :=
  List.length (filter (fun o => match o with NRun j _ _ => Nat.eqb i j | _ => false end) ops).

(** ** Without interruption *)
(** Subscribers that do nothing but return or raise, as [raise] says. *)
Definition message_raises (raise : sub -> eqmessage -> option exn) (r : registry) (m : eqmessage) : bool :=
  match find (fun s => match raise s m with Some _ => true | None => false end) (eq_subs r m) with
  | Some s => match raise s m with Some KeyErr => false | _ => true end
  | None => false
  end.
Definition same_place (p : qpc) : npc :=
  match p with QStart => NBegin | QSleep => NSleep | QPost => NPost | QClosing => NClosing | QEnd b => NDone b end.

(** The subscribers of [m] called: up to the first that raises. *)
Fixpoint until_raise (raise : sub -> eqmessage -> option exn) (m : eqmessage) (l : list sub) : list (sub * eqmessage) :=
  match l with
  | [] => []
  | s :: l' => (s, m) :: match raise s m with Some _ => [] | None => until_raise raise m l' end
  end.
Definition with_raises (e : qenv) (f : eqmessage -> bool) : qenv :=
  {| qe_enabled := qe_enabled e; qe_cap := qe_cap e; qe_known := qe_known e; qe_raises := f |}.
(** What a step of the uninterrupted queue posts and delivers. *)
Definition posted (ev : list qevent) : list llsd := flat_map (fun x => match x with QPosted d => [d] | _ => [] end) ev.
Definition delivered (ev : list qevent) : list eqmessage := flat_map (fun x => match x with QDelivered m => [m] | _ => [] end) ev.
(** Whoever was called came back as [raise] says. *)
Definition as_told (raise : sub -> eqmessage -> option exn) (i : nat) (h : list nobs) : Prop :=
  forall n k x, In (NReturned i n k x) h -> exists s m, In (n, k, s, m) (n_calls i h) /\ x = raise s m.
