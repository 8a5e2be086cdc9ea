(** pyogp/lib/base/event_queue.py *)
From Verif Require Export Llsd Events.

(** A message decoded from the event queue.  Its variables hold LLSD values. *)
Record eqblock := { qb_name : string; qb_vars : list (llsd * llsd) }.
Record eqmessage := {
  q_name : llsd;                     (* message['message'] *)
  q_id : llsd;                       (* event_queue_id = self.last_id *)
  q_blocks : list (string * list eqblock) }.

(** MsgData.add_block (template.py:36-40) on these blocks *)
Definition eq_add_block (d : list (string * list eqblock)) (b : eqblock) :=
  match sget (qb_name b) d with
  | Some l => sset (qb_name b) (l ++ [b]) d
  | None => sset (qb_name b) [b] d
  end.

(** event_queue.py:308-311 and 321-324: the variables of a block, in iteration
    order.  Iterating a non-mapping fails when it is indexed.
    Simplification: MsgBlockData.add_variable keeps one entry per name; the
    keys of a map are distinct, so appending is the same. *)
Fixpoint eq_vars (v : llsd) (keys : list llsd) : res (list (llsd * llsd)) :=
  match keys with
  | [] => Ok []
  | k :: keys' => do x <- getitem v k; do r <- eq_vars v keys'; Ok ((k, x) :: r)
  end.
Definition eq_block (name : string) (v : llsd) : res eqblock :=
  do keys <- iterate v;
  do vars <- eq_vars v keys;
  Ok {| qb_name := name; qb_vars := vars |}.

(** event_queue.py:304-311 *)
Fixpoint eq_instances (name : string) (l : list llsd) (d : list (string * list eqblock))
  : res (list (string * list eqblock)) :=
  match l with
  | [] => Ok d
  | v :: l' => do b <- eq_block name v; eq_instances name l' (eq_add_block d b)
  end.

(** event_queue.py:302-311: for block_name in message['body'] *)
Fixpoint eq_blocks (body : llsd) (keys : list llsd) (d : list (string * list eqblock))
  : res (list (string * list eqblock)) :=
  match keys with
  | [] => Ok d
  | k :: keys' =>
      do v <- getitem body k;
      do l <- iterate v;
      match k with
      | LStr name => do d <- eq_instances name l d; eq_blocks body keys' d
      | _ => Err TypeErr
      end
  end.

(** event_queue.py:291-326, one event.  [known] tells whether the embedded
    template has a message of that name. *)
Definition eq_message (known : string -> bool) (last_id : llsd) (ev : llsd) : res eqmessage :=
  do name <- getitem ev (LStr "message");
  do in_template <- match name with
                    | LStr s => Ok (known s)
                    | LArr _ | LMap _ => Err TypeErr          (* unhashable *)
                    | _ => Ok false
                    end;
  do body <- getitem ev (LStr "body");
  do blocks <-
    (if (in_template : bool)
     then do keys <- iterate body; eq_blocks body keys []
     else do b <- eq_block "Message_Data" body; Ok (eq_add_block [] b));
  Ok {| q_name := name; q_id := last_id; q_blocks := blocks |}.

Fixpoint eq_events (known : string -> bool) (last_id : llsd) (l : list llsd)
  : res (list eqmessage) :=
  match l with
  | [] => Ok []
  | ev :: l' => do m <- eq_message known last_id ev;
                do r <- eq_events known last_id l'; Ok (m :: r)
  end.

(** event_queue.py:277-286: every key of the response but 'id' holds events. *)
Fixpoint eq_entries (known : string -> bool) (last_id : llsd) (m : list (string * llsd))
  : res (list eqmessage) :=
  match m with
  | [] => Ok []
  | (k, v) :: m' =>
      do a <- (if String.eqb k "id" then Ok []
               else do l <- iterate v; eq_events known last_id l);
      do b <- eq_entries known last_id m';
      Ok (a ++ b)
  end.

(** event_queue.py:264-328, _decode_eq_result (for data != None); has_key on a
    non-mapping is an AttributeError. *)
Definition decode_eq_result (known : string -> bool) (last_id : llsd) (data : llsd)
  : res (list eqmessage) :=
  match data with
  | LMap m => if dmem String.eqb "events"%string m then eq_entries known last_id m else Ok []
  | _ => Err AttributeErr
  end.

(** event_queue.py:253-254: messages are handed over until a subscriber raises
    ([raises] tells which messages do). *)
Fixpoint deliver (raises : eqmessage -> bool) (l : list eqmessage) : list eqmessage :=
  match l with
  | [] => []
  | m :: l' => if raises m then [m] else m :: deliver raises l'
  end.

(** event_queue.py:238-262, _parse_result: what is handed to the message
    handler; every exception is caught. *)
Definition parse_result_eq (known : string -> bool) (raises : eqmessage -> bool)
  (last_id data : llsd) : list eqmessage :=
  if is_none data then []
  else match decode_eq_result known last_id data with
       | Ok l => deliver raises l
       | Err _ => []
       end.

(** event_queue.py:90-98 *)
Record eqstate := {
  eq_running : bool;
  eq_stopped : bool;
  eq_last : llsd;           (* last_id, initially -1 *)
  eq_result : llsd }.       (* result, initially None *)
Definition eq_init : eqstate :=
  {| eq_running := false; eq_stopped := false; eq_last := LInt (-1); eq_result := LUndef |}.

(** What one poll does: the POST returned a value or raised; and whether stop()
    was called while it was going on.
    Simplification: an exception raised by the POST can be printed (lines 196
    and 136 format it; one whose own __str__ fails would leave the except
    clause: 198-203 would be skipped, and start() would raise, not return).
    And the host can be formatted by one %s (WebLogging.v goes without this). *)
Inductive post_outcome := PostOk (v : llsd) | PostErr (e : exn).
Record poll := { p_out : post_outcome; p_stop : bool }.

(** The data posted. *)
Definition eq_payload (last : llsd) : llsd :=
  if equals_minus1 last then LMap [] else LMap [("ack"%string, last)].
Definition eq_closing (last : llsd) : llsd :=
  LMap [("ack"%string, last); ("done"%string, LBool true)].

(** event_queue.py:189-203, after the POST of one iteration: the new state and
    the messages delivered.  A failing POST leaves [result] as it was; a result
    without 'id' raises before anything is delivered (caught at 205). *)
Definition eq_after (known : string -> bool) (raises : eqmessage -> bool) (st : eqstate)
  (o : post_outcome) : eqstate * list eqmessage :=
  let result := match o with PostOk v => v | PostErr _ => eq_result st end in
  let mk last := {| eq_running := eq_running st; eq_stopped := eq_stopped st;
                    eq_last := last; eq_result := result |} in
  if is_none result then (mk (LInt (-1)), [])
  else match getitem result (LStr "id") with
       | Ok id => (mk id, parse_result_eq known raises id result)
       | Err _ => (mk (eq_last st), [])
       end.

(** One iteration of the loop: payload posted, messages delivered. *)
Record eqlog := { l_posts : list llsd; l_delivered : list eqmessage }.

Definition set_stopped (st : eqstate) (b : bool) : eqstate :=
  {| eq_running := eq_running st; eq_stopped := b; eq_last := eq_last st;
     eq_result := eq_result st |}.
Definition set_running (st : eqstate) (b : bool) : eqstate :=
  {| eq_running := b; eq_stopped := eq_stopped st; eq_last := eq_last st;
     eq_result := eq_result st |}.

(** event_queue.py:173-206, the polling loop, given what each poll will meet;
    if the polls run out the loop is still running. *)
Fixpoint eq_loop (known : string -> bool) (raises : eqmessage -> bool) (polls : list poll)
  (st : eqstate) : eqstate * eqlog :=
  if eq_stopped st then (st, {| l_posts := []; l_delivered := [] |})
  else match polls with
       | [] => (st, {| l_posts := []; l_delivered := [] |})
       | p :: polls' =>
           let payload := eq_payload (eq_last st) in
           let '(st, del) := eq_after known raises st (p_out p) in
           let st := if p_stop p then set_stopped st true else st in
           let '(st, log) := eq_loop known raises polls' st in
           (st, {| l_posts := payload :: l_posts log;
                   l_delivered := del ++ l_delivered log |})
       end.

(** event_queue.py:104-138 and 164-216, start() on a capability of the given
    name.  [closing] is what the final POST meets.  The result is None if the
    polls ran out before the queue was stopped.  An agent domain queue
    ('event_queue', 218-236) fails on a setting that does not exist unless it
    is already stopped. *)
Definition eq_start (known : string -> bool) (raises : eqmessage -> bool) (name : string)
  (polls : list poll) (closing : post_outcome) (st : eqstate) : eqstate * eqlog * option bool :=
  if String.eqb name "event_queue" then
    let st := set_running st true in
    if eq_stopped st
    then (set_running st false, {| l_posts := []; l_delivered := [] |}, Some true)
    else (st, {| l_posts := []; l_delivered := [] |}, Some false)
  else if String.eqb name "EventQueueGet" then
    let '(st, log) := eq_loop known raises polls (set_running st true) in
    if eq_stopped st then
      if equals_minus1 (eq_last st)
      then (set_running st false, log, Some true)
      else
        let log := {| l_posts := l_posts log ++ [eq_closing (eq_last st)];
                      l_delivered := l_delivered log |} in
        match closing with
        | PostOk _ => (set_running st false, log, Some true)
        | PostErr _ => (st, log, Some false)
        end
    else (st, log, None)
  else (st, {| l_posts := []; l_delivered := [] |}, Some false).

(** event_queue.py:140-145, stop() *)
Definition eq_stop (st : eqstate) : eqstate := set_stopped st true.
