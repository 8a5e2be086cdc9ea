(** Specification vocabulary for C85-C88: capability calls and event queues with
    logging. *)
From Verif Require Export WebLogging SpecObjects SpecWeb.

(** ** Texts that cannot be put into one line *)

Definition unicode_text (t : text) : Prop := t_flavour t = UnicodeText.
(** A byte string with a byte of 128 or more. *)
Definition undecodable (t : text) : Prop :=
  t_flavour t = ByteText /\ exists c, In c (t_chars t) /\ 128 <= ord c.
Definition clash (args : list text) : Prop :=
  (exists t, In t args /\ unicode_text t) /\ (exists t, In t args /\ undecodable t).
(** A byte string of ASCII characters, as URLs should be. *)
Definition plain_url (t : text) : Prop :=
  t_flavour t = ByteText /\ forall c, In c (t_chars t) -> ord c < 128.
Definition raw (b : bytes) : text := {| t_flavour := ByteText; t_chars := b |}.

(** ** Capability calls *)

(** The requests made, and the lines logged. *)
Definition requests (t : list capentry) : list request :=
  flat_map (fun x => match x with CapRequest r => [r] | _ => [] end) t.
Definition cap_lines (t : list capentry) : list capline :=
  flat_map (fun x => match x with CapLine l => [l] | _ => [] end) t.

(** Whether the body of an answer is logged: a GET also needs LOG_VERBOSE. *)
Definition logs_get_body (s : settings) : bool := LOG_VERBOSE s && ENABLE_CAPS_LLSD_LOGGING s.
Definition logs_post_body (s : settings) : bool := ENABLE_CAPS_LLSD_LOGGING s.
Definition logs_payload (s : settings) : bool := LOG_VERBOSE s && ENABLE_CAPS_LLSD_LOGGING s.

(** [t] is what is logged of a body: a byte string without the white space
    around it, or whatever strip() makes of another object. *)
Definition body_logged (other : res text) (b : body) (t : text) : Prop :=
  match b with
  | BStr s => t_flavour t = ByteText /\ trimmed s (t_chars t)
  | BOther => other = Ok t
  end.

(** Logging an answer with this body and value raises [e]. *)
Inductive spoils (llsd_on caps_on : bool) (other : res text) (url : text) (b : body) (v : text) : exn -> Prop :=
| spoils_no_strip e : llsd_on = true -> b = BOther -> other = Err e ->
    spoils llsd_on caps_on other url b v e
| spoils_body t : llsd_on = true -> body_logged other b t -> clash [url; t] ->
    spoils llsd_on caps_on other url b v ValueErr
| spoils_value : (llsd_on = true -> exists t, body_logged other b t /\ ~ clash [url; t]) ->
    caps_on = true -> clash [url; v] -> spoils llsd_on caps_on other url b v ValueErr.

(** What is logged of an answer: its body and its value [l]. *)
Definition answer_lines (llsd_on caps_on : bool) (other : res text) (url : text) (b : body)
  (l : capline) (t : list capentry) : Prop :=
  exists t1, t = t1 ++ (if caps_on then [CapLine l] else []) /\
    if llsd_on then exists bt, body_logged other b bt /\ t1 = [CapLine (BodyLine url bt)] else t1 = [].

(** A GET that fails before the request is made. *)
Definition get_unsent (c : lcap) : Prop :=
  ENABLE_CAPS_LOGGING (lc_settings c) = true /\ clash [lc_name c; lc_url c].
(** A POST that fails before the request is made, because of logging. *)
Definition list_or_dict (v : llsd) : Prop := (exists l, v = LArr l) \/ (exists m, v = LMap m).
Definition post_unsent (format : llsd -> res bytes) (uni : string -> bool) (c : lcap) (payload : llsd) : Prop :=
  (ENABLE_CAPS_LOGGING (lc_settings c) = true /\ clash [lc_url c; shown uni payload]) \/
  (logs_payload (lc_settings c) = true /\ list_or_dict payload /\
   exists data, format payload = Ok data /\ clash [lc_url c; raw data]).

(** A response with a body POST does not know how to read. *)
Definition unreadable (r : http_result) : Prop :=
  exists ct b, r = Response (Some ct) b /\ ~ post_acceptable ct b /\
    (up_to_semicolon ct "text/html"%string -> exists s, b = BStr s).

(** ** The event queue *)

(** A host that does not fit one %s. *)
Definition bad_host (h : eqhost) : Prop := exists n, h = TupleHost n /\ n <> 1%nat.

Definition eq_posts (t : list eqentry) : list llsd :=
  flat_map (fun x => match x with EqPost d => [d] | _ => [] end) t.
Definition eq_delivered (t : list eqentry) : list eqmessage :=
  flat_map (fun x => match x with EqDeliver m => [m] | _ => [] end) t.
Definition eq_lines (t : list eqentry) : list eqline :=
  flat_map (fun x => match x with EqLine l => [l] | _ => [] end) t.

(** What one poll puts out, given the id [id] to acknowledge, its outcome and
    the outcomes up to it ([latest] response). *)
Definition posting_line (s : settings) (id : llsd) : list eqentry :=
  if ENABLE_EQ_LOGGING s then [EqLine (PostingLine (ENABLE_HOST_LOGGING s) (poll_payload id))] else [].
Definition failure_line (s : settings) (o : post_outcome) : list eqentry :=
  match o with PostOk _ => [] | PostErr e => [EqLine (DontCareLine (ENABLE_HOST_LOGGING s) e)] end.
(** What handling a response puts out: the response and its messages up to the
    first whose subscriber raises; a complaint if there is such a message, if
    the response cannot be decoded, or if it has no id. *)
Inductive response_story (known : string -> bool) (raises : eqmessage -> bool) : option llsd -> list eqentry -> Prop :=
| story_none : response_story known raises None []
| story_undef : response_story known raises (Some LUndef) []
| story_no_id v : v <> LUndef -> ~ (exists id, id_of v id) ->
    response_story known raises (Some v) [EqLine PollErrorLine]
| story_bad v id e : id_of v id -> decode_eq_result known id v = Err e ->
    response_story known raises (Some v) [EqLine (ResultLine v); EqLine (ParseErrorLine v)]
| story_good v id ms : id_of v id -> decode_eq_result known id v = Ok ms ->
    Forall (fun m => raises m = false) ms ->
    response_story known raises (Some v) (EqLine (ResultLine v) :: map EqDeliver ms)
| story_raise v id before m after : id_of v id ->
    decode_eq_result known id v = Ok (before ++ m :: after) ->
    Forall (fun m => raises m = false) before -> raises m = true ->
    response_story known raises (Some v)
      (EqLine (ResultLine v) :: map EqDeliver (before ++ [m]) ++ [EqLine (ParseErrorLine v)]).

(** What the polls of a run put out, in order. *)
Inductive run_story (known : string -> bool) (raises : eqmessage -> bool) (s : settings)
  : list post_outcome -> list eqentry -> Prop :=
| run_none : run_story known raises s [] []
| run_more outs o id t t' : run_story known raises s outs t -> ack_id outs id ->
    response_story known raises (latest (outs ++ [o])) t' ->
    run_story known raises s (outs ++ [o])
      (t ++ posting_line s id ++ [EqPost (poll_payload id)] ++ failure_line s o ++ t').

(** The line before the polls. *)
Definition spawn_line (s : settings) : list eqentry :=
  if LOG_COROUTINE_SPAWNS s then [EqLine SpawnRegionLine] else [].
