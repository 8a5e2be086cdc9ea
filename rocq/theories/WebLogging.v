(** caps.py and event_queue.py once more, with their log statements: the
    arguments of a log statement are formatted before the logger sees them, and
    formatting can raise.
    A line is represented by its parts.  The logger itself does not raise
    (logging.Handler.handleError).  Tracebacks (traceback.print_exc) are left
    out; exceptions and LLSD containers print as ASCII (str() of a list or
    dictionary is made of repr()s). *)
From Verif Require Export EventQueue Caps Settings Helpers.

(** ** Python 2 strings and [%] *)

(** A text is a byte string or a unicode string; a unicode string is held here
    by its UTF-8 encoding. *)
Inductive flavour := ByteText | UnicodeText.
Record text := { t_flavour : flavour; t_chars : bytes }.
Definition ascii_only (b : bytes) : bool := forallb (fun c => ord c <? 128) b.

(** PyString_Format and PyUnicode_Format on arguments for %s: byte strings are
    appended until the first unicode string, when what there is has to be
    decoded, as has every later byte string.  UnicodeDecodeError is a
    ValueError. *)
Fixpoint format_unicode (args : list text) : res unit :=
  match args with
  | [] => Ok tt
  | a :: args' =>
      match t_flavour a with
      | UnicodeText => format_unicode args'
      | ByteText => if ascii_only (t_chars a) then format_unicode args' else Err ValueErr
      end
  end.
Fixpoint format_bytes (sofar : bytes) (args : list text) : res unit :=
  match args with
  | [] => Ok tt
  | a :: args' =>
      match t_flavour a with
      | ByteText => format_bytes (sofar ++ t_chars a) args'
      | UnicodeText => if ascii_only sofar then format_unicode args else Err ValueErr
      end
  end.
Definition format_texts (args : list text) : res unit := format_bytes [] args.

(** ** caps.py *)

(** str() of an LLSD value as an argument for %s.  [uni] tells which strings
    the parser (or the caller, for a payload) has as unicode objects. *)
Definition shown (uni : string -> bool) (v : llsd) : text :=
  match v with
  | LStr s => {| t_flavour := if uni s then UnicodeText else ByteText; t_chars := bytes_of_string s |}
  | LBin b => {| t_flavour := ByteText; t_chars := b |}
  | _ => {| t_flavour := ByteText; t_chars := [] |}      (* some ASCII text *)
  end.

Inductive capline :=
| GetLine (name url : text)                  (* caps.py:71 *)
| PostLine (url : text) (payload : llsd)     (* caps.py:101 *)
| PayloadLine (url : text) (data : bytes)    (* caps.py:114 *)
| BodyLine (url : text) (b : text)           (* caps.py:93, 165: the stripped body *)
| GotLine (url : text) (v : llsd)            (* caps.py:94 *)
| PostedLine (url : text) (v : llsd).        (* caps.py:166 *)

Inductive capentry :=
| CapLine (l : capline)
| CapRequest (r : request)                   (* the REST client is asked *)
| CapPrint.                                  (* caps.py:160, print response *)

Notation cres A := (list capentry * res A)%type.
Definition clift {A} (r : res A) : cres A := ([], r).
Definition cbind {A B} (x : cres A) (f : A -> cres B) : cres B :=
  match x with
  | (t, Ok a) => let '(t', r) := f a in (t ++ t', r)
  | (t, Err e) => (t, Err e)
  end.
Notation "'cdo' x <- e ; f" := (cbind e (fun x => f)) (at level 60, x name, right associativity).

(** if <switch>: logger.debug(<format> % <args>) *)
Definition log_line (on : bool) (args : list text) (l : capline) : cres unit :=
  if on then match format_texts args with
             | Ok _ => ([CapLine l], Ok tt)
             | Err e => ([], Err e)
             end
  else ([], Ok tt).

(** A capability with its settings (caps.py:49-66). *)
Record lcap := { lc_name : text; lc_url : text; lc_client : nat; lc_settings : settings }.
Definition str_of (t : text) : string := string_of_list_byte (t_chars t).
Definition cap_of (c : lcap) : capability :=
  {| cap_name := str_of (lc_name c); cap_url := str_of (lc_url c); cap_client := lc_client c |}.

(** response.body.strip(): [other] is what it is on a body that is not a byte
    string. *)
Definition body_text (other : res text) (b : body) : res text :=
  match b with
  | BStr s => Ok {| t_flavour := ByteText; t_chars := strip_by is_ws s |}
  | BOther => other
  end.

Definition log_body (on : bool) (other : res text) (url : text) (b : body) : cres unit :=
  if on then cdo t <- clift (body_text other b); log_line true [url; t] (BodyLine url t)
  else ([], Ok tt).

(** caps.py:68-96, Capability.GET *)
Definition lcap_GET (parse : bytes -> parse_result) (net : request -> http_result)
  (uni : string -> bool) (other : res text) (c : lcap) : cres llsd :=
  let s := lc_settings c in
  let url := str_of (lc_url c) in
  cdo _ <- log_line (ENABLE_CAPS_LOGGING s) [lc_name c; lc_url c] (GetLine (lc_name c) (lc_url c));
  cdo r <- ([CapRequest (ReqGet url)],
            match net (ReqGet url) with
            | HttpError code => Err (http_error url code "GET")
            | HttpRaises e => Err e
            | Response None _ => Err KeyErr
            | Response (Some ct) b => Ok (before_semi ct, b)
            end);
  if String.eqb (fst r) "application/llsd+xml" then
    cdo data <- clift (llsd_deserialize parse (snd r));
    cdo _ <- log_body (LOG_VERBOSE s && ENABLE_CAPS_LLSD_LOGGING s) other (lc_url c) (snd r);
    cdo _ <- log_line (ENABLE_CAPS_LOGGING s) [lc_url c; shown uni data] (GotLine (lc_url c) data);
    clift (Ok data)
  else clift (Err (DeserializerNotFoundErr (fst r))).

(** caps.py:146-168, _response_handler *)
Definition lresponse_handler (parse : bytes -> parse_result) (uni : string -> bool)
  (other : res text) (c : lcap) (ctype : option string) (b : body) : cres llsd :=
  let s := lc_settings c in
  match ctype with
  | None => clift (Err KeyErr)
  | Some ct =>
      let ct := before_semi ct in
      cdo ok <- clift (if String.eqb ct "application/llsd+xml" || String.eqb ct "application/xml"
                       then Ok true
                       else if String.eqb ct "text/html" then
                         match b with
                         | BStr s => Ok match re_match llsd_re s with Some _ => true | None => false end
                         | BOther => Err TypeErr
                         end
                       else Ok false);
      if (ok : bool) then
        cdo data <- clift (llsd_deserialize parse b);
        cdo _ <- log_body (ENABLE_CAPS_LLSD_LOGGING s) other (lc_url c) b;
        cdo _ <- log_line (ENABLE_CAPS_LOGGING s) [lc_url c; shown uni data] (PostedLine (lc_url c) data);
        clift (Ok data)
      else ([CapPrint], Err (DeserializerNotFoundErr ct))
  end.

(** caps.py:121-127 and 134-144 *)
Definition lpost_raw (parse : bytes -> parse_result) (net : request -> http_result)
  (uni : string -> bool) (other : res text) (c : lcap) (headers : list (string * string))
  (payload : bytes) : cres llsd :=
  let url := str_of (lc_url c) in
  cdo r <- ([CapRequest (ReqPost url payload headers)],
            match net (ReqPost url payload headers) with
            | HttpError code => Err (http_error url code "POST")
            | HttpRaises e => Err e
            | Response ct b => Ok (ct, b)
            end);
  lresponse_handler parse uni other c (fst r) (snd r).

(** caps.py:98-127, Capability.POST *)
Definition lcap_POST (parse : bytes -> parse_result) (format : llsd -> res bytes)
  (net : request -> http_result) (uni : string -> bool) (other : res text) (c : lcap)
  (payload : llsd) (custom_headers : list (string * string)) : cres llsd :=
  let s := lc_settings c in
  cdo _ <- log_line (ENABLE_CAPS_LOGGING s) [lc_url c; shown uni payload] (PostLine (lc_url c) payload);
  match payload with
  | LArr _ | LMap _ =>
      cdo data <- clift (format payload);
      cdo _ <- log_line (LOG_VERBOSE s && ENABLE_CAPS_LLSD_LOGGING s)
                 [lc_url c; {| t_flavour := ByteText; t_chars := data |}] (PayloadLine (lc_url c) data);
      lpost_raw parse net uni other c
        (update_headers [("Content-type", "application/llsd+xml")%string] custom_headers) data
  | _ => clift (Err (DeserializerNotFoundErr ""))
  end.

(** caps.py:129-144, POST_CUSTOM *)
Definition lcap_POST_CUSTOM (parse : bytes -> parse_result) (net : request -> http_result)
  (uni : string -> bool) (other : res text) (c : lcap) (headers : list (string * string))
  (payload : bytes) : cres llsd :=
  lpost_raw parse net uni other c headers payload.

(** caps.py:177-192, SeedCapability.get: the new capabilities are created
    without the seed's settings (line 190), that is with Settings(). *)
Record lnewcap := { ln_name : string; ln_url : llsd; ln_client : nat; ln_settings : settings }.
Definition lseed_get (parse : bytes -> parse_result) (format : llsd -> res bytes)
  (net : request -> http_result) (uni : string -> bool) (other : res text) (c : lcap)
  (names : list string) : cres (list (string * lnewcap)) :=
  cdo r <- lcap_POST parse format net uni other c
             (LMap [("capabilities"%string, LArr (map LStr names))]) [];
  clift (do parsed <- getitem r (LStr "capabilities");
         fold_left (fun acc name =>
                      do caps <- acc;
                      do u <- getitem parsed (LStr name);
                      Ok (sset name {| ln_name := name; ln_url := u; ln_client := lc_client c;
                                       ln_settings := defaults |} caps))
                   names (Ok [])).

(** ** event_queue.py *)

(** The host an event queue client was given: a tuple is taken apart by [%],
    anything else (None, a string, a Host object, ...) is one argument. *)
Inductive eqhost := OneHost (h : text) | TupleHost (n : nat).
(** ' from (%s)' % self.host, and the like *)
Definition host_string (h : eqhost) : res unit :=
  match h with
  | OneHost _ => Ok tt
  | TupleHost n => if Nat.eqb n 1 then Ok tt else Err TypeErr
  end.

Inductive eqline :=
| SpawnADLine                               (* event_queue.py:112 *)
| SpawnRegionLine                           (* event_queue.py:121 *)
| UnknownTypeLine                           (* event_queue.py:131 *)
| StartProblemLine (e : exn)                (* event_queue.py:136 *)
| PostingLine (host : bool) (data : llsd)   (* event_queue.py:187; whether the host is in it *)
| DontCareLine (host : bool) (e : exn)      (* event_queue.py:196 *)
| ResultLine (v : llsd)                     (* event_queue.py:248 *)
| ParseErrorLine (v : llsd)                 (* event_queue.py:262 *)
| PollErrorLine                             (* event_queue.py:206 *)
| QueueStoppedLine.                         (* event_queue.py:216 *)

Inductive eqentry :=
| EqLine (l : eqline)
| EqPost (data : llsd)
| EqDeliver (m : eqmessage).

(** A line with the host in it if [host] *)
Definition with_host (host : bool) (h : eqhost) : res unit := if host then host_string h else Ok tt.

(** event_queue.py:238-262, _parse_result; an exception in the except clause
    itself leaves it.
    Simplification: which exception made the parsing fail is not recorded. *)
Definition parse_result_l (known : string -> bool) (raises : eqmessage -> bool) (h : eqhost)
  (last_id data : llsd) : list eqentry * res unit :=
  if is_none data then ([], Ok tt)
  else
    let '(t, r) :=
      match host_string h with
      | Err e => ([], Err e)
      | Ok _ =>
          let '(t, r) := match decode_eq_result known last_id data with
                         | Err e => ([], Err e)
                         | Ok l => (map EqDeliver (deliver raises l),
                                    if existsb raises l then Err (Raised 0) else Ok tt)
                         end in
          (EqLine (ResultLine data) :: t, r)
      end in
    match r with
    | Ok _ => (t, Ok tt)
    | Err _ => match host_string h with
               | Err e => (t, Err e)
               | Ok _ => (t ++ [EqLine (ParseErrorLine data)], Ok tt)
               end
    end.

(** event_queue.py:175-206, one iteration. Nothing before the POST fails
    but the formatting of the host. *)
Definition eq_poll_l (known : string -> bool) (raises : eqmessage -> bool) (s : settings)
  (h : eqhost) (st : eqstate) (o : post_outcome) : eqstate * list eqentry :=
  let payload := eq_payload (eq_last st) in
  let failed (st : eqstate) (t : list eqentry) := (st, t ++ [EqLine PollErrorLine]) in
  match (if ENABLE_EQ_LOGGING s then with_host (ENABLE_HOST_LOGGING s) h else Ok tt) with
  | Err _ => failed st []
  | Ok _ =>
      let t := (if ENABLE_EQ_LOGGING s
                then [EqLine (PostingLine (ENABLE_HOST_LOGGING s) payload)] else []) ++
               [EqPost payload] in
      let result := match o with PostOk v => v | PostErr _ => eq_result st end in
      let mk last := {| eq_running := eq_running st; eq_stopped := eq_stopped st;
                        eq_last := last; eq_result := result |} in
      match (match o with
             | PostOk _ => Ok []
             | PostErr e => do _ <- with_host (ENABLE_HOST_LOGGING s) h;
                            Ok [EqLine (DontCareLine (ENABLE_HOST_LOGGING s) e)]
             end) with
      | Err _ => failed st t
      | Ok t1 =>
          let t := t ++ t1 in
          if is_none result then (mk (LInt (-1)), t)
          else match getitem result (LStr "id") with
               | Err _ => failed (mk (eq_last st)) t
               | Ok id =>
                   let '(t2, r) := parse_result_l known raises h id result in
                   match r with
                   | Ok _ => (mk id, t ++ t2)
                   | Err _ => failed (mk id) (t ++ t2)
                   end
               end
      end
  end.

(** event_queue.py:173-206 *)
Fixpoint eq_loop_l (known : string -> bool) (raises : eqmessage -> bool) (s : settings)
  (h : eqhost) (polls : list poll) (st : eqstate) : eqstate * list eqentry :=
  if eq_stopped st then (st, [])
  else match polls with
       | [] => (st, [])
       | p :: polls' =>
           let '(st, t) := eq_poll_l known raises s h st (p_out p) in
           let st := if p_stop p then set_stopped st true else st in
           let '(st, t') := eq_loop_l known raises s h polls' st in
           (st, t ++ t')
       end.

(** event_queue.py:104-138 and 164-236, start().  The line of 136 formats the
    host as one of three arguments, which a tuple does not disturb. *)
Definition eq_start_l (known : string -> bool) (raises : eqmessage -> bool) (s : settings)
  (h : eqhost) (name : string) (polls : list poll) (closing : post_outcome) (st : eqstate)
  : eqstate * list eqentry * option bool :=
  let problem (st : eqstate) (t : list eqentry) (e : exn) :=
    (st, t ++ [EqLine (StartProblemLine e)], Some false) in
  if String.eqb name "event_queue" then
    let t := if LOG_COROUTINE_SPAWNS s then [EqLine SpawnADLine] else [] in
    let st := set_running st true in
    if eq_stopped st then (set_running st false, t, Some true)
    else problem st t AttributeErr
  else if String.eqb name "EventQueueGet" then
    match with_host (LOG_COROUTINE_SPAWNS s) h with
    | Err e => problem st [] e
    | Ok _ =>
        let t := if LOG_COROUTINE_SPAWNS s then [EqLine SpawnRegionLine] else [] in
        let '(st, t') := eq_loop_l known raises s h polls (set_running st true) in
        let t := t ++ t' in
        if eq_stopped st then
          let finish (st : eqstate) (t : list eqentry) :=
            let st := set_running st false in
            match host_string h with
            | Ok _ => (st, t ++ [EqLine QueueStoppedLine], Some true)
            | Err e => problem st t e
            end in
          if equals_minus1 (eq_last st) then finish st t
          else
            let t := t ++ [EqPost (eq_closing (eq_last st))] in
            match closing with
            | PostOk _ => finish st t
            | PostErr e => problem st t e
            end
        else (st, t, None)
    end
  else (st, [EqLine UnknownTypeLine], Some false).
