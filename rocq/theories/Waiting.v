(** The code that waits: Wait of helpers.py, the watcher that stop() of
    event_queue.py spawns; and the HTTP client of network/stdlib_client.py. *)
From Verif Require Export EventQueue Caps Settings Values.

(** ** helpers.py:279-316, Wait *)

(** int(v).  [txt] is what int() makes of a text (external).  Simplification:
    a unicode text goes through UTF-8. *)
Definition py_int (txt : bytes -> res Z) (v : pyval) : res Z :=
  match v with
  | VInt z => Ok z
  | VBool b => Ok (if b then 1 else 0)
  | VFloat f => int_of_float f
  | VStr s => txt s
  | VUni u => txt (utf8 u)
  | _ => Err TypeErr
  end.

(** f < n for a float and an int: Python compares the exact values. *)
Definition float_lt_int (f : pyfloat) (n : Z) : bool :=
  match f with
  | S754_zero _ => 0 <? n
  | S754_infinity s => s
  | S754_nan => false
  | S754_finite s m e =>
      let a := if s then Z.neg m else Z.pos m in
      if e <? 0 then a <? n * 2 ^ (- e) else a * 2 ^ e <? n
  end.

(** One pass through the body of the loop (helpers.py:302-306): api.sleep()
    returns and time.time() says [now], or an exception is raised; and whether
    another coroutine called stop() (311-313) while this one slept. *)
Inductive pass := Slept (now : pyfloat) | SleepRaised (e : exn).
Record tick := { t_pass : pass; t_stop : bool }.

(** helpers.py:300-308: the loop, given what its passes will meet: how many
    passes were begun, and the result (None if the passes run out and it still
    waits).  [except AssertionError: pass] leaves [now] as it was. *)
Fixpoint wait_loop (duration : Z) (start now : pyfloat) (enabled : bool) (ticks : list tick)
  : nat * option (res bool) :=
  if enabled && float_lt_int (fsub now start) duration then
    match ticks with
    | [] => (O, None)
    | t :: ticks' =>
        match t_pass t with
        | SleepRaised e =>
            match e with
            | AssertionErr =>
                let '(n, r) := wait_loop duration start now (negb (t_stop t)) ticks' in (S n, r)
            | _ => (1%nat, Some (Err e))
            end
        | Slept now' =>
            let '(n, r) := wait_loop duration start now' (negb (t_stop t)) ticks' in (S n, r)
        end
    end
  else (O, Some (Ok true)).

(** helpers.py:294-308, run(): [enabled] is set whatever it was before. *)
Definition wait_run (duration : Z) (enabled : bool) (start : pyfloat) (ticks : list tick)
  : nat * option (res bool) :=
  wait_loop duration start start true ticks.

(** helpers.py:285-292, Wait(duration): the constructor waits. *)
Definition wait_new (txt : bytes -> res Z) (duration : pyval) (start : pyfloat) (ticks : list tick)
  : nat * option (res bool) :=
  match py_int txt duration with
  | Err e => (O, Some (Err e))
  | Ok d => wait_run d false start ticks
  end.

(** ** event_queue.py:147-161, stop_monitor *)

(** What the watcher logs, and after how many seconds. *)
Inductive watch_report := WStopped (seconds : Z) | WFailed (seconds : Z).

(** event_queue.py:150-161: [running i] is the running flag at the watcher's
    i-th wake-up (from 0).  [i] counts the wake-ups made so far. *)
Fixpoint stop_monitor_from (running : nat -> bool) (interval : Z) (i times : nat) : watch_report :=
  match times with
  | O => WFailed (interval * Z.of_nat i)
  | S times' => if running i then stop_monitor_from running interval (S i) times'
                else WStopped (interval * Z.of_nat (S i))
  end.
Definition stop_monitor (running : nat -> bool) (interval : Z) (times : nat) : watch_report :=
  stop_monitor_from running interval O times.

(** event_queue.py:162: spawned with the poll interval of the settings and 10. *)
Definition stop_watch (s : settings) (running : nat -> bool) : watch_report :=
  stop_monitor running (REGION_EVENT_QUEUE_POLL_INTERVAL s) 10.

(** The running flag as the watcher sees it, if start() ends in state [st]
    between wake-ups [k-1] and [k]: it is True for as long as start() is under
    way (set at 170/226 before the loop, cleared only after it). *)
Definition flag_seen (k : nat) (st : eqstate) (i : nat) : bool :=
  if Nat.ltb i k then true else eq_running st.

(** ** network/stdlib_client.py *)

(** urllib2.Request(url[, data], headers=headers): urllib2 sends a GET when
    there is no data and a POST otherwise. *)
Record url_request := {
  ur_url : string; ur_data : option bytes; ur_headers : list (string * string) }.

(** What urllib2.urlopen does (external: an oracle): a response (its code,
    reason, headers and body), an urllib2.HTTPError, another exception. *)
Inductive url_result :=
| UrlOk (code : Z) (msg : string) (headers : list (string * string)) (body : bytes)
| UrlHTTPError (code : Z) (msg : string) (fp : bytes)
| UrlRaises (e : exn).

(** What GET and POST return or raise: a webob Response, exc.HTTPError
    (code, msg, fp), or whatever else escaped. *)
Inductive client_result :=
| ClientResponse (status_code : Z) (status_msg : string) (headers : list (string * string)) (body : bytes)
| ClientHTTPError (code : Z) (msg : string) (fp : bytes)
| ClientRaises (e : exn).

(** stdlib_client.py:33-42 and 48-57 *)
Definition client_result_of (r : url_result) : client_result :=
  match r with
  | UrlHTTPError code msg fp => ClientHTTPError code msg fp
  | UrlRaises e => ClientRaises e
  | UrlOk code msg headers body => ClientResponse code msg headers body
  end.

(** stdlib_client.py:29-42, StdLibClient.GET *)
Definition client_GET (urlopen : url_request -> url_result) (url : string)
  (headers : list (string * string)) : client_result :=
  client_result_of (urlopen {| ur_url := url; ur_data := None; ur_headers := headers |}).

(** stdlib_client.py:44-57, StdLibClient.POST *)
Definition client_POST (urlopen : url_request -> url_result) (url : string) (data : bytes)
  (headers : list (string * string)) : client_result :=
  client_result_of (urlopen {| ur_url := url; ur_data := Some data; ur_headers := headers |}).

(** response.headers['Content-Type']: header names compare without case
    (webob); httplib has lower-cased them. *)
Definition content_type (headers : list (string * string)) : option string :=
  sget "content-type"%string headers.

(** What caps.py sees of a client's answer: caps.py:73, 81, 119, 149. *)
Definition seen_by_caps (r : client_result) : http_result :=
  match r with
  | ClientResponse _ _ headers body => Response (content_type headers) (BStr body)
  | ClientHTTPError code _ _ => HttpError code
  | ClientRaises e => HttpRaises e
  end.

(** The REST client a Capability uses by default (caps.py:58-61): caps.py:73
    calls GET(url) and caps.py:119 and 138 POST(url, payload, headers). *)
Definition std_net (urlopen : url_request -> url_result) (r : request) : http_result :=
  match r with
  | ReqGet url => seen_by_caps (client_GET urlopen url [])
  | ReqPost url payload headers => seen_by_caps (client_POST urlopen url payload headers)
  end.
