(** Specification vocabulary for C83 and C84: what a dispatcher logs. *)
From Verif Require Import Logging SpecCodec SpecWire SpecLayout SpecCut.

(** Two settings that may differ in everything but what they handle and parse. *)
Definition same_behaviour (s s' : settings) : Prop :=
  HANDLE_PACKETS s = HANDLE_PACKETS s' /\ HANDLE_OUTGOING_PACKETS s = HANDLE_OUTGOING_PACKETS s' /\
  ENABLE_DEFERRED_PACKET_PARSING s = ENABLE_DEFERRED_PACKET_PARSING s'.

(** The lines that can be switched off. *)
Definition optional (x : entry) : bool :=
  match x with
  | Line (SkippedLine _) | Line (ReceivedLine _ _ _ _) | Line (SentLine _ _ _ _)
  | Line (AckingLine _) | Line (HandlingLine _) => true
  | _ => false
  end.
Definition essential (t : list entry) : list entry := filter (fun x => negb (optional x)) t.
Definition lines (t : list entry) : list logline :=
  flat_map (fun x => match x with Line l => [l] | _ => [] end) t.
(** The datagrams the socket took. *)
Definition taken (t : list entry) : list (addr * message * bytes) :=
  flat_map (fun x => match x with Handed a m b true => [(a, m, b)] | _ => [] end) t.
Definition taken_attempts (l : list attempt) : list (addr * message * bytes) :=
  flat_map (fun x => match at_data x with Some b => [(at_addr x, at_msg x, b)] | None => [] end) l.

(** The message is not one the settings keep out of the log. *)
Definition announced (s : settings) (name : string) : Prop :=
  ENABLE_UDP_LOGGING s = true /\ ~ (In name (UDP_SPAMMERS s) /\ DISABLE_SPAMMERS s = true).
Definition host_shown (s : settings) (a : addr) : option addr := if ENABLE_HOST_LOGGING s then Some a else None.
Definition hex_shown (s : settings) (b : bytes) : option bytes :=
  if ENABLE_BYTES_TO_HEX_LOGGING s then Some (bytes_to_hex b) else None.
Definition sent_line (s : settings) (a : addr) (m : message) (b : bytes) : logline :=
  SentLine (host_shown s a) (m_name m) (m_id m) (hex_shown s b).
Definition received_line (s : settings) (a : addr) (m : message) (b : bytes) : logline :=
  ReceivedLine (host_shown s a) (m_name m) (m_id m) (hex_shown s b).

(** The switches a line needs: [s] are the dispatcher's settings, [hs] those the
    message handler was created with. *)
Definition switched_on (s hs : settings) (l : logline) : Prop :=
  match l with
  | SkippedLine _ => LOG_VERBOSE s = true /\ ENABLE_UDP_LOGGING s = true /\ LOG_SKIPPED_PACKETS s = true /\ PROXY_LOGGING s = false
  | ReceivedLine h _ _ x => ENABLE_UDP_LOGGING s = true /\ PROXY_LOGGING s = false /\
      (h = None <-> ENABLE_HOST_LOGGING s = false) /\ (x = None <-> ENABLE_BYTES_TO_HEX_LOGGING s = false)
  | SentLine h n _ x => announced s n /\
      (h = None <-> ENABLE_HOST_LOGGING s = false) /\ (x = None <-> ENABLE_BYTES_TO_HEX_LOGGING s = false)
  | AckingLine _ => LOG_VERBOSE s = true /\ DISABLE_SPAMMERS s = false
  | HandlingLine _ => LOG_VERBOSE hs = true /\ (UDP_SPAMMERS hs = [] \/ DISABLE_SPAMMERS hs = false)
  | _ => True
  end.

(** Why a datagram was dropped, and the line that says so. *)
Inductive reason (d : tdict) (allowed wanted : string -> Prop) (buf : bytes) : logline -> Prop :=
| why_unknown plain trailer ids six h rest f n : unwrapped buf plain trailer ids ->
    plain = six ++ h ++ rest -> zlen six = 6 -> wire_number f n h -> codable f n ->
    get_template_by_pair d (Some f) n = None ->
    reason d allowed wanted buf (UnknownLine (firstn 6 (h ++ rest)))
| why_banned t : carries d buf t -> ~ allowed (t_name t) -> reason d allowed wanted buf (BannedInLine (t_name t))
| why_unwanted t : carries d buf t -> allowed (t_name t) -> ~ wanted (t_name t) ->
    reason d allowed wanted buf (SkippedLine (t_name t))
| why_cut t body plain trailer ids w : body_of d buf t body -> allowed (t_name t) -> wanted (t_name t) ->
    blocks_cut (t_blocks t) body -> unwrapped buf plain trailer ids -> zlen (plain ++ trailer) < w ->
    reason d allowed wanted buf (ShortLine w (zlen (plain ++ trailer)) (t_name t)).

(** What subscribers are called with, in order: a raising one ends it. *)
Inductive notified (cb : sub -> message -> option exn) (m : message) : list sub -> list entry -> Prop :=
| nt_done : notified cb m [] []
| nt_raises x l e : cb x m = Some e -> notified cb m (x :: l) [Call x m; Line EventErrorLine]
| nt_called x l t : cb x m = None -> notified cb m l t -> notified cb m (x :: l) (Call x m :: t).
(** Handing [m] to the subscribers [l] of its name, announced if switched on. *)
Definition delivered (s hs : settings) (cb : sub -> message -> option exn) (m : message) (l : list sub) (t : list entry) : Prop :=
  match l with
  | [] => t = []
  | _ => exists t', notified cb m l t' /\
      ((switched_on s hs (HandlingLine (m_name m)) /\ t = Line (HandlingLine (m_name m)) :: t') \/
       (~ switched_on s hs (HandlingLine (m_name m)) /\ t = t'))
  end.
Definition subscribers (st : dstate) (name : string) : list sub :=
  match sget name (s_handler st) with Some l => l | None => [] end.
