(** Vocabulary for the statements about capabilities and the event queue. *)
From Coq Require Import Ascii.
From Verif Require Export EventQueue Caps.

(** ** Capabilities *)

(** [t] is [s] up to the first ';'. *)
Definition up_to_semicolon (s t : string) : Prop :=
  ~ In ";"%char (list_ascii_of_string t) /\
  (s = t \/ exists rest, s = append t (String ";"%char rest)).

(** The body looks like an LLSD document: an XML declaration with one white
    space character where [\s] is written and any character but a newline for
    each [.], then <llsd>, and </llsd> later on the same line. *)
Definition looks_like_llsd (s : bytes) : Prop :=
  exists w1 d w2 inside rest,
    s = bytes_of_string "<?xml" ++ [w1] ++ bytes_of_string "version=""1" ++ [d] ++
        bytes_of_string "0""" ++ [w2] ++ bytes_of_string "?><llsd>" ++ inside ++
        bytes_of_string "</llsd>" ++ rest /\
    is_space w1 = true /\ is_space w2 = true /\ d <> x0a /\ ~ In x0a inside.

(** Deserializing a body, in words: a string holding a document whose value is
    not equal to False; None for anything that is not a string. *)
Definition body_value (parse : bytes -> parse_result) (b : body) (v : llsd) : Prop :=
  match b with
  | BStr s => parse s = ParseOk v /\ equals_false v = false
  | BOther => v = LUndef
  end.

(** The headers of a POST: those given, over a Content-type. *)
Definition posted_headers (custom : list (string * string)) : list (string * string) :=
  ("Content-type"%string, match sget "Content-type"%string custom with Some v => v | None => "application/llsd+xml"%string end) ::
  filter (fun '(k, _) => negb (String.eqb k "Content-type")) custom.

(** What POST accepts as the Content-Type of a response with body [b]. *)
Definition post_acceptable (ct : string) (b : body) : Prop :=
  up_to_semicolon ct "application/llsd+xml"%string \/ up_to_semicolon ct "application/xml"%string \/
  (up_to_semicolon ct "text/html"%string /\ exists s, b = BStr s /\ looks_like_llsd s).

(** ** Event queue *)

(** The latest response received in a sequence of poll outcomes. *)
Fixpoint latest (outs : list post_outcome) : option llsd :=
  match outs with
  | [] => None
  | o :: rest =>
      match latest rest with
      | Some v => Some v
      | None => match o with PostOk v => Some v | PostErr _ => None end
      end
  end.
Definition nothing_received (outs : list post_outcome) : Prop :=
  latest outs = None \/ latest outs = Some LUndef.
Definition id_of (v id : llsd) : Prop := exists m, v = LMap m /\ sget "id"%string m = Some id.

(** The id to acknowledge after these poll outcomes (-1: none). *)
Inductive ack_id : list post_outcome -> llsd -> Prop :=
| ack_start : ack_id [] (LInt (-1))
| ack_nothing outs o : nothing_received (outs ++ [o]) -> ack_id (outs ++ [o]) (LInt (-1))
| ack_response outs o v id : latest (outs ++ [o]) = Some v -> id_of v id -> ack_id (outs ++ [o]) id
| ack_no_id outs o v id : latest (outs ++ [o]) = Some v -> v <> LUndef -> (~ exists i, id_of v i) ->
    ack_id outs id -> ack_id (outs ++ [o]) id.

(** What is posted when [id] is to be acknowledged. *)
Definition poll_payload (id : llsd) : llsd :=
  if equals_minus1 id then LMap [] else LMap [("ack"%string, id)].
Definition closing_payload (id : llsd) : llsd :=
  LMap [("ack"%string, id); ("done"%string, LBool true)].

(** The polls that begin: up to and including the first during which stop() is
    called. *)
Fixpoint begun (polls : list poll) : list poll :=
  match polls with
  | [] => []
  | p :: rest => p :: if p_stop p then [] else begun rest
  end.
Definition is_stopped (polls : list poll) : bool := existsb p_stop polls.

(** Messages handed over in order, up to and including the first whose
    subscriber raises. *)
Fixpoint until_raise (raises : eqmessage -> bool) (l : list eqmessage) : list eqmessage :=
  match l with
  | [] => []
  | m :: rest => m :: (if raises m then [] else until_raise raises rest)
  end.
(** The messages delivered because of a response [v]: those it decodes to,
    with its own id, handed over until a subscriber raises. *)
Definition messages_of (known : string -> bool) (raises : eqmessage -> bool) (v : llsd)
  : list eqmessage :=
  match v with
  | LMap m => match sget "id"%string m with
              | Some id => match decode_eq_result known id v with
                           | Ok l => until_raise raises l
                           | Err _ => []
                           end
              | None => []
              end
  | _ => []
  end.

(** What a run of polls with these outcomes delivers: after each poll, the
    messages of the latest response so far. *)
Definition delivered (known : string -> bool) (raises : eqmessage -> bool) (outs : list post_outcome)
  : list eqmessage :=
  List.concat (map (fun k => match latest (firstn (S k) outs) with
                             | Some v => messages_of known raises v
                             | None => []
                             end) (seq 0 (List.length outs))).
(** What exactly-once delivery would be: the messages of each response. *)
Definition all_messages (known : string -> bool) (raises : eqmessage -> bool) (outs : list post_outcome)
  : list eqmessage :=
  List.concat (map (fun o => match o with PostOk v => messages_of known raises v | PostErr _ => [] end) outs).
(** No poll fails while the latest response has messages to deliver. *)
Definition no_redelivery (known : string -> bool) (raises : eqmessage -> bool) (outs : list post_outcome)
  : Prop :=
  forall before e rest, outs = before ++ PostErr e :: rest ->
    match latest before with Some v => messages_of known raises v = [] | None => True end.

(** A Python value: dictionaries have distinct keys. *)
Inductive proper : llsd -> Prop :=
| proper_map m : NoDup (map fst m) -> Forall (fun p => proper (snd p)) m -> proper (LMap m)
| proper_list l : Forall proper l -> proper (LArr l)
| proper_atom v : (forall m, v <> LMap m) -> (forall l, v <> LArr l) -> proper v.

(** [v] can be read as the dictionary with these entries: it is that
    dictionary, or it is another empty container and there are none. *)
Definition entries (v : llsd) (es : list (string * llsd)) : Prop :=
  v = LMap es \/ (es = [] /\ (v = LArr [] \/ v = LStr "" \/ v = LBin [])).
(** Iterating over [v] gives these values. *)
Definition elements (v : llsd) (l : list llsd) : Prop := iterate v = Ok l.

(** The event: a map with that message name and that body. *)
Definition event_with (ev name body : llsd) : Prop :=
  exists m, ev = LMap m /\ sget "message"%string m = Some name /\ sget "body"%string m = Some body.

(** The body as blocks: block name -> instances, each variable -> value. *)
Notation ebody := (list (string * list (list (string * llsd)))).
Definition block_of (p : string * llsd) (q : string * list (list (string * llsd))) : Prop :=
  fst p = fst q /\ exists l, elements (snd p) l /\ Forall2 entries l (snd q).
Definition body_of (body : llsd) (b : ebody) : Prop :=
  exists es, entries body es /\ Forall2 block_of es b.

(** The blocks of the message: the body's, in order, each with its variables;
    a name without instances gives no entry. *)
Definition as_block (name : string) (vars : list (string * llsd)) : eqblock :=
  {| qb_name := name; qb_vars := map (fun '(k, v) => (LStr k, v)) vars |}.
Definition body_blocks (b : ebody) : list (string * list eqblock) :=
  filter (fun '(_, l) => negb (Nat.eqb (List.length l) 0))
         (map (fun '(n, insts) => (n, map (as_block n) insts)) b).

(** A message name the template does not have. *)
Definition unknown_name (known : string -> bool) (name : llsd) : Prop :=
  match name with
  | LStr s => known s = false
  | LArr _ | LMap _ => False
  | _ => True
  end.

(** [ev] asks for the message [m], with [id] as the queue's id. *)
Inductive event_message (known : string -> bool) (id : llsd) (ev : llsd) (m : eqmessage) : Prop :=
| event_known name body b : event_with ev (LStr name) body -> known name = true -> body_of body b ->
    m = {| q_name := LStr name; q_id := id; q_blocks := body_blocks b |} ->
    event_message known id ev m
| event_unknown name body vars : event_with ev name body -> unknown_name known name -> entries body vars ->
    m = {| q_name := name; q_id := id;
           q_blocks := [("Message_Data"%string, [as_block "Message_Data" vars])] |} ->
    event_message known id ev m.

(** The entries of a response: every one but 'id' holds events. *)
Inductive entries_messages (known : string -> bool) (id : llsd) :
  list (string * llsd) -> list eqmessage -> Prop :=
| em_nil : entries_messages known id [] []
| em_id v rest ms : entries_messages known id rest ms ->
    entries_messages known id (("id"%string, v) :: rest) ms
| em_events k v evs rest ms ms' : k <> "id"%string -> elements v evs ->
    Forall2 (event_message known id) evs ms ->
    entries_messages known id rest ms' ->
    entries_messages known id ((k, v) :: rest) (ms ++ ms').
