(** Theorems about event_queue.py and caps.py: C38-C44. *)
From Verif Require Import Lib SpecWeb WebProofs.

(** ** C38 *)

(** The id to acknowledge is determined by the outcomes so far. *)
Theorem C38_ack_unique : forall outs i j, ack_id outs i -> ack_id outs j -> i = j.
Proof. exact ack_id_fun. Qed.
Print Assumptions C38_ack_unique.

(** The k-th poll acknowledges what the first k outcomes ask for; one closing
    post follows iff the queue was stopped with an id other than -1. *)
Theorem C38_posts : forall known raises polls closing st log r,
  eq_start known raises "EventQueueGet" polls closing eq_init = (st, log, r) ->
  let outs := map p_out (begun polls) in
  exists ids id,
    List.length ids = List.length outs /\
    (forall k i, nth_error ids k = Some i -> ack_id (firstn k outs) i) /\
    ack_id outs id /\
    l_posts log = map poll_payload ids ++
      (if is_stopped polls && negb (equals_minus1 id) then [closing_payload id] else []).
Proof.
  intros known raises polls closing st log r H outs.
  destruct (start_region known raises polls closing st log r H) as (ids & id & L & I & A & P & _). eauto 6.
Qed.
Print Assumptions C38_posts.

(** What counts as -1: the integer and the floating-point number. *)
Theorem C38_minus_one v :
  equals_minus1 v = true <-> v = LInt (-1) \/ v = LReal (SFopp (binary_normalize 53 1024 1 0 false)).
Proof.
  destruct v as [|b|z|f|s|s|s|l|m]; cbn [equals_minus1]; try (split; [discriminate|intros [E|E]; discriminate E]).
  - rewrite Z.eqb_eq. split; [intros ->; auto|intros [[= ->]|E]; [reflexivity|discriminate E]].
  - change (SFopp (binary_normalize 53 1024 1 0 false)) with (S754_finite true 4503599627370496 (-52)).
    split; [|intros [E|E]; [discriminate E|injection E as ->; reflexivity]].
    intros E. right. f_equal. unfold SFeqb, SFcompare in E. destruct f as [sg|sg| |sg m e]; try destruct sg; try discriminate.
    destruct (e ?= -52) eqn:C; try discriminate. apply Z.compare_eq in C as ->.
    destruct (Pos.compare_cont Eq m 4503599627370496) eqn:P; try discriminate. apply Pos.compare_eq in P as ->. reflexivity.
Qed.
Print Assumptions C38_minus_one.

Definition resp (id : Z) (events : list llsd) : llsd :=
  LMap [("id"%string, LInt id); ("events"%string, LArr events)].
Definition ev (name : string) (body : llsd) : llsd :=
  LMap [("message"%string, LStr name); ("body"%string, body)].
Definition chat (z : Z) : llsd :=
  ev "Chat" (LMap [("Data"%string, LArr [LMap [("X"%string, LInt z)]])]).
Definition knows (s : string) : bool := String.eqb s "Chat".
Definition calm (m : eqmessage) : bool := false.
Definition polls3 (stop : bool) : list poll :=
  [{| p_out := PostOk (resp 5 [chat 1]); p_stop := false |};
   {| p_out := PostErr ValueErr; p_stop := false |};
   {| p_out := PostOk (resp 6 [chat 2; chat 3]); p_stop := stop |}].

Example C38_case : exists st log,
  eq_start knows calm "EventQueueGet" (polls3 true) (PostOk LUndef) eq_init = (st, log, Some true) /\
  l_posts log = [LMap []; LMap [("ack"%string, LInt 5)]; LMap [("ack"%string, LInt 5)];
                 LMap [("ack"%string, LInt 6); ("done"%string, LBool true)]].
Proof. eexists. eexists. split; reflexivity. Qed.

(** ** C39 *)

(** After each poll, the messages of the latest response are delivered ... *)
Theorem C39_delivery : forall known raises polls closing st log r,
  eq_start known raises "EventQueueGet" polls closing eq_init = (st, log, r) ->
  l_delivered log = delivered known raises (map p_out (begun polls)).
Proof.
  intros known raises polls closing st log r H.
  destruct (start_region known raises polls closing st log r H) as (ids & id & _ & _ & _ & _ & D & _). exact D.
Qed.
Print Assumptions C39_delivery.

(** ... which is each response's messages once, iff no poll fails while the
    latest response has messages; otherwise it is strictly more. *)
Theorem C39_exactly_once_iff : forall known raises outs,
  (delivered known raises outs = all_messages known raises outs <-> no_redelivery known raises outs) /\
  (~ no_redelivery known raises outs ->
   (List.length (all_messages known raises outs) < List.length (delivered known raises outs))%nat).
Proof.
  intros known raises outs. destruct (delivered_longer known raises outs) as (L & I & E). split; [split|].
  - intros H. apply I. now rewrite H.
  - exact E.
  - intros N. assert (List.length (delivered known raises outs) <> List.length (all_messages known raises outs)) by tauto.
    lia.
Qed.
Print Assumptions C39_exactly_once_iff.

(** If every poll succeeds: each response's messages, in order. *)
Theorem C39_successful_polls : forall known raises vs,
  delivered known raises (map PostOk vs) = List.concat (map (messages_of known raises) vs).
Proof.
  intros known raises vs. destruct (delivered_longer known raises (map PostOk vs)) as (_ & _ & E).
  rewrite E.
  - unfold all_messages. now rewrite map_map.
  - intros before e rest H. exfalso. clear -H.
    assert (In (PostErr e) (map PostOk vs)) as I by (rewrite H; apply in_or_app; right; now left).
    apply in_map_iff in I as (v & [=] & _).
Qed.
Print Assumptions C39_successful_polls.

(** Exactly-once delivery is refuted: the failed second poll delivers message 1
    again. *)
Definition chat_message (id z : Z) : eqmessage :=
  {| q_name := LStr "Chat"; q_id := LInt id;
     q_blocks := [("Data"%string, [{| qb_name := "Data"; qb_vars := [(LStr "X", LInt z)] |}])] |}.
Example C39_case_redelivered :
  delivered knows calm (map p_out (polls3 true)) =
    [chat_message 5 1; chat_message 5 1; chat_message 6 2; chat_message 6 3] /\
  all_messages knows calm (map p_out (polls3 true)) =
    [chat_message 5 1; chat_message 6 2; chat_message 6 3] /\
  ~ no_redelivery knows calm (map p_out (polls3 true)).
Proof.
  split; [reflexivity|]. split; [reflexivity|]. intros H.
  specialize (H [PostOk (resp 5 [chat 1])] ValueErr [PostOk (resp 6 [chat 2; chat 3])] eq_refl). discriminate.
Qed.

(** ** C40 *)

(** What comes after the poll in progress when stop() is called has no effect:
    no poll begins, nothing is delivered. *)
Theorem C40_no_poll_after_stop : forall known raises before p rest closing st,
  p_stop p = true ->
  eq_start known raises "EventQueueGet" (before ++ p :: rest) closing st =
  eq_start known raises "EventQueueGet" (before ++ [p]) closing st.
Proof.
  intros known raises before p rest closing st PS. unfold eq_start.
  change (String.eqb "EventQueueGet" "event_queue") with false. cbn iota.
  now rewrite loop_stops.
Qed.
Print Assumptions C40_no_poll_after_stop.

(** How start() ends: not at all until stop() is called; then the running flag
    is False and the result True iff the closing post is not needed or
    succeeds, and otherwise the flag stays True and the result is False. *)
Theorem C40_end : forall known raises polls closing st log r id,
  eq_start known raises "EventQueueGet" polls closing eq_init = (st, log, r) ->
  ack_id (map p_out (begun polls)) id ->
  let ended := equals_minus1 id = true \/ exists v, closing = PostOk v in
  (r = None <-> is_stopped polls = false) /\
  (r = Some true <-> is_stopped polls = true /\ ended) /\
  (r = Some false <-> is_stopped polls = true /\ ~ ended) /\
  (eq_running st = false <-> is_stopped polls = true /\ ended) /\
  (eq_stopped st = is_stopped polls).
Proof.
  intros known raises polls closing st log r id H A ended.
  destruct (start_region known raises polls closing st log r H) as (ids & id' & _ & _ & A' & _ & _ & S & R & RR).
  rewrite (ack_id_fun _ _ _ A' A) in R, RR. subst r ended.
  assert (equals_minus1 id || match closing with PostOk _ => true | PostErr _ => false end = true <->
          equals_minus1 id = true \/ exists v, closing = PostOk v) as E.
  { destruct closing; rewrite orb_true_iff; split; intros [X|X]; eauto; try discriminate.
    destruct X; discriminate. }
  destruct (equals_minus1 id || match closing with PostOk _ => true | PostErr _ => false end), (is_stopped polls);
    cbn in R; rewrite ?R, S; repeat split; try tauto; try discriminate; intuition congruence.
Qed.
Print Assumptions C40_end.

(** Any other capability: 'event_queue' always fails (True only if already
    stopped, and the running flag stays True); an unknown one does nothing. *)
Theorem C40_other_capability : forall known raises name polls closing st,
  name <> "EventQueueGet"%string ->
  let '(st', log, r) := eq_start known raises name polls closing st in
  l_posts log = [] /\ l_delivered log = [] /\
  (name <> "event_queue"%string -> st' = st /\ r = Some false) /\
  (name = "event_queue"%string -> eq_stopped st = false -> eq_running st' = true /\ r = Some false) /\
  (name = "event_queue"%string -> eq_stopped st = true -> eq_running st' = false /\ r = Some true).
Proof.
  intros known raises name polls closing st N. unfold eq_start.
  destruct (String.eqb_spec name "event_queue") as [->|N'].
  - cbn [set_running eq_stopped]. destruct (eq_stopped st); repeat split; intros; congruence.
  - destruct (String.eqb_spec name "EventQueueGet") as [->|_]; [congruence|]. repeat split; intros; congruence.
Qed.
Print Assumptions C40_other_capability.

(** stop() before start(), and start() again after stop(): no poll; the closing
    post is made (again) if there is an id. *)
Theorem C40_start_when_stopped : forall known raises polls closing st,
  let '(st', log, r) := eq_start known raises "EventQueueGet" polls closing (eq_stop st) in
  l_delivered log = [] /\ eq_last st' = eq_last st /\
  l_posts log = if equals_minus1 (eq_last st) then [] else [closing_payload (eq_last st)].
Proof.
  intros known raises polls closing st. unfold eq_start.
  change (String.eqb "EventQueueGet" "event_queue") with false. cbn iota.
  destruct polls; cbn; destruct (equals_minus1 (eq_last st)); try (repeat split; reflexivity);
    destruct closing; repeat split; reflexivity.
Qed.
Print Assumptions C40_start_when_stopped.

Example C40_case : 
  fst (eq_start knows calm "EventQueueGet" (polls3 true ++ polls3 false) (PostErr KeyErr) eq_init) =
  fst (eq_start knows calm "EventQueueGet" (polls3 true) (PostErr KeyErr) eq_init) /\
  snd (eq_start knows calm "EventQueueGet" (polls3 true) (PostErr KeyErr) eq_init) = Some false /\
  eq_running (fst (fst (eq_start knows calm "EventQueueGet" (polls3 true) (PostErr KeyErr) eq_init))) = true.
Proof. repeat split; reflexivity. Qed.

(** ** C41 *)

(** A response decodes to these messages iff it is a map and either has no
    'events' or its entries hold events asking for exactly these. *)
Theorem C41_decode : forall known id data ms, proper data ->
  (decode_eq_result known id data = Ok ms <->
   exists m, data = LMap m /\
     if in_dec string_dec "events"%string (map fst m) then entries_messages known id m ms else ms = []).
Proof. exact decode_iff. Qed.
Print Assumptions C41_decode.

(** Delivered with the response's id: all of them, unless a subscriber raises;
    nothing at all if any event is malformed. *)
Lemma messages_decoded known raises m id ms :
  sget "id"%string m = Some id -> proper (LMap m) -> In "events"%string (map fst m) ->
  entries_messages known id m ms -> messages_of known raises (LMap m) = until_raise raises ms.
Proof.
  intros I P E H. unfold messages_of. rewrite I.
  assert (decode_eq_result known id (LMap m) = Ok ms) as ->; [|reflexivity].
  apply decode_iff; [exact P|]. exists m. split; [reflexivity|].
  destruct (in_dec string_dec "events"%string (map fst m)); [exact H|contradiction].
Qed.
Theorem C41_delivered : forall known raises m id ms,
  sget "id"%string m = Some id -> proper (LMap m) -> In "events"%string (map fst m) ->
  entries_messages known id m ms -> (forall x, In x ms -> raises x = false) ->
  messages_of known raises (LMap m) = ms.
Proof.
  intros known raises m id ms I P E H Q. rewrite (messages_decoded known raises m id ms I P E H).
  clear H. induction ms as [|x ms IH]; [reflexivity|]. cbn. rewrite (Q x (or_introl eq_refl)).
  f_equal. apply IH. intros y Y. apply Q. now right.
Qed.
Print Assumptions C41_delivered.
(** A subscriber that raises costs the rest of the response. *)
Theorem C41_delivered_until_raise : forall known raises m id before x after,
  sget "id"%string m = Some id -> proper (LMap m) -> In "events"%string (map fst m) ->
  entries_messages known id m (before ++ x :: after) ->
  (forall y, In y before -> raises y = false) -> raises x = true ->
  messages_of known raises (LMap m) = before ++ [x].
Proof.
  intros known raises m id before x after I P E H Q R. rewrite (messages_decoded known raises m id _ I P E H).
  clear H. induction before as [|y l IH]; cbn [app until_raise]; [now rewrite R|]. rewrite (Q y (or_introl eq_refl)).
  f_equal. apply IH. intros z Z. apply Q. now right.
Qed.
Print Assumptions C41_delivered_until_raise.

Theorem C41_malformed_loses_all : forall known raises m id,
  sget "id"%string m = Some id -> proper (LMap m) -> In "events"%string (map fst m) ->
  (~ exists ms, entries_messages known id m ms) ->
  messages_of known raises (LMap m) = [].
Proof.
  intros known raises m id I P E H. unfold messages_of. rewrite I.
  destruct (decode_eq_result known id (LMap m)) as [ms|] eqn:D; [|reflexivity].
  exfalso. apply H. exists ms. apply decode_iff in D as (m' & [= <-] & D); [|exact P].
  now destruct (in_dec string_dec "events"%string (map fst m)).
Qed.
Print Assumptions C41_malformed_loses_all.

Definition mixed : llsd := resp 9
  [chat 1; ev "Other" (LMap [("A"%string, LInt 1); ("B"%string, LStr "x")])].
Lemma mixed_proper : proper mixed.
Proof.
  assert (forall z, proper (LInt z)) as PI by (intros; apply proper_atom; discriminate).
  assert (forall s, proper (LStr s)) as PS by (intros; apply proper_atom; discriminate).
  unfold mixed, resp, ev, chat.
  repeat first [apply PI | apply PS | apply proper_map | apply proper_list | apply Forall_cons | apply Forall_nil
               | (apply NoDup_cons; [cbn; intuition congruence|]) | apply NoDup_nil | cbn [snd map fst]].
Qed.
Example C41_case : exists ms, messages_of knows calm mixed = ms /\
  ms = [chat_message 9 1;
        {| q_name := LStr "Other"; q_id := LInt 9;
           q_blocks := [("Message_Data"%string,
             [{| qb_name := "Message_Data"; qb_vars := [(LStr "A", LInt 1); (LStr "B", LStr "x")] |}])] |}] /\
  decode_eq_result knows (LInt 9) mixed = Ok ms /\ proper mixed.
Proof. eexists. split; [reflexivity|]. split; [reflexivity|]. split; [reflexivity|exact mixed_proper]. Qed.
Example C41_case_malformed :
  messages_of knows calm (resp 9 [chat 1; ev "Chat" (LInt 3)]) = [].
Proof. reflexivity. Qed.

(** ** C42 *)

Theorem C42_GET_ok : forall parse net c headers v,
  cap_GET parse net c headers = Ok v <->
  exists ct b, net (ReqGet (cap_url c)) = Response (Some ct) b /\
    up_to_semicolon ct "application/llsd+xml" /\ body_value parse b v.
Proof. exact GET_ok. Qed.
Print Assumptions C42_GET_ok.

Theorem C42_GET_errors : forall parse net c headers,
  (net (ReqGet (cap_url c)) = HttpError 404 ->
   cap_GET parse net c headers = Err (ResourceNotFoundErr (cap_url c))) /\
  (forall code, code <> 404 -> net (ReqGet (cap_url c)) = HttpError code ->
   cap_GET parse net c headers = Err (ResourceErr (cap_url c) code "GET")) /\
  (forall ct t b, net (ReqGet (cap_url c)) = Response (Some ct) b -> up_to_semicolon ct t ->
   t <> "application/llsd+xml"%string ->
   cap_GET parse net c headers = Err (DeserializerNotFoundErr t)).
Proof.
  intros parse net c headers. unfold cap_GET. split; [|split].
  - intros ->. reflexivity.
  - intros code N ->. unfold http_error. destruct (Z.eqb_spec code 404); [contradiction|reflexivity].
  - intros ct t b -> U N. apply up_to_semicolon_iff in U. rewrite U.
    destruct (String.eqb_spec t "application/llsd+xml"); [contradiction|reflexivity].
Qed.
Print Assumptions C42_GET_errors.

(** Custom headers have no effect on GET, which depends on one request only. *)
Theorem C42_GET_ignores_headers : forall parse net net' c headers headers',
  net (ReqGet (cap_url c)) = net' (ReqGet (cap_url c)) ->
  cap_GET parse net c headers = cap_GET parse net' c headers'.
Proof. intros parse net net' c h h' E. unfold cap_GET. now rewrite E. Qed.
Print Assumptions C42_GET_ignores_headers.

(** POST: a list or dict, formatted and sent with the custom headers over
    Content-type, answered with an acceptable content type. *)
Theorem C42_POST_ok : forall parse format net c payload custom v, NoDup (map fst custom) ->
  let h := posted_headers custom in
  (cap_POST parse format net c payload custom = Ok v <->
   ((exists l, payload = LArr l) \/ (exists m, payload = LMap m)) /\
   exists data ct b, format payload = Ok data /\
     net (ReqPost (cap_url c) data h) = Response (Some ct) b /\
     post_acceptable ct b /\ body_value parse b v).
Proof.
  intros parse format net c payload custom v N.
  cbv zeta. rewrite <- posted_headers_is by exact N. apply POST_ok.
Qed.
Print Assumptions C42_POST_ok.

Theorem C42_POST_errors : forall parse format net c payload custom data h, NoDup (map fst custom) ->
  ((exists l, payload = LArr l) \/ (exists m, payload = LMap m)) -> format payload = Ok data ->
  h = posted_headers custom ->
  (net (ReqPost (cap_url c) data h) = HttpError 404 ->
   cap_POST parse format net c payload custom = Err (ResourceNotFoundErr (cap_url c))) /\
  (forall code, code <> 404 -> net (ReqPost (cap_url c) data h) = HttpError code ->
   cap_POST parse format net c payload custom = Err (ResourceErr (cap_url c) code "POST")) /\
  (forall ct t s, net (ReqPost (cap_url c) data h) = Response (Some ct) (BStr s) -> up_to_semicolon ct t ->
   ~ post_acceptable ct (BStr s) ->
   cap_POST parse format net c payload custom = Err (DeserializerNotFoundErr t)).
Proof.
  intros parse format net c payload custom data h N P F ->. rewrite <- posted_headers_is by exact N.
  assert (cap_POST parse format net c payload custom =
          post_raw parse net c (update_headers [("Content-type", "application/llsd+xml")%string] custom) data) as E.
  { unfold cap_POST. destruct P as [(l & ->)|(m & ->)]; rewrite F; reflexivity. }
  rewrite E. unfold post_raw. split; [|split].
  - intros ->. reflexivity.
  - intros code NE ->. unfold http_error. destruct (Z.eqb_spec code 404); [contradiction|reflexivity].
  - intros ct t s -> U NA. pose proof (llsd_looking s) as L. unfold response_handler.
    apply up_to_semicolon_iff in U. unfold post_acceptable in NA. rewrite !up_to_semicolon_iff in NA. rewrite U in *.
    destruct (String.eqb_spec t "application/llsd+xml"); [exfalso; tauto|].
    destruct (String.eqb_spec t "application/xml"); [exfalso; tauto|]. cbn [orb].
    destruct (String.eqb_spec t "text/html").
    + destruct (re_match llsd_re s); [|reflexivity]. exfalso. apply NA. right. right. split; [assumption|].
      exists s. split; [reflexivity|]. apply L. discriminate.
    + reflexivity.
Qed.
Print Assumptions C42_POST_errors.

(** Anything else is refused before any request: the network does not matter. *)
Theorem C42_POST_lists_and_dicts_only : forall parse format net c payload custom,
  (forall l, payload <> LArr l) -> (forall m, payload <> LMap m) ->
  cap_POST parse format net c payload custom = Err (DeserializerNotFoundErr "").
Proof.
  intros parse format net c payload custom NL NM. destruct payload; try reflexivity.
  - exfalso. now apply (NL l).
  - exfalso. now apply (NM m).
Qed.
Print Assumptions C42_POST_lists_and_dicts_only.

Definition sample_parse (s : bytes) : parse_result := ParseOk (LInt (zlen s)).
Definition sample_cap := {| cap_name := "EventQueueGet"; cap_url := "http://x/"; cap_client := 3 |}.
Definition sample_format (v : llsd) : res bytes := Ok (bytes_of_string "<llsd/>").
Definition doc := bytes_of_string "<?xml version=""1.0"" ?><llsd><map /></llsd>".
Definition answers (ct : string) (r : request) : http_result :=
  match r with
  | ReqPost _ _ h => match sget "Content-type"%string h with
                     | Some t => if String.eqb t "x/y" then Response (Some ct) (BStr doc) else HttpError 415
                     | None => HttpError 400 end
  | ReqGet _ => HttpError 404
  end.
Example C42_case_post :
  cap_POST sample_parse sample_format (answers "text/html; charset=utf8") sample_cap (LMap [])
    [("Content-type", "x/y")%string] = Ok (LInt (zlen doc)).
Proof. reflexivity. Qed.
Example C42_case_html : looks_like_llsd doc /\ up_to_semicolon "text/html; charset=utf8" "text/html".
Proof. split; [apply llsd_looking; discriminate|apply up_to_semicolon_iff; reflexivity]. Qed.
Example C42_case_refused :
  cap_POST sample_parse sample_format (answers "text/plain") sample_cap (LMap [])
    [("Content-type", "x/y")%string] = Err (DeserializerNotFoundErr "text/plain") /\
  cap_GET sample_parse (answers "") sample_cap [] = Err (ResourceNotFoundErr "http://x/").
Proof. split; reflexivity. Qed.

(** ** C43 *)

(** A result has exactly the requested names, each with its own name, the URL
    the server gives, and the seed's client. *)
Theorem C43_seed_exact : forall parse format net c names out,
  seed_get parse format net c names = Ok out ->
  exists r parsed,
  cap_POST parse format net c (LMap [("capabilities"%string, LArr (map LStr names))]) [] = Ok (LMap r) /\
  sget "capabilities"%string r = Some parsed /\
  NoDup (map fst out) /\
  forall n,
    (In n names -> exists m u, parsed = LMap m /\ sget n m = Some u /\
       sget n out = Some {| nc_name := n; nc_url := u; nc_client := cap_client c |}) /\
    (~ In n names -> sget n out = None).
Proof.
  intros parse format net c names out H. unfold seed_get in H.
  destruct (cap_POST parse format net c (LMap [("capabilities"%string, LArr (map LStr names))]) []) as [r|e];
    [|discriminate]. cbn [bind] in H.
  destruct r as [|x|z|f|s|u|y|l|m]; cbn [getitem bind] in H; try discriminate.
  destruct (sget "capabilities"%string m) as [parsed|] eqn:G; cbn [bind] in H; [|discriminate].
  exists m, parsed. split; [reflexivity|]. split; [exact G|]. now apply seed_fold_iff.
Qed.
Print Assumptions C43_seed_exact.

(** It succeeds if the response has every requested name, and raises KeyError
    if one is missing. *)
Theorem C43_seed_all_or_KeyError : forall parse format net c names r m,
  cap_POST parse format net c (LMap [("capabilities"%string, LArr (map LStr names))]) [] = Ok (LMap r) ->
  sget "capabilities"%string r = Some (LMap m) ->
  ((forall n, In n names -> In n (map fst m)) -> exists out, seed_get parse format net c names = Ok out) /\
  ((exists n, In n names /\ ~ In n (map fst m)) -> seed_get parse format net c names = Err KeyErr).
Proof.
  intros parse format net c names r m P G. unfold seed_get. rewrite P. cbn [bind getitem]. rewrite G. cbn [bind]. split.
  - intros A. destruct (seed_all (cap_client c) m names) with (acc := @nil (string * newcap)) as (out & E & _).
    + intros n I E. apply (dget_None _ string_eqb_spec) in E. apply E. now apply A.
    + constructor.
    + eauto.
  - intros (n & I & N). apply seed_missing. exists n. split; [exact I|].
    now apply (dget_None _ string_eqb_spec).
Qed.
Print Assumptions C43_seed_all_or_KeyError.

Definition seed_parse (s : bytes) : parse_result :=
  ParseOk (LMap [("capabilities"%string, LMap [("A"%string, LStr "u1"); ("B"%string, LStr "u2"); ("C"%string, LStr "u3")])]).
Definition seed_net (r : request) : http_result := Response (Some "application/xml"%string) (BStr []).
Example C43_case :
  seed_get seed_parse sample_format seed_net sample_cap ["B"%string; "A"%string; "B"%string] =
    Ok [("B"%string, {| nc_name := "B"; nc_url := LStr "u2"; nc_client := 3 |});
        ("A"%string, {| nc_name := "A"; nc_url := LStr "u1"; nc_client := 3 |})] /\
  seed_get seed_parse sample_format seed_net sample_cap ["A"%string; "D"%string] = Err KeyErr.
Proof. split; reflexivity. Qed.

(** ** C44 *)

Theorem C44_deserialize_string : forall parse s,
  deserialize_string parse s =
  match parse s with
  | ParseOk (LBool false) | ParseOk (LInt 0) | ParseOk (LReal (S754_zero _)) => Err DeserializationFailedErr
  | ParseOk v => Ok v
  | ParseError => Err DeserializationFailedErr
  | ParseRaises e => Err e
  end.
Proof. exact deserialize_string_cases. Qed.
Print Assumptions C44_deserialize_string.

Theorem C44_deserialize : forall parse b v,
  (exists s, b = BStr s /\ parse s = ParseOk v /\ equals_false v = false) \/ (b = BOther /\ v = LUndef) <->
  llsd_deserialize parse b = Ok v.
Proof.
  intros parse b v. rewrite llsd_deserialize_ok. destruct b as [s|]; cbn.
  - split; [intros [(s' & [= <-] & H)|[H _]]; [exact H|discriminate]|eauto].
  - split; [intros [(s' & H & _)|[_ H]]; [discriminate|exact H]|auto].
Qed.
Print Assumptions C44_deserialize.

Example C44_case :
  deserialize_string (fun _ => ParseOk (LInt 0)) [] = Err DeserializationFailedErr /\
  deserialize_string (fun _ => ParseOk (LReal (S754_zero true))) [] = Err DeserializationFailedErr /\
  deserialize_string (fun _ => ParseOk (LStr "")) [] = Ok (LStr "") /\
  deserialize_string (fun _ => ParseOk LUndef) [] = Ok LUndef.
Proof. repeat split; reflexivity. Qed.
