(** Theorems about caps.py and event_queue.py with logging: C85-C88. *)
From Verif Require Import Lib SpecWebLogging WebProofs WebLoggingProofs.
Open Scope Z_scope.
Open Scope list_scope.

(** ** C85: capability calls with logging *)

(** A log statement whose arguments include a unicode string and a byte string
    that is not ASCII raises (UnicodeDecodeError, a ValueError); any other is
    formatted. *)
Theorem C85_formatting : forall args,
  (clash args -> format_texts args = Err ValueErr) /\ (~ clash args -> format_texts args = Ok tt).
Proof. intros args. split; [apply format_clash|apply format_fine]. Qed.
Print Assumptions C85_formatting.

(** GET: no request is made if the first line cannot be formatted.  Otherwise
    one request is made; what fails without logging fails the same way with it;
    and what succeeds without logging gives the same value unless logging the
    answer raises, which is then what the caller gets. *)
Theorem C85_GET : forall parse net uni other c headers t r,
  lcap_GET parse net uni other c = (t, r) ->
  let s := lc_settings c in
  let request := ReqGet (str_of (lc_url c)) in
  let plain := cap_GET parse net (cap_of c) headers in
  (get_unsent c -> requests t = [] /\ r = Err ValueErr) /\
  (~ get_unsent c -> requests t = [request] /\
     (forall e, plain = Err e -> r = Err e) /\
     (forall v, plain = Ok v -> exists ct b, net request = Response ct b /\
        (forall e, spoils (logs_get_body s) (ENABLE_CAPS_LOGGING s) other (lc_url c) b (shown uni v) e -> r = Err e) /\
        ((forall e, ~ spoils (logs_get_body s) (ENABLE_CAPS_LOGGING s) other (lc_url c) b (shown uni v) e) -> r = Ok v))).
Proof.
  intros parse net uni other c headers t r E s request plain.
  pose proof (lGET_cases parse net uni other c headers) as G. rewrite E in G. cbv zeta in G.
  fold plain in G. fold s in G. fold request in G. destruct G as [(U & -> & ->)|(U & R & G)].
  - split; [auto|intros N; contradiction].
  - split; [intros N; contradiction|]. intros _. split; [exact R|]. destruct plain as [v|e].
    + split; [discriminate|]. intros v' [= <-]. destruct G as (ct & b & N & G). exists ct, b. split; [exact N|].
      destruct G as [(e & S & ->)|(S & -> & _)].
      * split; [|intros H; now apply H in S]. intros e' S'. f_equal. eapply spoils_fun; eauto.
      * split; [|reflexivity]. intros e S'. now apply S in S'.
    + split; [|discriminate]. intros e' [= <-]. apply G.
Qed.
Print Assumptions C85_GET.

Lemma POST_said : forall parse format net uni other c payload custom t r,
  lcap_POST parse format net uni other c payload custom = (t, r) ->
  let s := lc_settings c in
  let plain := cap_POST parse format net (cap_of c) payload custom in
  (post_unsent format uni c payload -> requests t = [] /\ r = Err ValueErr) /\
  (~ post_unsent format uni c payload ->
     (forall e, plain = Err e -> r = Err e) /\
     (forall data, list_or_dict payload -> format payload = Ok data ->
        requests t = [ReqPost (str_of (lc_url c)) data (post_headers custom)]) /\
     ((~ list_or_dict payload \/ exists e, format payload = Err e) -> requests t = []) /\
     (forall v, plain = Ok v -> exists data ct b, list_or_dict payload /\ format payload = Ok data /\
        net (ReqPost (str_of (lc_url c)) data (post_headers custom)) = Response ct b /\
        (forall e, spoils (logs_post_body s) (ENABLE_CAPS_LOGGING s) other (lc_url c) b (shown uni v) e -> r = Err e) /\
        ((forall e, ~ spoils (logs_post_body s) (ENABLE_CAPS_LOGGING s) other (lc_url c) b (shown uni v) e) -> r = Ok v))).
Proof.
  intros parse format net uni other c payload custom t r E s plain.
  pose proof (lPOST_cases parse format net uni other c payload custom) as G. rewrite E in G. cbv zeta in G. fold s in G.
  set (first := if ENABLE_CAPS_LOGGING s then [CapLine (PostLine (lc_url c) payload)] else []) in G.
  assert (requests first = []) as RF by (unfold first; now destruct (ENABLE_CAPS_LOGGING s)). clearbody first.
  destruct G as [(U & R & ->)|(U & G)].
  - split; [auto|intros N; contradiction].
  - split; [intros N; contradiction|]. intros _. destruct G as [(N & -> & ->)|[(D & e & F & -> & ->)|(D & data & F & t' & P & ->)]].
    + unfold plain. rewrite POST_plain_no by exact N. repeat split; try tauto; try discriminate; try congruence. 
    + unfold plain. rewrite (POST_plain_err _ _ _ _ _ _ _ D F). repeat split; try tauto; try discriminate; try congruence.
    + unfold plain. rewrite (POST_plain_yes _ _ _ _ _ _ _ D F).
      pose proof (lpost_raw_cases parse net uni other c (post_headers custom) data) as Q. rewrite <- P in Q. cbv zeta in Q. fold s in Q.
      destruct Q as [RQ Q]. rewrite !requests_app, RF, RQ.
      assert (requests (if logs_payload s then [CapLine (PayloadLine (lc_url c) data)] else []) = []) as -> by (now destruct (logs_payload s)).
      cbn [app]. destruct (post_raw parse net (cap_of c) (post_headers custom) data) as [v|e].
      * split; [discriminate|]. split; [intros d _ Hd; congruence|]. split; [intros [?|[e ?]]; [contradiction|congruence]|].
        intros v' [= <-]. destruct Q as (ct & b & N & Q). exists data, ct, b. split; [exact D|]. split; [exact F|]. split; [exact N|].
        destruct Q as [(e & S & ->)|(S & -> & _)].
        -- split; [|intros H; now apply H in S]. intros e' S'. f_equal. eapply spoils_fun; eauto.
        -- split; [|reflexivity]. intros e S'. now apply S in S'.
      * split; [intros e' [= <-]; apply Q|]. split; [intros d _ Hd; congruence|]. split; [intros [?|[e' ?]]; [contradiction|congruence]|discriminate].
Qed.
(** POST: the same, with two lines before the request. *)
Theorem C85_POST : forall parse format net uni other c payload custom t r, NoDup (map fst custom) ->
  lcap_POST parse format net uni other c payload custom = (t, r) ->
  let s := lc_settings c in
  let plain := cap_POST parse format net (cap_of c) payload custom in
  (post_unsent format uni c payload -> requests t = [] /\ r = Err ValueErr) /\
  (~ post_unsent format uni c payload ->
     (forall e, plain = Err e -> r = Err e) /\
     (forall data, list_or_dict payload -> format payload = Ok data ->
        requests t = [ReqPost (str_of (lc_url c)) data (posted_headers custom)]) /\
     ((~ list_or_dict payload \/ exists e, format payload = Err e) -> requests t = []) /\
     (forall v, plain = Ok v -> exists data ct b, list_or_dict payload /\ format payload = Ok data /\
        net (ReqPost (str_of (lc_url c)) data (posted_headers custom)) = Response ct b /\
        (forall e, spoils (logs_post_body s) (ENABLE_CAPS_LOGGING s) other (lc_url c) b (shown uni v) e -> r = Err e) /\
        ((forall e, ~ spoils (logs_post_body s) (ENABLE_CAPS_LOGGING s) other (lc_url c) b (shown uni v) e) -> r = Ok v))).
Proof.
  intros parse format net uni other c payload custom t r ND E. rewrite <- posted_headers_is by exact ND. exact (POST_said _ _ _ _ _ _ _ _ _ _ E).
Qed.
Print Assumptions C85_POST.

(** POST_CUSTOM logs nothing before the request. *)
Theorem C85_POST_CUSTOM : forall parse net uni other c headers payload t r,
  lcap_POST_CUSTOM parse net uni other c headers payload = (t, r) ->
  let s := lc_settings c in
  let request := ReqPost (str_of (lc_url c)) payload headers in
  let plain := cap_POST_CUSTOM parse net (cap_of c) headers payload in
  requests t = [request] /\
  (forall e, plain = Err e -> r = Err e) /\
  (forall v, plain = Ok v -> exists ct b, net request = Response ct b /\
     (forall e, spoils (logs_post_body s) (ENABLE_CAPS_LOGGING s) other (lc_url c) b (shown uni v) e -> r = Err e) /\
     ((forall e, ~ spoils (logs_post_body s) (ENABLE_CAPS_LOGGING s) other (lc_url c) b (shown uni v) e) -> r = Ok v)).
Proof.
  intros parse net uni other c headers payload t r E s request plain. unfold lcap_POST_CUSTOM in E.
  pose proof (lpost_raw_cases parse net uni other c headers payload) as Q. rewrite E in Q. cbv zeta in Q. fold s in Q. fold request in Q.
  change (post_raw parse net (cap_of c) headers payload) with plain in Q.
  destruct Q as [RQ Q]. split; [exact RQ|]. destruct plain as [v|e].
  - split; [discriminate|]. intros v' [= <-]. destruct Q as (ct & b & N & Q). exists ct, b. split; [exact N|].
    destruct Q as [(e & S & ->)|(S & -> & _)].
    + split; [|intros H; now apply H in S]. intros e' S'. f_equal. eapply spoils_fun; eauto.
    + split; [|reflexivity]. intros e S'. now apply S in S'.
  - split; [|discriminate]. intros e' [= <-]. apply Q.
Qed.
Print Assumptions C85_POST_CUSTOM.

(** With an ASCII byte string as the URL and responses whose bodies are byte
    strings, no setting changes the outcome of any call. *)
Theorem C85_plain_url : forall parse format net uni other c,
  plain_url (lc_url c) -> (forall q ct, net q <> Response ct BOther) ->
  (forall headers, snd (lcap_GET parse net uni other c) = cap_GET parse net (cap_of c) headers) /\
  (forall payload custom, snd (lcap_POST parse format net uni other c payload custom) =
     cap_POST parse format net (cap_of c) payload custom) /\
  (forall headers payload, snd (lcap_POST_CUSTOM parse net uni other c headers payload) =
     cap_POST_CUSTOM parse net (cap_of c) headers payload).
Proof.
  intros parse format net uni other c P B.
  assert (forall a b ct bd v q, net q = Response ct bd -> forall e, ~ spoils a b other (lc_url c) bd v e) as NS.
  { intros a b ct bd v q E. apply plain_unspoiled; [exact P|]. intros _ ->. now apply B in E. }
  split; [|split].
  - intros headers. destruct (lcap_GET parse net uni other c) as [t r] eqn:E.
    destruct (C85_GET _ _ _ _ _ headers _ _ E) as [_ G]. cbv zeta in G.
    destruct G as (_ & GE & GO); [intros [_ C]; exact (proj2 (plain_no_clash _ _ P) C)|].
    cbn [snd]. destruct (cap_GET parse net (cap_of c) headers) as [v|e]; [|now apply GE].
    destruct (GO v eq_refl) as (ct & b & N & _ & G). apply G. eapply NS, N.
  - intros payload custom. destruct (lcap_POST parse format net uni other c payload custom) as [t r] eqn:E.
    destruct (POST_said _ _ _ _ _ _ _ _ _ _ E) as [_ G]. cbv zeta in G.
    destruct G as (GE & _ & _ & GO).
    { intros [[_ C]|(_ & _ & d & _ & C)]; exact (proj1 (plain_no_clash _ _ P) C). }
    cbn [snd]. destruct (cap_POST parse format net (cap_of c) payload custom) as [v|e]; [|now apply GE].
    destruct (GO v eq_refl) as (data & ct & b & _ & _ & N & _ & G). apply G. eapply NS, N.
  - intros headers payload. destruct (lcap_POST_CUSTOM parse net uni other c headers payload) as [t r] eqn:E.
    destruct (C85_POST_CUSTOM _ _ _ _ _ _ _ _ _ E) as (_ & GE & GO). cbv zeta in GE, GO.
    cbn [snd]. destruct (cap_POST_CUSTOM parse net (cap_of c) headers payload) as [v|e]; [|now apply GE].
    destruct (GO v eq_refl) as (ct & b & N & _ & G). apply G. eapply NS, N.
Qed.
Print Assumptions C85_plain_url.

(** With capability logging off nothing does. *)
Theorem C85_off : forall parse format net uni other c,
  ENABLE_CAPS_LOGGING (lc_settings c) = false -> ENABLE_CAPS_LLSD_LOGGING (lc_settings c) = false ->
  (forall headers, snd (lcap_GET parse net uni other c) = cap_GET parse net (cap_of c) headers) /\
  (forall payload custom, snd (lcap_POST parse format net uni other c payload custom) =
     cap_POST parse format net (cap_of c) payload custom) /\
  (forall headers payload, snd (lcap_POST_CUSTOM parse net uni other c headers payload) =
     cap_POST_CUSTOM parse net (cap_of c) headers payload).
Proof.
  intros parse format net uni other c C L.
  assert (logs_get_body (lc_settings c) = false) as LG by (unfold logs_get_body; now rewrite L, andb_false_r).
  assert (logs_post_body (lc_settings c) = false) as LP by exact L.
  split; [|split].
  - intros headers. destruct (lcap_GET parse net uni other c) as [t r] eqn:E.
    destruct (C85_GET _ _ _ _ _ headers _ _ E) as [_ G]. cbv zeta in G. rewrite LG, C in G.
    destruct G as (_ & GE & GO); [intros [H _]; congruence|].
    cbn [snd]. destruct (cap_GET parse net (cap_of c) headers) as [v|e]; [|now apply GE].
    destruct (GO v eq_refl) as (ct & b & N & _ & G). apply G. intros e. apply off_unspoiled.
  - intros payload custom. destruct (lcap_POST parse format net uni other c payload custom) as [t r] eqn:E.
    destruct (POST_said _ _ _ _ _ _ _ _ _ _ E) as [_ G]. cbv zeta in G. rewrite LP, C in G.
    destruct G as (GE & _ & _ & GO).
    { intros [[H _]|(H & _)]; [congruence|]. unfold logs_payload in H. rewrite L, andb_false_r in H. discriminate. }
    cbn [snd]. destruct (cap_POST parse format net (cap_of c) payload custom) as [v|e]; [|now apply GE].
    destruct (GO v eq_refl) as (data & ct & b & _ & _ & N & _ & G). apply G. intros e. apply off_unspoiled.
  - intros headers payload. destruct (lcap_POST_CUSTOM parse net uni other c headers payload) as [t r] eqn:E.
    destruct (C85_POST_CUSTOM _ _ _ _ _ _ _ _ _ E) as (_ & GE & GO). cbv zeta in GE, GO. rewrite LP, C in GO.
    cbn [snd]. destruct (cap_POST_CUSTOM parse net (cap_of c) headers payload) as [v|e]; [|now apply GE].
    destruct (GO v eq_refl) as (ct & b & N & _ & G). apply G. intros e. apply off_unspoiled.
Qed.
Print Assumptions C85_off.

(** A capability with a unicode URL: logging the documents exchanged turns an
    answer with an accent in it into an exception, after the request. *)
Definition an_url : bytes := bytes_of_string "http://localhost/cap".
Definition cafe : bytes := bytes_of_string "<llsd>caf" ++ [xc3; xa9] ++ bytes_of_string "</llsd>".
Definition verbose : settings := apply_spammy defaults.
Definition ucap (s : settings) : lcap :=
  {| lc_name := raw (bytes_of_string "Chat"); lc_url := {| t_flavour := UnicodeText; t_chars := an_url |};
     lc_client := 0; lc_settings := s |}.
Definition bcap (s : settings) : lcap :=
  {| lc_name := raw (bytes_of_string "Chat"); lc_url := raw an_url; lc_client := 0; lc_settings := s |}.
Definition parses (b : bytes) : parse_result := ParseOk (LMap [("a"%string, LInt 1)]).
Definition answers (q : request) : http_result := Response (Some "application/llsd+xml; charset=utf-8"%string) (BStr cafe).
Example C85_case :
  snd (lcap_GET parses answers (fun _ => true) (Err AttributeErr) (ucap verbose)) = Err ValueErr /\
  requests (fst (lcap_GET parses answers (fun _ => true) (Err AttributeErr) (ucap verbose))) = [ReqGet "http://localhost/cap"] /\
  snd (lcap_GET parses answers (fun _ => true) (Err AttributeErr) (ucap defaults)) = Ok (LMap [("a"%string, LInt 1)]) /\
  snd (lcap_GET parses answers (fun _ => true) (Err AttributeErr) (bcap verbose)) = Ok (LMap [("a"%string, LInt 1)]).
Proof. vm_compute. auto. Qed.
(** A document to post with an accent in it is then not posted at all. *)
Example C85_case_unsent :
  lcap_POST parses (fun _ => Ok cafe) answers (fun _ => true) (Err AttributeErr) (ucap verbose) (LMap []) [] =
    ([CapLine (PostLine (lc_url (ucap verbose)) (LMap []))], Err ValueErr) /\
  post_unsent (fun _ => Ok cafe) (fun _ => true) (ucap verbose) (LMap []).
Proof.
  split; [reflexivity|]. right. split; [reflexivity|]. split; [right; eauto|]. exists cafe. split; [reflexivity|]. split.
  - exists (lc_url (ucap verbose)). split; [now left|reflexivity].
  - exists (raw cafe). split; [right; now left|]. split; [reflexivity|]. exists xc3. split; [cbn; tauto|cbn; lia].
Qed.
(** A body that is not a string, which is otherwise no answer at all (C42). *)
Example C85_case_no_strip :
  lcap_POST_CUSTOM parses (fun _ => Response (Some "application/xml"%string) BOther) (fun _ => true) (Err AttributeErr) (bcap verbose) [] [] =
    ([CapRequest (ReqPost "http://localhost/cap" [] [])], Err AttributeErr) /\
  cap_POST_CUSTOM parses (fun _ => Response (Some "application/xml"%string) BOther) (cap_of (bcap verbose)) [] [] = Ok LUndef.
Proof. split; reflexivity. Qed.
Example C85_case_plain : plain_url (lc_url (bcap verbose)) /\ (forall q ct, answers q <> Response ct BOther).
Proof.
  split; [|intros q ct H; discriminate]. split; [reflexivity|].
  change (forall c, In c an_url -> ord c < 128). apply Forall_forall. vm_compute. repeat constructor.
Qed.

(** ** C86: what capability calls log *)

(** A GET that succeeds: what it is about to do, the request, then the body and
    the value, as the switches have it. *)
Theorem C86_GET : forall parse net uni other c t v,
  lcap_GET parse net uni other c = (t, Ok v) ->
  let s := lc_settings c in
  let request := ReqGet (str_of (lc_url c)) in
  exists ct b answer, net request = Response ct b /\
    answer_lines (logs_get_body s) (ENABLE_CAPS_LOGGING s) other (lc_url c) b (GotLine (lc_url c) v) answer /\
    t = (if ENABLE_CAPS_LOGGING s then [CapLine (GetLine (lc_name c) (lc_url c))] else []) ++
        [CapRequest request] ++ answer.
Proof.
  intros parse net uni other c t v E s request.
  pose proof (lGET_cases parse net uni other c []) as G. rewrite E in G. cbv zeta in G. fold s in G. fold request in G.
  destruct G as [(_ & _ & [=])|(_ & _ & G)]. destruct (cap_GET parse net (cap_of c) []) as [v'|e]; [|destruct G as [[=] _]].
  destruct G as (ct & b & N & [(e & _ & [=])|(_ & [= ->] & t' & -> & A)]). exists ct, b, t'. auto.
Qed.
Print Assumptions C86_GET.

(** A call that fails by itself logs nothing after the request. *)
Theorem C86_GET_failure : forall parse net uni other c headers t r e,
  lcap_GET parse net uni other c = (t, r) -> cap_GET parse net (cap_of c) headers = Err e -> ~ get_unsent c ->
  t = (if ENABLE_CAPS_LOGGING (lc_settings c) then [CapLine (GetLine (lc_name c) (lc_url c))] else []) ++
      [CapRequest (ReqGet (str_of (lc_url c)))].
Proof.
  intros parse net uni other c headers t r e E P U.
  pose proof (lGET_cases parse net uni other c headers) as G. rewrite E in G. cbv zeta in G. rewrite P in G.
  destruct G as [(N & _)|(_ & _ & _ & ->)]; [contradiction|reflexivity].
Qed.
Print Assumptions C86_GET_failure.

Theorem C86_POST : forall parse format net uni other c payload custom t v, NoDup (map fst custom) ->
  lcap_POST parse format net uni other c payload custom = (t, Ok v) ->
  let s := lc_settings c in
  exists data ct b answer, format payload = Ok data /\
    let request := ReqPost (str_of (lc_url c)) data (posted_headers custom) in
    net request = Response ct b /\
    answer_lines (logs_post_body s) (ENABLE_CAPS_LOGGING s) other (lc_url c) b (PostedLine (lc_url c) v) answer /\
    t = (if ENABLE_CAPS_LOGGING s then [CapLine (PostLine (lc_url c) payload)] else []) ++
        (if logs_payload s then [CapLine (PayloadLine (lc_url c) data)] else []) ++
        [CapRequest request] ++ answer.
Proof.
  intros parse format net uni other c payload custom t v ND E s. rewrite <- posted_headers_is by exact ND. fold (post_headers custom).
  pose proof (lPOST_cases parse format net uni other c payload custom) as G. rewrite E in G. cbv zeta in G. fold s in G.
  destruct G as [(_ & _ & [=])|(_ & [(_ & _ & [=])|[(_ & e & _ & _ & [=])|(_ & data & F & t' & P & ->)]])].
  pose proof (lpost_raw_cases parse net uni other c (post_headers custom) data) as Q. rewrite <- P in Q. cbv zeta in Q. fold s in Q.
  destruct Q as [_ Q]. destruct (post_raw parse net (cap_of c) (post_headers custom) data) as [v'|e]; [|destruct Q as [[=] _]].
  destruct Q as (ct & b & N & [(e & _ & [=])|(_ & [= ->] & t'' & -> & A)]). exists data, ct, b, t''. cbv zeta. auto.
Qed.
Print Assumptions C86_POST.

Theorem C86_POST_CUSTOM : forall parse net uni other c headers payload t v,
  lcap_POST_CUSTOM parse net uni other c headers payload = (t, Ok v) ->
  let s := lc_settings c in
  let request := ReqPost (str_of (lc_url c)) payload headers in
  exists ct b answer, net request = Response ct b /\
    answer_lines (logs_post_body s) (ENABLE_CAPS_LOGGING s) other (lc_url c) b (PostedLine (lc_url c) v) answer /\
    t = CapRequest request :: answer.
Proof.
  intros parse net uni other c headers payload t v E s request. unfold lcap_POST_CUSTOM in E.
  pose proof (lpost_raw_cases parse net uni other c headers payload) as Q. rewrite E in Q. cbv zeta in Q. fold s in Q. fold request in Q.
  destruct Q as [_ Q]. destruct (post_raw parse net (cap_of c) headers payload) as [v'|e]; [|destruct Q as [[=] _]].
  destruct Q as (ct & b & N & [(e & _ & [=])|(_ & [= ->] & t'' & -> & A)]). exists ct, b, t''. auto.
Qed.
Print Assumptions C86_POST_CUSTOM.

(** A POST that fails by itself logs nothing after the request, but prints the
    response on the standard output if it cannot read it. *)
Theorem C86_POST_CUSTOM_failure : forall parse net uni other c headers payload t r e,
  lcap_POST_CUSTOM parse net uni other c headers payload = (t, r) ->
  cap_POST_CUSTOM parse net (cap_of c) headers payload = Err e ->
  let request := ReqPost (str_of (lc_url c)) payload headers in
  unreadable (net request) /\ t = [CapRequest request; CapPrint] \/
  ~ unreadable (net request) /\ t = [CapRequest request].
Proof.
  intros parse net uni other c headers payload t r e E P. unfold lcap_POST_CUSTOM in E. unfold cap_POST_CUSTOM in P.
  pose proof (lpost_raw_print parse net uni other c headers payload) as Q. rewrite E in Q. exact (Q e P).
Qed.
Print Assumptions C86_POST_CUSTOM_failure.
Theorem C86_POST_failure : forall parse format net uni other c payload custom data t r e, NoDup (map fst custom) ->
  lcap_POST parse format net uni other c payload custom = (t, r) -> ~ post_unsent format uni c payload ->
  list_or_dict payload -> format payload = Ok data -> cap_POST parse format net (cap_of c) payload custom = Err e ->
  let s := lc_settings c in
  let request := ReqPost (str_of (lc_url c)) data (posted_headers custom) in
  exists printed, t = (if ENABLE_CAPS_LOGGING s then [CapLine (PostLine (lc_url c) payload)] else []) ++
        (if logs_payload s then [CapLine (PayloadLine (lc_url c) data)] else []) ++ [CapRequest request] ++ printed /\
    (unreadable (net request) /\ printed = [CapPrint] \/ ~ unreadable (net request) /\ printed = []).
Proof.
  intros parse format net uni other c payload custom data t r e N E U LD F P s request.
  pose proof (lPOST_cases parse format net uni other c payload custom) as G. rewrite E in G. cbv zeta in G.
  destruct G as [(X & _)|(_ & [(X & _)|[(_ & e' & X & _)|(_ & data' & F' & tr & R & ->)]])];
    [contradiction|contradiction|congruence|].
  rewrite F in F'. injection F' as <-.
  pose proof (lpost_raw_print parse net uni other c (post_headers custom) data) as Q. rewrite <- R in Q.
  assert (post_raw parse net (cap_of c) (post_headers custom) data = Err e) as PR.
  { rewrite <- P. unfold cap_POST. destruct LD as [[l ->]|[l ->]]; rewrite F; reflexivity. }
  unfold post_headers in Q, PR. rewrite posted_headers_is in Q, PR by exact N. specialize (Q e PR). cbv zeta in Q. fold request in Q.
  destruct Q as [(X & ->)|(X & ->)]; [exists [CapPrint]|exists []]; auto.
Qed.
Print Assumptions C86_POST_failure.

(** With ENABLE_CAPS_LOGGING (the default) whatever is posted is in the log
    before it is sent, whether or not the call succeeds. *)
Theorem C86_payload_in_the_log : forall parse format net uni other c payload custom t r,
  lcap_POST parse format net uni other c payload custom = (t, r) ->
  ENABLE_CAPS_LOGGING (lc_settings c) = true ->
  (requests t <> [] -> exists rest, t = CapLine (PostLine (lc_url c) payload) :: rest) /\
  (forall e, cap_POST parse format net (cap_of c) payload custom = Err e -> ~ post_unsent format uni c payload ->
     exists rest, t = CapLine (PostLine (lc_url c) payload) :: rest /\
       forall l, In l (cap_lines rest) -> exists data, format payload = Ok data /\ l = PayloadLine (lc_url c) data).
Proof.
  intros parse format net uni other c payload custom t r E On.
  pose proof (lPOST_cases parse format net uni other c payload custom) as G. rewrite E in G. cbv zeta in G. rewrite On in G.
  destruct G as [(U & R & _)|(U & G)].
  - split; [intros N; contradiction|intros e _ N; contradiction].
  - assert (exists rest, t = CapLine (PostLine (lc_url c) payload) :: rest) as S.
    { destruct G as [(_ & -> & _)|[(_ & e & _ & -> & _)|(_ & data & _ & t' & _ & ->)]]; cbn; eauto. }
    split; [auto|]. intros e PE _. destruct G as [(_ & -> & _)|[(_ & e' & _ & -> & _)|(D & data & F & t' & P & ->)]].
    + exists []. split; [reflexivity|intros l []].
    + exists []. split; [reflexivity|intros l []].
    + eexists. split; [reflexivity|]. rewrite (POST_plain_yes _ _ _ _ _ _ _ D F) in PE.
      pose proof (lpost_raw_cases parse net uni other c (post_headers custom) data) as Q. rewrite <- P in Q. cbv zeta in Q. rewrite PE in Q.
      destruct Q as (_ & _ & Q). intros l I. rewrite cap_lines_app in I. apply in_app_or in I as [I|I].
      * destruct (logs_payload (lc_settings c)); [|destruct I]. destruct I as [<-|[]]. eauto.
      * exfalso. destruct Q as [-> | ->]; destruct I.
Qed.
Print Assumptions C86_payload_in_the_log.

(** With both switches off nothing is logged. *)
Theorem C86_quiet : forall parse format net uni other c,
  ENABLE_CAPS_LOGGING (lc_settings c) = false -> ENABLE_CAPS_LLSD_LOGGING (lc_settings c) = false ->
  cap_lines (fst (lcap_GET parse net uni other c)) = [] /\
  (forall payload custom, cap_lines (fst (lcap_POST parse format net uni other c payload custom)) = []) /\
  (forall headers payload, cap_lines (fst (lcap_POST_CUSTOM parse net uni other c headers payload)) = []).
Proof.
  intros parse format net uni other c C L. split; [now apply lGET_quiet|]. split; [intros; now apply lPOST_quiet|].
  intros headers payload. now apply lpost_raw_quiet.
Qed.
Print Assumptions C86_quiet.

(** Capabilities obtained from a seed log by the default settings, whatever the
    seed's are. *)
Theorem C86_children : forall parse format net uni other c names t caps,
  lseed_get parse format net uni other c names = (t, Ok caps) ->
  forall name child, In (name, child) caps ->
    ln_settings child = defaults /\ ln_client child = lc_client c /\ ln_name child = name.
Proof. exact seed_children. Qed.
Print Assumptions C86_children.
(** Apart from that they are those of C43, for a plain URL. *)
Theorem C86_seed_same : forall parse format net uni other c names,
  plain_url (lc_url c) -> (forall q ct, net q <> Response ct BOther) ->
  res_map (map (fun '(k, n) => (k, {| nc_name := ln_name n; nc_url := ln_url n; nc_client := ln_client n |})))
    (snd (lseed_get parse format net uni other c names)) = seed_get parse format net (cap_of c) names.
Proof.
  intros parse format net uni other c names P B. apply seed_same.
  now apply (C85_plain_url parse format net uni other c P B).
Qed.
Print Assumptions C86_seed_same.

Example C86_case :
  lcap_POST parses (fun _ => Ok cafe) answers (fun _ => true) (Err AttributeErr) (bcap defaults) (LMap []) [] =
    ([CapLine (PostLine (raw an_url) (LMap []));
      CapRequest (ReqPost "http://localhost/cap" cafe [("Content-type", "application/llsd+xml")%string]);
      CapLine (PostedLine (raw an_url) (LMap [("a"%string, LInt 1)]))], Ok (LMap [("a"%string, LInt 1)])) /\
  fst (lcap_GET parses answers (fun _ => true) (Err AttributeErr) (bcap verbose)) =
    [CapLine (GetLine (raw (bytes_of_string "Chat")) (raw an_url)); CapRequest (ReqGet "http://localhost/cap");
     CapLine (BodyLine (raw an_url) (raw cafe)); CapLine (GotLine (raw an_url) (LMap [("a"%string, LInt 1)]))] /\
  (forall uni, exists t caps,
   lseed_get (fun _ => ParseOk (LMap [("capabilities"%string, LMap [("Chat"%string, LStr "http://x")])])) (fun _ => Ok cafe)
     answers uni (Err AttributeErr) (bcap (apply_quiet defaults)) ["Chat"%string] = (t, Ok caps) /\
   map snd caps = [{| ln_name := "Chat"; ln_url := LStr "http://x"; ln_client := 0; ln_settings := defaults |}]).
Proof. split; [reflexivity|]. split; [reflexivity|]. intros uni. eexists. eexists. split; reflexivity. Qed.

(** An answer that is plain text is printed and refused. *)
Example C86_case_print :
  fst (lcap_POST parses (fun _ => Ok cafe) (fun _ => Response (Some "text/plain"%string) (BStr cafe)) (fun _ => true) (Err AttributeErr)
         (bcap defaults) (LMap []) []) =
    [CapLine (PostLine (raw an_url) (LMap []));
     CapRequest (ReqPost "http://localhost/cap" cafe [("Content-type", "application/llsd+xml")%string]); CapPrint] /\
  unreadable (Response (Some "text/plain"%string) (BStr cafe)).
Proof.
  split; [reflexivity|]. exists "text/plain"%string, (BStr cafe). split; [reflexivity|].
  split; [|eauto]. intros [[_ [H|[r H]]]|[[_ [H|[r H]]]|[[_ [H|[r H]]] _]]]; cbn in H; discriminate H.
Qed.

(** ** C87: the host of an event queue *)

(** A host that is one value for a format (anything but a tuple of other than
    one element): the queue behaves as in C38-C41 whatever the settings. *)
Theorem C87_printable : forall known raises s h polls closing st t r,
  ~ bad_host h -> eq_start_l known raises s h "EventQueueGet" polls closing eq_init = (st, t, r) ->
  exists log, eq_start known raises "EventQueueGet" polls closing eq_init = (st, log, r) /\
    eq_posts t = l_posts log /\ eq_delivered t = l_delivered log.
Proof.
  intros known raises s h polls closing st t r H E. pose proof (start_good known raises s h polls closing H) as G.
  rewrite E in G. destruct G as (log & A & B & C & _). eauto.
Qed.
Print Assumptions C87_printable.

(** A tuple such as (ip, port): nothing is ever delivered. *)
Theorem C87_tuple_delivers_nothing : forall known raises s h polls closing st t r,
  bad_host h -> eq_start_l known raises s h "EventQueueGet" polls closing eq_init = (st, t, r) ->
  eq_delivered t = [] /\ r <> Some true.
Proof.
  intros known raises s h polls closing st t r H E. destruct (LOG_COROUTINE_SPAWNS s) eqn:S.
  - rewrite start_refused in E by assumption. injection E as <- <- <-. split; [reflexivity|discriminate].
  - destruct (ENABLE_EQ_LOGGING s && ENABLE_HOST_LOGGING s) eqn:N.
    + apply andb_true_iff in N as [N1 N2]. rewrite start_mute in E by assumption.
      assert (forall n, eq_delivered (repeat (EqLine PollErrorLine) n) = []) as Q by (induction n; auto).
      destruct (is_stopped polls); injection E as <- <- <-; (split; [|discriminate]); [|apply Q].
      now rewrite eq_delivered_app, Q.
    + pose proof (start_bad known raises s h polls closing H S N) as G. rewrite E in G.
      destruct G as (log & r' & _ & _ & D & ->). split; [exact D|]. now destruct r'.
Qed.
Print Assumptions C87_tuple_delivers_nothing.

(** With the default settings start() gives up at once ... *)
Theorem C87_tuple_refused : forall known raises s h polls closing st,
  bad_host h -> LOG_COROUTINE_SPAWNS s = true ->
  eq_start_l known raises s h "EventQueueGet" polls closing st = (st, [EqLine (StartProblemLine TypeErr)], Some false).
Proof. exact start_refused. Qed.
Print Assumptions C87_tuple_refused.
(** ... without LOG_COROUTINE_SPAWNS it goes round without posting anything ... *)
Theorem C87_tuple_never_posts : forall known raises s h polls closing st t r,
  bad_host h -> LOG_COROUTINE_SPAWNS s = false -> ENABLE_EQ_LOGGING s = true -> ENABLE_HOST_LOGGING s = true ->
  eq_start_l known raises s h "EventQueueGet" polls closing eq_init = (st, t, r) ->
  eq_posts t = [] /\ eq_last st = LInt (-1) /\ eq_result st = LUndef /\
  (r = None <-> is_stopped polls = false) /\ eq_running st = negb (is_stopped polls).
Proof.
  intros known raises s h polls closing st t r H S E1 E2 E. rewrite start_mute in E by assumption.
  assert (forall n, eq_posts (repeat (EqLine PollErrorLine) n) = []) as Q by (induction n; auto).
  destruct (is_stopped polls); injection E as <- <- <-.
  - rewrite eq_posts_app, Q. repeat split; discriminate.
  - rewrite Q. repeat split.
Qed.
Print Assumptions C87_tuple_never_posts.
(** ... and without ENABLE_EQ_LOGGING or ENABLE_HOST_LOGGING as well, it posts
    what it would post anyway: the events it does not deliver are acknowledged,
    and lost. *)
Theorem C87_tuple_loses_events : forall known raises s h polls closing st t r,
  bad_host h -> LOG_COROUTINE_SPAWNS s = false -> (ENABLE_EQ_LOGGING s = false \/ ENABLE_HOST_LOGGING s = false) ->
  eq_start_l known raises s h "EventQueueGet" polls closing eq_init = (st, t, r) ->
  exists log r', eq_start known raises "EventQueueGet" polls closing eq_init = (st, log, r') /\
    eq_posts t = l_posts log /\ eq_delivered t = [] /\
    (r = None <-> r' = None) /\ (r <> None -> r = Some false).
Proof.
  intros known raises s h polls closing st t r H S N E.
  pose proof (start_bad known raises s h polls closing H S) as G. rewrite E in G.
  destruct G as (log & r' & A & B & C & ->); [destruct N as [-> | ->]; [reflexivity|apply andb_false_r]|].
  exists log, r'. split; [exact A|]. split; [exact B|]. split; [exact C|]. destruct r'; split; try split; congruence.
Qed.
Print Assumptions C87_tuple_loses_events.

(** The host of a queue of another kind does not matter. *)
Theorem C87_other_names : forall known raises s h name polls closing st,
  name <> "EventQueueGet"%string ->
  let '(st', t, r) := eq_start_l known raises s h name polls closing st in
  exists log, eq_start known raises name polls closing st = (st', log, r) /\
    eq_posts t = l_posts log /\ eq_delivered t = l_delivered log /\ l_posts log = [] /\ l_delivered log = [].
Proof.
  intros known raises s h name polls closing st N. unfold eq_start_l, eq_start.
  assert (String.eqb name "EventQueueGet" = false) as -> by now apply String.eqb_neq.
  destruct (String.eqb name "event_queue").
  - destruct (eq_stopped (set_running st true)).
    + eexists. split; [reflexivity|]. destruct (LOG_COROUTINE_SPAWNS s); auto.
    + eexists. split; [reflexivity|]. destruct (LOG_COROUTINE_SPAWNS s); auto.
  - eexists. split; [reflexivity|]. auto.
Qed.
Print Assumptions C87_other_names.

Definition ok_poll (id : Z) (name : string) (stop : bool) : poll :=
  {| p_out := PostOk (LMap [("id"%string, LInt id);
       ("events"%string, LArr [LMap [("message"%string, LStr name); ("body"%string, LMap [])]])]); p_stop := stop |}.
Definition two_polls : list poll := [ok_poll 1 "A" false; ok_poll 2 "B" true].
Definition silent : settings := apply_quiet defaults.
Definition out (x : eqstate * list eqentry * option bool) : list llsd * list llsd * option bool :=
  let '(_, t, r) := x in (eq_posts t, map q_name (eq_delivered t), r).
Definition by_settings (s : settings) (h : eqhost) : list llsd * list llsd * option bool :=
  out (eq_start_l (fun _ => false) (fun _ => false) s h "EventQueueGet" two_polls (PostOk LUndef) eq_init).
Definition acked (z : Z) : llsd := LMap [("ack"%string, LInt z)].
Definition no_spawn : settings := {|
  HANDLE_PACKETS := true; HANDLE_OUTGOING_PACKETS := false; ENABLE_DEFERRED_PACKET_PARSING := true;
  LOG_VERBOSE := true; ENABLE_BYTES_TO_HEX_LOGGING := false; ENABLE_CAPS_LOGGING := true;
  ENABLE_CAPS_LLSD_LOGGING := false; ENABLE_EQ_LOGGING := true; ENABLE_UDP_LOGGING := true;
  ENABLE_OBJECT_LOGGING := true; LOG_SKIPPED_PACKETS := true; ENABLE_HOST_LOGGING := true;
  LOG_COROUTINE_SPAWNS := false; PROXY_LOGGING := false; DISABLE_SPAMMERS := true; UDP_SPAMMERS := [];
  ENABLE_REGION_EVENT_QUEUE := true; REGION_EVENT_QUEUE_POLL_INTERVAL := 1; ENABLE_LOGGING_IN_TESTS := true |}.
Definition no_host : settings := {|
  HANDLE_PACKETS := true; HANDLE_OUTGOING_PACKETS := false; ENABLE_DEFERRED_PACKET_PARSING := true;
  LOG_VERBOSE := true; ENABLE_BYTES_TO_HEX_LOGGING := false; ENABLE_CAPS_LOGGING := true;
  ENABLE_CAPS_LLSD_LOGGING := false; ENABLE_EQ_LOGGING := true; ENABLE_UDP_LOGGING := true;
  ENABLE_OBJECT_LOGGING := true; LOG_SKIPPED_PACKETS := true; ENABLE_HOST_LOGGING := false;
  LOG_COROUTINE_SPAWNS := false; PROXY_LOGGING := false; DISABLE_SPAMMERS := true; UDP_SPAMMERS := [];
  ENABLE_REGION_EVENT_QUEUE := true; REGION_EVENT_QUEUE_POLL_INTERVAL := 1; ENABLE_LOGGING_IN_TESTS := true |}.
Example C87_case :
  by_settings defaults (OneHost (raw [])) =
    ([LMap []; acked 1; LMap [("ack"%string, LInt 2); ("done"%string, LBool true)]], [LStr "A"; LStr "B"], Some true) /\
  by_settings defaults (TupleHost 1) = by_settings defaults (OneHost (raw [])) /\
  by_settings defaults (TupleHost 2) = ([], [], Some false) /\
  by_settings no_spawn (TupleHost 2) = ([], [], Some false) /\
  by_settings no_host (TupleHost 2) =
    ([LMap []; acked 1; LMap [("ack"%string, LInt 2); ("done"%string, LBool true)]], [], Some false) /\
  bad_host (TupleHost 2) /\ ~ bad_host (OneHost (raw [])).
Proof.
  vm_compute. repeat (split; [reflexivity|]). split; [exists 2%nat; split; [reflexivity|discriminate]|].
  intros (n & [=] & _).
Qed.

(** ** C88: what an event queue logs *)

(** Everything a queue with a printable host puts out, in order: the spawn, for
    each poll that begins its announcement, the post, a line if it fails, and
    the latest response with its messages, and the end. *)
Theorem C88_story : forall known raises s h polls closing st t r,
  ~ bad_host h -> eq_start_l known raises s h "EventQueueGet" polls closing eq_init = (st, t, r) ->
  exists middle id,
    run_story known raises s (map p_out (begun polls)) middle /\ ack_id (map p_out (begun polls)) id /\
    t = spawn_line s ++ middle ++
        (if is_stopped polls then
           (if equals_minus1 id then [EqLine QueueStoppedLine]
            else EqPost (closing_payload id) ::
                 match closing with
                 | PostOk _ => [EqLine QueueStoppedLine]
                 | PostErr e => [EqLine (StartProblemLine e)]
                 end)
         else []).
Proof.
  intros known raises s h polls closing st t r H E. pose proof (start_good known raises s h polls closing H) as G.
  rewrite E in G. destruct G as (log & A & _ & _ & t' & id & fin & -> & RS & I & ->).
  exists t', id. split; [exact RS|]. split; [exact I|]. f_equal. f_equal.
  destruct (start_region known raises polls closing st log r A) as (ids & id' & _ & _ & A' & _ & _ & S & R & RR).
  rewrite RR. clear R RR. destruct (is_stopped polls).
  - destruct (equals_minus1 id), closing; reflexivity.
  - reflexivity.
Qed.
Print Assumptions C88_story.

(** The story of given outcomes is determined. *)
Theorem C88_determined : forall known raises s outs t t',
  run_story known raises s outs t -> run_story known raises s outs t' -> t = t'.
Proof.
  intros known raises s outs t t' H. revert t'. induction H as [|outs o id t t1 H IH A S]; intros t' H'.
  - inversion H' as [|outs o id t2 t3 K1 K2 K3 E1 E2]; [reflexivity|]. now destruct outs.
  - inversion H' as [E1 E2|outs' o' id' t2 t3 K1 K2 K3 E1 E2]; [now destruct outs|].
    apply snoc_inj in E1 as [-> ->]. rewrite (IH _ K1), (ack_id_fun _ _ _ A K2). do 4 f_equal.
    clear -S K3. revert S K3. generalize (latest (outs ++ [o])). intros v S K.
    assert (forall v i j, id_of v i -> id_of v j -> i = j) as IU by (intros w i j (m & -> & Hi) (m' & [= <-] & Hj); congruence).
    assert (forall (a b : list eqmessage) m m' c d, a ++ m :: c = b ++ m' :: d ->
      Forall (fun m => raises m = false) a -> Forall (fun m => raises m = false) b -> raises m = true -> raises m' = true -> a ++ [m] = b ++ [m']) as Sp.
    { induction a as [|x a IHa]; intros [|y b] m m' c d E Fa Fb Rm Rm'; cbn in *.
      - congruence.
      - injection E as <- _. inversion Fb. congruence.
      - injection E as -> _. inversion Fa. congruence.
      - injection E as <- E. inversion Fa. inversion Fb. f_equal. eapply IHa; eauto. }
    inversion S; subst; inversion K; subst; try reflexivity; try contradiction;
      try match goal with
      | N : ~ (exists id, id_of ?v id), I : id_of ?v ?i |- _ => exfalso; apply N; now exists i
      | I : id_of LUndef _ |- _ => destruct I as (? & ? & _); discriminate
      end;
      match goal with I : id_of ?v ?i, J : id_of ?v ?j |- _ => rewrite (IU v j i J I) in * end; try congruence.
    + exfalso. assert (ms = before ++ m :: after) by congruence. subst ms.
      match goal with F : Forall _ (_ ++ _ :: _) |- _ => apply Forall_app in F as [_ F]; inversion F end. congruence.
    + exfalso. assert (ms = before ++ m :: after) by congruence. subst ms.
      match goal with F : Forall _ (_ ++ _ :: _) |- _ => apply Forall_app in F as [_ F]; inversion F end. congruence.
    + match goal with A : decode_eq_result _ _ _ = Ok (before ++ _), B : decode_eq_result _ _ _ = Ok (before0 ++ _) |- _ =>
        rewrite A in B; injection B as B; rewrite (Sp _ _ _ _ _ _ B) by assumption end. reflexivity.
Qed.
Print Assumptions C88_determined.

Definition noisy (m : eqmessage) : bool := match q_name m with LStr n => String.eqb n "B" | _ => false end.
Example C88_case : 
  let '(_, t, r) := eq_start_l (fun _ => false) noisy defaults (OneHost (raw [])) "EventQueueGet"
    [ok_poll 1 "A" false; {| p_out := PostErr ValueErr; p_stop := false |}; ok_poll 2 "B" true] (PostErr KeyErr) eq_init in
  let r1 := LMap [("id"%string, LInt 1); ("events"%string, LArr [LMap [("message"%string, LStr "A"); ("body"%string, LMap [])]])] in
  let r2 := LMap [("id"%string, LInt 2); ("events"%string, LArr [LMap [("message"%string, LStr "B"); ("body"%string, LMap [])]])] in
  map (fun x => match x with EqDeliver m => inl (q_name m) | EqPost d => inl d | EqLine l => inr l end) t =
  [inr SpawnRegionLine;
   inr (PostingLine true (LMap [])); inl (LMap []); inr (ResultLine r1); inl (LStr "A");
   inr (PostingLine true (acked 1)); inl (acked 1); inr (DontCareLine true ValueErr); inr (ResultLine r1); inl (LStr "A");
   inr (PostingLine true (acked 1)); inl (acked 1); inr (ResultLine r2); inl (LStr "B"); inr (ParseErrorLine r2);
   inl (LMap [("ack"%string, LInt 2); ("done"%string, LBool true)]); inr (StartProblemLine KeyErr)] /\ r = Some false.
Proof. vm_compute. auto. Qed.
