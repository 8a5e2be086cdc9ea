(** Theorems about waiting, the watcher of stop(), and capabilities over the
    default HTTP client: C68-C70. *)
From Coq Require Import Reals Lra.
From Flocq Require Import Core.
From Verif Require Import Lib SpecFloats SpecWeb WebProofs Waiting SpecWaiting WaitingProofs.
Open Scope Z_scope.

(** ** C68 *)

(** A wait of a positive whole number of seconds ends exactly at its first pass
    that is not quiet: at the first clock reading at least [d] seconds after the
    start, at stop(), or at an exception other than AssertionError (which
    escapes); and not before. *)
Theorem C68_ends : forall d enabled start ticks n r, good_clock start ticks -> 0 < d ->
  wait_run d enabled start ticks = (n, Some r) <->
  exists before t rest, ticks = before ++ t :: rest /\ n = S (List.length before) /\
    Forall (quiet d start) before /\ ~ quiet d start t /\ r = pass_ends t.
Proof. exact run_ends. Qed.
Print Assumptions C68_ends.

Theorem C68_still_waiting : forall d enabled start ticks n, good_clock start ticks -> 0 < d ->
  wait_run d enabled start ticks = (n, None) <-> Forall (quiet d start) ticks /\ n = List.length ticks.
Proof. exact run_waits. Qed.
Print Assumptions C68_still_waiting.

(** Never early: if nobody calls stop(), a wait that returned has read a clock
    at least [d] seconds past its start, in its last pass and in no other. *)
Theorem C68_never_early : forall d enabled start ticks n, good_clock start ticks -> 0 < d ->
  (forall t, In t ticks -> t_stop t = false) ->
  wait_run d enabled start ticks = (n, Some (Ok true)) ->
  exists now, (exists t, nth_error ticks (n - 1) = Some t /\ t_pass t = Slept now) /\
    (rv now - rv start >= IZR d)%R /\
    forall k t now', (k < n - 1)%nat -> nth_error ticks k = Some t -> t_pass t = Slept now' ->
      (rv now' - rv start < IZR d)%R.
Proof.
  intros d enabled start ticks n G D NS H. apply run_ends in H; [|assumption..].
  destruct H as (b & t & rest & E & -> & Q & N & P). cbn [Nat.sub]. rewrite Nat.sub_0_r.
  assert (t_stop t = false) as S by (apply NS; rewrite E; apply in_or_app; right; now left).
  unfold pass_ends in P. unfold quiet in N.
  destruct (t_pass t) as [now|e] eqn:T.
  - exists now. split; [|split].
    + exists t. split; [|exact T]. rewrite E, nth_error_app2, Nat.sub_diag by lia. reflexivity.
    + destruct (Rlt_dec (rv now - rv start) (IZR d)) as [L|L]; [|lra]. exfalso. apply N. now split.
    + intros k t' now' K E' T'. rewrite Forall_forall in Q.
      assert (In t' b) as I.
      { rewrite E, nth_error_app1 in E' by lia. eapply nth_error_In. exact E'. }
      specialize (Q _ I) as (_ & Q). rewrite T' in Q. exact Q.
  - exfalso. destruct e; try discriminate P. apply N. now split.
Qed.
Print Assumptions C68_never_early.

(** Zero or fewer seconds: returns without a single pass. *)
Theorem C68_nonpositive : forall d enabled start ticks,
  valid64 start = true -> finite_float start -> d <= 0 ->
  wait_run d enabled start ticks = (O, Some (Ok true)).
Proof. exact run_nonpos. Qed.
Print Assumptions C68_nonpositive.

(** The duration given to the constructor: an int waits that long, a float is
    cut down to whole seconds first, ... *)
Theorem C68_int : forall txt d start ticks,
  wait_new txt (VInt d) start ticks = wait_run d false start ticks.
Proof. reflexivity. Qed.
Print Assumptions C68_int.

Theorem C68_fraction_dropped : forall txt f start ticks, finite_float f ->
  wait_new txt (VFloat f) start ticks = wait_run (Ztrunc (rv f)) false start ticks.
Proof. intros txt f start ticks F. unfold wait_new, py_int. now rewrite trunc_int. Qed.
Print Assumptions C68_fraction_dropped.

(** ... so that anything under one second does not wait at all. *)
Theorem C68_under_one_second : forall txt f start ticks, finite_float f -> (rv f < 1)%R ->
  valid64 start = true -> finite_float start ->
  wait_new txt (VFloat f) start ticks = (O, Some (Ok true)).
Proof.
  intros txt f start ticks F L V S. rewrite C68_fraction_dropped by exact F. apply run_nonpos; auto.
  destruct (Rle_or_lt 0 (rv f)) as [P|P].
  - rewrite Ztrunc_floor by exact P. assert (Zfloor (rv f) < 1); [|lia].
    apply lt_IZR. eapply Rle_lt_trans; [apply Zfloor_lb|exact L].
  - rewrite Ztrunc_ceil by lra. apply Zceil_glb. cbn. lra.
Qed.
Print Assumptions C68_under_one_second.

(** Anything int() rejects is rejected before waiting. *)
Theorem C68_bad_duration : forall txt v start ticks e, py_int txt v = Err e ->
  wait_new txt v start ticks = (O, Some (Err e)).
Proof. intros txt v start ticks e H. unfold wait_new. now rewrite H. Qed.
Print Assumptions C68_bad_duration.

(** In particular: True waits a second, a text as long as int() reads, and an
    infinite duration, NaN, None, a tuple, a vector or an id is refused. *)
Theorem C68_other_durations : forall txt start ticks,
  wait_new txt (VBool true) start ticks = wait_run 1 false start ticks /\
  wait_new txt (VBool false) start ticks = wait_run 0 false start ticks /\
  (forall s d, txt s = Ok d -> wait_new txt (VStr s) start ticks = wait_run d false start ticks) /\
  (forall s e, txt s = Err e -> wait_new txt (VStr s) start ticks = (O, Some (Err e))) /\
  (forall neg, wait_new txt (VFloat (S754_infinity neg)) start ticks = (O, Some (Err OverflowErr))) /\
  wait_new txt (VFloat S754_nan) start ticks = (O, Some (Err ValueErr)) /\
  forall v, In v [VNone] \/ (exists l, v = VTuple l) \/ (exists x y z, v = VVec3 x y z) \/
            (exists x y z w, v = VQuat x y z w) \/ (exists u, v = VUUID u \/ v = VStdUUID u) ->
    wait_new txt v start ticks = (O, Some (Err TypeErr)).
Proof.
  intros txt start ticks. unfold wait_new.
  split; [reflexivity|]. split; [reflexivity|].
  split; [intros s d H; cbn [py_int]; now rewrite H|]. split; [intros s e H; cbn [py_int]; now rewrite H|].
  split; [reflexivity|]. split; [reflexivity|].
  intros v [[<-|[]]|[(l & ->)|[(x & y & z & ->)|[(x & y & z & w & ->)|(u & [->| ->])]]]]; reflexivity.
Qed.
Print Assumptions C68_other_durations.

(** A run under the current epoch: start at 2^30 s, readings 0.5 s later, an
    AssertionError, then 2.25 s later. *)
Definition at_quarters (q : Z) : pyfloat :=
  match 2 ^ 30 * 4 + q with Z.pos p => binary_round 53 1024 false p (-2) | _ => fzero end.
Definition sample_ticks : list tick :=
  [{| t_pass := Slept (at_quarters 2); t_stop := false |};
   {| t_pass := SleepRaised AssertionErr; t_stop := false |};
   {| t_pass := Slept (at_quarters 9); t_stop := false |};
   {| t_pass := Slept (at_quarters 13); t_stop := false |}].
Example C68_case :
  wait_run 2 false (at_quarters 0) sample_ticks = (3%nat, Some (Ok true)) /\
  wait_run 3 false (at_quarters 0) sample_ticks = (4%nat, Some (Ok true)) /\
  wait_run 9 true (at_quarters 0) sample_ticks = (4%nat, None) /\
  wait_run 3 true (at_quarters 0)
    [{| t_pass := Slept (at_quarters 2); t_stop := true |}] = (1%nat, Some (Ok true)) /\
  wait_new (fun _ => Err ValueErr) VNone (at_quarters 0) sample_ticks = (O, Some (Err TypeErr)).
Proof. repeat split; reflexivity. Qed.
Example C68_case_clock : good_clock (at_quarters 0) sample_ticks.
Proof.
  assert (forall m e, rv (S754_finite false m e) = IZR (Z.pos m) * bpow radix2 e)%R as V by reflexivity.
  split; [reflexivity|]. split; [exact I|]. split.
  - change (at_quarters 0) with (S754_finite false 4503599627370496 (-22)). rewrite V.
    apply Rmult_le_pos; [now apply IZR_le|apply bpow_ge_0].
  - change (at_quarters 0) with (S754_finite false 4503599627370496 (-22)).
    assert (0 < bpow radix2 (-22))%R as P by apply bpow_gt_0.
    intros t now T E. cbn in T.
    destruct T as [<-|[<-|[<-|[<-|[]]]]]; cbn [t_pass] in E; injection E as <- || discriminate E.
    + change (at_quarters 2) with (S754_finite false 4503599629467648 (-22)).
      repeat split; rewrite !V; nra.
    + change (at_quarters 9) with (S754_finite false 4503599636807680 (-22)).
      repeat split; rewrite !V; nra.
    + change (at_quarters 13) with (S754_finite false 4503599641001984 (-22)).
      repeat split; rewrite !V; nra.
Qed.

(** ** C69 *)

(** The watcher reports success at its first wake-up that finds the queue not
    running, and failure iff it is running at all of its wake-ups. *)
Theorem C69_report : forall running interval times,
  (forall s, stop_monitor running interval times = WStopped s ->
     exists k, (k < times)%nat /\ running k = false /\ (forall j, (j < k)%nat -> running j = true) /\
       s = interval * Z.of_nat (S k)) /\
  (forall s, stop_monitor running interval times = WFailed s ->
     (forall j, (j < times)%nat -> running j = true) /\ s = interval * Z.of_nat times).
Proof. exact monitor. Qed.
Print Assumptions C69_report.

(** For as long as start() is polling, the running flag is True. *)
Theorem C69_running_while_polling : forall known raises name polls closing st st' log,
  eq_start known raises name polls closing st = (st', log, None) -> eq_running st' = true.
Proof.
  intros known raises name polls closing st st' log. unfold eq_start.
  destruct (String.eqb name "event_queue"); [destruct (eq_stopped _); discriminate|].
  destruct (String.eqb name "EventQueueGet"); [|discriminate].
  destruct (eq_loop known raises polls (set_running st true)) as [st1 log1] eqn:L.
  assert (eq_running st1 = true) as R.
  { enough (forall polls st st1 log1, eq_loop known raises polls st = (st1, log1) -> eq_running st1 = eq_running st) as K
      by (rewrite (K _ _ _ _ L); reflexivity).
    clear. induction polls as [|p polls IH]; intros st st1 log1; cbn [eq_loop].
    - destruct (eq_stopped st); now intros [= <- <-].
    - destruct (eq_stopped st); [now intros [= <- <-]|].
      destruct (eq_after known raises st (p_out p)) as [st2 del] eqn:A.
      destruct (eq_loop known raises polls (if p_stop p then set_stopped st2 true else st2)) as [st3 log3] eqn:B.
      intros [= <- <-]. apply IH in B. rewrite B.
      assert (eq_running st2 = eq_running st) as A'.
      { unfold eq_after in A. destruct (is_none _); [now injection A as <- _|].
        destruct (getitem _ _); now injection A as <- _. }
      destruct (p_stop p); exact A'. }
  destruct (eq_stopped st1); [|intros [= <- <-]; exact R].
  destruct (equals_minus1 (eq_last st1)); [discriminate|]. destruct closing; discriminate.
Qed.
Print Assumptions C69_running_while_polling.

(** If start() ends, in state [st], before wake-up [k] of the watcher: success
    is reported at that wake-up iff it is one of the ten and the flag was
    cleared. *)
Theorem C69_after_end : forall s k st,
  let interval := REGION_EVENT_QUEUE_POLL_INTERVAL s in
  stop_watch s (flag_seen k st) =
    if Nat.ltb k 10 && negb (eq_running st) then WStopped (interval * Z.of_nat (S k))
    else WFailed (interval * 10).
Proof.
  intros s k st interval. unfold stop_watch. fold interval.
  destruct (monitor (flag_seen k st) interval 10) as (M1 & M2).
  destruct (stop_monitor (flag_seen k st) interval 10) as [x|x].
  - destruct (M1 x eq_refl) as (j & J & F & B & ->). unfold flag_seen in F, B.
    destruct (Nat.ltb_spec j k) as [L|L]; [discriminate|]. rewrite F.
    assert (j = k) as ->.
    { destruct (Nat.eq_dec j k) as [|N]; [assumption|]. specialize (B k ltac:(lia)).
      destruct (Nat.ltb_spec k k); [lia|]. congruence. }
    destruct (Nat.ltb_spec k 10); [reflexivity|lia].
  - destruct (M2 x eq_refl) as (B & ->). unfold flag_seen in B.
    destruct (Nat.ltb_spec k 10) as [L|L]; [|reflexivity].
    specialize (B k L). destruct (Nat.ltb_spec k k); [lia|]. rewrite B. reflexivity.
Qed.
Print Assumptions C69_after_end.

(** So a queue that was stopped while polling is reported as stopped exactly
    if its closing post is not needed or succeeds, in time: when the closing
    post fails, failure is reported although the polling has ended. *)
Theorem C69_region : forall known raises polls closing st log s k id,
  is_stopped polls = true ->
  eq_start known raises "EventQueueGet" polls closing eq_init = (st, log, Some true) \/
  eq_start known raises "EventQueueGet" polls closing eq_init = (st, log, Some false) ->
  ack_id (map p_out (begun polls)) id ->
  stop_watch s (flag_seen k st) = WFailed (REGION_EVENT_QUEUE_POLL_INTERVAL s * 10) <->
  (10 <= k)%nat \/ (equals_minus1 id = false /\ exists e, closing = PostErr e).
Proof.
  intros known raises polls closing st log s k id S H A.
  assert (exists r, eq_start known raises "EventQueueGet" polls closing eq_init = (st, log, r)) as (r & E)
    by (destruct H; eauto).
  destruct (start_region known raises polls closing st log r E) as (ids & id' & _ & _ & A' & _ & _ & _ & R & _).
  rewrite (ack_id_fun _ _ _ A' A) in R. rewrite S in R. cbn in R.
  rewrite C69_after_end. rewrite R.
  destruct (Nat.ltb_spec k 10) as [L|L]; cbn [andb].
  - destruct (equals_minus1 id) eqn:I, closing; cbn [orb andb negb];
      (split; [intros X; try discriminate X; right; eauto|intros [X|(X & e' & Y)]; [lia|]; try discriminate; reflexivity]).
  - split; [auto|reflexivity].
Qed.
Print Assumptions C69_region.

(** An agent domain queue started before stop(): always reported as failed. *)
Theorem C69_agent_domain : forall known raises polls closing st s k,
  eq_stopped st = false ->
  let '(st', _, _) := eq_start known raises "event_queue" polls closing st in
  stop_watch s (flag_seen k (eq_stop st')) = WFailed (REGION_EVENT_QUEUE_POLL_INTERVAL s * 10).
Proof.
  intros known raises polls closing st s k N. unfold eq_start.
  change (String.eqb "event_queue" "event_queue") with true. cbn iota beta zeta.
  change (eq_stopped (set_running st true)) with (eq_stopped st). rewrite N. rewrite C69_after_end.
  change (eq_running (eq_stop (set_running st true))) with true. cbn [negb]. now rewrite andb_false_r.
Qed.
Print Assumptions C69_agent_domain.

Definition one_poll : list poll :=
  [{| p_out := PostOk (LMap [("id"%string, LInt 5); ("events"%string, LArr [])]); p_stop := true |}].
Definition ended (closing : post_outcome) : eqstate :=
  fst (fst (eq_start (fun _ => false) (fun _ => false) "EventQueueGet" one_poll closing eq_init)).
Example C69_case : stop_watch defaults (flag_seen 3 (ended (PostOk LUndef))) = WStopped 4 /\
  stop_watch defaults (flag_seen 30 (ended (PostOk LUndef))) = WFailed 10 /\
  stop_watch defaults (flag_seen 3 (ended (PostErr (Raised 0)))) = WFailed 10 /\
  stop_watch defaults (fun _ => false) = WStopped 1.
Proof. repeat split; reflexivity. Qed.

(** ** C70 *)

Definition get_of (c : capability) : url_request :=
  {| ur_url := cap_url c; ur_data := None; ur_headers := [] |}.
Definition post_of (c : capability) (data : bytes) (headers : list (string * string)) : url_request :=
  {| ur_url := cap_url c; ur_data := Some data; ur_headers := headers |}.

(** GET over the default client: a value iff the server answers one GET, without
    body or extra headers, with LLSD. *)
Theorem C70_GET_ok : forall parse urlopen c custom v,
  cap_GET parse (std_net urlopen) c custom = Ok v <->
  exists headers b ct, answered (urlopen (get_of c)) headers b /\
    sget "content-type"%string headers = Some ct /\ up_to_semicolon ct "application/llsd+xml" /\
    body_value parse (BStr b) v.
Proof.
  intros parse urlopen c custom v. rewrite GET_ok. cbn [std_net]. unfold client_GET.
  change {| ur_url := cap_url c; ur_data := None; ur_headers := [] |} with (get_of c).
  unfold answered. destruct (urlopen (get_of c)) as [code msg hs b|code msg fp|e]; cbn; split.
  - intros (ct & b' & [= E <-] & U & B). exists hs, b, ct. eauto 6.
  - intros (hs' & b' & ct & (code' & msg' & [= -> -> -> ->]) & E & U & B). unfold content_type. rewrite E. eauto 6.
  - intros (ct & b' & [=] & _).
  - intros (hs' & b' & ct & (code' & msg' & [=]) & _).
  - intros (ct & b' & [=] & _).
  - intros (hs' & b' & ct & (code' & msg' & [=]) & _).
Qed.
Print Assumptions C70_GET_ok.

(** HTTP errors become ResourceNotFound or ResourceError; everything else that
    goes wrong below (refused connections, timeouts, unknown hosts) escapes as
    it is; a response without Content-Type is a KeyError. *)
Theorem C70_GET_errors : forall parse urlopen c custom,
  (forall code, refused (urlopen (get_of c)) code ->
     exists e, reported_as (cap_url c) "GET" code e /\ cap_GET parse (std_net urlopen) c custom = Err e) /\
  (forall e, urlopen (get_of c) = UrlRaises e -> cap_GET parse (std_net urlopen) c custom = Err e) /\
  (forall headers b, answered (urlopen (get_of c)) headers b -> sget "content-type"%string headers = None ->
     cap_GET parse (std_net urlopen) c custom = Err KeyErr).
Proof.
  intros parse urlopen c custom. unfold cap_GET. cbn [std_net]. unfold client_GET.
  change {| ur_url := cap_url c; ur_data := None; ur_headers := [] |} with (get_of c).
  split; [|split].
  - intros code (msg & fp & ->). cbn. unfold http_error, reported_as.
    destruct (Z.eqb_spec code 404); eexists; (split; [|reflexivity]); auto.
  - intros e ->. reflexivity.
  - intros headers b (code & msg & ->) E. cbn. unfold content_type. now rewrite E.
Qed.
Print Assumptions C70_GET_errors.

Theorem C70_POST_ok : forall parse format urlopen c payload custom v, NoDup (map fst custom) ->
  let h := posted_headers custom in
  (cap_POST parse format (std_net urlopen) c payload custom = Ok v <->
   ((exists l, payload = LArr l) \/ (exists m, payload = LMap m)) /\
   exists data headers b ct, format payload = Ok data /\
     answered (urlopen (post_of c data h)) headers b /\ sget "content-type"%string headers = Some ct /\
     post_acceptable ct (BStr b) /\ body_value parse (BStr b) v).
Proof.
  intros parse format urlopen c payload custom v N.
  cbv zeta. rewrite <- posted_headers_is by exact N.
  - rewrite POST_ok. cbn [std_net]. unfold client_POST, answered.
    set (h := update_headers _ custom). split; intros (P & H); (split; [exact P|]).
    + destruct H as (data & ct & b & F & R & A & B).
      change {| ur_url := cap_url c; ur_data := Some data; ur_headers := h |} with (post_of c data h) in R.
      destruct (urlopen (post_of c data h)) as [code msg hs b'|code msg fp|e] eqn:U; try discriminate R.
      cbn in R. injection R as R <-. exists data, hs, b', ct. rewrite U. eauto 10.
    + destruct H as (data & hs & b & ct & F & (code & msg & U) & R & A & B).
      exists data, ct, (BStr b).
      change {| ur_url := cap_url c; ur_data := Some data; ur_headers := h |} with (post_of c data h).
      rewrite U. cbn. unfold content_type. rewrite R. auto.
Qed.
Print Assumptions C70_POST_ok.

Theorem C70_POST_errors : forall parse format urlopen c payload custom data, NoDup (map fst custom) ->
  ((exists l, payload = LArr l) \/ (exists m, payload = LMap m)) -> format payload = Ok data ->
  let h := posted_headers custom in
  (forall code, refused (urlopen (post_of c data h)) code ->
     exists e, reported_as (cap_url c) "POST" code e /\ cap_POST parse format (std_net urlopen) c payload custom = Err e) /\
  (forall e, urlopen (post_of c data h) = UrlRaises e -> cap_POST parse format (std_net urlopen) c payload custom = Err e) /\
  (forall headers b, answered (urlopen (post_of c data h)) headers b -> sget "content-type"%string headers = None ->
     cap_POST parse format (std_net urlopen) c payload custom = Err KeyErr).
Proof.
  intros parse format urlopen c payload custom data N P F h. subst h. rewrite <- posted_headers_is by exact N.
  set (h := update_headers _ custom).
  assert (cap_POST parse format (std_net urlopen) c payload custom =
          post_raw parse (std_net urlopen) c h data) as E.
  { unfold cap_POST. destruct P as [(l & ->)|(m & ->)]; rewrite F; reflexivity. }
  rewrite E. unfold post_raw. cbn [std_net]. unfold client_POST.
  change {| ur_url := cap_url c; ur_data := Some data; ur_headers := h |} with (post_of c data h).
  split; [|split].
  - intros code (msg & fp & ->). cbn. unfold http_error, reported_as.
    destruct (Z.eqb_spec code 404); eexists; (split; [|reflexivity]); auto.
  - intros e ->. reflexivity.
  - intros headers b (code & msg & ->) X. cbn. unfold content_type. now rewrite X.
Qed.
Print Assumptions C70_POST_errors.

(** A call asks the server exactly this and nothing else: servers that answer
    it alike cannot be told apart. *)
Theorem C70_one_request : forall parse format urlopen urlopen' c,
  (forall custom custom', urlopen (get_of c) = urlopen' (get_of c) ->
     cap_GET parse (std_net urlopen) c custom = cap_GET parse (std_net urlopen') c custom') /\
  (forall payload custom, NoDup (map fst custom) ->
     (forall data, format payload = Ok data ->
        let q := post_of c data (posted_headers custom) in
        urlopen q = urlopen' q) ->
     cap_POST parse format (std_net urlopen) c payload custom = cap_POST parse format (std_net urlopen') c payload custom) /\
  (forall headers payload, urlopen (post_of c payload headers) = urlopen' (post_of c payload headers) ->
     cap_POST_CUSTOM parse (std_net urlopen) c headers payload = cap_POST_CUSTOM parse (std_net urlopen') c headers payload).
Proof.
  intros parse format urlopen urlopen' c. split; [|split].
  - intros custom custom' E. unfold cap_GET. cbn [std_net]. unfold client_GET. fold (get_of c). now rewrite E.
  - intros payload custom N E. rewrite <- posted_headers_is in E by exact N. unfold cap_POST.
    destruct payload; try reflexivity; destruct (format _) as [data|e] eqn:F; try reflexivity; cbn [bind];
      unfold post_raw; cbn [std_net]; unfold client_POST;
      specialize (E data eq_refl); unfold post_of in E; cbn zeta in E; now rewrite E.
  - intros headers payload E. unfold cap_POST_CUSTOM, post_raw. cbn [std_net]. unfold client_POST.
    fold (post_of c payload headers). now rewrite E.
Qed.
Print Assumptions C70_one_request.

(** A server that has nothing to report yet answers a poll of the event queue
    with 502: by C70 a failed poll. *)
Definition poll_outcome (r : res llsd) : post_outcome :=
  match r with Ok v => PostOk v | Err e => PostErr e end.
Definition busy_server (q : url_request) : url_result :=
  match ur_data q with
  | None => UrlOk 200 "OK" [("content-type", "application/llsd+xml; charset=utf-8")%string] (bytes_of_string "<llsd/>")
  | Some _ => if String.eqb (ur_url q) "http://down/" then UrlRaises (Raised 7)
              else UrlHTTPError 502 "Upstream error:" []
  end.
Definition cap_at (url : string) := {| cap_name := "EventQueueGet"; cap_url := url; cap_client := 0 |}.
Example C70_case :
  let parse := fun s => ParseOk (LInt (zlen s)) in let format := fun _ => Ok (bytes_of_string "x") in
  poll_outcome (cap_POST parse format (std_net busy_server) (cap_at "http://up/") (LMap []) []) =
    PostErr (ResourceErr "http://up/" 502 "POST") /\
  poll_outcome (cap_POST parse format (std_net busy_server) (cap_at "http://down/") (LMap []) []) = PostErr (Raised 7) /\
  cap_GET parse (std_net busy_server) (cap_at "http://up/") [] = Ok (LInt 7).
Proof. repeat split; reflexivity. Qed.
