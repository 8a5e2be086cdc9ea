(** Proofs about capability calls and event queues with logging: C85-C88. *)
From Verif Require Import Lib SpecWebLogging WebProofs ObjectTextProofs.
Open Scope Z_scope.
Open Scope list_scope.

Definition post_headers (custom : list (string * string)) : list (string * string) :=
  update_headers [("Content-type", "application/llsd+xml")%string] custom.

(** ** Formatting *)
Lemma ascii_only_false b : ascii_only b = false <-> exists c, In c b /\ 128 <= ord c.
Proof.
  unfold ascii_only. induction b as [|x b IH]; cbn.
  - split; [discriminate|intros (c & [] & _)].
  - destruct (Z.ltb_spec (ord x) 128) as [L|L]; cbn.
    + rewrite IH. split.
      * intros (c & I & H). eauto.
      * intros (c & [<-|I] & H); [lia|eauto].
    + split; [|reflexivity]. intros _. exists x. auto.
Qed.
Lemma ascii_only_app a b : ascii_only (a ++ b) = ascii_only a && ascii_only b.
Proof. apply forallb_app. Qed.
Lemma undecodable_iff t : undecodable t <-> t_flavour t = ByteText /\ ascii_only (t_chars t) = false.
Proof. unfold undecodable. now rewrite ascii_only_false. Qed.

Lemma format_unicode_spec args :
  ((exists t, In t args /\ undecodable t) -> format_unicode args = Err ValueErr) /\
  (~ (exists t, In t args /\ undecodable t) -> format_unicode args = Ok tt).
Proof.
  induction args as [|a args [E O]]; cbn.
  - split; [intros (t & [] & _)|reflexivity].
  - destruct (t_flavour a) eqn:F.
    + destruct (ascii_only (t_chars a)) eqn:I.
      * split.
        -- intros (t & [<-|J] & U); [|apply E; eauto]. apply undecodable_iff in U. destruct U. congruence.
        -- intros N. apply O. intros (t & J & U). apply N. eauto.
      * split; [reflexivity|]. intros N. exfalso. apply N. exists a. split; [now left|]. now apply undecodable_iff.
    + split.
      * intros (t & [<-|J] & U); [|apply E; eauto]. destruct U. congruence.
      * intros N. apply O. intros (t & J & U). apply N. eauto.
Qed.
Lemma format_bytes_spec args : forall sofar,
  let mixed := (exists t, In t args /\ unicode_text t) /\
               (ascii_only sofar = false \/ exists t, In t args /\ undecodable t) in
  (mixed -> format_bytes sofar args = Err ValueErr) /\
  (~ mixed -> format_bytes sofar args = Ok tt).
Proof.
  induction args as [|a args IH]; intros sofar mixed; subst mixed.
  - split; [intros ((t & [] & _) & _)|reflexivity].
  - cbn [format_bytes]. destruct (t_flavour a) eqn:F.
    + destruct (IH (sofar ++ t_chars a)) as [E O]. rewrite ascii_only_app in E, O. split.
      * intros ((t & [<-|J] & U) & M); [unfold unicode_text in U; congruence|].
        apply E. split; [eauto|]. destruct M as [M|(t' & [<-|J'] & U')].
        -- left. now rewrite M.
        -- left. apply undecodable_iff in U' as [_ ->]. apply andb_false_r.
        -- right. eauto.
      * intros N. apply O. intros ((t & J & U) & M). apply N. split; [exists t; split; [now right|exact U]|].
        destruct M as [M|(t' & J' & U')]; [|right; exists t'; split; [now right|exact U']].
        apply andb_false_iff in M as [M|M]; [now left|]. right. exists a. split; [now left|]. now apply undecodable_iff.
    + destruct (ascii_only sofar) eqn:I.
      * destruct (format_unicode_spec (a :: args)) as [E O]. split.
        -- intros (_ & [M|M]); [discriminate|]. now apply E.
        -- intros N. apply O. intros M. apply N. split; [|now right]. exists a. split; [now left|exact F].
      * split; [reflexivity|]. intros N. exfalso. apply N. split; [|now left]. exists a. split; [now left|exact F].
Qed.
Lemma format_clash args : clash args -> format_texts args = Err ValueErr.
Proof. intros [U D]. apply (format_bytes_spec args []). split; [exact U|now right]. Qed.
Lemma format_fine args : ~ clash args -> format_texts args = Ok tt.
Proof. intros N. apply (format_bytes_spec args []). intros (U & [M|M]); [discriminate|]. now apply N. Qed.

Lemma undecodable_dec t : undecodable t \/ ~ undecodable t.
Proof.
  rewrite undecodable_iff. destruct (t_flavour t); [|right; intros [? _]; discriminate].
  destruct (ascii_only (t_chars t)); [right; intros [_ ?]; discriminate|left; auto].
Qed.
Lemma exists_dec (P : text -> Prop) : (forall t, P t \/ ~ P t) -> forall l,
  (exists t, In t l /\ P t) \/ ~ (exists t, In t l /\ P t).
Proof.
  intros D l. induction l as [|a l IH]; [right; intros (t & [] & _)|].
  destruct (D a) as [H|H]; [left; exists a; split; [now left|exact H]|].
  destruct IH as [(t & I & H')|N]; [left; exists t; split; [now right|exact H']|].
  right. intros (t & [<-|I] & H'); [contradiction|]. apply N. eauto.
Qed.
Lemma clash_dec args : clash args \/ ~ clash args.
Proof.
  destruct (exists_dec unicode_text (fun t => ltac:(unfold unicode_text; destruct (t_flavour t); auto; right; discriminate)) args) as [U|U].
  - destruct (exists_dec undecodable undecodable_dec args) as [D|D]; [left; split; assumption|].
    right. intros [_ ?]. contradiction.
  - right. intros [? _]. contradiction.
Qed.
Lemma format_ok args : format_texts args = Ok tt <-> ~ clash args.
Proof.
  split; [|apply format_fine]. intros H C. rewrite (format_clash _ C) in H. discriminate.
Qed.

Lemma plain_no_clash url t : plain_url url -> ~ clash [url; t] /\ ~ clash [t; url].
Proof.
  intros [F A]. split.
  - intros ((u & [<-|[<-|[]]] & U) & (d & [<-|[<-|[]]] & B & c & I & H)); unfold unicode_text in U; try congruence.
    all: specialize (A c I) || idtac; try lia; congruence.
  - intros ((u & [<-|[<-|[]]] & U) & (d & [<-|[<-|[]]] & B & c & I & H)); unfold unicode_text in U; try congruence.
    all: specialize (A c I) || idtac; try lia; congruence.
Qed.

(** ** Lines *)
Lemma log_line_on args l : ~ clash args -> log_line true args l = ([CapLine l], Ok tt).
Proof. intros N. unfold log_line. now rewrite format_fine. Qed.
Lemma log_line_clash args l : clash args -> log_line true args l = ([], Err ValueErr).
Proof. intros N. unfold log_line. now rewrite format_clash. Qed.

Lemma body_text_ok other b t : body_text other b = Ok t <-> body_logged other b t.
Proof.
  destruct b as [s|]; cbn; [|reflexivity]. split.
  - intros [= <-]. cbn. split; [reflexivity|]. destruct (trimmed_exists s) as (t & T).
    now rewrite (strip_trimmed s t T).
  - intros [F T]. destruct t as [f x]. cbn in *. subst f. now rewrite (strip_trimmed s x T).
Qed.

Lemma cbind_ok {A B} (a : A) (f : A -> cres B) : cbind (clift (Ok a)) f = f a.
Proof. unfold cbind, clift. now destruct (f a). Qed.

(** ** What follows an answer *)
Definition answer_tail (llsd_on caps_on : bool) (other : res text) (url : text) (b : body)
  (t : text) (l : capline) (data : llsd) : cres llsd :=
  cdo _ <- log_body llsd_on other url b;
  cdo _ <- log_line caps_on [url; t] l;
  clift (Ok data).

Lemma requests_app a b : requests (a ++ b) = requests a ++ requests b.
Proof. apply flat_map_app. Qed.

Lemma answer_tail_cases llsd_on caps_on other url b t l data :
  let '(tr, r) := answer_tail llsd_on caps_on other url b t l data in
  requests tr = [] /\
  ((exists e, spoils llsd_on caps_on other url b t e /\ r = Err e) \/
   ((forall e, ~ spoils llsd_on caps_on other url b t e) /\ r = Ok data /\
    answer_lines llsd_on caps_on other url b l tr)).
Proof.
  unfold answer_tail, log_body.
  assert (forall t1, requests t1 = [] ->
    (llsd_on = true -> exists bt, body_logged other b bt /\ ~ clash [url; bt]) ->
    (if llsd_on then exists bt, body_logged other b bt /\ t1 = [CapLine (BodyLine url bt)] else t1 = []) ->
    let '(tr, r) := cbind (t1, Ok tt) (fun _ => cdo _ <- log_line caps_on [url; t] l; clift (Ok data)) in
    requests tr = [] /\
    ((exists e, spoils llsd_on caps_on other url b t e /\ r = Err e) \/
     ((forall e, ~ spoils llsd_on caps_on other url b t e) /\ r = Ok data /\
      answer_lines llsd_on caps_on other url b l tr))) as Rest.
  { intros t1 R1 B T1.
    assert (Hb : forall e, spoils llsd_on caps_on other url b t e -> caps_on = true /\ clash [url; t]).
    { intros e S. destruct S as [e E H H'|bt E H H'|H H' H'']; [| |auto]; exfalso; destruct (B E) as (bt' & Hb & N).
      - subst b. cbn in Hb. congruence.
      - apply body_text_ok in H, Hb. rewrite H in Hb. injection Hb as ->. contradiction. }
    destruct caps_on.
    - destruct (clash_dec [url; t]) as [C|C].
      + rewrite log_line_clash by exact C. cbn. rewrite app_nil_r. split; [exact R1|].
        left. exists ValueErr. split; [|reflexivity]. now apply spoils_value.
      + rewrite log_line_on by exact C. cbn. rewrite requests_app, R1. split; [reflexivity|].
        right. split; [intros e S; now destruct (Hb e S)|]. split; [reflexivity|]. exists t1. split; [reflexivity|exact T1].
    - cbn. rewrite app_nil_r. split; [exact R1|]. right. split; [intros e S; destruct (Hb e S); discriminate|].
      split; [reflexivity|]. exists t1. split; [now rewrite app_nil_r|exact T1]. }
  destruct llsd_on.
  - destruct (body_text other b) as [bt|e] eqn:E.
    + cbn [clift cbind]. destruct (clash_dec [url; bt]) as [C|C].
      * rewrite log_line_clash by exact C. cbn. split; [reflexivity|]. left. exists ValueErr. split; [|reflexivity].
        apply spoils_body with bt; auto. now apply body_text_ok.
      * rewrite log_line_on by exact C. apply body_text_ok in E. apply Rest; [reflexivity|eauto|eauto].
    + cbn. split; [reflexivity|]. left. exists e. split; [|reflexivity]. destruct b as [s|]; [discriminate|].
      now apply spoils_no_strip.
  - apply Rest; [reflexivity|discriminate|reflexivity].
Qed.

(** ** GET *)
Lemma lGET_cases parse net uni other c h :
  let '(tr, r) := lcap_GET parse net uni other c in
  let s := lc_settings c in
  let url := str_of (lc_url c) in
  let first := if ENABLE_CAPS_LOGGING s then [CapLine (GetLine (lc_name c) (lc_url c))] else [] in
  (get_unsent c /\ tr = [] /\ r = Err ValueErr) \/
  (~ get_unsent c /\ requests tr = [ReqGet url] /\
   match cap_GET parse net (cap_of c) h with
   | Err e => r = Err e /\ tr = first ++ [CapRequest (ReqGet url)]
   | Ok v => exists ct b, net (ReqGet url) = Response ct b /\
       ((exists e, spoils (logs_get_body s) (ENABLE_CAPS_LOGGING s) other (lc_url c) b (shown uni v) e /\ r = Err e) \/
        ((forall e, ~ spoils (logs_get_body s) (ENABLE_CAPS_LOGGING s) other (lc_url c) b (shown uni v) e) /\ r = Ok v /\
         exists t, tr = first ++ [CapRequest (ReqGet url)] ++ t /\
           answer_lines (logs_get_body s) (ENABLE_CAPS_LOGGING s) other (lc_url c) b (GotLine (lc_url c) v) t))
   end).
Proof.
  unfold lcap_GET, cap_GET, get_unsent. cbn [cap_of cap_url].
  set (url := str_of (lc_url c)). set (s := lc_settings c).
  assert (forall t1, requests t1 = [] -> ~ (ENABLE_CAPS_LOGGING s = true /\ clash [lc_name c; lc_url c]) ->
    let '(tr, r) := cbind (t1, Ok tt) (fun _ =>
      cdo r <- ([CapRequest (ReqGet url)],
            match net (ReqGet url) with
            | HttpError code => Err (http_error url code "GET")
            | HttpRaises e => Err e
            | Response None _ => Err KeyErr
            | Response (Some ct) b => Ok (before_semi ct, b)
            end);
      if String.eqb (fst r) "application/llsd+xml" then
        cdo data <- clift (llsd_deserialize parse (snd r));
        cdo _ <- log_body (LOG_VERBOSE s && ENABLE_CAPS_LLSD_LOGGING s) other (lc_url c) (snd r);
        cdo _ <- log_line (ENABLE_CAPS_LOGGING s) [lc_url c; shown uni data] (GotLine (lc_url c) data);
        clift (Ok data)
      else clift (Err (DeserializerNotFoundErr (fst r)))) in
    requests tr = [ReqGet url] /\
    match cap_GET parse net (cap_of c) h with
    | Err e => r = Err e /\ tr = t1 ++ [CapRequest (ReqGet url)]
    | Ok v => exists ct b, net (ReqGet url) = Response ct b /\
       ((exists e, spoils (logs_get_body s) (ENABLE_CAPS_LOGGING s) other (lc_url c) b (shown uni v) e /\ r = Err e) \/
        ((forall e, ~ spoils (logs_get_body s) (ENABLE_CAPS_LOGGING s) other (lc_url c) b (shown uni v) e) /\ r = Ok v /\
         exists t, tr = t1 ++ [CapRequest (ReqGet url)] ++ t /\
           answer_lines (logs_get_body s) (ENABLE_CAPS_LOGGING s) other (lc_url c) b (GotLine (lc_url c) v) t))
    end) as Rest.
  { intros t1 R1 _. unfold cap_GET. cbn [cap_of cap_url]. fold url.
    destruct (net (ReqGet url)) as [[ct|] b|code|e];
      try (cbn; rewrite requests_app, R1; split; [reflexivity|]; split; reflexivity).
    cbn [fst snd cbind]. destruct (String.eqb (before_semi ct) "application/llsd+xml").
    - destruct (llsd_deserialize parse b) as [v|e].
      + pose proof (answer_tail_cases (logs_get_body s) (ENABLE_CAPS_LOGGING s) other (lc_url c) b (shown uni v) (GotLine (lc_url c) v) v) as T.
        unfold cbind at 1 3. cbn [clift].
        match goal with |- context [cbind (log_body ?a other (lc_url c) b) ?k] =>
          change (cbind (log_body a other (lc_url c) b) k) with
            (answer_tail (logs_get_body s) (ENABLE_CAPS_LOGGING s) other (lc_url c) b (shown uni v) (GotLine (lc_url c) v) v) end.
        destruct (answer_tail _ _ _ _ _ _ _ _) as [tr r].
        destruct T as [RT T]. rewrite !requests_app, R1, RT.
        split; [reflexivity|]. exists (Some ct), b. split; [reflexivity|].
        destruct T as [T|(T1 & T2 & T3)]; [left; exact T|right]. split; [exact T1|]. split; [exact T2|].
        exists tr. split; [reflexivity|exact T3].
      + cbn. rewrite requests_app, R1. repeat split.
    - cbn. rewrite requests_app, R1. repeat split. }
  fold (cap_GET parse net (cap_of c) h) in *.
  destruct (ENABLE_CAPS_LOGGING s) eqn:On.
  - destruct (clash_dec [lc_name c; lc_url c]) as [C|C].
    + rewrite log_line_clash by exact C. cbn. left. auto.
    + rewrite log_line_on by exact C.
      specialize (Rest [CapLine (GetLine (lc_name c) (lc_url c))] eq_refl ltac:(intros [_ ?]; contradiction)).
      unfold cap_GET in Rest. cbn [cap_of cap_url] in Rest. fold url in Rest.
      match goal with |- let '(_, _) := ?x in _ => destruct x as [tr r] end.
      right. split; [intros [_ ?]; contradiction|]. exact Rest.
  - specialize (Rest [] eq_refl ltac:(intros [? _]; discriminate)).
    unfold cap_GET in Rest. cbn [cap_of cap_url] in Rest. fold url in Rest.
    change (log_line false [lc_name c; lc_url c] (GetLine (lc_name c) (lc_url c))) with (([], Ok tt) : cres unit).
    match goal with |- let '(_, _) := ?x in _ => destruct x as [tr r] end.
    right. split; [intros [? _]; discriminate|]. exact Rest.
Qed.

(** ** POST and POST_CUSTOM *)
Lemma lpost_raw_cases parse net uni other c headers payload :
  let '(tr, r) := lpost_raw parse net uni other c headers payload in
  let s := lc_settings c in
  let req := ReqPost (str_of (lc_url c)) payload headers in
  requests tr = [req] /\
  match post_raw parse net (cap_of c) headers payload with
  | Err e => r = Err e /\ (tr = [CapRequest req] \/ tr = [CapRequest req; CapPrint])
  | Ok v => exists ct b, net req = Response ct b /\
      ((exists e, spoils (logs_post_body s) (ENABLE_CAPS_LOGGING s) other (lc_url c) b (shown uni v) e /\ r = Err e) \/
       ((forall e, ~ spoils (logs_post_body s) (ENABLE_CAPS_LOGGING s) other (lc_url c) b (shown uni v) e) /\ r = Ok v /\
        exists t, tr = CapRequest req :: t /\
          answer_lines (logs_post_body s) (ENABLE_CAPS_LOGGING s) other (lc_url c) b (PostedLine (lc_url c) v) t))
  end.
Proof.
  unfold lpost_raw, post_raw. cbn [cap_of cap_url].
  set (url := str_of (lc_url c)). set (s := lc_settings c).
  destruct (net (ReqPost url payload headers)) as [ct b|code|e]; try (cbn; auto).
  cbn [cbind fst snd]. unfold lresponse_handler, response_handler.
  destruct ct as [ct|]; [|cbn; auto].
  set (ok := if String.eqb (before_semi ct) "application/llsd+xml" || String.eqb (before_semi ct) "application/xml"
             then Ok true else _). clearbody ok.
  destruct ok as [ok|e]; [|cbn; auto]. rewrite cbind_ok. cbn [bind]. destruct ok; [|cbn; auto].
  destruct (llsd_deserialize parse b) as [v|e]; [|cbn; auto].
  pose proof (answer_tail_cases (logs_post_body s) (ENABLE_CAPS_LOGGING s) other (lc_url c) b (shown uni v) (PostedLine (lc_url c) v) v) as T.
  fold s. rewrite cbind_ok.
  match goal with |- context [cbind (log_body ?a other (lc_url c) b) ?k] =>
    change (cbind (log_body a other (lc_url c) b) k) with
      (answer_tail (logs_post_body s) (ENABLE_CAPS_LOGGING s) other (lc_url c) b (shown uni v) (PostedLine (lc_url c) v) v) end.
  destruct (answer_tail _ _ _ _ _ _ _ _) as [tr r].
  destruct T as [RT T]. split; [change (ReqPost url payload headers :: requests tr = [ReqPost url payload headers]); now rewrite RT|].
  exists (Some ct), b. split; [reflexivity|].
  destruct T as [T|(T1 & T2 & T3)]; [left; exact T|right]. split; [exact T1|]. split; [exact T2|].
  exists tr. split; [reflexivity|exact T3].
Qed.

(** The response is printed iff POST cannot read it. *)
Lemma lpost_raw_print parse net uni other c headers payload :
  let '(tr, r) := lpost_raw parse net uni other c headers payload in
  let req := ReqPost (str_of (lc_url c)) payload headers in
  forall e, post_raw parse net (cap_of c) headers payload = Err e ->
  unreadable (net req) /\ tr = [CapRequest req; CapPrint] \/ ~ unreadable (net req) /\ tr = [CapRequest req].
Proof.
  unfold lpost_raw, post_raw. cbn [cap_of cap_url].
  set (url := str_of (lc_url c)). set (s := lc_settings c).
  destruct (net (ReqPost url payload headers)) as [ct b|code|e].
  2:{ cbn. intros e _. right. split; [intros (? & ? & [=] & _)|reflexivity]. }
  2:{ cbn. intros e' _. right. split; [intros (? & ? & [=] & _)|reflexivity]. }
  cbn [cbind fst snd]. unfold lresponse_handler, response_handler.
  destruct ct as [ct|]; [|cbn; intros e _; right; split; [intros (? & ? & [=] & _)|reflexivity]].
  set (ok := if String.eqb (before_semi ct) "application/llsd+xml" || String.eqb (before_semi ct) "application/xml"
             then Ok true else _).
  assert (match ok with Ok true => post_acceptable ct b | Ok false => unreadable (Response (Some ct) b)
          | Err _ => ~ unreadable (Response (Some ct) b) end) as Hok.
  { unfold ok, unreadable, post_acceptable.
    destruct (String.eqb_spec (before_semi ct) "application/llsd+xml") as [T1|T1];
      [cbn [orb]; left; now apply up_to_semicolon_iff|].
    destruct (String.eqb_spec (before_semi ct) "application/xml") as [T2|T2];
      [cbn [orb]; right; left; now apply up_to_semicolon_iff|]. cbn [orb].
    destruct (String.eqb_spec (before_semi ct) "text/html") as [T3|T3].
    - destruct b as [t|].
      + pose proof (llsd_looking t) as L. destruct (re_match llsd_re t).
        * right. right. split; [now apply up_to_semicolon_iff|]. exists t. split; [reflexivity|]. apply L. discriminate.
        * exists ct, (BStr t). split; [reflexivity|]. split; [|eauto]. rewrite !up_to_semicolon_iff.
          intros [X|[X|(_ & x & [= <-] & X)]]; [contradiction|contradiction|]. now apply L in X.
      + intros (ct' & b' & [= <- <-] & _ & X). apply up_to_semicolon_iff in T3. destruct (X T3) as [x [=]].
    - exists ct, b. split; [reflexivity|]. rewrite !up_to_semicolon_iff. split; [|intros X; now destruct T3].
      intros [X|[X|(X & _)]]; contradiction. }
  assert (post_acceptable ct b -> ~ unreadable (Response (Some ct) b)) as PA by (intros A (? & ? & [= <- <-] & N & _); contradiction).
  clearbody ok. destruct ok as [[|]|e]; cbn [bind]; rewrite ?cbind_ok.
  - destruct (llsd_deserialize parse b) as [v|e]; [|cbn; intros e' _; right; auto].
    match goal with |- let '(_, _) := ?x in _ => destruct x as [tr r] end. cbn. discriminate.
  - cbn. intros e _. left. auto.
  - cbn. intros e' _. right. auto.
Qed.

Lemma lPOST_cases parse format net uni other c payload custom :
  let '(tr, r) := lcap_POST parse format net uni other c payload custom in
  let s := lc_settings c in
  let first := if ENABLE_CAPS_LOGGING s then [CapLine (PostLine (lc_url c) payload)] else [] in
  (post_unsent format uni c payload /\ requests tr = [] /\ r = Err ValueErr) \/
  (~ post_unsent format uni c payload /\
   ((~ list_or_dict payload /\ tr = first /\ r = Err (DeserializerNotFoundErr "")) \/
    (list_or_dict payload /\ exists e, format payload = Err e /\ tr = first /\ r = Err e) \/
    (list_or_dict payload /\ exists data, format payload = Ok data /\
       exists tr', (tr', r) = lpost_raw parse net uni other c (post_headers custom) data /\
         tr = first ++ (if logs_payload s then [CapLine (PayloadLine (lc_url c) data)] else []) ++ tr'))).
Proof.
  unfold lcap_POST, post_unsent. set (s := lc_settings c). fold (post_headers custom).
  set (body := match payload with LArr _ | LMap _ => _ | _ => _ end).
  assert (forall t1 : list capentry, requests t1 = [] ->
    ~ (ENABLE_CAPS_LOGGING s = true /\ clash [lc_url c; shown uni payload]) ->
    let '(tr, r) := cbind (t1, Ok tt) (fun _ => body) in
    ((logs_payload s = true /\ list_or_dict payload /\
        exists data, format payload = Ok data /\ clash [lc_url c; raw data]) /\ requests tr = [] /\ r = Err ValueErr) \/
    (~ (logs_payload s = true /\ list_or_dict payload /\
        exists data, format payload = Ok data /\ clash [lc_url c; raw data]) /\
     ((~ list_or_dict payload /\ tr = t1 /\ r = Err (DeserializerNotFoundErr "")) \/
      (list_or_dict payload /\ exists e, format payload = Err e /\ tr = t1 /\ r = Err e) \/
      (list_or_dict payload /\ exists data, format payload = Ok data /\
         exists tr', (tr', r) = lpost_raw parse net uni other c (post_headers custom) data /\
           tr = t1 ++ (if logs_payload s then [CapLine (PayloadLine (lc_url c) data)] else []) ++ tr')))) as Rest.
  { intros t1 R1 _. 
    assert (list_or_dict payload -> body = 
      (cdo data <- clift (format payload);
      cdo _ <- log_line (logs_payload s) [lc_url c; raw data] (PayloadLine (lc_url c) data);
      lpost_raw parse net uni other c (post_headers custom) data)) as Yes.
    { intros [[l ->]|[m ->]]; reflexivity. }
    assert (list_or_dict payload \/ (~ list_or_dict payload /\ body = clift (Err (DeserializerNotFoundErr "")))) as [D|[N E]].
    { unfold list_or_dict. destruct payload; try (right; split; [intros [[? ?]|[? ?]]; discriminate|reflexivity]); left; eauto. }
    2:{ rewrite E. cbn. rewrite app_nil_r. right. split; [intros (_ & D & _); contradiction|]. left. auto. }
    rewrite (Yes D). clear Yes. destruct (format payload) as [data|e].
    2:{ cbn. rewrite app_nil_r. right. split; [intros (_ & _ & d & ? & _); discriminate|]. right. left. split; [exact D|]. eauto. }
    unfold clift. cbn [cbind]. destruct (logs_payload s) eqn:On.
    - destruct (clash_dec [lc_url c; raw data]) as [C|C].
      + rewrite log_line_clash by exact C. cbn. rewrite app_nil_r. left. split; [|auto]. split; [reflexivity|]. split; [exact D|]. eauto.
      + rewrite log_line_on by exact C. cbn [cbind].
        destruct (lpost_raw parse net uni other c (post_headers custom) data) as [tr' r'] eqn:P.
        right. split. { intros (_ & _ & d & [= <-] & C'). contradiction. }
        right. right. split; [exact D|]. exists data. split; [reflexivity|]. exists tr'. split; [symmetry; exact P|reflexivity].
    - change (log_line false [lc_url c; raw data] (PayloadLine (lc_url c) data)) with (([], Ok tt) : cres unit). cbn [cbind].
        destruct (lpost_raw parse net uni other c (post_headers custom) data) as [tr' r'] eqn:P.
        right. split. { intros (? & _). discriminate. }
        right. right. split; [exact D|]. exists data. split; [reflexivity|]. exists tr'. split; [symmetry; exact P|reflexivity]. }
  clearbody body. destruct (ENABLE_CAPS_LOGGING s) eqn:On.
  - destruct (clash_dec [lc_url c; shown uni payload]) as [C|C].
    + rewrite log_line_clash by exact C. cbn. left. auto.
    + rewrite log_line_on by exact C.
      specialize (Rest [CapLine (PostLine (lc_url c) payload)] eq_refl ltac:(intros [_ ?]; contradiction)).
      destruct (cbind _ _) as [tr r]. destruct Rest as [[H R]|[H R]]; [left; auto|right].
      split; [intros [[_ ?]|?]; contradiction|exact R].
  - specialize (Rest [] eq_refl ltac:(intros [? _]; discriminate)).
    change (log_line false [lc_url c; shown uni payload] (PostLine (lc_url c) payload)) with (([], Ok tt) : cres unit).
    destruct (cbind _ _) as [tr r]. destruct Rest as [[H R]|[H R]]; [left; auto|right].
    split; [intros [[? _]|?]; [discriminate|contradiction]|exact R].
Qed.

(** ** The event queue *)
Lemma good_host h : ~ bad_host h -> host_string h = Ok tt.
Proof.
  intros N. destruct h as [t|n]; [reflexivity|]. cbn. destruct (Nat.eqb_spec n 1) as [E|E]; [reflexivity|].
  exfalso. apply N. now exists n.
Qed.
Lemma bad_host_string h : bad_host h -> host_string h = Err TypeErr.
Proof. intros (n & -> & N). cbn. destruct (Nat.eqb_spec n 1); [contradiction|reflexivity]. Qed.

Lemma eq_posts_app a b : eq_posts (a ++ b) = eq_posts a ++ eq_posts b.
Proof. apply flat_map_app. Qed.
Lemma eq_delivered_app a b : eq_delivered (a ++ b) = eq_delivered a ++ eq_delivered b.
Proof. apply flat_map_app. Qed.
Lemma eq_posts_deliver l : eq_posts (map EqDeliver l) = [].
Proof. induction l; [reflexivity|assumption]. Qed.
Lemma eq_delivered_deliver l : eq_delivered (map EqDeliver l) = l.
Proof. induction l as [|m l IH]; [reflexivity|]. cbn. f_equal. exact IH. Qed.

Lemma id_of_getitem v id : getitem v (LStr "id") = Ok id <-> id_of v id.
Proof.
  rewrite getitem_id. unfold id_of. split.
  - destruct v; try discriminate. destruct (sget "id"%string m) as [x|] eqn:E; [|discriminate].
    intros [= ->]. eauto.
  - intros (m & -> & E). now rewrite E.
Qed.
Lemma no_id_getitem v e : getitem v (LStr "id") = Err e -> ~ exists id, id_of v id.
Proof. intros H (id & I). apply id_of_getitem in I. congruence. Qed.

Lemma until_raise_cases raises l :
  (Forall (fun m => raises m = false) l /\ until_raise raises l = l /\ existsb raises l = false) \/
  (exists before m after, l = before ++ m :: after /\ Forall (fun m => raises m = false) before /\
     raises m = true /\ until_raise raises l = before ++ [m] /\ existsb raises l = true).
Proof.
  induction l as [|x l IH]; [left; repeat split; constructor|]. cbn. destruct (raises x) eqn:R.
  - right. exists [], x, l. repeat split; auto.
  - destruct IH as [(F & U & E)|(before & m & after & -> & F & Rm & U & E)].
    + left. split; [constructor; auto|]. rewrite U. auto.
    + right. exists (x :: before), m, after. repeat split; auto. cbn. now rewrite U.
Qed.

(** A poll of a queue with a printable host. *)
Lemma poll_good known raises s h outs st o : ~ bad_host h -> after outs st ->
  let '(st', t) := eq_poll_l known raises s h st o in
  fst (eq_after known raises st o) = st' /\
  exists t', response_story known raises (latest (outs ++ [o])) t' /\
    t = posting_line s (eq_last st) ++ [EqPost (poll_payload (eq_last st))] ++ failure_line s o ++ t' /\
    eq_posts t' = [] /\ eq_delivered t' = snd (eq_after known raises st o).
Proof.
  intros H [A R]. unfold eq_poll_l, eq_after.
  assert (forall x : bool, with_host x h = Ok tt) as W by (intros []; [now apply good_host|reflexivity]).
  assert ((if ENABLE_EQ_LOGGING s then with_host (ENABLE_HOST_LOGGING s) h else Ok tt) = Ok tt) as ->
    by (destruct (ENABLE_EQ_LOGGING s); [apply W|reflexivity]).
  assert ((match o with
           | PostOk _ => Ok []
           | PostErr e => do _ <- with_host (ENABLE_HOST_LOGGING s) h;
                          Ok [EqLine (DontCareLine (ENABLE_HOST_LOGGING s) e)]
           end) = Ok (failure_line s o)) as -> by (destruct o; [reflexivity|rewrite W; reflexivity]).
  fold (posting_line s (eq_last st)).
  change ((if ENABLE_EQ_LOGGING s then [EqLine (PostingLine (ENABLE_HOST_LOGGING s) (eq_payload (eq_last st)))] else []))
    with (posting_line s (eq_last st)).
  change (eq_payload (eq_last st)) with (poll_payload (eq_last st)).
  set (result := match o with PostOk v => v | PostErr _ => eq_result st end).
  assert (result = match latest (outs ++ [o]) with Some v => v | None => LUndef end) as E.
  { unfold result. rewrite latest_snoc. destruct o; [reflexivity|exact R]. }
  clearbody result.
  destruct (is_none result) eqn:NN.
  - split; [reflexivity|]. exists []. rewrite app_nil_r. repeat split.
    + assert (result = LUndef) as U by (destruct result; (reflexivity || discriminate)).
      destruct (latest (outs ++ [o])) as [v|]; [rewrite <- E, U|]; constructor.
    + now rewrite <- !app_assoc.
  - destruct (latest (outs ++ [o])) as [v|]; [|rewrite E in NN; discriminate]. subst v.
    destruct (getitem result (LStr "id")) as [id|e] eqn:G.
    + pose proof (proj1 (id_of_getitem _ _) G) as I. unfold parse_result_l, parse_result_eq. rewrite NN, (good_host h H).
      destruct (decode_eq_result known id result) as [ms|e] eqn:D.
      * rewrite deliver_until. destruct (until_raise_cases raises ms) as [(F & U & X)|(bef & m & aft & -> & F & Rm & U & X)]; rewrite X, U.
        -- split; [reflexivity|]. exists (EqLine (ResultLine result) :: map EqDeliver ms). repeat split.
           ++ eapply story_good; eauto.
           ++ now rewrite <- !app_assoc.
           ++ apply eq_posts_deliver.
           ++ apply eq_delivered_deliver.
        -- split; [reflexivity|].
           exists (EqLine (ResultLine result) :: map EqDeliver (bef ++ [m]) ++ [EqLine (ParseErrorLine result)]). repeat split.
           ++ eapply story_raise; eauto.
           ++ now rewrite <- !app_assoc.
           ++ change (eq_posts (map EqDeliver (bef ++ [m]) ++ [EqLine (ParseErrorLine result)]) = []).
              now rewrite eq_posts_app, eq_posts_deliver.
           ++ change (eq_delivered (map EqDeliver (bef ++ [m]) ++ [EqLine (ParseErrorLine result)]) = bef ++ [m]).
              rewrite eq_delivered_app, eq_delivered_deliver. apply app_nil_r.
      * split; [reflexivity|]. exists [EqLine (ResultLine result); EqLine (ParseErrorLine result)]. repeat split.
        -- eapply story_bad; eauto.
        -- now rewrite <- !app_assoc.
    + split; [reflexivity|]. exists [EqLine PollErrorLine]. repeat split.
      * apply story_no_id; [intros ->; discriminate|]. eapply no_id_getitem; eauto.
      * now rewrite <- !app_assoc.
Qed.

Lemma posting_line_posts s id : eq_posts (posting_line s id) = [] /\ eq_delivered (posting_line s id) = [].
Proof. unfold posting_line. now destruct (ENABLE_EQ_LOGGING s). Qed.
Lemma failure_line_posts s o : eq_posts (failure_line s o) = [] /\ eq_delivered (failure_line s o) = [].
Proof. now destruct o. Qed.

Lemma after_set outs st b : after outs st -> after outs (set_stopped st b).
Proof. intros [A R]. split; assumption. Qed.

Lemma loop_good known raises s h polls : ~ bad_host h -> forall done t0 st, after done st -> eq_stopped st = false ->
  run_story known raises s done t0 ->
  let '(st', t) := eq_loop_l known raises s h polls st in
  exists log, eq_loop known raises polls st = (st', log) /\
    eq_posts t = l_posts log /\ eq_delivered t = l_delivered log /\
    after (done ++ map p_out (begun polls)) st' /\
    run_story known raises s (done ++ map p_out (begun polls)) (t0 ++ t).
Proof.
  intros H. induction polls as [|p polls IH]; intros done t0 st A S RS.
  - cbn. rewrite S. eexists. repeat split; try (exact (proj1 A) || exact (proj2 A)); cbn.
    + rewrite app_nil_r. exact (proj1 A).
    + rewrite app_nil_r. exact (proj2 A).
    + rewrite !app_nil_r. exact RS.
  - cbn [eq_loop_l eq_loop]. rewrite S. pose proof (poll_good known raises s h done st (p_out p) H A) as G.
    pose proof (after_step known raises done st (p_out p) A) as AS.
    destruct (eq_poll_l known raises s h st (p_out p)) as [st1 t].
    destruct (eq_after known raises st (p_out p)) as [st1' del]. cbn [fst snd] in G.
    destruct G as (<- & t' & Story & -> & P & D). destruct AS as (A1 & R1 & S1 & _).
    assert (run_story known raises s (done ++ [p_out p])
              (t0 ++ posting_line s (eq_last st) ++ [EqPost (poll_payload (eq_last st))] ++ failure_line s (p_out p) ++ t')) as RS'.
    { apply run_more; [exact RS|exact (proj1 A)|exact Story]. }
    assert (eq_posts (posting_line s (eq_last st) ++ [EqPost (poll_payload (eq_last st))] ++ failure_line s (p_out p) ++ t') =
            [poll_payload (eq_last st)]) as EP.
    { rewrite !eq_posts_app, P, (proj1 (posting_line_posts s (eq_last st))), (proj1 (failure_line_posts s (p_out p))). reflexivity. }
    assert (eq_delivered (posting_line s (eq_last st) ++ [EqPost (poll_payload (eq_last st))] ++ failure_line s (p_out p) ++ t') = del) as ED.
    { rewrite !eq_delivered_app, D, (proj2 (posting_line_posts s (eq_last st))), (proj2 (failure_line_posts s (p_out p))). reflexivity. }
    set (ts := posting_line s (eq_last st) ++ _) in *. clearbody ts.
    destruct (p_stop p) eqn:PS.
    + cbn [begun map]. rewrite PS. cbn [map].
      assert (eq_loop_l known raises s h polls (set_stopped st1' true) = (set_stopped st1' true, [])) as ->
        by (destruct polls; reflexivity).
      assert (eq_loop known raises polls (set_stopped st1' true) =
              (set_stopped st1' true, {| l_posts := []; l_delivered := [] |})) as ->
        by (destruct polls; reflexivity).
      eexists. split; [reflexivity|]. cbn [l_posts l_delivered]. rewrite !app_nil_r, EP, ED.
      split; [reflexivity|]. split; [reflexivity|]. split; [now apply after_set|exact RS'].
    + specialize (IH (done ++ [p_out p]) (t0 ++ ts) st1' A1 (eq_trans S1 S) RS').
      destruct (eq_loop_l known raises s h polls st1') as [st2 t2].
      destruct IH as (log & EL & P2 & D2 & A2 & RS2). rewrite EL. eexists. split; [reflexivity|].
      cbn [l_posts l_delivered]. rewrite eq_posts_app, eq_delivered_app, EP, ED, P2, D2.
      cbn [begun map]. rewrite PS. cbn [map].
      rewrite <- app_assoc in A2, RS2. cbn [app] in A2, RS2. rewrite <- app_assoc in RS2. auto.
Qed.

Lemma spawn_line_none s : eq_posts (spawn_line s) = [] /\ eq_delivered (spawn_line s) = [].
Proof. unfold spawn_line. now destruct (LOG_COROUTINE_SPAWNS s). Qed.

Lemma start_good known raises s h polls closing : ~ bad_host h ->
  let '(st, t, r) := eq_start_l known raises s h "EventQueueGet" polls closing eq_init in
  exists log, eq_start known raises "EventQueueGet" polls closing eq_init = (st, log, r) /\
    eq_posts t = l_posts log /\ eq_delivered t = l_delivered log /\
    exists t' id fin, t = spawn_line s ++ t' ++ fin /\
      run_story known raises s (map p_out (begun polls)) t' /\ ack_id (map p_out (begun polls)) id /\
      fin = match r with
            | None => []
            | Some _ =>
                (if equals_minus1 id then [] else [EqPost (closing_payload id)]) ++
                match (if equals_minus1 id then PostOk LUndef else closing) with
                | PostOk _ => [EqLine QueueStoppedLine]
                | PostErr e => [EqLine (StartProblemLine e)]
                end
            end.
Proof.
  intros H. unfold eq_start_l, eq_start.
  change (String.eqb "EventQueueGet" "event_queue") with false. change (String.eqb "EventQueueGet" "EventQueueGet") with true.
  cbn iota.
  assert (with_host (LOG_COROUTINE_SPAWNS s) h = Ok tt) as -> by (destruct (LOG_COROUTINE_SPAWNS s); [now apply good_host|reflexivity]).
  fold (spawn_line s).
  pose proof (loop_good known raises s h polls H [] [] (set_running eq_init true)
                (conj (ack_start) eq_refl) eq_refl (run_none known raises s)) as L.
  destruct (eq_loop_l known raises s h polls (set_running eq_init true)) as [st t].
  destruct L as (log & -> & P & D & A & RS). cbn [app] in A, RS.
  rewrite (good_host h H). destruct (spawn_line_none s) as [SP SD].
  destruct (eq_stopped st).
  - destruct (equals_minus1 (eq_last st)) eqn:M.
    + eexists. split; [reflexivity|]. rewrite !eq_posts_app, !eq_delivered_app, SP, SD, P, D. cbn. rewrite !app_nil_r.
      split; [reflexivity|]. split; [reflexivity|]. exists t, (eq_last st). eexists. split; [now rewrite <- app_assoc|].
      split; [exact RS|]. split; [exact (proj1 A)|]. now rewrite M.
    + destruct closing as [v|e].
      * eexists. split; [reflexivity|]. rewrite !eq_posts_app, !eq_delivered_app, SP, SD, P, D. cbn. rewrite !app_nil_r.
        split; [reflexivity|]. split; [reflexivity|]. exists t, (eq_last st). eexists. split; [now rewrite <- !app_assoc|].
        split; [exact RS|]. split; [exact (proj1 A)|]. rewrite M. reflexivity.
      * eexists. split; [reflexivity|]. rewrite !eq_posts_app, !eq_delivered_app, SP, SD, P, D. cbn. rewrite !app_nil_r.
        split; [reflexivity|]. split; [reflexivity|]. exists t, (eq_last st). eexists. split; [now rewrite <- !app_assoc|].
        split; [exact RS|]. split; [exact (proj1 A)|]. rewrite M. reflexivity.
  - eexists. split; [reflexivity|]. rewrite !eq_posts_app, !eq_delivered_app, SP, SD, P, D.
    split; [reflexivity|]. split; [reflexivity|]. exists t, (eq_last st), []. rewrite app_nil_r.
    split; [reflexivity|]. split; [exact RS|]. split; [exact (proj1 A)|reflexivity].
Qed.

(** ** A host that cannot be formatted *)

(** In a state reached by polls, polling again and failing changes nothing. *)
Lemma after_failed known raises outs st e : after outs st ->
  fst (eq_after known raises st (PostErr e)) = st.
Proof.
  intros [A R]. unfold eq_after.
  assert (forall l, eq_last st = l ->
    {| eq_running := eq_running st; eq_stopped := eq_stopped st; eq_last := l; eq_result := eq_result st |} = st) as Same
    by (intros l <-; now destruct st).
  destruct (is_none (eq_result st)) eqn:NN.
  - cbn. apply Same. assert (eq_result st = LUndef) as U by (destruct (eq_result st); (reflexivity || discriminate)).
    rewrite U in R. eapply ack_id_fun; [exact A|]. clear -R.
    assert (nothing_received outs) as N.
    { unfold nothing_received. destruct (latest outs); [right; congruence|now left]. }
    destruct outs as [|x l] using rev_ind; [constructor|now constructor].
  - destruct (latest outs) as [v|] eqn:L; [|rewrite R in NN; discriminate].
    destruct (getitem (eq_result st) (LStr "id")) as [id|er] eqn:G; cbn; apply Same; [|reflexivity].
    apply id_of_getitem in G. rewrite R in G. eapply ack_id_fun; [exact A|].
    destruct outs as [|x l] using rev_ind; [discriminate|]. eapply ack_response; eassumption.
Qed.

Lemma poll_bad known raises s h outs st o : bad_host h -> after outs st ->
  ENABLE_EQ_LOGGING s && ENABLE_HOST_LOGGING s = false ->
  let '(st', t) := eq_poll_l known raises s h st o in
  fst (eq_after known raises st o) = st' /\ eq_posts t = [eq_payload (eq_last st)] /\ eq_delivered t = [].
Proof.
  intros H A N. unfold eq_poll_l.
  assert ((if ENABLE_EQ_LOGGING s then with_host (ENABLE_HOST_LOGGING s) h else Ok tt) = Ok tt) as ->
    by (destruct (ENABLE_EQ_LOGGING s); [cbn in N; rewrite N; reflexivity|reflexivity]).
  set (pl := if ENABLE_EQ_LOGGING s then [EqLine (PostingLine (ENABLE_HOST_LOGGING s) (eq_payload (eq_last st)))] else []).
  assert (eq_posts pl = [] /\ eq_delivered pl = []) as [PP PD] by (unfold pl; now destruct (ENABLE_EQ_LOGGING s)).
  clearbody pl.
  assert (forall result t1 (id : llsd), eq_posts t1 = [] -> eq_delivered t1 = [] -> is_none result = false ->
    let '(t2, r) := parse_result_l known raises h id result in
    r = Err TypeErr /\ t2 = []) as PR.
  { intros result t1 id _ _ NN. unfold parse_result_l. rewrite NN, (bad_host_string h H). auto. }
  assert (forall t1 result, eq_posts t1 = [] -> eq_delivered t1 = [] ->
    result = match o with PostOk v => v | PostErr _ => eq_result st end ->
    let '(st', t) := 
      (if is_none result then ({| eq_running := eq_running st; eq_stopped := eq_stopped st; eq_last := LInt (-1); eq_result := result |}, (pl ++ [EqPost (eq_payload (eq_last st))]) ++ t1)
          else match getitem result (LStr "id") with
               | Err _ => ({| eq_running := eq_running st; eq_stopped := eq_stopped st; eq_last := eq_last st; eq_result := result |}, ((pl ++ [EqPost (eq_payload (eq_last st))]) ++ t1) ++ [EqLine PollErrorLine])
               | Ok id =>
                   let '(t2, r) := parse_result_l known raises h id result in
                   match r with
                   | Ok _ => ({| eq_running := eq_running st; eq_stopped := eq_stopped st; eq_last := id; eq_result := result |}, ((pl ++ [EqPost (eq_payload (eq_last st))]) ++ t1) ++ t2)
                   | Err _ => ({| eq_running := eq_running st; eq_stopped := eq_stopped st; eq_last := id; eq_result := result |}, (((pl ++ [EqPost (eq_payload (eq_last st))]) ++ t1) ++ t2) ++ [EqLine PollErrorLine])
                   end
               end) in
    fst (eq_after known raises st o) = st' /\ eq_posts t = [eq_payload (eq_last st)] /\ eq_delivered t = []) as Rest.
  { intros t1 result P1 D1 ->. unfold eq_after. set (result := match o with PostOk v => v | PostErr _ => eq_result st end). clearbody result.
    destruct (is_none result) eqn:NN.
    - split; [reflexivity|]. rewrite !eq_posts_app, !eq_delivered_app, PP, PD, P1, D1. auto.
    - destruct (getitem result (LStr "id")) as [id|e].
      + specialize (PR result [] id eq_refl eq_refl NN). destruct (parse_result_l known raises h id result) as [t2 r]. destruct PR as [-> ->].
        split; [reflexivity|]. rewrite !eq_posts_app, !eq_delivered_app, PP, PD, P1, D1. auto.
      + split; [reflexivity|]. rewrite !eq_posts_app, !eq_delivered_app, PP, PD, P1, D1. auto. }
  destruct o as [v|e].
  - exact (Rest [] v eq_refl eq_refl eq_refl).
  - destruct (ENABLE_HOST_LOGGING s).
    + unfold with_host. rewrite (bad_host_string h H). cbn [bind].
      split; [now apply (after_failed known raises outs)|]. rewrite !eq_posts_app, !eq_delivered_app, PP, PD. auto.
    + exact (Rest [EqLine (DontCareLine false e)] (eq_result st) eq_refl eq_refl eq_refl).
Qed.

Lemma loop_bad known raises s h polls : bad_host h ->
  ENABLE_EQ_LOGGING s && ENABLE_HOST_LOGGING s = false ->
  forall done st, after done st -> eq_stopped st = false ->
  let '(st', t) := eq_loop_l known raises s h polls st in
  exists log, eq_loop known raises polls st = (st', log) /\
    eq_posts t = l_posts log /\ eq_delivered t = [].
Proof.
  intros H N. induction polls as [|p polls IH]; intros done st A S.
  - cbn. rewrite S. eexists. repeat split; reflexivity.
  - cbn [eq_loop_l eq_loop]. rewrite S. pose proof (poll_bad known raises s h done st (p_out p) H A N) as G.
    pose proof (after_step known raises done st (p_out p) A) as AS.
    destruct (eq_poll_l known raises s h st (p_out p)) as [st1 t].
    destruct (eq_after known raises st (p_out p)) as [st1' del]. cbn [fst] in G.
    destruct G as (<- & P & D). destruct AS as (A1 & R1 & S1 & _).
    destruct (p_stop p) eqn:PS.
    + assert (eq_loop_l known raises s h polls (set_stopped st1' true) = (set_stopped st1' true, [])) as ->
        by (destruct polls; reflexivity).
      assert (eq_loop known raises polls (set_stopped st1' true) =
              (set_stopped st1' true, {| l_posts := []; l_delivered := [] |})) as ->
        by (destruct polls; reflexivity).
      eexists. split; [reflexivity|]. cbn [l_posts]. rewrite app_nil_r. auto.
    + specialize (IH (done ++ [p_out p]) st1' A1 (eq_trans S1 S)).
      destruct (eq_loop_l known raises s h polls st1') as [st2 t2].
      destruct IH as (log & EL & P2 & D2). rewrite EL. eexists. split; [reflexivity|].
      cbn [l_posts]. rewrite eq_posts_app, eq_delivered_app, P, D, P2, D2. auto.
Qed.

Lemma start_bad known raises s h polls closing : bad_host h ->
  LOG_COROUTINE_SPAWNS s = false -> ENABLE_EQ_LOGGING s && ENABLE_HOST_LOGGING s = false ->
  let '(st, t, r) := eq_start_l known raises s h "EventQueueGet" polls closing eq_init in
  exists log r', eq_start known raises "EventQueueGet" polls closing eq_init = (st, log, r') /\
    eq_posts t = l_posts log /\ eq_delivered t = [] /\
    r = match r' with None => None | Some _ => Some false end.
Proof.
  intros H NS N. unfold eq_start_l, eq_start.
  change (String.eqb "EventQueueGet" "event_queue") with false. change (String.eqb "EventQueueGet" "EventQueueGet") with true.
  cbn iota. rewrite NS. cbn [with_host].
  pose proof (loop_bad known raises s h polls H N [] (set_running eq_init true) (conj (ack_start) eq_refl) eq_refl) as L.
  destruct (eq_loop_l known raises s h polls (set_running eq_init true)) as [st t].
  destruct L as (log & -> & P & D). rewrite (bad_host_string h H). cbn [app].
  destruct (eq_stopped st).
  - destruct (equals_minus1 (eq_last st)).
    + eexists. eexists. split; [reflexivity|]. rewrite eq_posts_app, eq_delivered_app, P, D. cbn. rewrite app_nil_r. auto.
    + destruct closing as [v|e].
      * eexists. eexists. split; [reflexivity|]. rewrite !eq_posts_app, !eq_delivered_app, P, D. cbn. rewrite app_nil_r. auto.
      * eexists. eexists. split; [reflexivity|]. rewrite !eq_posts_app, !eq_delivered_app, P, D. cbn. rewrite app_nil_r. auto.
  - eexists. eexists. split; [reflexivity|]. auto.
Qed.

Lemma loop_mute known raises s h polls : bad_host h ->
  ENABLE_EQ_LOGGING s = true -> ENABLE_HOST_LOGGING s = true -> forall st, eq_stopped st = false ->
  let '(st', t) := eq_loop_l known raises s h polls st in
  st' = set_stopped st (is_stopped polls) /\ t = repeat (EqLine PollErrorLine) (List.length (begun polls)).
Proof.
  intros H E1 E2. induction polls as [|p polls IH]; intros st S.
  - cbn. rewrite S. split; [destruct st; cbn in *; now subst|reflexivity].
  - cbn [eq_loop_l]. rewrite S. unfold eq_poll_l. rewrite E1, E2. cbn [with_host]. rewrite (bad_host_string h H).
    cbn [begun is_stopped existsb]. destruct (p_stop p).
    + assert (eq_loop_l known raises s h polls (set_stopped st true) = (set_stopped st true, [])) as ->
        by (destruct polls; reflexivity).
      cbn. auto.
    + specialize (IH st S). destruct (eq_loop_l known raises s h polls st) as [st' t]. destruct IH as [-> ->]. cbn. auto.
Qed.
Lemma start_mute known raises s h polls closing : bad_host h ->
  LOG_COROUTINE_SPAWNS s = false -> ENABLE_EQ_LOGGING s = true -> ENABLE_HOST_LOGGING s = true ->
  eq_start_l known raises s h "EventQueueGet" polls closing eq_init =
  if is_stopped polls
  then (set_stopped eq_init true,
        repeat (EqLine PollErrorLine) (List.length (begun polls)) ++ [EqLine (StartProblemLine TypeErr)], Some false)
  else (set_running eq_init true, repeat (EqLine PollErrorLine) (List.length (begun polls)), None).
Proof.
  intros H NS E1 E2. unfold eq_start_l.
  change (String.eqb "EventQueueGet" "event_queue") with false. change (String.eqb "EventQueueGet" "EventQueueGet") with true.
  cbn iota. rewrite NS. cbn [with_host].
  pose proof (loop_mute known raises s h polls H E1 E2 (set_running eq_init true) eq_refl) as L.
  destruct (eq_loop_l known raises s h polls (set_running eq_init true)) as [st t]. destruct L as [-> ->].
  cbn [eq_stopped set_stopped app]. destruct (is_stopped polls); [|reflexivity].
  cbn [eq_last set_stopped set_running eq_init equals_minus1]. change (-1 =? -1) with true. cbn iota. rewrite (bad_host_string h H). reflexivity.
Qed.
Lemma start_refused known raises s h polls closing st : bad_host h -> LOG_COROUTINE_SPAWNS s = true ->
  eq_start_l known raises s h "EventQueueGet" polls closing st = (st, [EqLine (StartProblemLine TypeErr)], Some false).
Proof.
  intros H S. unfold eq_start_l.
  change (String.eqb "EventQueueGet" "event_queue") with false. change (String.eqb "EventQueueGet" "EventQueueGet") with true.
  cbn iota. rewrite S. cbn [with_host]. now rewrite (bad_host_string h H).
Qed.

(** ** Consequences *)
Lemma spoils_fun a b other url bd v e e' : spoils a b other url bd v e -> spoils a b other url bd v e' -> e = e'.
Proof.
  intros S S'. destruct S as [e E H H'|t E H H'|H H' H''], S' as [e' F G G'|t' F G G'|G G' G'']; try congruence.
  - subst bd. cbn in G. congruence.
  - destruct (G E) as (t & B & _). subst bd. cbn in B. congruence.
  - subst bd. cbn in H. congruence.
  - destruct (H F) as (t & B & _). subst bd. cbn in B. congruence.
Qed.
Lemma plain_unspoiled a b other url bd v : plain_url url -> (a = true -> bd <> BOther) ->
  forall e, ~ spoils a b other url bd v e.
Proof.
  intros P N e S. destruct S as [e E H H'|t E H H'|H H' H''].
  - now apply (N E).
  - exact (proj1 (plain_no_clash url t P) H').
  - exact (proj1 (plain_no_clash url v P) H'').
Qed.
Lemma off_unspoiled other url bd v e : ~ spoils false false other url bd v e.
Proof. intros S. destruct S; discriminate. Qed.

Lemma list_or_dict_dec v : list_or_dict v \/ ~ list_or_dict v.
Proof. unfold list_or_dict. destruct v; eauto; right; intros [[? ?]|[? ?]]; discriminate. Qed.
Lemma POST_plain parse format net c payload custom : cap_POST parse format net c payload custom =
  match payload with
  | LArr _ | LMap _ =>
      match format payload with
      | Ok data => post_raw parse net c (post_headers custom) data
      | Err e => Err e
      end
  | _ => Err (DeserializerNotFoundErr "")
  end.
Proof. now destruct payload. Qed.
Lemma POST_plain_yes parse format net c payload custom data : list_or_dict payload -> format payload = Ok data ->
  cap_POST parse format net c payload custom = post_raw parse net c (post_headers custom) data.
Proof. rewrite POST_plain. intros [[l ->]|[m ->]] ->; reflexivity. Qed.
Lemma POST_plain_err parse format net c payload custom e : list_or_dict payload -> format payload = Err e ->
  cap_POST parse format net c payload custom = Err e.
Proof. rewrite POST_plain. intros [[l ->]|[m ->]] ->; reflexivity. Qed.
Lemma POST_plain_no parse format net c payload custom : ~ list_or_dict payload ->
  cap_POST parse format net c payload custom = Err (DeserializerNotFoundErr "").
Proof. rewrite POST_plain. intros N. destruct payload; try reflexivity; exfalso; apply N; [left|right]; eauto. Qed.

Lemma seed_same parse format net uni other c names :
  snd (lcap_POST parse format net uni other c (LMap [("capabilities"%string, LArr (map LStr names))]) []) =
  cap_POST parse format net (cap_of c) (LMap [("capabilities"%string, LArr (map LStr names))]) [] ->
  res_map (map (fun '(k, n) => (k, {| nc_name := ln_name n; nc_url := ln_url n; nc_client := ln_client n |})))
    (snd (lseed_get parse format net uni other c names)) = seed_get parse format net (cap_of c) names.
Proof.
  unfold lseed_get, seed_get. intros E. rewrite <- E. clear E.
  destruct (lcap_POST _ _ _ _ _ _ _ _) as [t [r|e]]; [|reflexivity]. cbn [cbind clift snd bind].
  destruct (getitem r (LStr "capabilities")) as [parsed|e]; [|reflexivity]. cbn [bind].
  set (g := map _).
  assert (forall acc acc', res_map g acc = acc' ->
    res_map g (fold_left (fun acc name => do caps <- acc; do u <- getitem parsed (LStr name);
        Ok (sset name {| ln_name := name; ln_url := u; ln_client := lc_client c; ln_settings := defaults |} caps)) names acc) =
    fold_left (fun acc name => do caps <- acc; do u <- getitem parsed (LStr name);
        Ok (sset name {| nc_name := name; nc_url := u; nc_client := cap_client (cap_of c) |} caps)) names acc') as G.
  { induction names as [|n names IH]; intros acc acc' H; [exact H|]. cbn [fold_left]. apply IH. rewrite <- H.
    destruct acc as [caps|e]; [|reflexivity]. cbn [bind res_map]. destruct (getitem parsed (LStr n)) as [u|e]; [|reflexivity].
    cbn [bind res_map]. f_equal. clear -c. induction caps as [|[k v] caps IH]; [reflexivity|].
    cbn. destruct (String.eqb n k); [reflexivity|]. cbn. f_equal. exact IH. }
  now apply G.
Qed.
Lemma seed_children parse format net uni other c names t caps :
  lseed_get parse format net uni other c names = (t, Ok caps) ->
  forall k n, In (k, n) caps -> ln_settings n = defaults /\ ln_client n = lc_client c /\ ln_name n = k.
Proof.
  unfold lseed_get. destruct (lcap_POST _ _ _ _ _ _ _ _) as [t0 [r|e]]; [|discriminate].
  cbn [cbind clift]. destruct (getitem r (LStr "capabilities")) as [parsed|e]; [|discriminate]. cbn [bind].
  intros [= _ H]. revert H.
  assert (forall acc, (forall l, acc = Ok l -> forall k n, In (k, n) l -> ln_settings n = defaults /\ ln_client n = lc_client c /\ ln_name n = k) ->
    forall caps, fold_left (fun acc name => do caps <- acc; do u <- getitem parsed (LStr name);
        Ok (sset name {| ln_name := name; ln_url := u; ln_client := lc_client c; ln_settings := defaults |} caps)) names acc = Ok caps ->
    forall k n, In (k, n) caps -> ln_settings n = defaults /\ ln_client n = lc_client c /\ ln_name n = k) as G.
  { induction names as [|x names IH]; intros acc I caps' E k n J; cbn in E; [eapply I; eauto|].
    eapply IH; [|exact E|exact J]. intros l L k' n' J'.
    destruct acc as [l0|]; [|discriminate]. cbn [bind] in L. destruct (getitem parsed (LStr x)) as [u|]; [|discriminate].
    cbn [bind] in L. injection L as <-. specialize (I l0 eq_refl). clear -I J'.
    induction l0 as [|[k0 v0] l0 IH]; cbn in J'.
    - destruct J' as [[= <- <-]|[]]. auto.
    - destruct (String.eqb_spec x k0) as [->|].
      + destruct J' as [[= <- <-]|J']; [auto|]. eapply I. right. exact J'.
      + destruct J' as [[= <- <-]|J']; [eapply I; now left|]. apply IH; [|exact J']. intros a b Hab. eapply I. now right. }
  intros H. apply (G (Ok []) ltac:(intros l [= <-] k n []) caps H).
Qed.

(** ** Nothing is logged when the switches are off *)
Lemma cap_lines_app a b : cap_lines (a ++ b) = cap_lines a ++ cap_lines b.
Proof. apply flat_map_app. Qed.
Lemma cbind_lines {A B} (x : cres A) (f : A -> cres B) : cap_lines (fst x) = [] ->
  (forall a, cap_lines (fst (f a)) = []) -> cap_lines (fst (cbind x f)) = [].
Proof.
  intros H F. destruct x as [t [a|e]]; [|exact H]. unfold cbind. specialize (F a). destruct (f a) as [t' r].
  cbn [fst] in *. now rewrite cap_lines_app, H, F.
Qed.
Lemma log_line_off args l : log_line false args l = ([], Ok tt).
Proof. reflexivity. Qed.
Lemma lift_lines {A} (r : res A) : cap_lines (fst (clift r)) = [].
Proof. reflexivity. Qed.

Lemma lpost_raw_quiet parse net uni other c headers payload :
  ENABLE_CAPS_LOGGING (lc_settings c) = false -> ENABLE_CAPS_LLSD_LOGGING (lc_settings c) = false ->
  cap_lines (fst (lpost_raw parse net uni other c headers payload)) = [].
Proof.
  intros C L. unfold lpost_raw. apply cbind_lines; [reflexivity|]. intros [ct b]. cbn [fst snd].
  unfold lresponse_handler. rewrite C, L. destruct ct as [ct|]; [|reflexivity].
  apply cbind_lines; [reflexivity|]. intros []; [|reflexivity].
  apply cbind_lines; [reflexivity|]. intros v. reflexivity.
Qed.
Lemma lPOST_quiet parse format net uni other c payload custom :
  ENABLE_CAPS_LOGGING (lc_settings c) = false -> ENABLE_CAPS_LLSD_LOGGING (lc_settings c) = false ->
  cap_lines (fst (lcap_POST parse format net uni other c payload custom)) = [].
Proof.
  intros C L. unfold lcap_POST. rewrite C, L, andb_false_r. apply cbind_lines; [reflexivity|]. intros _.
  destruct payload; try reflexivity; (apply cbind_lines; [reflexivity|]; intros d; apply cbind_lines; [reflexivity|]; intros _;
    now apply lpost_raw_quiet).
Qed.
Lemma lGET_quiet parse net uni other c :
  ENABLE_CAPS_LOGGING (lc_settings c) = false -> ENABLE_CAPS_LLSD_LOGGING (lc_settings c) = false ->
  cap_lines (fst (lcap_GET parse net uni other c)) = [].
Proof.
  intros C L. unfold lcap_GET. rewrite C, L, andb_false_r. apply cbind_lines; [reflexivity|]. intros _.
  apply cbind_lines; [reflexivity|]. intros [ct b]. cbn [fst snd]. destruct (String.eqb ct _); [|reflexivity].
  apply cbind_lines; [reflexivity|]. intros v. reflexivity.
Qed.
