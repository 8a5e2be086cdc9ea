(** The exceptions: C75.  Vocabulary: SpecExceptions.v. *)
From Verif Require Import Lib SpecExceptions ExceptionProofs SpecWire SpecDispatch Prop_Packet.
Local Open Scope string_scope.
Local Open Scope list_scope.

(** ** C75 *)
(** except d catches an exception of class c exactly when c is d or derived from it. *)
Theorem C75_catches : forall d c, catches d c = true <-> inherits c d.
Proof. exact catches_spec. Qed.
Print Assumptions C75_catches.
(** except Error catches every exception of the library. *)
Theorem C75_error_catches_all : forall c, c <> PyException -> inherits c XError.
Proof. exact all_errors. Qed.
Print Assumptions C75_error_catches_all.
(** Every other class belongs to one family, whose head catches exactly its members. *)
Theorem C75_families : forall c,
  (c = PyException \/ c = XError \/ exists f ms, In (f, ms) families /\ (c = f \/ In c ms)) /\
  (forall f ms, In (f, ms) families -> (inherits c f <-> c = f \/ In c ms)).
Proof. intros c. split; [apply families_cover|]. intros f ms. apply family_spec. Qed.
Print Assumptions C75_families.
(** Creating an exception of a class with parameters works exactly for the well
    formed calls (TypeError otherwise), and each parameter is then an attribute. *)
Lemma signature_params c : signature c <> [] -> params c = Some (signature c).
Proof. destruct c; cbn; congruence. Qed.
Theorem C75_attributes : forall c ps pos kw, ps = signature c -> ps <> [] -> NoDup (map fst kw) ->
  match construct c pos kw with
  | Ok x => well_called ps pos kw /\
      forall i n d, nth_error ps i = Some (n, d) -> exists v, attr x n = Ok v /\ supplied pos kw i n d = Some v
  | Err e => e = TypeErr /\ ~ well_called ps pos kw
  end.
Proof.
  intros c ps pos kw P N K. assert (P' : params c = Some ps) by (subst ps; now apply signature_params). clear P N. rename P' into P. unfold construct. rewrite P. pose proof (bind_spec ps pos kw (params_nodup _ _ P) K) as B.
  destruct (bind_args ps pos kw) as [a|e]; cbn [bind]; [|exact B]. destruct B as (W & _ & A). split; [exact W|].
  intros i n d H. destruct (A i n d H) as (v & G & S). exists v. split; [|now symmetry]. unfold attr. cbn. now rewrite G.
Qed.
Print Assumptions C75_attributes.
(** The other classes take any positional arguments and no keywords. *)
Theorem C75_no_parameters : forall c pos kw, signature c = [] ->
  ((exists x, construct c pos kw = Ok x) <-> kw = []) /\ forall e, construct c pos kw = Err e -> e = TypeErr.
Proof.
  intros c pos kw S. assert (P : params c = None) by (destruct c; cbn in S |- *; congruence).
  unfold construct. rewrite P. destruct kw as [|k kw].
  - split; [split; [reflexivity|eauto]|]. discriminate.
  - split; [split; [intros (x & H); discriminate|discriminate]|]. intros e [= <-]. reflexivity.
Qed.
Print Assumptions C75_no_parameters.
(** The text of an exception. *)
Theorem C75_text : forall show c pos kw x s, NoDup (map fst kw) -> construct c pos kw = Ok x ->
  says c (printed show x) = Some s ->
  (forall n l, single c = Some n -> attr x n <> Ok (PTuple l)) ->
  (c = XResourceNotFound -> exists u, attr x "url" = Ok (PStr u)) ->
  str show x = Ok s.
Proof. exact str_plain. Qed.
Print Assumptions C75_text.
(** A tuple in a class whose text has a single attribute: its only element is
    shown in its place; with any other number of elements str() fails. *)
Theorem C75_tuple : forall show c pos kw x n l, NoDup (map fst kw) -> construct c pos kw = Ok x ->
  single c = Some n -> attr x n = Ok (PTuple l) ->
  match l with
  | [v] => exists s, says c (fun m => if String.eqb m n then text show v else printed show x m) = Some s /\ str show x = Ok s
  | _ => str show x = Err TypeErr
  end.
Proof. exact str_tuple. Qed.
Print Assumptions C75_tuple.
(** ResourceNotFound with something else than text as its url cannot be printed. *)
Theorem C75_url : forall show pos kw x, NoDup (map fst kw) -> construct XResourceNotFound pos kw = Ok x ->
  (forall u, attr x "url" <> Ok (PStr u)) -> str show x = Err TypeErr.
Proof. exact str_url. Qed.
Print Assumptions C75_url.
(** The classes without a text of their own print their positional arguments, so
    what was given by keyword is not shown. *)
Theorem C75_python_text : forall show c pos kw x a, construct c pos kw = Ok x -> says c a = None ->
  str show x = Ok (python_text show pos).
Proof. exact str_python. Qed.
Print Assumptions C75_python_text.
(** A datagram whose header cannot be read makes the deserializer raise something
    that no [except] of a class of the library catches. *)
Theorem C75_header_not_caught : forall c buf e, header_failure buf e ->
  deserialize c buf = Err e /\ class_of e = None.
Proof.
  intros c buf e H. split; [exact (C10_always c buf e H)|]. destruct (C10_kinds buf e H) as [-> | ->]; reflexivity.
Qed.
Print Assumptions C75_header_not_caught.

Definition c75_show (o : pyobj) : string := match o with PNone => "None" | PTuple _ => "(...)" | _ => "<object>" end.
Example C75_ex : 
  (do x <- construct XResourceError [PStr "http://x/"; POther 1] [("method", PStr "POST"); ("message", PStr "oops")]; str c75_show x)
    = Ok "Error using 'POST' on resource 'http://x/': oops (<object>)" /\
  construct XHTTPError [PStr "404"; PStr "gone"] [] = Err TypeErr /\
  construct XResourceNotFound [PStr "a"] [("url", PStr "b")] = Err TypeErr /\
  construct XDataParsingError [] [("reason", PStr "b")] = Err TypeErr /\
  (do x <- construct XDataParsingError [PTuple [PStr "a"; PStr "b"]] []; str c75_show x) = Err TypeErr /\
  (do x <- construct XDataParsingError [PTuple [PStr "a"]] []; str c75_show x) = Ok "Data parsing error: a'" /\
  (do x <- construct XResourceNotFound [PNone] []; str c75_show x) = Err TypeErr /\
  (do x <- construct XRegionCapNotAvailable [PStr "EventQueueGet"] []; str c75_show x) = Ok "EventQueueGet" /\
  (do x <- construct XRegionCapNotAvailable [] [("cap", PStr "EventQueueGet")]; str c75_show x) = Ok "".
Proof. vm_compute. repeat split; reflexivity. Qed.
Example C75_ex_call : well_called [("url", Some (PStr "")); ("code", None)] [PStr "u"] [("code", POther 404)].
Proof.
  split; [cbn; lia|]. split.
  - intros k [<-|[]]. exists 1%nat, None. split; [reflexivity|cbn; lia].
  - intros [|[|i]] n d H; cbn in H; [injection H as <- <-; cbn; discriminate..|destruct i; discriminate].
Qed.
Example C75_ex_header : exists e, header_failure [] e.
Proof. exists IndexErr. now constructor. Qed.
