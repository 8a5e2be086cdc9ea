(** How a dispatcher is put together: C56, C57. *)
From Verif Require Import Lib Samples SpecDispatch DispatchProofs DispatchMore Wiring ShippedTemplates Prop_Template Prop_Dispatch.

(** The arguments that let a dispatcher be built at all: a message handler is
    passed or HANDLE_PACKETS is on. *)
Definition has_handler (s : dsettings) : Prop := ds_handler s = true \/ ds_handle s = true.

(** ** C56 *)
(** With a custom file: the deserializer gets that file's templates, the
    serializer gets none. *)
Theorem C56_custom pv s f xml env t' : dispatcher_init pv s (TFile f) xml = (Ok env, t') ->
  exists ts, parse_template_file pv (f_text f) = Ok ts /\ build_dict pv ts = Ok (e_des_dict env) /\
    (forall name, get_template (e_ser_dict env) name = None).
Proof.
  unfold dispatcher_init. destruct (negb (ds_handler s) && negb (ds_handle s)); [discriminate|].
  cbn [deserializer_init dict_from_template parse_file]. unfold deserializer_init. cbn [dict_from_template parse_file].
  destruct (parse_template_file pv (f_text f)) as [ts|e]; cbn [bind]; [|discriminate].
  destruct (build_dict pv ts) as [d|e] eqn:B; cbn [bind]; [|discriminate].
  unfold serializer_init. cbn [dict_from_list f_left]. cbn. intros E. injection E as <- _. exists ts. cbn. auto.
Qed.
Print Assumptions C56_custom.
(** It succeeds whenever the file's templates can be loaded. *)
Theorem C56_custom_built pv s f xml ts d : has_handler s ->
  parse_template_file pv (f_text f) = Ok ts -> build_dict pv ts = Ok d ->
  exists env, fst (dispatcher_init pv s (TFile f) xml) = Ok env /\ e_des_dict env = d.
Proof.
  intros H P B. unfold dispatcher_init.
  assert (negb (ds_handler s) && negb (ds_handle s) = false) as -> by (destruct H as [-> | ->]; [reflexivity|apply andb_false_r]).
  unfold deserializer_init. cbn [dict_from_template parse_file]. rewrite P. cbn [bind]. rewrite B. cbn.
  eexists. split; reflexivity.
Qed.
Print Assumptions C56_custom_built.
(** So no history makes it emit a datagram, *)
Theorem C56_silent pv s f xml env t' ops x : dispatcher_init pv s (TFile f) xml = (Ok env, t') ->
  In (Attempted x) (trace env init_state ops) -> at_data x = None.
Proof.
  intros I H. destruct (C56_custom _ _ _ _ _ _ I) as (_ & _ & _ & N).
  pose proof (trace_wired env ops init_state x H) as W. destruct (at_data x) as [b|] eqn:B; [|reflexivity].
  destruct (W b B) as (t & fl & id & num & ws & tl & G & _). rewrite N in G. discriminate.
Qed.
Print Assumptions C56_silent.
(** although each send returns None without an exception (for messages that can
    be printed), uses up a sequence number, and, if reliable, waits for an ack
    that cannot come. *)
Theorem C56_send pv s f xml env t' st mref href md sock a m st' o : dispatcher_init pv s (TFile f) xml = (Ok env, t') ->
  reachable env st -> host_address st href = Some a -> nth_error (s_msgs st) mref = Some m -> host_ok a = true ->
  outgoing_quiet env st -> send_message env st mref href md sock = (st', o) ->
  exists x, o_sends o = [x] /\ at_addr x = a /\ at_data x = None /\ s_out st' = s_out st /\
    (printable m -> o_res o = Ok None) /\
    (forall c', circuit_of st' a = Some c' -> c_last_out c' = m_id (at_msg x)) /\
    (forall n, md = Reliable n -> In (m_id (at_msg x)) (outstanding st' a)).
Proof.
  intros I R NH NM HO Q H. destruct (C56_custom _ _ _ _ _ _ I) as (_ & _ & _ & N).
  destruct (C30_contained env st mref href md sock a m st' o R NH NM HO Q H) as (x & S & A & _ & _ & _ & F & B1 & B2).
  exists x. destruct F as (D & OUT & PR).
  { intros b SB. unfold serialize in SB. rewrite N in SB. discriminate. }
  repeat (split; [assumption|]). exact B2.
Qed.
Print Assumptions C56_send.
(** With the default template both sides use the same dictionary. *)
Theorem C56_default pv s xml env t' : dispatcher_init pv s TNone xml = (Ok env, t') ->
  e_ser_dict env = e_des_dict env /\
  exists ts, parse_template_file pv template_text = Ok ts /\ build_dict pv ts = Ok (e_des_dict env).
Proof.
  unfold dispatcher_init. destruct (negb (ds_handler s) && negb (ds_handle s)); [discriminate|].
  unfold deserializer_init, serializer_init. cbn [dict_from_template dict_from_list].
  destruct (parse_template_file pv template_text) as [ts|e]; cbn [bind]; [|discriminate].
  destruct (build_dict pv ts) as [d|e] eqn:B; cbn [bind]; [|discriminate].
  intros E. injection E as <- _. cbn. split; [reflexivity|]. exists ts. auto.
Qed.
Print Assumptions C56_default.
(** Under Python <= 2.6 a default dispatcher can be built; under 2.7 it cannot. *)
Theorem C56_default_py26 s xml : has_handler s -> exists env, fst (dispatcher_init Py26 s TNone xml) = Ok env /\
  build_dict Py26 shipped_templates = Ok (e_ser_dict env) /\ build_dict Py26 shipped_templates = Ok (e_des_dict env).
Proof.
  intros H. unfold dispatcher_init.
  assert (negb (ds_handler s) && negb (ds_handle s) = false) as -> by (destruct H as [-> | ->]; [reflexivity|apply andb_false_r]).
  unfold deserializer_init, serializer_init. cbn [dict_from_template dict_from_list]. rewrite C53_parsed. cbn [bind].
  destruct (C53_found_again shipped_templates C53_parsed) as (d & B & _). rewrite B. cbn.
  eexists. split; [reflexivity|]. split; reflexivity.
Qed.
Print Assumptions C56_default_py26.
Theorem C56_default_py27 s xml : has_handler s -> fst (dispatcher_init Py27 s TNone xml) = Err StructError.
Proof.
  intros H. unfold dispatcher_init.
  assert (negb (ds_handler s) && negb (ds_handle s) = false) as -> by (destruct H as [-> | ->]; [reflexivity|apply andb_false_r]).
  unfold deserializer_init. cbn [dict_from_template]. rewrite C53_python27. reflexivity.
Qed.
Print Assumptions C56_default_py27.
(** Neither a handler nor HANDLE_PACKETS: AttributeError; a template that is not
    a file: NameError. *)
Theorem C56_not_built pv s t xml : (t <> TOther /\ ~ has_handler s -> fst (dispatcher_init pv s t xml) = Err AttributeErr) /\
  (t = TOther -> fst (dispatcher_init pv s t xml) = Err NameErr).
Proof.
  unfold dispatcher_init, has_handler. split.
  - intros (T & H). assert (negb (ds_handler s) && negb (ds_handle s) = true) as ->.
    { destruct (ds_handler s), (ds_handle s); try reflexivity; exfalso; apply H; auto. }
    destruct t; try reflexivity. congruence.
  - intros ->. reflexivity.
Qed.
Print Assumptions C56_not_built.
(** An object that is neither a file nor iterable, given to one of the four
    constructors: each raises at once, and another exception. *)
Theorem C56_other pv s xml x :
  fst (manager_init pv s TOther x) = Err NameErr /\ fst (dispatcher_init pv s TOther xml) = Err NameErr /\
  fst (serializer_init pv TOther xml) = Err TypeErr /\ fst (deserializer_init pv TOther xml) = Err AttributeErr.
Proof. repeat split; reflexivity. Qed.
Print Assumptions C56_other.
Definition w_text : bytes := bytes_of_string "{
	Ping High 1 NotTrusted Unencoded
	{
		PingID Single
		{	PingID	U8	}
	}
}
".
Definition w_set : dsettings := {| ds_deferred := true; ds_handle := true; ds_handle_out := false; ds_handler := false; ds_cb := fun _ _ => None |}.
Example C56_ex : exists env t', dispatcher_init Py27 w_set (TFile (open_file w_text)) None = (Ok env, t') /\
  match get_template (e_des_dict env) "Ping" with Some t => t_num t = 1 | None => False end /\ get_template (e_ser_dict env) "Ping" = None.
Proof. eexists _, _. split; [vm_compute; reflexivity|]. vm_compute. split; reflexivity. Qed.
Definition w_env : denv := match fst (dispatcher_init Py27 w_set (TFile (open_file w_text)) None) with Ok e => e | Err _ => d_env end.
(** Two sends of a message that its own file describes: nothing goes out, ids 1
    and 2 are used up. *)
Example C56_ex_sends : let ops := [NewHost d_a; NewMsg (mk_message "Ping" [One (mk_block "PingID" [("PingID"%string, VInt 7)])]); Send 0 0 (Reliable 3) d_sock; Send 0 0 Plain d_sock] in
  map (fun x => (m_id (at_msg x), at_data x)) (attempts_to d_a (trace w_env init_state ops)) = [(1, None); (2, None)] /\
  map (fun o => match o with OSend d => Some (o_res d) | _ => None end) (snd (run w_env init_state ops)) =
    [None; None; Some (Ok None); Some (Ok None)].
Proof. vm_compute. split; reflexivity. Qed.

(** ** C57 *)
(** Whatever table is given, the dispatcher that results is the one that results
    from giving none, and its decisions rest on the embedded table. *)
Theorem C57_dispatcher pv s t xml : dispatcher_init pv s t xml = dispatcher_init pv s t None /\
  (forall env t', dispatcher_init pv s t xml = (Ok env, t') -> e_ser_xml env = embedded_xml /\ e_des_xml env = embedded_xml).
Proof.
  split; [reflexivity|]. unfold dispatcher_init. intros env t'. destruct t as [|f|]; [| |discriminate];
  (destruct (negb (ds_handler s) && negb (ds_handle s)); [discriminate|]); unfold deserializer_init, serializer_init.
  - destruct (dict_from_template pv TNone) as [[d|e] t1]; cbn [bind]; [|discriminate].
    destruct (dict_from_list pv t1) as [[d'|e] t2]; cbn [bind]; [|discriminate]. intros E. injection E as <- _. auto.
  - destruct (dict_from_template pv (TFile f)) as [[d|e] t1]; cbn [bind]; [|discriminate].
    destruct (dict_from_list pv t1) as [[d'|e] t2]; cbn [bind]; [|discriminate]. intros E. injection E as <- _. auto.
Qed.
Print Assumptions C57_dispatcher.
Theorem C57_manager pv s t x : manager_init pv s t (XFile x None) = manager_init pv s t XNone /\
  (forall env t', manager_init pv s t (XFile x None) = (Ok env, t') -> e_ser_xml env = embedded_xml /\ e_des_xml env = embedded_xml).
Proof.
  split; [destruct t; reflexivity|]. intros env t' H. destruct t as [|f|]; [| |discriminate];
  exact (proj2 (C57_dispatcher pv s _ None) env t' H).
Qed.
Print Assumptions C57_manager.
(** Hence every history runs in the same way, whatever the table. *)
Theorem C57_same_behaviour pv s t xml xml' env env' ops : fst (dispatcher_init pv s t xml) = Ok env ->
  fst (dispatcher_init pv s t xml') = Ok env' -> run env init_state ops = run env' init_state ops.
Proof.
  intros H H'. change (dispatcher_init pv s t xml) with (dispatcher_init pv s t xml') in H. rewrite H in H'. congruence.
Qed.
Print Assumptions C57_same_behaviour.
(** It would make a difference if it were passed on: a table that bans Ping. *)
Example C57_ex : let ban := [("Ping"%string, Some "llsd"%string)] in
  serialize Py27 s_dict ban s_msg = Ok None /\ serialize Py27 s_dict embedded_xml s_msg = Ok (Some s_wire).
Proof. vm_compute. split; reflexivity. Qed.
