(** C83 and C84: what the dispatcher logs, and that logging changes nothing else.
    Vocabulary: SpecLogging.v (with SpecCut.v and SpecLayout.v).  [s] are the
    settings of the dispatcher, [hs] those of its message handler. *)
From Verif Require Import Samples SpecDispatch SpecCut LoggingProofs LogReasons Prop_Dispatch PacketMore.
From Verif Require Import SpecLogging SpecLayout.
Open Scope list_scope.

(** ** C83 *)
(** The dispatcher with its log statements does exactly what the dispatcher of
    C21-C32 does: same states, same results. *)
Theorem C83_same_program s hs env ops st :
  run (with_settings s env) st ops = (fst (run_l s hs env st ops), map fst (snd (run_l s hs env st ops))).
Proof. exact (run_same s hs env ops st). Qed.
Print Assumptions C83_same_program.
(** Settings that agree on HANDLE_PACKETS, HANDLE_OUTGOING_PACKETS and
    ENABLE_DEFERRED_PACKET_PARSING give the same states and the same results, and
    the same subscriber calls, datagrams and warnings in the same order: only
    optional lines come and go. *)
Theorem C83_settings_irrelevant s hs s' hs' env ops st : same_behaviour s s' ->
  let r := run_l s hs env st ops in let r' := run_l s' hs' env st ops in
  fst r = fst r' /\ map fst (snd r) = map fst (snd r') /\
  map (fun x => essential (snd x)) (snd r) = map (fun x => essential (snd x)) (snd r').
Proof. intros H. exact (run_alike s hs s' hs' env ops H st). Qed.
Print Assumptions C83_settings_irrelevant.
(** In particular quiet, default and spammy Settings are interchangeable. *)
Theorem C83_quiet_or_spammy q p l q' p' l' hs hs' env ops st :
  let r := run_l (mk_settings q p l) hs env st ops in let r' := run_l (mk_settings q' p' l') hs' env st ops in
  fst r = fst r' /\ map fst (snd r) = map fst (snd r') /\
  map (fun x => essential (snd x)) (snd r) = map (fun x => essential (snd x)) (snd r').
Proof. apply C83_settings_irrelevant. destruct q, p, q', p'; repeat split. Qed.
Print Assumptions C83_quiet_or_spammy.
(** The calls and datagrams among the entries are those the operation reports. *)
Theorem C83_reported s hs env ops st x t : In (x, t) (snd (run_l s hs env st ops)) ->
  match x with
  | OUnit => t = []
  | OSend o => o_calls o = calls_of t /\ taken_attempts (o_sends o) = taken t
  | ORecv r => r_calls r = calls_of t /\ taken t = []
  end.
Proof. exact (run_out s hs env ops st x t). Qed.
Print Assumptions C83_reported.

(** ** C84 *)
(** A line appears only if its switches are on. *)
Theorem C84_switches s hs env ops st x t l : In (x, t) (snd (run_l s hs env st ops)) -> In (Line l) t -> switched_on s hs l.
Proof. intros H. exact (segs_switched s hs _ t l (run_segs s hs env ops st x t H)). Qed.
Print Assumptions C84_switches.
(** Under Settings(quiet_logging=True) nothing optional is logged, whatever the
    handler's settings, except for its "Handling message" line; and a handler with
    the spammers disabled (the default) never logs that line. *)
Theorem C84_quiet p l hs env ops st x t y : In (x, t) (snd (run_l (mk_settings true p l) hs env st ops)) ->
  In (Line y) t -> optional (Line y) = true -> exists n, y = HandlingLine n.
Proof.
  intros H I O. pose proof (C84_switches _ _ _ _ _ _ _ _ H I) as S. destruct y; try discriminate O; cbn in S.
  - destruct S as [S _]; destruct p; discriminate.
  - destruct S as [S _]; destruct p; discriminate.
  - destruct S as [[S _] _]; destruct p; discriminate.
  - destruct S as [S _]; destruct p; discriminate.
  - eauto.
Qed.
Print Assumptions C84_quiet.
Theorem C84_handling_never s q l env ops st x t n : In (x, t) (snd (run_l s (mk_settings q false l) env st ops)) ->
  ~ In (Line (HandlingLine n)) t.
Proof.
  intros H I. pose proof (C84_switches _ _ _ _ _ _ _ _ H I) as [S1 [S2|S2]]; destruct q; discriminate.
Qed.
Print Assumptions C84_handling_never.
(** Every datagram handed to the socket is announced by a line immediately before
    it, whether or not the socket then takes it, unless its name is kept out of the
    log; ... *)
Theorem C84_sent s hs env ops st x t pre a m b accepted post :
  In (x, t) (snd (run_l s hs env st ops)) -> t = pre ++ Handed a m b accepted :: post ->
  (announced s (m_name m) <-> exists pre', pre = pre' ++ [Line (sent_line s a m b)]).
Proof.
  intros H E. pose proof (run_segs s hs env ops st x t H) as G. split.
  - exact (segs_handed s hs _ t pre a m b accepted post G E).
  - intros (pre' & ->). assert (In (Line (sent_line s a m b)) t) as I.
    { rewrite E, <- app_assoc. apply in_or_app. right. now left. }
    exact (proj1 (C84_switches _ _ _ _ _ _ _ _ H I)).
Qed.
Print Assumptions C84_sent.
(** ... and a "Sent packet" line is followed by its datagram, except that with hex
    logging off it is also written for a message that message.xml has just kept
    from being sent. *)
Theorem C84_sent_only s hs env ops st x t pre h n i hex post :
  In (x, t) (snd (run_l s hs env st ops)) -> t = pre ++ Line (SentLine h n i hex) :: post ->
  (exists a m b accepted post', post = Handed a m b accepted :: post' /\ SentLine h n i hex = sent_line s a m b) \/
  (hex = None /\ ENABLE_BYTES_TO_HEX_LOGGING s = false /\
   exists pre' tm, pre = pre' ++ [Line (BannedOutLine (t_name tm))] /\ get_template (e_ser_dict env) n = Some tm).
Proof.
  intros H E. destruct (segs_sent s hs _ t pre h n i hex post (run_segs s hs env ops st x t H) E) as [(a & m & b & ok & post' & E1 & E2 & _)|K].
  - left. exists a, m, b, ok, post'. auto.
  - right. exact K.
Qed.
Print Assumptions C84_sent_only.
(** A send that returns None to a usable address has ended in the line "Error
    trying to serialize the following packet", unless the socket raised
    AssertionError. *)
Theorem C84_send_failure s hs env st mref href md sock a o st' t :
  nth_error (s_hosts st) href = Some a -> host_ok a = true ->
  step_l s hs env st (Send mref href md sock) = (st', OSend o, t) -> o_res o = Ok None ->
  exists m, o_sends o = [{| at_addr := a; at_msg := m; at_data := None |}] /\
    ((exists t', t = t' ++ [Line (FailedLine m)]) \/
     (exists b, sock a b = Some AssertionErr /\ exists t', t = t' ++ [Handed a m b false])).
Proof.
  intros Ha Hok E. pose proof (send_failure s hs env st mref href md sock a Ha Hok) as F. cbn [step_l] in E.
  destruct (send_message_l s hs env st mref href md sock) as [[st1 o1] t1]. injection E as <- <- <-. exact F.
Qed.
Print Assumptions C84_send_failure.
(** What becomes of a datagram that is received: it is dropped for a reason, which
    is logged (the reason "nobody handles it" only if switched on); or it is dropped
    without a line because its circuit is trusted; or it is announced and delivered;
    or it is rejected with an exception and no line. *)
Theorem C84_received pv ts s hs env st h a buf size st' r t :
  build_dict pv ts = Ok (e_des_dict env) -> Forall well_formed ts ->
  (forall t, In t ts -> sget (t_name t) (e_des_xml env) <> Some None) ->
  nth_error (s_hosts st) h = Some a -> 0 < size ->
  step_l s hs env st (Receive h buf size) = (st', ORecv r, t) ->
  let d := e_des_dict env in let allowed := udp_allowed (e_des_xml env) in
  let wanted n := is_message_handled (s_handler st) n = true \/ ENABLE_DEFERRED_PACKET_PARSING s = false in
  (exists l, reason d allowed wanted buf l /\ r_calls r = [] /\
     ((switched_on s hs l /\ lines t = [l]) \/ (~ switched_on s hs l /\ lines t = []))) \/
  (exists m c, datagram_says d allowed wanted buf m /\ get_circuit (s_circuits st) a = Some c /\ c_trusted c = true /\
     r_res r = Ok None /\ r_calls r = [] /\ t = []) \/
  (exists m t', datagram_says d allowed wanted buf m /\
     ((ENABLE_UDP_LOGGING s = true /\ PROXY_LOGGING s = false /\ t = Line (received_line s a m buf) :: t') \/
      (~ (ENABLE_UDP_LOGGING s = true /\ PROXY_LOGGING s = false) /\ t = t')) /\
     (forall h n i x, ~ In (Line (ReceivedLine h n i x)) t') /\
     (if HANDLE_PACKETS s then delivered s hs (e_cb env) m (subscribers st (m_name m)) t' else t' = [])) \/
  (exists e, r_res r = Err e /\ t = [] /\ r_calls r = [] /\ (rejected d allowed wanted buf \/ header_failure buf e)).
Proof.
  intros Hb Hw Hx Ha Hsz E. pose proof (receive_story pv ts s hs env st h a buf size Hb Hw Hx Ha Hsz) as F. cbn [step_l] in E.
  destruct (receive_check_l s hs env st h buf size) as [[st1 r1] t1]. injection E as <- <- <-. exact F.
Qed.
Print Assumptions C84_received.

(** ** Examples *)
Definition lg_env (x : xmltable) : denv := {| e_pv := Py27; e_ser_dict := d_dict; e_ser_xml := x; e_des_dict := d_dict; e_des_xml := x;
  e_deferred := true; e_handle := true; e_handle_out := false; e_cb := fun _ _ => None |}.
(** Traces of [d_ops] under the default settings: an announced send, and a
    received message delivered to one subscriber. *)
Example C83_ex : exists o1 o2 m m' b,
  nth_error (snd (run_l defaults defaults d_env init_state d_ops)) 4 =
    Some (OSend o1, [Line (SentLine (Some d_a) "Ping" 1 None); Handed d_a m b true]) /\
  nth_error (snd (run_l defaults defaults d_env init_state d_ops)) 6 =
    Some (ORecv o2, [Line (ReceivedLine (Some d_a) "Ping" 9 None); Call d_sub m']) /\
  nth_error (map (fun x => essential (snd x)) (snd (run_l (mk_settings true false true) defaults d_env init_state d_ops))) 6 = Some [Call d_sub m'] /\
  same_behaviour defaults (mk_settings true false true).
Proof. vm_compute. do 5 eexists. repeat split; reflexivity. Qed.
(** A banned message is announced and discarded; with hex logging it is only
    discarded. *)
Definition lg_ops : list op := [NewHost d_a; NewMsg s_msg; Send 0 0 Plain d_sock; Receive 0 (d_in x09) 14].
Definition lg_xml : xmltable := [("Ping"%string, Some "llsd"%string)].
Example C84_ex : exists m o1 o2,
  nth_error (snd (run_l defaults defaults (lg_env lg_xml) init_state lg_ops)) 2 =
    Some (o1, [Line (BannedOutLine "Ping"); Line (SentLine (Some d_a) "Ping" 1 None); Line (FailedLine m)]) /\
  nth_error (snd (run_l (mk_settings false true true) defaults (lg_env lg_xml) init_state lg_ops)) 2 =
    Some (o1, [Line (BannedOutLine "Ping"); Line (FailedLine m)]) /\
  nth_error (snd (run_l defaults defaults (lg_env lg_xml) init_state lg_ops)) 3 =
    Some (o2, [Line (BannedInLine "Ping")]).
Proof. vm_compute. do 3 eexists. repeat split; reflexivity. Qed.
Lemma d_well_formed : Forall well_formed (d_ack :: s_ts).
Proof.
  constructor; [|exact s_well_formed]. intros tb [<-|[]]. split; [discriminate|]. intros v [<-|[]].
  do 2 eexists. split; [reflexivity|]. split; [reflexivity|]. cbn. auto.
Qed.
(** Of the ways of C84_received: an unknown number, a skipped message, a cut one,
    a rejected one. *)
Example C84_received_ex :
  build_dict Py27 (d_ack :: s_ts) = Ok (e_des_dict d_env) /\ Forall well_formed (d_ack :: s_ts) /\
  lines (snd (step_l defaults defaults d_env d_st (Receive 0 [x00; x00; x00; x00; x07; x00; x55; x01] 8))) = [UnknownLine [x55; x01]] /\
  lines (snd (step_l defaults defaults d_env d_st (Receive 0 [x00; x00; x00; x00; x07; x00; xff; x09] 8))) = [SkippedLine "Bare"] /\
  snd (step_l defaults defaults d_env d_st (Receive 0 (firstn 11 (d_in x07)) 11)) = [Printed 3; Line (ShortLine 13 11 "Ping")] /\
  snd (step_l defaults defaults d_env d_st (Receive 0 [x00; x00; x00] 3)) = [].
Proof. split; [reflexivity|]. split; [exact d_well_formed|]. vm_compute. repeat split; reflexivity. Qed.
