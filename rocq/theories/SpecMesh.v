(** Vocabulary for C104: several managers (SpecWhole.v), each with its event queue,
    its coroutines, its user and their interleavings, on one unreliable network. *)
From Verif Require Export SpecWhole SpecCrowd.
From Verif Require Import Prop_RoundTrip SpecLayout SpecFloats SpecRoundTrip.
Open Scope Z_scope.

(** The managers, each with its settings; all that was done, at which of them, in
    order; and all that was observed. *)
Record mesh := { me_nodes : list (wenv * whole); me_done : list (nat * wop); me_log : list (nat * wobs) }.
(** What concerns the i-th of them. *)
Definition of_manager {A} (i : nat) (l : list (nat * A)) : list A :=
  flat_map (fun p => if Nat.eqb (fst p) i then [snd p] else []) l.
(** What was seen of their dispatchers. *)
Definition of_dispatchers (log : list (nat * wobs)) : list (nat * gevent) :=
  flat_map (fun p => match snd p with WV (VSeen e) => [(fst p, e)] | _ => [] end) log.
(** A datagram reaches recvfrom of a coroutine, or receive_check called by the user,
    only if it was put out before; from whom, when, for whom, from which address
    and how often it was delivered before do not matter. *)
Definition may_happen (log : list (nat * wobs)) (o : wop) : Prop :=
  match o with
  | WUdp _ (RData _ data) _ => exists x, put_out (of_dispatchers log) x data
  | WUser x => may (of_dispatchers log) x
  | _ => True
  end.
Definition mesh_start (es : list wenv) : mesh :=
  {| me_nodes := map (fun e => (e, w_init e)) es; me_done := []; me_log := [] |}.
Inductive mesh_step : mesh -> mesh -> Prop :=
| mesh_at i before e w after o done log :
    List.length before = i -> may_happen log o ->
    mesh_step {| me_nodes := before ++ (e, w) :: after; me_done := done; me_log := log |}
              {| me_nodes := before ++ (e, wstep e w o) :: after; me_done := done ++ [(i, o)];
                 me_log := log ++ map (pair i) (wobserved e w o) |}.
Inductive mesh_steps : mesh -> mesh -> Prop :=
| ms_refl n : mesh_steps n n
| ms_step n1 n2 n3 : mesh_steps n1 n2 -> mesh_step n2 n3 -> mesh_steps n1 n3.

(** The users leave sending, receiving and acknowledging to their managers, and do
    not change Messages. *)
Definition leaves_all (o : wop) : Prop :=
  match o with
  | WUser (Spawn (Send _ _ _ _)) | WUser (Spawn (Receive _ _ _)) | WUser (Spawn (ProcessAcks _ _)) | WUser (Spawn (SetMsg _ _)) => False
  | _ => True
  end.
(** The Messages they make can be written with the templates [ts]. *)
Definition makes_conforming (ts : list template) (o : wop) : Prop :=
  match o with
  | WUser (Spawn (NewMsg m)) => exists t, In t ts /\ usable t /\ m_name m = t_name t /\ conforming t m
  | _ => True
  end.
(** No address has been sent 2^31 packets (C21). *)
Definition few_packets (log : list (nat * wobs)) : Prop :=
  forall i x, In (i, WV (VSeen (Net (Attempted x)))) log -> m_id (at_msg x) < 2 ^ 31.
(** The Message with reference [r] of the i-th manager. *)
Definition message_of (n : mesh) (i r : nat) : option message :=
  match nth_error (me_nodes n) i with
  | Some (_, w) => nth_error (s_msgs (cf_st (lv_cf (wh_udp w)))) r
  | None => None
  end.
(** [x] has the name and the blocks of a Message somebody enqueued. *)
Definition enqueued_message (n : mesh) (past : list (nat * wobs)) (x : message) : Prop :=
  exists i msg rel now m, In (i, WV (VEnqueued msg rel now)) past /\ message_of n i msg = Some m /\
    m_name x = m_name m /\ m_blocks x = m_blocks m.
(** Nobody enqueues PacketAcks of his own. *)
Definition enqueues_no_acks (n : mesh) : Prop := forall i msg rel now m,
  In (i, WV (VEnqueued msg rel now)) (me_log n) -> message_of n i msg = Some m -> m_name m <> "PacketAck"%string.
(** The managers use the same templates [ts], among which PacketAck is as usual
    ([ta]); and nobody subscribes to outgoing packets. *)
Definition shares (pv : pyver) (ts : list template) (ta : template) (es : list wenv) : Prop :=
  same_templates pv ts (map we_env es) /\ Forall sized ts /\ unambiguous ts /\ In ta ts /\ packet_ack_template ta.
Definition well_used (ts : list template) (n : mesh) : Prop :=
  (forall p, In p (me_done n) -> leaves_all (snd p) /\ makes_conforming ts (snd p)) /\ few_packets (me_log n).
(** A coroutine of the manager waits in recvfrom. *)
Definition in_recvfrom (w : whole) (k : nat) : Prop := nth_error (lv_udp (wh_udp w)) k = Some VRecv.
(** What the coroutine [k] does with a datagram is to call receive_check with it. *)
Definition reads (w : whole) (k : nat) (d : bytes) : begun :=
  {| bg_by := k; bg_thread := S (List.length (cf_pool (lv_cf (wh_udp w)))); bg_call := CReceive d |}.
(** Nothing excludes messages of this template from being accepted from [a]. *)
Definition lets_in (e : wenv) (w : whole) (a : addr) (t : template) : Prop :=
  trusted (cf_st (lv_cf (wh_udp w))) a = false /\ udp_allowed (e_des_xml (we_env e)) (t_name t) /\
  (is_message_handled (s_handler (cf_st (lv_cf (wh_udp w)))) (t_name t) = true \/ e_deferred (we_env e) = false).
