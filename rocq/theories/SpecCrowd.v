(** Vocabulary for C103: several dispatchers, each of them used by many operations
    at once (SpecGreenlets.v), exchanging datagrams over an unreliable network. *)
From Verif Require Export SpecGreenlets.
From Verif Require Import SpecLayout SpecFloats SpecRoundTrip.
Open Scope Z_scope.

(** The dispatchers, each with its configuration and the operations begun at it;
    and all that happened, at which of them, in order. *)
Record crowd := { w_nodes : list (denv * config); w_log : list (nat * gevent) }.

(** Somebody handed the packet [x] to a socket, as the datagram [d]. *)
Definition put_out (log : list (nat * gevent)) (x : attempt) (d : bytes) : Prop :=
  exists i, In (i, Net (Attempted x)) log /\ at_data x = Some d.
(** A dispatcher may be given a datagram only if it was put out before; by whom,
    when, for whom, and how often it was given to somebody before do not matter. *)
Definition may (log : list (nat * gevent)) (x : sched) : Prop :=
  match x with
  | Spawn (Receive _ buf size) => size <= 0 \/ exists y, put_out log y buf
  | _ => True
  end.

Definition crowd_start (envs : list denv) : crowd :=
  {| w_nodes := map (fun env => (env, idle init_state)) envs; w_log := [] |}.
(** One of the dispatchers starts or continues one of its operations. *)
Inductive crowd_step : crowd -> crowd -> Prop :=
| crowd_at i before env cf after x log :
    List.length before = i -> may log x ->
    crowd_step {| w_nodes := before ++ (env, cf) :: after; w_log := log |}
               {| w_nodes := before ++ (env, fst (cstep env cf x)) :: after;
                  w_log := log ++ map (pair i) (gevents env cf x) |}.
Inductive crowd_steps : crowd -> crowd -> Prop :=
| cs_refl n : crowd_steps n n
| cs_step n1 n2 n3 : crowd_steps n1 n2 -> crowd_step n2 n3 -> crowd_steps n1 n3.

(** They all use the templates [ts], and nobody subscribes to outgoing packets. *)
Definition same_templates (pv : pyver) (ts : list template) (envs : list denv) : Prop :=
  Forall (fun env => build_dict pv ts = Ok (e_ser_dict env) /\ e_des_dict env = e_ser_dict env /\ e_handle_out env = false) envs.
(** The packet announces appended acks: it was prepared while some were queued for
    its address (C28: they are not written). *)
Definition announces_acks (x : attempt) : Prop := Z.testbit (m_flags (at_msg x)) ack_bit = true.
(** At the end of [past], dispatcher [i] began to send the PacketAck [x]. *)
Definition answering (past : list (nat * gevent)) (i : nat) (x : attempt) : Prop :=
  exists p a ids, past = p ++ [(i, Packing a ids)] /\ acknowledges (at_msg x) ids.
(** Apart from the PacketAcks of process_acks, what is sent conforms to its
    template; and no address has been sent 2^31 packets. *)
Definition conforming_use (ts : list template) (log : list (nat * gevent)) : Prop :=
  forall past i x d future, log = past ++ (i, Net (Attempted x)) :: future -> at_data x = Some d ->
    m_id (at_msg x) < 2 ^ 31 /\
    (answering past i x \/
     exists t, In t ts /\ usable t /\ m_name (at_msg x) = t_name t /\ conforming t (at_msg x)).
(** Nobody but process_acks sends PacketAcks. *)
Definition only_own_acks (log : list (nat * gevent)) : Prop :=
  forall past i x d future, log = past ++ (i, Net (Attempted x)) :: future -> at_data x = Some d ->
    m_name (at_msg x) = "PacketAck"%string -> answering past i x.
(** [n] is the number of a datagram that was put out. *)
Definition a_number (log : list (nat * gevent)) (n : Z) : Prop :=
  exists y d, put_out log y d /\ sequence_number d = Some n.
(** Dispatcher [i] has received a datagram from [a] that is to be acknowledged. *)
Definition owed_at (log : list (nat * gevent)) (i : nat) (a : addr) : Prop :=
  exists k ids, In (i, Queued a (k :: ids)) log.
(** [w] is a copy of [m], which was sent according to the template [t], if the acks
    that [w] seems to bring are disregarded. *)
Definition a_copy (t : template) (m w : message) : Prop := message_back t m (reflagged (m_flags w) [] w).
(** Where these acks come from: nowhere, if the packet [x] announces none; else
    they are read from the end of the datagram [d] itself, whatever stands there. *)
Definition acks_from (x : attempt) (d : bytes) (ids : list Z) : Prop :=
  if Z.testbit (m_flags (at_msg x)) ack_bit
  then exists front trailer, d = front ++ trailer /\ ack_trailer trailer ids
  else ids = [].
