(** Vocabulary for C98: what reaches subscribers in a network of managers. *)
From Verif Require Export SpecNetwork.
From Verif Require Import SpecFloats SpecRoundTrip.
Open Scope Z_scope.

(** The packets that one call of a manager's loop prepared. *)
Definition sends_of (e : mevent) : list attempt :=
  match e with ERecv _ => [] | EAcks o | ESend _ _ o => o_sends o end.
(** In the course of [log] some manager handed the packet [x] to its socket, as
    the datagram [d]. *)
Definition put_out (log : list (nat * mevent)) (x : attempt) (d : bytes) : Prop :=
  exists i e, In (i, e) log /\ In x (sends_of e) /\ at_data x = Some d.
(** The managers all use the templates [ts]. *)
Definition same_templates (pv : pyver) (ts : list template) (cs : list (denv * addr * option eqstate)) : Prop :=
  Forall (fun '(env, _, _) => build_dict pv ts = Ok (e_ser_dict env) /\ e_des_dict env = e_ser_dict env) cs.
(** What the applications had sent conforms to its template, and no circuit has
    seen 2^31 packets. *)
Definition conforming_traffic (ts : list template) (log : list (nat * mevent)) : Prop :=
  forall i e x d, In (i, e) log -> In x (sends_of e) -> at_data x = Some d ->
    m_id (at_msg x) < 2 ^ 31 /\
    match e with
    | ESend _ _ _ => exists t, In t ts /\ usable t /\ m_name (at_msg x) = t_name t /\ conforming t (at_msg x)
    | _ => True
    end.
