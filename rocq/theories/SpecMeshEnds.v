(** Vocabulary for C107: what is asked of users and tables so that no coroutine on
    the network of C105 ends with an exception. *)
From Verif Require Export SpecTidy SpecEnds.
From Verif Require Import Prop_RoundTrip SpecLayout SpecFloats SpecRoundTrip.
Open Scope Z_scope.

(** The message has some instance of some block of its template, if that has any
    blocks. *)
Definition says_something (t : template) (m : message) : Prop :=
  t_blocks t = [] \/ exists tb, In tb (t_blocks t) /\ instances m (tb_name tb) <> [].
(** The Messages users make can be printed and say something. *)
Definition makes_sound (ts : list template) (o : wop) : Prop :=
  match o with
  | WUser (Spawn (NewMsg m)) => msg_str_error m = None /\ forall t, In t ts -> m_name m = t_name t -> says_something t m
  | _ => True
  end.
(** Every message in the managers' tables (message.xml) has a flavor. *)
Definition sound_tables (es : list wenv) : Prop := forall e name, In e es -> sget name (e_des_xml (we_env e)) <> Some None.
(** The manager is only given Message objects there are. *)
Fixpoint enqueues_made (e : wenv) (w : whole) (ops : list wop) : Prop :=
  match ops with
  | [] => True
  | o :: ops' =>
      match o with
      | WEnqueue r _ _ => nth_error (s_msgs (cf_st (lv_cf (wh_udp w)))) r <> None
      | _ => True
      end /\ enqueues_made e (wstep e w o) ops'
  end.
Definition sound_use (ts : list template) (es : list wenv) (n : mesh) : Prop :=
  (forall p, In p (me_done n) -> makes_sound ts (snd p)) /\ sound_tables es /\
  (forall i e, nth_error es i = Some e -> enqueues_made e (w_init e) (of_manager i (me_done n))).
(** No subscriber raises anything but KeyError. *)
Definition subscribers_return (n : mesh) : Prop :=
  forall i t x, In (i, WUser (Resume t (Some x))) (me_done n) -> x = KeyErr.
