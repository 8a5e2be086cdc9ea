(** Vocabulary for C106: which exceptions end an operation of a dispatcher used from
    several places at once, and with it a coroutine of the manager. *)
From Verif Require Export SpecLiveManager.

(** The exception the operation has ended with, if any. *)
Definition raised (th : thread) : option exn :=
  match th with
  | Finished (ORecv r) => match r_res r with Err e => Some e | Ok _ => None end
  | Finished (OSend o) => match o_res o with Err e => Some e | Ok _ => None end
  | _ => None
  end.
(** After [xs], the [t]-th operation started has ended with [e]. *)
Definition ended_with (env : denv) (xs : list sched) (t : nat) (e : exn) : Prop :=
  exists th, nth_error (cf_pool (after env xs)) t = Some th /\ raised th = Some e.
(** The [t]-th operation started is [o]; the dispatcher's state then was [st]. *)
Definition started (env : denv) (xs : list sched) (t : nat) (o : op) (st : dstate) : Prop :=
  exists p q, xs = p ++ Spawn o :: q /\ List.length (spawned p) = t /\ st = cf_st (after env p).
(** While the operation was calling a subscriber, that raised [e] (a KeyError is
    swallowed by the handler). *)
Definition a_subscriber_raised (env : denv) (xs : list sched) (t : nat) (e : exn) : Prop :=
  exists p q name i w, xs = p ++ Resume t (Some e) :: q /\ e <> KeyErr /\
    nth_error (cf_pool (after env p)) t = Some (InHandler name i w).
(** At some moment the message object [r] could not be converted to a string (as
    the logging of a failed send does), but raised [e]. *)
Definition unprintable (env : denv) (xs : list sched) (r : nat) (e : exn) : Prop :=
  exists p q m, xs = p ++ q /\ nth_error (s_msgs (cf_st (after env p))) r = Some m /\ msg_str_error m = Some e.
(** The socket failed (otherwise than by AssertionError) while the operation was
    sending the message object [r], and that could not be printed, raising [e]. *)
Definition send_failed_unprintable (env : denv) (xs : list sched) (t : nat) (r : nat) (e : exn) : Prop :=
  exists p q y m b k, xs = p ++ Resume t (Some y) :: q /\ y <> AssertionErr /\
    nth_error (cf_pool (after env p)) t = Some (InSocket r b k) /\
    nth_error (s_msgs (cf_st (after env p))) r = Some m /\ msg_str_error m = Some e.
(** The datagram cannot be read: the deserializer raises, or, where it yields no
    message, there are not even the five bytes with the packet's number. *)
Definition unreadable (env : denv) (st : dstate) (buf : bytes) (e : exn) : Prop :=
  deserialize (deser_conf env st) buf = Err e \/
  deserialize (deser_conf env st) buf = Ok None /\ sequence_number buf = None /\
  e = match buf with [] => IndexErr | _ => DataUnpackingErr end.
(** What can be the reason for [o], started in [st] as the [t]-th operation, to end
    with [e]. *)
Definition reason (env : denv) (xs : list sched) (t : nat) (o : op) (st : dstate) (e : exn) : Prop :=
  match o with
  | Receive h buf size =>
      e_handle env = true /\ a_subscriber_raised env xs t e \/
      0 < size /\ host_address st h <> None /\ unreadable env st buf e \/
      host_address st h = None /\ e = NameErr                              (* no such Host object *)
  | Send r h _ _ =>
      e_handle_out env = true /\ a_subscriber_raised env xs t e \/
      unprintable env xs r e \/
      (host_address st h = None \/ nth_error (s_msgs st) r = None) /\ e = NameErr
  | ProcessAcks _ _ =>
      e_handle_out env = true /\ a_subscriber_raised env xs t e \/
      (* someone has replaced the contents of a PacketAck being sent *)
      exists r m, (List.length (s_msgs st) <= r)%nat /\ In (Spawn (SetMsg r m)) xs /\ unprintable env xs r e
  | Retry _ _ => e = AttributeErr
  | _ => False
  end.
