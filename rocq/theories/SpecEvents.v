(** Vocabulary for the statements about events and the message handler. *)
From Verif Require Export Events.

(** The call a subscription asks for: its handler, on the event's data followed
    by the arguments given when subscribing. *)
Definition call_of {D} (data : D) (s : sub) : nat * D * nat := (sb_handler s, data, sb_args s).

(** A subscriber behaviour: what the call of a subscription does to the list of
    subscriptions, and whether it raises. *)
Definition behaviour (D : Type) := nat -> D -> nat -> list sub -> list sub * option exn.
(** [s], called on [data], returns normally and leaves the subscriptions alone. *)
Definition quiet {D} (cb : behaviour D) (data : D) (s : sub) : Prop :=
  forall l, cb (sb_handler s) data (sb_args s) l = (l, None).
(** [s], called on [data], raises [e] and leaves the subscriptions alone. *)
Definition raising {D} (cb : behaviour D) (data : D) (s : sub) (e : exn) : Prop :=
  forall l, cb (sb_handler s) data (sb_args s) l = (l, Some e).
(** [s], called on [data], unsubscribes itself. *)
Definition self_removing {D} (cb : behaviour D) (data : D) (s : sub) : Prop :=
  forall before after, ~ In s before ->
    cb (sb_handler s) data (sb_args s) (before ++ s :: after) = (before ++ after, None).
(** [s], called on [data], subscribes [new]. *)
Definition subscribing {D} (cb : behaviour D) (data : D) (s : sub) (new : list sub) : Prop :=
  forall l, cb (sb_handler s) data (sb_args s) l = (l ++ new, None).

(** notify(data) on the subscriptions [l] makes these calls, leaves these
    subscriptions and ends normally ([None]) or with an exception. *)
Definition notifies {D} (cb : behaviour D) (data : D) (l : list sub)
  (calls : list (nat * D * nat)) (l' : list sub) (e : option exn) : Prop :=
  exists fuel, notify cb data fuel 0 l = Some (calls, l', e).

(** Histories of a message handler: what an operation is about, and the
    subscriptions under [name] according to the history, looking only at the
    operations about [name]: appended by subscribe, the earliest equal one
    removed by unsubscribe. *)
Definition about (o : hop) : string :=
  match o with HRegister n => n | HSubscribe n _ => n | HUnsubscribe n _ => n end.

Definition sub_dec (a b : sub) : {a = b} + {a <> b}.
Proof. decide equality; apply Nat.eq_dec. Defined.
Fixpoint drop_one (s : sub) (l : list sub) : list sub :=
  match l with
  | [] => []
  | a :: l' => if sub_dec a s then l' else a :: drop_one s l'
  end.
Fixpoint subscriptions (name : string) (so_far : list sub) (history : list hop) : list sub :=
  match history with
  | [] => so_far
  | o :: rest =>
      subscriptions name
        (match o with
         | HRegister _ => so_far
         | HSubscribe n s => if String.eqb n name then so_far ++ [s] else so_far
         | HUnsubscribe n s => if String.eqb n name then drop_one s so_far else so_far
         end) rest
  end.
