(** Vocabulary for C78: subscribers that change the subscriptions while a message
    is being handled. *)
From Verif Require Export EventsLive.

(** The subscriptions under [name]. *)
Definition subs_of (r : registry) (name : string) : list sub :=
  match sget name r with Some l => l | None => [] end.
(** handle(m) calls these subscribers, one after the other, leaves these
    registrations and ends normally ([None]) or with an exception. *)
Definition delivers (cb : actor) (r : registry) (m : message) (calls : list sub) (r' : registry) (e : option exn) : Prop :=
  exists fuel, handle_live cb fuel r m = Some (calls, r', e).
(** handle(m) never returns. *)
Definition endless (cb : actor) (r : registry) (m : message) : Prop :=
  forall fuel, handle_live cb fuel r m = None.

(** The operations subscribe, or unsubscribe, something under [name]. *)
Definition joins (name : string) (ops : list hop) : Prop := exists s, In (HSubscribe name s) ops.
Definition leaves (name : string) (ops : list hop) : Prop := exists s, In (HUnsubscribe name s) ops.
(** No subscriber called on [m] ever does so (whatever the registrations are). *)
Definition nobody_joins (cb : actor) (m : message) : Prop := forall s r, ~ joins (m_name m) (fst (cb s m r)).
Definition nobody_leaves (cb : actor) (m : message) : Prop := forall s r, ~ leaves (m_name m) (fst (cb s m r)).
Definition nobody_raises (cb : actor) (m : message) : Prop := forall s r, snd (cb s m r) = None.

(** [a] is [l] with some elements left out. *)
Inductive picked {A} : list A -> list A -> Prop :=
| pk_nil : picked [] []
| pk_take x a l : picked a l -> picked (x :: a) (x :: l)
| pk_skip x a l : picked a l -> picked a (x :: l).
