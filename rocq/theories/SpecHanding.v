(** Vocabulary for C101 and C102: a message handed to the subscribers of its name by
    one operation of the dispatcher, among others (see SpecGreenlets.v). *)
From Verif Require Export SpecGreenlets.

(** Who is subscribed to [name] at this moment. *)
Definition subscribers (name : string) (c : config) : list sub :=
  match sget name (s_handler (cf_st c)) with Some l => l | None => [] end.

(** The moments at which the t-th operation goes on, and how what it had called
    returned. *)
Fixpoint turns (env : denv) (c : config) (t : nat) (xs : list sched) : list (option exn * config) :=
  match xs with
  | [] => []
  | x :: xs' => match x with Resume j e => if Nat.eqb t j then [(e, c)] else [] | Spawn _ => [] end ++
                turns env (fst (cstep env c x)) t xs'
  end.
(** What the t-th operation itself lets us see, from its start. *)
Fixpoint seen_of (env : denv) (c : config) (t : nat) (xs : list sched) : list gevent :=
  match xs with
  | [] => []
  | x :: xs' => (if match x with Resume j _ => Nat.eqb t j | Spawn _ => Nat.eqb t (List.length (cf_pool c)) end
                 then gevents env c x else []) ++
                seen_of env (fst (cstep env c x)) t xs'
  end.
(** Its result, if it has returned; no such operation gives none. *)
Definition returned_with (c : config) (t : nat) : option outcome :=
  match nth_error (cf_pool c) t with Some (Finished o) => Some o | _ => None end.

(** Handing over to the subscribers of [name], [k] being the next position, at the
    moment [c]; [later] are the moments at which it goes on.  Who is called, when;
    and, if it has come to its end, with which exception, at which moment, and the
    moments left then. *)
Fixpoint handing (name : string) (k : nat) (c : config) (later : list (option exn * config))
  : list (sub * config) * option (option exn * config * list (option exn * config)) :=
  match nth_error (subscribers name c) k with
  | None => ([], Some (None, c, later))
  | Some s =>
      match later with
      | [] => ([(s, c)], None)                                    (* being called *)
      | (Some e, c') :: later' => ([(s, c)], Some (Some e, c', later'))
      | (None, c') :: later' =>
          let '(called, ended) := handing name (S k) c' later' in ((s, c) :: called, ended)
      end
  end.
(** A KeyError of a subscriber is swallowed. *)
Definition passed_on (e : option exn) : option exn := match e with Some KeyErr => None | _ => e end.

(** Nobody changes the subscriptions to [name], and nobody raises. *)
Definition left_alone (name : string) (c : config) (later : list (option exn * config)) : Prop :=
  Forall (fun '(e, c') => e = None /\ subscribers name c' = subscribers name c) later.

(** What the application gave for the packet: it keeps the content of the message. *)
Definition same_content (m m' : message) : Prop := m_name m' = m_name m /\ m_blocks m' = m_blocks m.
