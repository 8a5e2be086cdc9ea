(** pyogp/lib/base/events.py and message/message_handler.py *)
From Verif Require Export Template.

(** A subscription (handler, args, kwargs) of events.py:36.  The handler and
    the bound arguments are abstract tokens compared by equality, which is how
    list.remove compares the tuples (events.py:45). *)
Record sub := { sb_handler : nat; sb_args : nat }.
Definition sub_eqb (a b : sub) : bool :=
  Nat.eqb (sb_handler a) (sb_handler b) && Nat.eqb (sb_args a) (sb_args b).

(** events.py:33-38, Event.subscribe *)
Definition subscribe (l : list sub) (s : sub) : list sub := l ++ [s].

(** list.remove: the first equal element; None if there is none *)
Fixpoint remove_first (l : list sub) (s : sub) : option (list sub) :=
  match l with
  | [] => None
  | a :: l' => if sub_eqb a s then Some l'
               else match remove_first l' s with Some r => Some (a :: r) | None => None end
  end.

(** events.py:40-51, Event.unsubscribe.  In the [except] branch the expression
    [%s (handler)] evaluates the undefined name [s]: NameError. *)
Definition unsubscribe (l : list sub) (s : sub) : res (list sub) :=
  match remove_first l s with
  | Some l' => Ok l'
  | None => Err NameErr
  end.

(** events.py:71-74, clearSubscribers: Python 2 lists have no method clear. *)
Definition clear_subscribers (l : list sub) : res (list sub) := Err AttributeErr.

(** events.py:53-65, Event.notify(data): each subscriber (handler, args) is
    called as handler(data, *args).  A call [(handler, data, args)] made while
    the subscriber list is [l] may replace the list and may raise:
    [cb handler data args l].  The for loop over the live list is a loop on an
    index compared with the current length.  [fuel] bounds the number of
    iterations (the Python loop need not terminate); [None] means out of fuel. *)
Section Notify.
  Context {D : Type}.
  Variable cb : nat -> D -> nat -> list sub -> list sub * option exn.
  Variable data : D.
  Fixpoint notify (fuel i : nat) (l : list sub)
    : option (list (nat * D * nat) * list sub * option exn) :=
    match fuel with
    | O => None
    | S fuel' =>
        match nth_error l i with
        | None => Some ([], l, None)
        | Some s =>
            let call := (sb_handler s, data, sb_args s) in
            match cb (sb_handler s) data (sb_args s) l with
            | (l', Some e) => Some ([call], l', Some e)
            | (l', None) =>
                match notify fuel' (S i) l' with
                | None => None
                | Some (calls, l'', r) => Some (call :: calls, l'', r)
                end
            end
        end
    end.
End Notify.

(** events.py:67-69, 81: getSubscriberCount and __len__ *)
Definition subscriber_count (l : list sub) : Z := zlen l.

(** message_handler.py:43: the registry, message name -> notifier, a notifier
    being its event's subscriber list. *)
Definition registry := list (string * list sub).

(** message_handler.py:45-49, register (setdefault) *)
Definition register (r : registry) (name : string) : registry :=
  match sget name r with Some _ => r | None => sset name [] r end.

(** message_handler.py:51-64, is_message_handled *)
Definition is_message_handled (r : registry) (name : string) : bool :=
  match sget name r with Some _ => true | None => false end.

(** message_handler.py:92-93, 99-102: subscribe/unsubscribe on the notifier
    returned by register(name). *)
Definition reg_subscribe (r : registry) (name : string) (s : sub) : registry :=
  let r' := register r name in
  match sget name r' with Some l => sset name (subscribe l s) r' | None => r' end.
Definition reg_unsubscribe (r : registry) (name : string) (s : sub) : res registry :=
  let r' := register r name in
  match sget name r' with
  | Some l => do l' <- unsubscribe l s; Ok (sset name l' r')
  | None => Ok r'
  end.

(** message_handler.py:66-82 with 95-97, handle(message), for subscribers that
    do not change subscriptions while being called ([cb s m] tells whether the
    call raises).  Returns the calls made and the exception that escapes:
    KeyError is swallowed by line 80, whoever raised it. *)
Fixpoint call_all (cb : sub -> message -> option exn) (m : message) (l : list sub)
  : list sub * option exn :=
  match l with
  | [] => ([], None)
  | s :: l' =>
      match cb s m with
      | Some e => ([s], Some e)
      | None => let '(c, r) := call_all cb m l' in (s :: c, r)
      end
  end.
Definition swallow_keyerror (e : option exn) : option exn :=
  match e with Some KeyErr => None | _ => e end.
Definition handle (cb : sub -> message -> option exn) (r : registry) (m : message)
  : list sub * option exn :=
  match sget (m_name m) r with
  | None => ([], None)
  | Some l =>
      if 0 <? subscriber_count l
      then let '(c, e) := call_all cb m l in (c, swallow_keyerror e)
      else ([], None)
  end.

(** What a user of a MessageHandler can do to its registrations, given that
    notifiers are obtained from register. *)
Inductive hop :=
| HRegister (name : string)
| HSubscribe (name : string) (s : sub)
| HUnsubscribe (name : string) (s : sub).
Definition hstep (r : registry) (o : hop) : registry * res unit :=
  match o with
  | HRegister n => (register r n, Ok tt)
  | HSubscribe n s => (reg_subscribe r n s, Ok tt)
  | HUnsubscribe n s =>
      match reg_unsubscribe r n s with
      | Ok r' => (r', Ok tt)
      | Err e => (register r n, Err e)
      end
  end.
Definition hrun (r : registry) (ops : list hop) : registry :=
  fold_left (fun r o => fst (hstep r o)) ops r.
