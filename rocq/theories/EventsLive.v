(** message_handler.py and events.py with subscribers that use the message handler
    themselves while they are called. *)
From Verif Require Export Events.

(** What the subscriber [s], called on [m] while the registrations are [r], does:
    a list of operations on the handler, in order (it may catch what they raise),
    and the exception with which it ends, if any. *)
Definition actor := sub -> message -> registry -> list hop * option exn.

(** events.py:53-65, Event.notify, on the event of the notifier registered under
    [name] (message_handler.py:95-97): a for loop over the live list, so an index
    compared with the current length.  register never replaces a notifier
    (setdefault, message_handler.py:49), so the list walked is the one registered
    under [name].  [fuel] bounds the iterations; [None] means out of fuel. *)
Fixpoint notify_live (cb : actor) (m : message) (name : string) (fuel i : nat) (r : registry)
  : option (list sub * registry * option exn) :=
  match fuel with
  | O => None
  | S fuel' =>
      match sget name r with
      | None => Some ([], r, None)
      | Some l =>
          match nth_error l i with
          | None => Some ([], r, None)
          | Some s =>
              let '(ops, e) := cb s m r in
              let r' := hrun r ops in
              match e with
              | Some e => Some ([s], r', Some e)
              | None =>
                  match notify_live cb m name fuel' (S i) r' with
                  | None => None
                  | Some (calls, r'', e) => Some (s :: calls, r'', e)
                  end
              end
          end
      end
  end.

(** message_handler.py:66-82, handle *)
Definition handle_live (cb : actor) (fuel : nat) (r : registry) (m : message)
  : option (list sub * registry * option exn) :=
  match sget (m_name m) r with
  | None => Some ([], r, None)
  | Some l =>
      if 0 <? subscriber_count l
      then match notify_live cb m (m_name m) fuel 0 r with
           | None => None
           | Some (c, r', e) => Some (c, r', swallow_keyerror e)
           end
      else Some ([], r, None)
  end.
