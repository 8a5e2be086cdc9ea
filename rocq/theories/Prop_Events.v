(** Theorems about events.py and message_handler.py: C33-C37. *)
From Verif Require Import SpecEvents EventsProofs.

(** ** C33 *)

(** The outcome of a notification is unique (so [notifies] below says what
    happens, not what may happen). *)
Theorem C33_notify_deterministic : forall D (cb : behaviour D) data l c1 l1 e1 c2 l2 e2,
  notifies cb data l c1 l1 e1 -> notifies cb data l c2 l2 e2 -> c1 = c2 /\ l1 = l2 /\ e1 = e2.
Proof. exact @notifies_fun. Qed.
Print Assumptions C33_notify_deterministic.

(** One call per subscription, in order, each on the data and its own arguments. *)
Theorem C33_notify_in_order : forall D (cb : behaviour D) data l,
  (forall s, In s l -> quiet cb data s) ->
  notifies cb data l (map (call_of data) l) l None.
Proof. exact @notify_all. Qed.
Print Assumptions C33_notify_in_order.

(** The order is that of the subscribe calls, over every history of subscribe and
    unsubscribe calls (unsubscribe taking the earliest equal subscription away). *)
Theorem C33_in_subscription_order : forall D (cb : behaviour D) data (ss : list sub),
  (forall s, In s ss -> quiet cb data s) ->
  notifies cb data (fold_left subscribe ss []) (map (call_of data) ss) ss None.
Proof.
  intros D cb data ss Q. rewrite (subscribe_all ss []). exact (notify_all cb data ss Q).
Qed.
Print Assumptions C33_in_subscription_order.
Theorem C33_over_histories : forall D (cb : behaviour D) data (ops : list (bool * sub)),
  (forall s, In s (List.map snd ops) -> quiet cb data s) ->
  let after := fold_left (fun (l : list sub) (o : bool * sub) => if fst o then subscribe l (snd o)
                                     else match unsubscribe l (snd o) with Ok l' => l' | Err _ => l end) ops [] in
  let kept := fold_left (fun (l : list sub) (o : bool * sub) => if fst o then l ++ [snd o] else drop_one (snd o) l) ops [] in
  notifies cb data after (map (call_of data) kept) kept None.
Proof. exact @notify_history. Qed.
Print Assumptions C33_over_histories.

Definition sample_quiet : behaviour nat := fun _ _ _ l => (l, None).
Definition s1 := {| sb_handler := 1; sb_args := 10 |}%nat.
Definition s2 := {| sb_handler := 2; sb_args := 20 |}%nat.
Definition s3 := {| sb_handler := 3; sb_args := 30 |}%nat.
Example C33_case : notifies sample_quiet 7%nat [s1; s2; s1] [(1, 7, 10); (2, 7, 20); (1, 7, 10)]%nat
  [s1; s2; s1] None.
Proof. apply (C33_notify_in_order nat sample_quiet 7%nat [s1; s2; s1]). intros s _ l. reflexivity. Qed.

Example C33_history_case : notifies sample_quiet 7%nat
  (fold_left subscribe [s2; s1; s3] []) [(2, 7, 20); (1, 7, 10); (3, 7, 30)]%nat [s2; s1; s3] None.
Proof. apply (C33_in_subscription_order nat sample_quiet 7%nat [s2; s1; s3]). intros s _ l. reflexivity. Qed.

(** ** C34 *)

Theorem C34_raise_stops_delivery : forall D (cb : behaviour D) data before s after e,
  (forall x, In x before -> quiet cb data x) -> raising cb data s e ->
  notifies cb data (before ++ s :: after) (map (call_of data) (before ++ [s]))
           (before ++ s :: after) (Some e).
Proof. exact @notify_raising. Qed.
Print Assumptions C34_raise_stops_delivery.

(** MessageHandler.handle: the same calls; the exception escapes unless it is a
    KeyError. *)
Theorem C34_handle_hides_keyerror : forall ops cb m before s after e,
  subscriptions (m_name m) [] ops = before ++ s :: after ->
  (forall x, In x before -> cb x m = None) -> cb s m = Some e ->
  handle cb (hrun [] ops) m =
  (before ++ [s], match e with KeyErr => None | _ => Some e end).
Proof.
  intros ops cb m a s b e H Q C. apply (handle_raise cb _ m a s b e); [|exact Q|exact C].
  now rewrite registered_subs.
Qed.
Print Assumptions C34_handle_hides_keyerror.

Definition ping_message := mk_message "Ping" [].
Definition subs_ops := [HSubscribe "Ping" s1; HSubscribe "Pong" s3; HSubscribe "Ping" s2; HSubscribe "Ping" s3].
Example C34_case_keyerror :
  handle (fun s _ => if sub_eqb s s2 then Some KeyErr else None) (hrun [] subs_ops) ping_message
  = ([s1; s2], None).
Proof.
  apply (C34_handle_hides_keyerror subs_ops _ ping_message [s1] s2 [s3] KeyErr); try reflexivity.
  intros x [<-|[]]. reflexivity.
Qed.
Example C34_case_other :
  handle (fun s _ => if sub_eqb s s2 then Some ValueErr else None) (hrun [] subs_ops) ping_message
  = ([s1; s2], Some ValueErr).
Proof. reflexivity. Qed.
Example C34_case_notify :
  notifies (fun h _ _ l => (l, if Nat.eqb h 2 then Some ValueErr else None)) 7%nat [s1; s2; s3]
    [(1, 7, 10); (2, 7, 20)]%nat [s1; s2; s3] (Some ValueErr).
Proof.
  apply (C34_raise_stops_delivery nat _ 7%nat [s1] s2 [s3] ValueErr).
  - intros x [<-|[]] l. reflexivity.
  - intros l. reflexivity.
Qed.

(** ** C35 *)

Theorem C35_unsubscribe_removes_the_earliest : forall l s l',
  unsubscribe l s = Ok l' <->
  exists before after, l = before ++ s :: after /\ l' = before ++ after /\ ~ In s before.
Proof. exact unsubscribe_ok. Qed.
Print Assumptions C35_unsubscribe_removes_the_earliest.

Theorem C35_unsubscribe_unknown_raises : forall l s e,
  unsubscribe l s = Err e <-> ~ In s l /\ e = NameErr.
Proof. exact unsubscribe_err. Qed.
Print Assumptions C35_unsubscribe_unknown_raises.

Theorem C35_subscribe_unsubscribe : forall l s, ~ In s l -> unsubscribe (subscribe l s) s = Ok l.
Proof. exact resubscribe_new. Qed.
Print Assumptions C35_subscribe_unsubscribe.

(** Otherwise it is the older subscription that goes. *)
Theorem C35_subscribe_unsubscribe_again : forall before s after, ~ In s before ->
  unsubscribe (subscribe (before ++ s :: after) s) s = Ok (before ++ after ++ [s]).
Proof. exact resubscribe_old. Qed.
Print Assumptions C35_subscribe_unsubscribe_again.

Theorem C35_clear_raises : forall l, clear_subscribers l = Err AttributeErr.
Proof. reflexivity. Qed.
Print Assumptions C35_clear_raises.

Example C35_case : unsubscribe [s1; s2; s1] s1 = Ok [s2; s1] /\ unsubscribe [s1] s2 = Err NameErr.
Proof. split; reflexivity. Qed.

(** ** C36 *)

Theorem C36_self_removal_skips_the_next : forall D (cb : behaviour D) data before s after,
  (forall x, In x (before ++ after) -> quiet cb data x) -> self_removing cb data s -> ~ In s before ->
  notifies cb data (before ++ s :: after) (map (call_of data) (before ++ s :: tl after))
           (before ++ after) None.
Proof. exact @notify_self_removing. Qed.
Print Assumptions C36_self_removal_skips_the_next.

Theorem C36_new_subscribers_are_called : forall D (cb : behaviour D) data before s after new,
  (forall x, In x (before ++ after ++ new) -> quiet cb data x) -> subscribing cb data s new ->
  notifies cb data (before ++ s :: after) (map (call_of data) (before ++ s :: after ++ new))
           (before ++ s :: after ++ new) None.
Proof. exact @notify_subscribing. Qed.
Print Assumptions C36_new_subscribers_are_called.

(** A subscriber whose code is [event.unsubscribe(itself)] is self-removing. *)
Theorem C36_unsubscribing_itself_is_self_removing : forall D (cb : behaviour D) data s,
  (forall l, cb (sb_handler s) data (sb_args s) l =
             match unsubscribe l s with Ok l' => (l', None) | Err e => (l, Some e) end) ->
  self_removing cb data s.
Proof.
  intros D cb data s H a b N. rewrite H.
  rewrite (proj2 (unsubscribe_ok (a ++ s :: b) s (a ++ b))); [reflexivity|].
  exists a, b. auto.
Qed.
Print Assumptions C36_unsubscribing_itself_is_self_removing.

Definition sample_leaver : behaviour nat := fun h d a l =>
  if Nat.eqb h 2 then match unsubscribe l s2 with Ok l' => (l', None) | Err e => (l, Some e) end
  else (l, None).
Example C36_case : notifies sample_leaver 7%nat [s1; s2; s3; s1] [(1, 7, 10); (2, 7, 20); (1, 7, 10)]%nat
  [s1; s3; s1] None.
Proof.
  apply (C36_self_removal_skips_the_next nat sample_leaver 7%nat [s1] s2 [s3; s1]).
  - intros x [<-|[<-|[<-|[]]]] l; reflexivity.
  - apply C36_unsubscribing_itself_is_self_removing. reflexivity.
  - intros [H|[]]. discriminate.
Qed.
Example C36_case_add :
  notifies (fun h _ _ l => (if Nat.eqb h 2 then l ++ [s3] else l, None)) 7%nat [s2; s1]
    [(2, 7, 20); (1, 7, 10); (3, 7, 30)]%nat [s2; s1; s3] None.
Proof.
  apply (C36_new_subscribers_are_called nat _ 7%nat [] s2 [s1] [s3]).
  - intros x [<-|[<-|[]]] l; reflexivity.
  - intros l. reflexivity.
Qed.

(** ** C37: over every history [ops] of a message handler *)

(** register changes nobody's subscriptions: it keeps those of its own name
    (the notifier is the same) and leaves the other names alone. *)
Theorem C37_register_keeps_subscribers : forall ops name,
  hrun [] (ops ++ [HRegister name; HRegister name]) = hrun [] (ops ++ [HRegister name]) /\
  forall other, sget other (hrun [] (ops ++ [HRegister name])) =
    if String.eqb name other then Some (subscriptions other [] ops) else sget other (hrun [] ops).
Proof.
  intros ops name. unfold hrun. rewrite !fold_left_app. fold (hrun [] ops). cbn. split.
  - unfold register at 1. rewrite register_get, String.eqb_refl. reflexivity.
  - intros other. rewrite register_get. destruct (String.eqb_spec name other) as [->|]; [|reflexivity].
    now rewrite registered_subs.
Qed.
Print Assumptions C37_register_keeps_subscribers.

Theorem C37_handled_iff_registered : forall ops name,
  is_message_handled (hrun [] ops) name = true <-> exists o, In o ops /\ about o = name.
Proof. exact handled_iff. Qed.
Print Assumptions C37_handled_iff_registered.

Theorem C37_handle_calls_the_registered : forall ops cb m,
  (forall s, In s (subscriptions (m_name m) [] ops) -> cb s m = None) ->
  handle cb (hrun [] ops) m = (subscriptions (m_name m) [] ops, None).
Proof.
  intros ops cb m Q. rewrite <- registered_subs. apply handle_quiet. now rewrite registered_subs.
Qed.
Print Assumptions C37_handle_calls_the_registered.

(** Unsubscribing somebody who is not subscribed (any more) raises NameError (the
    code that reports it refers to a name that does not exist); the name counts as
    registered from then on all the same.  Nothing else done to a handler's
    registrations raises. *)
Theorem C37_raises_iff : forall ops o e,
  snd (hstep (hrun [] ops) o) = Err e <->
  e = NameErr /\ exists name s, o = HUnsubscribe name s /\ ~ In s (subscriptions name [] ops).
Proof. exact hstep_error. Qed.
Print Assumptions C37_raises_iff.

(** What is done under one name does not show under another. *)
Theorem C37_names_are_independent : forall ops cb m o,
  about o <> m_name m ->
  handle cb (hrun [] (ops ++ [o])) m = handle cb (hrun [] ops) m /\
  is_message_handled (hrun [] (ops ++ [o])) (m_name m) = is_message_handled (hrun [] ops) (m_name m).
Proof.
  intros ops cb m o N.
  assert (sget (m_name m) (hrun [] (ops ++ [o])) = sget (m_name m) (hrun [] ops)) as E.
  { unfold hrun. rewrite fold_left_app. fold (hrun [] ops). cbn.
    rewrite hstep_get. destruct (String.eqb_spec (about o) (m_name m)); [contradiction|reflexivity]. }
  unfold handle, is_message_handled. rewrite E. auto.
Qed.
Print Assumptions C37_names_are_independent.

(** handle is the notification of the subscribers of that name (with KeyError
    hidden). *)
Theorem C37_handle_is_notify : forall ops cb m, exists calls e,
  notifies (as_behaviour cb) m (subscriptions (m_name m) [] ops) (map (call_of m) calls)
           (subscriptions (m_name m) [] ops) e /\
  handle cb (hrun [] ops) m = (calls, match e with Some KeyErr => None | _ => e end).
Proof.
  intros ops cb m. rewrite <- registered_subs.
  destruct (call_all cb m (known_subs (hrun [] ops) (m_name m))) as [c e] eqn:C.
  exists c, e. split; [now apply call_all_notifies|]. rewrite handle_known, C. reflexivity.
Qed.
Print Assumptions C37_handle_is_notify.

Example C37_case :
  subscriptions "Ping" [] (subs_ops ++ [HUnsubscribe "Ping" s2; HUnsubscribe "Pong" s3]) = [s1; s3]
  /\ is_message_handled (hrun [] (subs_ops ++ [HUnsubscribe "Pong" s3])) "Pong" = true
  /\ is_message_handled (hrun [] subs_ops) "Other" = false
  /\ handle (fun _ _ => None) (hrun [] (subs_ops ++ [HUnsubscribe "Ping" s2])) ping_message
     = ([s1; s3], None).
Proof. repeat split; reflexivity. Qed.
