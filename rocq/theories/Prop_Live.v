(** C78: subscribers that use the message handler while they are called.
    Vocabulary: SpecLive.v. *)
From Verif Require Import SpecEvents SpecLive LiveProofs Prop_Events.

(** The outcome is unique, and never both an outcome and an endless loop. *)
Theorem C78_outcome_unique cb r m c1 r1 e1 c2 r2 e2 :
  delivers cb r m c1 r1 e1 -> delivers cb r m c2 r2 e2 -> c1 = c2 /\ r1 = r2 /\ e1 = e2.
Proof. exact (delivers_fun cb r m c1 r1 e1 c2 r2 e2). Qed.
Print Assumptions C78_outcome_unique.
Theorem C78_not_both cb r m c r' e : delivers cb r m c r' e -> ~ endless cb r m.
Proof. exact (delivers_not_endless cb r m c r' e). Qed.
Print Assumptions C78_not_both.
(** Operations on other names, and registering this one again, do not disturb the
    delivery: exactly the subscribers at the start are called, in order. *)
Theorem C78_bystanders cb r m : nobody_joins cb m -> nobody_leaves cb m -> nobody_raises cb m ->
  exists r', delivers cb r m (subs_of r (m_name m)) r' None /\ subs_of r' (m_name m) = subs_of r (m_name m).
Proof. exact (bystanders cb r m). Qed.
Print Assumptions C78_bystanders.
(** If nobody subscribes under this name during the delivery, handle returns, and
    calls nobody who was not subscribed at the start, nobody twice, and keeps the
    order; but some may be left out. *)
Theorem C78_nobody_joins cb r m : nobody_joins cb m ->
  exists calls r' e, delivers cb r m calls r' e /\ picked calls (subs_of r (m_name m)).
Proof. exact (no_joins cb r m). Qed.
Print Assumptions C78_nobody_joins.
(** If nobody unsubscribes or raises and handle returns, everybody subscribed at
    the end has been called, once and in order, newcomers included. *)
Theorem C78_nobody_leaves cb r m calls r' e : nobody_leaves cb m -> nobody_raises cb m -> delivers cb r m calls r' e ->
  e = None /\ calls = subs_of r' (m_name m) /\ exists new, calls = subs_of r (m_name m) ++ new.
Proof. exact (no_leaves cb r m calls r' e). Qed.
Print Assumptions C78_nobody_leaves.
(** With exceptions: a prefix of those subscribed at the end. *)
Theorem C78_nobody_leaves_raising cb r m calls r' e : nobody_leaves cb m -> delivers cb r m calls r' e ->
  exists rest, subs_of r' (m_name m) = calls ++ rest.
Proof. exact (no_leaves_raising cb r m calls r' e). Qed.
Print Assumptions C78_nobody_leaves_raising.
(** If each call brings a new subscriber, handle never returns. *)
Theorem C78_endless cb r m : nobody_leaves cb m -> nobody_raises cb m -> (forall s r, joins (m_name m) (fst (cb s m r))) ->
  subs_of r (m_name m) <> [] -> endless cb r m.
Proof. exact (breeding cb r m). Qed.
Print Assumptions C78_endless.
(** What escapes is the exception of the last one called, and no KeyError. *)
Theorem C78_exceptions cb r m calls r' e : delivers cb r m calls r' (Some e) ->
  e <> KeyErr /\ exists before s r0, calls = before ++ [s] /\ snd (cb s m r0) = Some e.
Proof. exact (exn_escapes cb r m calls r' e). Qed.
Print Assumptions C78_exceptions.
(** For subscribers that leave the handler alone this is the [handle] of C34 and C37. *)
Theorem C78_agrees cb r m : delivers (fun s m _ => ([], cb s m)) r m (fst (handle cb r m)) r (snd (handle cb r m)).
Proof. exact (plain_is_handle cb r m). Qed.
Print Assumptions C78_agrees.

(** s1 re-registers and subscribes elsewhere; s2 leaves; s3 brings s4. *)
Definition s4 := {| sb_handler := 4; sb_args := 40 |}%nat.
Definition live_reg := hrun [] subs_ops.
Definition act_elsewhere : actor := fun s _ _ => ([HRegister "Ping"; HSubscribe "Pong" s; HUnsubscribe "Pong" s2], None).
Definition act_leave : actor := fun s _ _ => (if sub_eqb s s1 then [HUnsubscribe "Ping" s1] else [], None).
Definition act_bring : actor := fun s _ _ => (if sub_eqb s s3 then [HSubscribe "Ping" s4] else [], None).
Definition act_breed : actor := fun s _ _ => ([HSubscribe "Ping" s], None).
Example C78_ex : subs_of live_reg "Ping" = [s1; s2; s3] /\
  nobody_joins act_elsewhere ping_message /\ nobody_leaves act_elsewhere ping_message /\
  nobody_joins act_leave ping_message /\ (exists r, delivers act_leave live_reg ping_message [s1; s3] r None) /\
  nobody_leaves act_bring ping_message /\ (exists r, delivers act_bring live_reg ping_message [s1; s2; s3; s4] r None) /\
  endless act_breed live_reg ping_message.
Proof.
  split; [reflexivity|].
  split; [intros s r [x [H|[H|[H|[]]]]]; discriminate|]. split; [intros s r [x [H|[H|[H|[]]]]]; discriminate|].
  split; [intros s r [x H]; cbn in H; destruct (sub_eqb s s1); [destruct H as [H|[]]; discriminate|contradiction]|].
  split; [eexists; exists 5%nat; reflexivity|].
  split; [intros s r [x H]; cbn in H; destruct (sub_eqb s s3); [destruct H as [H|[]]; discriminate|contradiction]|].
  split; [eexists; exists 6%nat; reflexivity|].
  apply C78_endless; [|now intros s r| |discriminate].
  - intros s r [x [H|[]]]. discriminate.
  - intros s r. exists s. now left.
Qed.
