(** What ends an operation of a dispatcher, and a coroutine of the manager, with an
    exception: C106.  Vocabulary: SpecEnds.v (with SpecGreenlets.v, SpecLiveManager.v). *)
From Verif Require Import Lib Samples SpecManager DispatchProofs Prop_Dispatch SpecLiveManager LiveManagerProofs Prop_LiveManager SpecEnds EndProofs LiveDies UnprintableDies.

(** ** C106 *)
(** However operations are interleaved, an exception that ends one is that of a
    subscriber the operation was calling; or, for a reception, says that the datagram
    cannot be read; or, for a send, that the message (whose sending failed) cannot be
    printed; [reason] is this, kind by kind. *)
Theorem C106_reason env xs t e : ended_with env xs t e -> exists o st, started env xs t o st /\ reason env xs t o st e.
Proof. exact (ended_because env xs t e). Qed.
Print Assumptions C106_reason.
(** Conversely such an exception of a subscriber ends the operation: at once, or,
    in process_acks, as soon as it goes on; *)
Theorem C106_subscriber env xs t e o st : a_subscriber_raised env xs t e -> started env xs t o st ->
  ((forall order sock, o <> ProcessAcks order sock) -> ended_with env xs t e) /\
  (forall y, ended_with env (xs ++ [Resume t y]) t e).
Proof.
  intros R A. destruct (subscriber_ends env xs t e o st R A) as (H1 & H2). split; [|exact H2].
  intros N. apply H1. intros (order & sock & E). exact (N order sock E).
Qed.
Print Assumptions C106_subscriber.
(** so does a send that fails in the socket, if the message cannot be printed then; *)
Theorem C106_unprintable env xs t r e o st : send_failed_unprintable env xs t r e -> started env xs t o st ->
  ((forall order sock, o <> ProcessAcks order sock) -> ended_with env xs t e) /\
  (forall y, ended_with env (xs ++ [Resume t y]) t e).
Proof.
  intros R A. destruct (unprintable_ends env xs t r e o st R A) as (H1 & H2). split; [|exact H2].
  intros N. apply H1. intros (order & sock & E). exact (N order sock E).
Qed.
Print Assumptions C106_unprintable.
(** and a datagram that cannot be read ends its reception. *)
Theorem C106_unreadable env p h buf n q e : 0 < n -> host_address (cf_st (after env p)) h <> None ->
  unreadable env (cf_st (after env p)) buf e -> ended_with env (p ++ Spawn (Receive h buf n) :: q) (List.length (spawned p)) e.
Proof. exact (unreadable_ends env p h buf n q e). Qed.
Print Assumptions C106_unreadable.
(** So, unless subscribers are called for outgoing messages too, or someone tampers
    with Message objects, process_acks never fails. *)
Theorem C106_process_acks env xs t order sock e : e_handle_out env = false -> (forall r m, ~ In (Spawn (SetMsg r m)) xs) ->
  nth_error (spawned xs) t = Some (ProcessAcks order sock) -> ~ ended_with env xs t e.
Proof. exact (acks_safe env xs t order sock e). Qed.
Print Assumptions C106_process_acks.
(** A coroutine of the manager ends with an exception only when its last call did,
    for these reasons. *)
Theorem C106_coroutine env host ops : let v := vafter env host ops in let h := vlife env host ops in
  exists xs, lv_cf v = after env xs /\ v_seen h = SpecGreenlets.history env xs /\
    forall i e, nth_error (lv_udp v) i = Some (VEnd (Some e)) -> exists before b o st,
      calls_of i h = before ++ [b] /\ stands_for o (bg_call b) /\
      started env xs (bg_thread b) o st /\ reason env xs (bg_thread b) o st e.
Proof.
  intros v h. exists (vschedule env host ops). split; [apply vafter_cf|]. split; [apply vlife_seen|].
  intros i e. apply coroutine_ended.
Qed.
Print Assumptions C106_coroutine.
(** And conversely: when its last call has ended with an exception, the coroutine, as
    soon as it goes on, has ended with that exception, for good (and calls nothing
    any more). *)
Theorem C106_coroutine_ends env host ops i before b e r order ops' :
  calls_of i (vlife env host ops) = before ++ [b] -> call_ended (vafter env host ops) b (Some e) ->
  nth_error (lv_udp (vafter env host (ops ++ VRun i r order :: ops'))) i = Some (VEnd (Some e)).
Proof. exact (coroutine_dies env host ops i before b e r order ops'). Qed.
Print Assumptions C106_coroutine_ends.
(** A subscriber raises ... *)
Definition en_raise : list vop := lm_setup ++
  [VStartMonitors; lm_go; lm_go; VRun 0 (RData d_b (d_in x09)) []; VUser (Resume 6 (Some (Raised 3))); lm_go].
Example C106_ex_subscriber : lv_udp (vafter d_env d_a en_raise) = [VEnd (Some (Raised 3))].
Proof. vm_compute. reflexivity. Qed.
(** ... but KeyError is swallowed. *)
Example C106_ex_keyerror : lv_udp (vafter d_env d_a (lm_setup ++
  [VStartMonitors; lm_go; lm_go; VRun 0 (RData d_b (d_in x09)) []; VUser (Resume 6 (Some KeyErr)); lm_go])) = [VAcks 7].
Proof. vm_compute. reflexivity. Qed.
(** A datagram of three bytes. *)
Example C106_ex_unreadable : exists e, lv_udp (vafter d_env d_a (lm_setup ++
  [VStartMonitors; lm_go; lm_go; VRun 0 (RData d_b [x00; x00; x00]) []; lm_go])) = [VEnd (Some e)] /\
  unreadable d_env (cf_st (lv_cf (vafter d_env d_a lm_setup))) [x00; x00; x00] e.
Proof. eexists. split; [vm_compute; reflexivity|]. left. vm_compute. reflexivity. Qed.
(** A message that can be neither serialized nor printed. *)
Definition en_bad : message := mk_message "Ping" [One (mk_block "A" [("X"%string, VUni [233])])].
Example C106_ex_unprintable : lv_udp (vafter d_env d_a
  [VUser (Spawn (NewMsg en_bad)); VStartMonitors; lm_go; VEnqueue 0 true false; lm_go; lm_go; lm_go; lm_go; lm_go; lm_go]) =
  [VEnd (Some ValueErr)] /\ msg_str_error en_bad = Some ValueErr.
Proof. vm_compute. split; reflexivity. Qed.
(** The hypotheses of [C106_coroutine_ends]: the coroutine's reception has ended with
    the exception of a subscriber, and the coroutine has not gone on yet. *)
Example C106_ex_dies : let ops := removelast en_raise in
  exists b, calls_of 0 (vlife d_env d_a ops) = [b] /\ call_ended (vafter d_env d_a ops) b (Some (Raised 3)) /\
    (exists t, lv_udp (vafter d_env d_a ops) = [VReceive t]).
Proof. vm_compute. eexists. split; [reflexivity|]. split; [reflexivity|]. eexists. reflexivity. Qed.
(** The hypotheses of [C106_unprintable]: a message that is put out, as its template
    has no variable of the kind that cannot be printed; and the socket fails. *)
Definition en_extra : message := mk_message "Ping"
  [One (mk_block "A" [("X"%string, VInt 7); ("Z"%string, VUni [233])]); One (mk_block "B" [("X"%string, VInt 1); ("Y"%string, VStr [])])].
Definition en_failing : list sched :=
  [Spawn (NewHost d_a); Spawn (NewMsg en_extra); Spawn (Send 0 0 Plain (fun _ _ => None))].
Example C106_ex_failed_send :
  (exists b, nth_error (cf_pool (after d_env en_failing)) 2 = Some (InSocket 0 b ToUser)) /\
  send_failed_unprintable d_env (en_failing ++ [Resume 2 (Some (Raised 1))]) 2 0 ValueErr.
Proof.
  let v := eval vm_compute in (nth_error (cf_pool (after d_env en_failing)) 2) in
  assert (nth_error (cf_pool (after d_env en_failing)) 2 = v) as N by (vm_compute; reflexivity).
  let v := eval vm_compute in (nth_error (s_msgs (cf_st (after d_env en_failing))) 0) in
  assert (nth_error (s_msgs (cf_st (after d_env en_failing))) 0 = v) as NM by (vm_compute; reflexivity).
  split; [eexists; exact N|]. exists en_failing, [], (Raised 1). eexists. eexists. eexists. split; [reflexivity|].
  split; [discriminate|]. split; [exact N|]. split; [exact NM|]. vm_compute. reflexivity.
Qed.
