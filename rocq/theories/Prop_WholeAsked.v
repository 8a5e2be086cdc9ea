(** More of C100: what a manager does because it was asked to.  Vocabulary:
    SpecWhole.v. *)
From Verif Require Import Lib Samples DispatchProofs Prop_Dispatch SpecWhole LiveQueueStop WholeProofs Prop_LiveManager Prop_LiveQueue Prop_Whole.

(** How often start_monitors was called. *)
Definition times_started (ops : list wop) : nat := List.length (filter (fun o => match o with WStart => true | _ => false end) ops).

(** ** Lemmas *)
Lemma update_len {A} (x : A) l : forall i, List.length (update_nth i x l) = List.length l.
Proof. induction l as [|a l IH]; intros [|i]; cbn; auto. Qed.
Lemma vstep_pool env v o : List.length (lv_udp (vstep env v o)) = (List.length (lv_udp v) + match o with VStartMonitors => 1 | _ => 0 end)%nat.
Proof.
  destruct o as [| | | |k r order]; cbn [vstep lv_udp]; rewrite ?app_length; cbn [List.length]; try lia.
  destruct (nth_error (lv_udp v) k) as [p|]; [|lia]. destruct (udp_step v k p r order) as [[[xs bs] q] p']. cbn [lv_udp]. rewrite update_len. lia.
Qed.
Lemma vstep_flag env v o : lv_running (vstep env v o) = match o with VStartMonitors => true | VStopMonitors => false | _ => lv_running v end.
Proof.
  destruct o as [| | | |k r order]; try reflexivity. cbn [vstep].
  destruct (nth_error (lv_udp v) k) as [p|]; [|reflexivity]. destruct (udp_step v k p r order) as [[[xs bs] q] p']. reflexivity.
Qed.
Lemma seen_enqueued l : v_enqueued (map VSeen l) = [].
Proof. induction l; [reflexivity|exact IHl]. Qed.
Lemma begun_enqueued l : v_enqueued (map VBegun l) = [].
Proof. induction l; [reflexivity|exact IHl]. Qed.
Lemma vobserved_enqueued env v o : v_enqueued (vobserved env v o) = match o with VEnqueue msg rel now => [(msg, rel, now)] | _ => [] end.
Proof.
  unfold vobserved. rewrite !LiveManagerProofs.v_enqueued_app, seen_enqueued, begun_enqueued, !app_nil_r. destruct o; reflexivity.
Qed.
Definition asks (o : wop) : list (nat * bool * bool) := match o with WEnqueue msg rel now => [(msg, rel, now)] | _ => [] end.
Lemma enqueued_step e w o : v_enqueued (vhistory (we_env e) (wh_udp w) (udp_ops w o)) = asks o.
Proof.
  destruct o as [| | |h|[[]|]| | |]; cbn [udp_ops vhistory]; rewrite ?app_nil_r, ?vobserved_enqueued; reflexivity.
Qed.
Lemma enqueued_run e ops : forall w, v_enqueued (udp_part (whistory e w ops)) = flat_map asks ops.
Proof.
  induction ops as [|o ops IH]; intros w; [reflexivity|]. cbn [whistory flat_map].
  rewrite udp_part_app, observed_udp, LiveManagerProofs.v_enqueued_app, IH, enqueued_step. reflexivity.
Qed.
Lemma pool_step e w o : List.length (lv_udp (wh_udp (wstep e w o))) = (List.length (lv_udp (wh_udp w)) + match o with WStart => 1 | _ => 0 end)%nat.
Proof. rewrite wstep_udp. destruct o as [| | |h|[[]|]| | |]; cbn [udp_ops vrun]; rewrite ?vstep_pool; lia. Qed.
Lemma flag_step e w o : lv_running (wh_udp (wstep e w o)) = match o with WStart => true | WStop => false | _ => lv_running (wh_udp w) end.
Proof. rewrite wstep_udp. destruct o as [| | |h|[[]|]| | |]; cbn [udp_ops vrun]; rewrite ?vstep_flag; reflexivity. Qed.
Lemma pool_run e ops : forall w, List.length (lv_udp (wh_udp (wrun e w ops))) = (List.length (lv_udp (wh_udp w)) + times_started ops)%nat.
Proof.
  induction ops as [|o ops IH]; intros w; [cbn; lia|]. cbn [wrun]. rewrite IH, pool_step. unfold times_started. destruct o; cbn [filter List.length]; lia.
Qed.
Lemma flag_run e ops : forall w, lv_running (wh_udp (wrun e w ops)) = fold_left (fun b o => match o with WStart => true | WStop => false | _ => b end) ops (lv_running (wh_udp w)).
Proof. induction ops as [|o ops IH]; intros w; [reflexivity|]. cbn [wrun fold_left]. now rewrite IH, flag_step. Qed.
Lemma nstep_pool q l o : List.length (nq_pool (fst (nstep q l o))) = (List.length (nq_pool l) + match o with NStart => if qe_enabled q then 1 else 0 | _ => 0 end)%nat.
Proof.
  destruct o as [| | | |i o x]; cbn [nstep fst set_q nq_pool]; try lia.
  - destruct (qe_enabled q); rewrite ?app_length; cbn [List.length]; lia.
  - destruct (nth_error (nq_pool l) i) as [p|]; [|cbn; lia]. destruct (nq_step q (nq_q l) (nq_reg l) p o x) as [[q' ev] p'].
    cbn [fst nq_pool]. rewrite update_len. lia.
Qed.
Lemma queue_pool q ops : forall l, List.length (nq_pool (nrun q l (flat_map queue_ops ops))) = (List.length (nq_pool l) + if qe_enabled q then times_started ops else 0)%nat.
Proof.
  induction ops as [|o ops IH]; intros l; [cbn; destruct (qe_enabled q); lia|]. cbn [flat_map]. rewrite nrun_app', IH. unfold times_started.
  destruct o; cbn [queue_ops nrun filter List.length]; rewrite ?nstep_pool; destruct (qe_enabled q); lia.
Qed.
Lemma nobserved_who q l o i ev : In (NDid i ev) (nhistory q l [o]) -> exists r x, o = NRun i r x.
Proof.
  cbn [nhistory]. rewrite app_nil_r. intros H. apply in_app_or in H as [H|H].
  - exfalso. destruct o as [| | | |k r x]; cbn [nobserved] in H; try (cbn in H; intuition discriminate).
    destruct (nth_error (nq_pool l) k) as [[]|]; cbn in H; intuition discriminate.
  - destruct o as [| | | |k r x]; cbn [nstep snd map] in H; try (destruct H; fail).
    destruct (nth_error (nq_pool l) k) as [p|]; [|destruct H].
    destruct (nq_step q (nq_q l) (nq_reg l) p r x) as [[q' evs] p']. cbn [snd] in H. apply in_map_iff in H as ([j y] & Y & H).
    apply in_map_iff in H as (z & Z & _). injection Z as <- <-. injection Y as <- _. eauto.
Qed.
Lemma stop_in ops : In NStop (flat_map queue_ops ops) <-> In WQueueStop ops.
Proof.
  rewrite in_flat_map. split.
  - intros (o & I & H). destruct o; cbn in H; try (intuition discriminate); exact I.
  - intros I. exists WQueueStop. split; [exact I|now left].
Qed.
Lemma monitors_split ops : forall before later, flat_map queue_ops ops = before ++ NStopMonitors :: later ->
  exists b l, ops = b ++ WStop :: l /\ before = flat_map queue_ops b /\ later = flat_map queue_ops l.
Proof.
  induction ops as [|o ops IH]; intros before later E; [destruct before; discriminate|]. cbn [flat_map] in E.
  assert (queue_ops o = [] \/ exists x, queue_ops o = [x]) as [Q|(x & Q)] by (destruct o; cbn; eauto); rewrite Q in E; cbn [app] in E.
  - destruct (IH _ _ E) as (b & l & -> & -> & ->). exists (o :: b), l. cbn [flat_map]. rewrite Q. auto.
  - destruct before as [|y before]; cbn [app] in E; injection E as -> E.
    + exists [], ops. destruct o; try discriminate Q. auto.
    + destruct (IH _ _ E) as (b & l & -> & -> & ->). exists (o :: b), l. cbn [flat_map]. rewrite Q. auto.
Qed.

(** ** C100 *)
(** What the UDP side is given to send is what enqueue_message was called with; it
    has one coroutine per start_monitors; and it takes itself for running after
    start_monitors, until stop_monitors. *)
Theorem C100_asked_udp e ops :
  v_enqueued (udp_part (wlife e ops)) = flat_map asks ops /\
  List.length (lv_udp (wh_udp (wafter e ops))) = times_started ops /\
  lv_running (wh_udp (wafter e ops)) = fold_left (fun b o => match o with WStart => true | WStop => false | _ => b end) ops false.
Proof. split; [apply enqueued_run|]. split; [apply (pool_run e ops (w_init e))|apply (flag_run e ops (w_init e))]. Qed.
Print Assumptions C100_asked_udp.
(** The event queue has one coroutine per start_monitors too, unless the settings
    disable it; and it is stopped iff stop() was called, or stop_monitors while it
    was running. *)
Theorem C100_asked_queue e q ops : we_queue e = Some q ->
  List.length (wh_pool (wafter e ops)) = (if qe_enabled q then times_started ops else 0)%nat /\
  (n_stopped (w_queue (wafter e ops)) <-> In WQueueStop ops \/
   exists before later, ops = before ++ WStop :: later /\ eq_running (wh_eq (wafter e before)) = true).
Proof.
  intros Q. destruct (wlife_queue e q ops Q) as [A _]. split.
  - change (wh_pool (wafter e ops)) with (nq_pool (w_queue (wafter e ops))). rewrite A. apply (queue_pool q ops nq_init).
  - rewrite A, C94_stopped_iff, stop_in. split; (intros [H|(b & l & E & R)]; [now left|right]).
    + destruct (monitors_split ops b l E) as (b' & l' & -> & -> & _). exists b', l'. split; [reflexivity|].
      destruct (wlife_queue e q b' Q) as [B _]. rewrite <- B in R. exact R.
    + exists (flat_map queue_ops b), (flat_map queue_ops l). rewrite E, flat_map_app. split; [reflexivity|].
      destruct (wlife_queue e q b Q) as [B _]. rewrite <- B. exact R.
Qed.
Print Assumptions C100_asked_queue.
(** A coroutine does something only when it is its turn. *)
Theorem C100_turns e w o :
  (forall b, In (WV (VBegun b)) (wobserved e w o) -> exists r order, o = WUdp (bg_by b) r order) /\
  (forall i ev, In (WN (NDid i ev)) (wobserved e w o) -> exists r x, o = WQueue i r x).
Proof.
  split.
  - intros b H. assert (In (VBegun b) (udp_part (wobserved e w o))) as H'.
    { unfold udp_part. apply in_flat_map. exists (WV (VBegun b)). split; [exact H|now left]. }
    rewrite observed_udp in H'. clear H.
    assert (forall v, In (VBegun b) (vobserved (we_env e) (wh_udp w) v) -> exists r order, v = VRun (bg_by b) r order) as K.
    { intros v I. unfold vobserved in I. apply in_app_or in I as [I|I]; [destruct v; cbn in I; intuition discriminate|].
      apply in_app_or in I as [I|I]; apply in_map_iff in I as (y & Y & I); [|discriminate Y]. injection Y as ->.
      destruct v as [| | | |k r order]; cbn [vdoes snd] in I; try destruct I. exists r, order.
      destruct (nth_error (lv_udp (wh_udp w)) k) as [p|]; [|destruct I]. f_equal.
      destruct p as [| | |t|t| |t|x]; cbn [udp_step snd] in I; try (destruct I; fail).
      - destruct r; cbn in I; destruct I as [<-|[]]; reflexivity.
      - destruct (returned (lv_cf (wh_udp w)) t) as [[]|]; [destruct (has_unacked _)|..]; cbn [snd] in I; try (destruct I; fail).
        destruct I as [<-|[]]; reflexivity.
      - destruct (returned (lv_cf (wh_udp w)) t) as [[]|]; destruct I.
      - destruct (lv_queue (wh_udp w)) as [|[msg rel] q]; cbn [snd] in I; [destruct I|]. destruct I as [<-|[]]; reflexivity.
      - destruct (returned (lv_cf (wh_udp w)) t) as [[]|]; destruct I. }
    destruct o as [| | |h|[[]|]|k r order| |]; cbn [udp_ops vhistory] in H'; try (destruct H'; fail); rewrite app_nil_r in H'; apply K in H' as (r' & order' & E);
      try discriminate E. injection E as -> -> ->. eauto.
  - intros i ev H. destruct (we_queue e) as [q|] eqn:Q.
    + assert (In (NDid i ev) (queue_part (wobserved e w o))) as H'.
      { unfold queue_part. apply in_flat_map. exists (WN (NDid i ev)). split; [exact H|now left]. }
      rewrite (observed_queue e q w o Q) in H'. clear H. destruct o as [| | |h|x|k r order| |j po x]; cbn [queue_ops] in H';
        try (destruct H'; fail); apply nobserved_who in H' as (r' & x' & E); try discriminate E. injection E as -> -> ->. eauto.
    + exfalso. destruct (observed_cases e w o) as [(h & -> & E)|[_ E]]; rewrite E in H; [destruct H as [H|[]]; discriminate H|].
      unfold queue_obs in H. rewrite Q in H. apply in_app_or in H as [H|H]; [apply in_map_iff in H as (y & Y & _); discriminate Y|].
      apply in_app_or in H as [H|H]; [destruct H|]. unfold raised_part, stop_raises in H. rewrite Q in H. destruct o; cbn in H; try (destruct H; fail). destruct H as [H|[]]. discriminate H.
Qed.
Print Assumptions C100_turns.
Example C100_ex_asked : times_started wx_ops = 1%nat /\ flat_map asks wx_ops = [(0%nat, true, false)] /\ qe_enabled nq_env = true /\
  n_stopped (w_queue (wafter wx_env (wx_ops ++ [WQueueStop]))) /\ ~ n_stopped (w_queue (wafter wx_env wx_ops)).
Proof. vm_compute. repeat split. discriminate. Qed.
