From Verif Require Import Lib SpecManager ManagerProofs DispatchProofs DispatchMore SpecLiveManager GreenletProofs GreenletAcks GreenletSeq LiveManagerProofs LiveManagerMore.

(** ** A schedule beside operations that have finished *)
Definition is_finished (th : thread) : Prop := exists o, th = Finished o.
Definition shifted (n : nat) (x : sched) : sched := match x with Spawn o => Spawn o | Resume i e => Resume (n + i) e end.
Lemma finished_acking pre : Forall is_finished pre -> existsb acking pre = false.
Proof. induction 1 as [|th pre (o & ->) F IH]; [reflexivity|]. exact IH. Qed.
Lemma detach_all_app st ms : forall pre pool, Forall is_finished pre -> detach_all st ms (pre ++ pool) = pre ++ detach_all st ms pool.
Proof.
  induction ms as [|m ms IH]; intros pre pool F; [reflexivity|]. unfold detach_all. cbn [fold_left].
  destruct m as [s m|x|k ids|k|k]; try (apply IH, F).
  rewrite map_app. replace (map (detach k match get_circuit (s_circuits st) k with Some c => c_acks c | None => [] end) pre) with pre; [apply IH, F|].
  clear -F. induction F as [|th pre (o & ->) F IH]; [reflexivity|]. cbn [map detach]. now rewrite <- IH.
Qed.
Lemma update_app {A} (pre : list A) : forall i x l, update_nth (List.length pre + i) x (pre ++ l) = pre ++ update_nth i x l.
Proof. induction pre as [|a pre IH]; intros i x l; [reflexivity|]. cbn. now rewrite IH. Qed.
Lemma shift_step env st pre pool x : Forall is_finished pre ->
  cstep env {| cf_st := st; cf_pool := pre ++ pool |} (shifted (List.length pre) x) =
  let '(cf, ms) := cstep env {| cf_st := st; cf_pool := pool |} x in ({| cf_st := cf_st cf; cf_pool := pre ++ cf_pool cf |}, ms).
Proof.
  intros F. destruct x as [o|i e]; cbn [shifted cstep cf_st cf_pool].
  - assert (start env {| cf_st := st; cf_pool := pre ++ pool |} o = start env {| cf_st := st; cf_pool := pool |} o) as ->.
    { unfold start. cbn [cf_st cf_pool]. destruct o; try reflexivity. rewrite existsb_app, finished_acking by exact F. reflexivity. }
    destruct (start env {| cf_st := st; cf_pool := pool |} o) as [[st' ms] th]. cbn. now rewrite app_assoc.
  - rewrite nth_error_app2 by lia. replace (List.length pre + i - List.length pre)%nat with i by lia.
    destruct (nth_error pool i) as [th|]; [|reflexivity]. destruct (resume env st e th) as [[st' ms] th']. cbn [cf_st cf_pool].
    rewrite detach_all_app, update_app by exact F. reflexivity.
Qed.
Lemma shift_run env pre xs : Forall is_finished pre -> forall st pool,
  crun env {| cf_st := st; cf_pool := pre ++ pool |} (map (shifted (List.length pre)) xs) =
  let '(cf, ms) := crun env {| cf_st := st; cf_pool := pool |} xs in ({| cf_st := cf_st cf; cf_pool := pre ++ cf_pool cf |}, ms).
Proof.
  intros F. induction xs as [|x xs IH]; intros st pool; [reflexivity|]. cbn [map crun]. rewrite shift_step by exact F.
  destruct (cstep env {| cf_st := st; cf_pool := pool |} x) as [[st1 pool1] m1]. cbn [cf_st cf_pool]. rewrite IH.
  destruct (crun env {| cf_st := st1; cf_pool := pool1 |} xs) as [cf m2]. reflexivity.
Qed.
(** The outcome of an operation for a coroutine. *)
Definition result_of (o : outcome) : res unit :=
  match o with
  | OUnit => Ok tt
  | OSend d => match o_res d with Ok _ => Ok tt | Err e => Err e end
  | ORecv r => match r_res r with Ok _ => Ok tt | Err e => Err e end
  end.
Definition quiet (cf : config) (st : dstate) : Prop := cf_st cf = st /\ Forall is_finished (cf_pool cf).
Lemma run_op env cf st o : reachable env st -> quiet cf st ->
  let n := List.length (cf_pool cf) in
  exists es cf', fst (crun env cf (Spawn o :: map (Resume n) es)) = cf' /\ quiet cf' (fst (step env st o)) /\
    List.length (cf_pool cf') = S n /\ returned cf' n = Some (result_of (snd (step env st o))).
Proof.
  intros R [E F] n. destruct (one_after_the_other env st o R) as (es & x & ms & C & REP). exists es. eexists. split; [reflexivity|].
  pose proof (shift_run env (cf_pool cf) (Spawn o :: map (Resume 0) es) F st []) as SH.
  rewrite app_nil_r in SH. unfold idle in C. rewrite C in SH. cbn [map shifted] in SH. rewrite map_map in SH. cbn [shifted] in SH.
  replace (map (fun e => Resume (List.length (cf_pool cf) + 0) e) es) with (map (Resume n) es) in SH by (apply map_ext; intros e; f_equal; unfold n; lia).
  assert (cf = {| cf_st := st; cf_pool := cf_pool cf |}) as EC by (destruct cf; cbn in *; now subst).
  rewrite <- EC in SH. rewrite SH. cbn [fst cf_st cf_pool]. split; [split; [reflexivity|]|split].
  - apply Forall_app. split; [exact F|]. repeat constructor. eexists. reflexivity.
  - rewrite app_length. cbn. unfold n. lia.
  - unfold returned. cbn [cf_pool]. unfold n. rewrite nth_snoc. unfold reports in REP. unfold result_of.
    destruct (snd (step env st o)) as [|d|r]; destruct x as [|d'|r']; try contradiction; [reflexivity| |].
    + destruct REP as (-> & _). reflexivity.
    + destruct REP as (-> & _). reflexivity.
Qed.

(** ** The manager of Manager.v *)
Definition pc_of (p : pc) : vpc :=
  match p with PStart => VStart | PSleep => VSleep | PRecv => VRecv | PDrain => VDrain | PEnd e => VEnd e end.
Record like (v : live) (m : mstate) : Prop := {
  lk_disp : quiet (lv_cf v) (mm_disp m);
  lk_queue : lv_queue v = mm_queue m;
  lk_run : lv_running v = mm_running m;
  lk_pc : lv_udp v = [pc_of (mm_pc m)] }.
Definition mk_live (cf : config) (q : list (nat * bool)) (b : bool) (p : vpc) : live := {| lv_cf := cf; lv_queue := q; lv_running := b; lv_udp := [p] |}.
Lemma users env es : forall cf n q b p, vrun env (mk_live cf q b p) (map VUser (map (Resume n) es)) = mk_live (fst (crun env cf (map (Resume n) es))) q b p.
Proof.
  induction es as [|e es IH]; intros cf n q b p; [reflexivity|]. cbn [map vrun]. rewrite crun_cons, <- IH. f_equal.
  unfold vstep, vdoes, mk_live. cbn [fst lv_cf lv_queue lv_running lv_udp]. rewrite crun_cons. reflexivity.
Qed.
Lemma users_obs env es : forall v n, v_enqueued (vhistory env v (map VUser (map (Resume n) es))) = [] /\ v_begun (vhistory env v (map VUser (map (Resume n) es))) = [].
Proof.
  induction es as [|e es IH]; intros v n; [split; reflexivity|]. cbn [map vhistory]. rewrite v_enqueued_app, v_begun_app, observed_begun.
  destruct (IH (vstep env v (VUser (Resume n e))) n) as [-> ->]. split; [|reflexivity]. rewrite app_nil_r.
  rewrite <- view_enqueues. pose proof (view_step env v (VUser (Resume n e))) as [[-> _]|(msg & rel & X & _)]; [reflexivity|].
  rewrite X. reflexivity.
Qed.
Lemma call_seq env cf st o q b p : reachable env st -> quiet cf st ->
  let n := List.length (cf_pool cf) in
  exists us cf', vrun env (mk_live (fst (cstep env cf (Spawn o))) q b p) us = mk_live cf' q b p /\
    (forall v, v_enqueued (vhistory env v us) = [] /\ v_begun (vhistory env v us) = []) /\
    quiet cf' (fst (step env st o)) /\ List.length (cf_pool cf') = S n /\ returned cf' n = Some (result_of (snd (step env st o))).
Proof.
  intros R Q n. destruct (run_op env cf st o R Q) as (es & cf' & E & Q' & L & RE). exists (map VUser (map (Resume n) es)), cf'.
  split; [rewrite users; rewrite crun_cons in E; f_equal; exact E|]. split; [intros v; apply users_obs|]. auto.
Qed.
Lemma v_sent_nil h : v_begun h = [] -> v_sent h = [].
Proof. unfold v_sent. intros ->. reflexivity. Qed.
Definition same_obs (env : denv) (v : live) (vops : list vop) (o : mop) (es : list mevent) : Prop :=
  v_sent (vhistory env v vops) = sends_of es /\
  v_enqueued (vhistory env v vops) = match o with MEnqueue msg rel now => [(msg, rel, now)] | _ => [] end.
Lemma run_obs env v i r order : v_enqueued (vobserved env v (VRun i r order)) = [].
Proof.
  unfold vobserved. rewrite !v_enqueued_app. cbn [app]. 
  assert (forall bs, v_enqueued (map VBegun bs) = []) as A by (intros bs; induction bs; [reflexivity|assumption]).
  assert (forall bs, v_enqueued (map VSeen bs) = []) as B by (intros bs; induction bs; [reflexivity|assumption]).
  rewrite A, B. reflexivity.
Qed.
Lemma run_sent env v i r order : v_sent (vobserved env v (VRun i r order)) =
  flat_map (fun b => match bg_call b with CSend msg rel => [(msg, rel)] | _ => [] end) (snd (vdoes v (VRun i r order))).
Proof. unfold v_sent. now rewrite observed_begun. Qed.

Lemma sim_recv env cf st q b r order sock m :
  reachable env st -> quiet cf st -> mm_disp m = st -> mm_queue m = q -> mm_running m = b -> mm_pc m = PRecv -> mm_sender m = 1%nat ->
  exists vops, like (vrun env (mk_live cf q b VRecv) vops) (fst (loop_receive env m r order sock)) /\
    same_obs env (mk_live cf q b VRecv) vops (MLoop r order sock) (snd (loop_receive env m r order sock)).
Proof.
  intros R Q ED EQ ER EP ES. unfold loop_receive, receive_packet. rewrite ED, ES.
  set (st0 := match r with RFail => st | RData a _ => set_hosts st (update_nth 1 a (s_hosts st)) end).
  set (buf := match r with RFail => [] | RData _ data => data end).
  set (size := match r with RFail => 0 | RData _ data => zlen data end).
  replace (match r with RFail => (st, [], 0) | RData a data => (set_hosts st (update_nth 1 a (s_hosts st)), data, zlen data) end)
    with (st0, buf, size) by (destruct r; reflexivity).
  (* the operations before receive_check *)
  assert (exists cf0 xs, vdoes (mk_live cf q b VRecv) (VRun 0 r []) = (xs ++ [Spawn (Receive 1 buf size)], [mk 0 (List.length (cf_pool cf0)) (CReceive buf)]) /\
    cf0 = fst (crun env cf xs) /\ quiet cf0 st0 /\ reachable env st0 /\
    vstep env (mk_live cf q b VRecv) (VRun 0 r []) = mk_live (fst (cstep env cf0 (Spawn (Receive 1 buf size)))) q b (VReceive (List.length (cf_pool cf0))))
    as (cf0 & xs & D & E0 & Q0 & R0 & V0).
  { destruct r as [|a data].
    - exists cf, []. split; [reflexivity|]. split; [reflexivity|]. split; [exact Q|]. split; [exact R|].
      unfold vstep. cbn [vdoes mk_live lv_udp nth_error udp_step]. cbn [fst]. rewrite crun_cons. reflexivity.
    - pose proof (reachable_step env st (SetHost 1 a) R) as R1. cbn [step fst] in R1.
      exists (fst (cstep env cf (Spawn (SetHost 1 a)))), [Spawn (SetHost 1 a)].
      destruct Q as [Q1 Q2].
      assert (List.length (cf_pool (fst (cstep env cf (Spawn (SetHost 1 a))))) = S (List.length (cf_pool cf))) as L by apply (cstep_pool env cf (Spawn (SetHost 1 a))).
      split; [rewrite L; reflexivity|]. split; [now rewrite crun_cons|].
      split; [|split; [exact R1|]].
      + cbn [cstep start step fst]. rewrite Q1. split; [reflexivity|]. cbn [cf_pool]. apply Forall_app. split; [exact Q2|].
        repeat constructor. eexists. reflexivity.
      + rewrite L. unfold vstep. cbn [vdoes mk_live lv_udp nth_error udp_step]. cbn [fst]. rewrite !crun_cons. reflexivity. }
  set (n0 := List.length (cf_pool cf0)) in *.
  destruct (call_seq env cf0 st0 (Receive 1 buf size) q b (VReceive n0) R0 Q0) as (us & cf1 & V1 & O1 & Q1 & L1 & RE1). fold n0 in L1, RE1.
  pose proof (reachable_step env st0 (Receive 1 buf size) R0) as R1. cbn [step] in *.
  destruct (receive_check env st0 1 buf size) as [d1 ro]. cbn [fst snd result_of] in *.
  assert (forall rest, vrun env (mk_live cf q b VRecv) (VRun 0 r [] :: us ++ rest) = vrun env (mk_live cf1 q b (VReceive n0)) rest) as GO.
  { intros rest. cbn [vrun]. rewrite V0, vrun_app, V1. reflexivity. }
  assert (forall rest, vhistory env (mk_live cf q b VRecv) (VRun 0 r [] :: us ++ rest) =
     vobserved env (mk_live cf q b VRecv) (VRun 0 r []) ++ vhistory env (vstep env (mk_live cf q b VRecv) (VRun 0 r [])) us ++ vhistory env (mk_live cf1 q b (VReceive n0)) rest) as HI.
  { intros rest. cbn [vhistory]. rewrite vhistory_app. rewrite V0 at 2. rewrite V1. reflexivity. }
  assert (forall rest, v_enqueued (vhistory env (mk_live cf q b VRecv) (VRun 0 r [] :: us ++ rest)) = v_enqueued (vhistory env (mk_live cf1 q b (VReceive n0)) rest) /\
                       v_sent (vhistory env (mk_live cf q b VRecv) (VRun 0 r [] :: us ++ rest)) = v_sent (vhistory env (mk_live cf1 q b (VReceive n0)) rest)) as OB.
  { intros rest. rewrite HI, !v_enqueued_app, !v_sent_app, run_obs, run_sent, D. destruct (O1 (vstep env (mk_live cf q b VRecv) (VRun 0 r []))) as [-> O2].
    rewrite (v_sent_nil _ O2). split; reflexivity. }
  destruct (r_res ro) as [rm|e] eqn:RR.
  2:{ exists (VRun 0 r [] :: us ++ [VRun 0 RFail []]). rewrite GO. split.
      - cbn [vrun fst]. unfold vstep. cbn [vdoes mk_live lv_udp nth_error udp_step lv_cf]. rewrite RE1. constructor; cbn; auto.
      - unfold same_obs. destruct (OB [VRun 0 RFail []]) as [-> ->]. cbn [vhistory]. rewrite app_nil_r, run_obs, run_sent. cbn [vdoes mk_live lv_udp nth_error udp_step lv_cf]. rewrite RE1. split; reflexivity. }
  destruct (has_unacked d1) eqn:HU.
  2:{ exists (VRun 0 r [] :: us ++ [VRun 0 RFail []]). rewrite GO. split.
      - cbn [vrun fst]. unfold vstep. cbn [vdoes mk_live lv_udp nth_error udp_step lv_cf]. rewrite RE1, (proj1 Q1), HU. constructor; cbn; auto.
      - unfold same_obs. destruct (OB [VRun 0 RFail []]) as [-> ->]. cbn [vhistory]. rewrite app_nil_r, run_obs, run_sent. cbn [vdoes mk_live lv_udp nth_error udp_step lv_cf].
        rewrite RE1, (proj1 Q1), HU. split; reflexivity. }
  set (n1 := List.length (cf_pool cf1)).
  destruct (call_seq env cf1 d1 (ProcessAcks order sock) q b (VAcks n1) R1 Q1) as (us2 & cf2 & V2 & O2 & Q2 & L2 & RE2). fold n1 in L2, RE2.
  cbn [step] in *. destruct (process_acks env d1 order sock) as [d2 oo]. cbn [fst snd result_of] in *.
  assert (vstep env (mk_live cf1 q b (VReceive n0)) (VRun 0 RFail order) = mk_live (fst (cstep env cf1 (Spawn (ProcessAcks order sock)))) q b (VAcks n1)) as W1.
  { unfold vstep. cbn [vdoes mk_live lv_udp nth_error udp_step lv_cf]. rewrite RE1, (proj1 Q1), HU. cbn [fst]. rewrite crun_cons. reflexivity. }
  exists (VRun 0 r [] :: us ++ VRun 0 RFail order :: us2 ++ [VRun 0 RFail []]). rewrite GO. split.
  - cbn [vrun]. rewrite W1, vrun_app, V2. cbn [vrun]. unfold vstep. cbn [vdoes mk_live lv_udp nth_error udp_step lv_cf]. rewrite RE2.
    destruct (o_res oo); constructor; cbn; auto.
  - unfold same_obs. destruct (OB (VRun 0 RFail order :: us2 ++ [VRun 0 RFail []])) as [-> ->]. cbn [vhistory]. rewrite vhistory_app, !v_enqueued_app, !v_sent_app.
    destruct (O2 (vstep env (mk_live cf1 q b (VReceive n0)) (VRun 0 RFail order))) as [-> O3]. rewrite (v_sent_nil _ O3). cbn [vhistory].
    rewrite app_nil_r, !run_obs, W1, V2. rewrite run_sent.
    cbn [vdoes mk_live lv_udp nth_error udp_step lv_cf]. rewrite RE1, (proj1 Q1), HU. cbn [snd flat_map bg_call app].
    rewrite run_sent. cbn [vdoes mk_live lv_udp nth_error udp_step lv_cf]. rewrite RE2. destruct (o_res oo); split; reflexivity.
Qed.
Lemma sim_step env m o v : like v m -> reachable env (mm_disp m) -> mm_host m = 0%nat -> mm_sender m = 1%nat ->
  exists vops, like (vrun env v vops) (fst (mstep env m o)) /\ same_obs env v vops o (snd (mstep env m o)).
Proof.
  intros [Q EQ ER EP] R H S. assert (v = mk_live (lv_cf v) (mm_queue m) (mm_running m) (pc_of (mm_pc m))) as EV by (destruct v; cbn in *; now subst).
  rewrite EV. set (cf := lv_cf v) in *. clearbody cf. clear EV EQ ER EP v.
  destruct o as [msg rel now| |o|r order sock]; cbn [mstep].
  - exists [VEnqueue msg rel now]. split; [constructor; cbn; auto|split; reflexivity].
  - exists [VStopMonitors]. split; [|split; reflexivity]. unfold stop_monitors. destruct (mm_eq m); constructor; cbn; auto.
  - destruct (call_seq env cf _ o (mm_queue m) (mm_running m) (pc_of (mm_pc m)) R Q) as (us & cf' & V & O & Q' & _ & _).
    exists (VUser (Spawn o) :: us).
    assert (vstep env (mk_live cf (mm_queue m) (mm_running m) (pc_of (mm_pc m))) (VUser (Spawn o)) = mk_live (fst (cstep env cf (Spawn o))) (mm_queue m) (mm_running m) (pc_of (mm_pc m))) as V0.
    { unfold vstep. cbn [vdoes fst mk_live lv_cf]. rewrite crun_cons. reflexivity. }
    split.
    + cbn [vrun]. rewrite V0, V. constructor; cbn; auto.
    + unfold same_obs. cbn [vhistory]. rewrite v_enqueued_app, v_sent_app. destruct (O (vstep env (mk_live cf (mm_queue m) (mm_running m) (pc_of (mm_pc m))) (VUser (Spawn o)))) as [-> O2].
      rewrite (v_sent_nil _ O2), <- view_enqueues, <- view_sends. cbn [snd sends_of flat_map].
      pose proof (view_step env (mk_live cf (mm_queue m) (mm_running m) (pc_of (mm_pc m))) (VUser (Spawn o))) as [[-> _]|(msg & rel & _ & X)]; [split; reflexivity|].
      exfalso. cbn [vstep lv_queue mk_live] in X. clear -X. apply (f_equal (@List.length _)) in X. cbn in X. lia.
  - unfold loop_step. destruct (mm_pc m) eqn:P; cbn [pc_of].
    + exists [VRun 0 RFail []]. split; [constructor; cbn; auto; destruct (mm_running m); reflexivity|]. split; reflexivity.
    + exists [VRun 0 RFail []]. split; [constructor; cbn; auto|]. split; reflexivity.
    + now apply (sim_recv env cf (mm_disp m) (mm_queue m) (mm_running m) r order sock m).
    + destruct (mm_queue m) as [|[msg rel] q] eqn:MQ.
      { exists [VRun 0 RFail []]. split; [constructor; cbn; auto; destruct (mm_running m); reflexivity|]. split; reflexivity. }
      unfold send_udp_message. rewrite H. set (n := List.length (cf_pool cf)).
      destruct (call_seq env cf _ (Send msg 0 (if rel then Reliable 0 else Plain) sock) q (mm_running m) (VSend n) R Q) as (us & cf' & V & O & Q' & L & RE). fold n in L, RE.
      cbn [step] in *. destruct (send_message env (mm_disp m) msg 0 (if rel then Reliable 0 else Plain) sock) as [d oo]. cbn [fst snd result_of] in *.
      set (v0 := mk_live cf ((msg, rel) :: q) (mm_running m) VDrain).
      assert (vstep env v0 (VRun 0 RFail []) = mk_live (fst (cstep env cf (Spawn (Send msg 0 (if rel then Reliable 0 else Plain) sock)))) q (mm_running m) (VSend n)) as V0.
      { unfold v0, vstep. cbn [vdoes mk_live lv_udp nth_error udp_step lv_cf lv_queue]. cbn [fst]. rewrite crun_cons. reflexivity. }
      exists (VRun 0 RFail [] :: us ++ [VRun 0 RFail []]). split.
      * cbn [vrun]. rewrite V0, vrun_app, V. cbn [vrun]. unfold vstep. cbn [vdoes mk_live lv_udp nth_error udp_step lv_cf]. rewrite RE.
        destruct (o_res oo); constructor; cbn; auto.
      * unfold same_obs. cbn [vhistory]. rewrite vhistory_app, !v_enqueued_app, !v_sent_app.
        destruct (O (vstep env v0 (VRun 0 RFail []))) as [-> O3]. rewrite (v_sent_nil _ O3). cbn [vhistory]. rewrite app_nil_r, !run_obs, V0, V, !run_sent.
        unfold v0. cbn [vdoes mk_live lv_udp nth_error udp_step lv_cf lv_queue]. rewrite RE. destruct (o_res oo); split; reflexivity.
    + exists []. split; [constructor; cbn; auto; now rewrite P|]. split; reflexivity.
Qed.
Lemma sim_run env ops : forall m v, like v m -> m_good env m -> mm_host m = 0%nat -> mm_sender m = 1%nat ->
  exists vops, like (vrun env v vops) (fst (mrun env m ops)) /\
    v_sent (vhistory env v vops) = sends_of (snd (mrun env m ops)) /\ v_enqueued (vhistory env v vops) = enqueues (SpecManager.history env m ops).
Proof.
  induction ops as [|o ops IH]; intros m v L G H S.
  - exists []. split; [exact L|]. split; reflexivity.
  - destruct (sim_step env m o v L) as (v1 & L1 & O1 & O2); auto; [apply G|].
    destruct (IH (fst (mstep env m o)) _ L1) as (v2 & L2 & P1 & P2).
    + now apply m_good_step.
    + clear -H. destruct o as [| | |r order sock]; cbn; try exact H; [unfold stop_monitors; destruct (mm_eq m); exact H|].
      unfold loop_step. destruct (mm_pc m); try exact H.
      * destruct (loop_receive env m r order sock) as [m' es] eqn:L. destruct (loop_receive_spec _ _ _ _ _ _ _ L) as (_ & _ & _ & X & _). cbn. now rewrite X.
      * destruct (mm_queue m) as [|[msg rel] q]; [exact H|]. destruct (send_udp_message env m msg rel sock). exact H.
    + clear -S. destruct o as [| | |r order sock]; cbn; try exact S; [unfold stop_monitors; destruct (mm_eq m); exact S|].
      unfold loop_step. destruct (mm_pc m); try exact S.
      * destruct (loop_receive env m r order sock) as [m' es] eqn:L. destruct (loop_receive_spec _ _ _ _ _ _ _ L) as (_ & _ & _ & _ & X & _). cbn. now rewrite X.
      * destruct (mm_queue m) as [|[msg rel] q]; [exact S|]. destruct (send_udp_message env m msg rel sock). exact S.
    + exists (v1 ++ v2). rewrite vrun_app, mrun_cons. cbn [fst snd]. split; [exact L2|]. rewrite vhistory_app, v_sent_app, v_enqueued_app, sends_app, O1, O2, P1, P2.
      split; [reflexivity|]. cbn [SpecManager.history]. rewrite enqueues_app. f_equal. unfold observed. rewrite enqueues_app, enqueues_did, app_nil_r. destruct o; reflexivity.
Qed.
Lemma live_uninterrupted env host eq ops : let m := fst (mrun env (mm_init host eq) ops) in
  exists vops, like (vafter env host vops) m /\
    v_sent (vlife env host vops) = sends_of (snd (mrun env (mm_init host eq) ops)) /\
    v_enqueued (vlife env host vops) = enqueues (SpecManager.history env (mm_init host eq) ops).
Proof.
  intros m. destruct (sim_run env ops (mm_init host eq) (vstep env (v_init env host) VStartMonitors)) as (vops & L & A & B); auto.
  - constructor; try reflexivity. split; [reflexivity|]. cbn. repeat constructor; eexists; reflexivity.
  - apply m_reachable_good. exists host, eq, []. reflexivity.
  - exists (VStartMonitors :: vops). split; [exact L|]. unfold vlife. rewrite v_sent_app, v_enqueued_app. cbn [vhistory]. rewrite v_sent_app, v_enqueued_app, A, B.
    split; [reflexivity|]. reflexivity.
Qed.
