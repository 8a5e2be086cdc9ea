(** Lemmas for C100. *)
From Verif Require Import Lib NetworkProofs EventsProofs DispatchProofs GreenletProofs LiveManagerProofs LiveManagerMore LiveManagerAcks LiveManagerSeq
  LiveQueueProofs LiveQueueMore LiveQueueStop SpecWhole.

(** ** The names of messages and the handler, in the dispatcher *)
Definition names_ext (st st' : dstate) : Prop :=
  forall r m, nth_error (s_msgs st) r = Some m -> exists m', nth_error (s_msgs st') r = Some m' /\ m_name m' = m_name m.
Lemma names_refl st : names_ext st st. Proof. intros r m H. now exists m. Qed.
Lemma names_trans a b c : names_ext a b -> names_ext b c -> names_ext a c.
Proof. intros H G r m N. destruct (H r m N) as (m1 & N1 & E1). destruct (G r m1 N1) as (m2 & N2 & E2). exists m2. split; [exact N2|congruence]. Qed.
Lemma names_same st st' : s_msgs st' = s_msgs st -> names_ext st st'.
Proof. intros E r m H. exists m. now rewrite E. Qed.
Lemma names_app st st' m : s_msgs st' = s_msgs st ++ [m] -> names_ext st st'.
Proof. intros E r m0 H. exists m0. split; [|reflexivity]. rewrite E, nth_error_app1; [exact H|]. apply nth_error_Some. congruence. Qed.
Lemma names_update st st' r0 m1 : s_msgs st' = update_nth r0 m1 (s_msgs st) ->
  (forall m0, nth_error (s_msgs st) r0 = Some m0 -> m_name m1 = m_name m0) -> names_ext st st'.
Proof.
  intros E K r m H. rewrite E. destruct (Nat.eq_dec r r0) as [->|N].
  - exists m1. split; [|now apply K]. apply nth_upd_eq, nth_error_Some. congruence.
  - exists m. split; [|reflexivity]. now rewrite nth_upd_neq by congruence.
Qed.

Definition thread_ok (st : dstate) (th : thread) : Prop :=
  match th with
  | InHandler name _ w => exists m, work_message st w = Some m /\ m_name m = name
  | _ => True
  end.
Lemma thread_ok_ext st st' th : names_ext st st' -> thread_ok st th -> thread_ok st' th.
Proof.
  intros X. destruct th as [|name i w| | |]; cbn; auto. intros (m & W & N). destruct w as [m0|mref href md k].
  - exists m. split; assumption.
  - cbn in *. destruct (X mref m W) as (m' & W' & N'). exists m'. split; [exact W'|congruence].
Qed.
Lemma back_ok st k r : thread_ok st (back_to k r).
Proof. destruct k; exact I. Qed.
Lemma detach_ok st k l th : thread_ok st th -> thread_ok st (detach k l th).
Proof. destruct th as [|name i w| | |]; cbn; auto. destruct w; cbn; auto. Qed.
Lemma detach_all_ok st0 st ms : forall pool, Forall (thread_ok st) pool -> Forall (thread_ok st) (detach_all st0 ms pool).
Proof.
  unfold detach_all. induction ms as [|x ms IH]; intros pool F; [exact F|]. cbn [fold_left]. apply IH.
  destruct x; try exact F. apply Forall_map. eapply Forall_impl; [|exact F]. intros th. apply detach_ok.
Qed.

Definition called_ok (r : registry) (ms : list mark) : Prop :=
  forall s m, In (MCall s m) ms -> exists l, sget (m_name m) r = Some l /\ In s l.
Definition well (st : dstate) (x : step_result) : Prop :=
  let '(st', ms, th) := x in
  names_ext st st' /\ s_handler st' = s_handler st /\ thread_ok st' th /\ called_ok (s_handler st) ms.
Lemma well_still st th : thread_ok st th -> well st (st, [], th).
Proof. intros T. split; [apply names_refl|]. split; [reflexivity|]. split; [exact T|]. intros s m []. Qed.

Lemma find_keeps st href a : s_msgs (fst (find_circuit st href a)) = s_msgs st /\ s_handler (fst (find_circuit st href a)) = s_handler st.
Proof. unfold find_circuit. destruct (get_circuit _ _); split; reflexivity. Qed.
Lemma add_acks_name ids : forall m, m_name (fold_left add_ack ids m) = m_name m.
Proof. induction ids as [|i ids IH]; intros m; [reflexivity|]. cbn [fold_left]. now rewrite IH. Qed.
Lemma prepare_name c mref m f r : m_name (snd (prepare_packet c mref m f r)) = m_name m.
Proof.
  unfold prepare_packet. destruct (next_packet_id c) as [id c1]. cbn [snd].
  destruct ((0 <? zlen (c_acks c1)) && _); [now rewrite add_acks_name|reflexivity].
Qed.

Lemma transmit_well env st mref href md k : well st (transmit env st mref href md k).
Proof.
  unfold transmit. destruct (nth_error (s_hosts st) href) as [a|]; [|apply well_still, back_ok].
  destruct (nth_error (s_msgs st) mref) as [m|] eqn:M; [|apply well_still, back_ok].
  destruct (find_keeps st href a) as [FM FH]. destruct (find_circuit st href a) as [st1 c]. cbn [fst] in FM, FH.
  assert (exists c' m', match md with
            | Reliable r => prepare_packet c mref m LL_RELIABLE_FLAG r
            | Plain => prepare_packet c mref m LL_NONE 0
            end = (c', m') /\ m_name m' = m_name m) as (c' & m' & -> & MN).
  { destruct md as [|r].
    - pose proof (prepare_name c mref m LL_NONE 0) as H. destruct (prepare_packet c mref m LL_NONE 0) as [c' m']. now exists c', m'.
    - pose proof (prepare_name c mref m LL_RELIABLE_FLAG r) as H. destruct (prepare_packet c mref m LL_RELIABLE_FLAG r) as [c' m']. now exists c', m'. }
  cbv zeta.
  match goal with |- context [put_circuit st1 a c'] => idtac end.
  set (st2 := match md with Plain => _ | Reliable _ => _ end).
  assert (s_msgs st2 = update_nth mref m' (s_msgs st) /\ s_handler st2 = s_handler st) as [E2 H2].
  { unfold st2. destruct md; [|destruct (c_count c' <=? 0)]; cbn; rewrite FM; split; auto. }
  assert (names_ext st st2) as X.
  { eapply names_update; [exact E2|]. intros m0 H. rewrite M in H. injection H as <-. exact MN. }
  assert (called_ok (s_handler st) [MPut {| at_addr := a; at_msg := m'; at_data := None |}]) as C0 by (intros s x [H|[]]; discriminate H).
  destruct (serialize _ _ _ m') as [[b|]|e]; (split; [exact X|]; split; [exact H2|]; split; [|intros s x [H|[]]; discriminate H]);
    try apply back_ok. exact I.
Qed.
Lemma after_well env st e w : well st (after_handler env st e w).
Proof.
  destruct w as [m|mref href md k]; cbn [after_handler]; [apply well_still; exact I|].
  destruct (swallow_keyerror e); [apply well_still, back_ok|apply transmit_well].
Qed.
Lemma enter_well env st name i w : (forall m, work_message st w = Some m -> m_name m = name) -> well st (enter_handler env st name i w).
Proof.
  intros N. unfold enter_handler. destruct (sget name (s_handler st)) as [l|] eqn:G; [|apply after_well].
  destruct (work_message st w) as [m|] eqn:W; [|apply after_well].
  destruct (nth_error l i) as [s|] eqn:E; [|apply after_well].
  split; [apply names_refl|]. split; [reflexivity|]. split.
  - exists m. split; [exact W|]. now apply N.
  - intros s0 m0 [H|[]]. injection H as <- <-. exists l. rewrite (N m eq_refl). split; [exact G|]. now apply nth_error_In in E.
Qed.
Lemma begin_well env st mref href md k : well st (begin_send env st mref href md k).
Proof.
  unfold begin_send. destruct (nth_error (s_hosts st) href) as [a|]; [|apply well_still, back_ok].
  destruct (nth_error (s_msgs st) mref) as [m|] eqn:M; [|apply well_still, back_ok].
  destruct (negb (host_ok a)); [apply well_still, back_ok|]. destruct (e_handle_out env); [|apply transmit_well].
  apply enter_well. cbn. intros m0 H. rewrite M in H. now injection H as <-.
Qed.
Lemma clear_keeps st k : s_msgs (clear_acks st k) = s_msgs st /\ s_handler (clear_acks st k) = s_handler st.
Proof. unfold clear_acks. destruct (get_circuit _ _); split; reflexivity. Qed.
Lemma loop_well env st f : well st (ack_loop env st f).
Proof.
  unfold ack_loop. destruct (take_acks _ _) as [ids full]. destruct (full || (0 <? zlen ids)).
  - cbv zeta. set (st1 := set_msgs st (s_msgs st ++ [ack_message ids])).
    match goal with |- context [begin_send ?e ?s ?a ?b ?c ?d] => pose proof (begin_well e s a b c d) as B; destruct (begin_send e s a b c d) as [[st2 ms] th] end.
    destruct B as (X & H & T & C). split; [|split; [exact H|split; [exact T|]]].
    + eapply names_trans; [|exact X]. eapply names_app. reflexivity.
    + intros s m [E|M]; [discriminate E|]. now apply C.
  - destruct (clear_keeps st (f_key f)) as [M H]. split; [now apply names_same|]. split; [exact H|]. split; [exact I|]. intros s m [E|[]]; discriminate E.
Qed.
Lemma empty_well st f : well st (empty_queue st f).
Proof. destruct (clear_keeps st (f_key f)) as [M H]. split; [now apply names_same|]. split; [exact H|]. split; [exact I|]. intros s m [E|[]]; discriminate E. Qed.
Lemma resume_well env st e th : thread_ok st th -> well st (resume env st e th).
Proof.
  intros T. destruct th as [o|name i w|mref b k|r f last|todo]; cbn [resume].
  - now apply well_still.
  - destruct e as [e|]; [apply after_well|]. apply enter_well. intros m W. destruct T as (m0 & W0 & N). congruence.
  - destruct e as [e|].
    + apply well_still, back_ok.
    + split; [now apply names_same|]. split; [reflexivity|]. split; [apply back_ok|]. intros s m [].
  - destruct r as [x|e0].
    + destruct last; [apply empty_well|apply loop_well].
    + split; [apply names_refl|]. split; [reflexivity|]. split; [exact I|]. intros s m [H|[]]; discriminate H.
  - unfold next_circuit. destruct todo as [|k todo]; [now apply well_still|].
    destruct (get_circuit (s_circuits st) k); [apply loop_well|now apply well_still].
Qed.
Lemma receive_keeps env st href buf size : s_msgs (fst (receive_check env st href buf size)) = s_msgs st /\
  s_handler (fst (receive_check env st href buf size)) = s_handler st.
Proof.
  unfold receive_check. destruct (nth_error (s_hosts st) href) as [a|]; [|split; reflexivity].
  destruct (size <=? 0); [split; reflexivity|].
  destruct (find_keeps st href a) as [FM FH]. destruct (find_circuit st href a) as [st1 c]. cbn [fst] in FM, FH.
  cbv zeta. destruct (deserialize _ buf) as [[m|]|x]; [|destruct (do _ <- pyindex buf 0; unpack_z buf MVT_U32 1 (Some BE))|]; try (split; assumption).
  destruct (c_trusted c && negb (m_trusted m)); [split; assumption|].
  destruct (e_handle env); [destruct (handle _ _ m)|]; split; assumption.
Qed.
Lemma resend_keeps l : forall st, names_ext st (fst (resend_all l st)) /\ s_handler (fst (resend_all l st)) = s_handler st.
Proof.
  induction l as [|[h a] l IH]; intros st; cbn [resend_all]; [split; [apply names_refl|reflexivity]|].
  destruct (get_circuit (s_circuits st) a) as [c|]; [|apply IH]. destruct (c_unacked c) as [|[id mref] u]; [apply IH|].
  destruct (nth_error (s_msgs st) mref) as [m|] eqn:M; [|split; [apply names_refl|reflexivity]].
  split; [|reflexivity]. eapply names_update; [reflexivity|]. intros m0 H. rewrite M in H. now injection H as <-.
Qed.
(** A step of the dispatcher that leaves handler and names alone. *)
Definition harmless (st : dstate) (o : op) : Prop :=
  match o with
  | SetHandler _ => False
  | SetMsg r m => forall m0, nth_error (s_msgs st) r = Some m0 -> m_name m = m_name m0
  | _ => True
  end.
Lemma start_well env cf o : harmless (cf_st cf) o -> well (cf_st cf) (start env cf o).
Proof.
  intros H. destruct o; cbn [start step]; try (split; [now apply names_same|]; split; [reflexivity|]; split; [exact I|]; intros s0 m0 []).
  - split; [eapply names_app; reflexivity|]. split; [reflexivity|]. split; [exact I|]. intros s0 m0 [].
  - split; [eapply names_update; [reflexivity|exact H]|]. split; [reflexivity|]. split; [exact I|]. intros s0 m0 [].
  - destruct H.
  - destruct (get_circuit (s_circuits (cf_st cf)) a); (split; [now apply names_same|]; split; [reflexivity|]; split; [exact I|]; intros s0 m0 []).
  - apply begin_well.
  - destruct (receive_keeps (silent env) (cf_st cf) href buf size) as [RM RH].
    destruct (receive_check (silent env) (cf_st cf) href buf size) as [st1 r]. cbn [fst] in RM, RH.
    assert (well (cf_st cf) (st1, [], Finished (ORecv r))) as W0.
    { split; [now apply names_same|]. split; [exact RH|]. split; [exact I|]. intros s0 m0 []. }
    destruct (r_res r) as [[m|]|]; try exact W0. destruct (e_handle env); [|exact W0].
    assert (well st1 (enter_handler env st1 (m_name m) 0 (Deliver m))) as W.
    { apply enter_well. cbn. intros m0 E. now injection E as <-. }
    destruct (enter_handler env st1 (m_name m) 0 (Deliver m)) as [[st2 ms] th]. destruct W as (X & HH & T & C).
    split; [|split; [congruence|split; [exact T|rewrite <- RH; exact C]]]. eapply names_trans; [apply names_same; exact RM|exact X].
  - destruct (resend_keeps (s_unackedc (cf_st cf)) (cf_st cf)) as [X HH].
    destruct (resend_all (s_unackedc (cf_st cf)) (cf_st cf)) as [st1 [u|e]]; cbn [fst] in *;
      (split; [exact X|]; split; [exact HH|]; split; [exact I|]; intros s0 m0 []).
  - destruct (existsb acking (cf_pool cf)); [now apply well_still|].
    split; [now apply names_same|]. split; [reflexivity|]. split; [exact I|]. intros s0 m0 [].
Qed.

Definition cok (cf : config) : Prop := Forall (thread_ok (cf_st cf)) (cf_pool cf).
Lemma Forall_update {A} (P : A -> Prop) i x l : Forall P l -> P x -> Forall P (update_nth i x l).
Proof. revert l. induction i as [|i IH]; intros [|a l] F X; inversion F; subst; cbn; constructor; auto. Qed.
Definition harmless_s (st : dstate) (x : sched) : Prop := match x with Spawn o => harmless st o | Resume _ _ => True end.
Lemma cstep_well env cf x : cok cf -> harmless_s (cf_st cf) x ->
  let cf' := fst (cstep env cf x) in
  cok cf' /\ names_ext (cf_st cf) (cf_st cf') /\ s_handler (cf_st cf') = s_handler (cf_st cf) /\
  called_ok (s_handler (cf_st cf)) (snd (cstep env cf x)).
Proof.
  intros K H. destruct x as [o|i e]; cbn [cstep].
  - pose proof (start_well env cf o H) as W. destruct (start env cf o) as [[st ms] th]. destruct W as (X & HH & T & C).
    cbn. repeat split; auto. unfold cok. cbn. apply Forall_app. split; [|constructor; auto].
    eapply Forall_impl; [|exact K]. intros t. now apply thread_ok_ext.
  - destruct (nth_error (cf_pool cf) i) as [th|] eqn:N.
    + assert (thread_ok (cf_st cf) th) as T0 by (eapply Forall_forall; [exact K|now apply nth_error_In in N]).
      pose proof (resume_well env (cf_st cf) e th T0) as W. destruct (resume env (cf_st cf) e th) as [[st ms] th']. destruct W as (X & HH & T & C).
      cbn. repeat split; auto. unfold cok. cbn. apply Forall_update; [|exact T]. apply detach_all_ok.
      eapply Forall_impl; [|exact K]. intros t. now apply thread_ok_ext.
    + cbn. repeat split; auto; [apply names_refl|]. intros s m [].
Qed.

(** ** The handler alone *)
Definition not_handler (x : sched) : Prop := forall r, x <> Spawn (SetHandler r).
Lemma enter_keeps_handler env st name i w : s_handler (fst (fst (enter_handler env st name i w))) = s_handler st.
Proof.
  unfold enter_handler. assert (s_handler (fst (fst (after_handler env st None w))) = s_handler st) as A.
  { pose proof (after_well env st None w) as W. destruct (after_handler env st None w) as [[st' ms] th]. apply W. }
  destruct (sget name (s_handler st)); [|exact A]. destruct (work_message st w); [|exact A]. destruct (nth_error l i); [reflexivity|exact A].
Qed.
Lemma cstep_keeps_handler env cf x : not_handler x -> s_handler (cf_st (fst (cstep env cf x))) = s_handler (cf_st cf).
Proof.
  intros N. destruct x as [o|i e]; cbn [cstep].
  - assert (s_handler (fst (fst (start env cf o))) = s_handler (cf_st cf)) as E.
    { assert (harmless (cf_st cf) o -> s_handler (fst (fst (start env cf o))) = s_handler (cf_st cf)) as G.
      { intros H. pose proof (start_well env cf o H) as W. destruct (start env cf o) as [[st ms] th]. apply W. }
      destruct o; try (apply G; exact I); [reflexivity|]. now destruct (N r). }
    destruct (start env cf o) as [[st ms] th]. exact E.
  - destruct (nth_error (cf_pool cf) i) as [th|]; [|reflexivity].
    assert (s_handler (fst (fst (resume env (cf_st cf) e th))) = s_handler (cf_st cf)) as E.
    { destruct th as [o|name j w|mref b k|r f last|todo].
      2: { cbn [resume]. destruct e as [e|]; [|apply enter_keeps_handler].
           pose proof (after_well env (cf_st cf) (Some e) w) as W. destruct (after_handler env (cf_st cf) (Some e) w) as [[st' ms] th]. apply W. }
      all: match goal with |- context [resume _ _ _ ?t] => pose proof (resume_well env (cf_st cf) e t I) as W; destruct (resume env (cf_st cf) e t) as [[st' ms] th]; apply W end. }
    destruct (resume env (cf_st cf) e th) as [[st ms] th']. exact E.
Qed.
Lemma crun_keeps_handler env xs : forall cf, Forall not_handler xs -> s_handler (cf_st (fst (crun env cf xs))) = s_handler (cf_st cf).
Proof.
  induction xs as [|x xs IH]; intros cf F; [reflexivity|]. inversion F; subst. rewrite crun_cons, IH by assumption. now apply cstep_keeps_handler.
Qed.
(** What a coroutine starts touches neither the handler nor a message. *)
Definition loop_sched (x : sched) : Prop :=
  match x with Spawn (Receive _ _ _) | Spawn (SetHost _ _) | Spawn (ProcessAcks _ _) | Spawn (Send _ _ _ _) => True | _ => False end.
Lemma udp_step_loop v i p r order : Forall loop_sched (fst (fst (fst (udp_step v i p r order)))).
Proof.
  destruct p; cbn [udp_step]; try (constructor; fail).
  - destruct r; repeat constructor.
  - destruct (returned _ _) as [[u|e]|]; try constructor. destruct (has_unacked _); repeat constructor.
  - destruct (returned _ _) as [[u|e]|]; constructor.
  - destruct (lv_queue v) as [|[m b] q]; repeat constructor.
  - destruct (returned _ _) as [[u|e]|]; constructor.
Qed.
Lemma vrun_loop v i r order : Forall loop_sched (fst (vdoes v (VRun i r order))).
Proof.
  cbn [vdoes]. destruct (nth_error (lv_udp v) i) as [p|]; [|constructor].
  pose proof (udp_step_loop v i p r order) as H. destruct (udp_step v i p r order) as [[[xs bs] q] p']. exact H.
Qed.
Lemma loop_not_handler x : loop_sched x -> not_handler x.
Proof. intros L r ->. exact L. Qed.
Lemma loop_harmless st x : loop_sched x -> harmless_s st x.
Proof. destruct x as [[]|]; cbn; tauto. Qed.

(** ** The two sides of a manager *)
Fixpoint w_udp_ops (e : wenv) (w : whole) (ops : list wop) : list vop :=
  match ops with [] => [] | o :: ops' => udp_ops w o ++ w_udp_ops e (wstep e w o) ops' end.
Lemma wstep_udp e w o : wh_udp (wstep e w o) = vrun (we_env e) (wh_udp w) (udp_ops w o).
Proof. unfold wstep. destruct (we_queue e); reflexivity. Qed.
Lemma wrun_udp e ops : forall w, wh_udp (wrun e w ops) = vrun (we_env e) (wh_udp w) (w_udp_ops e w ops).
Proof. induction ops as [|o ops IH]; intros w; [reflexivity|]. cbn [wrun w_udp_ops]. now rewrite IH, vrun_app, wstep_udp. Qed.
Lemma udp_part_app a b : udp_part (a ++ b) = udp_part a ++ udp_part b. Proof. apply flat_map_app. Qed.
Lemma queue_part_app a b : queue_part (a ++ b) = queue_part a ++ queue_part b. Proof. apply flat_map_app. Qed.
Lemma uses_app' a b : handler_uses (a ++ b) = handler_uses a ++ handler_uses b. Proof. apply flat_map_app. Qed.
Lemma udp_part_WV l : udp_part (map WV l) = l. Proof. induction l; [reflexivity|]. cbn. now f_equal. Qed.
Lemma udp_part_WN l : udp_part (map WN l) = []. Proof. induction l; [reflexivity|]. exact IHl. Qed.
Lemma queue_part_WV l : queue_part (map WV l) = []. Proof. induction l; [reflexivity|]. exact IHl. Qed.
Lemma queue_part_WN l : queue_part (map WN l) = l. Proof. induction l; [reflexivity|]. cbn. now f_equal. Qed.
Lemma uses_WV l : handler_uses (map WV l) = []. Proof. induction l; [reflexivity|]. exact IHl. Qed.
Lemma uses_WN l : handler_uses (map WN l) = []. Proof. induction l; [reflexivity|]. exact IHl. Qed.
Definition raised_part (e : wenv) (o : wop) : list wobs := match o, stop_raises e with WStop, Some x => [WRaised x] | _, _ => [] end.
Definition queue_obs (e : wenv) (w : whole) (o : wop) : list wobs :=
  match we_queue e with Some q => map WN (nhistory q (w_queue w) (queue_ops o)) | None => [] end.
Lemma observed_cases e w o : (exists h, o = WHandler h /\ wobserved e w o = [WUsed h]) \/
  (forall h, o <> WHandler h) /\
  wobserved e w o = map WV (vhistory (we_env e) (wh_udp w) (udp_ops w o)) ++ queue_obs e w o ++ raised_part e o.
Proof. destruct o as [| | |h| | | |]; [right|right|right|left; exists h; now split|right|right|right|right]; (split; [discriminate|reflexivity]). Qed.
Lemma raised_udp e o : udp_part (raised_part e o) = []. Proof. unfold raised_part. destruct o; try reflexivity. destruct (stop_raises e); reflexivity. Qed.
Lemma raised_queue e o : queue_part (raised_part e o) = []. Proof. unfold raised_part. destruct o; try reflexivity. destruct (stop_raises e); reflexivity. Qed.
Lemma raised_uses e o : handler_uses (raised_part e o) = []. Proof. unfold raised_part. destruct o; try reflexivity. destruct (stop_raises e); reflexivity. Qed.
Lemma queue_obs_udp e w o : udp_part (queue_obs e w o) = []. Proof. unfold queue_obs. destruct (we_queue e); [apply udp_part_WN|reflexivity]. Qed.
Lemma queue_obs_uses e w o : handler_uses (queue_obs e w o) = []. Proof. unfold queue_obs. destruct (we_queue e); [apply uses_WN|reflexivity]. Qed.
Lemma observed_udp e w o : udp_part (wobserved e w o) = vhistory (we_env e) (wh_udp w) (udp_ops w o).
Proof.
  destruct (observed_cases e w o) as [(h & -> & ->)|(_ & ->)]; [reflexivity|].
  rewrite !udp_part_app, udp_part_WV, queue_obs_udp, raised_udp. now rewrite app_nil_r.
Qed.
Lemma observed_queue e q w o : we_queue e = Some q -> queue_part (wobserved e w o) = nhistory q (w_queue w) (queue_ops o).
Proof.
  intros Q. destruct (observed_cases e w o) as [(h & -> & ->)|(_ & ->)]; [reflexivity|].
  rewrite !queue_part_app, queue_part_WV, raised_queue, app_nil_r. unfold queue_obs. rewrite Q. apply queue_part_WN.
Qed.
Lemma observed_uses e w o : handler_uses (wobserved e w o) = match o with WHandler h => [h] | _ => [] end.
Proof.
  destruct (observed_cases e w o) as [(h & -> & ->)|(N & ->)]; [reflexivity|].
  rewrite !uses_app', uses_WV, queue_obs_uses, raised_uses. destruct o; try reflexivity. now destruct (N h).
Qed.
Lemma whistory_udp e ops : forall w, udp_part (whistory e w ops) = vhistory (we_env e) (wh_udp w) (w_udp_ops e w ops).
Proof.
  induction ops as [|o ops IH]; intros w; [reflexivity|]. cbn [whistory w_udp_ops].
  rewrite udp_part_app, observed_udp, IH, vhistory_app, wstep_udp. reflexivity.
Qed.
Lemma wlife_udp e ops : wh_udp (wafter e ops) = vafter (we_env e) (we_host e) (w_udp_ops e (w_init e) ops) /\
  udp_part (wlife e ops) = vlife (we_env e) (we_host e) (w_udp_ops e (w_init e) ops).
Proof. split; [apply wrun_udp|]. unfold wlife, vlife. rewrite whistory_udp. reflexivity. Qed.

(** The handler. *)
Lemma vstep_handler env v o : s_handler (cf_st (lv_cf (vstep env v o))) = s_handler (cf_st (fst (crun env (lv_cf v) (fst (vdoes v o))))).
Proof. now rewrite vstep_cf. Qed.
Lemma wstep_handler e w o : w_handler (wstep e w o) = match o with WHandler h => fst (hstep (w_handler w) h) | _ => w_handler w end.
Proof.
  unfold w_handler at 1. rewrite wstep_udp. destruct o as [| | |h|x|i r order| |]; cbn [udp_ops vrun]; try reflexivity.
  - destruct x as [o|i e0].
    + destruct o; cbn [vrun]; try reflexivity; rewrite vstep_handler; cbn [vdoes fst]; apply crun_keeps_handler;
        (constructor; [intros r0; discriminate|constructor]).
    + cbn [vrun]. rewrite vstep_handler. cbn [vdoes fst]. apply crun_keeps_handler. constructor; [intros r0; discriminate|constructor].
  - rewrite vstep_handler. apply crun_keeps_handler. eapply Forall_impl; [|apply vrun_loop]. intros x. apply loop_not_handler.
Qed.
Lemma nstep_reg q l o : nq_reg (fst (nstep q l o)) = match o with NUser h => fst (hstep (nq_reg l) h) | _ => nq_reg l end.
Proof.
  destruct o; cbn [nstep]; try reflexivity. destruct (nth_error (nq_pool l) i) as [p|]; [|reflexivity].
  destruct (nq_step q (nq_q l) (nq_reg l) p o x) as [[q' ev] p']. reflexivity.
Qed.
Lemma wstep_queue e q w o : we_queue e = Some q -> w_queue (wstep e w o) = nrun q (w_queue w) (queue_ops o).
Proof.
  intros Q. unfold w_queue at 1. rewrite wstep_handler. unfold wstep. rewrite Q. cbn [wh_eq wh_pool].
  assert (nq_reg (nrun q (w_queue w) (queue_ops o)) = match o with WHandler h => fst (hstep (w_handler w) h) | _ => w_handler w end) as <-.
  { destruct o; cbn [queue_ops nrun]; try reflexivity; rewrite nstep_reg; reflexivity. }
  destruct (nrun q (w_queue w) (queue_ops o)); reflexivity.
Qed.
Lemma nrun_app' q a : forall b l, nrun q l (a ++ b) = nrun q (nrun q l a) b.
Proof. induction a as [|o a IH]; intros b l; [reflexivity|]. cbn [app nrun]. apply IH. Qed.
Lemma nhistory_app' q a : forall b l, nhistory q l (a ++ b) = nhistory q l a ++ nhistory q (nrun q l a) b.
Proof. induction a as [|o a IH]; intros b l; [reflexivity|]. cbn [app nrun nhistory]. now rewrite IH, !app_assoc. Qed.
Lemma wrun_queue e q ops : we_queue e = Some q -> forall w, w_queue (wrun e w ops) = nrun q (w_queue w) (flat_map queue_ops ops).
Proof. intros Q. induction ops as [|o ops IH]; intros w; [reflexivity|]. cbn [wrun flat_map]. now rewrite IH, nrun_app', (wstep_queue e q). Qed.
Lemma whistory_queue e q ops : we_queue e = Some q -> forall w,
  queue_part (whistory e w ops) = nhistory q (w_queue w) (flat_map queue_ops ops).
Proof.
  intros Q. induction ops as [|o ops IH]; intros w; [reflexivity|]. cbn [whistory flat_map].
  now rewrite queue_part_app, (observed_queue e q), IH, nhistory_app', (wstep_queue e q).
Qed.
Lemma wlife_queue e q ops : we_queue e = Some q ->
  w_queue (wafter e ops) = nafter q (flat_map queue_ops ops) /\ queue_part (wlife e ops) = nlife q (flat_map queue_ops ops).
Proof. intros Q. split; [exact (wrun_queue e q ops Q (w_init e))|exact (whistory_queue e q ops Q (w_init e))]. Qed.

Lemma whistory_handler e ops : forall w, w_handler (wrun e w ops) = hrun (w_handler w) (handler_uses (whistory e w ops)).
Proof.
  induction ops as [|o ops IH]; intros w; [reflexivity|]. cbn [wrun whistory]. rewrite IH, uses_app', observed_uses, hrun_app, wstep_handler.
  destruct o; reflexivity.
Qed.
Lemma wlife_handler e ops : w_handler (wafter e ops) = hrun [] (handler_uses (wlife e ops)).
Proof. exact (whistory_handler e ops (w_init e)). Qed.

(** ** Who is called *)
Lemma sget_known name l ops : sget name (hrun [] ops) = Some l -> l = subscriptions name [] ops.
Proof. rewrite hrun_get. cbn. destruct (existsb _ ops); [now intros [= <-]|discriminate]. Qed.
Fixpoint harmless_run (env : denv) (cf : config) (xs : list sched) : Prop :=
  match xs with [] => True | x :: xs' => harmless_s (cf_st cf) x /\ harmless_run env (fst (cstep env cf x)) xs' end.
Lemma gevents_called env cf x s m : In (Called s m) (gevents env cf x) -> In (MCall s m) (snd (cstep env cf x)).
Proof.
  unfold gevents. intros H. apply in_app_iff in H as [H|H].
  - exfalso. destruct x as [o|]; [|destruct H]. destruct o; cbn in H; repeat match type of H with
      | False => destruct H
      | In _ (_ ++ _) => apply in_app_iff in H; destruct H as [H|H]
      | context [match ?a with _ => _ end] => destruct a; cbn in H
      | _ \/ _ => destruct H as [H|H]
      | _ = _ => discriminate H
      end.
  - apply in_map_iff in H as (x0 & E & I0). destruct x0; try discriminate E. injection E as <- <-. exact I0.
Qed.
Lemma crun_well env xs : forall cf, cok cf -> harmless_run env cf xs ->
  cok (fst (crun env cf xs)) /\
  forall s m, In (Called s m) (gtrace env cf xs) -> exists l, sget (m_name m) (s_handler (cf_st cf)) = Some l /\ In s l.
Proof.
  induction xs as [|x xs IH]; intros cf K H; [split; [exact K|intros s m []]|].
  destruct H as [H1 H2]. destruct (cstep_well env cf x K H1) as (K1 & X & HH & C). cbv zeta in *.
  rewrite crun_cons. destruct (IH _ K1 H2) as [K2 C2]. split; [exact K2|]. cbn [gtrace]. intros s m I0. apply in_app_iff in I0 as [I0|I0].
  - apply gevents_called in I0. exact (C s m I0).
  - rewrite <- HH. exact (C2 s m I0).
Qed.
Lemma loop_harmless_run env xs : forall cf, Forall loop_sched xs -> harmless_run env cf xs.
Proof. induction xs as [|x xs IH]; intros cf F; [exact I|]. inversion F; subst. split; [now apply loop_harmless|now apply IH]. Qed.
Lemma crun_cok env xs : forall cf, cok cf -> Forall loop_sched xs -> cok (fst (crun env cf xs)).
Proof. intros cf K F. now apply crun_well; [|apply loop_harmless_run]. Qed.
Definition wcok (w : whole) : Prop := cok (lv_cf (wh_udp w)).
Lemma set_handler_cok env cf r : cok cf -> cok (fst (cstep env cf (Spawn (SetHandler r)))).
Proof.
  intros K. unfold cok. cbn. apply Forall_app. split; [|constructor; [exact I|constructor]].
  eapply Forall_impl; [|exact K]. intros th T. destruct th as [|name i []| | |]; exact T.
Qed.
Lemma vhistory_one env v o : v_seen (vhistory env v [o]) = gtrace env (lv_cf v) (fst (vdoes v o)).
Proof. cbn [vhistory]. rewrite app_nil_r. apply observed_seen. Qed.
Lemma keeps_harmless w x : keeps_name w (WUser x) -> not_handler x -> harmless_s (cf_st (lv_cf (wh_udp w))) x.
Proof. intros K N. destruct x as [o|i e]; [|exact I]. destruct o; cbn; auto. destruct (N r eq_refl). Qed.
Lemma wstep_cok e w o : wcok w -> keeps_name w o -> wcok (wstep e w o) /\
  ((forall h, o <> WHandler h) -> forall s m, In (VSeen (Called s m)) (vhistory (we_env e) (wh_udp w) (udp_ops w o)) ->
     exists l, sget (m_name m) (w_handler w) = Some l /\ In s l).
Proof.
  intros K N. unfold wcok. rewrite wstep_udp.
  assert (forall o', (fst (vdoes (wh_udp w) o') = [] \/ harmless_run (we_env e) (lv_cf (wh_udp w)) (fst (vdoes (wh_udp w) o'))) ->
    cok (lv_cf (vrun (we_env e) (wh_udp w) [o'])) /\
    forall s m, In (VSeen (Called s m)) (vhistory (we_env e) (wh_udp w) [o']) ->
     exists l, sget (m_name m) (w_handler w) = Some l /\ In s l) as G.
  { intros o' H. assert (harmless_run (we_env e) (lv_cf (wh_udp w)) (fst (vdoes (wh_udp w) o'))) as H'.
    { destruct H as [->|H]; [exact I|exact H]. }
    destruct (crun_well (we_env e) _ _ K H') as [K1 C1]. split; [cbn [vrun]; rewrite vstep_cf; exact K1|].
    intros s m I0. apply (C1 s m). rewrite <- vhistory_one. unfold v_seen. apply in_flat_map. exists (VSeen (Called s m)). split; [exact I0|now left]. }
  destruct o as [| | |h|x|i r order| |]; cbn [udp_ops].
  - destruct (G VStartMonitors (or_introl eq_refl)) as [A B]. split; [exact A|intros _; exact B].
  - destruct (G VStopMonitors (or_introl eq_refl)) as [A B]. split; [exact A|intros _; exact B].
  - destruct (G (VEnqueue msg reliable now) (or_introl eq_refl)) as [A B]. split; [exact A|intros _; exact B].
  - split; [|intros X; now destruct (X h)]. cbn [vrun]. rewrite vstep_cf. cbn [vdoes fst]. rewrite crun_cons. cbn [crun fst]. now apply set_handler_cok.
  - assert ((exists r, x = Spawn (SetHandler r)) \/ not_handler x) as [[r ->]|NH].
    { destruct x as [o|i e0]; [|right; intros r0; discriminate]. destruct o; try (right; intros r0; discriminate). left. now eexists. }
    + split; [exact K|]. intros _ s m [].
    + assert (match x with Spawn (SetHandler _) => [] | _ => [VUser x] end = [VUser x]) as ->.
      { destruct x as [o|]; [|reflexivity]. destruct o; try reflexivity. destruct (NH r eq_refl). }
      destruct (G (VUser x)) as [A B]. { right. cbn. split; [|exact I]. now apply keeps_harmless. }
      split; [exact A|intros _; exact B].
  - destruct (G (VRun i r order)) as [A B]. { right. apply loop_harmless_run, vrun_loop. } split; [exact A|intros _; exact B].
  - split; [exact K|]. intros _ s m [].
  - split; [exact K|]. intros _ s m [].
Qed.
Lemma prefix_of_observed {A} (a b past rest : list A) x future : a ++ b = past ++ x :: future ->
  (exists a2, a = past ++ x :: a2 /\ future = a2 ++ b) \/ (exists p2, past = a ++ p2 /\ b = p2 ++ x :: future).
Proof.
  intros E. apply app_eq_app in E as (l & [[E1 E2]|[E1 E2]]).
  - destruct l as [|y l]; cbn in E2.
    + right. exists []. rewrite E1. rewrite !app_nil_r. now split.
    + left. injection E2 as <- E2. exists l. now split.
  - right. exists l. now split.
Qed.
Lemma called_udp e ops : forall w h0 past s m future, wcok w -> w_handler w = hrun [] (handler_uses h0) -> keep_names e w ops ->
  whistory e w ops = past ++ WV (VSeen (Called s m)) :: future -> In s (subscribed_to (m_name m) (h0 ++ past)).
Proof.
  induction ops as [|o ops IH]; intros w h0 past s m future K H NN E; [destruct past; discriminate E|]. destruct NN as [N1 N2].
  cbn [whistory] in E. destruct (wstep_cok e w o K N1) as [K1 C1].
  destruct (prefix_of_observed _ _ _ future _ _ E) as [(a2 & E1 & _)|(p2 & E1 & E2)].
  - pose proof (observed_uses e w o) as U. assert (forall h, o <> WHandler h) as NH.
    { intros h ->. cbn in E1. destruct past as [|y past]; [discriminate E1|]. injection E1 as _ E1. destruct past; discriminate E1. }
    assert (handler_uses past = []) as U0.
    { rewrite E1, uses_app' in U. destruct o; try (now apply app_eq_nil in U). now destruct (NH h). }
    unfold subscribed_to. rewrite uses_app', U0, app_nil_r.
    assert (In (VSeen (Called s m)) (vhistory (we_env e) (wh_udp w) (udp_ops w o))) as I0.
    { rewrite <- observed_udp, E1, udp_part_app. apply in_app_iff. right. now left. }
    destruct (C1 NH s m I0) as (l & G & I1). rewrite H in G. apply sget_known in G. now subst l.
  - rewrite E1, app_assoc. apply (IH (wstep e w o) (h0 ++ wobserved e w o) p2 s m future K1); [|exact N2|exact E2].
    rewrite uses_app', observed_uses, hrun_app, <- H, wstep_handler. destruct o; reflexivity.
Qed.
Lemma init_cok e : wcok (w_init e).
Proof.
  unfold wcok, w_init. cbn [wh_udp]. unfold v_init. cbn [lv_cf]. apply crun_well; [constructor|]. cbn. repeat split.
Qed.
Lemma wlife_called_udp e ops past s m future : keep_names e (w_init e) ops ->
  wlife e ops = past ++ WV (VSeen (Called s m)) :: future -> In s (subscribed_to (m_name m) past).
Proof. intros N E. exact (called_udp e ops (w_init e) [] past s m future (init_cok e) eq_refl N E). Qed.

(** ** The event queue's calls *)
Lemma raised_in e o x : In x (raised_part e o) -> exists y, x = WRaised y /\ o = WStop.
Proof.
  unfold raised_part. destruct o; intros H; try destruct H. destruct (stop_raises e) as [y|]; [|destruct H]. destruct H as [<-|[]]. now exists y.
Qed.
Lemma nobserved_uses q l o : (forall h, o <> NUser h) -> uses (nhistory q l [o]) = [].
Proof.
  intros N. cbn [nhistory]. rewrite app_nil_r. unfold uses. rewrite flat_map_app.
  replace (flat_map _ (map (fun '(i, ev) => NDid i ev) _)) with (@nil hop).
  2:{ induction (snd (nstep q l o)) as [|[i ev] t IH]; [reflexivity|exact IH]. }
  rewrite app_nil_r. destruct o; try reflexivity; [now destruct (N h)|]. cbn. destruct (nth_error (nq_pool l) i) as [[]|]; reflexivity.
Qed.
Lemma uses_queue_part h : (forall x, In x h -> forall u, x <> WN (NUsed u)) -> uses (queue_part h) = handler_uses h.
Proof.
  induction h as [|x h IH]; intros N; [reflexivity|]. unfold queue_part, handler_uses, uses in *. cbn [flat_map]. rewrite flat_map_app, IH by (intros y Y; apply N; now right).
  f_equal. destruct x as [y|y|u|y]; try reflexivity. destruct y; try reflexivity. destruct (N _ (or_introl eq_refl) _ eq_refl).
Qed.
Lemma in_uses u h : In (NUsed u) h -> In u (uses h).
Proof. intros I0. unfold uses. apply in_flat_map. exists (NUsed u). split; [exact I0|now left]. Qed.
Lemma observed_no_use e w o x : In x (wobserved e w o) -> forall u, x <> WN (NUsed u).
Proof.
  destruct (observed_cases e w o) as [(h & -> & ->)|[N ->]]; intros I0 u ->; [destruct I0 as [I0|[]]; discriminate I0|].
  apply in_app_iff in I0 as [I0|I0]; [apply in_map_iff in I0 as (y & Y & _); discriminate Y|].
  apply in_app_iff in I0 as [I0|I0].
  2:{ apply raised_in in I0 as (z & Z & _). discriminate Z. }
  unfold queue_obs in I0. destruct (we_queue e) as [q|]; [|destruct I0]. apply in_map_iff in I0 as (y & Y & I0). injection Y as ->.
  apply in_uses in I0. destruct o as [| | |h| | | |]; cbn [queue_ops] in I0; try (now destruct I0);
    try (rewrite nobserved_uses in I0 by (intros; discriminate); now destruct I0). now destruct (N h).
Qed.
Lemma history_no_use e ops : forall w x, In x (whistory e w ops) -> forall u, x <> WN (NUsed u).
Proof.
  induction ops as [|o ops IH]; intros w x I0; [destruct I0|]. cbn [whistory] in I0. apply in_app_iff in I0 as [I0|I0]; [exact (observed_no_use e w o x I0)|exact (IH _ x I0)].
Qed.
Lemma history_no_queue e ops : we_queue e = None -> forall w x, In x (whistory e w ops) -> forall y, x <> WN y.
Proof.
  intros Q. induction ops as [|o ops IH]; intros w x I0; [destruct I0|]. cbn [whistory] in I0. apply in_app_iff in I0 as [I0|I0]; [|exact (IH _ x I0)].
  intros y ->. destruct (observed_cases e w o) as [(h & -> & E)|[N E]]; rewrite E in I0; [destruct I0 as [I0|[]]; discriminate I0|].
  apply in_app_iff in I0 as [I0|I0]; [apply in_map_iff in I0 as (z & Z & _); discriminate Z|].
  apply in_app_iff in I0 as [I0|I0]; [unfold queue_obs in I0; rewrite Q in I0; destruct I0|].
  apply raised_in in I0 as (z & Z & _). discriminate Z.
Qed.
Lemma wlife_called_queue e ops past i n k s m future : wlife e ops = past ++ WN (NDid i (NCalled n k s m)) :: future ->
  exists name, q_name m = LStr name /\ nth_error (subscribed_to name past) k = Some s.
Proof.
  intros E. destruct (we_queue e) as [q|] eqn:Q.
  2:{ exfalso. eapply (history_no_queue e ops Q (w_init e) (WN (NDid i (NCalled n k s m)))); [|reflexivity].
      unfold wlife in E. rewrite E. apply in_app_iff. right. now left. }
  destruct (wlife_queue e q ops Q) as [_ L].
  assert (uses (queue_part past) = handler_uses past) as U.
  { apply uses_queue_part. intros x X. apply (history_no_use e ops (w_init e)). unfold wlife in E. rewrite E. apply in_app_iff. now left. }
  rewrite E, queue_part_app in L. symmetry in L. cbn in L. destruct (live_called q _ (queue_part past) i n k s m _ L) as [H _].
  unfold subscribed in H. destruct (q_name m) eqn:N; try (destruct k; discriminate H). exists s0. split; [reflexivity|].
  unfold subscribed_to. now rewrite <- U.
Qed.

(** ** Neither side notices the other *)
Lemma udp_ops_same w w' o : wh_udp w = wh_udp w' -> udp_ops w o = udp_ops w' o.
Proof. intros E. destruct o; try reflexivity. cbn. unfold w_handler. now rewrite E. Qed.
Lemma udp_ops_of_queue w o : of_queue o = true -> udp_ops w o = [].
Proof. destruct o; try discriminate; reflexivity. Qed.
Lemma w_udp_ops_filter e ops : forall w w', wh_udp w = wh_udp w' ->
  w_udp_ops e w (filter (fun o => negb (of_queue o)) ops) = w_udp_ops e w' ops.
Proof.
  induction ops as [|o ops IH]; intros w w' E; [reflexivity|]. cbn [filter]. destruct (of_queue o) eqn:Q; cbn [negb].
  - cbn [w_udp_ops]. rewrite (udp_ops_of_queue w' o Q). cbn [app]. apply IH. rewrite wstep_udp, (udp_ops_of_queue w' o Q). exact E.
  - cbn [w_udp_ops]. rewrite (udp_ops_same w w' o E). f_equal. apply IH. now rewrite !wstep_udp, E, (udp_ops_same w w' o E).
Qed.
Lemma udp_unaffected e ops : let ops' := filter (fun o => negb (of_queue o)) ops in
  wh_udp (wafter e ops') = wh_udp (wafter e ops) /\ udp_part (wlife e ops') = udp_part (wlife e ops).
Proof.
  intros ops'. destruct (wlife_udp e ops) as [A B]. destruct (wlife_udp e ops') as [A' B'].
  rewrite A, A', B, B'. unfold ops'. rewrite (w_udp_ops_filter e ops (w_init e) (w_init e) eq_refl). now split.
Qed.
Lemma queue_ops_filter ops : flat_map queue_ops (filter (fun o => negb (of_udp o)) ops) = flat_map queue_ops ops.
Proof. induction ops as [|o ops IH]; [reflexivity|]. destruct o; cbn; rewrite IH; reflexivity. Qed.
Lemma queue_unaffected e q ops : we_queue e = Some q -> let ops' := filter (fun o => negb (of_udp o)) ops in
  w_queue (wafter e ops') = w_queue (wafter e ops) /\ queue_part (wlife e ops') = queue_part (wlife e ops).
Proof.
  intros Q ops'. destruct (wlife_queue e q ops Q) as [A B]. destruct (wlife_queue e q ops' Q) as [A' B'].
  rewrite A, A', B, B'. unfold ops'. rewrite queue_ops_filter. now split.
Qed.

(** ** Stopping *)
Lemma w_udp_ops_app e a : forall b w, w_udp_ops e w (a ++ b) = w_udp_ops e w a ++ w_udp_ops e (wrun e w a) b.
Proof. induction a as [|o a IH]; intros b w; [reflexivity|]. cbn [app w_udp_ops wrun]. now rewrite IH, app_assoc. Qed.
Lemma wrun_app e a : forall b w, wrun e w (a ++ b) = wrun e (wrun e w a) b.
Proof. induction a as [|o a IH]; intros b w; [reflexivity|]. cbn [app wrun]. apply IH. Qed.
Lemma vhistory_app' env a : forall b v, vhistory env v (a ++ b) = vhistory env v a ++ vhistory env (vrun env v a) b.
Proof. induction a as [|o a IH]; intros b v; [reflexivity|]. cbn [app vhistory vrun]. now rewrite IH, app_assoc. Qed.
Lemma w_no_start e ops : forall w, Forall (fun o => o <> WStart) ops -> Forall v_no_start (w_udp_ops e w ops).
Proof.
  induction ops as [|o ops IH]; intros w F; [constructor|]. inversion F; subst. cbn [w_udp_ops]. apply Forall_app. split; [|now apply IH].
  destruct o; try congruence; cbn; try (repeat constructor; discriminate).
  destruct x as [o|]; [destruct o|]; repeat constructor; discriminate.
Qed.
Lemma stopped_last env host ops : v_started_last (vlife env host (ops ++ [VStopMonitors])) = false.
Proof.
  unfold vlife. rewrite vhistory_app'. unfold v_started_last. rewrite !fold_left_app. reflexivity.
Qed.
Lemma stop_udp e ops1 ops2 i : Forall (fun o => o <> WStart) ops2 ->
  (List.length (receptions (calls_of i (udp_part (whistory e (wafter e (ops1 ++ [WStop])) ops2)))) <= 1)%nat.
Proof.
  intros F. rewrite whistory_udp. destruct (wlife_udp e (ops1 ++ [WStop])) as [A _]. rewrite A, w_udp_ops_app. cbn [w_udp_ops udp_ops app].
  apply live_stop; [apply stopped_last|now apply w_no_start].
Qed.
Lemma stop_queue e q ops1 : we_queue e = Some q -> eq_running (wh_eq (wafter e ops1)) = true ->
  n_stopped (w_queue (wafter e (ops1 ++ [WStop]))).
Proof.
  intros Q R. unfold wafter in *. rewrite wrun_app. cbn [wrun]. rewrite (wstep_queue e q _ _ Q). cbn [queue_ops nrun nstep fst].
  unfold n_stopped, set_q. cbn [nq_q w_queue]. rewrite R. reflexivity.
Qed.
Lemma stop_raise e w x : In (WRaised x) (wobserved e w WStop) <-> we_queue e = None /\ x = AttributeErr.
Proof.
  cbn [wobserved]. rewrite !in_app_iff. unfold stop_raises. split.
  - intros [H|[H|H]].
    + apply in_map_iff in H as (y & Y & _). discriminate Y.
    + destruct (we_queue e); [|destruct H]. apply in_map_iff in H as (y & Y & _). discriminate Y.
    + destruct (we_queue e); [destruct H|]. destruct H as [[= <-]|[]]. now split.
  - intros [-> ->]. right. right. now left.
Qed.
Lemma other_raise e w o x : o <> WStop -> ~ In (WRaised x) (wobserved e w o).
Proof.
  intros N H. destruct (observed_cases e w o) as [(h & -> & E)|[_ E]]; rewrite E in H; [destruct H as [H|[]]; discriminate H|].
  apply in_app_iff in H as [H|H]; [apply in_map_iff in H as (y & Y & _); discriminate Y|].
  apply in_app_iff in H as [H|H].
  - unfold queue_obs in H. destruct (we_queue e); [|destruct H]. apply in_map_iff in H as (y & Y & _). discriminate Y.
  - apply raised_in in H as (z & _ & Z). exact (N Z).
Qed.

(** ** Acknowledgements *)
Lemma w_leaves e ops : forall w, Forall leaves_to_manager ops -> Forall leaves_it (w_udp_ops e w ops).
Proof.
  induction ops as [|o ops IH]; intros w F; [constructor|]. inversion F as [|? ? L F']; subst. cbn [w_udp_ops]. apply Forall_app. split; [|now apply IH].
  destruct o; cbn; try (repeat constructor).
  destruct x as [o|]; [destruct o|]; try (destruct L); repeat constructor.
Qed.
Lemma started_app env a : forall b v, started_in_turn env v a -> started_in_turn env (vrun env v a) b -> started_in_turn env v (a ++ b).
Proof. induction a as [|o a IH]; intros b v A B; [exact B|]. destruct A as [A1 A2]. split; [exact A1|]. now apply IH. Qed.
Lemma w_in_turn e ops : forall w, w_started_in_turn e w ops -> started_in_turn (we_env e) (wh_udp w) (w_udp_ops e w ops).
Proof.
  induction ops as [|o ops IH]; intros w T; [exact I|]. destruct T as [T1 T2]. cbn [w_udp_ops]. apply started_app.
  - destruct o; cbn; try exact I; try (split; [discriminate|exact I]).
    + split; [|exact I]. intros _. now apply T1.
    + destruct x as [o|]; [destruct o|]; cbn; try exact I; (split; [discriminate|exact I]).
  - rewrite <- wstep_udp. now apply IH.
Qed.
Lemma w_nothing_lost e ops a : Forall leaves_to_manager ops -> w_started_in_turn e (w_init e) ops -> undisturbed (wh_udp (wafter e ops)) ->
  let h := v_seen (udp_part (wlife e ops)) in
  all_queued a h = all_packed a h ++ pending_acks (cf_st (lv_cf (wh_udp (wafter e ops)))) a.
Proof.
  intros F T D. destruct (wlife_udp e ops) as [A B]. rewrite A, B in *. apply live_nothing_lost; [now apply w_leaves| |exact D].
  exact (w_in_turn e ops (w_init e) T).
Qed.
