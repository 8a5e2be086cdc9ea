(** Proofs for C82: the event queue coroutines of a manager. *)
From Verif Require HeaderProofs.
From Verif Require Import Lib SpecMonitors DispatchProofs ManagerProofs MonitorProofs.

Lemma posts_app i a b : posts_by i (a ++ b) = posts_by i a ++ posts_by i b.
Proof. apply flat_map_app. Qed.
Lemma delivered_app i a b : delivered_by i (a ++ b) = delivered_by i a ++ delivered_by i b.
Proof. apply flat_map_app. Qed.
Definition qposts (ev : list qevent) : list llsd := flat_map (fun x => match x with QPosted d => [d] | _ => [] end) ev.
Definition qdelivered (ev : list qevent) : list eqmessage := flat_map (fun x => match x with QDelivered m => [m] | _ => [] end) ev.
Lemma posts_own i ev : posts_by i (map (QueueDid i) ev) = qposts ev.
Proof. induction ev as [|[d|m] ev IH]; cbn; rewrite ?Nat.eqb_refl; [reflexivity|unfold posts_by in IH; now rewrite IH|exact IH]. Qed.
Lemma delivered_own i ev : delivered_by i (map (QueueDid i) ev) = qdelivered ev.
Proof. induction ev as [|[d|m] ev IH]; cbn; rewrite ?Nat.eqb_refl; [reflexivity|exact IH|unfold delivered_by in IH; now rewrite IH]. Qed.
Lemma posts_other i j ev : i <> j -> posts_by i (map (QueueDid j) ev) = [].
Proof. intros D. apply Nat.eqb_neq in D. induction ev as [|[d|m] ev IH]; cbn; rewrite ?D; auto. Qed.
Lemma delivered_other i j ev : i <> j -> delivered_by i (map (QueueDid j) ev) = [].
Proof. intros D. apply Nat.eqb_neq in D. induction ev as [|[d|m] ev IH]; cbn; rewrite ?D; auto. Qed.
Lemma posts_udp i j es : posts_by i (map (UdpDid j) es) = [].
Proof. induction es as [|x es IH]; auto. Qed.
Lemma delivered_udp i j es : delivered_by i (map (UdpDid j) es) = [].
Proof. induction es as [|x es IH]; auto. Qed.
Lemma loop_eq env m r order sock : mm_eq (fst (loop_step env m r order sock)) = mm_eq m.
Proof.
  unfold loop_step. destruct (mm_pc m); try reflexivity.
  - destruct (loop_receive env m r order sock) as [m' es] eqn:L. now destruct (loop_receive_spec _ _ _ _ _ _ _ L) as (_ & _ & E & _).
  - destruct (mm_queue m) as [|[msg rel] x]; try reflexivity. now destruct (send_udp_message _ _ _ _ _).
Qed.

(** ** What a step does to the queue and its coroutines *)
Inductive qchange (e : qenv) (mo mo' : monitors) (es : list levent) (q : eqstate) (o : lop) : Prop :=
| qc_none : (forall i, posts_by i es = []) -> (forall i, delivered_by i es = []) -> mo_queue mo' = mo_queue mo ->
    mm_eq (mo_manager mo') = Some q -> (forall i x p, o = LQueue i x -> nth_error (mo_queue mo) i = Some p -> False) -> qchange e mo mo' es q o
| qc_stop : es = [] -> mo_queue mo' = mo_queue mo -> (o = LQueueStop \/ o = LStop /\ eq_running q = true) ->
    mm_eq (mo_manager mo') = Some (eq_stop q) -> qchange e mo mo' es q o
| qc_spawn : es = [] -> o = LStart -> mo_queue mo' = mo_queue mo ++ [QStart] -> mm_eq (mo_manager mo') = Some q -> qchange e mo mo' es q o
| qc_step i p x q' ev p' : o = LQueue i x -> nth_error (mo_queue mo) i = Some p -> queue_step e q p x = (q', ev, p') ->
    es = map (QueueDid i) ev -> mo_queue mo' = update_nth i p' (mo_queue mo) -> mm_eq (mo_manager mo') = Some q' -> qchange e mo mo' es q o.
Lemma lstep_qchange env e mo o q : mm_eq (mo_manager mo) = Some q ->
  qchange e mo (fst (lstep env e mo o)) (snd (lstep env e mo o)) q o.
Proof.
  intros Q. destruct o as [| | |msg rel now|o|j r order sock|j o]; cbn [lstep].
  - cbn. destruct (qe_enabled e) eqn:EN.
    + apply qc_spawn; auto. cbn. rewrite Q, EN. reflexivity.
    + apply qc_none; auto; try discriminate. cbn. rewrite Q, EN. reflexivity.
  - cbn. unfold stop_monitors. rewrite Q. destruct (eq_running q) eqn:RU.
    + apply qc_stop; auto.
    + apply qc_none; auto; discriminate.
  - cbn. rewrite Q. apply qc_stop; auto.
  - cbn. apply qc_none; auto; discriminate.
  - cbn. apply qc_none; auto; discriminate.
  - destruct (nth_error (mo_udp mo) j) as [p|] eqn:N; [|apply qc_none; auto; discriminate].
    pose proof (loop_eq env (with_pc (mo_manager mo) p) r order sock) as E.
    destruct (loop_step env (with_pc (mo_manager mo) p) r order sock) as [m' es]. cbn [fst snd] in *.
    apply qc_none; try discriminate; auto; intros; [apply posts_udp|apply delivered_udp|cbn in E |- *; congruence].
  - rewrite Q. destruct (nth_error (mo_queue mo) j) as [p|] eqn:N.
    + destruct (queue_step e q p o) as [[q' ev] p'] eqn:S. cbn [fst snd]. eapply qc_step; eauto.
    + apply qc_none; auto. intros i x p [= <- <-]. congruence.
Qed.

(** ** Stopped for good *)
Lemma after_flags known raises q o : eq_stopped (fst (eq_after known raises q o)) = eq_stopped q /\
  eq_running (fst (eq_after known raises q o)) = eq_running q.
Proof.
  unfold eq_after. destruct (is_none _); [auto|]. destruct (getitem _ _); auto.
Qed.
Lemma queue_stopped e q p x q' ev p' : queue_step e q p x = (q', ev, p') -> eq_stopped q' = eq_stopped q.
Proof.
  unfold queue_step, queue_top. destruct p; cbn.
  - destruct (String.eqb (qe_cap e) "event_queue").
    { destruct (eq_stopped q) eqn:S; intros [= <- <- <-]; cbn; auto. }
    destruct (String.eqb (qe_cap e) "EventQueueGet").
    { destruct (eq_stopped q) eqn:S; [destruct (equals_minus1 _)|]; intros [= <- <- <-]; cbn; auto. }
    now intros [= <- <- <-].
  - now intros [= <- <- <-].
  - destruct (after_flags (qe_known e) (qe_raises e) q x) as [S _]. destruct (eq_after _ _ _ _) as [q1 del]. cbn in S.
    destruct (eq_stopped q1) eqn:S1; [destruct (equals_minus1 _)|]; intros [= <- <- <-]; cbn; congruence.
  - destruct x; intros [= <- <- <-]; reflexivity.
  - now intros [= <- <- <-].
Qed.
Lemma stopped_step env e mo o : stopped_queue mo -> stopped_queue (fst (lstep env e mo o)).
Proof.
  unfold stopped_queue. destruct (mm_eq (mo_manager mo)) as [q|] eqn:Q; [|contradiction]. intros S.
  destruct (lstep_qchange env e mo o q Q) as [? ? ? -> ?|? ? ? ->|? ? ? ->|? ? ? ? ? ? ? ? QS ? ? ->]; auto.
  now rewrite (queue_stopped _ _ _ _ _ _ _ QS).
Qed.
Lemma stopped_run env e ops : forall mo, stopped_queue mo -> stopped_queue (fst (lrun env e mo ops)).
Proof. induction ops as [|o ops IH]; intros mo S; [exact S|]. rewrite lrun_cons. apply IH, stopped_step, S. Qed.

Lemma payload_polls l : polls (eq_payload l).
Proof. unfold eq_payload, polls. destruct (equals_minus1 l); eauto. Qed.
Lemma closing_closes l : closes (eq_closing l).
Proof. unfold eq_closing, closes. eauto. Qed.
Lemma qposts_deliver del ev : qposts (map QDelivered del ++ ev) = qposts ev.
Proof. induction del as [|m del IH]; auto. Qed.
Lemma qdelivered_deliver del ev : qdelivered (map QDelivered del ++ ev) = del ++ qdelivered ev.
Proof. induction del as [|m del IH]; [reflexivity|]. cbn. now rewrite <- IH. Qed.

(** What one step of a coroutine posts once the queue is stopped. *)
Lemma queue_stop_step e q p x q' ev p' : eq_stopped q = true -> queue_step e q p x = (q', ev, p') ->
  exists a b, qposts ev = a ++ b /\ Forall polls a /\ Forall closes b /\
    (List.length a + polls_left (Some p') <= polls_left (Some p))%nat /\
    (List.length b + closes_left (Some p') <= closes_left (Some p))%nat /\
    (b <> [] -> polls_left (Some p') = 0%nat) /\
    ((p <> QSleep /\ p <> QPost -> qdelivered ev = [] /\ p' <> QSleep /\ p' <> QPost)).
Proof.
  intros S. unfold queue_step, queue_top. destruct p; cbn.
  - destruct (String.eqb (qe_cap e) "event_queue").
    { rewrite S. intros [= <- <- <-]. exists [], []. cbn. repeat split; auto; try discriminate; lia. }
    destruct (String.eqb (qe_cap e) "EventQueueGet").
    { rewrite S. destruct (equals_minus1 _); intros [= <- <- <-].
      - exists [], []. cbn. repeat split; auto; try discriminate; lia.
      - exists [], [eq_closing (eq_last q)]. cbn. repeat split; auto using closing_closes; try discriminate; lia. }
    intros [= <- <- <-]. exists [], []. cbn. repeat split; auto; try discriminate; lia.
  - intros [= <- <- <-]. exists [eq_payload (eq_last q)], []. cbn. repeat split; auto using payload_polls; tauto.
  - destruct (after_flags (qe_known e) (qe_raises e) q x) as [S1 _]. destruct (eq_after _ _ _ _) as [q1 del]. cbn in S1.
    rewrite S1, S. destruct (equals_minus1 _); intros [= <- <- <-].
    + exists [], []. rewrite qposts_deliver. cbn. repeat split; auto; try discriminate; try tauto; lia.
    + exists [], [eq_closing (eq_last q1)]. rewrite qposts_deliver. cbn. repeat split; auto using closing_closes; try discriminate; try tauto; lia.
  - destruct x; intros [= <- <- <-]; exists [], []; cbn; repeat split; auto; try discriminate; lia.
  - intros [= <- <- <-]. exists [], []. cbn. repeat split; auto; try discriminate; lia.
Qed.
Definition no_poller (p : option qpc) : Prop := p <> Some QSleep /\ p <> Some QPost.
Lemma l_after_stop env e ops : forall mo i, stopped_queue mo ->
  let p := nth_error (mo_queue mo) i in let r := lrun env e mo ops in
  exists a b, posts_by i (snd r) = a ++ b /\ Forall polls a /\ Forall closes b /\
    (List.length a <= polls_left p)%nat /\ (List.length b <= closes_left p)%nat /\
    (no_poller p -> delivered_by i (snd r) = []).
Proof.
  cbv zeta. induction ops as [|o ops IH]; intros mo i S.
  - exists [], []. cbn. repeat split; auto; lia.
  - rewrite lrun_cons. cbn [snd]. rewrite posts_app, delivered_app. pose proof (stopped_step env e mo o S) as S'. specialize (IH _ i S').
    unfold stopped_queue in S. destruct (mm_eq (mo_manager mo)) as [q|] eqn:Q; [|contradiction].
    destruct (lstep_qchange env e mo o q Q) as [P D E1 E2 _|E1 E2 _ _|E1 E2 E3 _|j p x q' ev p' EO N QS E1 E2 E3].
    + rewrite P, D. rewrite E1 in IH. exact IH.
    + rewrite E1 in *. rewrite E2 in IH. exact IH.
    + rewrite E1 in *. destruct IH as (a & b & A1 & A2 & A3 & A4 & A5 & A6). exists a, b. rewrite E3 in *.
      destruct (Nat.lt_ge_cases i (List.length (mo_queue mo))) as [L|L].
      * rewrite nth_error_app1 in * by exact L. cbn [posts_by delivered_by flat_map app]. auto 8.
      * assert (nth_error (mo_queue mo) i = None) as -> by (now apply nth_error_None).
        rewrite nth_error_app2 in * by exact L. cbn [posts_by delivered_by flat_map app].
        destruct (i - List.length (mo_queue mo))%nat as [|k]; cbn [nth_error] in *; [cbn in A4, A5|destruct k; cbn in A4, A5].
        -- repeat split; auto. intros _. apply A6. split; discriminate.
        -- repeat split; auto.
        -- repeat split; auto.
    + rewrite E1. rewrite E2 in IH. destruct IH as (a & b & A1 & A2 & A3 & A4 & A5 & A6).
      destruct (Nat.eq_dec i j) as [<-|NE].
      * rewrite N. rewrite (HeaderProofs.nth_update_eq i) in * by (apply nth_error_Some; congruence).
        destruct (queue_stop_step _ _ _ _ _ _ _ S QS) as (a1 & b1 & B1 & B2 & B3 & B4 & B5 & B6 & B7).
        rewrite posts_own, delivered_own, B1, A1. 
        assert (a1 ++ b1 ++ a ++ b = (a1 ++ a) ++ (b1 ++ b)) as EQ.
        { destruct b1 as [|y b1]; [cbn; now rewrite app_assoc|]. rewrite B6 in A4 by discriminate.
          destruct a; [|cbn in A4; lia]. now rewrite app_nil_r. }
        exists (a1 ++ a), (b1 ++ b). rewrite !app_length.
        split; [now rewrite <- app_assoc|]. split; [apply Forall_app; auto|]. split; [apply Forall_app; auto|].
        split; [lia|]. split; [lia|]. intros [N1 N2].
        assert (p <> QSleep /\ p <> QPost) as NP by (split; congruence). destruct (B7 NP) as (-> & N3 & N4).
        cbn [app]. apply A6. split; congruence.
      * rewrite posts_other, delivered_other by exact NE. rewrite HeaderProofs.nth_update_neq in * by congruence. exists a, b. auto 8.
Qed.

(** and a coroutine comes to its end *)
Definition qdist (p : qpc) : nat := match p with QEnd _ => 0 | QClosing => 1 | QStart | QPost => 2 | QSleep => 3 end.
Lemma queue_dist e q p x q' ev p' : eq_stopped q = true -> queue_step e q p x = (q', ev, p') -> (qdist p' <= qdist p - 1)%nat.
Proof.
  intros S. unfold queue_step, queue_top. destruct p; cbn.
  - destruct (String.eqb (qe_cap e) "event_queue"); [rewrite S; intros [= <- <- <-]; cbn; lia|].
    destruct (String.eqb (qe_cap e) "EventQueueGet"); [rewrite S; destruct (equals_minus1 _); intros [= <- <- <-]; cbn; lia|].
    intros [= <- <- <-]; cbn; lia.
  - intros [= <- <- <-]; cbn; lia.
  - destruct (after_flags (qe_known e) (qe_raises e) q x) as [S1 _]. destruct (eq_after _ _ _ _) as [q1 del]. cbn in S1.
    rewrite S1, S. destruct (equals_minus1 _); intros [= <- <- <-]; cbn; lia.
  - destruct x; intros [= <- <- <-]; cbn; lia.
  - intros [= <- <- <-]. cbn. lia.
Qed.
Lemma l_stop_ends_queue env e ops : forall mo i p, stopped_queue mo -> nth_error (mo_queue mo) i = Some p ->
  exists p', nth_error (mo_queue (fst (lrun env e mo ops))) i = Some p' /\ (qdist p' <= qdist p - queue_steps_of i ops)%nat.
Proof.
  induction ops as [|o ops IH]; intros mo i p S N.
  - exists p. cbn. split; [exact N|lia].
  - rewrite lrun_cons. cbn [fst]. pose proof (stopped_step env e mo o S) as S'.
    unfold stopped_queue in S. destruct (mm_eq (mo_manager mo)) as [q|] eqn:Q; [|contradiction].
    assert (exists p1, nth_error (mo_queue (fst (lstep env e mo o))) i = Some p1 /\
              (qdist p1 <= qdist p - match o with LQueue j _ => if Nat.eqb i j then 1 else 0 | _ => 0 end)%nat) as (p1 & N1 & D1).
    { destruct (lstep_qchange env e mo o q Q) as [P D E1 E2 E3|E1 E2 EO _|E1 E2 E3 _|j p0 x q' ev p' EO N0 QS E1 E2 E3].
      - exists p. rewrite E1. split; [exact N|]. destruct o as [| | | | | |j x]; try lia. destruct (Nat.eqb_spec i j) as [<-|]; [|lia].
        destruct (E3 i x p eq_refl N).
      - exists p. rewrite E2. split; [exact N|]. destruct EO as [->|[-> _]]; lia.
      - exists p. rewrite E3, E2, nth_error_app1; [split; [exact N|lia]|]. apply nth_error_Some. congruence.
      - rewrite E2, EO. destruct (Nat.eqb_spec i j) as [<-|NE].
        + exists p'. rewrite HeaderProofs.nth_update_eq by (apply nth_error_Some; congruence). split; [reflexivity|].
          rewrite N in N0. injection N0 as <-. exact (queue_dist _ _ _ _ _ _ _ S QS).
        + exists p. rewrite HeaderProofs.nth_update_neq by congruence. split; [exact N|lia]. }
    destruct (IH _ i p1 S' N1) as (p' & N' & D'). exists p'. split; [exact N'|].
    assert (queue_steps_of i (o :: ops) = ((match o with LQueue j _ => if Nat.eqb i j then 1 else 0 | _ => 0 end) + queue_steps_of i ops)%nat) as ->.
    { unfold queue_steps_of. cbn. destruct o; auto. destruct (Nat.eqb i i0); auto. }
    lia.
Qed.

(** ** While the queue is not stopped *)
Definition polling (p : qpc) : Prop := p = QStart \/ p = QSleep \/ p = QPost.
Lemma queue_go e q p x q' ev p' : qe_cap e = "EventQueueGet"%string -> eq_stopped q = false -> polling p ->
  queue_step e q p x = (q', ev, p') ->
  (p' = QSleep \/ p' = QPost) /\ (eq_running q' = match p with QStart => true | _ => eq_running q end) /\
  Forall polls (qposts ev) /\ (p = QSleep -> exists d, qposts ev = [d] /\ p' = QPost) /\ (p <> QSleep -> qposts ev = [] /\ p' = QSleep).
Proof.
  intros C S P. unfold queue_step, queue_top. rewrite C. destruct P as [->|[->| ->]]; cbn.
  - rewrite S. intros [= <- <- <-]. cbn. repeat split; auto; discriminate.
  - intros [= <- <- <-]. cbn. repeat split; auto using payload_polls; [eauto|congruence|congruence].
  - destruct (after_flags (qe_known e) (qe_raises e) q x) as [S1 R1]. destruct (eq_after _ _ _ _) as [q1 del]. cbn in S1, R1.
    rewrite S1, S. intros [= <- <- <-]. rewrite qposts_deliver. cbn. repeat split; auto; discriminate.
Qed.
Definition qinv (mo : monitors) : Prop :=
  forall q, mm_eq (mo_manager mo) = Some q -> eq_stopped q = false ->
  (forall i p, nth_error (mo_queue mo) i = Some p -> polling p) /\
  (eq_running q = true <-> exists i p, nth_error (mo_queue mo) i = Some p /\ p <> QStart).
Lemma eq_kept env e mo o : mm_eq (mo_manager mo) = None -> mm_eq (mo_manager (fst (lstep env e mo o))) = None.
Proof.
  intros Q. pose proof (lstep_eq env e mo o) as H. destruct (mm_eq (mo_manager (fst (lstep env e mo o)))) as [q|]; auto.
  destruct (proj1 H (ex_intro _ q eq_refl)). congruence.
Qed.
Lemma qinv_step env e mo o : qe_cap e = "EventQueueGet"%string -> qinv mo -> qinv (fst (lstep env e mo o)).
Proof.
  intros C I q1 Q1 S1. destruct (mm_eq (mo_manager mo)) as [q|] eqn:Q.
  2:{ rewrite eq_kept in Q1 by exact Q. discriminate. }
  destruct (lstep_qchange env e mo o q Q) as [P D E1 E2 E3|E1 E2 EO E3|E1 E2 E3 E4|j p0 x q' ev p' EO N0 QS E1 E2 E3].
  - rewrite E1. rewrite E2 in Q1. injection Q1 as <-. exact (I q Q S1).
  - rewrite E3 in Q1. injection Q1 as <-. discriminate.
  - rewrite E3. rewrite E4 in Q1. injection Q1 as <-. destruct (I q Q S1) as [A B]. split.
    + intros i p N. destruct (Nat.lt_ge_cases i (List.length (mo_queue mo))) as [L|L].
      * rewrite nth_error_app1 in N by exact L. exact (A _ _ N).
      * rewrite nth_error_app2 in N by exact L. destruct (i - _)%nat as [|k]; cbn in N; [injection N as <-; left; reflexivity|destruct k; discriminate].
    + rewrite B. split; intros (i & p & N & NE).
      * exists i, p. rewrite nth_error_app1; [auto|]. apply nth_error_Some. congruence.
      * exists i, p. destruct (Nat.lt_ge_cases i (List.length (mo_queue mo))) as [L|L].
        -- rewrite nth_error_app1 in N by exact L. auto.
        -- rewrite nth_error_app2 in N by exact L. destruct (i - _)%nat as [|k]; cbn in N; [congruence|destruct k; discriminate].
  - rewrite E3 in Q1. injection Q1 as <-. pose proof (queue_stopped _ _ _ _ _ _ _ QS) as ST. rewrite S1 in ST.
    destruct (I q Q (eq_sym ST)) as [A B]. destruct (queue_go e q p0 x q' ev p' C (eq_sym ST) (A _ _ N0) QS) as (P' & RU & _ & _ & _).
    assert (j < List.length (mo_queue mo))%nat as L by (apply nth_error_Some; congruence).
    rewrite E2. split.
    + intros i p N. destruct (Nat.eq_dec j i) as [<-|NE].
      * rewrite HeaderProofs.nth_update_eq in N by exact L. injection N as <-. unfold polling. tauto.
      * rewrite HeaderProofs.nth_update_neq in N by exact NE. exact (A _ _ N).
    + split; [intros _|intros _].
      * exists j, p'. rewrite HeaderProofs.nth_update_eq by exact L. split; [reflexivity|]. destruct P' as [->| ->]; discriminate.
      * rewrite RU. destruct p0; try reflexivity; apply B; eexists j, _; (split; [exact N0|discriminate]).
Qed.
Lemma qinv_run env e ops : qe_cap e = "EventQueueGet"%string -> forall mo, qinv mo -> qinv (fst (lrun env e mo ops)).
Proof. intros C. induction ops as [|o ops IH]; intros mo I; [exact I|]. rewrite lrun_cons. apply IH, qinv_step; auto. Qed.
Lemma qinv_reach env e mo : qe_cap e = "EventQueueGet"%string -> l_reachable env e mo -> qinv mo.
Proof.
  intros C (host & eq & ops & H & ->). apply qinv_run; [exact C|]. intros q Q S. cbn in Q. split.
  - intros i p N. cbn in N. destruct i; discriminate.
  - destruct H as [->| ->]; [discriminate|]. injection Q as <-. cbn. split; [discriminate|]. intros (i & p & N & _). destruct i; discriminate.
Qed.

(** The flag the manager looks at when it stops. *)
Lemma l_stop_effect env e mo : qe_cap e = "EventQueueGet"%string -> l_reachable env e mo -> mm_eq (mo_manager mo) <> None -> ~ stopped_queue mo ->
  stopped_queue (fst (lstep env e mo LStop)) <-> exists i p, nth_error (mo_queue mo) i = Some p /\ p <> QStart.
Proof.
  intros C R NN NS. pose proof (qinv_reach env e mo C R) as I. unfold stopped_queue in *. cbn [lstep fst set_manager mo_manager].
  unfold stop_monitors. destruct (mm_eq (mo_manager mo)) as [q|] eqn:Q; [|congruence].
  destruct (eq_stopped q) eqn:S; [now destruct NS|]. destruct (I q Q S) as [_ B]. rewrite <- B. cbn.
  destruct (eq_running q); cbn; [|rewrite S]; split; congruence.
Qed.
(** No coroutine ends, and each goes on polling. *)
Lemma l_alive env e mo i p : qe_cap e = "EventQueueGet"%string -> l_reachable env e mo -> mm_eq (mo_manager mo) <> None -> ~ stopped_queue mo ->
  nth_error (mo_queue mo) i = Some p -> polling p.
Proof.
  intros C R NN NS N. pose proof (qinv_reach env e mo C R) as I. unfold stopped_queue in NS.
  destruct (mm_eq (mo_manager mo)) as [q|] eqn:Q; [|congruence]. destruct (eq_stopped q) eqn:S; [now destruct NS|].
  exact (proj1 (I q Q S) i p N).
Qed.
Lemma not_stopped_before env e mo ops : ~ stopped_queue (fst (lrun env e mo ops)) -> ~ stopped_queue mo.
Proof. intros H S. apply H, stopped_run, S. Qed.
Lemma l_polls_on env e ops : qe_cap e = "EventQueueGet"%string -> forall mo i p, qinv mo -> mm_eq (mo_manager mo) <> None ->
  ~ stopped_queue (fst (lrun env e mo ops)) -> nth_error (mo_queue mo) i = Some p ->
  Forall polls (posts_by i (snd (lrun env e mo ops))) /\
  (queue_steps_of i ops <= 2 * List.length (posts_by i (snd (lrun env e mo ops))) + (match p with QSleep => 0 | _ => 1 end))%nat.
Proof.
  intros C. induction ops as [|o ops IH]; intros mo i p I NN NS N.
  - cbn. split; [constructor|lia].
  - rewrite lrun_cons in *. cbn [fst snd] in *. rewrite posts_app, app_length.
    pose proof (qinv_step env e mo o C I) as I'. destruct (mm_eq (mo_manager mo)) as [q|] eqn:Q; [|congruence].
    assert (mm_eq (mo_manager (fst (lstep env e mo o))) <> None) as NN'.
    { destruct (proj2 (lstep_eq env e mo o) (ex_intro _ q Q)) as (q' & ->). discriminate. }
    assert (eq_stopped q = false) as S.
    { destruct (eq_stopped q) eqn:S; [|reflexivity]. exfalso. apply NS, stopped_run, stopped_step. unfold stopped_queue. now rewrite Q. }
    destruct (I q Q S) as [A _].
    assert (queue_steps_of i (o :: ops) = ((match o with LQueue j _ => if Nat.eqb i j then 1 else 0 | _ => 0 end) + queue_steps_of i ops)%nat) as ->.
    { unfold queue_steps_of. cbn. destruct o; auto. destruct (Nat.eqb i i0); auto. }
    destruct (lstep_qchange env e mo o q Q) as [P D E1 E2 E3|E1 E2 EO E3|E1 E2 E3 E4|j p0 x q' ev p' EO N0 QS E1 E2 E3].
    + rewrite P. cbn [app List.length]. rewrite <- E1 in N. destruct (IH _ i p I' NN' NS N) as (B1 & B2). split; [exact B1|].
      destruct o as [| | | | | |j x]; try lia. destruct (Nat.eqb_spec i j) as [<-|]; [|lia]. rewrite E1 in N. destruct (E3 i x p eq_refl N).
    + rewrite E1. rewrite <- E2 in N. destruct (IH _ i p I' NN' NS N) as (B1 & B2). split; [exact B1|].
      destruct EO as [->|[-> _]]; cbn [posts_by flat_map List.length]; lia.
    + rewrite E1, E2 in *. assert (nth_error (mo_queue (fst (lstep env e mo LStart))) i = Some p) as N'.
      { rewrite E3, nth_error_app1; [exact N|]. apply nth_error_Some. congruence. }
      destruct (IH _ i p I' NN' NS N') as (B1 & B2). split; [exact B1|]. cbn [posts_by flat_map List.length]. lia.
    + rewrite E1, EO in *. destruct (Nat.eqb_spec i j) as [<-|NE].
      * rewrite N in N0. injection N0 as <-. destruct (queue_go e q p x q' ev p' C S (A _ _ N) QS) as (P' & RU & B1 & B2 & B3).
        assert (nth_error (mo_queue (fst (lstep env e mo (LQueue i x)))) i = Some p') as N'.
        { rewrite E2. apply HeaderProofs.nth_update_eq, nth_error_Some. congruence. }
        destruct (IH _ i p' I' NN' NS N') as (D1 & D2). rewrite posts_own. split; [apply Forall_app; auto|].
        destruct (A _ _ N) as [->|[->| ->]].
        -- destruct (B3 ltac:(discriminate)) as (-> & ->). cbn [List.length]. lia.
        -- destruct (B2 eq_refl) as (d & -> & ->). cbn [List.length]. lia.
        -- destruct (B3 ltac:(discriminate)) as (-> & ->). cbn [List.length]. lia.
      * assert (nth_error (mo_queue (fst (lstep env e mo (LQueue j x)))) i = Some p) as N'.
        { rewrite E2, HeaderProofs.nth_update_neq by congruence. exact N. }
        destruct (IH _ i p I' NN' NS N') as (D1 & D2). rewrite posts_other by exact NE. split; [exact D1|]. cbn [List.length]. lia.
Qed.

(** ** A coroutine on its own *)
Definition qrun_ok (mo : monitors) (q : eqstate) (p : qpc) : Prop := mm_eq (mo_manager mo) = Some q /\ mo_queue mo = [p].
Lemma lstep_alone env e mo q p x : qrun_ok mo q p ->
  let '(q', ev, p') := queue_step e q p x in
  qrun_ok (fst (lstep env e mo (LQueue 0 x))) q' p' /\ snd (lstep env e mo (LQueue 0 x)) = map (QueueDid 0) ev.
Proof.
  intros [Q P]. cbn [lstep]. rewrite P, Q. cbn [nth_error]. destruct (queue_step e q p x) as [[q' ev] p']. cbn.
  split; [split; [reflexivity|]|reflexivity]. cbn. reflexivity.
Qed.
Lemma lstep_stop env e mo q p : qrun_ok mo q p ->
  qrun_ok (fst (lstep env e mo LQueueStop)) (eq_stop q) p /\ snd (lstep env e mo LQueueStop) = [].
Proof. intros [Q P]. cbn. rewrite Q. split; [split; [reflexivity|exact P]|reflexivity]. Qed.
Lemma after_stop_swap known raises q o : eq_after known raises (eq_stop q) o = (eq_stop (fst (eq_after known raises q o)), snd (eq_after known raises q o)).
Proof. unfold eq_after. cbn. destruct (is_none _); [reflexivity|]. destruct (getitem _ _); reflexivity. Qed.
Lemma lrun_app env e a : forall b mo, lrun env e mo (a ++ b) =
  (fst (lrun env e (fst (lrun env e mo a)) b), snd (lrun env e mo a) ++ snd (lrun env e (fst (lrun env e mo a)) b)).
Proof.
  induction a as [|o a IH]; intros b mo.
  - cbn. now destruct (lrun env e mo b).
  - cbn [app]. rewrite !lrun_cons, IH. cbn [fst snd]. now rewrite app_assoc.
Qed.
Definition log_of (es : list levent) : eqlog := {| l_posts := posts_by 0 es; l_delivered := delivered_by 0 es |}.
Lemma log_app a b : log_of (a ++ b) = {| l_posts := l_posts (log_of a) ++ l_posts (log_of b); l_delivered := l_delivered (log_of a) ++ l_delivered (log_of b) |}.
Proof. unfold log_of. cbn. now rewrite posts_app, delivered_app. Qed.
Lemma log_ev ev : log_of (map (QueueDid 0) ev) = {| l_posts := qposts ev; l_delivered := qdelivered ev |}.
Proof. unfold log_of. now rewrite posts_own, delivered_own. Qed.

Lemma one_poll_run env e mo q p : qrun_ok mo q QSleep -> eq_stopped q = false ->
  let st := eq_after (qe_known e) (qe_raises e) q (p_out p) in
  let q1 := if p_stop p then set_stopped (fst st) true else fst st in
  let r := lrun env e mo (one_poll p) in
  let '(q2, ev, p2) := queue_top q1 in
  qrun_ok (fst r) q2 p2 /\ log_of (snd r) = {| l_posts := eq_payload (eq_last q) :: qposts ev; l_delivered := snd st ++ qdelivered ev |}.
Proof.
  intros OK S. cbv zeta. unfold one_poll.
  pose proof (lstep_alone env e mo q QSleep (PostErr KeyErr) OK) as H1. cbn [queue_step] in H1. destruct H1 as [OK1 E1].
  rewrite lrun_cons. cbn [fst snd]. rewrite E1. set (mo1 := fst (lstep env e mo (LQueue 0 (PostErr KeyErr)))) in *.
  destruct (p_stop p).
  - cbn [app]. rewrite lrun_cons. cbn [fst snd]. destruct (lstep_stop env e mo1 q QPost OK1) as [OK2 E2]. rewrite E2.
    set (mo2 := fst (lstep env e mo1 LQueueStop)) in *. rewrite lrun_cons. cbn [fst snd lrun].
    pose proof (lstep_alone env e mo2 (eq_stop q) QPost (p_out p) OK2) as H3. cbn [queue_step] in H3. rewrite after_stop_swap in H3.
    unfold eq_stop in H3.
    destruct (queue_top (set_stopped (fst (eq_after (qe_known e) (qe_raises e) q (p_out p))) true)) as [[q2 ev] p2].
    destruct H3 as [OK3 E3]. split; [exact OK3|]. rewrite E3, !app_nil_r. cbn [app]. rewrite log_app, !log_ev. cbn [l_posts l_delivered].
    rewrite qposts_deliver, qdelivered_deliver. reflexivity.
  - cbn [app]. rewrite lrun_cons. cbn [fst snd lrun].
    pose proof (lstep_alone env e mo1 q QPost (p_out p) OK1) as H3. cbn [queue_step] in H3.
    destruct (eq_after (qe_known e) (qe_raises e) q (p_out p)) as [q1 del]. cbn [fst snd] in *.
    destruct (queue_top q1) as [[q2 ev] p2].
    destruct H3 as [OK3 E3]. split; [exact OK3|]. rewrite E3, !app_nil_r. cbn [app]. rewrite log_app, !log_ev. cbn [l_posts l_delivered].
    rewrite qposts_deliver, qdelivered_deliver. reflexivity.
Qed.
Definition last_only (polls : list poll) : Prop := forall before p after, polls = before ++ p :: after -> p_stop p = true -> after = [].
Lemma loop_done known raises polls st : eq_stopped st = true -> eq_loop known raises polls st = (st, {| l_posts := []; l_delivered := [] |}).
Proof. intros S. destruct polls; cbn; now rewrite S. Qed.
Lemma alone_run env e polls closing : forall mo q, last_only polls -> qrun_ok mo q QSleep -> eq_stopped q = false ->
  let r := lrun env e mo (flat_map one_poll polls ++ (if existsb p_stop polls then [LQueue 0 closing] else [])) in
  let '(q', log) := eq_loop (qe_known e) (qe_raises e) polls q in
  if eq_stopped q' then
    if equals_minus1 (eq_last q') then qrun_ok (fst r) (set_running q' false) (QEnd true) /\ log_of (snd r) = log
    else log_of (snd r) = {| l_posts := l_posts log ++ [eq_closing (eq_last q')]; l_delivered := l_delivered log |} /\
         match closing with
         | PostOk _ => qrun_ok (fst r) (set_running q' false) (QEnd true)
         | PostErr _ => qrun_ok (fst r) q' (QEnd false)
         end
  else qrun_ok (fst r) q' QSleep /\ log_of (snd r) = log.
Proof.
  cbv zeta. induction polls as [|p polls IH]; intros mo q LO OK S.
  - cbn. rewrite S. cbn. rewrite S. split; [exact OK|reflexivity].
  - cbn [flat_map existsb]. rewrite <- app_assoc, lrun_app. cbn [fst snd].
    cbn [eq_loop]. rewrite S. pose proof (one_poll_run env e mo q p OK S) as H. cbv zeta in H.
    destruct (after_flags (qe_known e) (qe_raises e) q (p_out p)) as [SF _].
    destruct (eq_after (qe_known e) (qe_raises e) q (p_out p)) as [q1 del]. cbn [fst snd] in H, SF.
    destruct (p_stop p) eqn:PS.
    + rewrite (LO [] p polls eq_refl PS). cbn [flat_map app orb existsb]. rewrite loop_done by reflexivity. cbn [eq_stopped set_stopped].
      unfold queue_top in H. cbn [eq_stopped set_stopped eq_last] in H. cbn [eq_last set_stopped]. rewrite lrun_cons. cbn [fst snd lrun]. rewrite app_nil_r.
      destruct (equals_minus1 (eq_last q1)); destruct H as [OK1 L1].
      * pose proof (lstep_alone env e _ _ _ closing OK1) as H3. cbn [queue_step] in H3. destruct H3 as [OK3 E3]. split; [exact OK3|].
        rewrite E3, log_app, L1. cbn. rewrite !app_nil_r. reflexivity.
      * pose proof (lstep_alone env e _ _ _ closing OK1) as H3. cbn [queue_step] in H3. rewrite log_app, L1. cbn [l_posts l_delivered].
        rewrite !app_nil_r. destruct closing; destruct H3 as [OK3 E3]; rewrite E3; cbn; rewrite ?app_nil_r; auto.
    + cbn [orb]. unfold queue_top in H. rewrite SF, S in H. destruct H as [OK1 L1].
      assert (last_only polls) as LO' by (intros b x a -> PX; apply (LO (p :: b) x a eq_refl PX)).
      rewrite S in SF. specialize (IH _ _ LO' OK1 SF). destruct (eq_loop (qe_known e) (qe_raises e) polls q1) as [q' log].
      rewrite log_app, L1. destruct (eq_stopped q').
      * destruct (equals_minus1 (eq_last q')).
        -- destruct IH as [I1 I2]. split; [exact I1|]. rewrite I2. cbn. now rewrite app_nil_r.
        -- destruct IH as [I1 I2]. split; [|exact I2]. rewrite I1. cbn. now rewrite app_nil_r.
      * destruct IH as [I1 I2]. split; [exact I1|]. rewrite I2. cbn. now rewrite app_nil_r.
Qed.
Lemma l_alone env e host polls closing : qe_enabled e = true -> qe_cap e = "EventQueueGet"%string -> last_only polls ->
  let r := lrun env e (mo_init host (Some eq_init)) (alone polls ++ (if existsb p_stop polls then [LQueue 0 closing] else [])) in
  let '(q, log, res) := eq_start (qe_known e) (qe_raises e) (qe_cap e) polls closing eq_init in
  mm_eq (mo_manager (fst r)) = Some q /\ mo_queue (fst r) = [match res with Some b => QEnd b | None => QSleep end] /\
  posts_by 0 (snd r) = l_posts log /\ delivered_by 0 (snd r) = l_delivered log.
Proof.
  intros EN C LO. cbv zeta. unfold alone. cbn [app]. rewrite !lrun_cons. cbn [fst snd].
  set (mo0 := fst (lstep env e (mo_init host (Some eq_init)) LStart)).
  assert (qrun_ok mo0 eq_init QStart) as OK0 by (split; cbn; [|rewrite EN]; reflexivity).
  pose proof (lstep_alone env e mo0 eq_init QStart (PostErr KeyErr) OK0) as H.
  assert (queue_step e eq_init QStart (PostErr KeyErr) = (set_running eq_init true, [], QSleep)) as QS by (cbn [queue_step]; rewrite C; reflexivity).
  rewrite QS in H.
  destruct H as [OK1 E1]. rewrite E1. replace (snd (lstep env e (mo_init host (Some eq_init)) LStart)) with (@nil levent) by reflexivity. cbn [map app].
  unfold eq_start. rewrite C. cbn [String.eqb Ascii.eqb Bool.eqb].
  pose proof (alone_run env e polls closing _ _ LO OK1 eq_refl) as H. cbv zeta in H.
  change (if (String.eqb "EventQueueGet" "event_queue")%string then ?a else ?b) with b.
  change (if (String.eqb "EventQueueGet" "EventQueueGet")%string then ?a else ?b) with a.
  destruct (eq_loop (qe_known e) (qe_raises e) polls (set_running eq_init true)) as [q' log].
  destruct (eq_stopped q').
  - destruct (equals_minus1 (eq_last q')).
    + destruct H as [[A B] L]. rewrite <- L. auto.
    + destruct H as [L H]. injection L as L1 L2. destruct closing; destruct H as [A B]; cbn; rewrite <- L1, <- L2; auto.
  - destruct H as [[A B] L]. rewrite <- L. auto.
Qed.

Lemma stopped_set q b : eq_stopped (set_running q b) = eq_stopped q.
Proof. destruct q. reflexivity. Qed.
Lemma running_set q b : eq_running (set_running q b) = b.
Proof. destruct q. reflexivity. Qed.
Lemma queue_top_ends q q' es b : queue_top q = (q', es, QEnd b) -> b = true /\ eq_stopped q' = true /\ eq_running q' = false.
Proof.
  unfold queue_top. destruct (eq_stopped q) eqn:S; [|intros [= ]].
  destruct (equals_minus1 (eq_last q)); intros [= <- <- <-]. rewrite stopped_set, running_set. auto.
Qed.
Definition closinv (mo : monitors) : Prop :=
  forall q i, mm_eq (mo_manager mo) = Some q -> nth_error (mo_queue mo) i = Some QClosing -> eq_stopped q = true.
Lemma queue_closing e q p o q' es : p <> QClosing -> queue_step e q p o = (q', es, QClosing) -> eq_stopped q' = true.
Proof.
  assert (T : forall q q' es, queue_top q = (q', es, QClosing) -> eq_stopped q' = true).
  { intros r r' s. unfold queue_top. destruct (eq_stopped r) eqn:S; [|intros [= ]].
    destruct (equals_minus1 (eq_last r)); intros [= <- <-]. exact S. }
  intros NE. destruct p; cbn [queue_step]; try congruence.
  - destruct (String.eqb (qe_cap e) "event_queue"); [rewrite stopped_set; destruct (eq_stopped q); intros [= ]|].
    destruct (String.eqb (qe_cap e) "EventQueueGet"); [apply T|intros [= ]].
  - destruct (eq_after _ _ q o) as [q1 del]. destruct (queue_top q1) as [[q2 ev] p'] eqn:E. intros [= <- <- ->]. exact (T _ _ _ E).
Qed.
Lemma closinv_step env e mo o : closinv mo -> closinv (fst (lstep env e mo o)).
Proof.
  intros I q1 i Q1 N. destruct (mm_eq (mo_manager mo)) as [q|] eqn:Q.
  2:{ rewrite eq_kept in Q1 by exact Q. discriminate. }
  destruct (lstep_qchange env e mo o q Q) as [P D E1 E2 E3|E1 E2 EO E3|E1 E2 E3 E4|j p0 x q' ev p' EO N0 QS E1 E2 E3].
  - rewrite E1 in N. rewrite E2 in Q1. injection Q1 as <-. exact (I q i Q N).
  - rewrite E3 in Q1. injection Q1 as <-. reflexivity.
  - rewrite E3 in N. rewrite E4 in Q1. injection Q1 as <-.
    destruct (Nat.lt_ge_cases i (List.length (mo_queue mo))) as [L|L].
    + rewrite nth_error_app1 in N by exact L. exact (I _ _ Q N).
    + rewrite nth_error_app2 in N by exact L. destruct (i - _)%nat as [|k]; cbn in N; [discriminate|destruct k; discriminate].
  - rewrite E3 in Q1. injection Q1 as <-. assert (j < List.length (mo_queue mo))%nat as L by (apply nth_error_Some; congruence).
    pose proof (queue_stopped _ _ _ _ _ _ _ QS) as ST. rewrite E2 in N. destruct (Nat.eq_dec j i) as [<-|NE].
    + rewrite HeaderProofs.nth_update_eq in N by exact L. injection N as ->.
      assert (D : p0 = QClosing \/ p0 <> QClosing) by (destruct p0; auto; right; discriminate).
      destruct D as [->|D]; [|exact (queue_closing _ _ _ _ _ _ D QS)]. rewrite ST. exact (I _ _ Q N0).
    + rewrite HeaderProofs.nth_update_neq in N by exact NE. rewrite ST. exact (I _ _ Q N).
Qed.
Lemma closinv_reach env e mo : l_reachable env e mo -> closinv mo.
Proof.
  intros (host & eq & ops & _ & ->). set (mo := mo_init host eq).
  assert (C : closinv mo) by (intros q i _ N; destruct i; discriminate N).
  revert C. generalize mo. clear. induction ops as [|o ops IH]; intros mo C; [exact C|]. rewrite lrun_cons. apply IH, closinv_step, C.
Qed.
Lemma queue_step_ends e q p o q' es b : alive p -> (p = QClosing -> eq_stopped q = true) -> queue_step e q p o = (q', es, QEnd b) ->
  if b then eq_stopped q' = true /\ eq_running q' = false
  else (p = QClosing /\ (exists x, o = PostErr x) /\ q' = q) \/
       (p = QStart /\ qe_cap e <> "EventQueueGet"%string /\
        eq_running q' = (if String.eqb (qe_cap e) "event_queue" then true else eq_running q)).
Proof.
  intros A CI. destruct p; cbn [queue_step].
  - destruct (String.eqb (qe_cap e) "event_queue") eqn:E1.
    + assert (qe_cap e <> "EventQueueGet"%string) by (apply String.eqb_eq in E1; rewrite E1; discriminate).
      rewrite stopped_set. destruct (eq_stopped q) eqn:S; intros [= <- <- <-].
      * rewrite !stopped_set, running_set. auto.
      * right. rewrite running_set. auto.
    + destruct (String.eqb (qe_cap e) "EventQueueGet") eqn:E2.
      * intros H. apply queue_top_ends in H as (-> & S & R). auto.
      * intros [= <- <- <-]. right. apply String.eqb_neq in E2. auto.
  - intros [= ].
  - destruct (eq_after _ _ q o) as [q1 del]. destruct (queue_top q1) as [[q2 ev] p'] eqn:T. intros [= <- <- ->].
    apply queue_top_ends in T as (-> & S & R). auto.
  - destruct o as [r|x]; intros [= <- <- <-].
    + rewrite stopped_set, running_set. auto.
    + left. eauto.
  - destruct A.
Qed.
Lemma queue_ends env e mo i p o b q : l_reachable env e mo ->
  nth_error (mo_queue mo) i = Some p -> alive p -> mm_eq (mo_manager mo) = Some q ->
  let mo' := fst (lstep env e mo (LQueue i o)) in
  nth_error (mo_queue mo') i = Some (QEnd b) ->
  exists q', mm_eq (mo_manager mo') = Some q' /\
  if b then eq_stopped q' = true /\ eq_running q' = false
  else (p = QClosing /\ (exists x, o = PostErr x) /\ q' = q) \/
       (p = QStart /\ qe_cap e <> "EventQueueGet"%string /\
        eq_running q' = (if String.eqb (qe_cap e) "event_queue" then true else eq_running q)).
Proof.
  intros R N A Q. cbn zeta. cbn [lstep]. rewrite N, Q. destruct (queue_step e q p o) as [[q' ev] p'] eqn:QS. cbn [fst mo_queue mo_manager].
  assert (i < List.length (mo_queue mo))%nat as L by (apply nth_error_Some; congruence).
  rewrite HeaderProofs.nth_update_eq by exact L. intros [= ->]. exists q'. split; [reflexivity|].
  apply (queue_step_ends e q p o q' ev b A); [|exact QS]. intros ->. exact (closinv_reach env e mo R q i Q N).
Qed.
