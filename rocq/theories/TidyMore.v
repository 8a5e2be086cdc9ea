(** More lemmas for C105: coroutines, and managers. *)
From Verif Require Import SpecMessages MessageProofs.
From Verif Require Import Lib SpecWhole WholeProofs SpecLiveManager SpecManager ManagerProofs DispatchProofs DispatchMore GreenletProofs GreenletAcks GreenletMore LiveManagerProofs LiveManagerMore LiveManagerAcks.
From Verif Require Import SpecCrowd CrowdProofs SpecMesh MeshProofs MeshMore MeshSource MeshSaga TidyProofs.
From Verif Require Import SpecGreenlets SpecCrowd SpecMesh.
Open Scope Z_scope.
Open Scope list_scope.

Lemma crun_kept env xs : forall cf, sane env cf -> e_handle_out env = false -> Forall no_receive xs -> kept (cf_st cf) (cf_st (fst (crun env cf xs))).
Proof.
  induction xs as [|x xs IH]; intros cf SN HO F; [apply kept_refl|]. inversion F as [|? ? NX NXS]; subst. rewrite crun_cons.
  eapply kept_trans; [exact (cstep_kept _ _ _ SN HO NX)|]. apply IH; auto. now apply cstep_sane.
Qed.
Lemma crun_tidy env t xs : forall cf, sane env cf -> e_handle_out env = false -> Forall no_receive xs -> tidy_thread cf t -> tidy_thread (fst (crun env cf xs)) t.
Proof.
  induction xs as [|x xs IH]; intros cf SN HO F T; [exact T|]. inversion F; subst. rewrite crun_cons.
  apply IH; auto; [now apply cstep_sane|now apply cstep_tidy].
Qed.
Lemma crun_sane env xs : forall cf, sane env cf -> sane env (fst (crun env cf xs)).
Proof. induction xs as [|x xs IH]; intros cf S; [exact S|]. rewrite crun_cons. apply IH. now apply cstep_sane. Qed.
Lemma none_unacked st : has_unacked st = false -> clean st.
Proof.
  intros H a. unfold pending_acks, circuit_of, get_circuit. destruct (dget addr_eqb a (s_circuits st)) as [c|] eqn:G; [|reflexivity].
  apply (dget_In _ addr_eqb_spec) in G. unfold has_unacked in H.
  destruct (c_acks c) as [|k l] eqn:E; [reflexivity|]. exfalso.
  assert (existsb (fun c => 0 <? zlen (c_acks c)) (dvals (s_circuits st)) = true) as X; [|congruence].
  apply existsb_exists. exists c. split; [unfold dvals; change c with (snd (a, c)); now apply in_map|]. rewrite E, zlen_cons. pose proof (zlen_nonneg l). lia.
Qed.
Lemma begins_tidy env cf order s : inv (cf_st cf) -> tidy_thread (fst (cstep env cf (Spawn (ProcessAcks order s)))) (List.length (cf_pool cf)).
Proof.
  intros I. cbn [cstep start]. rewrite resend_none by exact I. cbn [fst]. eexists. cbn [cf_pool cf_st].
  split; [rewrite nth_error_app2, Nat.sub_diag by lia; reflexivity|]. left. split; [reflexivity|]. intros a D. cbn [keys_of].
  eapply Permutation.Permutation_in; [symmetry; apply arrange_perm, (inv_keys _ I)|]. apply key_circ. intros E. apply D. unfold pending_acks. now rewrite E.
Qed.

(** ** Coroutines *)
Definition drains (p : vpc) : Prop := p = VDrain \/ exists t, p = VSend t.
Record neat (env : denv) (v : live) : Prop := {
  ne_solo : solo v;
  ne_sane : sane env (lv_cf v);
  ne_drain : forall p, In p (lv_udp v) -> drains p -> clean (cf_st (lv_cf v));
  ne_acks : forall t, In (VAcks t) (lv_udp v) -> tidy_thread (lv_cf v) t }.
Lemma drains_on p : drains p -> ~ ended_pc p.
Proof. intros [->|(t & ->)] (e & E); discriminate. Qed.
Lemma udp_receives v i p r order xs bs q p' : udp_step v i p r order = (xs, bs, q, p') ->
  Forall no_receive xs \/ (p = VRecv /\ exists t, p' = VReceive t).
Proof.
  unfold udp_step. intros U. destruct p as [| | |t|t| |t|e]; try (injection U as <- <- <- <-; left; constructor; fail).
  - right. split; [reflexivity|]. destruct r; injection U as <- <- <- <-; eauto.
  - left. destruct (returned (lv_cf v) t) as [[u|e]|]; try (injection U as <- <- <- <-; constructor; fail).
    destruct (has_unacked _); injection U as <- <- <- <-; repeat constructor.
  - left. destruct (returned (lv_cf v) t) as [[u|e]|]; injection U as <- <- <- <-; constructor.
  - left. destruct (lv_queue v) as [|[msg rel] q0]; injection U as <- <- <- <-; repeat constructor.
  - left. destruct (returned (lv_cf v) t) as [[u|e]|]; injection U as <- <- <- <-; constructor.
Qed.
(** Where a coroutine comes to the queue from. *)
Lemma udp_drains v i p r order xs bs q p' : udp_step v i p r order = (xs, bs, q, p') -> drains p' ->
  drains p \/ (xs = [] /\ has_unacked (cf_st (lv_cf v)) = false) \/ (xs = [] /\ exists t u, p = VAcks t /\ returned (lv_cf v) t = Some (Ok u)).
Proof.
  unfold udp_step. intros U D. assert (forall q0 : vpc, q0 = p' -> drains q0) as D' by (intros q0 ->; exact D). clear D.
  destruct p as [| | |t|t| |t|e].
  - injection U as <- <- <- <-. specialize (D' _ eq_refl). destruct (lv_running v); destruct D' as [?|(? & ?)]; discriminate.
  - injection U as <- <- <- <-. specialize (D' _ eq_refl). destruct D' as [?|(? & ?)]; discriminate.
  - destruct r; injection U as <- <- <- <-; specialize (D' _ eq_refl); destruct D' as [?|(? & ?)]; discriminate.
  - destruct (returned (lv_cf v) t) as [[u|e]|]; [|injection U as <- <- <- <-; specialize (D' _ eq_refl); destruct D' as [?|(? & ?)]; discriminate..].
    destruct (has_unacked _) eqn:H; injection U as <- <- <- <-; specialize (D' _ eq_refl); [destruct D' as [?|(? & ?)]; discriminate|]. right. left. auto.
  - destruct (returned (lv_cf v) t) as [[u|e]|] eqn:R; injection U as <- <- <- <-; specialize (D' _ eq_refl);
      [|destruct D' as [?|(? & ?)]; discriminate..]. right. right. split; [reflexivity|]. eauto.
  - left. now left.
  - left. right. eauto.
  - injection U as <- <- <- <-. specialize (D' _ eq_refl). destruct D' as [?|(? & ?)]; discriminate.
Qed.
Lemma udp_acking v i p r order xs bs q t : udp_step v i p r order = (xs, bs, q, VAcks t) ->
  (p = VAcks t /\ xs = []) \/ (t = List.length (cf_pool (lv_cf v)) /\ exists t0 s, p = VReceive t0 /\ xs = [Spawn (ProcessAcks order s)]).
Proof.
  unfold udp_step. intros U. destruct p as [| | |t0|t0| |t0|e].
  - destruct (lv_running v); discriminate U.
  - discriminate U.
  - destruct r; discriminate U.
  - destruct (returned (lv_cf v) t0) as [[u|e]|]; try discriminate U. destruct (has_unacked _); [|discriminate U]. injection U as <- <- <- <-. right. split; [reflexivity|]. eauto.
  - destruct (returned (lv_cf v) t0) as [[u|e]|]; try discriminate U. injection U as <- <- <- ->. left. auto.
  - destruct (lv_queue v) as [|[msg rel] q0]; [destruct (lv_running v)|]; discriminate U.
  - destruct (returned (lv_cf v) t0) as [[u|e]|]; discriminate U.
  - discriminate U.
Qed.
Lemma vdoes_no_receive v o : leaves_it o -> (forall i r order, o <> VRun i r order) -> Forall no_receive (fst (vdoes v o)).
Proof.
  intros L N. destruct o as [| |msg rel now|x|i r order]; cbn; try constructor; [|constructor|now destruct (N i r order)].
  destruct x as [o|]; [|exact I]. destruct o; try exact I. exact L.
Qed.
Lemma neat_step env v o : neat env v -> e_handle_out env = false -> leaves_it o ->
  (o = VStartMonitors -> Forall (fun p => exists e, p = VEnd e) (lv_udp v)) -> neat env (vstep env v o).
Proof.
  intros [S SN ND NA] HO LV ST. pose proof SN as [G [tr L] DLs].
  destruct (solo_step env v o [] tr S ltac:(intros k []) G L LV ST) as (S' & _ & _).
  assert (sane env (lv_cf (vstep env v o))) as SN' by (rewrite vstep_cf; now apply crun_sane).
  assert ((exists i r order, o = VRun i r order) \/ forall i r order, o <> VRun i r order) as [(i & r & order & ->)|NR].
  { destruct o; try (right; discriminate). left. eauto. }
  2:{ pose proof (vdoes_no_receive v o LV NR) as F.
      assert (forall p, In p (lv_udp (vstep env v o)) -> In p (lv_udp v) \/ p = VStart) as BACK.
      { intros p P. destruct o as [| |msg rel now|x|i r order]; auto; [|now destruct (NR i r order)].
        cbn in P. apply in_app_or in P as [P|[P|[]]]; auto. }
      constructor; [exact S'|exact SN'| |].
      - intros p P D. rewrite vstep_cf. destruct (BACK p P) as [P0| ->]; [|destruct D as [?|(? & ?)]; discriminate].
        exact (kept_clean _ _ (crun_kept env _ _ SN HO F) (ND p P0 D)).
      - intros t P. rewrite vstep_cf. destruct (BACK _ P) as [P0|]; [|discriminate]. apply crun_tidy; auto. }
  destruct (nth_error (lv_udp v) i) as [p|] eqn:N.
  2:{ assert (vstep env v (VRun i r order) = v) as E by (unfold vstep; now rewrite N). rewrite E. constructor; assumption. }
  destruct (udp_step v i p r order) as [[[xs bs] q] p'] eqn:U.
  assert (lv_cf (vstep env v (VRun i r order)) = fst (crun env (lv_cf v) xs)) as EC by (rewrite vstep_cf; unfold vdoes; rewrite N, U; reflexivity).
  assert (lv_udp (vstep env v (VRun i r order)) = update_nth i p' (lv_udp v)) as EU by (cbn; rewrite N, U; reflexivity).
  constructor; [exact S'|exact SN'| |]; rewrite EC, EU.
  - intros p0 P D.
    assert (p0 = p' \/ (In p0 (lv_udp v) /\ Forall no_receive xs)) as [-> |[P0 NRx]].
    { apply In_nth_error in P as (j & P). destruct (Nat.eq_dec i j) as [->|NE].
      - rewrite nth_upd_eq in P by (apply nth_error_Some; congruence). left. congruence.
      - rewrite nth_upd_neq in P by exact NE. right. split; [eapply nth_error_In; exact P|].
        destruct (udp_receives _ _ _ _ _ _ _ _ _ U) as [F|(-> & _)]; [exact F|]. exfalso. apply NE.
        apply (so_one _ S i j _ _ N P); [intros (e & X); discriminate|now apply drains_on]. }
    + assert (Forall no_receive xs) as F.
      { destruct (udp_receives _ _ _ _ _ _ _ _ _ U) as [F|(_ & t & ->)]; [exact F|]. destruct D as [?|(? & ?)]; discriminate. }
      destruct (udp_drains _ _ _ _ _ _ _ _ _ U D) as [D0|[[-> H]|(-> & t & u & -> & R)]].
      * exact (kept_clean _ _ (crun_kept env _ _ SN HO F) (ND p (nth_error_In _ _ N) D0)).
      * now apply none_unacked.
      * destruct (NA t (nth_error_In _ _ N)) as (th & NT & [[A _]|[(o & ->) C]]); cbn [crun fst].
        -- exfalso. rewrite (acking_not_returned _ _ _ NT A) in R. discriminate.
        -- apply C. exists o. split; [reflexivity|]. unfold returned in R. rewrite NT in R. destruct (o_res o) as [x|]; [eauto|discriminate].
    + exact (kept_clean _ _ (crun_kept env _ _ SN HO NRx) (ND p0 P0 D)).
  - intros t P. apply In_nth_error in P as (j & P). destruct (Nat.eq_dec i j) as [->|NE].
    + rewrite nth_upd_eq in P by (apply nth_error_Some; congruence). injection P as ->.
      destruct (udp_acking _ _ _ _ _ _ _ _ _ U) as [[-> ->]|(-> & t0 & s & -> & ->)]; [apply NA; eapply nth_error_In; exact N|].
      rewrite crun_cons. cbn [crun fst]. apply begins_tidy. exact (good_inv _ G).
    + rewrite nth_upd_neq in P by exact NE. apply crun_tidy; auto; [|apply NA; eapply nth_error_In; exact P].
      destruct (udp_receives _ _ _ _ _ _ _ _ _ U) as [F|(-> & _)]; [exact F|]. exfalso. apply NE.
      apply (so_one _ S i j _ _ N P); intros (e & X); discriminate.
Qed.
Lemma neat_run env ops : forall v, neat env v -> e_handle_out env = false -> Forall leaves_it ops -> started_in_turn env v ops -> neat env (vrun env v ops).
Proof.
  induction ops as [|o ops IH]; intros v N HO F T; [exact N|]. inversion F; subst. destruct T as [T1 T2]. cbn [vrun]. apply IH; auto. now apply neat_step.
Qed.
Lemma neat_init env host : neat env (v_init env host).
Proof.
  constructor.
  - constructor; [intros i j p q H; destruct i; discriminate|]. intros t th N A. exfalso. revert N. unfold v_init, v_objects. cbn.
    destruct t as [|[|t]]; cbn; [intros [= <-]|intros [= <-]|destruct t; discriminate]; discriminate A.
  - apply crun_sane. constructor; [exact good_init|exists []; exact ledger_init|intros th []].
  - intros p [].
  - intros t [].
Qed.
(** ** The managers *)
Lemma neat_whole e ops : e_handle_out (we_env e) = false -> Forall leaves_to_manager ops -> w_started_in_turn e (w_init e) ops ->
  neat (we_env e) (wh_udp (wafter e ops)).
Proof.
  intros HO F T. unfold wafter. rewrite wrun_udp. apply neat_run; [apply neat_init|exact HO|now apply w_leaves|exact (w_in_turn e ops (w_init e) T)].
Qed.
