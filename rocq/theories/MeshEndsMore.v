(** The last lemmas for C107. *)
From Verif Require Import SpecMessages MessageProofs.
From Verif Require Import Lib SpecWhole WholeProofs SpecLiveManager SpecManager ManagerProofs DispatchProofs DispatchMore GreenletProofs GreenletAcks GreenletMore LiveManagerProofs LiveManagerMore LiveManagerAcks.
From Verif Require Import CopiesProofs.
From Verif Require Import SpecCrowd CrowdProofs SpecMesh MeshProofs MeshMore MeshSource MeshSaga MeshHosts MeshFinal TidyProofs TidyMore TidyFinal.
From Verif Require Import EndProofs SpecFloats RoundTripProofs Prop_RoundTrip SpecLayout SpecRoundTrip SpecGreenlets SpecCrowd SpecMesh SpecTidy SpecEnds SpecMeshEnds MeshEnds.
Open Scope Z_scope.
Open Scope list_scope.

(** ** What coroutines send exists *)
Lemma msgs_more env ys : forall xs r, nth_error (s_msgs (cf_st (after env xs))) r <> None -> nth_error (s_msgs (cf_st (after env (xs ++ ys)))) r <> None.
Proof.
  induction ys as [|y ys IH]; intros xs r H; [now rewrite app_nil_r|]. change (y :: ys) with ([y] ++ ys). rewrite app_assoc. apply IH. now apply msgs_snoc.
Qed.
Lemma hosts_more env ys : forall xs r, nth_error (s_hosts (cf_st (after env xs))) r <> None -> nth_error (s_hosts (cf_st (after env (xs ++ ys)))) r <> None.
Proof.
  induction ys as [|y ys IH]; intros xs r H; [now rewrite app_nil_r|]. change (y :: ys) with ([y] ++ ys). rewrite app_assoc. apply IH. now apply hosts_snoc.
Qed.
Lemma after_app env a b : after env (a ++ b) = fst (crun env (after env a) b).
Proof. unfold after. apply LiveManagerProofs.crun_app. Qed.
Lemma split_later {A} (a b p q : list A) x : a ++ b = p ++ x :: q -> (List.length a <= List.length p)%nat -> exists p', p = a ++ p' /\ b = p' ++ x :: q.
Proof.
  revert p. induction a as [|y a IH]; intros p E L; [exists p; auto|]. destruct p as [|z p]; [cbn in L; lia|]. cbn in E. injection E as -> E.
  destruct (IH p E) as (p' & -> & H); [cbn in L; lia|]. exists p'. auto.
Qed.
Lemma queue_kept e w o p0 : lv_cf (wh_udp w) = after (we_env e) p0 ->
  (forall m rel, In (m, rel) (lv_queue (wh_udp w)) -> nth_error (s_msgs (cf_st (after (we_env e) p0))) m <> None) ->
  match o with WEnqueue r _ _ => nth_error (s_msgs (cf_st (lv_cf (wh_udp w)))) r <> None | _ => True end ->
  forall m rel, In (m, rel) (lv_queue (wh_udp (wstep e w o))) -> nth_error (s_msgs (cf_st (after (we_env e) (p0 ++ wdoes w o)))) m <> None.
Proof.
  intros C Q EM m rel I. apply msgs_more.
  rewrite wstep_udp in I. destruct o as [| |r rel0 now|h|[[]|]|k rr order| |]; cbn [udp_ops vrun vstep lv_queue] in I; try (apply (Q m rel); exact I).
  - rewrite C in EM. destruct now; [destruct I as [I|I]|apply in_app_or in I as [I|[I|[]]]]; try (injection I as <- _; exact EM); apply (Q m rel); exact I.
  - destruct (nth_error (lv_udp (wh_udp w)) k) as [p|]; [|apply (Q m rel); exact I].
    destruct p as [| | |t1|t1| |t1|y]; cbn [udp_step lv_queue] in I; try (apply (Q m rel); exact I).
    + destruct rr; apply (Q m rel); exact I.
    + destruct (returned (lv_cf (wh_udp w)) t1) as [[]|]; [destruct (has_unacked _)|..]; apply (Q m rel); exact I.
    + destruct (returned (lv_cf (wh_udp w)) t1) as [[]|]; apply (Q m rel); exact I.
    + destruct (lv_queue (wh_udp w)) as [|[m0 rel0] q] eqn:E; cbn [lv_queue] in I; [destruct I|]. apply (Q m rel). now right.
    + destruct (returned (lv_cf (wh_udp w)) t1) as [[]|]; apply (Q m rel); exact I.
Qed.
Lemma sends_exist e ops : forall w p0, Forall leaves_all ops -> enqueues_made e w ops -> lv_cf (wh_udp w) = after (we_env e) p0 ->
  (forall m rel, In (m, rel) (lv_queue (wh_udp w)) -> nth_error (s_msgs (cf_st (after (we_env e) p0))) m <> None) ->
  forall p r h md sock q, vsched (we_env e) (wh_udp w) (w_udp_ops e w ops) = p ++ Spawn (Send r h md sock) :: q ->
    nth_error (s_msgs (cf_st (after (we_env e) (p0 ++ p)))) r <> None.
Proof.
  induction ops as [|o ops IH]; intros w p0 LA EM C Q p r h md sock q E; [destruct p; discriminate|].
  cbn [w_udp_ops] in E. rewrite vsched_app, <- wstep_udp, vsched_does in E. cbn [enqueues_made] in EM. destruct EM as [EM1 EM2].
  pose proof (Forall_inv LA) as LO. apply Forall_inv_tail in LA.
  assert (lv_cf (wh_udp (wstep e w o)) = after (we_env e) (p0 ++ wdoes w o)) as C' by (rewrite wstep_cf, C, after_app; reflexivity).
  pose proof (queue_kept e w o p0 C Q EM1) as Q'.
  assert ((List.length (wdoes w o) <= List.length p)%nat \/ nth_error (s_msgs (cf_st (after (we_env e) (p0 ++ p)))) r <> None) as [L|X]; [| |exact X].
  - destruct (wdoes_kinds w o LO) as (_ & _ & [NS|(k & rr & order & msg & rel & q' & -> & _ & QE & WD)]).
    + left. destruct (Nat.le_gt_cases (List.length (wdoes w o)) (List.length p)) as [L|L]; [exact L|exfalso].
      assert (In (Spawn (Send r h md sock)) (wdoes w o)) as I.
      { assert (nth_error (wdoes w o) (List.length p) = Some (Spawn (Send r h md sock))) as N.
        { rewrite <- (nth_error_app1 _ (vsched (we_env e) (wh_udp (wstep e w o)) (w_udp_ops e (wstep e w o) ops)) L), E.
          rewrite nth_error_app2, Nat.sub_diag by lia. reflexivity. }
        exact (nth_error_In _ _ N). }
      rewrite Forall_forall in NS. exact (NS _ I Logic.I).
    + rewrite WD in *. destruct p as [|y p]; [right|left; cbn; lia]. cbn in E. injection E as <- _ _ _ _. rewrite app_nil_r. apply (Q msg rel).
      rewrite QE. now left.
  - destruct (split_later _ _ _ _ _ E L) as (p' & -> & E').
    rewrite app_assoc. eapply IH; eauto.
Qed.
Lemma sched_later host p o q rest : v_objects host ++ rest = p ++ Spawn o :: q -> (forall a, o <> NewHost a) -> exists p', p = v_objects host ++ p' /\ rest = p' ++ Spawn o :: q.
Proof.
  intros E N. apply split_later in E; [exact E|]. destruct p as [|x [|y p]]; cbn in E |- *; [| |lia]; exfalso.
  - injection E as E _. now destruct (N host).
  - injection E as _ E _. now destruct (N (HNone, HNone)).
Qed.
Lemma hosts_there env host p : nth_error (s_hosts (cf_st (after env (v_objects host ++ p)))) 0 <> None /\ nth_error (s_hosts (cf_st (after env (v_objects host ++ p)))) 1 <> None.
Proof. split; apply hosts_more; cbn; discriminate. Qed.

(** ** Why a coroutine ends *)
Lemma only_subscribers pv ts ta es n i e w k x : mesh_steps (mesh_start es) n -> shares pv ts ta es -> well_used ts n -> in_turn es n -> sound_use ts es n ->
  nth_error (me_nodes n) i = Some (e, w) -> nth_error (lv_udp (wh_udp w)) k = Some (VEnd (Some x)) ->
  let xs := w_sched e (of_manager i (me_done n)) in
  exists before b data, calls_of k (udp_part (of_manager i (me_log n))) = before ++ [b] /\ bg_call b = CReceive data /\
    e_handle (we_env e) = true /\ a_subscriber_raised (we_env e) xs (bg_thread b) x.
Proof.
  intros S (ST & SZ & UN & IN & PT) [D FP] IT (MS & TB & EM) NI V xs.
  destruct (mesh_each es n S) as [EE K]. destruct (K i e w NI) as [KW KL].
  assert (nth_error es i = Some e) as NE by (rewrite <- EE, nth_error_map, NI; reflexivity).
  assert (e_handle_out (we_env e) = false) as HO by (exact (proj1 (Forall_forall _ _) (silent_out _ _ _ ST) e (nth_error_In _ _ NE))).
  assert (forall o, In o (of_manager i (me_done n)) -> leaves_all o) as LA.
  { intros o I. apply of_manager_in in I. exact (proj1 (D _ I)). }
  assert (Forall leaves_all (of_manager i (me_done n))) as FA by (apply Forall_forall; exact LA).
  set (ops := of_manager i (me_done n)) in *.
  destruct (wlife_udp e ops) as [WU WL]. rewrite KW, WU in V. rewrite KL, WL.
  destruct (coroutine_ended _ _ _ _ _ V) as (before & b & o & st & C & SF & A & R). fold (w_sched e ops) in A, R. fold xs in A, R.
  pose proof (w_sched_quiet e ops FA) as NS. fold xs in NS.
  assert (forall m, In (Spawn (NewMsg m)) xs -> msg_str_error m = None) as PR.
  { intros m I. apply (w_sched_new e ops m FA) in I. unfold ops in I. apply of_manager_in in I. exact (proj1 (MS _ I)). }
  assert (forall r y, ~ unprintable (we_env e) xs r y) as UP by (intros r y; exact (all_printable _ xs r y NS PR)).
  destruct A as (p & q & EX & LP & ->).
  assert (forall a, o <> NewHost a) as NH.
  { intros a ->. destruct (bg_call b); cbn in SF; try destruct SF as (? & SF); discriminate SF. }
  destruct (sched_later (we_host e) p o q _ EX NH) as (p' & -> & EX').
  destruct (hosts_there (we_env e) (we_host e) p') as [H0 H1].
  destruct (bg_call b) as [data| |msg rel] eqn:BC; cbn in SF.
  - subst o. cbn [reason] in R. destruct R as [[HD R]|[(SZd & _ & UR)|[HN _]]]; [exists before, b, data; auto| |].
    + exfalso. assert (In (VBegun b) (vlife (we_env e) (we_host e) (w_udp_ops e (w_init e) ops))) as I.
      { assert (In b (calls_of k (vlife (we_env e) (we_host e) (w_udp_ops e (w_init e) ops)))) as I by (rewrite C; apply in_or_app; right; now left).
        unfold calls_of, v_begun in I. apply filter_In in I as [I _]. apply in_flat_map in I as (y & I & Y). destruct y; try (destruct Y; fail).
        destruct Y as [<-|[]]. exact I. }
      rewrite <- WL in I. unfold udp_part in I. apply in_flat_map in I as (y & I & Y). destruct y as [y| | |]; try (destruct Y; fail).
      destruct Y as [-> |[]]. rewrite <- KL in I. apply of_manager_in in I.
      destruct (mesh_received es n i b data S I BC) as [-> |(y & P)]; [cbn in SZd; lia|].
      destruct P as (j & J & AD). destruct (in_split _ _ J) as (l1 & l2 & L).
      pose proof (mesh_conforming pv ts ta es n S ST IN PT D FP) as CU.
      destruct (of_split _ _ _ _ L) as (m1 & m2 & EL & _ & _). cbn [fst snd] in EL.
      assert (~ announces_acks y) as NA.
      { apply (mesh_quiet es n j y S (silent_out _ _ _ ST) (fun p H => proj1 (D p H)) IT). rewrite EL. apply in_or_app. right. now left. }
      refine (crowd_readable pv ts ta (map we_env es) (dispatchers n) l1 j y data l2 (we_env e) _ x (mesh_crowd es n S) ST SZ UN IN PT CU L AD NA _ _ _ UR).
      * intros t T1 T2. exact (mesh_says pv ts ta es n m1 j y data m2 t S ST UN IN PT (fun p H => proj1 (D p H)) MS EL AD T1 T2).
      * apply in_map. exact (nth_error_In _ _ NE).
      * intros name. exact (TB e name (nth_error_In _ _ NE)).
    + exfalso. exact (H1 HN).
  - destruct SF as (order & ->). cbn [reason] in R. exfalso. destruct R as [[HO' _]|(r & m & _ & I & _)]; [congruence|].
    rewrite Forall_forall in NS. exact (NS _ I r m eq_refl).
  - subst o. cbn [reason] in R. exfalso. destruct R as [[HO' _]|[R|[[R|R] _]]]; [congruence|exact (UP _ _ R)|exact (H0 R)|].
    refine (sends_exist e ops (w_init e) (v_objects (we_host e)) FA (EM i e NE) eq_refl _ p' _ _ _ _ q EX' R).
    intros m rel0 [].
Qed.
Lemma nobody_dies pv ts ta es n i e w : mesh_steps (mesh_start es) n -> shares pv ts ta es -> well_used ts n -> in_turn es n -> sound_use ts es n ->
  subscribers_return n -> nth_error (me_nodes n) i = Some (e, w) -> none_died w.
Proof.
  intros S SH WU IT SU SR NI x I. destruct (In_nth_error _ _ I) as (k & V).
  destruct (only_subscribers pv ts ta es n i e w k x S SH WU IT SU NI V) as (before & b & data & _ & _ & _ & (p & q & name & j & wk & EX & NK & _)).
  apply NK, (SR i (bg_thread b)). apply of_manager_in. apply (w_sched_resume e). rewrite EX. apply in_or_app. right. now left.
Qed.
