(** The last lemmas for C105. *)
From Verif Require Import SpecMessages MessageProofs.
From Verif Require Import Lib SpecWhole WholeProofs SpecLiveManager SpecManager ManagerProofs DispatchProofs DispatchMore GreenletProofs GreenletAcks GreenletMore LiveManagerProofs LiveManagerMore LiveManagerAcks.
From Verif Require Import CopiesProofs.
From Verif Require Import SpecCrowd CrowdProofs SpecMesh MeshProofs MeshMore MeshSource MeshSaga MeshHosts MeshFinal TidyProofs TidyMore.
From Verif Require Import SpecFloats RoundTripProofs Prop_RoundTrip SpecLayout SpecRoundTrip SpecGreenlets SpecCrowd SpecMesh SpecTidy.
Open Scope Z_scope.
Open Scope list_scope.

Lemma of_manager_in {A} i (l : list (nat * A)) x : In (i, x) l <-> In x (of_manager i l).
Proof.
  unfold of_manager. rewrite in_flat_map. split.
  - intros H. exists (i, x). split; [exact H|]. cbn. rewrite Nat.eqb_refl. now left.
  - intros ([j y] & H & K). cbn in K. destruct (Nat.eqb_spec j i) as [->|]; [|contradiction]. destruct K as [->|[]]. exact H.
Qed.
Lemma gtrace_in env xs : forall cf y, In y (gtrace env cf xs) -> exists p x q, xs = p ++ x :: q /\ In y (gevents env (fst (crun env cf p)) x).
Proof.
  induction xs as [|x xs IH]; intros cf y H; [contradiction|]. cbn [gtrace] in H. apply in_app_or in H as [H|H].
  - exists [], x, xs. auto.
  - destruct (IH _ _ H) as (p & x1 & q & -> & K). exists (x :: p), x1, q. split; [reflexivity|]. now rewrite crun_cons.
Qed.
Lemma clean_send env cf x o : sane env cf -> clean (cf_st cf) -> In (Net (Attempted x)) (gevents env cf (Spawn o)) -> spawns_send (Spawn o) -> ~ announces_acks x.
Proof.
  intros SN C H SS. rewrite gevents_head in H. destruct o; try contradiction. cbn [CrowdProofs.head app] in H. apply seen_put in H.
  destruct (cstep_fair env (fun _ => True) (fun _ => False) cf (Spawn (Send mref href md sock)) (good_inv _ (sn_good _ _ SN))) as [F _].
  - intros a D. exact (D (C a)).
  - exact (sn_dl _ _ SN).
  - intros a m _. exact Logic.I.
  - rewrite Forall_forall in F. destruct (F _ H) as [_ K]. exact K.
Qed.
Lemma wstep_quiet e w o x : neat (we_env e) (wh_udp w) -> e_handle_out (we_env e) = false -> leaves_all o ->
  In (WV (VSeen (Net (Attempted x)))) (wobserved e w o) -> ~ announces_acks x.
Proof.
  intros NE HO LA H. pose proof (ne_sane _ _ NE) as SN.
  assert (In (Net (Attempted x)) (gtrace (we_env e) (lv_cf (wh_udp w)) (wdoes w o))) as G.
  { pose proof (wobserved_seen e w o 0) as S.
    assert (In (0%nat, Net (Attempted x)) (of_dispatchers (map (pair 0%nat) (wobserved e w o)))) as X.
    { unfold of_dispatchers. apply in_flat_map. exists (0%nat, WV (VSeen (Net (Attempted x)))). split; [now apply in_map|]. now left. }
    rewrite S in X. apply in_map_iff in X as (y & Y & X). injection Y as ->. exact X. }
  destruct (wdoes_kinds w o LA) as (_ & _ & [K|(k & r & order & msg & rel & q' & -> & N & Q & W)]).
  - destruct (in_split _ _ G) as (p & q & E). destruct (gtrace_answers _ _ _ _ _ _ SN HO K E) as (p' & a & ids & _ & (_ & F & _)).
    unfold announces_acks. rewrite F. discriminate.
  - rewrite W in G. cbn [gtrace] in G. rewrite app_nil_r in G.
    apply (clean_send _ _ _ _ SN (ne_drain _ _ NE _ (nth_error_In _ _ N) (or_introl eq_refl)) G). exact Logic.I.
Qed.
Lemma leaves_less o : leaves_all o -> leaves_to_manager o.
Proof. destruct o as [| | |h|[o|i x]| | |]; cbn; auto. destruct o; auto. Qed.
Lemma turn_app e a : forall b w, w_started_in_turn e w (a ++ b) -> w_started_in_turn e w a.
Proof. induction a as [|o a IH]; intros b w T; [exact Logic.I|]. destruct T as [T1 T2]. split; [exact T1|]. exact (IH _ _ T2). Qed.
(** An observation is made in some step. *)
Lemma whistory_split e : forall ops w past x future, whistory e w ops = past ++ x :: future ->
  exists ops1 o ops2 p q, ops = ops1 ++ o :: ops2 /\ past = whistory e w ops1 ++ p /\ wobserved e (wrun e w ops1) o = p ++ x :: q.
Proof.
  induction ops as [|o ops IH]; intros w past x future H; [destruct past; discriminate|]. cbn [whistory] in H.
  destruct (split_app _ _ _ _ _ H) as [(f & E)|(p & -> & E)].
  - exists [], o, ops, past, f. auto.
  - destruct (IH _ _ _ _ E) as (ops1 & o1 & ops2 & p1 & q & -> & -> & E2). exists (o :: ops1), o1, ops2, p1, q.
    split; [reflexivity|]. cbn [whistory wrun app]. rewrite app_assoc. auto.
Qed.
Lemma life_quiet e ops x : e_handle_out (we_env e) = false -> Forall leaves_all ops -> w_started_in_turn e (w_init e) ops ->
  In (WV (VSeen (Net (Attempted x)))) (wlife e ops) -> ~ announces_acks x.
Proof.
  intros HO F T H. destruct (in_split _ _ H) as (past & future & E). destruct (whistory_split _ _ _ _ _ _ E) as (ops1 & o & ops2 & p & q & -> & _ & O).
  apply Forall_app in F as [F1 F2]. apply turn_app in T.
  assert (Forall leaves_to_manager ops1) as F3 by (eapply Forall_impl; [|exact F1]; exact leaves_less).
  apply (wstep_quiet e (wafter e ops1) o x (neat_whole e ops1 HO F3 T) HO (Forall_inv F2)).
  unfold wafter. rewrite O. apply in_or_app. right. now left.
Qed.

(** ** What has been acknowledged when sending begins *)
Lemma begins_at e w o p b q msg rel : wobserved e w o = p ++ WV (VBegun b) :: q -> bg_call b = CSend msg rel ->
  udp_part p = [] /\ exists k, nth_error (lv_udp (wh_udp w)) k = Some VDrain.
Proof.
  intros E B. apply (f_equal udp_part) in E. rewrite observed_udp, udp_part_app in E. cbn [udp_part flat_map app] in E. change (flat_map _ q) with (udp_part q) in E.
  generalize dependent (udp_part p). generalize (udp_part q). clear p q. intros q p E.
  assert (exists o', udp_ops w o = [o'] \/ udp_ops w o = []) as (o' & OO).
  { destruct o as [| | |h|[[]|]| | |]; cbn; solve [eexists; left; reflexivity|exists VStartMonitors; right; reflexivity]. }
  destruct OO as [OO|OO]; rewrite OO in E; cbn [vhistory] in E; [|destruct p; discriminate]. rewrite app_nil_r in E. clear OO o.
  set (v := wh_udp w) in *. clearbody v. clear w.
  assert (forall l, map VSeen l <> p ++ VBegun b :: q) as NS.
  { intros l. revert p E. intros p _. revert l. induction p as [|y p IH]; intros [|s l] K; try discriminate. injection K as _ K. exact (IH _ K). }
  assert (forall x l, x :: map VSeen l = p ++ VBegun b :: q -> p = [] /\ x = VBegun b) as ONE.
  { intros x l K. destruct p as [|y p]; [injection K as -> _; auto|]. exfalso. cbn in K. injection K as _ K. clear - K. revert l K.
    induction p as [|y p IH]; intros [|s l] K; try discriminate. injection K as _ K. exact (IH _ K). }
  destruct o' as [| |m r now|x|i r order]; unfold vobserved in E; cbn [vdoes fst snd map app] in E.
  - destruct (ONE _ _ E) as [_ X]. discriminate.
  - destruct (ONE _ _ E) as [_ X]. discriminate.
  - destruct (ONE _ _ E) as [_ X]. discriminate.
  - now apply NS in E.
  - destruct (nth_error (lv_udp v) i) as [c|] eqn:N; [|now apply NS in E].
    destruct c as [| | |t|t| |t|x]; cbn [udp_step] in E;
      repeat match type of E with
      | context [match r with RFail => _ | RData _ _ => _ end] => destruct r
      | context [returned ?a ?b] => destruct (returned a b) as [[]|]
      | context [has_unacked ?a] => destruct (has_unacked a)
      | context [lv_queue v] => destruct (lv_queue v) as [|[]]
      end; cbn [fst snd map app] in E; try (now apply NS in E); destruct (ONE _ _ E) as [P X]; injection X as X; subst b; cbn in B; try discriminate B.
    split; [exact P|]. eauto.
Qed.
Lemma ended_stays e w o x : In (VEnd x) (lv_udp (wh_udp w)) -> In (VEnd x) (lv_udp (wh_udp (wstep e w o))).
Proof.
  intros H. assert (wh_udp (wstep e w o) = vrun (we_env e) (wh_udp w) (udp_ops w o)) as -> by (unfold wstep; destruct (we_queue e); reflexivity).
  assert (forall v o', In (VEnd x) (lv_udp v) -> In (VEnd x) (lv_udp (vstep (we_env e) v o'))) as K.
  { intros v o' I. destruct o' as [| |m r now|y|i r order]; try exact I; [cbn; apply in_or_app; now left|]. cbn [vstep].
    destruct (nth_error (lv_udp v) i) as [c|] eqn:N; [|exact I]. destruct (udp_step v i c r order) as [[[xs bs] q] c'] eqn:U. cbn [lv_udp].
    destruct (in_upd i c' _ _ _ N I) as [<-|J]; [|exact J]. injection U as <- <- <- <-. eapply in_upd_new; exact N. }
  generalize dependent (wh_udp w). intros v H. generalize (udp_ops w o). intros ops. revert v H. induction ops as [|o' ops IH]; intros v H; [exact H|]. cbn [vrun]. apply IH. now apply K.
Qed.
Lemma ended_later e x ops : forall w, In (VEnd x) (lv_udp (wh_udp w)) -> In (VEnd x) (lv_udp (wh_udp (wrun e w ops))).
Proof. induction ops as [|o ops IH]; intros w H; [exact H|]. cbn [wrun]. apply IH. now apply ended_stays. Qed.
Lemma life_settled e ops past b future msg rel a : e_handle_out (we_env e) = false -> Forall leaves_to_manager ops -> w_started_in_turn e (w_init e) ops ->
  none_died (wafter e ops) -> wlife e ops = past ++ WV (VBegun b) :: future -> bg_call b = CSend msg rel ->
  all_queued a (v_seen (udp_part past)) = all_packed a (v_seen (udp_part past)).
Proof.
  intros HO F T ND E B. destruct (whistory_split _ _ _ _ _ _ E) as (ops1 & o & ops2 & p & q & -> & -> & O).
  apply Forall_app in F as [F1 _]. apply turn_app in T. pose proof (neat_whole e ops1 HO F1 T) as NE. unfold wafter in NE.
  destruct (begins_at _ _ _ _ _ _ _ _ O B) as (P & k & N). rewrite udp_part_app, P, app_nil_r.
  change (whistory e (w_init e) ops1) with (wlife e ops1). pose proof (w_nothing_lost e ops1 a F1 T) as NL. cbv zeta in NL. rewrite NL.
  - unfold wafter. rewrite (ne_drain _ _ NE _ (nth_error_In _ _ N) (or_introl eq_refl) a). apply app_nil_r.
  - intros c C. unfold wafter in C. split.
    + intros t ->. apply In_nth_error in C as (j & C).
      assert (k = j) as -> by (apply (so_one _ (ne_solo _ _ NE) k j _ _ N C); intros (x & X); discriminate). congruence.
    + intros x ->. apply (ND x). unfold wafter. rewrite wrun_app. now apply ended_later.
Qed.

(** ** On a network *)
Lemma in_log_node es n i o : mesh_steps (mesh_start es) n -> In (i, o) (me_log n) -> exists e w, nth_error (me_nodes n) i = Some (e, w).
Proof.
  intros H. remember (mesh_start es) as n0. induction H as [n|n1 n2 n3 H IH S]; subst; [intros []|]. specialize (IH eq_refl).
  destruct S as [j before e w after o1 done log L M]. cbn [me_nodes me_log] in *. intros I. apply in_app_or in I as [I|I].
  - destruct (IH I) as (e1 & w1 & N). destruct (Nat.eq_dec i j) as [->|NE].
    + exists e, (wstep e w o1). rewrite <- L. apply NetworkProofs.nth_at.
    + exists e1, w1. destruct (NetworkProofs.nth_middle _ _ _ _ _ N) as [[Q _]|[_ Q]]; [congruence|]. apply Q.
  - apply in_map_iff in I as (x & E & _). injection E as <- _. exists e, (wstep e w o1). rewrite <- L. apply NetworkProofs.nth_at.
Qed.
Lemma mesh_quiet es n i x : mesh_steps (mesh_start es) n -> Forall (fun e => e_handle_out (we_env e) = false) es ->
  (forall p, In p (me_done n) -> leaves_all (snd p)) -> in_turn es n -> In (i, WV (VSeen (Net (Attempted x)))) (me_log n) -> ~ announces_acks x.
Proof.
  intros S HO LA T H. destruct (in_log_node es n i _ S H) as (e & w & N). destruct (mesh_each es n S) as [EE K].
  destruct (K i e w N) as [_ KL]. apply of_manager_in in H. rewrite KL in H.
  assert (nth_error es i = Some e) as NE by (rewrite <- EE, nth_error_map, N; reflexivity).
  rewrite Forall_forall in HO. apply (life_quiet e (of_manager i (me_done n)) x); [exact (HO e (nth_error_In _ _ NE))| |exact (T i e NE)|exact H].
  apply Forall_forall. intros o O. apply of_manager_in in O. exact (LA _ O).
Qed.
Lemma mesh_called_quiet pv ts ta es n past j s y future : mesh_steps (mesh_start es) n -> shares pv ts ta es -> well_used ts n -> in_turn es n ->
  me_log n = past ++ (j, WV (VSeen (Called s y))) :: future ->
  exists x d t, put_out (of_dispatchers past) x d /\ In t ts /\ m_name (at_msg x) = t_name t /\ a_copy t (at_msg x) y /\ m_acks y = [] /\
    ((exists ids, acknowledges (at_msg x) ids /\ Forall (a_number (of_dispatchers past)) ids) \/ enqueued_message n past (at_msg x)).
Proof.
  intros S (ST & SZ & UN & IN & PT) [D FP] T L.
  destruct (mesh_called pv ts ta es n past j s y future S ST SZ UN IN PT D FP L) as (_ & x & d & t & P & IT & NM & CP & AF & SR).
  exists x, d, t. split; [exact P|]. split; [exact IT|]. split; [exact NM|]. split; [exact CP|]. split; [|exact SR].
  pose proof P as P0. destruct P0 as (i & I & _). apply in_of in I.
  assert (~ announces_acks x) as NA.
  { apply (mesh_quiet es n i x S (silent_out _ _ _ ST) (fun p H => proj1 (D p H)) T). rewrite L. apply in_or_app. now left. }
  unfold acks_from, announces_acks in *. destruct (Z.testbit (m_flags (at_msg x)) ack_bit); [congruence|exact AF].
Qed.
