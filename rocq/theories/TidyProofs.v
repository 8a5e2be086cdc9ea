(** Lemmas for C105: with one coroutine at a time nothing is left to be acknowledged
    when a manager comes to its outgoing queue. *)
From Verif Require Import SpecMessages MessageProofs.
From Verif Require Import Lib SpecLiveManager SpecManager ManagerProofs DispatchProofs DispatchMore GreenletProofs GreenletAcks GreenletMore LiveManagerProofs LiveManagerMore LiveManagerAcks.
From Verif Require Import SpecCrowd CrowdProofs MeshMore MeshSource.
From Verif Require Import SpecGreenlets SpecCrowd.
Open Scope Z_scope.
Open Scope list_scope.

(** ** What a step of the dispatcher does to the queues of acks *)
Definition kept (st st' : dstate) : Prop := forall a, pending_acks st' a = pending_acks st a \/ pending_acks st' a = [].
Definition clean (st : dstate) : Prop := forall a, pending_acks st a = [].
Definition keys_of (th : thread) : list addr :=
  match th with
  | AtAcks todo => todo
  | _ => match flush_of th with Some (f, _) => f_key f :: f_todo f | None => [] end
  end.
Definition covered (st : dstate) (th : thread) : Prop := forall a, pending_acks st a <> [] -> In a (keys_of th).
Definition done_well (th : thread) : Prop := exists o, th = Finished (OSend o) /\ exists r, o_res o = Ok r.

Lemma kept_refl st : kept st st.
Proof. intros a. now left. Qed.
Lemma kept_trans s1 s2 s3 : kept s1 s2 -> kept s2 s3 -> kept s1 s3.
Proof. intros A B a. destruct (B a) as [->|E]; [apply A|now right]. Qed.
Lemma kept_same st st' : (forall a, pending_acks st' a = pending_acks st a) -> kept st st'.
Proof. intros H a. left. apply H. Qed.
Lemma kept_effect st xs st' : effect st xs st' -> kept st st'.
Proof. intros F. apply kept_same. intros a. eapply pending_effect; exact F. Qed.
Lemma kept_dirty st st' a : kept st st' -> pending_acks st' a <> [] -> pending_acks st a <> [].
Proof. intros K D. destruct (K a) as [E|E]; congruence. Qed.
Lemma kept_clean st st' : kept st st' -> clean st -> clean st'.
Proof. intros K C a. destruct (K a) as [E|E]; [now rewrite E|exact E]. Qed.
Lemma clear_pending st k a : inv st -> pending_acks (clear_acks st k) a = if addr_eqb a k then [] else pending_acks st a.
Proof.
  intros I. destruct (clear_spec st k I) as [F E]. destruct (addr_dec a k) as [->|N]; [now rewrite addr_eqb_refl|].
  rewrite addr_eqb_neq by exact N. unfold pending_acks. change (circuit_of (clear_acks st k) a) with (circ (clear_acks st k) a).
  rewrite (fl_out _ _ _ _ F); [reflexivity| |intros []]. intros [E'|[]]. congruence.
Qed.
Lemma empty_kept st f st' ms th : inv st -> empty_queue st f = (st', ms, th) ->
  kept st st' /\ ((forall a, pending_acks st a <> [] -> In a (f_key f :: f_todo f)) -> acking th = true /\ covered st' th).
Proof.
  intros I [= <- <- <-]. split.
  - intros a. rewrite clear_pending by exact I. destruct (addr_eqb a (f_key f)); [now right|now left].
  - intros C. split; [reflexivity|]. intros a D. cbn [keys_of]. rewrite clear_pending in D by exact I.
    destruct (addr_dec a (f_key f)) as [->|N]; [rewrite addr_eqb_refl in D; congruence|]. rewrite addr_eqb_neq in D by exact N.
    destruct (C a D) as [E|H]; [congruence|exact H].
Qed.
Lemma loop_kept env st f st' ms th : inv st -> ack_loop env st f = (st', ms, th) ->
  kept st st' /\ ((forall a, pending_acks st a <> [] -> In a (f_key f :: f_todo f)) -> acking th = true /\ covered st' th).
Proof.
  intros I H. unfold ack_loop in H. destruct (take_acks _ _) as [ids full]. destruct (full || (0 <? zlen ids)); [|exact (empty_kept _ _ _ _ _ I H)].
  destruct (begin_send env _ _ _ _ _) as [[st1 ms1] th1] eqn:B in H. injection H as <- <- <-.
  destruct (begin_effect _ _ _ _ _ _ _ _ _ (inv_new _ _ I) B) as (EF & _ & FR & _).
  pose proof (kept_effect _ _ _ EF) as K. split; [exact K|]. intros C. destruct (from_flush _ _ _ FR) as [FL AK]. split; [exact AK|].
  intros a D. pose proof (kept_dirty _ _ a K D) as D0. specialize (C a D0). unfold keys_of. rewrite FL.
  destruct th1; exact C || discriminate FL.
Qed.
Lemma resume_kept env st e th st' ms th' : inv st -> dl env (fun _ => True) th -> e_handle_out env = false -> acking th = true -> resume env st e th = (st', ms, th') ->
  kept st st' /\ (covered st th -> acking th' = true /\ covered st' th' \/ (exists o, th' = Finished (OSend o)) /\ (done_well th' -> clean st')).
Proof.
  intros I DL HO AK H. destruct th as [o|name i w|mref b k|r f last|todo]; cbn [resume] in H; try discriminate AK.
  - destruct w as [m|mref href md k]; [discriminate AK|]. cbn in DL. congruence.
  - destruct k as [|f last]; [discriminate AK|].
    assert (exists r, th' = Returning r f last /\ forall a, pending_acks st' a = pending_acks st a) as (r & -> & P) by (destruct e; injection H as <- <- <-; eauto).
    split; [now apply kept_same|]. intros C. left. split; [reflexivity|]. intros a D. rewrite P in D. exact (C a D).
  - destruct r as [r|x].
    + destruct last.
      * destruct (empty_kept _ _ _ _ _ I H) as [K C]. split; [exact K|]. intros CV. left. apply C. exact CV.
      * destruct (loop_kept _ _ _ _ _ _ I H) as [K C]. split; [exact K|]. intros CV. left. apply C. exact CV.
    + injection H as <- <- <-. split; [apply kept_refl|]. intros _. right. split; [eauto|]. intros (o & [= <-] & r' & E). discriminate.
  - unfold next_circuit in H. destruct todo as [|k todo].
    + injection H as <- <- <-. split; [apply kept_refl|]. intros C. right. split; [eauto|]. intros _ a.
      destruct (pending_acks st a) eqn:E; [reflexivity|]. exfalso. apply (C a). congruence.
    + destruct (get_circuit (s_circuits st) k) as [c|] eqn:G.
      * destruct (loop_kept _ _ _ _ _ _ I H) as [K C]. split; [exact K|]. intros CV. left. apply C. exact CV.
      * injection H as <- <- <-. split; [apply kept_refl|]. intros C. left. split; [reflexivity|]. intros a D. destruct (C a D) as [<-|IN]; [|exact IN].
        exfalso. apply D. unfold pending_acks, circuit_of. now rewrite G.
Qed.
Lemma step_kept env st o : inv st -> match o with Send _ _ _ _ | Receive _ _ _ | ProcessAcks _ _ => False | _ => True end -> kept st (fst (step env st o)).
Proof.
  intros I N. destruct o as [a|h a|m|r m|r|a b|mref href md sock|mref href|href buf size|order sock|a]; try contradiction;
    try (apply kept_same; intros x; reflexivity).
  - apply kept_same. apply trusted_pending.
  - intros x. rewrite remove_pending by exact I. destruct (addr_eqb x a); [now right|now left].
Qed.
Definition no_receive (x : sched) : Prop := match x with Spawn (Receive _ _ _) => False | _ => True end.
Lemma cstep_kept env cf x : sane env cf -> e_handle_out env = false -> no_receive x -> kept (cf_st cf) (cf_st (fst (cstep env cf x))).
Proof.
  intros [[I _] _ D] HO N. destruct x as [o|i e]; cbn [cstep].
  - destruct (start env cf o) as [[st ms] th] eqn:E. cbn [fst cf_st]. unfold start in E.
    destruct o as [a|h a|m|r m|r|a b|mref href md sock|mref href|href buf size|order sock|a]; try contradiction;
      try (match type of E with (let '(_, _) := step ?en ?s ?o in _) = _ => pose proof (step_kept en s o I Logic.I) as K; destruct (step en s o); injection E as <- <- <-; exact K end).
    + destruct (begin_effect _ _ _ _ _ _ _ _ _ I E) as (EF & _). eapply kept_effect; exact EF.
    + rewrite resend_none in E by exact I. injection E as <- <- <-. apply kept_refl.
    + destruct (existsb acking (cf_pool cf)); [injection E as <- <- <-; apply kept_refl|].
      pose proof (step_kept (silent env) (cf_st cf) (RemoveCircuit a) I Logic.I) as K. destruct (step (silent env) (cf_st cf) (RemoveCircuit a)); injection E as <- <- <-; exact K.
  - destruct (nth_error (cf_pool cf) i) as [th|] eqn:NT; [|apply kept_refl].
    destruct (resume env (cf_st cf) e th) as [[st ms] th'] eqn:R. cbn [fst cf_st]. destruct (acking th) eqn:AK.
    + exact (proj1 (resume_kept _ _ _ _ _ _ _ I (D th (nth_error_In _ _ NT)) HO AK R)).
    + apply kept_same. exact (proj1 (resume_other _ _ _ _ _ _ _ I AK R)).
Qed.

(** ** One thread inside process_acks *)
(** What is true of the thread with index [t], if it runs process_acks. *)
Definition tidy_thread (cf : config) (t : nat) : Prop :=
  exists th, nth_error (cf_pool cf) t = Some th /\ (acking th = true /\ covered (cf_st cf) th \/ (exists o, th = Finished (OSend o)) /\ (done_well th -> clean (cf_st cf))).
Lemma detach_keys k l th : keys_of (detach k l th) = keys_of th.
Proof.
  assert (forall f, f_key (detach_flush k l f) = f_key f /\ f_todo (detach_flush k l f) = f_todo f) as DF.
  { intros f. unfold detach_flush. destruct (addr_eqb k (f_key f)); [|auto]. destruct (f_list f); auto. }
  destruct th as [o|name i [m|mref href md [|f last]]|mref b [|f last]|r f last|todo]; try reflexivity; cbn; destruct (DF f) as [-> ->]; reflexivity.
Qed.
Definition fin (th th' : thread) : Prop := keys_of th' = keys_of th /\ acking th' = acking th /\ (done_well th' <-> done_well th) /\ forall o, th = Finished o -> th' = Finished o.
Lemma detach_fin k l th : fin th (detach k l th).
Proof.
  split; [apply detach_keys|]. split; [apply detach_acking|].
  destruct th as [o|name i [m|mref href md b]|mref b bk|r f last|todo]; (split; [split; intros W; try exact W; destruct W as (o' & E & _); discriminate|]); intros o' E; exact E || discriminate.
Qed.
Lemma fin_trans a b c : fin a b -> fin b c -> fin a c.
Proof. intros (A & B & C & C') (D & E & F & F'). split; [congruence|]. split; [congruence|]. split; [now rewrite F, C|auto]. Qed.
Lemma detach_all_fin st ms pool : exists g, (forall th, fin th (g th)) /\ detach_all st ms pool = map g pool.
Proof.
  revert pool. induction ms as [|m ms IH] using rev_ind; intros pool.
  - exists (fun th => th). split; [intros th; split; [reflexivity|split; [reflexivity|split; [reflexivity|auto]]]|]. unfold detach_all. cbn. symmetry. apply map_id.
  - destruct (IH pool) as (g & A & E). unfold detach_all in *. rewrite fold_left_app, E. cbn [fold_left].
    destruct m as [s m|x|k ids|k|k]; try (exists g; split; [exact A|reflexivity]).
    exists (fun th => detach k match get_circuit (s_circuits st) k with Some c => c_acks c | None => [] end (g th)). split; [|apply map_map].
    intros th. eapply fin_trans; [apply A|apply detach_fin].
Qed.
Lemma tidy_less cf cf' t th th' : nth_error (cf_pool cf) t = Some th -> nth_error (cf_pool cf') t = Some th' -> fin th th' -> kept (cf_st cf) (cf_st cf') ->
  tidy_thread cf t -> tidy_thread cf' t.
Proof.
  intros N N' (F1 & F2 & F3 & F4) K (th0 & N0 & [[A C]|[[o A] C]]); rewrite N in N0; injection N0 as <-; exists th'; (split; [exact N'|]).
  - left. split; [congruence|]. intros a D. rewrite F1. apply C. exact (kept_dirty _ _ _ K D).
  - right. split; [eauto|]. intros W. apply (kept_clean _ _ K). apply C. now apply F3.
Qed.
Lemma cstep_tidy env cf x t : sane env cf -> e_handle_out env = false -> no_receive x -> tidy_thread cf t -> tidy_thread (fst (cstep env cf x)) t.
Proof.
  intros SN HO NR T. pose proof (cstep_kept env cf x SN HO NR) as K. destruct SN as [[I _] _ D].
  pose proof T as (th & N & TH). destruct x as [o|i e].
  - cbn [cstep] in *. destruct (start env cf o) as [[st ms] th1]. cbn [fst cf_st cf_pool] in *.
    eapply tidy_less; [exact N| |split; [reflexivity|split; [reflexivity|split; [reflexivity|auto]]]|exact K|exact T].
    cbn [cf_pool]. rewrite nth_error_app1; [exact N|]. apply nth_error_Some. congruence.
  - cbn [cstep] in *. destruct (nth_error (cf_pool cf) i) as [ti|] eqn:NI; [|exact T].
    destruct (resume env (cf_st cf) e ti) as [[st ms] th'] eqn:R. cbn [fst cf_st cf_pool] in *.
    destruct (detach_all_fin (cf_st cf) ms (cf_pool cf)) as (g & G & EG).
    destruct (Nat.eq_dec i t) as [->|NE].
    + rewrite N in NI. injection NI as <-.
      assert (nth_error (update_nth t th' (detach_all (cf_st cf) ms (cf_pool cf))) t = Some th') as N'.
      { rewrite EG. apply nth_upd_eq. rewrite map_length. apply nth_error_Some. congruence. }
      exists th'. cbn [cf_pool cf_st]. split; [exact N'|]. destruct TH as [[A C]|[A C]].
      * exact (proj2 (resume_kept _ _ _ _ _ _ _ I (D th (nth_error_In _ _ N)) HO A R) C).
      * destruct A as (o & ->). cbn [resume] in R. injection R as <- <- <-. right. split; [eauto|exact C].
    + eapply tidy_less; [exact N| |exact (G th)|exact K|exact T].
      cbn [cf_pool]. rewrite nth_upd_neq by exact NE. rewrite EG, nth_error_map, N. reflexivity.
Qed.
