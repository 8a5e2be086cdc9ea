From Coq Require Import Permutation.
From Verif Require Import Lib SpecManager ManagerProofs DispatchProofs SpecLiveManager GreenletProofs GreenletAcks GreenletMore LiveManagerProofs.

(** ** One coroutine *)
Lemma nth_upd_eq {A} n (x : A) l : (n < List.length l)%nat -> nth_error (update_nth n x l) n = Some x.
Proof. intros H. apply HeaderProofs.nth_update_eq. exact H. Qed.
Lemma nth_upd_neq {A} n m (x : A) l : n <> m -> nth_error (update_nth n x l) m = nth_error l m.
Proof. intros H. apply HeaderProofs.nth_update_neq. exact H. Qed.

Lemma iteration_one r data : bg_call r = CReceive data -> v_iteration [r].
Proof. intros E. exists r, [], []. split; [reflexivity|]. split; [eauto|]. split; [now left|constructor]. Qed.
Lemma iteration_two r data k : bg_call r = CReceive data -> bg_call k = CAcks -> v_iteration [r; k].
Proof. intros E K. exists r, [k], []. split; [reflexivity|]. split; [eauto|]. split; [right; eauto|constructor]. Qed.
Lemma iteration_snoc bs b msg rel : v_iteration bs -> bg_call b = CSend msg rel -> v_iteration (bs ++ [b]).
Proof.
  intros (r & acks & sends & -> & R & A & S) E. exists r, acks, (sends ++ [b]). split; [cbn; now rewrite <- app_assoc|].
  split; [exact R|]. split; [exact A|]. apply Forall_app. split; [exact S|]. repeat constructor. eauto.
Qed.
Definition fine (v : live) (b : begun) : Prop := call_ended v b None.
Definition mk (i t : nat) (c : call) : begun := {| bg_by := i; bg_thread := t; bg_call := c |}.
Definition where_at (v : live) (i : nat) (p : vpc) (cur : list begun) : Prop :=
  match p with
  | VStart | VSleep | VRecv | VEnd None => cur = []
  | VReceive t => exists data, cur = [mk i t (CReceive data)]
  | VAcks t => exists r data, cur = [r; mk i t CAcks] /\ bg_call r = CReceive data /\ fine v r
  | VDrain => v_iteration cur /\ Forall (fine v) cur
  | VSend t => exists cur' msg rel, cur = cur' ++ [mk i t (CSend msg rel)] /\ v_iteration cur' /\ Forall (fine v) cur'
  | VEnd (Some e) => exists cur' b, cur = cur' ++ [b] /\ v_iteration cur /\ Forall (fine v) cur' /\ call_ended v b (Some e)
  end.
Definition vshape (v : live) (i : nat) (bs : list begun) : Prop :=
  match nth_error (lv_udp v) i with
  | None => bs = []
  | Some p => exists its cur, bs = List.concat its ++ cur /\ Forall v_iteration its /\ Forall (fine v) (List.concat its) /\
                (p = VStart -> its = []) /\ where_at v i p cur
  end.
Lemma fine_step env v o bs : Forall (fine v) bs -> Forall (fine (vstep env v o)) bs.
Proof. apply Forall_impl. intros b. apply call_ended_step. Qed.
Lemma where_step env v o i p cur : where_at v i p cur -> where_at (vstep env v o) i p cur.
Proof.
  destruct p as [| | |t|t| |t|[e|]]; cbn [where_at]; auto.
  - intros (r & data & E & R & F). exists r, data. split; [exact E|]. split; [exact R|]. now apply call_ended_step.
  - intros [A B]. split; [exact A|]. now apply fine_step.
  - intros (c & msg & rel & E & A & B). exists c, msg, rel. split; [exact E|]. split; [exact A|]. now apply fine_step.
  - intros (c & b & E & A & B & C). exists c, b. split; [exact E|]. split; [exact A|]. split; [now apply fine_step|]. now apply call_ended_step.
Qed.
(** A step of the coroutine itself, before what it starts has started. *)
Lemma where_move v i p r order xs bs q p' cur its : udp_step v i p r order = (xs, bs, q, p') ->
  where_at v i p cur -> Forall v_iteration its -> Forall (fine v) (List.concat its) -> (p = VStart -> its = []) ->
  exists its' cur', List.concat its ++ cur ++ bs = List.concat its' ++ cur' /\ Forall v_iteration its' /\
    Forall (fine v) (List.concat its') /\ (p' = VStart -> its' = []) /\ where_at v i p' cur'.
Proof.
  intros U W F1 F2 S. unfold udp_step in U.
  assert (forall b : bool, (if b then VSleep else VEnd None) <> VStart) as NS by (intros []; discriminate).
  destruct p as [| | |t|t| |t|e].
  - injection U as <- <- <- <-. cbn in W. subst cur. exists its, []. repeat split; auto. destruct (lv_running v); reflexivity.
  - injection U as <- <- <- <-. cbn in W. subst cur. exists its, []. repeat split; auto. discriminate.
  - cbn in W. subst cur. destruct r as [|a data]; injection U as <- <- <- <-; (eexists its, _; split; [reflexivity|]);
      (split; [exact F1|]); (split; [exact F2|]); (split; [discriminate|]); cbn [where_at]; eexists; reflexivity.
  - destruct W as (data & ->). destruct (returned (lv_cf v) t) as [[u|e]|] eqn:R.
    + pose proof (returned_ended v i t (CReceive data) _ R) as EN. cbn in EN. fold (mk i t (CReceive data)) in EN.
      destruct (has_unacked (cf_st (lv_cf v))); injection U as <- <- <- <-.
      * eexists its, _. split; [reflexivity|]. split; [exact F1|]. split; [exact F2|]. split; [discriminate|].
        cbn [where_at]. eexists _, data. split; [reflexivity|]. split; [reflexivity|exact EN].
      * eexists its, _. split; [reflexivity|]. split; [exact F1|]. split; [exact F2|]. split; [discriminate|].
        rewrite app_nil_r. split; [eapply iteration_one; reflexivity|]. repeat constructor. exact EN.
    + injection U as <- <- <- <-. pose proof (returned_ended v i t (CReceive data) _ R) as EN. cbn in EN.
      eexists its, _. split; [reflexivity|]. split; [exact F1|]. split; [exact F2|]. split; [discriminate|].
      rewrite app_nil_r. cbn [where_at]. exists [], (mk i t (CReceive data)). split; [reflexivity|]. split; [eapply iteration_one; reflexivity|].
      split; [constructor|exact EN].
    + injection U as <- <- <- <-. eexists its, _. split; [reflexivity|]. split; [exact F1|]. split; [exact F2|]. split; [discriminate|].
      rewrite app_nil_r. exists data. reflexivity.
  - destruct W as (rb & data & -> & RB & FB). destruct (returned (lv_cf v) t) as [[u|e]|] eqn:R; injection U as <- <- <- <-;
      rewrite app_nil_r; (eexists its, _; split; [reflexivity|]); (split; [exact F1|]); (split; [exact F2|]); (split; [discriminate|]).
    + pose proof (returned_ended v i t CAcks _ R) as EN. cbn in EN. split; [eapply iteration_two; [exact RB|reflexivity]|]. repeat constructor; assumption.
    + pose proof (returned_ended v i t CAcks _ R) as EN. cbn in EN. exists [rb], (mk i t CAcks). split; [reflexivity|].
      split; [eapply iteration_two; [exact RB|reflexivity]|]. split; [repeat constructor; assumption|exact EN].
    + exists rb, data. auto.
  - destruct W as [W1 W2]. destruct (lv_queue v) as [|[msg rel] q0]; injection U as <- <- <- <-.
    + exists (its ++ [cur]), []. rewrite concat_app. cbn [List.concat]. rewrite !app_nil_r. split; [reflexivity|].
      split; [apply Forall_app; auto|]. split; [apply Forall_app; auto|]. split; [intros X; now apply NS in X|]. destruct (lv_running v); reflexivity.
    + eexists its, _. split; [reflexivity|]. split; [exact F1|]. split; [exact F2|]. split; [discriminate|].
      cbn [where_at]. exists cur, msg, rel. auto.
  - destruct W as (c & msg & rel & -> & W1 & W2). destruct (returned (lv_cf v) t) as [[u|e]|] eqn:R; injection U as <- <- <- <-;
      rewrite app_nil_r; (eexists its, _; split; [reflexivity|]); (split; [exact F1|]); (split; [exact F2|]); (split; [discriminate|]).
    + pose proof (returned_ended v i t (CSend msg rel) _ R) as EN. cbn in EN. split; [eapply iteration_snoc; [exact W1|reflexivity]|].
      apply Forall_app. split; [exact W2|]. repeat constructor. exact EN.
    + pose proof (returned_ended v i t (CSend msg rel) _ R) as EN. cbn in EN. exists c, (mk i t (CSend msg rel)). split; [reflexivity|].
      split; [eapply iteration_snoc; [exact W1|reflexivity]|]. split; [exact W2|exact EN].
    + exists c, msg, rel. auto.
  - injection U as <- <- <- <-. rewrite app_nil_r. exists its, cur. repeat split; auto.
Qed.
Lemma udp_by v i p r order xs bs q p' j : udp_step v i p r order = (xs, bs, q, p') ->
  filter (fun b => Nat.eqb j (bg_by b)) bs = if Nat.eqb j i then bs else [].
Proof.
  intros U. assert (Forall (fun b => bg_by b = i) bs) as F.
  { unfold udp_step in U. destruct p as [| | |t|t| |t|e]; try (injection U as <- <- <- <-; constructor; fail).
    - destruct r; injection U as <- <- <- <-; repeat constructor.
    - destruct (returned (lv_cf v) t) as [[u|e]|]; try (injection U as <- <- <- <-; constructor; fail).
      destruct (has_unacked _); injection U as <- <- <- <-; repeat constructor.
    - destruct (returned (lv_cf v) t) as [[u|e]|]; injection U as <- <- <- <-; constructor.
    - destruct (lv_queue v) as [|[msg rel] q0]; injection U as <- <- <- <-; repeat constructor.
    - destruct (returned (lv_cf v) t) as [[u|e]|]; injection U as <- <- <- <-; constructor. }
  clear U. induction F as [|b bs E F IH]; [now destruct (Nat.eqb j i)|]. cbn [filter]. rewrite E, IH. destruct (Nat.eqb j i); reflexivity.
Qed.
Lemma vshape_same env v o j bs : vshape v j bs -> nth_error (lv_udp (vstep env v o)) j = nth_error (lv_udp v) j -> vshape (vstep env v o) j bs.
Proof.
  unfold vshape. intros H ->. destruct (nth_error (lv_udp v) j) as [p|]; [|exact H].
  destruct H as (its & cur & E & F1 & F2 & S & W). exists its, cur. split; [exact E|]. split; [exact F1|].
  split; [now apply fine_step|]. split; [exact S|]. now apply where_step.
Qed.
Lemma vshape_step env v o j bs : vshape v j bs ->
  vshape (vstep env v o) j (bs ++ filter (fun b => Nat.eqb j (bg_by b)) (snd (vdoes v o))).
Proof.
  intros H. destruct o as [| |msg rel now|x|i r order]; try (cbn [vdoes snd filter]; rewrite app_nil_r; apply vshape_same; [exact H|reflexivity]).
  - cbn [vdoes snd filter]. rewrite app_nil_r. destruct (Nat.lt_ge_cases j (List.length (lv_udp v))) as [L|L].
    + apply vshape_same; [exact H|]. cbn. now rewrite nth_error_app1.
    + unfold vshape in *. rewrite (proj2 (nth_error_None _ _) L) in H. subst bs. cbn [vstep lv_udp].
      rewrite nth_error_app2 by exact L. destruct (j - List.length (lv_udp v))%nat as [|k]; cbn.
      * exists [], []. repeat split; constructor.
      * destruct k; reflexivity.
  - destruct (nth_error (lv_udp v) i) as [p|] eqn:N.
    2:{ unfold vdoes. rewrite N. cbn [snd filter]. rewrite app_nil_r. apply vshape_same; [exact H|]. cbn. now rewrite N. }
    unfold vdoes. rewrite N. destruct (udp_step v i p r order) as [[[xs bs'] q] p'] eqn:U. cbn [snd]. rewrite (udp_by _ _ _ _ _ _ _ _ _ j U).
    assert (lv_udp (vstep env v (VRun i r order)) = update_nth i p' (lv_udp v)) as EU by (cbn; rewrite N, U; reflexivity).
    destruct (Nat.eqb_spec j i) as [->|NE].
    + unfold vshape in *. rewrite N in H. rewrite EU, nth_upd_eq by (apply nth_error_Some; congruence).
      destruct H as (its & cur & -> & F1 & F2 & S & W).
      destruct (where_move _ _ _ _ _ _ _ _ _ _ _ U W F1 F2 S) as (its' & cur' & E & G1 & G2 & S' & W').
      exists its', cur'. rewrite <- app_assoc. split; [exact E|]. split; [exact G1|]. split; [now apply fine_step|]. split; [exact S'|]. now apply where_step.
    + rewrite app_nil_r. apply vshape_same; [exact H|]. rewrite EU. apply nth_upd_neq. congruence.
Qed.
Lemma calls_of_app i a b : calls_of i (a ++ b) = calls_of i a ++ calls_of i b.
Proof. unfold calls_of. rewrite v_begun_app. apply filter_app. Qed.
Lemma calls_of_observed env v o i : calls_of i (vobserved env v o) = filter (fun b => Nat.eqb i (bg_by b)) (snd (vdoes v o)).
Proof. unfold calls_of. now rewrite observed_begun. Qed.
Lemma vshape_run env ops : forall v j bs, vshape v j bs -> vshape (vrun env v ops) j (bs ++ calls_of j (vhistory env v ops)).
Proof.
  induction ops as [|o ops IH]; intros v j bs H; [cbn; now rewrite app_nil_r|].
  cbn [vrun vhistory]. rewrite calls_of_app, app_assoc, calls_of_observed. apply IH, vshape_step, H.
Qed.
Lemma calls_of_life env host ops i : calls_of i (vlife env host ops) = calls_of i (vhistory env (v_init env host) ops).
Proof. unfold vlife. rewrite calls_of_app. unfold calls_of at 1. now rewrite v_begun_seen. Qed.
Lemma vshape_life env host ops i : vshape (vafter env host ops) i (calls_of i (vlife env host ops)).
Proof.
  rewrite calls_of_life. apply (vshape_run env ops (v_init env host) i []). unfold vshape. cbn. now destruct i.
Qed.
Lemma where_iteration v i p cur : where_at v i p cur -> cur = [] \/ v_iteration cur.
Proof.
  destruct p as [| | |t|t| |t|[e|]]; cbn [where_at]; auto.
  - intros (data & ->). right. eapply iteration_one. reflexivity.
  - intros (r & data & -> & E & _). right. eapply iteration_two; [exact E|reflexivity].
  - intros [A _]. auto.
  - intros (c & msg & rel & -> & A & _). right. eapply iteration_snoc; [exact A|reflexivity].
  - intros (c & b & _ & A & _). auto.
Qed.
Lemma live_iterations env host ops i : exists its, calls_of i (vlife env host ops) = List.concat its /\ Forall v_iteration its.
Proof.
  pose proof (vshape_life env host ops i) as H. unfold vshape in H. destruct (nth_error _ i) as [p|]; [|exists []; split; [exact H|constructor]].
  destruct H as (its & cur & E & F & _ & _ & W). destruct (where_iteration _ _ _ _ W) as [->|I].
  - exists its. rewrite app_nil_r in E. auto.
  - exists (its ++ [cur]). rewrite concat_app. cbn. rewrite app_nil_r. split; [exact E|]. apply Forall_app. auto.
Qed.
Lemma split_fine v l x : Forall (fine v) l -> forall before b after, l ++ [x] = before ++ b :: after -> after <> [] -> fine v b.
Proof.
  intros F before b after E N. apply split_snoc in E as [(-> & _)|(t & -> & ->)]; [contradiction|].
  apply Forall_app in F as [_ F]. now inversion F.
Qed.
Lemma split_fine0 v l : Forall (fine v) l -> forall before b after, l = before ++ b :: after -> fine v b.
Proof. intros F before b after ->. apply Forall_app in F as [_ F]. now inversion F. Qed.
Lemma live_one_call env host ops i before b after : calls_of i (vlife env host ops) = before ++ b :: after -> after <> [] ->
  call_ended (vafter env host ops) b None.
Proof.
  intros E N. pose proof (vshape_life env host ops i) as H. unfold vshape in H.
  destruct (nth_error _ i) as [p|]; [|rewrite H in E; now destruct before].
  destruct H as (its & cur & EE & _ & F & _ & W). rewrite EE in E.
  destruct p as [| | |t|t| |t|[e|]]; cbn [where_at] in W;
    try (subst cur; rewrite app_nil_r in E; exact (split_fine0 _ _ F _ _ _ E)).
  - destruct W as (data & ->). exact (split_fine _ _ _ F _ _ _ E N).
  - destruct W as (r & data & -> & _ & R). change [r; mk i t CAcks] with ([r] ++ [mk i t CAcks]) in E. rewrite app_assoc in E.
    refine (split_fine _ _ _ _ _ _ _ E N). apply Forall_app. split; [exact F|]. repeat constructor. exact R.
  - destruct W as [_ W]. refine (split_fine0 _ _ _ _ _ _ E). apply Forall_app. auto.
  - destruct W as (c & msg & rel & -> & _ & W). rewrite app_assoc in E. refine (split_fine _ _ _ _ _ _ _ E N). apply Forall_app. auto.
  - destruct W as (c & x & -> & _ & W & _). rewrite app_assoc in E. refine (split_fine _ _ _ _ _ _ _ E N). apply Forall_app. auto.
Qed.
Lemma live_ended_by env host ops i e : nth_error (lv_udp (vafter env host ops)) i = Some (VEnd (Some e)) ->
  exists before b, calls_of i (vlife env host ops) = before ++ [b] /\ call_ended (vafter env host ops) b (Some e).
Proof.
  intros N. pose proof (vshape_life env host ops i) as H. unfold vshape in H. rewrite N in H.
  destruct H as (its & cur & EE & _ & F & _ & W). destruct W as (c & b & -> & _ & _ & W). exists (List.concat its ++ c), b.
  rewrite EE, app_assoc. auto.
Qed.

(** ** The flag and the end of a coroutine *)
Lemma vstep_running env v o : lv_running (vstep env v o) = match o with VStartMonitors => true | VStopMonitors => false | _ => lv_running v end.
Proof.
  destruct o as [| |msg rel now|x|i r order]; try reflexivity. cbn. destruct (nth_error (lv_udp v) i); [|reflexivity].
  destruct (udp_step v i v0 r order) as [[[xs bs] q] p']. reflexivity.
Qed.
Lemma started_fold h : forall b, fold_left (fun b x => match x with VStarted => true | VStopped => false | _ => b end) h b =
  fold_left (fun b x => match x with VStarted => true | VStopped => false | _ => b end) (filter (fun x => match x with VStarted | VStopped => true | _ => false end) h) b.
Proof. induction h as [|x h IH]; intros b; [reflexivity|]. destruct x; cbn; apply IH. Qed.
Lemma filter_begun bs : filter (fun x => match x with VStarted | VStopped => true | _ => false end) (map VBegun bs) = [].
Proof. induction bs; [reflexivity|assumption]. Qed.
Lemma filter_seen es : filter (fun x => match x with VStarted | VStopped => true | _ => false end) (map VSeen es) = [].
Proof. induction es; [reflexivity|assumption]. Qed.
Lemma observed_flag env v o b : fold_left (fun b x => match x with VStarted => true | VStopped => false | _ => b end) (vobserved env v o) b =
  match o with VStartMonitors => true | VStopMonitors => false | _ => b end.
Proof.
  rewrite started_fold. unfold vobserved. rewrite !filter_app, filter_begun, filter_seen, app_nil_r. destruct o; reflexivity.
Qed.
Lemma flag_run env ops : forall v, lv_running (vrun env v ops) =
  fold_left (fun b x => match x with VStarted => true | VStopped => false | _ => b end) (vhistory env v ops) (lv_running v).
Proof.
  induction ops as [|o ops IH]; intros v; [reflexivity|]. cbn [vrun vhistory]. rewrite fold_left_app, observed_flag, IH, vstep_running. reflexivity.
Qed.
Lemma flag_life env host ops : lv_running (vafter env host ops) = v_started_last (vlife env host ops).
Proof.
  unfold v_started_last, vlife, vafter. rewrite fold_left_app, flag_run, (started_fold (map VSeen _)), filter_seen. reflexivity.
Qed.
Definition budget (v : live) (i : nat) : nat :=
  match nth_error (lv_udp v) i with Some VSleep | Some VRecv => 1%nat | _ => 0%nat end.
Lemma receptions_app a b : receptions (a ++ b) = receptions a ++ receptions b.
Proof. apply filter_app. Qed.
Lemma budget_run env ops : forall v i, lv_running v = false -> Forall v_no_start ops ->
  (List.length (receptions (calls_of i (vhistory env v ops))) <= budget v i)%nat.
Proof.
  induction ops as [|o ops IH]; intros v i R F; [cbn; lia|]. inversion F as [|? ? NS F']; subst.
  cbn [vhistory]. rewrite calls_of_app, receptions_app, app_length, calls_of_observed.
  assert (lv_running (vstep env v o) = false) as R'.
  { rewrite vstep_running. destruct o; try exact R; [|reflexivity]. now destruct NS. }
  specialize (IH _ i R' F').
  assert (List.length (receptions (filter (fun b => Nat.eqb i (bg_by b)) (snd (vdoes v o)))) + budget (vstep env v o) i <= budget v i)%nat; [|lia].
  clear IH F F'. destruct o as [| |msg rel now|x|j r order]; try (cbn; unfold budget; cbn; lia); [now destruct NS|].
  unfold vdoes, budget, vstep. destruct (nth_error (lv_udp v) j) as [p|] eqn:N; [|cbn; lia].
  destruct (udp_step v j p r order) as [[[xs bs] q] p'] eqn:U. cbn [snd lv_udp]. rewrite (udp_by _ _ _ _ _ _ _ _ _ i U).
  destruct (Nat.eqb_spec i j) as [->|NE].
  2:{ rewrite nth_upd_neq by congruence. cbn. lia. }
  rewrite nth_upd_eq by (apply nth_error_Some; congruence). rewrite N. unfold udp_step in U. rewrite R in U.
  destruct p as [| | |t|t| |t|e]; try (injection U as <- <- <- <-; cbn; lia; fail).
  - destruct r; injection U as <- <- <- <-; cbn; lia.
  - destruct (returned (lv_cf v) t) as [[u|e]|]; try (injection U as <- <- <- <-; cbn; lia; fail).
    destruct (has_unacked _); injection U as <- <- <- <-; cbn; lia.
  - destruct (returned (lv_cf v) t) as [[u|e]|]; injection U as <- <- <- <-; cbn; lia.
  - destruct (lv_queue v) as [|[msg rel] q0]; injection U as <- <- <- <-; cbn; lia.
  - destruct (returned (lv_cf v) t) as [[u|e]|]; injection U as <- <- <- <-; cbn; lia.
Qed.
Lemma live_stop env host ops1 ops2 i : v_started_last (vlife env host ops1) = false -> Forall v_no_start ops2 ->
  (List.length (receptions (calls_of i (vhistory env (vafter env host ops1) ops2))) <= 1)%nat.
Proof.
  intros R F. rewrite <- flag_life in R. pose proof (budget_run env ops2 _ i R F) as B. unfold budget in B.
  destruct (nth_error _ i) as [[]|]; lia.
Qed.
Lemma live_ends env host ops i : nth_error (lv_udp (vafter env host ops)) i = Some (VEnd None) ->
  exists ops1 ops2, ops = ops1 ++ ops2 /\ v_started_last (vlife env host ops1) = false /\
    (calls_of i (vlife env host ops1) = [] \/ lv_queue (vafter env host ops1) = []) /\
    calls_of i (vhistory env (vafter env host ops1) ops2) = [].
Proof.
  induction ops as [|o ops IH] using rev_ind; [destruct i; discriminate|].
  intros N. unfold vafter in N. rewrite vrun_app in N. fold (vafter env host ops) in N. cbn [vrun] in N.
  destruct (nth_error (lv_udp (vafter env host ops)) i) as [p|] eqn:P.
  2:{ exfalso. set (v := vafter env host ops) in *. destruct o as [| |msg rel now|x|j r order]; cbn in N; try congruence.
      - apply nth_error_None in P. rewrite nth_error_app2 in N by exact P. destruct (i - List.length (lv_udp v))%nat as [|[|k]]; discriminate.
      - destruct (nth_error (lv_udp v) j) as [p|] eqn:J; [|congruence]. destruct (udp_step v j p r order) as [[[xs bs] q] p']. cbn in N.
        apply nth_error_None in P. assert (i < List.length (update_nth j p' (lv_udp v)))%nat by (apply nth_error_Some; congruence).
        rewrite upd_length in H. lia. }
  assert (p = VEnd None \/ p <> VEnd None) as [->|NP] by (destruct p as [| | | | | | |[e|]]; auto; right; discriminate).
  - destruct (IH eq_refl) as (ops1 & ops2 & -> & S & Q & C). exists ops1, (ops2 ++ [o]). rewrite <- app_assoc. split; [reflexivity|].
    split; [exact S|]. split; [exact Q|]. rewrite vhistory_app, calls_of_app, C.
    unfold vafter in P. rewrite vrun_app in P. fold (vafter env host ops1) in P. cbn [vhistory]. rewrite app_nil_r, calls_of_observed. cbn [app].
    set (v := vrun env (vafter env host ops1) ops2) in *. destruct o as [| |msg rel now|x|j r order]; try reflexivity.
    unfold vdoes. destruct (nth_error (lv_udp v) j) as [p|] eqn:J; [|reflexivity].
    destruct (udp_step v j p r order) as [[[xs bs] q] p'] eqn:U. cbn [snd]. rewrite (udp_by _ _ _ _ _ _ _ _ _ i U).
    destruct (Nat.eqb_spec i j) as [->|]; [|reflexivity]. rewrite P in J. injection J as <-. now injection U as <- <- <- <-.
  - exists (ops ++ [o]), []. rewrite app_nil_r. split; [reflexivity|]. split; [|split; [|reflexivity]].
    + rewrite <- flag_life. unfold vafter. rewrite vrun_app. fold (vafter env host ops). cbn [vrun]. set (v := vafter env host ops) in *.
      rewrite vstep_running. destruct o as [| |msg rel now|x|j r order]; cbn in N; try congruence.
      * rewrite nth_error_app1 in N by (apply nth_error_Some; congruence). congruence.
      * destruct (nth_error (lv_udp v) j) as [pj|] eqn:J; [|congruence]. destruct (udp_step v j pj r order) as [[[xs bs] q] p'] eqn:U. cbn in N.
        destruct (Nat.eq_dec j i) as [->|NE]; [|rewrite nth_upd_neq in N by exact NE; congruence].
        rewrite nth_upd_eq in N by (apply nth_error_Some; congruence). injection N as ->. rewrite P in J. injection J as <-.
        unfold udp_step in U. destruct p as [| | |t|t| |t|e]; try discriminate U.
        -- destruct (lv_running v); [discriminate U|reflexivity].
        -- destruct r; discriminate U.
        -- destruct (returned (lv_cf v) t) as [[u|e]|]; try discriminate U. destruct (has_unacked _); discriminate U.
        -- destruct (returned (lv_cf v) t) as [[u|e]|]; discriminate U.
        -- destruct (lv_queue v) as [|[msg rel] q0]; [|discriminate U]. destruct (lv_running v); [discriminate U|reflexivity].
        -- destruct (returned (lv_cf v) t) as [[u|e]|]; discriminate U.
        -- injection U as _ _ _ ->. congruence.
    + pose proof (vshape_life env host ops i) as SH. unfold vshape in SH. rewrite P in SH.
      unfold vlife, vafter. rewrite vhistory_app, vrun_app, app_assoc. fold (vafter env host ops) (vlife env host ops). cbn [vrun vhistory].
      rewrite app_nil_r, calls_of_app, calls_of_observed. set (v := vafter env host ops) in *.
      destruct o as [| |msg rel now|x|j r order]; cbn in N; try congruence.
      * rewrite nth_error_app1 in N by (apply nth_error_Some; congruence). congruence.
      * unfold vdoes, vstep. destruct (nth_error (lv_udp v) j) as [pj|] eqn:J; [|congruence]. destruct (udp_step v j pj r order) as [[[xs bs] q] p'] eqn:U. cbn in N.
        cbn [snd lv_queue]. rewrite (udp_by _ _ _ _ _ _ _ _ _ i U).
        destruct (Nat.eq_dec j i) as [->|NE]; [|rewrite nth_upd_neq in N by exact NE; congruence].
        rewrite nth_upd_eq in N by (apply nth_error_Some; congruence). injection N as ->. rewrite P in J. injection J as <-.
        destruct SH as (its & cur & E & _ & _ & SI & W). rewrite Nat.eqb_refl.
        unfold udp_step in U. destruct p as [| | |t|t| |t|e]; try discriminate U.
        -- left. injection U as <- <- <- _. rewrite E, (SI eq_refl). cbn in W. now rewrite W.
        -- destruct r; discriminate U.
        -- destruct (returned (lv_cf v) t) as [[u|e]|]; try discriminate U. destruct (has_unacked _); discriminate U.
        -- destruct (returned (lv_cf v) t) as [[u|e]|]; discriminate U.
        -- right. destruct (lv_queue v) as [|[msg rel] q0]; [|discriminate U]. now injection U as <- <- <- _.
        -- destruct (returned (lv_cf v) t) as [[u|e]|]; discriminate U.
        -- injection U as _ _ _ ->. congruence.
Qed.
