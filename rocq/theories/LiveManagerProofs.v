From Coq Require Import Permutation Sorting.Sorted.
From Verif Require Import Lib SpecManager ManagerProofs DispatchProofs SpecLiveManager GreenletProofs GreenletAcks GreenletMore.

(** ** The dispatcher of a manager *)
Lemma crun_app env xs : forall ys cf, fst (crun env cf (xs ++ ys)) = fst (crun env (fst (crun env cf xs)) ys).
Proof.
  induction xs as [|x xs IH]; intros ys cf; [reflexivity|]. cbn [app]. rewrite !crun_cons. apply IH.
Qed.
Lemma gtrace_app env xs : forall ys cf, gtrace env cf (xs ++ ys) = gtrace env cf xs ++ gtrace env (fst (crun env cf xs)) ys.
Proof.
  induction xs as [|x xs IH]; intros ys cf; [reflexivity|]. cbn [app gtrace]. rewrite IH, crun_cons, app_assoc. reflexivity.
Qed.
Lemma vstep_cf env v o : lv_cf (vstep env v o) = fst (crun env (lv_cf v) (fst (vdoes v o))).
Proof.
  destruct o as [| |msg rel now|x|i r order]; try reflexivity. unfold vstep, vdoes.
  destruct (nth_error (lv_udp v) i) as [p|]; [|reflexivity].
  destruct (udp_step v i p r order) as [[[xs bs] q] p']. reflexivity.
Qed.
Fixpoint vsched (env : denv) (v : live) (ops : list vop) : list sched :=
  match ops with [] => [] | o :: ops' => fst (vdoes v o) ++ vsched env (vstep env v o) ops' end.
Lemma vrun_cf env ops : forall v, lv_cf (vrun env v ops) = fst (crun env (lv_cf v) (vsched env v ops)).
Proof.
  induction ops as [|o ops IH]; intros v; [reflexivity|]. cbn [vrun vsched]. rewrite IH, crun_app, vstep_cf. reflexivity.
Qed.
Lemma v_seen_app a b : v_seen (a ++ b) = v_seen a ++ v_seen b.
Proof. apply flat_map_app. Qed.
Lemma v_begun_app a b : v_begun (a ++ b) = v_begun a ++ v_begun b.
Proof. apply flat_map_app. Qed.
Lemma v_enqueued_app a b : v_enqueued (a ++ b) = v_enqueued a ++ v_enqueued b.
Proof. apply flat_map_app. Qed.
Lemma v_seen_seen es : v_seen (map VSeen es) = es.
Proof. induction es as [|e es IH]; [reflexivity|]. cbn. f_equal. exact IH. Qed.
Lemma v_seen_begun bs : v_seen (map VBegun bs) = [].
Proof. induction bs; [reflexivity|]. assumption. Qed.
Lemma v_begun_seen es : v_begun (map VSeen es) = [].
Proof. induction es; [reflexivity|]. assumption. Qed.
Lemma v_begun_begun bs : v_begun (map VBegun bs) = bs.
Proof. induction bs as [|b bs IH]; [reflexivity|]. cbn. f_equal. exact IH. Qed.
Lemma observed_seen env v o : v_seen (vobserved env v o) = gtrace env (lv_cf v) (fst (vdoes v o)).
Proof.
  unfold vobserved. rewrite !v_seen_app, v_seen_begun, v_seen_seen. destruct o; reflexivity.
Qed.
Lemma observed_begun env v o : v_begun (vobserved env v o) = snd (vdoes v o).
Proof.
  unfold vobserved. rewrite !v_begun_app, v_begun_begun, v_begun_seen, app_nil_r. destruct o; reflexivity.
Qed.
Lemma vhistory_seen env ops : forall v, v_seen (vhistory env v ops) = gtrace env (lv_cf v) (vsched env v ops).
Proof.
  induction ops as [|o ops IH]; intros v; [reflexivity|].
  cbn [vhistory vsched]. rewrite v_seen_app, observed_seen, IH, gtrace_app, vstep_cf. reflexivity.
Qed.
Definition vschedule (env : denv) (host : addr) (ops : list vop) : list sched :=
  v_objects host ++ vsched env (v_init env host) ops.
Lemma vafter_cf env host ops : lv_cf (vafter env host ops) = after env (vschedule env host ops).
Proof. unfold vafter, after, vschedule. rewrite vrun_cf, crun_app. reflexivity. Qed.
Lemma vlife_seen env host ops : v_seen (vlife env host ops) = SpecGreenlets.history env (vschedule env host ops).
Proof.
  unfold vlife, SpecGreenlets.history, vschedule. rewrite v_seen_app, v_seen_seen, vhistory_seen, gtrace_app. reflexivity.
Qed.
Lemma vrun_app env ops1 : forall ops2 v, vrun env v (ops1 ++ ops2) = vrun env (vrun env v ops1) ops2.
Proof. induction ops1 as [|o ops1 IH]; intros ops2 v; [reflexivity|]. cbn [app vrun]. apply IH. Qed.
Lemma vhistory_app env ops1 : forall ops2 v, vhistory env v (ops1 ++ ops2) = vhistory env v ops1 ++ vhistory env (vrun env v ops1) ops2.
Proof. induction ops1 as [|o ops1 IH]; intros ops2 v; [reflexivity|]. cbn [app vrun vhistory]. rewrite IH, app_assoc. reflexivity. Qed.

(** ** The pool grows, and what has returned has returned *)
Lemma cstep_pool env cf x : List.length (cf_pool (fst (cstep env cf x))) =
  match x with Spawn _ => S (List.length (cf_pool cf)) | _ => List.length (cf_pool cf) end.
Proof.
  destruct x as [o|i e]; cbn [cstep].
  - destruct (start env cf o) as [[st ms] th]. cbn. rewrite app_length. cbn. lia.
  - destruct (nth_error (cf_pool cf) i) as [th|]; [|reflexivity].
    destruct (resume env (cf_st cf) e th) as [[st ms] th']. cbn [fst cf_pool]. rewrite upd_length.
    destruct (detach_all_map (cf_st cf) ms (cf_pool cf)) as (g & _ & ->). apply map_length.
Qed.
Lemma spawned_app a b : spawned (a ++ b) = spawned a ++ spawned b.
Proof. apply flat_map_app. Qed.
Lemma crun_pool env xs : forall cf, List.length (cf_pool (fst (crun env cf xs))) = (List.length (cf_pool cf) + List.length (spawned xs))%nat.
Proof.
  induction xs as [|x xs IH]; intros cf; [cbn; lia|]. rewrite crun_cons, IH, cstep_pool. change (x :: xs) with ([x] ++ xs). rewrite spawned_app, app_length.
  destruct x; cbn [spawned flat_map app List.length]; lia.
Qed.
Lemma detach_finished k l o : detach k l (Finished o) = Finished o.
Proof. reflexivity. Qed.
Lemma detach_all_finished st ms : forall pool i o, nth_error pool i = Some (Finished o) -> nth_error (detach_all st ms pool) i = Some (Finished o).
Proof.
  induction ms as [|m ms IH]; intros pool i o H; [exact H|]. unfold detach_all. cbn [fold_left].
  destruct m; try (apply IH; exact H). apply IH. rewrite nth_error_map, H. reflexivity.
Qed.
Lemma cstep_finished env cf x i o : nth_error (cf_pool cf) i = Some (Finished o) ->
  nth_error (cf_pool (fst (cstep env cf x))) i = Some (Finished o).
Proof.
  intros H. assert (i < List.length (cf_pool cf))%nat as L by (apply nth_error_Some; congruence).
  destruct x as [o'|j e]; cbn [cstep].
  - destruct (start env cf o') as [[st ms] th]. cbn. now rewrite nth_error_app1.
  - destruct (nth_error (cf_pool cf) j) as [th|] eqn:J; [|exact H].
    destruct (resume env (cf_st cf) e th) as [[st ms] th'] eqn:R. cbn [fst cf_pool].
    destruct (Nat.eq_dec j i) as [->|N].
    + rewrite J in H. injection H as ->. cbn in R. injection R as <- <- <-.
      rewrite HeaderProofs.nth_update_eq; [reflexivity|]. exact L.
    + rewrite HeaderProofs.nth_update_neq by congruence. now apply detach_all_finished.
Qed.
Lemma crun_finished env xs : forall cf i o, nth_error (cf_pool cf) i = Some (Finished o) ->
  nth_error (cf_pool (fst (crun env cf xs))) i = Some (Finished o).
Proof. induction xs as [|x xs IH]; intros cf i o H; [exact H|]. rewrite crun_cons. apply IH, cstep_finished, H. Qed.
Lemma call_ended_step env v o b e : call_ended v b e -> call_ended (vstep env v o) b e.
Proof.
  unfold call_ended. rewrite vstep_cf. intros H. destruct (nth_error (cf_pool (lv_cf v)) (bg_thread b)) as [[]|] eqn:N; try contradiction.
  rewrite (crun_finished env _ _ _ _ N). exact H.
Qed.
Lemma call_ended_run env ops : forall v b e, call_ended v b e -> call_ended (vrun env v ops) b e.
Proof. induction ops as [|o ops IH]; intros v b e H; [exact H|]. apply IH, call_ended_step, H. Qed.
Lemma returned_ended v i t c r : returned (lv_cf v) t = Some r ->
  call_ended v {| bg_by := i; bg_thread := t; bg_call := c |} (match r with Ok _ => None | Err e => Some e end).
Proof.
  unfold returned, call_ended. cbn [bg_thread]. destruct (nth_error (cf_pool (lv_cf v)) t) as [[o| | | |]|]; try discriminate.
  destruct o as [|o|r0]; intros [= <-]; [reflexivity| |].
  - destruct (o_res o); reflexivity.
  - destruct (r_res r0); reflexivity.
Qed.
Lemma call_ended_fun v b e e' : call_ended v b e -> call_ended v b e' -> e = e'.
Proof.
  unfold call_ended. destruct (nth_error (cf_pool (lv_cf v)) (bg_thread b)) as [[o| | | |]|]; try contradiction.
  destruct o as [|o|r0]; [congruence| |]; [destruct (o_res o)|destruct (r_res r0)]; congruence.
Qed.

(** ** Calls are operations *)
Lemma nth_snoc {A} (l : list A) x : nth_error (l ++ [x]) (List.length l) = Some x.
Proof. rewrite nth_error_app2, Nat.sub_diag by lia. reflexivity. Qed.
Lemma vdoes_stands v o xs bs : vdoes v o = (xs, bs) -> Forall (fun b => exists op,
  nth_error (repeat (NewHost (HNone, HNone)) (List.length (cf_pool (lv_cf v))) ++ spawned xs) (bg_thread b) = Some op /\ stands_for op (bg_call b)) bs.
Proof.
  assert (forall n x l, nth_error (repeat (NewHost (HNone, HNone)) n ++ x :: l) n = Some x) as K0.
  { intros n x l. rewrite nth_error_app2; rewrite repeat_length; [|lia]. now rewrite Nat.sub_diag. }
  assert (forall n x y l, nth_error (repeat (NewHost (HNone, HNone)) n ++ x :: y :: l) (S n) = Some y) as K1.
  { intros n x y l. rewrite nth_error_app2; rewrite repeat_length; [|lia]. now rewrite Nat.sub_succ_l, Nat.sub_diag by lia. }
  destruct o as [| |msg rel now|x|i r order]; cbn [vdoes]; try (intros [= <- <-]; constructor).
  destruct (nth_error (lv_udp v) i) as [p|]; [|intros [= <- <-]; constructor].
  unfold udp_step. destruct p as [| | |t|t| |t|e]; try (intros [= <- <-]; constructor).
  - destruct r as [|a data]; intros [= <- <-]; repeat constructor; cbn [bg_thread bg_call spawned flat_map app stands_for].
    + eexists. split; [apply K0|]. reflexivity.
    + eexists. split; [apply K1|]. reflexivity.
  - destruct (returned (lv_cf v) t) as [[u|e]|]; try (intros [= <- <-]; constructor).
    destruct (has_unacked (cf_st (lv_cf v))); intros [= <- <-]; repeat constructor.
    cbn [bg_thread bg_call spawned flat_map app stands_for]. eexists. split; [apply K0|]. eexists. reflexivity.
  - destruct (returned (lv_cf v) t) as [[u|e]|]; intros [= <- <-]; constructor.
  - destruct (lv_queue v) as [|[msg rel] q]; intros [= <- <-]; repeat constructor.
    cbn [bg_thread bg_call spawned flat_map app stands_for]. eexists. split; [apply K0|]. reflexivity.
  - destruct (returned (lv_cf v) t) as [[u|e]|]; intros [= <- <-]; constructor.
Qed.
Lemma nth_app_same {A} (l1 l1' l2 l3 : list A) i x : List.length l1 = List.length l1' -> (List.length l1 <= i)%nat ->
  nth_error (l1 ++ l2) i = Some x -> nth_error (l1' ++ l2 ++ l3) i = Some x.
Proof.
  intros E L H. rewrite nth_error_app2 in H by lia. rewrite nth_error_app2 by lia. rewrite <- E.
  rewrite nth_error_app1; [exact H|]. apply nth_error_Some. congruence.
Qed.
Lemma vdoes_fresh v o xs bs : vdoes v o = (xs, bs) -> Forall (fun b => (List.length (cf_pool (lv_cf v)) <= bg_thread b)%nat) bs.
Proof.
  destruct o as [| |msg rel now|x|i r order]; cbn [vdoes]; try (intros [= <- <-]; constructor).
  destruct (nth_error (lv_udp v) i) as [p|]; [|intros [= <- <-]; constructor].
  unfold udp_step. destruct p as [| | |t|t| |t|e]; try (intros [= <- <-]; constructor).
  - destruct r as [|a data]; intros [= <- <-]; repeat constructor.
  - destruct (returned (lv_cf v) t) as [[u|e]|]; try (intros [= <- <-]; constructor).
    destruct (has_unacked (cf_st (lv_cf v))); intros [= <- <-]; repeat constructor.
  - destruct (returned (lv_cf v) t) as [[u|e]|]; intros [= <- <-]; constructor.
  - destruct (lv_queue v) as [|[msg rel] q]; intros [= <- <-]; repeat constructor.
  - destruct (returned (lv_cf v) t) as [[u|e]|]; intros [= <- <-]; constructor.
Qed.
Lemma vhistory_stands env ops : forall v pre, List.length pre = List.length (cf_pool (lv_cf v)) ->
  Forall (fun b => exists op, nth_error (pre ++ spawned (vsched env v ops)) (bg_thread b) = Some op /\ stands_for op (bg_call b))
         (v_begun (vhistory env v ops)).
Proof.
  induction ops as [|o ops IH]; intros v pre L; [constructor|].
  cbn [vhistory vsched]. rewrite v_begun_app, observed_begun, spawned_app. apply Forall_app. split.
  - destruct (vdoes v o) as [xs bs] eqn:D. pose proof (vdoes_stands _ _ _ _ D) as S. pose proof (vdoes_fresh _ _ _ _ D) as F.
    rewrite Forall_forall in *. intros b B. destruct (S b B) as (op & N & ST). exists op. split; [|exact ST].
    cbn [fst snd] in *. eapply nth_app_same; [|rewrite repeat_length; apply F, B|exact N]. now rewrite repeat_length.
  - rewrite app_assoc. apply IH. rewrite vstep_cf, app_length, crun_pool. lia.
Qed.
Lemma vlife_stands env host ops :
  Forall (fun b => exists op, nth_error (spawned (vschedule env host ops)) (bg_thread b) = Some op /\ stands_for op (bg_call b))
         (v_begun (vlife env host ops)).
Proof.
  unfold vlife, vschedule. rewrite v_begun_app, v_begun_seen, spawned_app. apply vhistory_stands.
  unfold v_init. cbn [lv_cf]. rewrite crun_pool. reflexivity.
Qed.

(** ** The queue *)
Definition dummy : dout := out0 (Ok None).
Definition view1 (x : vobs) : list mobs :=
  match x with
  | VEnqueued msg rel now => [Enqueued msg rel now]
  | VBegun b => match bg_call b with CSend msg rel => [Did (ESend msg rel dummy)] | _ => [] end
  | _ => []
  end.
Definition view (h : list vobs) : list mobs := flat_map view1 h.
Lemma view_app a b : view (a ++ b) = view a ++ view b. Proof. apply flat_map_app. Qed.
Lemma view_enqueues h : enqueues (view h) = v_enqueued h.
Proof.
  induction h as [|x h IH]; [reflexivity|]. change (x :: h) with ([x] ++ h). rewrite view_app, enqueues_app, v_enqueued_app, IH. f_equal.
  destruct x as [| | |[i t []]|]; reflexivity.
Qed.
Lemma v_sent_app a b : v_sent (a ++ b) = v_sent a ++ v_sent b.
Proof. unfold v_sent. rewrite v_begun_app. apply flat_map_app. Qed.
Lemma view_sends h : sends_of (SpecManager.calls (view h)) = v_sent h.
Proof.
  induction h as [|x h IH]; [reflexivity|]. change (x :: h) with ([x] ++ h). rewrite view_app, calls_app, sends_app, v_sent_app, IH. f_equal.
  destruct x as [| | |[i t []]|]; reflexivity.
Qed.
Lemma view_seen es : view (map VSeen es) = [].
Proof. induction es; [reflexivity|]. assumption. Qed.
Lemma view_step env v o :
  match o with
  | VEnqueue msg rel now => view (vobserved env v o) = [Enqueued msg rel now] /\
      lv_queue (vstep env v o) = (if now then (msg, rel) :: lv_queue v else lv_queue v ++ [(msg, rel)])
  | _ => view (vobserved env v o) = [] /\ lv_queue (vstep env v o) = lv_queue v \/
         exists msg rel, view (vobserved env v o) = [Did (ESend msg rel dummy)] /\ lv_queue v = (msg, rel) :: lv_queue (vstep env v o)
  end.
Proof.
  assert (forall bs es, view (map VBegun bs ++ map VSeen es) = view (map VBegun bs)) as K.
  { intros bs es. rewrite view_app, view_seen, app_nil_r. reflexivity. }
  destruct o as [| |msg rel now|x|i r order]; unfold vobserved.
  - left. split; reflexivity.
  - left. split; reflexivity.
  - split; reflexivity.
  - left. split; [|reflexivity]. cbn [app]. rewrite K. reflexivity.
  - cbn [app]. rewrite K. unfold vdoes, vstep. destruct (nth_error (lv_udp v) i) as [p|]; [|left; auto].
    destruct (udp_step v i p r order) as [[[xs bs] q] p'] eqn:U. cbn [fst snd lv_queue].
    unfold udp_step in U. destruct p as [| | |t|t| |t|e]; try (injection U as <- <- <- <-; left; auto; fail).
    + destruct r as [|a data]; injection U as <- <- <- <-; left; auto.
    + destruct (returned (lv_cf v) t) as [[u|e]|]; try (injection U as <- <- <- <-; left; auto; fail).
      destruct (has_unacked (cf_st (lv_cf v))); injection U as <- <- <- <-; left; auto.
    + destruct (returned (lv_cf v) t) as [[u|e]|]; injection U as <- <- <- <-; left; auto.
    + destruct (lv_queue v) as [|[msg rel] q'] eqn:Q; injection U as <- <- <- <-; [left; auto|].
      right. exists msg, rel. auto.
    + destruct (returned (lv_cf v) t) as [[u|e]|]; injection U as <- <- <- <-; left; auto.
Qed.
Lemma live_ghost env ops : forall v h s w, ghost h s w (lv_queue v) ->
  exists s' w', ghost (h ++ view (vhistory env v ops)) s' w' (lv_queue (vrun env v ops)).
Proof.
  induction ops as [|o ops IH]; intros v h s w G.
  - cbn. rewrite app_nil_r. eauto.
  - cbn [vhistory vrun]. rewrite view_app, app_assoc.
    assert (exists s' w', ghost (h ++ view (vobserved env v o)) s' w' (lv_queue (vstep env v o))) as (s1 & w1 & G1).
    { pose proof (view_step env v o) as V. destruct o as [| |msg rel now|x|i r order];
        try (destruct V as [[-> ->]|(msg & rel & -> & E)]; [rewrite app_nil_r; eauto|];
             rewrite E in G; destruct (ghost_send _ _ _ _ _ _ dummy G) as (k & w' & _ & G2); eauto).
      destruct V as [-> ->]. eexists s, _. apply (ghost_enqueue h s w (lv_queue v) msg rel now G). }
    eapply IH; exact G1.
Qed.
Lemma live_ghost_life env host ops :
  exists s w, ghost (view (vlife env host ops)) s w (lv_queue (vafter env host ops)).
Proof.
  unfold vlife. rewrite view_app, view_seen. exact (live_ghost env ops (v_init env host) [] [] [] ghost_init).
Qed.
Lemma live_exactly_once env host ops : let h := vlife env host ops in
  Permutation (map fst (v_enqueued h)) (v_sent h ++ lv_queue (vafter env host ops)).
Proof.
  assert (forall ops v acc, Permutation (map fst (v_enqueued acc)) (v_sent acc ++ lv_queue v) ->
    Permutation (map fst (v_enqueued (acc ++ vhistory env v ops)))
                (v_sent (acc ++ vhistory env v ops) ++ lv_queue (vrun env v ops))) as H.
  { clear. induction ops as [|o ops IH]; intros v acc P; cbn [vhistory vrun]; [rewrite app_nil_r; exact P|].
    rewrite app_assoc. apply IH. rewrite v_enqueued_app, v_sent_app, map_app, <- (view_enqueues (vobserved env v o)), <- (view_sends (vobserved env v o)).
    pose proof (view_step env v o) as V. revert V. generalize (lv_queue (vstep env v o)) (view (vobserved env v o)). intros q' h' V.
    destruct o as [| |msg rel now|x|i r order];
      try (destruct V as [[-> ->]|(msg & rel & -> & E)]; cbn; rewrite ?app_nil_r; [exact P|rewrite <- app_assoc; cbn; rewrite <- E; exact P]).
    destruct V as [-> ->]. cbn. rewrite app_nil_r.
    rewrite <- Permutation_cons_append, P. destruct now; [now rewrite Permutation_middle|].
    rewrite app_assoc. apply Permutation_cons_append. }
  apply H. unfold v_enqueued, v_sent. rewrite v_begun_seen.
  match goal with |- Permutation (map fst ?l) _ => replace l with (@nil (nat * bool * bool)) end; [apply Permutation_refl|].
  induction (gtrace env (idle init_state) (v_objects host)); [reflexivity|assumption].
Qed.
Lemma live_order env host ops : let h := vlife env host ops in
  exists served : list nat, NoDup served /\ List.length served = List.length (v_sent h) /\
  forall past b msg reliable future, h = past ++ VBegun b :: future -> bg_call b = CSend msg reliable ->
    let k := List.length (v_sent past) in
    exists i now, nth_error served k = Some i /\ nth_error (v_enqueued past) i = Some (msg, reliable, now) /\
      forall j msg' reliable' now', nth_error (v_enqueued past) j = Some (msg', reliable', now') ->
        ~ In j (firstn k served) -> j <> i -> leaves_first i now j now'.
Proof.
  intros h. destruct (live_ghost_life env host ops) as (s & w & G). fold h in G. exists s. split; [|split].
  - pose proof (ghost_nodup _ _ _ _ G) as ND. clear -ND. revert ND. induction s as [|i s IH]; intros ND; [constructor|].
    cbn in ND. inversion ND as [|? ? N1 N2]; subst. constructor; [|now apply IH]. intros H. apply N1, in_or_app. now left.
  - rewrite <- view_sends. exact (g_len _ _ _ _ G).
  - intros past b msg rel future E C k. unfold k. rewrite <- view_sends, <- view_enqueues.
    apply (g_served _ _ _ _ G (view past) msg rel dummy (view future)). rewrite E, view_app. f_equal. cbn. rewrite C. reflexivity.
Qed.
