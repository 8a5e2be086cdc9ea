(** Proofs for C81: the UDP coroutines of a manager. *)
From Coq Require Import Permutation Sorted.
From Verif Require HeaderProofs.
From Verif Require Import Lib SpecMonitors DispatchProofs DispatchMore ManagerProofs.

Lemma lrun_cons env e mo o ops : lrun env e mo (o :: ops) =
  (fst (lrun env e (fst (lstep env e mo o)) ops), snd (lstep env e mo o) ++ snd (lrun env e (fst (lstep env e mo o)) ops)).
Proof. cbn. destruct (lstep env e mo o) as [m1 e1]. cbn. now destruct (lrun env e m1 ops). Qed.

(** The history of the manager without its coroutines' numbers. *)
Definition view1 (x : lobs) : list mobs :=
  match x with
  | OEnqueued msg rel now => [Enqueued msg rel now]
  | OStopped => [Stopped]
  | ODid (UdpDid _ e) => [Did e]
  | _ => []
  end.
Definition view (h : list lobs) : list mobs := flat_map view1 h.
Lemma view_app a b : view (a ++ b) = view a ++ view b.
Proof. apply flat_map_app. Qed.
Lemma view_udp i es : view (map ODid (map (UdpDid i) es)) = map Did es.
Proof. induction es as [|x es IH]; [reflexivity|]. unfold view in *. cbn. now rewrite IH. Qed.
Lemma view_queue i es : view (map ODid (map (QueueDid i) es)) = [].
Proof. induction es as [|x es IH]; [reflexivity|]. exact IH. Qed.
Lemma enqueued_view h : enqueues (view h) = enqueued h.
Proof.
  induction h as [|x h IH]; [reflexivity|]. cbn [view flat_map]. rewrite enqueues_app. fold (view h). rewrite IH.
  destruct x as [| | | |[]]; reflexivity.
Qed.
Lemma sent_view h : sends_of (calls (view h)) = sent h.
Proof.
  induction h as [|x h IH]; [reflexivity|]. cbn [view flat_map]. rewrite calls_app, sends_app. fold (view h). rewrite IH.
  destruct x as [| | | |[i []|]]; reflexivity.
Qed.

(** The step of the manager that a step amounts to. *)
Definition mop_of (mo : monitors) (o : lop) : option (pc * mop) :=
  match o with
  | LStop => Some (mm_pc (mo_manager mo), MStop)
  | LEnqueue msg rel now => Some (mm_pc (mo_manager mo), MEnqueue msg rel now)
  | LUser o => Some (mm_pc (mo_manager mo), MUser o)
  | LUdp i r order sock =>
      match nth_error (mo_udp mo) i with Some p => Some (p, MLoop r order sock) | None => None end
  | _ => None
  end.
Lemma with_own m : with_pc m (mm_pc m) = m.
Proof. now destruct m. Qed.
(** What the shared parts are afterwards. *)
Lemma lstep_mop env e mo o :
  match mop_of mo o with
  | Some (p, o') =>
      let r := mstep env (with_pc (mo_manager mo) p) o' in
      mo_manager (fst (lstep env e mo o)) = with_pc (fst r) (mm_pc (mo_manager (fst (lstep env e mo o)))) /\
      view (lobserved o (snd (lstep env e mo o))) = observed o' (snd r)
  | None =>
      let m' := mo_manager (fst (lstep env e mo o)) in
      mm_disp m' = mm_disp (mo_manager mo) /\ mm_queue m' = mm_queue (mo_manager mo) /\
      mm_host m' = mm_host (mo_manager mo) /\ mm_sender m' = mm_sender (mo_manager mo) /\
      view (lobserved o (snd (lstep env e mo o))) = []
  end.
Proof.
  destruct o as [| | |msg rel now|o|i r order sock|i o]; cbn [mop_of lstep].
  - cbn. auto.
  - rewrite with_own. cbn [mstep fst snd set_manager mo_manager]. split; reflexivity.
  - cbn. auto.
  - rewrite with_own. cbn [mstep fst snd set_manager mo_manager]. split; reflexivity.
  - rewrite with_own. cbn [mstep fst snd set_manager mo_manager]. split; reflexivity.
  - destruct (nth_error (mo_udp mo) i) as [p|]; [|cbn; auto].
    cbn [mstep]. destruct (loop_step env (with_pc (mo_manager mo) p) r order sock) as [m' es]. cbn [fst snd mo_manager].
    split; [reflexivity|]. unfold lobserved, observed. cbn [app]. apply view_udp.
  - destruct (nth_error (mo_queue mo) i) as [p|], (mm_eq (mo_manager mo)) as [q|]; try (cbn; auto; fail).
    destruct (queue_step e q p o) as [[q' ev] p']. cbn [fst snd mo_manager]. unfold lobserved. cbn [app]. rewrite view_queue. cbn. auto.
Qed.

Lemma lghost_step env e mo o h s w : ghost (view h) s w (mm_queue (mo_manager mo)) ->
  exists s' w', ghost (view (h ++ lobserved o (snd (lstep env e mo o)))) s' w' (mm_queue (mo_manager (fst (lstep env e mo o)))).
Proof.
  intros G. rewrite view_app. pose proof (lstep_mop env e mo o) as H. destruct (mop_of mo o) as [[p o']|].
  - cbv zeta in H. destruct H as [-> ->]. exact (ghost_step env (with_pc (mo_manager mo) p) o' (view h) s w G).
  - cbv zeta in H. destruct H as (_ & -> & _ & _ & ->). rewrite app_nil_r. eauto.
Qed.
Lemma lghost_run env e ops : forall mo h s w, ghost (view h) s w (mm_queue (mo_manager mo)) ->
  exists s' w', ghost (view (h ++ lhistory env e mo ops)) s' w' (mm_queue (mo_manager (fst (lrun env e mo ops)))).
Proof.
  induction ops as [|o ops IH]; intros mo h s w G.
  - cbn [lhistory lrun fst]. rewrite app_nil_r. eauto.
  - cbn [lhistory]. rewrite app_assoc, lrun_cons. cbn [fst].
    destruct (lghost_step env e mo o h s w G) as (s1 & w1 & G1). eapply IH; exact G1.
Qed.
Lemma lghost env e host eq ops : exists s w,
  ghost (view (lhistory env e (mo_init host eq) ops)) s w (mm_queue (mo_manager (fst (lrun env e (mo_init host eq) ops)))).
Proof. exact (lghost_run env e ops (mo_init host eq) [] [] [] ghost_init). Qed.

Lemma l_exactly_once env e host eq ops : let h := lhistory env e (mo_init host eq) ops in
  Permutation (map fst (enqueued h)) (sent h ++ mm_queue (mo_manager (fst (lrun env e (mo_init host eq) ops)))).
Proof.
  intros h. destruct (lghost env e host eq ops) as (s & w & G). fold h in G. pose proof (ghost_nodup _ _ _ _ G) as ND.
  assert (forall ops mo acc, Permutation (map fst (enqueued acc)) (sent acc ++ mm_queue (mo_manager mo)) ->
    Permutation (map fst (enqueued (acc ++ lhistory env e mo ops)))
                (sent (acc ++ lhistory env e mo ops) ++ mm_queue (mo_manager (fst (lrun env e mo ops))))) as H.
  { clear. induction ops as [|o ops IH]; intros mo acc P; cbn [lhistory]; [cbn [lrun fst]; rewrite app_nil_r; exact P|].
    rewrite app_assoc, lrun_cons. cbn [fst]. apply IH. clear IH.
    rewrite <- enqueued_view, <- sent_view in *. rewrite view_app, enqueues_app, calls_app, sends_app, map_app.
    pose proof (lstep_mop env e mo o) as H. destruct (mop_of mo o) as [[p o']|].
    - cbv zeta in H. destruct H as [-> ->]. rewrite calls_observed. pose proof (mstep_queue env (with_pc (mo_manager mo) p) o') as Q.
      change (mm_queue (with_pc ?m ?p)) with (mm_queue m) in *. unfold observed. rewrite enqueues_app, enqueues_did.
      destruct o' as [msg rel now| | |].
      + destruct Q as [-> ->]. cbn. rewrite app_nil_r. rewrite <- Permutation_cons_append, P.
        destruct now; [now rewrite Permutation_middle|]. rewrite app_assoc. apply Permutation_cons_append.
      + destruct Q as [Q _]. cbn [enqueues flat_map app map]. rewrite app_nil_r, <- app_assoc, <- Q. exact P.
      + destruct Q as [Q _]. cbn [enqueues flat_map app map]. rewrite app_nil_r, <- app_assoc, <- Q. exact P.
      + destruct Q as [Q _]. cbn [enqueues flat_map app map]. rewrite app_nil_r, <- app_assoc, <- Q. exact P.
    - cbv zeta in H. destruct H as (_ & -> & _ & _ & ->). cbn. rewrite !app_nil_r. exact P. }
  exact (H ops (mo_init host eq) [] (Permutation_refl _)).
Qed.

Lemma l_order env e host eq ops : let h := lhistory env e (mo_init host eq) ops in
  exists served : list nat, NoDup served /\ List.length served = List.length (sent h) /\
  forall past i msg reliable o future, h = past ++ ODid (UdpDid i (ESend msg reliable o)) :: future ->
    let k := List.length (sent past) in
    exists n now, nth_error served k = Some n /\ nth_error (enqueued past) n = Some (msg, reliable, now) /\
      forall j msg' reliable' now', nth_error (enqueued past) j = Some (msg', reliable', now') ->
        ~ In j (firstn k served) -> j <> n -> leaves_first n now j now'.
Proof.
  intros h. destruct (lghost env e host eq ops) as (s & w & G). fold h in G. exists s. split; [|split].
  - pose proof (ghost_nodup _ _ _ _ G) as ND. clear -ND. revert ND. induction s as [|i s IH]; intros ND; [constructor|].
    cbn in ND. inversion ND as [|? ? N1 N2]; subst. constructor; [|now apply IH]. intros H. apply N1, in_or_app. now left.
  - rewrite <- sent_view. exact (g_len _ _ _ _ G).
  - intros past i msg rel o future E. rewrite <- sent_view, <- enqueued_view.
    apply (g_served _ _ _ _ G (view past) msg rel o (view future)). rewrite E, view_app. reflexivity.
Qed.

(** ** One UDP coroutine *)
Lemma own_app i a b : own_calls i (a ++ b) = own_calls i a ++ own_calls i b.
Proof. apply flat_map_app. Qed.
Lemma own_udp i j es : own_calls i (map (UdpDid j) es) = if Nat.eqb i j then es else [].
Proof.
  induction es as [|x es IH]; cbn; [now destruct (Nat.eqb i j)|]. unfold own_calls in IH. rewrite IH. now destruct (Nat.eqb i j).
Qed.
Lemma own_queue i j es : own_calls i (map (QueueDid j) es) = [].
Proof. induction es as [|x es IH]; [reflexivity|]. exact IH. Qed.
Definition runs (i : nat) (o : lop) : option mop :=
  match o with LUdp j r order sock => if Nat.eqb i j then Some (MLoop r order sock) else None | _ => None end.
Lemma lstep_udp env e mo o i p : nth_error (mo_udp mo) i = Some p ->
  match runs i o with
  | Some o' => nth_error (mo_udp (fst (lstep env e mo o))) i = Some (mm_pc (fst (mstep env (with_pc (mo_manager mo) p) o'))) /\
               own_calls i (snd (lstep env e mo o)) = snd (mstep env (with_pc (mo_manager mo) p) o')
  | None => nth_error (mo_udp (fst (lstep env e mo o))) i = Some p /\ own_calls i (snd (lstep env e mo o)) = []
  end.
Proof.
  intros N. destruct o as [| | |msg rel now|o|j r order sock|j o]; cbn [runs lstep]; try (cbn; auto; fail).
  - cbn. split; [|reflexivity]. rewrite nth_error_app1; [exact N|]. apply nth_error_Some. congruence.
  - destruct (Nat.eqb_spec i j) as [<-|D].
    + rewrite N. cbn [mstep]. destruct (loop_step env (with_pc (mo_manager mo) p) r order sock) as [m' es]. cbn [fst snd mo_udp].
      split; [|rewrite own_udp, Nat.eqb_refl; reflexivity]. eapply nth_update. exact N.
    + destruct (nth_error (mo_udp mo) j) as [q|] eqn:NJ; [|cbn; auto].
      destruct (loop_step env (with_pc (mo_manager mo) q) r order sock) as [m' es]. cbn [fst snd mo_udp].
      rewrite HeaderProofs.nth_update_neq by congruence. split; [exact N|]. rewrite own_udp. apply Nat.eqb_neq in D. now rewrite D.
  - destruct (nth_error (mo_queue mo) j) as [q|], (mm_eq (mo_manager mo)) as [eq|]; try (cbn; auto; fail).
    destruct (queue_step e eq q o) as [[q' ev] p']. cbn [fst snd mo_udp]. rewrite own_queue. auto.
Qed.
(** and a coroutine that is not there *)
Lemma lstep_none env e mo o i : nth_error (mo_udp mo) i = None ->
  own_calls i (snd (lstep env e mo o)) = [] /\
  (nth_error (mo_udp (fst (lstep env e mo o))) i = None \/
   o = LStart /\ i = List.length (mo_udp mo) /\ nth_error (mo_udp (fst (lstep env e mo o))) i = Some PStart).
Proof.
  intros N. destruct o as [| | |msg rel now|o|j r order sock|j o]; cbn [lstep]; try (cbn; auto; fail).
  - cbn. split; [reflexivity|]. apply nth_error_None in N. destruct (Nat.eq_dec i (List.length (mo_udp mo))) as [->|D].
    + right. rewrite nth_error_app2, Nat.sub_diag by lia. auto.
    + left. apply nth_error_None. rewrite app_length. cbn. lia.
  - destruct (nth_error (mo_udp mo) j) as [q|] eqn:NJ; [|cbn; auto].
    destruct (loop_step env (with_pc (mo_manager mo) q) r order sock) as [m' es]. cbn [fst snd mo_udp].
    rewrite own_udp. destruct (Nat.eqb_spec i j) as [<-|D]; [congruence|]. split; [reflexivity|]. left. now rewrite update_nth_none.
  - destruct (nth_error (mo_queue mo) j) as [q|], (mm_eq (mo_manager mo)) as [eq|]; try (cbn; auto; fail).
    destruct (queue_step e eq q o) as [[q' ev] p']. cbn [fst snd mo_udp]. rewrite own_queue. auto.
Qed.

Definition shapes (mo : monitors) (es : list levent) : Prop :=
  forall i, match nth_error (mo_udp mo) i with Some p => shape p (own_calls i es) | None => own_calls i es = [] end.
Lemma shapes_step env e mo o es : shapes mo es -> shapes (fst (lstep env e mo o)) (es ++ snd (lstep env e mo o)).
Proof.
  intros S i. specialize (S i). rewrite own_app. destruct (nth_error (mo_udp mo) i) as [p|] eqn:N.
  - pose proof (lstep_udp env e mo o i p N) as H. destruct (runs i o) as [o'|]; destruct H as [-> ->].
    + exact (shape_step env (with_pc (mo_manager mo) p) o' _ S).
    + now rewrite app_nil_r.
  - destruct (lstep_none env e mo o i N) as [-> [->|(_ & _ & ->)]]; rewrite S, app_nil_r; [reflexivity|exact shape_init].
Qed.
Lemma shapes_run env e ops : forall mo es, shapes mo es -> shapes (fst (lrun env e mo ops)) (es ++ snd (lrun env e mo ops)).
Proof.
  induction ops as [|o ops IH]; intros mo es S; [cbn; now rewrite app_nil_r|].
  rewrite lrun_cons. cbn [fst snd]. rewrite app_assoc. apply IH, shapes_step, S.
Qed.
Lemma shapes_init host eq : shapes (mo_init host eq) [].
Proof. intros i. cbn. now destruct i. Qed.

Lemma shape_calls p es : shape p es ->
  (exists its, es = List.concat its /\ Forall an_iteration its) /\
  (forall before e after, es = before ++ e :: after -> raised e <> None -> after = [] /\ exists x, raised e = Some x /\ p = PEnd (Some x)).
Proof.
  intros (its & cur & E & F & C).
  assert (Forall an_iteration its) as F1 by (eapply Forall_impl; [|exact F]; cbn; tauto).
  assert (Forall (fun e => raised e = None) (List.concat its)) as F2.
  { apply Forall_concat. eapply Forall_impl; [|exact F]. cbn. tauto. }
  assert (forall l, Forall (fun e => raised e = None) l -> forall before e after, l = before ++ e :: after -> raised e <> None -> False) as K.
  { intros l FL before e after -> N. apply Forall_app in FL as [_ FL]. inversion FL; subst. contradiction. }
  destruct p as [| | | |[x|]].
  - rewrite C. split; [exists []; split; [reflexivity|constructor]|]. now intros [|? ?].
  - rewrite E, C, app_nil_r. split; [exists its; auto|]. intros. now destruct (K _ F2 before e after).
  - rewrite E, C, app_nil_r. split; [exists its; auto|]. intros. now destruct (K _ F2 before e after).
  - destruct C as [C Q]. rewrite E. split.
    + exists (its ++ [cur]). rewrite concat_app. cbn. rewrite app_nil_r. split; [reflexivity|]. apply Forall_app. auto.
    + intros. destruct (fun H => K (List.concat its ++ cur) H before e after); auto. apply Forall_app. auto.
  - destruct C as [C (cur' & y & E' & RY & Q)]. split.
    + exists (its ++ [cur]). rewrite concat_app. cbn. rewrite app_nil_r. split; [exact E|]. apply Forall_app. auto.
    + intros before e after EE N. rewrite E, E', app_assoc in EE.
      apply split_snoc in EE as [(-> & _ & ->)|(t & -> & EE)]; [eauto|]. exfalso.
      apply (K (before ++ e :: t)) with (before := before) (e := e) (after := t); auto. rewrite <- EE. apply Forall_app. auto.
  - rewrite E, C, app_nil_r. split; [exists its; auto|]. intros. now destruct (K _ F2 before e after).
Qed.
Lemma l_iterations env e host eq ops i : let r := lrun env e (mo_init host eq) ops in let es := own_calls i (snd r) in
  (exists its, es = List.concat its /\ Forall an_iteration its) /\
  (forall before x after, es = before ++ x :: after -> raised x <> None ->
     after = [] /\ exists exn, raised x = Some exn /\ nth_error (mo_udp (fst r)) i = Some (PEnd (Some exn))).
Proof.
  cbv zeta. pose proof (shapes_run env e ops (mo_init host eq) [] (shapes_init host eq) i) as S. cbn [app] in S.
  destruct (nth_error (mo_udp (fst (lrun env e (mo_init host eq) ops))) i) as [p|].
  - destruct (shape_calls _ _ S) as [A B]. split; [exact A|]. intros before x after E N. destruct (B _ _ _ E N) as (-> & exn & X & ->). eauto.
  - rewrite S. split; [exists []; split; [reflexivity|constructor]|]. now intros [|? ?].
Qed.

(** ** The flag *)
Lemma lstep_running env e mo o : mm_running (mo_manager (fst (lstep env e mo o))) =
  match o with LStart => true | LStop => false | _ => mm_running (mo_manager mo) end.
Proof.
  destruct o as [| | |msg rel now|o|j r order sock|j o]; cbn [lstep]; auto.
  - cbn. unfold stop_monitors. now destruct (mm_eq (mo_manager mo)).
  - destruct (nth_error (mo_udp mo) j) as [q|]; auto.
    pose proof (mstep_running env (with_pc (mo_manager mo) q) (MLoop r order sock)) as H. cbn [mstep] in H.
    destruct (loop_step env (with_pc (mo_manager mo) q) r order sock) as [m' es]. exact H.
  - destruct (nth_error (mo_queue mo) j) as [q|], (mm_eq (mo_manager mo)) as [eq|]; auto.
    now destruct (queue_step e eq q o) as [[q' ev] p'].
Qed.
Lemma started_did b es : fold_left (fun b x => match x with OStarted => true | OStopped => false | _ => b end) (map ODid es) b = b.
Proof. induction es as [|x es IH]; [reflexivity|]. exact IH. Qed.
Lemma l_flag env e ops : forall mo, mm_running (mo_manager (fst (lrun env e mo ops))) =
  fold_left (fun b x => match x with OStarted => true | OStopped => false | _ => b end) (lhistory env e mo ops) (mm_running (mo_manager mo)).
Proof.
  induction ops as [|o ops IH]; intros mo; [reflexivity|]. rewrite lrun_cons. cbn [fst lhistory]. rewrite fold_left_app, IH, lstep_running.
  f_equal. unfold lobserved. rewrite fold_left_app, started_did. now destruct o.
Qed.

(** One coroutine per start. *)
Lemma lstep_length env e mo o : List.length (mo_udp (fst (lstep env e mo o))) = ((match o with LStart => 1 | _ => 0 end) + List.length (mo_udp mo))%nat.
Proof.
  destruct o as [| | |msg rel now|o|j r order sock|j o]; cbn [lstep]; auto.
  - cbn. rewrite app_length. cbn. lia.
  - destruct (nth_error (mo_udp mo) j) as [q|]; auto.
    destruct (loop_step env (with_pc (mo_manager mo) q) r order sock) as [m' es]. cbn. now rewrite upd_length.
  - destruct (nth_error (mo_queue mo) j) as [q|], (mm_eq (mo_manager mo)) as [eq|]; auto.
    now destruct (queue_step e eq q o) as [[q' ev] p'].
Qed.
Lemma lstep_eq env e mo o : (exists q, mm_eq (mo_manager (fst (lstep env e mo o))) = Some q) <-> (exists q, mm_eq (mo_manager mo) = Some q).
Proof.
  destruct o as [| | |msg rel now|o|j r order sock|j o]; cbn [lstep]; try reflexivity.
  - cbn. unfold stop_monitors. destruct (mm_eq (mo_manager mo)); split; intros (x & H); try discriminate; cbn; eauto.
  - cbn. destruct (mm_eq (mo_manager mo)); split; intros (x & H); try discriminate; cbn; eauto.
  - destruct (nth_error (mo_udp mo) j) as [q|]; try reflexivity.
    assert (mm_eq (fst (loop_step env (with_pc (mo_manager mo) q) r order sock)) = mm_eq (mo_manager mo)) as H.
    { unfold loop_step. destruct (mm_pc _); try reflexivity.
      - destruct (loop_receive env (with_pc (mo_manager mo) q) r order sock) as [m' es] eqn:L.
        now destruct (loop_receive_spec _ _ _ _ _ _ _ L) as (_ & _ & E & _).
      - destruct (mm_queue _) as [|[msg rel] x]; try reflexivity. now destruct (send_udp_message _ _ _ _ _). }
    destruct (loop_step env (with_pc (mo_manager mo) q) r order sock) as [m' es]. cbn in *. now rewrite H.
  - destruct (nth_error (mo_queue mo) j) as [q|], (mm_eq (mo_manager mo)) as [eq|] eqn:EQ; try (cbn; rewrite EQ; reflexivity).
    destruct (queue_step e eq q o) as [[q' ev] p']. cbn. split; eauto.
Qed.
Lemma lstep_qlength env e mo o : List.length (mo_queue (fst (lstep env e mo o))) =
  ((match o, mm_eq (mo_manager mo) with LStart, Some _ => if qe_enabled e then 1 else 0 | _, _ => 0 end) + List.length (mo_queue mo))%nat.
Proof.
  destruct o as [| | |msg rel now|o|j r order sock|j o]; cbn [lstep]; try reflexivity.
  - cbn. destruct (mm_eq (mo_manager mo)); [|reflexivity]. destruct (qe_enabled e); [|reflexivity]. rewrite app_length. cbn. lia.
  - destruct (nth_error (mo_udp mo) j) as [q|]; try reflexivity.
    now destruct (loop_step env (with_pc (mo_manager mo) q) r order sock) as [m' es].
  - destruct (nth_error (mo_queue mo) j) as [q|], (mm_eq (mo_manager mo)) as [eq|]; try reflexivity.
    destruct (queue_step e eq q o) as [[q' ev] p']. cbn. now rewrite upd_length.
Qed.
Lemma starts_step o es h : starts (lobserved o es ++ h) = ((match o with LStart => 1 | _ => 0 end) + starts h)%nat.
Proof.
  unfold lobserved, starts. rewrite <- app_assoc, !filter_app, !app_length.
  replace (filter _ (map ODid es)) with (@nil lobs) by (induction es; auto). destruct o; reflexivity.
Qed.
Lemma l_one_per_start env e ops : forall mo,
  List.length (mo_udp (fst (lrun env e mo ops))) = (List.length (mo_udp mo) + starts (lhistory env e mo ops))%nat /\
  List.length (mo_queue (fst (lrun env e mo ops))) =
    (List.length (mo_queue mo) + match mm_eq (mo_manager mo) with Some _ => if qe_enabled e then starts (lhistory env e mo ops) else 0 | None => 0 end)%nat.
Proof.
  induction ops as [|o ops IH]; intros mo.
  - cbn. destruct (mm_eq (mo_manager mo)), (qe_enabled e); lia.
  - rewrite lrun_cons. cbn [fst lhistory]. rewrite starts_step. destruct (IH (fst (lstep env e mo o))) as [-> ->].
    rewrite lstep_length, lstep_qlength. pose proof (lstep_eq env e mo o) as H.
    destruct (mm_eq (mo_manager mo)) as [q|].
    + destruct (proj2 H (ex_intro _ q eq_refl)) as (q' & ->). destruct o, (qe_enabled e); lia.
    + destruct (mm_eq (mo_manager (fst (lstep env e mo o)))) as [q'|]; [destruct (proj1 H (ex_intro _ q' eq_refl)); discriminate|].
      destruct o; lia.
Qed.

(** A coroutine about to look at the flag. *)
Lemma l_check env e mo i r order sock : about_to_check mo i ->
  snd (lstep env e mo (LUdp i r order sock)) = [] /\
  nth_error (mo_udp (fst (lstep env e mo (LUdp i r order sock)))) i = Some (if mm_running (mo_manager mo) then PSleep else PEnd None).
Proof.
  intros H. cbn [lstep]. destruct H as [N|[N Q]]; rewrite N; unfold loop_step; cbn [with_pc mm_set mm_pc].
  - cbn. split; [reflexivity|]. eapply nth_update; exact N.
  - cbn. rewrite Q. cbn. split; [reflexivity|]. eapply nth_update; exact N.
Qed.
(** and only then can it end normally *)
Lemma l_ends env e mo o i p : nth_error (mo_udp mo) i = Some p -> p <> PEnd None ->
  nth_error (mo_udp (fst (lstep env e mo o))) i = Some (PEnd None) -> about_to_check mo i /\ mm_running (mo_manager mo) = false.
Proof.
  intros N P E. pose proof (lstep_udp env e mo o i p N) as H. destruct (runs i o) as [o'|] eqn:RU; destruct H as [H _]; [|congruence].
  unfold runs in RU. destruct o as [| | | | |j r order sock|]; try discriminate. destruct (Nat.eqb i j); [|discriminate]. injection RU as <-.
  rewrite E in H. injection H as H. cbn [mstep] in H. unfold loop_step, about_to_check in *. rewrite N.
  cbn [with_pc mm_set mm_pc mm_queue mm_running] in H. destruct p as [| | | |x]; cbn in H.
  - destruct (mm_running (mo_manager mo)); [discriminate|auto].
  - discriminate.
  - match type of H with context [loop_receive ?a ?b ?c ?d ?f] => destruct (loop_receive a b c d f) as [m' es] eqn:L end.
    destruct (loop_receive_spec _ _ _ _ _ _ _ L) as (_ & _ & _ & _ & _ & ro & acks & _ & _ & PC). cbn [fst] in H.
    destruct PC as [[PC _]|(x & _ & _ & PC & _)]; rewrite PC in H; discriminate.
  - destruct (mm_queue (mo_manager mo)) as [|[msg rel] q]; cbn in H.
    + destruct (mm_running (mo_manager mo)); [discriminate|auto].
    + destruct (send_udp_message _ _ _ _ _) as [d o]. cbn in H. destruct (o_res o); discriminate.
  - congruence.
Qed.

(** ** After a stop *)
Lemma step_budget env m o : mm_running m = false ->
  (List.length (receives_of (snd (mstep env m o))) + budget (mm_pc (fst (mstep env m o))) <= budget (mm_pc m))%nat.
Proof.
  intros R. pose proof (stop_budget env [o] m R) as H. rewrite mrun_cons in H. cbn [mrun fst snd] in H. now rewrite app_nil_r in H.
Qed.
Lemma lstep_stays env e mo o : no_start o -> mm_running (mo_manager mo) = false -> mm_running (mo_manager (fst (lstep env e mo o))) = false.
Proof. intros NS R. rewrite lstep_running. destruct o; auto. now destruct NS. Qed.
Lemma l_budget env e ops : forall mo i p, mm_running (mo_manager mo) = false -> Forall no_start ops -> nth_error (mo_udp mo) i = Some p ->
  exists p', nth_error (mo_udp (fst (lrun env e mo ops))) i = Some p' /\
  (List.length (receives_of (own_calls i (snd (lrun env e mo ops)))) + budget p' <= budget p)%nat.
Proof.
  induction ops as [|o ops IH]; intros mo i p R F N; [exists p; cbn; auto|].
  inversion F as [|? ? NS F']; subst. rewrite lrun_cons. cbn [fst snd]. rewrite own_app, receives_app, app_length.
  pose proof (lstep_udp env e mo o i p N) as H. pose proof (lstep_stays env e mo o NS R) as R'.
  destruct (runs i o) as [o'|]; destruct H as [N' ->].
  - destruct (IH _ i _ R' F' N') as (p' & E & B). exists p'. split; [exact E|].
    pose proof (step_budget env (with_pc (mo_manager mo) p) o' R) as SB. cbn [with_pc mm_set mm_pc] in SB. fold (with_pc (mo_manager mo) p) in SB. lia.
  - destruct (IH _ i _ R' F' N') as (p' & E & B). exists p'. split; [exact E|]. cbn. lia.
Qed.
Definition dist (p : pc) (q : nat) : nat :=
  match p with PEnd _ => 0 | PStart => 1 | PDrain => S q | PRecv => 2 + q | PSleep => 3 + q end.
Lemma dist_mono p q q' : (q <= q')%nat -> (dist p q <= dist p q')%nat.
Proof. destruct p; cbn; lia. Qed.
Lemma dist_shift p q k : (dist p (q + k) <= dist p q + k)%nat.
Proof. destruct p; cbn; lia. Qed.
Lemma loop_dist env m r order sock : mm_running m = false ->
  (dist (mm_pc (fst (loop_step env m r order sock))) (List.length (mm_queue (fst (loop_step env m r order sock)))) <= dist (mm_pc m) (List.length (mm_queue m)) - 1)%nat.
Proof.
  intros R. unfold loop_step. destruct (mm_pc m) eqn:P; cbn [fst mm_pc mm_set mm_queue dist].
  - unfold loop_top. rewrite R. cbn. lia.
  - cbn. lia.
  - destruct (loop_receive env m r order sock) as [m' es] eqn:L.
    destruct (loop_receive_spec _ _ _ _ _ _ _ L) as (Q & _ & _ & _ & _ & ro & acks & _ & _ & PC). cbn [fst].
    destruct PC as [[-> _]|(x & _ & _ & -> & _)]; rewrite ?Q; cbn; lia.
  - destruct (mm_queue m) as [|[msg rel] q]; cbn.
    + rewrite R. cbn. lia.
    + destruct (send_udp_message env m msg rel sock) as [d o]. cbn. destruct (o_res o); cbn; lia.
  - rewrite P. cbn. lia.
Qed.
Lemma lstep_queue env e mo o : (List.length (mm_queue (mo_manager (fst (lstep env e mo o)))) <=
  match o with LEnqueue _ _ _ => 1 | _ => 0 end + List.length (mm_queue (mo_manager mo)))%nat.
Proof.
  pose proof (lstep_mop env e mo o) as H. destruct (mop_of mo o) as [[p o']|] eqn:M.
  - cbv zeta in H. destruct H as [-> _]. cbn [with_pc mm_set mm_queue].
    pose proof (mstep_queue env (with_pc (mo_manager mo) p) o') as Q. cbn [with_pc mm_set mm_queue] in Q. fold (with_pc (mo_manager mo) p) in Q.
    destruct o as [| | |msg rel now|o|j r order sock|j o]; cbn [mop_of] in M; try discriminate;
      try (injection M as _ <-); try (destruct Q as [Q _]; apply (f_equal (@List.length _)) in Q; rewrite app_length in Q; lia).
    + destruct Q as [_ ->]. destruct now; cbn; [lia|rewrite app_length; cbn; lia].
    + destruct (nth_error (mo_udp mo) j); [|discriminate]. injection M as _ <-.
      destruct Q as [Q _]. apply (f_equal (@List.length _)) in Q. rewrite app_length in Q. lia.
  - cbv zeta in H. destruct H as (_ & -> & _). lia.
Qed.
Lemma lstep_dist env e mo o i p : no_start o -> mm_running (mo_manager mo) = false -> nth_error (mo_udp mo) i = Some p ->
  exists p', nth_error (mo_udp (fst (lstep env e mo o))) i = Some p' /\
  (dist p' (List.length (mm_queue (mo_manager (fst (lstep env e mo o))))) <=
   dist p (List.length (mm_queue (mo_manager mo))) + (match o with LEnqueue _ _ _ => 1 | _ => 0 end)
   - (match o with LUdp j _ _ _ => if Nat.eqb i j then 1 else 0 | _ => 0 end))%nat.
Proof.
  intros NS R N. pose proof (lstep_udp env e mo o i p N) as H. pose proof (lstep_queue env e mo o) as Q.
  destruct (runs i o) as [o'|] eqn:RU.
  - destruct H as [N' _]. destruct o as [| | | | |j r order sock|]; try discriminate. cbn [runs] in RU.
    destruct (Nat.eqb_spec i j) as [<-|]; [|discriminate]. injection RU as <-. eexists. split; [exact N'|].
    pose proof (loop_dist env (with_pc (mo_manager mo) p) r order sock R) as D. cbn [with_pc mm_set mm_pc mm_queue] in D.
    fold (with_pc (mo_manager mo) p) in D. cbn [lstep mstep]. rewrite N.
    destruct (loop_step env (with_pc (mo_manager mo) p) r order sock) as [m' es]. cbn [fst mo_manager mm_queue mm_set mm_pc with_pc] in *. lia.
  - destruct H as [N' _]. exists p. split; [exact N'|].
    assert ((match o with LUdp j _ _ _ => if Nat.eqb i j then 1 else 0 | _ => 0 end) = 0)%nat as ->.
    { unfold runs in RU. destruct o; auto. destruct (Nat.eqb i i0); [discriminate|reflexivity]. }
    rewrite Nat.sub_0_r. etransitivity; [apply dist_mono; exact Q|]. rewrite Nat.add_comm. apply dist_shift.
Qed.
Lemma enqueued_app a b : enqueued (a ++ b) = enqueued a ++ enqueued b.
Proof. apply flat_map_app. Qed.
Lemma enqueued_step o es : List.length (enqueued (lobserved o es)) = (match o with LEnqueue _ _ _ => 1 | _ => 0 end)%nat.
Proof.
  unfold lobserved. rewrite enqueued_app. replace (enqueued (map ODid es)) with (@nil (nat * bool * bool)) by (induction es; auto).
  destruct o; reflexivity.
Qed.
(** Coroutines that have ended stay so and do nothing. *)
Lemma l_ended env e ops : forall mo i x, nth_error (mo_udp mo) i = Some (PEnd x) ->
  own_calls i (snd (lrun env e mo ops)) = [] /\ nth_error (mo_udp (fst (lrun env e mo ops))) i = Some (PEnd x).
Proof.
  induction ops as [|o ops IH]; intros mo i x N; [auto|]. rewrite lrun_cons. cbn [fst snd]. rewrite own_app.
  pose proof (lstep_udp env e mo o i _ N) as H. destruct (runs i o) as [o'|] eqn:RU; destruct H as [N' ->].
  - destruct (ended_forever env [o'] (with_pc (mo_manager mo) (PEnd x))) as (A & B); [exists x; reflexivity|].
    rewrite mrun_cons in A, B. cbn [mrun fst snd] in A, B. rewrite app_nil_r in A. rewrite A, B in *. cbn in N'. apply IH. exact N'.
  - apply IH. exact N'.
Qed.
Lemma l_stop_ends env e ops : forall mo i p, mm_running (mo_manager mo) = false -> Forall no_start ops -> nth_error (mo_udp mo) i = Some p ->
  (dist p (List.length (mm_queue (mo_manager mo))) + List.length (enqueued (lhistory env e mo ops)) <= steps_of i ops)%nat ->
  exists x, nth_error (mo_udp (fst (lrun env e mo ops))) i = Some (PEnd x).
Proof.
  induction ops as [|o ops IH]; intros mo i p R F N D.
  - cbn in D. destruct p; cbn in D; try lia. cbn. eauto.
  - assert ((exists x, p = PEnd x) \/ (0 < dist p (List.length (mm_queue (mo_manager mo))))%nat) as [(x & ->)|PZ]
      by (destruct p; cbn; eauto; right; lia).
    { exists x. apply l_ended. exact N. }
    inversion F as [|? ? NS F']; subst. rewrite lrun_cons. cbn [fst].
    destruct (lstep_dist env e mo o i p NS R N) as (p' & N' & D').
    cbn [lhistory] in D. rewrite enqueued_app, app_length, enqueued_step in D.
    assert (steps_of i (o :: ops) = ((match o with LUdp j _ _ _ => if Nat.eqb i j then 1 else 0 | _ => 0 end) + steps_of i ops)%nat) as S.
    { unfold steps_of. cbn. destruct o; auto. destruct (Nat.eqb i i0); auto. }
    rewrite S in D. apply (IH _ i p' (lstep_stays env e mo o NS R) F' N').
    destruct o as [| | | | |j r order sock|]; try lia. destruct (Nat.eqb i j); lia.
Qed.
Lemma dist_bound p q : (dist p q <= 3 + q)%nat.
Proof. destruct p; cbn; lia. Qed.

(** ** The dispatcher of the manager is a dispatcher *)
Lemma lstep_reach env e mo o : reachable env (mm_disp (mo_manager mo)) -> reachable env (mm_disp (mo_manager (fst (lstep env e mo o)))).
Proof.
  intros R. pose proof (lstep_mop env e mo o) as H. destruct (mop_of mo o) as [[p o']|]; cbv zeta in H.
  - destruct H as [-> _]. exact (mstep_reach env (with_pc (mo_manager mo) p) o' R).
  - destruct H as (-> & _). exact R.
Qed.
Lemma lrun_reach env e ops : forall mo, reachable env (mm_disp (mo_manager mo)) -> reachable env (mm_disp (mo_manager (fst (lrun env e mo ops)))).
Proof. induction ops as [|o ops IH]; intros mo R; [exact R|]. rewrite lrun_cons. apply IH, lstep_reach, R. Qed.
Lemma l_dispatcher env e mo : l_reachable env e mo -> reachable env (mm_disp (mo_manager mo)).
Proof. intros (host & eq & ops & _ & ->). apply lrun_reach. exact (mm_init_reach env host eq). Qed.
