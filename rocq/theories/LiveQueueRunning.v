(** When an event queue reports itself running (C94). *)
From Verif Require Import Lib SpecLiveQueue LiveQueueProofs LiveQueueMore LiveQueueStop.
Open Scope list_scope.

Definition isdone (p : npc) : Prop := exists b, p = NDone b.
Definition runs (q : eqstate) (p : npc) : Prop := p <> NBegin /\ (eq_running q = true <-> p <> NDone true).
Definition has_queue (e : qenv) : Prop := qe_cap e = "EventQueueGet"%string \/ qe_cap e = "event_queue"%string.

Lemma top_runs q : eq_running q = true -> runs (fst (fst (nq_top q))) (snd (nq_top q)).
Proof.
  intros R. unfold nq_top, runs. destruct (eq_stopped q); [destruct (equals_minus1 (eq_last q))|]; cbn [fst snd set_running eq_running].
  - split; [intros X; discriminate X|]. split; [intros X; discriminate X|intros X; now destruct X].
  - split; [intros X; discriminate X|]. split; [intros _ X; discriminate X|auto].
  - split; [intros X; discriminate X|]. split; [intros _ X; discriminate X|auto].
Qed.
Lemma hand_runs ms : forall q r n, eq_running q = true -> runs (fst (fst (hand_over q r n ms))) (snd (hand_over q r n ms)).
Proof.
  induction ms as [|m ms IH]; intros q r n R; cbn [hand_over]; [now apply top_runs|].
  destruct (eq_subs r m); [now apply IH|]. cbn [fst snd]. split; [intros X; discriminate X|]. split; [intros _ X; discriminate X|auto].
Qed.
Lemma keep_runs q p : eq_running q = true -> p <> NBegin -> p <> NDone true -> runs q p.
Proof. intros R A B. split; [exact A|]. tauto. Qed.
Lemma go_runs e q r p o x : runs q p -> runs (fst (fst (nq_step e q r p o x))) (snd (nq_step e q r p o x)).
Proof.
  intros [A B]. destruct p as [| | |n m k rest| |b]; cbn [nq_step]; [now destruct A| | | | |];
    try (assert (eq_running q = true) as R by (apply B; intros X; discriminate X)).
  - apply keep_runs; [exact R| |]; intros X; discriminate X.
  - destruct (eq_after (qe_known e) (fun _ => false) q o) as [q' ms] eqn:E.
    assert (eq_running q' = true) as R'.
    { unfold eq_after in E. destruct (is_none _); [injection E as <- _; exact R|]. destruct (getitem _ _); injection E as <- _; exact R. }
    pose proof (hand_runs ms q' r 0 R') as H. destruct (hand_over q' r 0 ms) as [[q2 ev] p2]. exact H.
  - destruct x as [x|].
    + destruct (swallow_keyerror (Some x)); [now apply top_runs|now apply hand_runs].
    + destruct (nth_error (eq_subs r m) (S k)); [|now apply hand_runs]. apply keep_runs; [exact R| |]; intros X; discriminate X.
  - destruct o; cbn [fst snd].
    + split; [intros X; discriminate X|]. cbn. split; [intros X; discriminate X|intros X; now destruct X].
    + apply keep_runs; [exact R| |]; intros X; discriminate X.
  - split; [exact A|exact B].
Qed.
Lemma begin_runs e q r o x : has_queue e -> runs (fst (fst (nq_step e q r NBegin o x))) (snd (nq_step e q r NBegin o x)).
Proof.
  intros [C|C]; cbn [nq_step]; rewrite C; cbn [String.eqb Ascii.eqb Bool.eqb].
  - now apply top_runs.
  - change (eq_stopped (set_running q true)) with (eq_stopped q). destruct (eq_stopped q); cbn [fst snd].
    + split; [intros X; discriminate X|]. cbn. split; [intros X; discriminate X|intros X; now destruct X].
    + apply keep_runs; [reflexivity| |]; intros X; discriminate X.
Qed.
Definition rinv (l : lqueue) : Prop :=
  nq_pool l = [] /\ eq_running (nq_q l) = false \/
  exists pre p, nq_pool l = pre ++ [p] /\ Forall isdone pre /\
    (runs (nq_q l) p \/ p = NBegin /\ (eq_running (nq_q l) = true <-> exists pre', pre = pre' ++ [NDone false])).
Lemma update_snoc {A} (p' : A) pre : forall p, update_nth (List.length pre) p' (pre ++ [p]) = pre ++ [p'].
Proof. induction pre as [|a pre IH]; intros p; cbn; [reflexivity|]. now rewrite IH. Qed.
Lemma update_same {A} : forall (l : list A) i a, nth_error l i = Some a -> update_nth i a l = l.
Proof.
  induction l as [|b l IH]; intros [|i] a; cbn; intros E; try discriminate E; [now injection E as ->|]. f_equal. now apply IH.
Qed.
Lemma rinv_step e l o : has_queue e -> (o = NStart -> Forall isdone (nq_pool l)) -> rinv l -> rinv (fst (nstep e l o)).
Proof.
  intros C T I. destruct o as [| | |h|i o x]; cbn [nstep fst set_q].
  - specialize (T eq_refl). unfold rinv. cbn [nq_q nq_pool]. destruct (qe_enabled e); [|exact I]. right. destruct I as [(E & R)|(pre & p & E & D & K)].
    + exists [], NBegin. rewrite E. split; [reflexivity|]. split; [constructor|]. right. split; [reflexivity|].
      rewrite R. split; [intros X; discriminate X|]. intros ([|? ?] & X); discriminate X.
    + exists (pre ++ [p]), NBegin. rewrite E in *. split; [reflexivity|]. split; [exact T|]. right. split; [reflexivity|].
      apply Forall_app in T. destruct T as [_ T]. apply Forall_inv in T. destruct T as [b ->].
      destruct K as [[_ K]|[X _]]; [|discriminate X]. rewrite K. split.
      * intros N. exists pre. destruct b; [now destruct N|reflexivity].
      * intros (pre' & X). apply app_inj_tail in X. destruct X as [_ X]. rewrite X. intros Y. discriminate Y.
  - exact I.
  - unfold rinv. cbn [nq_q nq_pool]. destruct (eq_running (nq_q l)) eqn:R; [|exact I].
    destruct I as [(E & Z)|(pre & p & E & D & K)]; [rewrite R in Z; discriminate Z|].
    right. exists pre, p. split; [exact E|]. split; [exact D|]. exact K.
  - exact I.
  - destruct (nth_error (nq_pool l) i) as [p|] eqn:P; [|exact I]. destruct I as [(E & R)|(pre & p0 & E & D & K)].
    + rewrite E in P. destruct i; discriminate P.
    + rewrite E in P. destruct (Nat.lt_trichotomy i (List.length pre)) as [L|[->|L]].
      * rewrite nth_error_app1 in P by exact L. assert (isdone p) as [b ->] by (eapply Forall_forall; [exact D|]; eapply nth_error_In; exact P).
        cbn [nq_step fst]. unfold rinv. cbn [nq_q nq_pool]. right. exists pre, p0. split; [|split; [exact D|exact K]].
        rewrite E. apply update_same. rewrite nth_error_app1 by exact L. exact P.
      * rewrite nth_error_app2 in P by lia. rewrite Nat.sub_diag in P. cbn in P. injection P as ->.
        assert (runs (fst (fst (nq_step e (nq_q l) (nq_reg l) p o x))) (snd (nq_step e (nq_q l) (nq_reg l) p o x))) as N.
        { destruct K as [K|[-> _]]; [now apply go_runs|now apply begin_runs]. }
        destruct (nq_step e (nq_q l) (nq_reg l) p o x) as [[q' ev] p']. cbn [fst snd] in *. right. cbn [nq_q nq_pool].
        exists pre, p'. split; [rewrite E; apply update_snoc|]. split; [exact D|]. now left.
      * assert (nth_error (pre ++ [p0]) i = None) as X by (apply nth_error_None; rewrite app_length; cbn; lia). rewrite X in P. discriminate P.
Qed.
Lemma rinv_run e : has_queue e -> forall ops l, one_at_a_time e l ops -> rinv l -> rinv (nrun e l ops).
Proof.
  intros C. induction ops as [|o ops IH]; intros l T I; [exact I|]. cbn [nrun one_at_a_time] in *. destruct T as [T1 T2].
  apply IH; [exact T2|]. now apply rinv_step.
Qed.
Lemma live_running e ops : has_queue e -> one_at_a_time e nq_init ops ->
  eq_running (nq_q (nafter e ops)) = true <->
  exists i p, nth_error (nq_pool (nafter e ops)) i = Some p /\ p <> NBegin /\ p <> NDone true /\
    forall j p', (i < j)%nat -> nth_error (nq_pool (nafter e ops)) j = Some p' -> p' = NBegin.
Proof.
  intros C T. assert (rinv (nafter e ops)) as I.
  { apply rinv_run; [exact C|exact T|]. left. split; reflexivity. }
  generalize dependent (nafter e ops). intros l I. destruct I as [(E & R)|(pre & p & E & D & K)]; rewrite E.
  - rewrite R. split; [intros X; discriminate X|]. intros ([|i] & p & X & _); discriminate X.
  - destruct K as [[A B]|[-> B]]; rewrite B.
    + split.
      * intros N. exists (List.length pre), p. rewrite nth_error_app2 by lia. rewrite Nat.sub_diag. split; [reflexivity|].
        split; [exact A|]. split; [exact N|]. intros j p' L X.
        assert (nth_error (pre ++ [p]) j = None) as Y by (apply nth_error_None; rewrite app_length; cbn; lia). rewrite Y in X. discriminate X.
      * intros (i & p' & X & Q1 & Q2 & L). assert (nth_error (pre ++ [p]) (List.length pre) = Some p) as Y
          by (rewrite nth_error_app2 by lia; now rewrite Nat.sub_diag).
        destruct (Nat.lt_trichotomy i (List.length pre)) as [H|[->|H]].
        -- exfalso. exact (A (L _ _ H Y)).
        -- rewrite Y in X. injection X as ->. exact Q2.
        -- assert (nth_error (pre ++ [p]) i = None) as Z by (apply nth_error_None; rewrite app_length; cbn; lia). rewrite Z in X. discriminate X.
    + split.
      * intros (pre' & ->). exists (List.length pre'), (NDone false). rewrite <- app_assoc. cbn [app].
        rewrite nth_error_app2 by lia. rewrite Nat.sub_diag. split; [reflexivity|].
        split; [intros X; discriminate X|]. split; [intros X; discriminate X|]. intros j p' L X.
        rewrite nth_error_app2 in X by lia. destruct (j - List.length pre')%nat as [|[|n]] eqn:Z; [lia| |destruct n; discriminate X].
        cbn in X. now injection X as <-.
      * intros (i & p' & X & Q1 & Q2 & L). destruct (Nat.lt_trichotomy i (List.length pre)) as [H|[->|H]].
        -- rewrite nth_error_app1 in X by exact H. assert (isdone p') as [b ->] by (eapply Forall_forall; [exact D|]; eapply nth_error_In; exact X).
           destruct b; [now destruct Q2|]. destruct (exists_last (l := pre)) as (pre' & z & ->); [intros ->; cbn in H; lia|].
           exists pre'. f_equal. f_equal. rewrite app_length in H. cbn in H.
           destruct (Nat.eq_dec i (List.length pre')) as [->|NE].
           ++ rewrite nth_error_app2, Nat.sub_diag in X by lia. cbn in X. now injection X as ->.
           ++ exfalso. assert (z = NBegin) as ->.
              { apply (L (List.length pre') z); [lia|]. rewrite <- app_assoc, nth_error_app2, Nat.sub_diag by lia. reflexivity. }
              apply Forall_app in D. destruct D as [_ D]. apply Forall_inv in D. destruct D as [b D]. discriminate D.
        -- rewrite nth_error_app2, Nat.sub_diag in X by lia. cbn in X. injection X as <-. now destruct Q1.
        -- assert (nth_error (pre ++ [NBegin]) i = None) as Z by (apply nth_error_None; rewrite app_length; cbn; lia). rewrite Z in X. discriminate X.
Qed.
Lemma never_runs e : ~ has_queue e -> forall ops l, eq_running (nq_q l) = false -> Forall (fun p => p = NBegin \/ p = NDone false) (nq_pool l) ->
  eq_running (nq_q (nrun e l ops)) = false /\ Forall (fun p => p = NBegin \/ p = NDone false) (nq_pool (nrun e l ops)).
Proof.
  intros C. induction ops as [|o ops IH]; intros l R F; [now split|]. cbn [nrun].
  apply IH; destruct o as [| | |h|i o x]; cbn [nstep fst set_q nq_q nq_pool]; try assumption.
  - now rewrite R.
  - destruct (nth_error (nq_pool l) i) as [p|] eqn:P; [|exact R]. assert (p = NBegin \/ p = NDone false) as [->| ->] by (exact (proj1 (Forall_forall _ _) F p (nth_error_In _ _ P))).
    + cbn [nq_step]. destruct (String.eqb (qe_cap e) "event_queue") eqn:A; [destruct C; right; now apply String.eqb_eq|].
      destruct (String.eqb (qe_cap e) "EventQueueGet") eqn:B; [destruct C; left; now apply String.eqb_eq|]. exact R.
    + exact R.
  - destruct (qe_enabled e); [|exact F]. apply Forall_app. split; [exact F|]. constructor; [now left|constructor].
  - destruct (nth_error (nq_pool l) i) as [p|] eqn:P; [|exact F]. assert (p = NBegin \/ p = NDone false) as [->| ->] by (exact (proj1 (Forall_forall _ _) F p (nth_error_In _ _ P))).
    + cbn [nq_step]. destruct (String.eqb (qe_cap e) "event_queue") eqn:A; [destruct C; right; now apply String.eqb_eq|].
      destruct (String.eqb (qe_cap e) "EventQueueGet") eqn:B; [destruct C; left; now apply String.eqb_eq|]. cbn [fst nq_pool].
      generalize (nq_pool l) F. clear. intros pl F. revert i. induction F as [|a pl A F IH]; intros [|i]; cbn; try constructor; auto.
    + cbn [nq_step fst nq_pool]. now rewrite update_same.
Qed.
