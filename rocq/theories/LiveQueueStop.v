(** Proofs for C94: one coroutine at a time, stopping, and the uninterrupted queue. *)
From Verif Require HeaderProofs.
From Verif Require Import Lib SpecLiveQueue LiveQueueProofs LiveQueueMore.

(** ** One at a time *)
Definition ended (p : npc) : Prop := exists b, p = NDone b.
Definition alone_inv (l : lqueue) : Prop :=
  forall i j p p', nth_error (nq_pool l) i = Some p -> nth_error (nq_pool l) j = Some p' -> ~ ended p -> ~ ended p' -> i = j.
Lemma one_app e l a b : one_at_a_time e l (a ++ b) <-> one_at_a_time e l a /\ one_at_a_time e (nrun e l a) b.
Proof.
  revert l. induction a as [|o a IH]; intros l; cbn [app one_at_a_time nrun]; [tauto|]. rewrite IH. tauto.
Qed.
Lemma ended_stays e q r b o x : nq_step e q r (NDone b) o x = (q, [], NDone b).
Proof. reflexivity. Qed.
Lemma alone_step e l o : alone_inv l -> (o = NStart -> Forall (fun p => exists b, p = NDone b) (nq_pool l)) -> alone_inv (fst (nstep e l o)).
Proof.
  intros A S. destruct o as [| | |u|i o x]; cbn [nstep fst]; try exact A.
  - specialize (S eq_refl). destruct (qe_enabled e); [|exact A]. intros i j p p' P P' N N'. cbn in P, P'.
    assert (forall i p, nth_error (nq_pool l ++ [NBegin]) i = Some p -> ~ ended p -> i = List.length (nq_pool l)) as K.
    { intros k q Q NQ. destruct (Nat.lt_ge_cases k (List.length (nq_pool l))) as [L|L].
      - rewrite nth_error_app1 in Q by exact L. rewrite Forall_forall in S. exfalso. apply NQ. apply S. now apply nth_error_In in Q.
      - assert (k < List.length (nq_pool l ++ [NBegin]))%nat by (apply nth_error_Some; congruence). rewrite app_length in H. cbn in H. lia. }
    rewrite (K i p P N), (K j p' P' N'). reflexivity.
  - destruct (nth_error (nq_pool l) i) as [p0|] eqn:P0; [|exact A].
    destruct (nq_step e (nq_q l) (nq_reg l) p0 o x) as [[q ev] p1] eqn:ST. cbn [fst].
    assert (~ ended p1 -> ~ ended p0) as E1.
    { intros N (b & ->). rewrite ended_stays in ST. injection ST as <- <- <-. apply N. now exists b. }
    assert (forall k p, nth_error (update_nth i p1 (nq_pool l)) k = Some p -> ~ ended p ->
      exists p', nth_error (nq_pool l) k = Some p' /\ ~ ended p') as K.
    { intros k q' Q NQ. destruct (Nat.eq_dec i k) as [<-|D].
      - rewrite HeaderProofs.nth_update_eq in Q by (apply nth_error_Some; congruence). injection Q as <-. eauto.
      - rewrite HeaderProofs.nth_update_neq in Q by exact D. eauto. }
    intros a b p p' P P' N N'. cbn in P, P'. destruct (K _ _ P N) as (x1 & X1 & Y1). destruct (K _ _ P' N') as (x2 & X2 & Y2).
    exact (A a b x1 x2 X1 X2 Y1 Y2).
Qed.
Definition all_done (past : list nobs) (x : nobs) : Prop :=
  match x with NDid i (NPosted _) => forall j, finished j past | _ => True end.
Lemma all_done_did i h : forall ev, all_at who h (did i ev) -> (forall j, j <> i -> finished j h) -> all_at all_done h (did i ev).
Proof.
  intros ev. revert h. induction ev as [|x ev IH]; intros h W F; [exact I|]. cbn [did map all_at] in *. destruct W as [W1 W2]. split.
  - destruct x; try exact I. cbn in *. intros j. destruct (Nat.eq_dec j i) as [->|D]; [exact W1|now apply F].
  - apply IH; [exact W2|]. intros j D. apply finished_mono; [now apply F|]. apply (foreign_did j i [x] D).
Qed.
Lemma one_life e ops : one_at_a_time e nq_init ops -> alone_inv (nafter e ops) /\ all_at all_done [] (nlife e ops).
Proof.
  induction ops as [|o ops IH] using rev_ind; intros O.
  - split; [|exact I]. intros i j p p' P. destruct i; discriminate P.
  - apply one_app in O as [O1 [O2 _]]. destruct (IH O1) as [A D]. rewrite nlife_snoc, nafter_snoc. split; [now apply alone_step|].
    apply all_at_app. split; [exact D|]. cbn [app]. fold (nafter e ops) in O2. destruct (ninv_life e ops) as [R OW N W].
    destruct o as [| | |u|i o x]; try (unfold nnews; cbn; auto; fail).
    destruct (nth_error (nq_pool (nafter e ops)) i) as [p|] eqn:P.
    + pose proof (run_step e _ _ i p o x (ninv_life e ops) P) as RS. cbv zeta in RS.
      destruct (nq_step e (nq_q (nafter e ops)) (nq_reg (nafter e ops)) p o x) as [[q ev] p'] eqn:S.
      rewrite (nnews_run e _ i p o x q ev p' P S). destruct RS as [_ R2]. apply all_at_app. split.
      * destruct p; cbn; auto.
      * destruct p as [| | |n m k rest| |b]; [..|rewrite ended_stays in S; injection S as <- <- <-; exact I].
        all: apply all_done_did; [exact R2|]; intros j J;
          assert (finished j (nlife e ops)) as F;
          [destruct (nth_error (nq_pool (nafter e ops)) j) as [p2|] eqn:P2; [|exact (none_finished j _ (N j P2))];
           pose proof (OW j p2 P2) as C; destruct p2 as [| | |n' m' k' rest'| |b']; try exact C;
           exfalso; apply J; apply (A j i _ _ P2 P); intros (b & B); discriminate B
          |apply finished_mono; [exact F|now apply seen_foreign]].
    + unfold nnews; cbn [nobserved nstep]. rewrite P. exact I.
Qed.
Lemma live_one_at_a_time e ops past i d future j past0 ms mid : one_at_a_time e nq_init ops ->
  nlife e ops = past ++ NDid i (NPosted d) :: future ->
  past = past0 ++ NDid j (NDecoded ms) :: mid -> same_response j mid -> delivered_or_broken_off j past0 ms mid.
Proof.
  intros O E E' S. destruct (one_life e ops O) as [_ D]. pose proof (all_at_split all_done _ _ _ _ D E j _ _ _ E' S) as [_ F].
  destruct F as [F|[F _]]; [now left|now right].
Qed.

(** ** Stopping *)
Lemma n_posts_app i a b : n_posts i (a ++ b) = n_posts i a ++ n_posts i b.
Proof. apply flat_map_app. Qed.
Definition evposts (ev : list nevent) : list llsd := flat_map (fun x => match x with NPosted d => [d] | _ => [] end) ev.
Definition evcalls (ev : list nevent) : nat := List.length (filter (fun x => match x with NCalled _ _ _ _ => true | _ => false end) ev).
Lemma posts_did i ev : n_posts i (did i ev) = evposts ev.
Proof.
  unfold n_posts, evposts, did. induction ev as [|x ev IH]; [reflexivity|]. cbn [map flat_map]. rewrite IH.
  destruct x; try reflexivity. now rewrite Nat.eqb_refl.
Qed.
Lemma posts_did_other i j ev : i <> j -> n_posts i (did j ev) = [].
Proof.
  intros D. apply Nat.eqb_neq in D. unfold n_posts, did. induction ev as [|x ev IH]; [reflexivity|]. cbn [map flat_map]. rewrite IH.
  destruct x; try reflexivity. now rewrite D.
Qed.
Lemma calls_did i ev : List.length (n_calls i (did i ev)) = evcalls ev.
Proof.
  unfold n_calls, evcalls, did. induction ev as [|x ev IH]; [reflexivity|]. cbn [map flat_map filter]. rewrite app_length, IH.
  destruct x; try reflexivity. now rewrite Nat.eqb_refl.
Qed.
Lemma posts_seen j p i o x : n_posts j (seen_first p i o x) = [].
Proof. now destruct p. Qed.
Lemma calls_seen j p i o x : n_calls j (seen_first p i o x) = [].
Proof. now destruct p. Qed.
(** Phases left: polls, closing requests, steps. *)
Definition phase (p : npc) : nat * nat * nat :=
  match p with
  | NBegin => (0, 1, 2) | NSleep => (1, 1, 3) | NPost => (0, 1, 2) | NCall _ _ _ _ => (0, 1, 2) | NClosing => (0, 0, 1) | NDone _ => (0, 0, 0)
  end%nat.
Definition poll_budget (p : npc) : nat := fst (fst (phase p)).
Definition close_budget (p : npc) : nat := snd (fst (phase p)).
Definition step_budget (p : npc) : nat := snd (phase p).
Definition quietp (p : npc) : bool := match p with NSleep | NPost | NCall _ _ _ _ => false | _ => true end.
(** What one step of a stopped queue does. *)
Definition stop_step (p : npc) (ev : list nevent) (p' : npc) : Prop :=
  (exists a b, evposts ev = a ++ b /\ Forall polls a /\ Forall closes b /\ (b <> [] -> poll_budget p' = 0%nat) /\
    (poll_budget p' + List.length a <= poll_budget p)%nat /\ (close_budget p' + List.length b <= close_budget p)%nat) /\
  (S (step_budget p') <= step_budget p + evcalls ev \/ step_budget p' = 0)%nat /\
  (quietp p = true -> evcalls ev = 0%nat /\ quietp p' = true).
Lemma top_stop q : eq_stopped q = true -> exists q' ev p', nq_top q = (q', ev, p') /\ eq_stopped q' = true /\ evcalls ev = 0%nat /\
  Forall closes (evposts ev) /\ poll_budget p' = 0%nat /\ (close_budget p' + List.length (evposts ev) <= 1)%nat /\ (step_budget p' <= 1)%nat /\ quietp p' = true.
Proof.
  intros S. unfold nq_top. rewrite S. destruct (equals_minus1 (eq_last q)); do 3 eexists; (split; [reflexivity|]); cbn; repeat split; auto.
  constructor; [|constructor]. eexists. reflexivity.
Qed.
Lemma hand_stop q r : eq_stopped q = true -> forall ms n, exists q' ev p', hand_over q r n ms = (q', ev, p') /\ eq_stopped q' = true /\
  Forall closes (evposts ev) /\ poll_budget p' = 0%nat /\ (close_budget p' + List.length (evposts ev) <= 1)%nat /\ (S (step_budget p') <= 2 + evcalls ev)%nat.
Proof.
  intros S. induction ms as [|m ms IH]; intros n; cbn [hand_over].
  - destruct (top_stop q S) as (q' & ev & p' & -> & A & B & C & D & F & G & _). exists q', ev, p'. repeat split; auto. lia.
  - destruct (eq_subs r m) as [|s l]; [apply IH|]. do 3 eexists. split; [reflexivity|]. cbn. repeat split; auto.
Qed.
Lemma nq_stop_step e q r p o x : eq_stopped q = true ->
  let '(q', ev, p') := nq_step e q r p o x in eq_stopped q' = true /\ stop_step p ev p'.
Proof.
  intros S.
  assert (forall p q' ev p', eq_stopped q' = true -> Forall closes (evposts ev) -> poll_budget p' = 0%nat ->
    (close_budget p' + List.length (evposts ev) <= 1)%nat -> close_budget p = 1%nat ->
    (Datatypes.S (step_budget p') <= step_budget p + evcalls ev)%nat -> (quietp p = true -> evcalls ev = 0%nat /\ quietp p' = true) ->
    eq_stopped q' = true /\ stop_step p ev p') as K.
  { intros p0 q' ev p' A B C D F G H. split; [exact A|]. split; [|split; [now left|exact H]].
    exists [], (evposts ev). cbn. repeat split; auto; lia. }
  destruct p as [| | |n m k rest| |b]; cbn [nq_step].
  - destruct (String.eqb (qe_cap e) "event_queue").
    + cbn [eq_stopped set_running]. rewrite S. apply K; cbn; auto.
    + destruct (String.eqb (qe_cap e) "EventQueueGet").
      * destruct (top_stop (set_running q true) S) as (q' & ev & p' & -> & A & B & C & D & F & G & H). apply K; auto; cbn; lia.
      * apply K; cbn; auto.
  - split; [exact S|]. split; [|split; [cbn; lia|discriminate]]. exists [eq_payload (eq_last q)], []. cbn. repeat split; auto.
    constructor; [|constructor]. unfold eq_payload. destruct (equals_minus1 _); [now left|right; eauto].
  - destruct (eq_after (qe_known e) (fun _ => false) q o) as [q1 ms] eqn:EA.
    assert (eq_stopped q1 = true) as S1.
    { pose proof (MonitorQueue.after_flags (qe_known e) (fun _ => false) q o) as [X _]. rewrite EA in X. cbn in X. congruence. }
    destruct (hand_stop q1 r S1 ms 0) as (q' & ev & p' & -> & A & B & C & D & F). apply K; cbn; auto. discriminate.
  - destruct x as [x|].
    + destruct (swallow_keyerror (Some x)).
      * destruct (top_stop q S) as (q' & ev & p' & -> & A & B & C & D & F & G & H). apply K; cbn; auto; try discriminate; lia.
      * destruct (hand_stop q r S rest (Datatypes.S n)) as (q' & ev & p' & -> & A & B & C & D & F). apply K; cbn; auto; try discriminate; lia.
    + destruct (nth_error (eq_subs r m) (Datatypes.S k)).
      * apply K; cbn; auto; try discriminate; lia.
      * destruct (hand_stop q r S rest (Datatypes.S n)) as (q' & ev & p' & -> & A & B & C & D & F). apply K; cbn; auto; try discriminate; lia.
  - destruct o; (split; [exact S|]); (split; [|split; [cbn; lia|auto]]); exists [], []; cbn; repeat split; auto.
  - split; [exact S|]. split; [|split; [now right|auto]]. exists [], []. cbn. repeat split; auto.
Qed.
Definition popt (p : option npc) (f : npc -> nat) (d : nat) : nat := match p with Some p => f p | None => d end.
Lemma nstep_pool_other e l o i : (forall y x, o <> NRun i y x) -> n_posts i (nnews e l o) = [] /\ n_calls i (nnews e l o) = [] /\
  (nth_error (nq_pool (fst (nstep e l o))) i = nth_error (nq_pool l) i \/
   nth_error (nq_pool l) i = None /\ nth_error (nq_pool (fst (nstep e l o))) i = Some NBegin).
Proof.
  intros D. destruct o as [| | |u|j o x]; unfold nnews; cbn [nobserved nstep fst snd map]; try (split; [reflexivity|]; split; [reflexivity|]; now left).
  - split; [reflexivity|]. split; [reflexivity|]. cbn. destruct (qe_enabled e); [|now left].
    destruct (Nat.lt_trichotomy i (List.length (nq_pool l))) as [L|[->|L]].
    + left. now rewrite nth_error_app1.
    + right. split; [now apply nth_error_None|]. rewrite nth_error_app2 by lia. now rewrite Nat.sub_diag.
    + left. transitivity (@None npc); [|symmetry]; apply nth_error_None; rewrite ?app_length; cbn; lia.
  - assert (i <> j) as NE by (intros ->; now apply (D o x)). destruct (nth_error (nq_pool l) j) as [p|] eqn:P.
    + destruct (nq_step e (nq_q l) (nq_reg l) p o x) as [[q ev] p'] eqn:S. cbn [fst snd nq_pool]. rewrite map_map.
      change (map (fun x0 : nevent => NDid j x0) ev) with (did j ev).
      change (match p with NPost => [NAnswered j o] | NCall n _ k _ => [NReturned j n k x] | NClosing => [NClosed j o] | _ => [] end)
        with (seen_first p j o x).
      rewrite n_posts_app, n_calls_app, posts_seen, calls_seen, posts_did_other, (foreign_calls i _ (foreign_did i j ev NE)) by exact NE.
      split; [reflexivity|]. split; [reflexivity|]. left. apply HeaderProofs.nth_update_neq. auto.
    + split; [reflexivity|]. split; [reflexivity|]. now left.
Qed.
Lemma stopped_step e l o : n_stopped l -> n_stopped (fst (nstep e l o)).
Proof.
  unfold n_stopped. intros S. destruct o as [| | |u|i o x]; cbn [nstep fst set_q nq_q]; auto.
  - now destruct (eq_running (nq_q l)).
  - destruct (nth_error (nq_pool l) i) as [p|]; [|exact S]. pose proof (nq_stop_step e (nq_q l) (nq_reg l) p o x S) as K.
    destruct (nq_step e (nq_q l) (nq_reg l) p o x) as [[q ev] p']. exact (proj1 K).
Qed.
Lemma stop_life e : forall ops l i, n_stopped l ->
  let p := nth_error (nq_pool l) i in let h := nhistory e l ops in
  (exists a b, n_posts i h = a ++ b /\ Forall polls a /\ Forall closes b /\
    (List.length a <= popt p poll_budget 0)%nat /\ (List.length b <= popt p close_budget 1)%nat) /\
  (match p with Some p => quietp p | None => true end = true -> n_calls i h = []) /\
  (forall p0, p = Some p0 -> exists p1, nth_error (nq_pool (nrun e l ops)) i = Some p1 /\
     (step_budget p1 + n_steps_of i ops <= step_budget p0 + List.length (n_calls i h) \/ step_budget p1 = 0)%nat).
Proof.
  induction ops as [|o ops IH]; intros l i S; cbv zeta.
  - cbn [nhistory nrun]. split; [exists [], []; cbn; repeat split; auto; lia|]. split; [reflexivity|].
    intros p0 P. exists p0. split; [exact P|]. left. cbn. lia.
  - rewrite nhistory_cons. cbn [nrun]. pose proof (stopped_step e l o S) as S'. specialize (IH (fst (nstep e l o)) i S'). cbv zeta in IH.
    rewrite n_posts_app, n_calls_app.
    assert ((exists y x, o = NRun i y x) \/ (forall y x, o <> NRun i y x)) as [(y & x & ->)|D].
    { destruct o as [| | |u|j y x]; try (right; discriminate). destruct (Nat.eq_dec j i) as [->|NE]; [left; eauto|right; congruence]. }
    + destruct (nth_error (nq_pool l) i) as [p|] eqn:P.
      * pose proof (nq_stop_step e (nq_q l) (nq_reg l) p y x S) as K.
        destruct (nq_step e (nq_q l) (nq_reg l) p y x) as [[q ev] p'] eqn:ST. destruct K as (_ & K1 & K2 & K3).
        assert (n_calls i (seen_first p i y x ++ did i ev) = n_calls i (did i ev)) as KC by (now rewrite n_calls_app, calls_seen).
        rewrite (nnews_run e l i p y x q ev p' P ST), n_posts_app, KC, posts_seen, posts_did.
        assert (nth_error (nq_pool (fst (nstep e l (NRun i y x)))) i = Some p') as P'.
        { cbn [nstep]. rewrite P, ST. cbn. apply HeaderProofs.nth_update_eq, nth_error_Some. congruence. }
        rewrite P' in IH. destruct IH as (I1 & I2 & I3). cbn [popt app] in *. split; [|split].
        -- destruct K1 as (a & b & E & Fa & Fb & Z & La & Lb). destruct I1 as (a' & b' & E' & Fa' & Fb' & La' & Lb').
           rewrite E, E'. destruct b as [|b1 b].
           ++ exists (a ++ a'), b'. rewrite app_nil_r, app_assoc. rewrite app_length. cbn in Lb. repeat split; auto; try lia. now apply Forall_app.
           ++ assert (a' = []) as ->. { destruct a'; [reflexivity|]. rewrite Z in La' by discriminate. cbn in La'. lia. }
              exists a, ((b1 :: b) ++ b'). rewrite <- app_assoc. cbn [app] in *. cbn [List.length] in *. rewrite app_length.
              repeat split; auto; try lia. constructor; [now inversion Fb|]. apply Forall_app. split; [now inversion Fb|exact Fb'].
        -- intros Q. destruct (K3 Q) as [C Q']. rewrite (I2 Q'), app_nil_r. apply length_zero_iff_nil. now rewrite calls_did.
        -- intros p0 [= <-]. destruct (I3 p' eq_refl) as (p1 & P1 & B). exists p1. split; [exact P1|].
           rewrite app_length, calls_did. unfold n_steps_of. cbn [filter]. rewrite Nat.eqb_refl. cbn [List.length].
           fold (n_steps_of i ops). destruct B as [B|B]; [|now right]. destruct K2 as [K2|K2]; [left; lia|].
           destruct p' as [| | | | |b]; try discriminate K2. right. clear - P1 P'. 
           assert (forall ops l, nth_error (nq_pool l) i = Some (NDone b) -> nth_error (nq_pool (nrun e l ops)) i = Some (NDone b)) as ST.
           { clear. induction ops as [|o ops IH]; intros l H; [exact H|]. cbn [nrun]. apply IH.
             destruct o as [| | |u|j y x]; cbn [nstep fst set_q nq_pool]; try exact H.
             - destruct (qe_enabled e); [|exact H]. rewrite nth_error_app1; [exact H|]. apply nth_error_Some. congruence.
             - destruct (Nat.eq_dec j i) as [->|NE].
               + rewrite H. cbn. rewrite HeaderProofs.nth_update_eq; [reflexivity|]. apply nth_error_Some. congruence.
               + destruct (nth_error (nq_pool l) j); [|exact H]. destruct (nq_step e _ _ _ y x) as [[? ?] ?]. cbn.
                 now rewrite HeaderProofs.nth_update_neq. }
           rewrite (ST ops _ P') in P1. injection P1 as <-. reflexivity.
      * assert (nnews e l (NRun i y x) = []) as -> by (unfold nnews; cbn; now rewrite P).
        assert (fst (nstep e l (NRun i y x)) = l) as EQ by (cbn; now rewrite P). rewrite EQ in *. rewrite P in IH.
        destruct IH as (I1 & I2 & _). split; [exact I1|]. split; [exact I2|discriminate].
    + destruct (nstep_pool_other e l o i D) as (-> & -> & PO). cbn [app].
      assert (n_steps_of i (o :: ops) = n_steps_of i ops) as ->.
      { unfold n_steps_of. cbn [filter]. destruct o as [| | |u|j y x]; try reflexivity. destruct (Nat.eqb i j) eqn:B; [|reflexivity].
        apply Nat.eqb_eq in B. subst j. exfalso. now apply (D y x). }
      destruct PO as [PO|[P0 P1]].
      * rewrite PO in IH. exact IH.
      * rewrite P1 in IH. rewrite P0. destruct IH as (I1 & I2 & _). cbn [popt] in *. split; [exact I1|]. split; [exact I2|discriminate].
Qed.
Lemma live_after_stop e l ops i : n_stopped l ->
  let p := nth_error (nq_pool l) i in let h := nhistory e l ops in
  exists a b, n_posts i h = a ++ b /\ Forall polls a /\ Forall closes b /\
    (List.length a <= n_polls_left p)%nat /\ (List.length b <= n_closes_left p)%nat /\
    ((forall q, p = Some q -> q <> NSleep /\ q <> NPost /\ not_delivering q) -> n_calls i h = []).
Proof.
  intros S p h. destruct (stop_life e ops l i S) as ((a & b & E & F1 & F2 & L1 & L2) & Q & _). fold p in L1, L2, Q. fold h in E, Q.
  exists a, b. repeat split; auto.
  - etransitivity; [exact L1|]. destruct p as [[]|]; cbn; lia.
  - etransitivity; [exact L2|]. destruct p as [[]|]; cbn; lia.
  - intros H. apply Q. destruct p as [p|]; [|reflexivity]. destruct (H p eq_refl) as (A & B & C). destruct p; cbn in *; congruence || contradiction.
Qed.
Lemma live_stop_ends e l ops i : n_stopped l -> (i < List.length (nq_pool l))%nat ->
  (3 + List.length (n_calls i (nhistory e l ops)) <= n_steps_of i ops)%nat -> exists b, nth_error (nq_pool (nrun e l ops)) i = Some (NDone b).
Proof.
  intros S L T. destruct (stop_life e ops l i S) as (_ & _ & K). destruct (nth_error (nq_pool l) i) as [p|] eqn:P; [|apply nth_error_None in P; lia].
  destruct (K p eq_refl) as (p1 & P1 & B). rewrite P1. assert (step_budget p <= 3)%nat by (destruct p; cbn; lia).
  assert (step_budget p1 = 0)%nat as Z by lia. destruct p1; try discriminate Z. eauto.
Qed.

(** ** What stops a queue *)
Lemma top_flag q : eq_stopped (fst (fst (nq_top q))) = eq_stopped q.
Proof. unfold nq_top. destruct (eq_stopped q) eqn:E; [destruct (equals_minus1 (eq_last q))|]; cbn; auto. Qed.
Lemma hand_flag ms : forall q r n, eq_stopped (fst (fst (hand_over q r n ms))) = eq_stopped q.
Proof.
  induction ms as [|m ms IH]; intros q r n; cbn [hand_over]; [apply top_flag|].
  destruct (eq_subs r m); [apply IH|reflexivity].
Qed.
Lemma step_flag e q r p o x : eq_stopped (fst (fst (nq_step e q r p o x))) = eq_stopped q.
Proof.
  destruct p as [| | |n m k rest| |b]; cbn [nq_step]; try reflexivity.
  - destruct (String.eqb (qe_cap e) "event_queue"); [cbn; destruct (eq_stopped q) eqn:E; cbn; auto|].
    destruct (String.eqb (qe_cap e) "EventQueueGet"); [|reflexivity]. now rewrite top_flag.
  - destruct (eq_after (qe_known e) (fun _ => false) q o) as [q' ms] eqn:A.
    assert (eq_stopped q' = eq_stopped q) as F.
    { unfold eq_after in A. destruct (is_none _); [now injection A as <- _|].
      destruct (getitem _ _); now injection A as <- _. }
    pose proof (hand_flag ms q' r 0%nat) as H. destruct (hand_over q' r 0 ms) as [[q2 ev] p2]. cbn in *. congruence.
  - destruct x as [x|].
    + destruct (swallow_keyerror (Some x)); [apply top_flag|apply hand_flag].
    + destruct (nth_error (eq_subs r m) (Datatypes.S k)); [reflexivity|apply hand_flag].
  - destruct o; reflexivity.
Qed.
Lemma nstep_flag e l o : n_stopped (fst (nstep e l o)) <->
  n_stopped l \/ o = NStop \/ (o = NStopMonitors /\ eq_running (nq_q l) = true).
Proof.
  unfold n_stopped. destruct o as [| | |h|i o x]; cbn [nstep fst nq_q set_q].
  - split; [auto|]. intros [H|[H|(H & _)]]; [exact H|discriminate H|discriminate H].
  - cbn. tauto.
  - destruct (eq_running (nq_q l)) eqn:R; cbn; [tauto|]. split; [auto|]. intros [H|[H|(_ & H)]]; [exact H|discriminate H|discriminate H].
  - split; [auto|]. intros [H|[H|(H & _)]]; [exact H|discriminate H|discriminate H].
  - destruct (nth_error (nq_pool l) i) as [p|].
    + pose proof (step_flag e (nq_q l) (nq_reg l) p o x) as F.
      destruct (nq_step e (nq_q l) (nq_reg l) p o x) as [[q ev] p']. cbn in *. rewrite F.
      split; [auto|]. intros [H|[H|(H & _)]]; [exact H|discriminate H|discriminate H].
    + cbn. split; [auto|]. intros [H|[H|(H & _)]]; [exact H|discriminate H|discriminate H].
Qed.
Lemma stopped_iff e ops : forall l, n_stopped (nrun e l ops) <->
  n_stopped l \/ In NStop ops \/
  exists before later, ops = before ++ NStopMonitors :: later /\ eq_running (nq_q (nrun e l before)) = true.
Proof.
  induction ops as [|o ops IH]; intros l; cbn [nrun].
  - split; [auto|]. intros [H|[[]|([|? ?] & later & E & _)]]; [exact H|discriminate E|discriminate E].
  - rewrite IH, nstep_flag. split.
    + intros [[H|[->|(-> & R)]]|[H|(b & la & -> & R)]].
      * auto.
      * right. left. now left.
      * right. right. exists [], ops. auto.
      * right. left. now right.
      * right. right. exists (o :: b), la. auto.
    + intros [H|[[->|H]|(b & la & E & R)]]; auto.
      destruct b as [|o' b]; cbn in E.
      * injection E as -> ->. left. right. right. auto.
      * injection E as -> ->. right. right. exists b, la. auto.
Qed.
