(** Proofs for C93: the queue nobody interrupts is that of Monitors.v. *)
From Verif Require HeaderProofs.
From Verif Require Import Lib SpecLiveQueue LiveQueueProofs LiveQueueMore LiveQueueStop.

Fixpoint drive (e : qenv) (r : registry) (i : nat) (o : post_outcome) (q : eqstate) (p : npc) (xs : list (option exn)) : eqstate * list nobs * npc :=
  match xs with
  | [] => (q, [], p)
  | x :: xs =>
      let '(q1, ev, p1) := nq_step e q r p o x in
      let '(q2, h, p2) := drive e r i o q1 p1 xs in
      (q2, (seen_first p i o x ++ did i ev) ++ h, p2)
  end.
Lemma nhistory_one e l o ops : nhistory e l (o :: ops) = nnews e l o ++ nhistory e (fst (nstep e l o)) ops.
Proof. apply nhistory_cons. Qed.
Lemma update_same {A} i (p : A) l : nth_error l i = Some p -> update_nth i p l = l.
Proof. revert i. induction l as [|x l IH]; intros [|i] H; try discriminate H; cbn in *; [congruence|]. now rewrite IH. Qed.
Lemma update_twice {A} i (a b : A) l : update_nth i a (update_nth i b l) = update_nth i a l.
Proof. revert i. induction l as [|x l IH]; intros [|i]; cbn; auto. now rewrite IH. Qed.
Lemma drive_run e i o : forall xs l p, nth_error (nq_pool l) i = Some p ->
  let '(q, h, p') := drive e (nq_reg l) i o (nq_q l) p xs in
  nrun e l (map (NRun i o) xs) = {| nq_q := q; nq_reg := nq_reg l; nq_pool := update_nth i p' (nq_pool l) |} /\
  nhistory e l (map (NRun i o) xs) = h.
Proof.
  induction xs as [|x xs IH]; intros l p P; cbn [drive map nrun].
  - split; [|reflexivity]. rewrite update_same by exact P. now destruct l.
  - destruct (nq_step e (nq_q l) (nq_reg l) p o x) as [[q1 ev] p1] eqn:S.
    rewrite nhistory_one, (nnews_run e l i p o x q1 ev p1 P S).
    assert (fst (nstep e l (NRun i o x)) = {| nq_q := q1; nq_reg := nq_reg l; nq_pool := update_nth i p1 (nq_pool l) |}) as E
      by (cbn [nstep]; now rewrite P, S).
    rewrite E.
    assert (nth_error (update_nth i p1 (nq_pool l)) i = Some p1) as P1 by (apply HeaderProofs.nth_update_eq, nth_error_Some; congruence).
    pose proof (IH {| nq_q := q1; nq_reg := nq_reg l; nq_pool := update_nth i p1 (nq_pool l) |} p1 P1) as K. cbn [nq_q nq_reg nq_pool] in K.
    destruct (drive e (nq_reg l) i o q1 p1 xs) as [[q2 h] p2]. destruct K as [-> ->]. split; [|reflexivity]. now rewrite update_twice.
Qed.

(** What a driven coroutine comes to. *)
Definition calls_made (raise : sub -> eqmessage -> option exn) (r : registry) (ms : list eqmessage) : list (sub * eqmessage) :=
  flat_map (fun m => until_raise raise m (eq_subs r m)) (deliver (message_raises raise r) ms).
Definition bare (c : nat * nat * sub * eqmessage) : sub * eqmessage := let '(_, _, s, m) := c in (s, m).
Definition comes_to raise i (q : eqstate) (calls : list (sub * eqmessage)) (q' : eqstate) (h : list nobs) (p' : npc) : Prop :=
  let '(q2, ev, p2) := queue_top q in
  q' = q2 /\ p' = same_place p2 /\ n_posts i h = posted ev /\ map bare (n_calls i h) = calls /\ as_told raise i h.

Lemma top_comes raise i q : let '(q', ev, p') := nq_top q in comes_to raise i q [] q' (did i ev) p'.
Proof.
  unfold comes_to, nq_top, queue_top. destruct (eq_stopped q); [destruct (equals_minus1 (eq_last q))|]; cbn; rewrite ?Nat.eqb_refl;
  (repeat split; auto); intros n k x H; cbn in H; intuition discriminate.
Qed.
Lemma comes_cons raise i q calls q' h p' n k s m : comes_to raise i q calls q' h p' ->
  comes_to raise i q ((s, m) :: calls) q' (NDid i (NCalled n k s m) :: NReturned i n k (raise s m) :: h) p'.
Proof.
  unfold comes_to. destruct (queue_top q) as [[q2 ev] p2]. intros (A & B & C & D & T).
  assert (n_calls i (NDid i (NCalled n k s m) :: NReturned i n k (raise s m) :: h) = (n, k, s, m) :: n_calls i h) as E
    by (cbn; now rewrite Nat.eqb_refl).
  repeat split; auto.
  - rewrite E. cbn [map bare]. now rewrite D.
  - intros n' k' x' [H|[H|H]]; [discriminate H|injection H as <- <- <-|].
    + exists s, m. split; [|reflexivity]. rewrite E. now left.
    + destruct (T n' k' x' H) as (s' & m' & I' & X). exists s', m'. split; [|exact X]. rewrite E. now right.
Qed.
Definition rest_raises (raise : sub -> eqmessage -> option exn) (m : eqmessage) (l : list sub) : bool :=
  match find (fun s => match raise s m with Some _ => true | None => false end) l with
  | Some s => match raise s m with Some KeyErr => false | _ => true end
  | None => false
  end.
Lemma nth_skipn {A} (l : list A) : forall k s t, skipn k l = s :: t -> nth_error l (Datatypes.S k) = nth_error t 0 /\ skipn (Datatypes.S k) l = t.
Proof.
  induction l as [|a l IH]; intros [|k] s t H; try discriminate H.
  - cbn in H. injection H as -> ->. cbn. now destruct t.
  - cbn [skipn] in H. destruct (IH k s t H) as [A1 A2]. split; [exact A1|exact A2].
Qed.
Definition driven e r i o raise q (calls : list (sub * eqmessage)) (c : eqstate * list nevent * npc) : Prop :=
  let '(q1, ev1, p1) := c in
  exists xs, let '(q2, h, p2) := drive e r i o q1 p1 xs in comes_to raise i q calls q2 (did i ev1 ++ h) p2.
Lemma call_drive e r i o raise q n m rest : driven e r i o raise q (calls_made raise r rest) (hand_over q r (Datatypes.S n) rest) ->
  forall ls k s, skipn k (eq_subs r m) = s :: ls ->
  driven e r i o raise q (until_raise raise m (s :: ls) ++ if rest_raises raise m (s :: ls) then [] else calls_made raise r rest)
    (q, [NCalled n k s m], NCall n m k rest).
Proof.
  intros H. induction ls as [|s' ls IH]; intros k s K; unfold driven; destruct (nth_skipn _ _ _ _ K) as [N1 N2]; cbn [until_raise];
    unfold rest_raises; cbn [find]; destruct (raise s m) as [x|] eqn:RX.
  1,3: assert (swallow_keyerror (Some x) = None /\ x = KeyErr \/ swallow_keyerror (Some x) = Some x /\ x <> KeyErr) as [[X1 X2]|[X1 X2]]
      by (destruct x; cbn; try (right; split; [reflexivity|discriminate]); left; auto).
  1,3: subst x; unfold driven in H; destruct (hand_over q r (Datatypes.S n) rest) as [[q1 ev1] p1] eqn:HO; destruct H as (xs & H);
    exists (Some KeyErr :: xs); cbn [drive nq_step]; rewrite X1, HO; destruct (drive e r i o q1 p1 xs) as [[q2 h] p2];
    rewrite RX; cbn [app did map seen_first]; rewrite <- RX; apply comes_cons; exact H.
  1,2: pose proof (top_comes raise i q) as T; destruct (nq_top q) as [[q1 ev1] p1] eqn:HO;
    exists (Some x :: []); cbn [drive nq_step]; rewrite X1, HO; rewrite RX;
    replace (match x with KeyErr => false | _ => true end) with true by (destruct x; try reflexivity; congruence);
    rewrite !app_nil_r; cbn [app did map seen_first]; rewrite <- RX; apply comes_cons; exact T.
  - unfold driven in H. destruct (hand_over q r (Datatypes.S n) rest) as [[q1 ev1] p1] eqn:HO. destruct H as (xs & H).
    exists (None :: xs). cbn [drive nq_step]. rewrite N1. cbn [nth_error]. rewrite HO. destruct (drive e r i o q1 p1 xs) as [[q2 h] p2].
    cbn [app did map seen_first]. rewrite <- RX. apply comes_cons. exact H.
  - destruct (IH (Datatypes.S k) s' N2) as (xs & K2). exists (None :: xs). cbn [drive nq_step]. rewrite N1. cbn [nth_error].
    destruct (drive e r i o q (NCall n m (Datatypes.S k) rest) xs) as [[q2 h] p2]. cbn [app did map seen_first].
    rewrite <- RX. apply comes_cons. exact K2.
Qed.
Lemma hand_drive e r i o raise q : forall ms n, driven e r i o raise q (calls_made raise r ms) (hand_over q r n ms).
Proof.
  induction ms as [|m ms IH]; intros n; cbn [hand_over].
  - unfold driven. pose proof (top_comes raise i q) as T. destruct (nq_top q) as [[q1 ev1] p1]. exists []. cbn [drive]. now rewrite app_nil_r.
  - destruct (eq_subs r m) as [|s l] eqn:ES.
    + assert (calls_made raise r (m :: ms) = calls_made raise r ms) as ->; [|apply IH].
      unfold calls_made. cbn [deliver]. unfold message_raises at 1. rewrite ES. cbn [find flat_map]. now rewrite ES.
    + assert (calls_made raise r (m :: ms) = until_raise raise m (s :: l) ++ if rest_raises raise m (s :: l) then [] else calls_made raise r ms) as ->.
      { unfold calls_made. cbn [deliver]. assert (message_raises raise r m = rest_raises raise m (s :: l)) as ->
          by (unfold message_raises, rest_raises; now rewrite ES).
        destruct (rest_raises raise m (s :: l)); cbn [flat_map]; now rewrite ES. }
      apply call_drive; [apply IH|]. now rewrite ES.
Qed.
Lemma deliver_all l : deliver (fun _ => false) l = l.
Proof. induction l; cbn; congruence. Qed.
Lemma eq_after_raises known f q o : let '(q1, ms) := eq_after known (fun _ => false) q o in eq_after known f q o = (q1, deliver f ms).
Proof.
  unfold eq_after. cbv zeta. destruct (is_none _); [reflexivity|]. destruct (getitem _ _); [|reflexivity].
  unfold parse_result_eq. destruct (is_none _); [reflexivity|]. destruct (decode_eq_result _ _ _); [|reflexivity]. now rewrite deliver_all.
Qed.
Lemma delivered_map l ev : delivered (map QDelivered l ++ ev) = l ++ delivered ev.
Proof. unfold delivered. induction l; cbn in *; congruence. Qed.
Lemma posted_map l ev : posted (map QDelivered l ++ ev) = posted ev.
Proof. unfold posted. induction l; cbn in *; congruence. Qed.
Lemma top_delivers q : delivered (snd (fst (queue_top q))) = [].
Proof. unfold queue_top. destruct (eq_stopped q); [destruct (equals_minus1 (eq_last q))|]; reflexivity. Qed.
Lemma live_uninterrupted e l i o raise : nth_error (nq_pool l) i = Some NPost ->
  let '(q', ev, p') := queue_step (with_raises e (message_raises raise (nq_reg l))) (nq_q l) QPost o in
  exists ops, Forall (fun x => exists y, x = NRun i o y) ops /\
    nrun e l ops = {| nq_q := q'; nq_reg := nq_reg l; nq_pool := update_nth i (same_place p') (nq_pool l) |} /\
    n_posts i (nhistory e l ops) = posted ev /\
    map (fun '(_, _, s, m) => (s, m)) (n_calls i (nhistory e l ops)) =
      flat_map (fun m => until_raise raise m (eq_subs (nq_reg l) m)) (delivered ev) /\
    as_told raise i (nhistory e l ops).
Proof.
  intros P. cbn [queue_step with_raises qe_known qe_raises].
  pose proof (eq_after_raises (qe_known e) (message_raises raise (nq_reg l)) (nq_q l) o) as A.
  destruct (eq_after (qe_known e) (fun _ => false) (nq_q l) o) as [q1 ms] eqn:EA. rewrite A.
  pose proof (hand_drive e (nq_reg l) i o raise q1 ms 0) as H. unfold driven in H.
  destruct (hand_over q1 (nq_reg l) 0 ms) as [[q2 ev2] p2] eqn:HO. destruct H as (xs & H).
  pose proof (drive_run e i o (None :: xs) l NPost P) as R. cbn [drive nq_step] in R. rewrite EA, HO in R.
  destruct (drive e (nq_reg l) i o q2 p2 xs) as [[q3 h] p3]. destruct R as [R1 R2].
  unfold comes_to in H. pose proof (top_delivers q1) as TD. destruct (queue_top q1) as [[q4 ev4] p4]. cbn [fst snd] in TD.
  destruct H as (-> & -> & B & C & D).
  exists (map (NRun i o) (None :: xs)). rewrite R1, R2.
  assert (n_posts i ((seen_first NPost i o None ++ did i (NDecoded ms :: ev2)) ++ h) = n_posts i (did i ev2 ++ h) /\
          n_calls i ((seen_first NPost i o None ++ did i (NDecoded ms :: ev2)) ++ h) = n_calls i (did i ev2 ++ h)) as [-> ->] by (split; reflexivity).
  rewrite posted_map, delivered_map, TD, app_nil_r. repeat split; auto.
  - apply Forall_forall. intros x X. apply in_map_iff in X as (y & <- & _). eauto.
  - intros n k x X. cbn in X. destruct X as [X|[X|X]]; [discriminate X..|]. exact (D n k x X).
Qed.
