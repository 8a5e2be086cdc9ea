(** Proofs for C93 and C94: whole histories, acknowledgements, stopping. *)
From Verif Require HeaderProofs EventsProofs.
From Verif Require Import Lib SpecLiveQueue LiveQueueProofs MonitorQueue.

Lemma nnews_run e l i p o x q ev p' : nth_error (nq_pool l) i = Some p -> nq_step e (nq_q l) (nq_reg l) p o x = (q, ev, p') ->
  nnews e l (NRun i o x) = seen_first p i o x ++ did i ev.
Proof.
  intros P S. unfold nnews. cbn [nobserved nstep]. rewrite P, S. cbn [snd]. rewrite map_map. unfold did.
  destruct p; reflexivity.
Qed.
Lemma seen_quiet p i o x : uses (seen_first p i o x) = [].
Proof. now destruct p. Qed.
Lemma seen_foreign j p i o x : j <> i -> Forall (foreign j) (seen_first p i o x).
Proof. intros D. destruct p; repeat constructor. exact D. Qed.
Lemma seen_who h p i o x : all_at who h (seen_first p i o x).
Proof. destruct p; cbn; auto. Qed.

Lemma ninv_step e h l o : ninv h l -> ninv (h ++ nnews e l o) (fst (nstep e l o)).
Proof.
  intros [R O N W]. destruct o as [| | |u|i o x].
  - unfold nnews; cbn [nobserved nstep fst snd map]. rewrite app_nil_r. split; cbn.
    + rewrite uses_app. cbn. now rewrite app_nil_r.
    + intros i p P. assert (forall p, nth_error (nq_pool l) i = Some p -> cinv i (h ++ [NStarted]) p) as A.
      { intros p' P'. apply cinv_mono; [now apply O|repeat constructor]. }
      destruct (qe_enabled e); [|now apply A].
      destruct (Nat.lt_ge_cases i (List.length (nq_pool l))) as [L|L].
      * rewrite nth_error_app1 in P by exact L. now apply A.
      * rewrite nth_error_app2 in P by exact L. destruct (i - List.length (nq_pool l))%nat as [|[|?]]; try discriminate P.
        injection P as <-. cbn [cinv]. apply none_finished. apply Forall_app. split; [|repeat constructor].
        apply N. now apply nth_error_None.
    + intros i P. apply Forall_app. split; [|repeat constructor]. apply N. destruct (qe_enabled e); [|exact P].
      apply nth_error_None in P. apply nth_error_None. rewrite app_length in P. cbn in P. lia.
    + apply all_at_app. split; [exact W|]. cbn. auto.
  - unfold nnews; cbn [nobserved nstep fst snd map]. rewrite app_nil_r. split; cbn.
    + rewrite uses_app. cbn. now rewrite app_nil_r.
    + intros i p P. apply cinv_mono; [now apply O|repeat constructor].
    + intros i P. apply Forall_app. split; [now apply N|repeat constructor].
    + apply all_at_app. split; [exact W|]. cbn. auto.
  - unfold nnews; cbn [nobserved nstep fst snd map]. rewrite app_nil_r. split; cbn.
    + rewrite uses_app. cbn. now rewrite app_nil_r.
    + intros i p P. apply cinv_mono; [now apply O|repeat constructor].
    + intros i P. apply Forall_app. split; [now apply N|repeat constructor].
    + apply all_at_app. split; [exact W|]. cbn. auto.
  - unfold nnews; cbn [nobserved nstep fst snd map]. rewrite app_nil_r. split; cbn.
    + rewrite uses_app, hrun_app, <- R. reflexivity.
    + intros i p P. apply cinv_mono; [now apply O|repeat constructor].
    + intros i P. apply Forall_app. split; [now apply N|repeat constructor].
    + apply all_at_app. split; [exact W|]. cbn. auto.
  - destruct (nth_error (nq_pool l) i) as [p|] eqn:P.
    + pose proof (run_step e h l i p o x ltac:(now constructor) P) as RS. cbv zeta in RS.
      destruct (nq_step e (nq_q l) (nq_reg l) p o x) as [[q ev] p'] eqn:S.
      rewrite (nnews_run e l i p o x q ev p' P S). cbn [nstep]. rewrite P, S. cbn [fst].
      destruct RS as [R1 R2]. rewrite app_assoc. split; cbn.
      * rewrite !uses_app, seen_quiet, uses_did, !app_nil_r. exact R.
      * intros j p2 P2. destruct (Nat.eq_dec i j) as [<-|D].
        -- rewrite HeaderProofs.nth_update_eq in P2 by (apply nth_error_Some; congruence). injection P2 as <-. exact R1.
        -- rewrite HeaderProofs.nth_update_neq in P2 by exact D. rewrite <- app_assoc. apply cinv_mono; [now apply O|].
           apply Forall_app. split; [apply seen_foreign; auto|apply foreign_did; auto].
      * intros j P2. apply nth_error_None in P2. rewrite HeaderProofs.length_update in P2. apply nth_error_None in P2.
        assert (j <> i) as D by congruence.
        apply Forall_app. split; [apply Forall_app; split|]; [now apply N|now apply seen_foreign|now apply foreign_did].
      * apply all_at_app. split; [|exact R2]. apply all_at_app. split; [exact W|]. apply seen_who.
    + unfold nnews; cbn [nobserved nstep]. rewrite P. cbn. rewrite app_nil_r. now constructor.
Qed.
Lemma ninv_life e ops : ninv (nlife e ops) (nafter e ops).
Proof.
  induction ops as [|o ops IH] using rev_ind.
  - split; cbn; auto; intros [|i]; intros; try discriminate; constructor.
  - rewrite nlife_snoc, nafter_snoc. now apply ninv_step.
Qed.

(** ** C93 *)
Lemma live_called e ops past i n k s m future : nlife e ops = past ++ NDid i (NCalled n k s m) :: future ->
  nth_error (subscribed past m) k = Some s /\
  exists past0 ms mid, past = past0 ++ NDid i (NDecoded ms) :: mid /\ same_response i mid /\ nth_error ms n = Some m /\
    ~ broken_off i mid /\ ~ key_error i n mid /\
    forall n' m', (n' < n)%nat -> nth_error ms n' = Some m' -> handed i past0 mid n' m'.
Proof. intros E. destruct (ninv_life e ops) as [_ _ _ W]. exact (all_at_split who _ _ _ _ W E). Qed.
Lemma cinv_turn i h p past ms mid : cinv i h p -> h = past ++ NDid i (NDecoded ms) :: mid -> same_response i mid -> in_turn (n_calls i mid).
Proof.
  intros C E S. destruct p; try exact (proj1 (C past ms mid E S)).
  destruct C as (past' & ms' & mid' & E' & D & _). rewrite E in E'. destruct D.
  destruct (split_unique i _ _ _ _ _ _ E' S) as (-> & -> & ->); auto.
Qed.
Lemma live_in_turn e ops past i ms mid : nlife e ops = past ++ NDid i (NDecoded ms) :: mid -> same_response i mid -> in_turn (n_calls i mid).
Proof.
  intros E S. destruct (ninv_life e ops) as [_ O N _]. destruct (nth_error (nq_pool (nafter e ops)) i) as [p|] eqn:P.
  - exact (cinv_turn i _ p past ms mid (O i p P) E S).
  - pose proof (none_finished i _ (N i P)) as F. exact (proj1 (F past ms mid E S)).
Qed.
Lemma live_finished e ops i : (forall p, nth_error (nq_pool (nafter e ops)) i = Some p -> not_delivering p) -> finished i (nlife e ops).
Proof.
  intros H. destruct (ninv_life e ops) as [_ O N _]. destruct (nth_error (nq_pool (nafter e ops)) i) as [p|] eqn:P.
  - pose proof (O i p P) as C. specialize (H p eq_refl). destruct p; try exact C. contradiction.
  - exact (none_finished i _ (N i P)).
Qed.
Lemma live_posted e ops past i d future : nlife e ops = past ++ NDid i (NPosted d) :: future -> finished i past.
Proof. intros E. destruct (ninv_life e ops) as [_ _ _ W]. exact (all_at_split who _ _ _ _ W E). Qed.
Lemma live_not_broken e ops i p n m k rest past ms mid : nth_error (nq_pool (nafter e ops)) i = Some p -> p = NCall n m k rest ->
  nlife e ops = past ++ NDid i (NDecoded ms) :: mid -> same_response i mid -> ~ broken_off i mid.
Proof.
  intros P -> E S. destruct (ninv_life e ops) as [_ O _ _]. destruct (O _ _ P) as (past' & ms' & mid' & E' & D & _).
  rewrite E in E'. destruct D. destruct (split_unique i _ _ _ _ _ _ E' S) as (-> & -> & ->); auto.
Qed.

(** ** C94: what is acknowledged *)
Definition last_of (s : heard) : llsd := match h_id s with Some id => id | None => LInt (-1) end.
Lemma poll_of_last s : poll_of s = eq_payload (last_of s).
Proof. unfold poll_of, eq_payload, last_of. destruct (h_id s); reflexivity. Qed.
Record hinv (h : list nobs) (q : eqstate) : Prop := {
  hi_result : eq_result q = h_result (heard_of h);
  hi_last : eq_last q = last_of (heard_of h) }.
Lemma heard_app a b : heard_of (a ++ b) = fold_left hears b (heard_of a).
Proof. apply fold_left_app. Qed.
Lemma hinv_quiet h q x : hinv h q -> Forall (fun y => match y with NAnswered _ _ => False | _ => True end) x -> hinv (h ++ x) q.
Proof.
  intros [A B] F. assert (heard_of (h ++ x) = heard_of h) as E; [|split; now rewrite E].
  rewrite heard_app. generalize (heard_of h). clear -F. induction F as [|y x Y _ IH]; intros s; [reflexivity|].
  cbn. rewrite IH. destruct y; try reflexivity. contradiction.
Qed.
Lemma hinv_did h q i ev : hinv h q -> hinv (h ++ did i ev) q.
Proof. intros H. apply hinv_quiet; [exact H|]. apply Forall_forall. intros x X. apply in_map_iff in X as (y & <- & _). exact I. Qed.
Lemma top_last q : eq_last (fst (fst (nq_top q))) = eq_last q /\ eq_result (fst (fst (nq_top q))) = eq_result q.
Proof. unfold nq_top. destruct (eq_stopped q); [destruct (equals_minus1 _)|]; auto. Qed.
Lemma hand_last q r : forall ms n, eq_last (fst (fst (hand_over q r n ms))) = eq_last q /\ eq_result (fst (fst (hand_over q r n ms))) = eq_result q.
Proof. induction ms as [|m ms IH]; intros n; cbn [hand_over]; [apply top_last|]. destruct (eq_subs r m); [apply IH|auto]. Qed.
(** What the observations of a step say about the id. *)
Definition acks (past : list nobs) (x : nobs) : Prop :=
  match x with
  | NDid i (NPosted d) =>
      d = poll_of (heard_of past) \/
      exists id, h_id (heard_of past) = Some id /\ equals_minus1 id = false /\ d = LMap [("ack"%string, id); ("done"%string, LBool true)]
  | NDid i (NDecoded ms) => ms <> [] -> exists id, h_id (heard_of past) = Some id /\ Forall (fun m => q_id m = id) ms
  | _ => True
  end.
Definition decodes (e : qenv) (past : list nobs) (x : nobs) : Prop :=
  match x with
  | NDid i (NDecoded ms) => let s := heard_of past in
      ms = match getitem (h_result s) (LStr "id") with
           | Ok id => match decode_eq_result (qe_known e) id (h_result s) with Ok l => l | Err _ => [] end
           | Err _ => []
           end
  | _ => True
  end.
Lemma minus1 : equals_minus1 (LInt (-1)) = true.
Proof. reflexivity. Qed.
Lemma top_acks h q i : hinv h q -> all_at acks h (did i (snd (fst (nq_top q)))).
Proof.
  intros [A B]. unfold nq_top. destruct (eq_stopped q); [|exact I]. destruct (equals_minus1 (eq_last q)) eqn:M; [exact I|].
  cbn. split; [|exact I]. right. unfold last_of in B. destruct (h_id (heard_of h)) as [id|].
  - exists id. rewrite B in M |- *. auto.
  - rewrite B in M. discriminate M.
Qed.
Lemma hand_acks h q i r : hinv h q -> forall ms n, all_at acks h (did i (snd (fst (hand_over q r n ms)))).
Proof.
  intros H. induction ms as [|m ms IH]; intros n; cbn [hand_over]; [now apply top_acks|].
  destruct (eq_subs r m); [apply IH|]. cbn. auto.
Qed.
Lemma top_decodes e h q i : all_at (decodes e) h (did i (snd (fst (nq_top q)))).
Proof. unfold nq_top. destruct (eq_stopped q); [destruct (equals_minus1 (eq_last q))|]; cbn; auto. Qed.
Lemma hand_decodes e h q i r : forall ms n, all_at (decodes e) h (did i (snd (fst (hand_over q r n ms)))).
Proof.
  induction ms as [|m ms IH]; intros n; cbn [hand_over]; [apply top_decodes|].
  destruct (eq_subs r m); [apply IH|]. cbn. auto.
Qed.
Lemma deliver_all ms : deliver (fun _ => false) ms = ms.
Proof. induction ms as [|m ms IH]; cbn; congruence. Qed.
Lemma message_id known id ev m : eq_message known id ev = Ok m -> q_id m = id.
Proof.
  unfold eq_message. intros H. repeat (apply bind_ok in H as (? & _ & H)). injection H as <-. reflexivity.
Qed.
Lemma events_id known id l : forall ms, eq_events known id l = Ok ms -> Forall (fun m => q_id m = id) ms.
Proof.
  induction l as [|ev l IH]; intros ms H; cbn [eq_events] in H.
  - injection H as <-. constructor.
  - apply bind_ok in H as (m & M & H). apply bind_ok in H as (r & R & H). injection H as <-. constructor; [|now apply IH].
    now apply message_id in M.
Qed.
Lemma entries_id known id m : forall ms, eq_entries known id m = Ok ms -> Forall (fun m => q_id m = id) ms.
Proof.
  induction m as [|[k v] m IH]; intros ms H; cbn [eq_entries] in H.
  - injection H as <-. constructor.
  - apply bind_ok in H as (a & A & H). apply bind_ok in H as (b & B & H). injection H as <-. apply Forall_app. split; [|now apply IH].
    destruct (String.eqb k "id"); [injection A as <-; constructor|]. apply bind_ok in A as (l & _ & A). now apply events_id in A.
Qed.
Lemma decoded_id known id v ms : decode_eq_result known id v = Ok ms -> Forall (fun m => q_id m = id) ms.
Proof.
  unfold decode_eq_result. destruct v; try discriminate. destruct (dmem _ _ _); [apply entries_id|]. intros H. injection H as <-. constructor.
Qed.
Lemma none_id v : is_none v = true -> getitem v (LStr "id") = Err TypeErr.
Proof. destruct v; try discriminate. reflexivity. Qed.
Lemma after_heard known q o i h q' ms : hinv h q -> eq_after known (fun _ => false) q o = (q', ms) ->
  hinv (h ++ [NAnswered i o]) q' /\
  ms = (let s := heard_of (h ++ [NAnswered i o]) in
        match getitem (h_result s) (LStr "id") with
        | Ok id => match decode_eq_result known id (h_result s) with Ok l => l | Err _ => [] end
        | Err _ => []
        end) /\
  (ms <> [] -> exists id, h_id (heard_of (h ++ [NAnswered i o])) = Some id /\ Forall (fun m => q_id m = id) ms).
Proof.
  intros [A B] E. rewrite heard_app. cbn [fold_left hears]. unfold eq_after in E. rewrite <- A.
  set (v := match o with PostOk v => v | PostErr _ => eq_result q end) in *. cbn [h_result h_id].
  destruct (is_none v) eqn:NV.
  - injection E as <- <-. rewrite (none_id v NV). split; [|split; [reflexivity|congruence]].
    split; rewrite heard_app; cbn [fold_left hears h_result h_id]; rewrite <- A; fold v; [reflexivity|].
    unfold last_of. cbn [h_id]. now rewrite NV.
  - destruct (getitem v (LStr "id")) as [id|x] eqn:G.
    + injection E as <- <-. assert (parse_result_eq known (fun _ => false) id v =
        match decode_eq_result known id v with Ok l => l | Err _ => [] end) as PE.
      { unfold parse_result_eq. rewrite NV. destruct (decode_eq_result known id v); [apply deliver_all|reflexivity]. }
      split; [|split; [exact PE|]].
      * split; rewrite heard_app; cbn [fold_left hears h_result h_id]; rewrite <- A; fold v; [reflexivity|].
        unfold last_of. cbn [h_id]. now rewrite NV, G.
      * intros _. exists id. split; [reflexivity|]. rewrite PE. destruct (decode_eq_result known id v) eqn:D; [|constructor].
        now apply decoded_id in D.
    + injection E as <- <-. split; [|split; [reflexivity|congruence]].
      split; rewrite heard_app; cbn [fold_left hears h_result h_id]; rewrite <- A; fold v; [reflexivity|].
      unfold last_of. cbn [h_id]. rewrite NV, G. exact B.
Qed.
Lemma acks_seen h p i o x : all_at acks h (seen_first p i o x).
Proof. destruct p; cbn; auto. Qed.
Lemma decodes_seen e h p i o x : all_at (decodes e) h (seen_first p i o x).
Proof. destruct p; cbn; auto. Qed.
Lemma hinv_run e h q r i p o x : hinv h q ->
  let '(q', ev, p') := nq_step e q r p o x in
  let h' := h ++ seen_first p i o x in hinv (h' ++ did i ev) q' /\ all_at acks h' (did i ev) /\ all_at (decodes e) h' (did i ev).
Proof.
  intros H. assert (forall q', eq_last q' = eq_last q -> eq_result q' = eq_result q -> hinv h q') as SAME.
  { intros q' L R. destruct H as [A B]. split; congruence. }
  assert (forall s, Forall (fun y => match y with NAnswered _ _ => False | _ => True end) s -> forall q', hinv h q' ->
     (forall ms n, hinv ((h ++ s) ++ did i (snd (fst (hand_over q' r n ms)))) (fst (fst (hand_over q' r n ms))) /\
       all_at acks (h ++ s) (did i (snd (fst (hand_over q' r n ms)))) /\ all_at (decodes e) (h ++ s) (did i (snd (fst (hand_over q' r n ms)))))) as HO.
  { intros s FS q' H' ms n. pose proof (hinv_quiet h q' s H' FS) as HQ. split; [|split; [now apply hand_acks|apply hand_decodes]].
    apply hinv_did. destruct (hand_last q' r ms n) as [L R]. destruct HQ as [A B]. split; congruence. }
  assert (forall s, Forall (fun y => match y with NAnswered _ _ => False | _ => True end) s -> forall q', hinv h q' ->
     hinv ((h ++ s) ++ did i (snd (fst (nq_top q')))) (fst (fst (nq_top q'))) /\
       all_at acks (h ++ s) (did i (snd (fst (nq_top q')))) /\ all_at (decodes e) (h ++ s) (did i (snd (fst (nq_top q'))))) as TP.
  { intros s FS q' H'. exact (HO s FS q' H' [] 0%nat). }
  destruct p as [| | |n m k rest| |b]; cbn [nq_step seen_first].
  - destruct (String.eqb (qe_cap e) "event_queue").
    + destruct (eq_stopped _); cbn; rewrite !app_nil_r; (split; [now apply SAME|auto]).
    + destruct (String.eqb (qe_cap e) "EventQueueGet").
      * pose proof (TP [] (Forall_nil _) (set_running q true) (SAME (set_running q true) eq_refl eq_refl)) as X. destruct (nq_top (set_running q true)) as [[a b] c]. exact X.
      * cbn. rewrite !app_nil_r. auto.
  - cbn. rewrite app_nil_r. split; [|split; auto].
    + apply hinv_quiet; [exact H|repeat constructor].
    + split; [|exact I]. left. rewrite poll_of_last. destruct H as [_ B]. now rewrite B.
  - destruct (eq_after (qe_known e) (fun _ => false) q o) as [q1 ms] eqn:E.
    destruct (after_heard (qe_known e) q o i h q1 ms H E) as (H1 & H2 & H3).
    pose proof (hand_acks ((h ++ [NAnswered i o]) ++ [NDid i (NDecoded ms)]) q1 i r (hinv_did _ _ i [NDecoded ms] H1) ms 0) as HA.
    pose proof (hand_decodes e ((h ++ [NAnswered i o]) ++ [NDid i (NDecoded ms)]) q1 i r ms 0) as HD.
    destruct (hand_last q1 r ms 0) as [L R]. destruct (hand_over q1 r 0 ms) as [[q2 ev] p2]. cbn [fst snd] in *.
    split; [|split].
    + apply (hinv_did _ q2 i (NDecoded ms :: ev)). destruct H1 as [A B]. split; congruence.
    + cbn [did map all_at acks]. split; [exact H3|exact HA].
    + cbn [did map all_at decodes]. split; [exact H2|exact HD].
  - assert (Forall (fun y => match y with NAnswered _ _ => False | _ => True end) [NReturned i n k x]) as FS by repeat constructor.
    destruct x as [x|].
    + destruct (swallow_keyerror (Some x)) as [y|].
      * pose proof (TP _ FS q H) as X. destruct (nq_top q) as [[a b] c]. exact X.
      * pose proof (HO _ FS q H rest (S n)) as X. destruct (hand_over q r (S n) rest) as [[a b] c]. exact X.
    + destruct (nth_error (eq_subs r m) (S k)).
      * cbn. split; [|auto]. rewrite <- app_assoc. apply hinv_quiet; [exact H|repeat constructor].
      * pose proof (HO _ FS q H rest (S n)) as X. destruct (hand_over q r (S n) rest) as [[a b] c]. exact X.
  - destruct o; cbn; rewrite app_nil_r; (split; [apply hinv_quiet; [now apply SAME|repeat constructor]|auto]).
  - cbn. rewrite !app_nil_r. auto.
Qed.
Definition hall (e : qenv) (h : list nobs) (l : lqueue) : Prop := hinv h (nq_q l) /\ all_at acks [] h /\ all_at (decodes e) [] h.
Lemma hall_step e h l o : hall e h l -> hall e (h ++ nnews e l o) (fst (nstep e l o)).
Proof.
  intros (H & A & D). destruct o as [| | |u|i o x].
  1-4: unfold nnews; cbn [nobserved nstep fst snd map]; rewrite app_nil_r; (split; [|split; apply all_at_app; split; try assumption; cbn; auto]);
    apply hinv_quiet; try (now repeat constructor); try exact H; destruct H as [H1 H2]; split; cbn; auto; destruct (eq_running (nq_q l)); auto.
  destruct (nth_error (nq_pool l) i) as [p|] eqn:P.
  - pose proof (hinv_run e h (nq_q l) (nq_reg l) i p o x H) as RS. cbv zeta in RS.
    destruct (nq_step e (nq_q l) (nq_reg l) p o x) as [[q ev] p'] eqn:S.
    rewrite (nnews_run e l i p o x q ev p' P S). cbn [nstep]. rewrite P, S. cbn [fst].
    destruct RS as (R1 & R2 & R3). rewrite app_assoc. split; [exact R1|]. split; apply all_at_app; (split; [|assumption]);
      apply all_at_app; (split; [assumption|]); [apply acks_seen|apply decodes_seen].
  - unfold nnews; cbn [nobserved nstep]. rewrite P. cbn. rewrite app_nil_r. now split.
Qed.
Lemma hall_life e ops : hall e (nlife e ops) (nafter e ops).
Proof.
  induction ops as [|o ops IH] using rev_ind.
  - split; [split; reflexivity|]. split; exact I.
  - rewrite nlife_snoc, nafter_snoc. now apply hall_step.
Qed.
Lemma live_acks e ops past i d future : nlife e ops = past ++ NDid i (NPosted d) :: future ->
  d = poll_of (heard_of past) \/
  exists id, h_id (heard_of past) = Some id /\ equals_minus1 id = false /\ d = LMap [("ack"%string, id); ("done"%string, LBool true)].
Proof. intros E. destruct (hall_life e ops) as (_ & A & _). exact (all_at_split acks _ _ _ _ A E). Qed.
Lemma live_ids e ops past i ms future m : nlife e ops = past ++ NDid i (NDecoded ms) :: future -> In m ms -> h_id (heard_of past) = Some (q_id m).
Proof.
  intros E M. destruct (hall_life e ops) as (_ & A & _). pose proof (all_at_split acks _ _ _ _ A E) as X. cbn in X.
  destruct X as (id & X & F); [now destruct ms|]. rewrite Forall_forall in F. now rewrite (F m M).
Qed.
Lemma live_decoded e ops past i ms future : nlife e ops = past ++ NDid i (NDecoded ms) :: future ->
  ms = match getitem (h_result (heard_of past)) (LStr "id") with
       | Ok id => match decode_eq_result (qe_known e) id (h_result (heard_of past)) with Ok l => l | Err _ => [] end
       | Err _ => []
       end.
Proof. intros E. destruct (hall_life e ops) as (_ & _ & D). exact (all_at_split (decodes e) _ _ _ _ D E). Qed.
