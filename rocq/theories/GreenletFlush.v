(** One process_acks among others (C80): it goes through the list it began with,
    whoever replaces it meanwhile. *)
From Verif Require Import Lib SpecGreenlets DispatchProofs GreenletProofs GreenletAcks GreenletMore.
Open Scope Z_scope.
Open Scope list_scope.

(** ** One look at the list *)
Lemma loop_step env st f st' ms th P V : inv st -> V = ack_list st f -> f_pos f = List.length P -> (exists r, V = P ++ r) ->
  ack_loop env st f = (st', ms, th) ->
  (exists ids ms1 f', ms = MPack (f_key f) ids :: ms1 /\ Forall plain_mark ms1 /\
     ids = firstn 251 (skipn (List.length P) V) /\ ids <> [] /\
     flush_of th = Some (f', negb (zlen ids =? 251)) /\ f_key f' = f_key f /\ f_list f' = f_list f /\
     f_pos f' = List.length (P ++ ids) /\ zlen ids <= 251 /\ forall a, pending_acks st' a = pending_acks st a) \/
  (ms = [MEmptied (f_key f)] /\ V = P /\ flush_of th = None).
Proof.
  intros I EV PO (r & PV) H. unfold ack_loop in H. rewrite <- EV, PO in H.
  assert (List.length P <= List.length V)%nat as B by (rewrite PV, app_length; lia).
  pose proof (take_list V (List.length P) B) as T.
  destruct (take_acks (skipn (List.length P) V) []) as [ids full]. destruct T as (T1 & T2 & T3 & T4 & T5 & T6).
  destruct (full || (0 <? zlen ids)) eqn:NE.
  - left. destruct (begin_send env _ _ _ _ _) as [[st1 ms1] th1] eqn:BS in H. injection H as <- <- <-.
    destruct (begin_effect _ _ _ _ _ _ _ _ _ (inv_new _ _ I) BS) as (EF & SO & FR & PM). apply from_flush in FR as [FR _].
    eexists ids, ms1, _. split; [reflexivity|]. split; [exact PM|]. split.
    { destruct full.
      - symmetry in T4. apply Z.eqb_eq in T4. rewrite T1 at 1. f_equal. unfold zlen in T4. lia.
      - destruct (T6 eq_refl) as [_ E]. rewrite <- E. symmetry. apply firstn_all2. unfold zlen in T5. lia. }
    split. { intros ->. destruct full; [discriminate T4|discriminate NE]. }
    split; [rewrite FR, T4; reflexivity|]. cbn. split; [reflexivity|]. split; [reflexivity|]. split; [rewrite app_length; lia|].
    split; [exact T5|]. intros a. rewrite (pending_effect _ _ _ _ EF). reflexivity.
  - right. apply orb_false_iff in NE as [-> NE]. injection H as <- <- <-. split; [reflexivity|]. split; [|reflexivity].
    destruct (T6 eq_refl) as [_ E].
    assert (ids = []) as -> by (destruct ids as [|i ids]; [reflexivity|rewrite zlen_cons in NE; pose proof (zlen_nonneg ids); apply Z.ltb_ge in NE; lia]).
    rewrite PV in E. rewrite skipn_app, skipn_all, Nat.sub_diag in E. cbn in E. subst r. now rewrite app_nil_r in PV.
Qed.

(** ** Events *)
Lemma packs_plain a ms : Forall plain_mark ms -> packs a (map seen ms) = [] /\ empties a (map seen ms) = false /\ gives_up a (map seen ms) = false.
Proof.
  induction 1 as [|m ms P _ (A & B & C)]; [auto|]. unfold packs, empties, gives_up in *. cbn.
  destruct m; try contradiction; cbn; auto.
Qed.
Lemma empties_mark a ms : empties a (map seen ms) = true <-> In (MEmptied a) ms.
Proof.
  unfold empties. rewrite existsb_exists. split.
  - intros (e & I & E). apply in_map_iff in I as (m & <- & I). destruct m as [s m|x|k ids|k|k]; try discriminate E.
    cbn in E. apply addr_eqb_spec in E as ->. exact I.
  - intros I. exists (Emptied a). split; [apply in_map_iff; exists (MEmptied a); auto|apply addr_eqb_refl].
Qed.

(** ** Steps of others *)
Lemma detach_list k l th f last : flush_of th = Some (f, last) ->
  flush_of (detach k l th) = Some (detach_flush k l f, last).
Proof. destruct th as [o|name i [m|mref href md [|f' l']]|mref b [|f' l']|r f' l'|todo]; try discriminate; cbn; intros [= <- <-]; reflexivity. Qed.
Definition kept (f f' : flush) : Prop := f_key f' = f_key f /\ f_host f' = f_host f /\ f_pos f' = f_pos f /\ f_todo f' = f_todo f.
Lemma detach_all_nth st ms : forall pool i th f last, nth_error pool i = Some th -> flush_of th = Some (f, last) ->
  exists th' f', nth_error (detach_all st ms pool) i = Some th' /\ flush_of th' = Some (f', last) /\ kept f f' /\
    f_list f' = match f_list f with
                | Some l => Some l
                | None => if empties (f_key f) (map seen ms) then Some (pending_acks st (f_key f)) else None
                end.
Proof.
  induction ms as [|m ms IH] using rev_ind; intros pool i th f last N F.
  - exists th, f. cbn. split; [exact N|]. split; [exact F|]. split; [repeat split|]. destruct (f_list f); reflexivity.
  - destruct (IH pool i th f last N F) as (th1 & f1 & N1 & F1 & (K1 & K2 & K3 & K4) & L1).
    unfold detach_all in *. rewrite fold_left_app. cbn [fold_left].
    assert (empties (f_key f) (map seen (ms ++ [m])) = empties (f_key f) (map seen ms) || match m with MEmptied k => addr_eqb (f_key f) k | _ => false end) as E.
    { unfold empties. rewrite map_app, existsb_app. cbn. rewrite orb_false_r. destruct m; reflexivity. }
    rewrite E. destruct m as [s m|x|k ids|k|k]; rewrite ?orb_false_r; try (exists th1, f1; repeat split; assumption).
    change (match get_circuit (s_circuits st) k with Some c => c_acks c | None => [] end) with (pending_acks st k).
    exists (detach k (pending_acks st k) th1), (detach_flush k (pending_acks st k) f1).
    split; [rewrite nth_error_map, N1; reflexivity|]. split; [now apply detach_list|].
    unfold detach_flush. rewrite K1. destruct (addr_dec (f_key f) k) as [<-|NE].
    + rewrite !addr_eqb_refl, orb_true_r. rewrite L1. destruct (f_list f) as [l|]; [repeat split; assumption|].
      destruct (empties (f_key f) (map seen ms)); repeat split; try assumption; cbn; congruence.
    + rewrite !addr_eqb_neq by congruence. rewrite orb_false_r. repeat split; assumption.
Qed.

Lemma start_others env cf o st ms th a : inv (cf_st cf) -> existsb acking (cf_pool cf) = true -> start env cf o = (st, ms, th) ->
  Forall plain_mark ms /\ exists more, pending_acks st a = pending_acks (cf_st cf) a ++ more.
Proof.
  intros I AK E.
  destruct (simple o) eqn:SO.
  { assert (start env cf o = (fst (step (silent env) (cf_st cf) o), [], Finished (snd (step (silent env) (cf_st cf) o)))) as E'.
    { unfold start. destruct o; try discriminate SO; destruct (step (silent env) (cf_st cf) _); reflexivity. }
    rewrite E' in E. injection E as <- <- <-. split; [constructor|]. exists []. rewrite app_nil_r.
    destruct o; try discriminate SO; try reflexivity. apply trusted_pending. }
  destruct o as [| | | | | |mref href md sock| |href buf size|order sock|k]; try discriminate SO; clear SO; cbn [start] in E.
  - destruct (begin_effect _ _ _ _ _ _ _ _ _ I E) as (EF & _ & FR & P). split; [exact P|]. exists []. rewrite app_nil_r.
    now apply pending_effect with (1 := EF).
  - destruct (receive_check (silent env) (cf_st cf) href buf size) as [st1 r] eqn:R.
    destruct (receive_queues _ _ _ _ _ _ _ I R) as [I1 PQ].
    assert ((forall a, pending_acks st a = pending_acks st1 a) /\ Forall plain_mark ms) as (PE & PM).
    { destruct (r_res r) as [[m|]|e']; try (injection E as <- <- <-; split; [reflexivity|constructor]).
      destruct (e_handle env); [|injection E as <- <- <-; split; [reflexivity|constructor]].
      destruct (enter_effect _ _ _ _ _ _ _ _ I1 E) as (EF & _ & FR & P).
      split; [intros x; eapply pending_effect; exact EF|exact P]. }
    split; [exact PM|]. rewrite PE, PQ. eauto.
  - rewrite resend_none in E by exact I. injection E as <- <- <-. split; [constructor|]. exists []. now rewrite app_nil_r.
  - rewrite AK in E. injection E as <- <- <-. split; [constructor|]. exists []. now rewrite app_nil_r.
Qed.
Lemma flushed_pending st ks xs st' a : flushed st ks xs st' -> ~ In a ks -> pending_acks st' a = pending_acks st a.
Proof.
  intros F N. unfold pending_acks. destruct (circ st a) as [c|] eqn:C.
  - destruct (fl_old _ _ _ _ F a c C) as (c' & -> & _ & _ & [E|[E _]]); [exact E|contradiction].
  - destruct (circ st' a) as [c'|] eqn:C'; [|reflexivity]. now destruct (fl_new _ _ _ _ F a c' C C').
Qed.
Lemma emptied_in a ms : In a (emptied ms) <-> In (MEmptied a) ms.
Proof.
  unfold emptied. rewrite in_flat_map. split.
  - intros (m & I & E). destruct m; try contradiction. destruct E as [->|[]]. exact I.
  - intros I. exists (MEmptied a). split; [exact I|now left].
Qed.
Lemma nth_update_other {A} (l : list A) i j y : i <> j -> nth_error (update_nth j y l) i = nth_error l i.
Proof. revert i j. induction l as [|x l IH]; intros [|i] [|j] N; cbn; try congruence. apply IH. congruence. Qed.
Lemma nth_update_same {A} (l : list A) i y x : nth_error l i = Some x -> nth_error (update_nth i y l) i = Some y.
Proof. revert i. induction l as [|z l IH]; intros [|i] H; try discriminate; [reflexivity|]. cbn in *. now apply IH. Qed.

(** ** The invariant: operation [i] has packed [P] of the list [V], which is still
    the queue or has been replaced *)
Definition midway (cf : config) (i : nat) (a : addr) (P V : list Z) (old : bool) : Prop :=
  exists th f last, nth_error (cf_pool cf) i = Some th /\ flush_of th = Some (f, last) /\ f_key f = a /\
    f_pos f = List.length P /\ f_list f = (if old then Some V else None) /\
    (old = false -> V = pending_acks (cf_st cf) a) /\ (exists r, V = P ++ r) /\ last = negb (zlen P mod 251 =? 0).

Definition own (env : denv) (cf : config) (i : nat) (a : addr) (x : sched) : list Z :=
  match x with Resume j _ => if Nat.eqb i j then packs a (gevents env cf x) else [] | _ => [] end.
Lemma ack_list_view st f V (old : bool) : f_list f = (if old then Some V else None) -> (old = false -> V = pending_acks st (f_key f)) -> V = ack_list st f.
Proof. intros L O. unfold ack_list. rewrite L. destruct old; [reflexivity|now apply O]. Qed.
Lemma midway_step env cf i a P V old x : inv (cf_st cf) -> midway cf i a P V old ->
  (goes_on i x -> empties a (gevents env cf x) = false /\ gives_up a (gevents env cf x) = false) ->
  let cf' := fst (cstep env cf x) in
  let old' := old || empties a (gevents env cf x) in
  midway cf' i a (P ++ own env cf i a x) (if old' then V else pending_acks (cf_st cf') a) old'.
Proof.
  intros I (th & f & last & N & F & K & PO & FL & OV & PR & LA) B cf' old'. subst a.
  destruct x as [o|j e].
  - unfold cf', old', own, gevents. cbn [cstep]. destruct (start env cf o) as [[st ms] th1] eqn:E. cbn [fst snd].
    assert (existsb acking (cf_pool cf) = true) as AK.
    { apply existsb_exists. exists th. split; [eapply nth_error_In; exact N|eapply flush_acking; exact F]. }
    destruct (start_others env cf o st ms th1 (f_key f) I AK E) as (PM & more & PE).
    assert (empties (f_key f) (match o with
        | Receive h buf size => match accepts env (cf_st cf) h buf size with Some (a, m) => [Net (Accepted a m)] | None => [] end ++
            match host_address (cf_st cf) h with Some a => if 0 <? size then [Queued a (acks_due env (cf_st cf) a buf)] else [] | None => [] end
        | RemoveCircuit a => if existsb acking (cf_pool cf) then [] else [Net (Removed a)]
        | _ => [] end ++ map seen ms) = false) as ->.
    { unfold empties. rewrite existsb_app. destruct (packs_plain (f_key f) ms PM) as (_ & EM & _). unfold empties in EM. rewrite EM, orb_false_r.
      destruct o; try reflexivity; [|destruct (existsb acking (cf_pool cf)); reflexivity].
      rewrite existsb_app. destruct (accepts _ _ _ _ _) as [[? ?]|], (host_address _ _); try destruct (0 <? _); reflexivity. }
    rewrite orb_false_r, app_nil_r. cbn [cf_st]. exists th, f, last.
    assert (nth_error (cf_pool cf ++ [th1]) i = Some th) as N' by (rewrite nth_error_app1; [exact N|apply nth_error_Some; congruence]).
    cbn [cf_pool cf_st]. repeat (split; [first [exact N'|exact F|reflexivity|exact PO]|]).
    destruct old.
    + split; [exact FL|]. split; [discriminate|]. split; [exact PR|exact LA].
    + split; [exact FL|]. split; [reflexivity|]. split; [|exact LA]. rewrite PE, <- (OV eq_refl). destruct PR as (r & ->).
      exists (r ++ more). now rewrite app_assoc.
  - destruct (Nat.eq_dec i j) as [<-|NE].
    + destruct (B ltac:(eexists; reflexivity)) as [BE BA]. unfold cf', old', own, gevents in *. rewrite Nat.eqb_refl.
      cbn [cstep app] in *. rewrite N in *. destruct (resume env (cf_st cf) e th) as [[st ms] th'] eqn:R. cbn [fst snd cf_st] in *.
      rewrite BE, orb_false_r.
      pose proof (resume_effect _ _ _ _ _ _ _ I R) as [RF _].
      assert (pending_acks st (f_key f) = pending_acks (cf_st cf) (f_key f)) as PE.
      { eapply flushed_pending; [exact RF|]. rewrite emptied_in, <- empties_mark, BE. discriminate. }
      destruct (detach_all_nth (cf_st cf) ms _ _ _ _ _ N F) as (th0 & f0 & N0 & _).
      assert (nth_error (update_nth i th' (detach_all (cf_st cf) ms (cf_pool cf))) i = Some th') as N' by (eapply nth_update_same; exact N0).
      assert (packs (f_key f) (map seen ms) = [] /\ flush_of th' = Some (f, last) ->
        midway {| cf_st := st; cf_pool := update_nth i th' (detach_all (cf_st cf) ms (cf_pool cf)) |} i (f_key f)
          (P ++ packs (f_key f) (map seen ms)) (if old then V else pending_acks st (f_key f)) old) as STAY.
      { intros [-> F']. rewrite app_nil_r. exists th', f, last. cbn [cf_pool cf_st]. rewrite PE.
        split; [exact N'|]. split; [exact F'|]. split; [reflexivity|]. split; [exact PO|].
        destruct old; [auto|]. rewrite <- (OV eq_refl). auto. }
      assert (th = Returning (Ok None) f false \/ (exists r, th = Returning (Ok (Some r)) f false) -> ack_loop env (cf_st cf) f = (st, ms, th') -> last = false ->
        midway {| cf_st := st; cf_pool := update_nth i th' (detach_all (cf_st cf) ms (cf_pool cf)) |} i (f_key f)
          (P ++ packs (f_key f) (map seen ms)) (if old then V else pending_acks st (f_key f)) old) as LOOP.
      { intros _ LL LF. destruct (loop_step env (cf_st cf) f st ms th' P V I (ack_list_view _ _ _ _ FL OV) PO PR LL)
          as [(ids & ms1 & f' & -> & PM & EI & NI & F' & K' & L' & PO' & SZ & _)|(-> & _)].
        - cbn [map seen]. destruct (packs_plain (f_key f) ms1 PM) as (PP & _). unfold packs in *. cbn [flat_map]. rewrite addr_eqb_refl, PP, app_nil_r.
          exists th', f', (negb (zlen ids =? 251)). cbn [cf_pool cf_st]. rewrite PE. split; [exact N'|]. split; [exact F'|]. split; [exact K'|]. split; [exact PO'|].
          split; [rewrite L', FL; destruct old; reflexivity|]. split; [intros ->; reflexivity|].
          assert ((if old then V else pending_acks (cf_st cf) (f_key f)) = V) as -> by (destruct old; [reflexivity|symmetry; now apply OV]).
          split.
          { destruct PR as (r & EV). exists (skipn 251 r). rewrite EI. rewrite EV at 1. rewrite <- app_assoc. f_equal.
            rewrite EV, skipn_app, skipn_all, Nat.sub_diag. cbn [skipn app]. symmetry. apply firstn_skipn. }
          f_equal. rewrite LF in LA. symmetry in LA. apply negb_false_iff, Z.eqb_eq in LA. rewrite zlen_app.
          rewrite <- Zplus_mod_idemp_l, LA, Z.add_0_l. assert (0 < zlen ids) by (destruct ids; [congruence|rewrite zlen_cons; pose proof (zlen_nonneg ids); lia]).
          destruct (Z.eqb_spec (zlen ids) 251) as [->|NZ]; [reflexivity|]. rewrite Z.mod_small by lia. symmetry. apply Z.eqb_neq. lia.
        - exfalso. unfold empties in BE. cbn in BE. rewrite addr_eqb_refl in BE. discriminate. }
      destruct th as [o|name i0 w|mref b k|r f1 last1|todo]; try discriminate F; cbn [resume] in R.
      * destruct w as [m|mref href md [|f1 last1]]; try discriminate F. cbn in F. injection F as -> ->.
        assert (from (ToAcks f last) th' /\ Forall plain_mark ms) as (FR & PM).
        { destruct e as [e|].
          - destruct (after_effect _ _ _ _ _ _ _ I R) as (_ & _ & FR & P1). auto.
          - destruct (enter_effect _ _ _ _ _ _ _ _ I R) as (_ & _ & FR & P1). auto. }
        apply STAY. split; [now apply packs_plain|]. now apply from_flush in FR.
      * destruct k as [|f1 last1]; [discriminate F|]. cbn in F. injection F as -> ->.
        destruct e as [e|]; injection R as <- <- <-; apply STAY; split; reflexivity.
      * cbn in F. injection F as -> ->. destruct r as [r|e'].
        { destruct last.
          - injection R as <- <- <-. exfalso. unfold empties in BE. cbn in BE. rewrite addr_eqb_refl in BE. discriminate.
          - apply LOOP; [destruct r; eauto|exact R|reflexivity]. }
        { injection R as <- <- <-. exfalso. unfold gives_up in BA. cbn in BA. rewrite addr_eqb_refl in BA. discriminate. }
    + unfold cf', old', own, gevents. assert (Nat.eqb i j = false) as -> by now apply Nat.eqb_neq. rewrite app_nil_r.
      cbn [cstep app]. destruct (nth_error (cf_pool cf) j) as [thj|] eqn:NJ.
      2:{ cbn. rewrite orb_false_r. exists th, f, last. repeat (split; [first [exact N|exact F|reflexivity|exact PO]|]).
          destruct old; [auto|]. rewrite <- (OV eq_refl). auto. }
      destruct (resume env (cf_st cf) e thj) as [[st ms] th'] eqn:R. cbn [fst snd cf_st].
      destruct (detach_all_nth (cf_st cf) ms _ _ _ _ _ N F) as (th0 & f0 & N0 & F0 & (K1 & K2 & K3 & K4) & L0).
      exists th0, f0, last. cbn [cf_pool cf_st]. rewrite nth_update_other by exact NE. split; [exact N0|]. split; [exact F0|].
      split; [exact K1|]. split; [congruence|]. rewrite L0, FL.
      pose proof (resume_effect _ _ _ _ _ _ _ I R) as [RF _].
      destruct old; cbn [orb].
      * split; [reflexivity|]. split; [discriminate|]. auto.
      * rewrite (OV eq_refl) in *. destruct (empties (f_key f) (map seen ms)) eqn:EM; [split; [reflexivity|]; split; [discriminate|]; auto|].
        assert (pending_acks st (f_key f) = pending_acks (cf_st cf) (f_key f)) as ->.
        { eapply flushed_pending; [exact RF|]. rewrite emptied_in, <- empties_mark, EM. discriminate. }
        split; [reflexivity|]. auto.
Qed.

Lemma crun_app env xs ys : forall cf, fst (crun env cf (xs ++ ys)) = fst (crun env (fst (crun env cf xs)) ys).
Proof. induction xs as [|x xs IH]; intros cf; [reflexivity|]. cbn [app]. now rewrite !crun_cons. Qed.
Lemma midway_run env i a xs : forall cf P V (old : bool), (forall ys, inv (cf_st (fst (crun env cf ys)))) ->
  midway cf i a P V old -> busy_with env cf i a xs ->
  exists old', midway (fst (crun env cf xs)) i a (P ++ packed_by env cf i a xs) (if old then V else queue_kept env cf a xs) old'.
Proof.
  induction xs as [|x xs IH]; intros cf P V old I M B.
  - cbn. rewrite app_nil_r. exists old. destruct old; [exact M|].
    destruct M as (th & f & last & N & F & K & PO & FL & OV & PR & LA). rewrite <- (OV eq_refl). exists th, f, last. auto 9.
  - destruct B as [B1 B2]. rewrite crun_cons. cbn [packed_by queue_kept]. change (match x with Spawn _ => [] | Resume j _ => if Nat.eqb i j then packs a (gevents env cf x) else [] end) with (own env cf i a x).
    rewrite app_assoc. pose proof (midway_step env cf i a P V old x (I []) M B1) as M1. cbv zeta in M1.
    assert (forall ys, inv (cf_st (fst (crun env (fst (cstep env cf x)) ys)))) as I1 by (intros ys; rewrite <- crun_cons; apply I).
    destruct old; cbn [orb] in M1.
    + exact (IH _ _ _ _ I1 M1 B2).
    + assert (V = pending_acks (cf_st cf) a) as EV by (destruct M as (th & f & last & N & F & K & PO & FL & OV & PR & LA); now apply OV).
      destruct (empties a (gevents env cf x)); [rewrite <- EV; exact (IH _ _ _ _ I1 M1 B2)|exact (IH _ _ _ _ I1 M1 B2)].
Qed.

(** ** From its beginning *)
Lemma update_update {A} i (y z : A) (g : A -> A) l : update_nth i y (map g (update_nth i z l)) = update_nth i y (map g l).
Proof. revert i. induction l as [|x l IH]; intros [|i]; cbn; try reflexivity. now rewrite IH. Qed.
Lemma detach_all_uniform st ms : exists g, forall pool, detach_all st ms pool = map g pool.
Proof.
  induction ms as [|m ms (g & E)] using rev_ind.
  - exists (fun th => th). intros pool. cbn. now rewrite map_id.
  - unfold detach_all in *. destruct m as [s m|x|k ids|k|k]; try (exists g; intros pool; rewrite fold_left_app; cbn [fold_left]; apply E).
    eexists (fun th => detach k _ (g th)). intros pool. rewrite fold_left_app. cbn [fold_left]. rewrite E, map_map. reflexivity.
Qed.
Definition fresh (a : addr) (h : nat) (todo : list addr) : flush := {| f_key := a; f_host := h; f_pos := 0; f_list := None; f_todo := todo |}.
Definition stand_in (cf : config) (i : nat) (f : flush) : config :=
  {| cf_st := cf_st cf; cf_pool := update_nth i (Returning (Ok None) f false) (cf_pool cf) |}.
Lemma stand_in_step env cf i a todo c e : nth_error (cf_pool cf) i = Some (AtAcks (a :: todo)) -> circuit_of (cf_st cf) a = Some c ->
  cstep env (stand_in cf i (fresh a (c_host c) todo)) (Resume i e) = cstep env cf (Resume i e).
Proof.
  intros N C. unfold cstep, stand_in. cbn [cf_pool cf_st]. rewrite (nth_update_same _ _ _ _ N), N. cbn [resume next_circuit].
  unfold circuit_of in C. rewrite C. change {| f_key := a; f_host := c_host c; f_pos := 0; f_list := None; f_todo := todo |} with (fresh a (c_host c) todo).
  destruct (ack_loop env (cf_st cf) (fresh a (c_host c) todo)) as [[st ms] th]. destruct (detach_all_uniform (cf_st cf) ms) as (g & E).
  rewrite !E. now rewrite update_update.
Qed.
Lemma stand_in_midway cf i a todo h : nth_error (cf_pool cf) i = Some (AtAcks (a :: todo)) ->
  midway (stand_in cf i (fresh a h todo)) i a [] (pending_acks (cf_st cf) a) false.
Proof.
  intros N. exists (Returning (Ok None) (fresh a h todo) false), (fresh a h todo), false. cbn [stand_in cf_pool cf_st].
  split; [eapply nth_update_same; exact N|]. repeat (split; [reflexivity|]). split; [now exists (pending_acks (cf_st cf) a)|reflexivity].
Qed.

(** What the next step of an operation in the middle can be. *)
Lemma midway_next env cf i a P V old e : inv (cf_st cf) -> midway cf i a P V old ->
  let evs := gevents env cf (Resume i e) in
  (packs a evs = [] \/ packs a evs = firstn 251 (skipn (List.length P) V)) /\
  (empties a evs = true -> packs a evs = [] /\ (P = V \/ zlen P mod 251 <> 0)).
Proof.
  intros I (th & f & last & N & F & K & PO & FL & OV & PR & LA) evs. subst a. unfold evs, gevents. cbn [cstep app]. rewrite N.
  destruct (resume env (cf_st cf) e th) as [[st ms] th'] eqn:R. cbn [snd].
  assert (Forall plain_mark ms -> (packs (f_key f) (map seen ms) = [] \/ packs (f_key f) (map seen ms) = firstn 251 (skipn (List.length P) V)) /\
    (empties (f_key f) (map seen ms) = true -> packs (f_key f) (map seen ms) = [] /\ (P = V \/ zlen P mod 251 <> 0))) as PLAIN.
  { intros PM. destruct (packs_plain (f_key f) ms PM) as (-> & -> & _). split; [auto|discriminate]. }
  destruct th as [o|name i0 w|mref b k|r f1 last1|todo]; try discriminate F; cbn [resume] in R.
  - destruct w as [m|mref href md [|f1 last1]]; try discriminate F. apply PLAIN.
    destruct e as [e|]; [apply (after_effect _ _ _ _ _ _ _ I R)|apply (enter_effect _ _ _ _ _ _ _ _ I R)].
  - destruct k as [|f1 last1]; [discriminate F|]. apply PLAIN. destruct e as [e|]; injection R as <- <- <-; constructor.
  - cbn in F. injection F as -> ->. destruct r as [r|e'].
    + destruct last.
      * injection R as <- <- <-. cbn. split; [auto|]. intros _. split; [auto|]. right. intros Z0. rewrite Z0 in LA. discriminate LA.
      * destruct (loop_step env (cf_st cf) f st ms th' P V I (ack_list_view _ _ _ _ FL OV) PO PR R)
          as [(ids & ms1 & f' & -> & PM & EI & _)|(-> & E & _)].
        -- destruct (packs_plain (f_key f) ms1 PM) as (PP & PE & _). unfold packs, empties in *. cbn [map seen flat_map existsb].
           rewrite addr_eqb_refl, PP, app_nil_r, <- EI. cbn [orb]. rewrite PE. split; [auto|discriminate].
        -- cbn. split; [auto|]. intros _. split; [auto|]. left. now symmetry.
    + injection R as <- <- <-. cbn. split; [auto|discriminate].
Qed.

Lemma after_app env xs ys : after env (xs ++ ys) = fst (crun env (after env xs) ys).
Proof. unfold after. apply crun_app. Qed.
Lemma each_flush env before i a todo xs :
  nth_error (cf_pool (after env before)) i = Some (AtAcks (a :: todo)) ->
  circuit_of (cf_st (after env before)) a <> None ->
  (xs = [] \/ exists e mid, xs = Resume i e :: mid) ->
  busy_with env (after env before) i a xs ->
  let P := packed_by env (after env before) i a xs in
  let V := queue_kept env (after env before) a xs in
  (exists r, V = P ++ r) /\
  forall e, let evs := gevents env (after env (before ++ xs)) (Resume i e) in
    (packs a evs = [] \/ packs a evs = firstn 251 (skipn (List.length P) V)) /\
    (empties a evs = true -> packs a evs = [] /\ (P = V \/ zlen P mod 251 <> 0)).
Proof.
  intros N C S B P V. destruct (circuit_of (cf_st (after env before)) a) as [c|] eqn:CI; [|congruence].
  set (cf := after env before) in *. set (cf0 := stand_in cf i (fresh a (c_host c) todo)).
  assert (forall e, cstep env cf0 (Resume i e) = cstep env cf (Resume i e)) as SW by (intros e; apply stand_in_step; assumption).
  assert (forall e, gevents env cf0 (Resume i e) = gevents env cf (Resume i e)) as SG by (intros e; unfold gevents; now rewrite SW).
  pose proof (stand_in_midway cf i a todo (c_host c) N) as M0. fold cf0 in M0.
  assert (forall ys, inv (cf_st (fst (crun env cf ys)))) as I.
  { intros ys. unfold cf. rewrite <- after_app. apply after_good. }
  destruct S as [->|(e0 & mid & ->)].
  - cbn in P, V. subst P V. split; [now exists (pending_acks (cf_st cf) a)|]. intros e. rewrite app_nil_r. fold cf. rewrite <- SG.
    exact (midway_next env cf0 i a [] _ false e (I []) M0).
  - rewrite after_app. fold cf. rewrite crun_cons. destruct B as [B1 B2].
    rewrite <- SG in B1. pose proof (midway_step env cf0 i a [] _ false (Resume i e0) (I []) M0 B1) as M1. cbv zeta in M1.
    destruct (B1 ltac:(eexists; reflexivity)) as [BE _]. rewrite BE in M1. cbn [orb app] in M1. unfold own in M1. rewrite Nat.eqb_refl, SG, SW in M1.
    assert (forall ys, inv (cf_st (fst (crun env (fst (cstep env cf (Resume i e0))) ys)))) as I1 by (intros ys; rewrite <- crun_cons; apply I).
    destruct (midway_run env i a mid _ _ _ _ I1 M1 B2) as (old' & M2).
    assert (P = packs a (gevents env cf (Resume i e0)) ++ packed_by env (fst (cstep env cf (Resume i e0))) i a mid) as EP
      by (unfold P; cbn [packed_by]; now rewrite Nat.eqb_refl).
    assert (V = queue_kept env (fst (cstep env cf (Resume i e0))) a mid) as EV by (unfold V; cbn [queue_kept]; rewrite <- SG, BE; reflexivity).
    rewrite <- EP, <- EV in M2. split.
    + destruct M2 as (th & f & last & _ & _ & _ & _ & _ & _ & PR & _). exact PR.
    + intros e. exact (midway_next env _ i a P V old' e (I1 mid) M2).
Qed.
