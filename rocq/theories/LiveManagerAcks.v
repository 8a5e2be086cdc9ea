From Verif Require Import Lib SpecManager ManagerProofs DispatchProofs SpecLiveManager GreenletProofs GreenletAcks GreenletMore LiveManagerProofs LiveManagerMore.

(** ** Who is inside process_acks *)
Lemma start_acking env cf o st ms th : inv (cf_st cf) -> start env cf o = (st, ms, th) ->
  (forall order s, o <> ProcessAcks order s) -> acking th = false /\ Forall plain_mark ms.
Proof.
  intros I E N. destruct o as [a|h a|m|r m|r|a b|mref href md sock|mref href|href buf size|order sock|a]; unfold start in E;
    try (destruct (step (silent env) (cf_st cf) _); injection E as <- <- <-; split; [reflexivity|constructor]; fail).
  - destruct (begin_effect _ _ _ _ _ _ _ _ _ I E) as (_ & _ & FR & P). split; [now apply from_user|exact P].
  - destruct (receive_check (silent env) (cf_st cf) href buf size) as [st1 r] eqn:R.
    destruct (receive_queues _ _ _ _ _ _ _ I R) as [I1 _].
    destruct (r_res r) as [[m|]|e']; try (injection E as <- <- <-; split; [reflexivity|constructor]).
    destruct (e_handle env); [|injection E as <- <- <-; split; [reflexivity|constructor]].
    destruct (enter_effect _ _ _ _ _ _ _ _ I1 E) as (_ & _ & FR & P). split; [|exact P].
    destruct FR as [(r' & ->)|(n & j & ->)]; reflexivity.
  - now destruct (N order sock).
  - destruct (existsb acking (cf_pool cf)); [injection E as <- <- <-; split; [reflexivity|constructor]|].
    destruct (step (silent env) (cf_st cf) _); injection E as <- <- <-; split; [reflexivity|constructor].
Qed.
Lemma cstep_acking env cf x t th : inv (cf_st cf) -> nth_error (cf_pool (fst (cstep env cf x))) t = Some th -> acking th = true ->
  (exists th0, nth_error (cf_pool cf) t = Some th0 /\ acking th0 = true) \/
  (t = List.length (cf_pool cf) /\ exists order s, x = Spawn (ProcessAcks order s)).
Proof.
  intros I N A. destruct x as [o|i e]; cbn [cstep] in N.
  - destruct (start env cf o) as [[st ms] th'] eqn:E. cbn [fst cf_pool] in N.
    destruct (Nat.lt_ge_cases t (List.length (cf_pool cf))) as [L|L].
    + rewrite nth_error_app1 in N by exact L. left. eauto.
    + rewrite nth_error_app2 in N by exact L. destruct (t - List.length (cf_pool cf))%nat as [|k] eqn:D; cbn in N; [|now destruct k].
      injection N as ->. right. split; [lia|].
      assert ((exists order s, o = ProcessAcks order s) \/ forall order s, o <> ProcessAcks order s) as [(order & s & ->)|NP].
      { destruct o; try (right; discriminate). left. eauto. }
      * eauto.
      * destruct (start_acking _ _ _ _ _ _ I E NP). congruence.
  - left. destruct (nth_error (cf_pool cf) i) as [ti|] eqn:NI; [|eauto].
    destruct (resume env (cf_st cf) e ti) as [[st ms] th'] eqn:R. cbn [fst cf_pool] in N.
    destruct (detach_all_map (cf_st cf) ms (cf_pool cf)) as (g & G & EG). rewrite EG in N.
    destruct (Nat.eq_dec i t) as [->|NE].
    + rewrite nth_upd_eq in N by (rewrite map_length; apply nth_error_Some; congruence). injection N as ->.
      exists ti. split; [exact NI|]. destruct (acking ti) eqn:AT; [reflexivity|].
      destruct (resume_other _ _ _ _ _ _ _ I AT R) as (_ & _ & AK). congruence.
    + rewrite nth_upd_neq in N by exact NE. rewrite nth_error_map in N.
      destruct (nth_error (cf_pool cf) t) as [t0|]; [|discriminate]. cbn in N. injection N as <-. exists t0. rewrite G in A. auto.
Qed.
Lemma plain_abandoned k ms : Forall plain_mark ms -> ~ In (MAbandoned k) ms.
Proof. intros F H. rewrite Forall_forall in F. exact (F _ H). Qed.
Lemma resume_abandoned env st e th st' ms th' k : inv st -> resume env st e th = (st', ms, th') -> In (MAbandoned k) ms ->
  acking th = true /\ exists x, th' = Finished (OSend (out0 (Err x))).
Proof.
  intros I R H. destruct (acking th) eqn:A.
  2:{ destruct (resume_other _ _ _ _ _ _ _ I A R) as (_ & P & _). now apply plain_abandoned in H. }
  split; [reflexivity|]. destruct th as [o|name i w|mref b kk|r f last|todo]; cbn [resume] in R; try discriminate A.
  - exfalso. assert (Forall plain_mark ms) as P.
    { destruct e; [destruct (after_effect _ _ _ _ _ _ _ I R) as (_ & _ & _ & P)|destruct (enter_effect _ _ _ _ _ _ _ _ I R) as (_ & _ & _ & P)]; exact P. }
    now apply plain_abandoned in H.
  - destruct e; injection R as <- <- <-; contradiction.
  - assert (forall f0, ack_loop env st f0 = (st', ms, th') -> In (MAbandoned k) ms -> False) as LOOP.
    { intros f0 L J. unfold ack_loop in L. destruct (take_acks _ _) as [ids full]. destruct (full || (0 <? zlen ids)).
      - destruct (begin_send env _ _ _ _ _) as [[st1 ms1] th1] eqn:B in L. injection L as <- <- <-.
        destruct (begin_effect _ _ _ _ _ _ _ _ _ (inv_new _ _ I) B) as (_ & _ & _ & P). destruct J as [J|J]; [discriminate|now apply plain_abandoned in J].
      - injection L as <- <- <-. destruct J as [J|[]]; discriminate. }
    destruct r as [r|x]; [|injection R as <- <- <-; eauto]. exfalso. destruct last; [|exact (LOOP _ R H)].
    injection R as <- <- <-. destruct H as [H|[]]; discriminate.
  - exfalso. assert (forall f0, ack_loop env st f0 = (st', ms, th') -> In (MAbandoned k) ms -> False) as LOOP.
    { intros f0 L J. unfold ack_loop in L. destruct (take_acks _ _) as [ids full]. destruct (full || (0 <? zlen ids)).
      - destruct (begin_send env _ _ _ _ _) as [[st1 ms1] th1] eqn:B in L. injection L as <- <- <-.
        destruct (begin_effect _ _ _ _ _ _ _ _ _ (inv_new _ _ I) B) as (_ & _ & _ & P). destruct J as [J|J]; [discriminate|now apply plain_abandoned in J].
      - injection L as <- <- <-. destruct J as [J|[]]; discriminate. }
    unfold next_circuit in R. destruct todo as [|k0 todo]; [injection R as <- <- <-; contradiction|].
    destruct (get_circuit (s_circuits st) k0); [exact (LOOP _ R H)|injection R as <- <- <-; contradiction].
Qed.
Lemma cstep_abandoned env cf x k : inv (cf_st cf) -> In (Abandoned k) (gevents env cf x) ->
  exists t th e, nth_error (cf_pool cf) t = Some th /\ acking th = true /\ returned (fst (cstep env cf x)) t = Some (Err e).
Proof.
  intros I H. unfold gevents in H. apply in_app_or in H as [H|H].
  { exfalso. destruct x as [o|i e]; [|contradiction]. destruct o as [a|h a|m|r m|r|a b|mref href md sock|mref href|href buf size|order sock|a]; try contradiction.
    - apply in_app_or in H as [H|H].
      + destruct (accepts env (cf_st cf) href buf size) as [[a m]|]; [destruct H as [H|[]]; discriminate|contradiction].
      + destruct (host_address (cf_st cf) href); [|contradiction]. destruct (0 <? size); [destruct H as [H|[]]; discriminate|contradiction].
    - destruct (existsb acking (cf_pool cf)); [contradiction|destruct H as [H|[]]; discriminate]. }
  apply in_map_iff in H as (m & EM & H). destruct m; try discriminate EM. injection EM as ->.
  destruct x as [o|i e]; cbn [cstep] in *.
  - exfalso. destruct (start env cf o) as [[st ms] th'] eqn:E. cbn [snd] in H.
    assert ((exists order s, o = ProcessAcks order s) \/ forall order s, o <> ProcessAcks order s) as [(order & s & ->)|NP].
    { destruct o; try (right; discriminate). left. eauto. }
    + unfold start in E. rewrite resend_none in E by exact I. injection E as <- <- <-. contradiction.
    + destruct (start_acking _ _ _ _ _ _ I E NP) as [_ P]. now apply plain_abandoned in H.
  - destruct (nth_error (cf_pool cf) i) as [ti|] eqn:NI; [|contradiction].
    destruct (resume env (cf_st cf) e ti) as [[st ms] th'] eqn:R. cbn [fst snd cf_pool] in *.
    destruct (resume_abandoned _ _ _ _ _ _ _ _ I R H) as (A & x & ->). exists i, ti, x. split; [exact NI|]. split; [exact A|].
    unfold returned. cbn [cf_pool]. rewrite nth_upd_eq; [reflexivity|].
    destruct (detach_all_map (cf_st cf) ms (cf_pool cf)) as (g & _ & ->). rewrite map_length. apply nth_error_Some. congruence.
Qed.
Lemma returned_stable env xs cf t r : returned cf t = Some r -> returned (fst (crun env cf xs)) t = Some r.
Proof.
  unfold returned. intros H. destruct (nth_error (cf_pool cf) t) as [[]|] eqn:N; try discriminate. rewrite (crun_finished env xs _ _ _ N). exact H.
Qed.
Lemma acking_not_returned cf t th : nth_error (cf_pool cf) t = Some th -> acking th = true -> returned cf t = None.
Proof. unfold returned. intros -> A. destruct th; try reflexivity. discriminate. Qed.

(** ** The invariant *)
Definition ended_pc (p : vpc) : Prop := exists e, p = VEnd e.
Record solo (v : live) : Prop := {
  so_one : forall i j p q, nth_error (lv_udp v) i = Some p -> nth_error (lv_udp v) j = Some q -> ~ ended_pc p -> ~ ended_pc q -> i = j;
  so_acks : forall t th, nth_error (cf_pool (lv_cf v)) t = Some th -> acking th = true -> In (VAcks t) (lv_udp v) }.
(** An Abandoned has been seen only if a coroutine was or will be ended by it. *)
Definition owned (v : live) (tr : list gevent) : Prop :=
  forall k, In (Abandoned k) tr -> exists p, In p (lv_udp v) /\
    ((exists e, p = VEnd (Some e)) \/ exists t e, p = VAcks t /\ returned (lv_cf v) t = Some (Err e)).
Lemma solo_rest v i p : solo v -> nth_error (lv_udp v) i = Some p -> ~ ended_pc p -> (forall t, p <> VAcks t) -> at_rest (lv_cf v).
Proof.
  intros [S A] N E NA. apply Forall_forall. intros th H. destruct (acking th) eqn:AK; [|reflexivity].
  apply In_nth_error in H as (t & H). pose proof (A t th H AK) as J. apply In_nth_error in J as (j & J).
  assert (i = j) as -> by (eapply S; eauto; intros (e & X); discriminate). rewrite N in J. injection J as ->. now destruct (NA t).
Qed.
Lemma in_upd {A} n (x y z : A) l : nth_error l n = Some z -> In y l -> y = z \/ In y (update_nth n x l).
Proof.
  intros N H. apply In_nth_error in H as (m & H). destruct (Nat.eq_dec n m) as [->|D]; [left; congruence|].
  right. apply (nth_error_In _ m). now rewrite nth_upd_neq.
Qed.
Lemma in_upd_new {A} n (x : A) l z : nth_error l n = Some z -> In x (update_nth n x l).
Proof. intros N. apply (nth_error_In _ n). apply nth_upd_eq, nth_error_Some. congruence. Qed.

Lemma crun_inv env cf xs tr : good (cf_st cf) -> ledger tr (cf_st cf) -> exists tr', good (cf_st (fst (crun env cf xs))) /\ ledger tr' (cf_st (fst (crun env cf xs))).
Proof. intros G L. destruct (crun_good env xs cf tr G L) as [A B]. eauto. Qed.
Definition polite (x : sched) : Prop := match x with Spawn (Receive _ _ _) | Spawn (ProcessAcks _ _) => False | _ => True end.

(** A run of the dispatcher without new process_acks. *)
Lemma run_acking env xs : forall cf tr t th, good (cf_st cf) -> ledger tr (cf_st cf) -> Forall (fun x => forall order s, x <> Spawn (ProcessAcks order s)) xs ->
  nth_error (cf_pool (fst (crun env cf xs))) t = Some th -> acking th = true -> exists th0, nth_error (cf_pool cf) t = Some th0 /\ acking th0 = true.
Proof.
  induction xs as [|x xs IH]; intros cf tr t th G L F N A; [eauto|]. inversion F as [|? ? NX F']; subst.
  rewrite crun_cons in N. destruct (cstep_good env cf x _ G L) as [G1 L1].
  destruct (IH _ _ _ _ G1 L1 F' N A) as (th0 & N0 & A0). destruct G as [I _].
  destruct (cstep_acking _ _ _ _ _ I N0 A0) as [K|(_ & order & s & ->)]; [exact K|now destruct (NX order s)].
Qed.
Lemma run_abandoned env xs : forall cf tr k, good (cf_st cf) -> ledger tr (cf_st cf) -> Forall (fun x => forall order s, x <> Spawn (ProcessAcks order s)) xs ->
  In (Abandoned k) (gtrace env cf xs) -> exists t th e, nth_error (cf_pool cf) t = Some th /\ acking th = true /\ returned (fst (crun env cf xs)) t = Some (Err e).
Proof.
  induction xs as [|x xs IH]; intros cf tr k G L F H; [contradiction|]. inversion F as [|? ? NX F']; subst.
  cbn [gtrace] in H. rewrite crun_cons. destruct (cstep_good env cf x _ G L) as [G1 L1]. pose proof G as [I _]. apply in_app_or in H as [H|H].
  - destruct (cstep_abandoned _ _ _ _ I H) as (t & th & e & N & A & R). exists t, th, e. split; [exact N|]. split; [exact A|]. now apply returned_stable.
  - destruct (IH _ _ _ G1 L1 F' H) as (t & th & e & N & A & R).
    destruct (cstep_acking _ _ _ _ _ I N A) as [(th0 & N0 & A0)|(_ & order & s & ->)]; [|now destruct (NX order s)]. exists t, th0, e. auto.
Qed.

Lemma udp_spawns v i p r order xs bs q p' : udp_step v i p r order = (xs, bs, q, p') ->
  (Forall (fun x => forall o s, x <> Spawn (ProcessAcks o s)) xs /\ (Forall polite xs \/ p = VRecv)) \/
  (exists t, p = VReceive t /\ xs = [Spawn (ProcessAcks order (fun _ _ => None))] /\ p' = VAcks (List.length (cf_pool (lv_cf v)))).
Proof.
  unfold udp_step. intros U. destruct p as [| | |t|t| |t|e]; try (injection U as <- <- <- <-; left; split; [constructor|left; constructor]; fail).
  - left. split; [|now right]. destruct r; injection U as <- <- <- <-; repeat constructor; discriminate.
  - destruct (returned (lv_cf v) t) as [[u|e]|]; try (injection U as <- <- <- <-; left; split; [constructor|left; constructor]; fail).
    destruct (has_unacked _); injection U as <- <- <- <-; [right; eauto|left; split; [constructor|left; constructor]].
  - destruct (returned (lv_cf v) t) as [[u|e]|]; injection U as <- <- <- <-; left; split; try constructor; left; constructor.
  - destruct (lv_queue v) as [|[msg rel] q0]; injection U as <- <- <- <-; left; (split; [repeat constructor; discriminate|]); left; repeat constructor.
  - destruct (returned (lv_cf v) t) as [[u|e]|]; injection U as <- <- <- <-; left; split; try constructor; left; constructor.
Qed.
(** Where a coroutine inside process_acks goes. *)
Lemma udp_acks v i t r order xs bs q p' : udp_step v i (VAcks t) r order = (xs, bs, q, p') ->
  (p' = VAcks t /\ returned (lv_cf v) t = None) \/ (p' = VDrain /\ exists u, returned (lv_cf v) t = Some (Ok u)) \/
  exists e, p' = VEnd (Some e) /\ returned (lv_cf v) t = Some (Err e).
Proof. unfold udp_step. destruct (returned (lv_cf v) t) as [[u|e]|]; intros [= <- <- <- <-]; eauto. Qed.

Lemma vstep_udp_other env v o : (forall i r order, o <> VRun i r order) -> o <> VStartMonitors -> lv_udp (vstep env v o) = lv_udp v.
Proof. intros A B. destruct o; try reflexivity; [congruence|]. exfalso. eapply A; reflexivity. Qed.
Lemma vdoes_no_acks v o : leaves_it o -> (forall i r order, o <> VRun i r order) -> Forall (fun x => forall o s, x <> Spawn (ProcessAcks o s)) (fst (vdoes v o)).
Proof.
  intros L N. destruct o as [| |msg rel now|x|i r order]; cbn; try constructor; [|constructor|now destruct (N i r order)].
  intros o s ->. exact L.
Qed.

Lemma solo_step env v o tr0 tr : solo v -> owned v tr0 -> good (cf_st (lv_cf v)) -> ledger tr (cf_st (lv_cf v)) -> leaves_it o ->
  (o = VStartMonitors -> Forall (fun p => exists e, p = VEnd e) (lv_udp v)) ->
  solo (vstep env v o) /\ owned (vstep env v o) (tr0 ++ gtrace env (lv_cf v) (fst (vdoes v o))) /\
  (forall x, In x (fst (vdoes v o)) -> ~ polite x -> at_rest (lv_cf v)).
Proof.
  intros S OW G L LV ST. pose proof S as [S1 S2].
  assert ((exists i r order, o = VRun i r order) \/ forall i r order, o <> VRun i r order) as [(i & r & order & ->)|NR].
  { destruct o; try (right; discriminate). left. eauto. }
  2:{ assert (forall p, In p (lv_udp v) -> In p (lv_udp (vstep env v o))) as SUB.
      { intros p P. destruct o as [| |msg rel now|x|i r order]; try exact P; [cbn; apply in_or_app; now left|now destruct (NR i r order)]. }
      pose proof (vdoes_no_acks v o LV NR) as NA. split; [|split].
      - constructor.
        + destruct o as [| |msg rel now|x|i r order]; try exact S1; [|now destruct (NR i r order)]. cbn [vstep lv_udp].
          specialize (ST eq_refl). rewrite Forall_forall in ST.
          assert (forall i p, nth_error (lv_udp v ++ [VStart]) i = Some p -> ~ ended_pc p -> i = List.length (lv_udp v)) as K.
          { intros i p N NE. destruct (Nat.lt_ge_cases i (List.length (lv_udp v))) as [LT|GE].
            - rewrite nth_error_app1 in N by exact LT. destruct NE. apply ST. eapply nth_error_In; exact N.
            - rewrite nth_error_app2 in N by exact GE. destruct (i - List.length (lv_udp v))%nat as [|[|k]] eqn:D; try discriminate. lia. }
          intros i j p q Ni Nj Ei Ej. rewrite (K i p Ni Ei), (K j q Nj Ej). reflexivity.
        + intros t th N A. rewrite vstep_cf in N. apply SUB. destruct (run_acking env _ _ _ _ _ G L NA N A) as (th0 & N0 & A0). eapply S2; eauto.
      - intros k H. apply in_app_or in H as [H|H].
        + destruct (OW k H) as (p & P & Q). exists p. split; [now apply SUB|]. destruct Q as [Q|(t & e & -> & R)]; [now left|].
          right. exists t, e. split; [reflexivity|]. rewrite vstep_cf. now apply returned_stable.
        + destruct (run_abandoned env _ _ _ _ G L NA H) as (t & th & e & N & A & R).
          exists (VAcks t). split; [apply SUB; eapply S2; eauto|]. right. exists t, e. split; [reflexivity|]. now rewrite vstep_cf.
      - intros x X NP. exfalso. destruct o as [| |msg rel now|y|i r order]; cbn in X; try contradiction; [|now destruct (NR i r order)].
        destruct X as [->|[]]. apply NP. destruct x as [o|]; [|exact I]. destruct o; try exact I; exact LV. }
  destruct (nth_error (lv_udp v) i) as [p|] eqn:N.
  2:{ unfold vdoes, vstep. rewrite N. cbn [fst gtrace]. rewrite app_nil_r. repeat split; auto. intros x []. }
  unfold vdoes. rewrite N. destruct (udp_step v i p r order) as [[[xs bs] q] p'] eqn:U. cbn [fst].
  assert (lv_cf (vstep env v (VRun i r order)) = fst (crun env (lv_cf v) xs)) as EC by (rewrite vstep_cf; unfold vdoes; rewrite N, U; reflexivity).
  assert (lv_udp (vstep env v (VRun i r order)) = update_nth i p' (lv_udp v)) as EU by (cbn; rewrite N, U; reflexivity).
  assert (ended_pc p -> p' = p /\ xs = []) as STAY by (intros (e & ->); now injection U as <- <- <- <-).
  assert (forall j1 j2 p1 p2, nth_error (update_nth i p' (lv_udp v)) j1 = Some p1 -> nth_error (update_nth i p' (lv_udp v)) j2 = Some p2 ->
            ~ ended_pc p1 -> ~ ended_pc p2 -> j1 = j2) as ONE.
  { assert (forall j pj, nth_error (update_nth i p' (lv_udp v)) j = Some pj -> ~ ended_pc pj -> exists p0, nth_error (lv_udp v) j = Some p0 /\ ~ ended_pc p0) as K.
    { intros j pj NJ E. destruct (Nat.eq_dec i j) as [->|NE]; [|rewrite nth_upd_neq in NJ by exact NE; eauto].
      rewrite nth_upd_eq in NJ by (apply nth_error_Some; congruence). injection NJ as ->. exists p. split; [exact N|]. intros EP.
      destruct (STAY EP) as [-> _]. contradiction. }
    intros j1 j2 p1 p2 N1 N2 E1 E2. destruct (K _ _ N1 E1) as (? & ? & ?). destruct (K _ _ N2 E2) as (? & ? & ?). eapply S1; eauto. }
  destruct (udp_spawns _ _ _ _ _ _ _ _ _ U) as [[NA POL]|(t0 & -> & -> & ->)].
  - split; [|split].
    + constructor; [rewrite EU; exact ONE|]. rewrite EU, EC. intros t th NT A.
      destruct (run_acking env _ _ _ _ _ G L NA NT A) as (th0 & N0 & A0). pose proof (S2 t th0 N0 A0) as J.
      destruct (in_upd i p' _ _ _ N J) as [<-|J']; [|exact J'].
      pose proof (acking_not_returned _ _ _ N0 A0) as NR.
      destruct (udp_acks _ _ _ _ _ _ _ _ _ U) as [(-> & _)|[(_ & u & R)|(e & _ & R)]]; try congruence. eapply in_upd_new; exact N.
    + intros k H. rewrite EU. apply in_app_or in H as [H|H].
      * destruct (OW k H) as (p0 & P & Q). destruct (in_upd i p' _ _ _ N P) as [->|P'].
        -- destruct Q as [(e & ->)|(t & e & -> & R)].
           ++ destruct (STAY (ex_intro _ _ eq_refl)) as [-> _]. exists (VEnd (Some e)). split; [eapply in_upd_new; exact N|]. left. eauto.
           ++ destruct (udp_acks _ _ _ _ _ _ _ _ _ U) as [(_ & R')|[(_ & u & R')|(e' & -> & R')]]; try congruence.
              exists (VEnd (Some e')). split; [eapply in_upd_new; exact N|]. left. eauto.
        -- exists p0. split; [exact P'|]. destruct Q as [Q|(t & e & -> & R)]; [now left|]. right. exists t, e. split; [reflexivity|].
           rewrite EC. now apply returned_stable.
      * destruct (run_abandoned env _ _ _ _ G L NA H) as (t & th & e & N0 & A0 & R). pose proof (S2 t th N0 A0) as J. rewrite <- EC in R.
        pose proof (acking_not_returned _ _ _ N0 A0) as NR.
        destruct (in_upd i p' _ _ _ N J) as [<-|J'].
        -- destruct (udp_acks _ _ _ _ _ _ _ _ _ U) as [(-> & _)|[(_ & u & R')|(e' & _ & R')]]; try congruence.
           exists (VAcks t). split; [eapply in_upd_new; exact N|]. right. eauto.
        -- exists (VAcks t). split; [exact J'|]. right. eauto.
    + intros x X NP. destruct POL as [POL| ->].
      * rewrite Forall_forall in POL. now destruct (NP (POL x X)).
      * eapply solo_rest; [exact S|exact N|intros (e & X'); discriminate|discriminate].
  - assert (at_rest (lv_cf v)) as AR by (eapply solo_rest; [exact S|exact N|intros (e & X'); discriminate|discriminate]).
    split; [|split].
    + constructor; [rewrite EU; exact ONE|]. rewrite EU, EC. intros t th NT A. rewrite crun_cons in NT. cbn [crun fst] in NT.
      destruct G as [I _]. destruct (cstep_acking _ _ _ _ _ I NT A) as [(th0 & N0 & A0)|(-> & _)]; [|eapply in_upd_new; exact N].
      exfalso. unfold at_rest in AR. rewrite Forall_forall in AR. rewrite (AR th0) in A0; [discriminate|]. eapply nth_error_In; exact N0.
    + intros k H. rewrite EU. apply in_app_or in H as [H|H].
      * destruct (OW k H) as (p0 & P & Q). destruct (in_upd i (VAcks (List.length (cf_pool (lv_cf v)))) _ _ _ N P) as [->|P'].
        -- destruct Q as [(e & X)|(t & e & X & R)]; discriminate.
        -- exists p0. split; [exact P'|]. destruct Q as [Q|(t & e & -> & R)]; [now left|]. right. exists t, e. split; [reflexivity|].
           rewrite EC. now apply returned_stable.
      * exfalso. cbn [gtrace] in H. rewrite app_nil_r in H. destruct G as [I _].
        destruct (cstep_abandoned _ _ _ _ I H) as (t & th & e & N0 & A0 & R).
        unfold at_rest in AR. rewrite Forall_forall in AR. rewrite (AR th) in A0; [discriminate|]. eapply nth_error_In; exact N0.
    + intros _ _ _. exact AR.
Qed.
Lemma in_turn_app env xs : forall ys cf, one_at_a_time env cf xs /\ no_reception_inside env cf xs ->
  one_at_a_time env (fst (crun env cf xs)) ys /\ no_reception_inside env (fst (crun env cf xs)) ys ->
  one_at_a_time env cf (xs ++ ys) /\ no_reception_inside env cf (xs ++ ys).
Proof.
  induction xs as [|x xs IH]; intros ys cf [A B] [C D]; [split; assumption|]. cbn [app one_at_a_time no_reception_inside] in *.
  destruct A as [A1 A2]. destruct B as [B1 B2]. rewrite crun_cons in C, D. destruct (IH ys _ (conj A2 B2) (conj C D)). auto.
Qed.
Lemma polite_turn env xs : Forall polite xs -> forall cf, one_at_a_time env cf xs /\ no_reception_inside env cf xs.
Proof.
  induction 1 as [|x xs P F IH]; intros cf; [split; exact I|]. cbn. destruct (IH (fst (cstep env cf x))).
  destruct x as [o|]; [destruct o; try contradiction|]; auto.
Qed.
Lemma rest_new env cf o : inv (cf_st cf) -> (forall order s, o <> ProcessAcks order s) -> at_rest cf -> at_rest (fst (cstep env cf (Spawn o))).
Proof.
  intros I N R. cbn [cstep]. destruct (start env cf o) as [[st ms] th] eqn:E. destruct (start_acking _ _ _ _ _ _ I E N) as [A _].
  unfold at_rest in *. cbn. apply Forall_app. auto.
Qed.
Lemma vdoes_turn env v o tr : good (cf_st (lv_cf v)) -> ledger tr (cf_st (lv_cf v)) ->
  (forall x, In x (fst (vdoes v o)) -> ~ polite x -> at_rest (lv_cf v)) ->
  one_at_a_time env (lv_cf v) (fst (vdoes v o)) /\ no_reception_inside env (lv_cf v) (fst (vdoes v o)).
Proof.
  intros [I _] L H. destruct o as [| |msg rel now|x|i r order]; cbn [vdoes fst] in *; try (split; exact Logic.I).
  - assert (polite x \/ ~ polite x) as [P|P] by (destruct x as [o|]; [destruct o|]; cbn; auto).
    + apply polite_turn. repeat constructor. exact P.
    + specialize (H x (or_introl eq_refl) P). destruct x as [o|]; [|now destruct (P Logic.I)]. cbn. destruct o; auto.
  - destruct (nth_error (lv_udp v) i) as [p|]; [|split; exact Logic.I].
    destruct (udp_step v i p r order) as [[[xs bs] q] p'] eqn:U. cbn [fst] in *.
    destruct (udp_spawns _ _ _ _ _ _ _ _ _ U) as [[_ [POL| ->]]|(t0 & -> & -> & ->)].
    + now apply polite_turn.
    + unfold udp_step in U. destruct r as [|a data]; injection U as <- <- <- <-.
      * specialize (H _ (or_introl eq_refl) (fun x => x)). cbn. auto.
      * specialize (H _ (or_intror (or_introl eq_refl)) (fun x => x)). cbn [one_at_a_time no_reception_inside].
        assert (at_rest (fst (cstep env (lv_cf v) (Spawn (SetHost sender a))))) by (apply rest_new; [exact I|discriminate|exact H]). auto.
    + specialize (H _ (or_introl eq_refl) (fun x => x)). cbn. auto.
Qed.
Lemma live_run env ops : forall v tr0 tr, solo v -> owned v tr0 -> good (cf_st (lv_cf v)) -> ledger tr (cf_st (lv_cf v)) ->
  Forall leaves_it ops -> started_in_turn env v ops ->
  solo (vrun env v ops) /\ owned (vrun env v ops) (tr0 ++ gtrace env (lv_cf v) (vsched env v ops)) /\
  one_at_a_time env (lv_cf v) (vsched env v ops) /\ no_reception_inside env (lv_cf v) (vsched env v ops).
Proof.
  induction ops as [|o ops IH]; intros v tr0 tr S O G L F T.
  - cbn. rewrite app_nil_r. auto.
  - inversion F as [|? ? LO F']; subst. destruct T as [T1 T2]. cbn [vrun vsched].
    destruct (solo_step env v o tr0 tr S O G L LO T1) as (S' & O' & RE).
    destruct (crun_good env (fst (vdoes v o)) _ _ G L) as [G' L']. rewrite <- vstep_cf in G', L'.
    destruct (IH _ _ _ S' O' G' L' F' T2) as (A & B & C & D). split; [exact A|].
    rewrite gtrace_app, app_assoc, <- vstep_cf. split; [exact B|]. rewrite vstep_cf in C, D.
    apply in_turn_app; [|auto]. exact (vdoes_turn env v o tr G L RE).
Qed.
Lemma live_nothing_lost env host ops a : Forall leaves_it ops -> started_in_turn env (v_init env host) ops -> undisturbed (vafter env host ops) ->
  all_queued a (v_seen (vlife env host ops)) = all_packed a (v_seen (vlife env host ops)) ++ pending_acks (cf_st (lv_cf (vafter env host ops))) a.
Proof.
  intros F T U. set (v0 := v_init env host) in *.
  assert (good (cf_st (lv_cf v0)) /\ ledger (network (gtrace env (idle init_state) (v_objects host))) (cf_st (lv_cf v0))) as [G L].
  { destruct (crun_good env (v_objects host) (idle init_state) [] good_init ledger_init) as [A B]. split; [exact A|exact B]. }
  assert (solo v0) as S.
  { constructor; [intros i j p q H; destruct i; discriminate|]. intros t th N A. exfalso. revert N. unfold v0, v_init, v_objects. cbn.
    destruct t as [|[|t]]; cbn; [intros [= <-]|intros [= <-]|destruct t; discriminate]; discriminate A. }
  assert (owned v0 (gtrace env (idle init_state) (v_objects host))) as O by (intros k H; cbn in H; contradiction).
  destruct (live_run env ops v0 _ _ S O G L F T) as (S' & O' & A & B).
  rewrite vlife_seen, vafter_cf.
  assert (lv_cf v0 = fst (crun env (idle init_state) (v_objects host))) as E0 by reflexivity.
  destruct (in_turn_app env (v_objects host) (vsched env v0 ops) (idle init_state)) as [C D].
  { apply polite_turn. repeat constructor. }
  { rewrite <- E0. auto. }
  apply nothing_lost; [exact C|exact D| |].
  - rewrite <- vafter_cf. apply Forall_forall. intros th H. destruct (acking th) eqn:AK; [|reflexivity]. exfalso.
    apply In_nth_error in H as (t & H). pose proof (so_acks _ S' t th H AK) as J. now destruct (proj1 (U _ J) t).
  - intros H. rewrite <- vlife_seen in H. unfold vlife in H. rewrite v_seen_app, v_seen_seen, vhistory_seen in H.
    destruct (O' a H) as (p & P & [(e & ->)|(t & e & -> & _)]); destruct (U _ P) as [U1 U2]; [now destruct (U2 e)|now destruct (U1 t)].
Qed.
