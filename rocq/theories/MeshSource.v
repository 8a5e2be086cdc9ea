(** More lemmas for C104: every packet of a manager is an acknowledgement or a
    Message of its queue. *)
From Verif Require Import Lib SpecWhole WholeProofs LiveManagerProofs SpecMessages MessageProofs DispatchProofs DispatchMore GreenletProofs GreenletAcks GreenletMore CopiesProofs.
From Verif Require Import SpecCrowd CrowdProofs AnnouncedProofs SpecMesh MeshProofs MeshMore.
From Verif Require Import SpecLayout SpecRoundTrip SpecGreenlets SpecCrowd SpecMesh.
Open Scope Z_scope.
Open Scope list_scope.

(** ** Each manager on its own *)
Lemma of_manager_app {A} i (l1 l2 : list (nat * A)) : of_manager i (l1 ++ l2) = of_manager i l1 ++ of_manager i l2.
Proof. apply flat_map_app. Qed.
Lemma of_manager_same {A} i (l : list A) : of_manager i (map (pair i) l) = l.
Proof. induction l as [|a l IH]; [reflexivity|]. unfold of_manager in *. cbn. now rewrite Nat.eqb_refl, IH. Qed.
Lemma of_manager_other {A} i j (l : list A) : i <> j -> of_manager i (map (pair j) l) = [].
Proof.
  intros N. induction l as [|a l IH]; [reflexivity|]. unfold of_manager in *. cbn. rewrite IH.
  destruct (Nat.eqb_spec j i); [congruence|reflexivity].
Qed.
Lemma wrun_app e : forall ops1 w ops2, wrun e w (ops1 ++ ops2) = wrun e (wrun e w ops1) ops2.
Proof. induction ops1 as [|o ops1 IH]; intros; [reflexivity|]. apply IH. Qed.
Lemma whistory_app e : forall ops1 w ops2, whistory e w (ops1 ++ ops2) = whistory e w ops1 ++ whistory e (wrun e w ops1) ops2.
Proof. induction ops1 as [|o ops1 IH]; intros; [reflexivity|]. cbn. now rewrite IH, app_assoc. Qed.
Lemma mesh_each es n : mesh_steps (mesh_start es) n -> map fst (me_nodes n) = es /\
  forall i e w, nth_error (me_nodes n) i = Some (e, w) ->
    w = wafter e (of_manager i (me_done n)) /\ of_manager i (me_log n) = wlife e (of_manager i (me_done n)).
Proof.
  intros H. remember (mesh_start es) as n0. induction H as [n|n1 n2 n3 H IH S]; subst.
  - split; [cbn; rewrite map_map; apply map_id|]. intros i e w N. cbn in N. rewrite nth_error_map in N.
    destruct (nth_error es i); [|discriminate]. injection N as <- <-. split; reflexivity.
  - destruct (IH eq_refl) as [E K]. clear IH. destruct S as [i before e w after o done log L M]. cbn [me_nodes me_done me_log] in *. split.
    + rewrite <- E, !map_app. reflexivity.
    + intros j e1 w1 N. destruct (NetworkProofs.nth_middle _ _ _ _ _ N) as [[-> Q]|[NE Q]].
      * injection Q as -> ->. rewrite L. destruct (K i e w) as [KW KL]; [rewrite <- L; apply NetworkProofs.nth_at|].
        change [(i, o)] with (map (pair i) [o]). rewrite !of_manager_app, !of_manager_same.
        unfold wafter, wlife in *. rewrite wrun_app, whistory_app, <- KW, KL. cbn [wrun whistory]. rewrite app_nil_r. split; reflexivity.
      * destruct (K j e1 w1 (Q _)) as [KW KL]. change [(i, o)] with (map (pair i) [o]).
        rewrite !of_manager_app, !of_manager_other, !app_nil_r by congruence. auto.
Qed.

(** ** A run *)
Record sane (env : denv) (cf : config) : Prop := {
  sn_good : good (cf_st cf); sn_ledger : exists tr, ledger tr (cf_st cf);
  sn_dl : forall th, In th (cf_pool cf) -> dl env (fun _ => True) th }.
Lemma cstep_sane env cf x : sane env cf -> sane env (fst (cstep env cf x)).
Proof.
  intros [G [tr L] D]. destruct (cstep_good env cf x tr G L) as [G' L'].
  destruct (cstep_fair env (fun _ => True) (fun _ => True) cf x (good_inv _ G)) as [_ D']; auto.
  { intros a _. exact I. }
  constructor; [exact G'|eexists; exact L'|exact D'].
Qed.
Definition no_setmsg (x : sched) : Prop := forall r m, x <> Spawn (SetMsg r m).
Lemma packs_in ms k : In k (pack_keys ms) -> exists a ids, In (MPack a ids) ms /\ k = key (ack_message ids).
Proof.
  unfold pack_keys. intros H. apply in_flat_map in H as (x & I & K). destruct x; try contradiction. destruct K as [<-|[]]. eauto.
Qed.
Lemma crun_keys env xs : forall cf, sane env cf -> Forall no_setmsg xs ->
  exists new, keys (cf_st (fst (crun env cf xs))) = keys (cf_st cf) ++ new /\
    forall k, In k new -> (exists m, In (Spawn (NewMsg m)) xs /\ k = key m) \/
      exists a ids, In (Packing a ids) (gtrace env cf xs) /\ k = key (ack_message ids).
Proof.
  induction xs as [|x xs IH]; intros cf SN F.
  - exists []. cbn. split; [symmetry; apply app_nil_r|]. intros k [].
  - inversion F as [|? ? N F']; subst. pose proof (cstep_keys env cf x (good_inv _ (sn_good _ _ SN)) N) as K.
    destruct (IH _ (cstep_sane env cf x SN) F') as (new & E & W). cbn [crun gtrace].
    assert (forall k, In k (pack_keys (snd (cstep env cf x))) -> exists a ids, In (Packing a ids) (gevents env cf x) /\ k = key (ack_message ids)) as P.
    { intros k H. destruct (packs_in _ _ H) as (a & ids & H1 & H2). exists a, ids. split; [|exact H2].
      rewrite gevents_head. apply in_or_app. right. change (Packing a ids) with (seen (MPack a ids)). now apply in_map. }
    destruct (cstep env cf x) as [cf1 ms]. cbn [fst snd] in *. destruct (crun env cf1 xs) as [cf2 ms2]. cbn [fst] in *.
    exists (made x ++ pack_keys ms ++ new). split; [rewrite E, K, !app_assoc; reflexivity|]. intros k H.
    apply in_app_or in H as [H|H]; [|apply in_app_or in H as [H|H]].
    + left. destruct x as [[]|]; try contradiction. destruct H as [<-|[]]. eexists. split; [now left|reflexivity].
    + right. destruct (P k H) as (a & ids & P1 & P2). exists a, ids. split; [apply in_or_app; now left|exact P2].
    + destruct (W k H) as [(m & I1 & I2)|(a & ids & I1 & I2)]; [left|right]; eauto.
      * exists m. split; [now right|exact I2].
      * exists a, ids. split; [apply in_or_app; now right|exact I2].
Qed.
Definition answer_at (p : list gevent) (x : attempt) : Prop := exists p' a ids, p = p' ++ [Packing a ids] /\ acknowledges (at_msg x) ids.
Lemma head_no_put env cf x y : ~ In (Net (Attempted y)) (CrowdProofs.head env cf x).
Proof.
  destruct x as [o|]; [|intros []]. destruct o as [| | | | | | | |h buf size| |a]; try (intros []).
  - cbn [CrowdProofs.head]. intros H. apply in_app_or in H as [H|H].
    + destruct (accepts env (cf_st cf) h buf size) as [[a m]|]; [destruct H as [H|[]]; discriminate|contradiction].
    + destruct (host_address (cf_st cf) h); [|contradiction]. destruct (0 <? size); [destruct H as [H|[]]; discriminate|contradiction].
  - cbn [CrowdProofs.head]. destruct (existsb acking (cf_pool cf)); [intros []|]. intros [H|[]]. discriminate.
Qed.
Lemma seen_put ms y : In (Net (Attempted y)) (map seen ms) -> In (MPut y) ms.
Proof. intros H. apply in_map_iff in H as (m & E & H). destruct m; try discriminate. injection E as <-. exact H. Qed.
Lemma gevents_answers env cf x p y q : sane env cf -> e_handle_out env = false -> ~ spawns_send x ->
  gevents env cf x = p ++ Net (Attempted y) :: q -> answer_at p y.
Proof.
  intros SN HO NS E. rewrite gevents_head in E.
  pose proof (cstep_acks env _ cf x (good_inv _ (sn_good _ _ SN)) HO (sn_dl _ _ SN) NS) as A.
  destruct (split_app _ _ _ _ _ E) as [(f & H)|(p' & -> & H)].
  - exfalso. apply (head_no_put env cf x y). rewrite H. apply in_or_app. right. now left.
  - assert (In (MPut y) (snd (cstep env cf x))) as I by (apply seen_put; rewrite H; apply in_or_app; right; now left).
    destruct A as [A|(k & ids & x0 & A & AK)]; [now apply A in I|]. rewrite A in *. cbn [map seen] in H.
    destruct p' as [|e1 p']; [discriminate|]. cbn [app] in H. injection H as <- H.
    destruct p' as [|e2 p']; cbn [app] in H.
    + injection H as <- <-. exists (CrowdProofs.head env cf x), k, ids. auto.
    + injection H as <- H. destruct p'; discriminate.
Qed.
Lemma gtrace_answers env xs : forall cf p y q, sane env cf -> e_handle_out env = false -> Forall (fun x => ~ spawns_send x) xs ->
  gtrace env cf xs = p ++ Net (Attempted y) :: q -> answer_at p y.
Proof.
  induction xs as [|x xs IH]; intros cf p y q SN HO F E; [destruct p; discriminate|]. inversion F; subst. cbn [gtrace] in E.
  destruct (split_app _ _ _ _ _ E) as [(f & H)|(p' & -> & H)].
  - eapply gevents_answers; eauto.
  - destruct (IH _ _ _ _ (cstep_sane env cf x SN) HO ltac:(assumption) H) as (p1 & a & ids & -> & A).
    exists (gevents env cf x ++ p1), a, ids. rewrite app_assoc. auto.
Qed.

(** ** What a manager makes its dispatcher do *)
Lemma wdoes_kinds w o : leaves_all o ->
  Forall no_setmsg (wdoes w o) /\ (forall m, In (Spawn (NewMsg m)) (wdoes w o) -> o = WUser (Spawn (NewMsg m))) /\
  (Forall (fun x => ~ spawns_send x) (wdoes w o) \/
   exists k r order msg rel q', o = WUdp k r order /\ nth_error (lv_udp (wh_udp w)) k = Some VDrain /\ lv_queue (wh_udp w) = (msg, rel) :: q' /\
     wdoes w o = [Spawn (Send msg region (if rel then Reliable 0 else Plain) (fun _ _ => None))]).
Proof.
  intros LA. unfold wdoes. destruct o as [| | |h|x|k r order| |]; cbn [udp_ops vdoes fst].
  all: try (split; [constructor|]; split; [intros m []|left; constructor]; fail).
  - split; [repeat constructor; discriminate|]. split; [|left; repeat constructor; intros []]. intros m [E|[]]. discriminate.
  - assert (forall y, y = x -> no_setmsg y -> ~ spawns_send y -> Forall no_setmsg [y] /\ (forall m, In (Spawn (NewMsg m)) [y] -> WUser x = WUser (Spawn (NewMsg m))) /\
      (Forall (fun x => ~ spawns_send x) [y] \/ exists k r order msg rel q', WUser x = WUdp k r order /\ nth_error (lv_udp (wh_udp w)) k = Some VDrain /\ lv_queue (wh_udp w) = (msg, rel) :: q' /\
     [y] = [Spawn (Send msg region (if rel then Reliable 0 else Plain) (fun _ _ => None))])) as K.
    { intros y -> A B. split; [now constructor|]. split; [intros m [->|[]]; reflexivity|]. left. now constructor. }
    destruct x as [o'|j e'].
    + destruct o'; cbn [leaves_all] in LA; try contradiction; cbn [vdoes fst]; try (apply K; [reflexivity|discriminate|intros []]).
      split; [constructor|]. split; [intros m []|left; constructor].
    + cbn [vdoes fst]. apply K; [reflexivity|discriminate|intros []].
  - destruct (nth_error (lv_udp (wh_udp w)) k) as [p|] eqn:N; [|split; [constructor|]; split; [intros m []|left; constructor]].
    pose proof (udp_step_loop (wh_udp w) k p r order) as F.
    destruct p; cbn [udp_step fst] in *.
    6: { destruct (lv_queue (wh_udp w)) as [|[msg b] q] eqn:Q; cbn [fst].
         - split; [constructor|]. split; [intros m []|left; constructor].
         - split; [repeat constructor; discriminate|]. split; [intros m [E|[]]; discriminate|]. right. exists k, r, order, msg, b, q. auto. }
    all: repeat match goal with
      | |- context [match ?r with RFail => _ | RData _ _ => _ end] => destruct r
      | |- context [match returned ?a ?b with _ => _ end] => destruct (returned a b) as [[[]|]|]
      | |- context [if has_unacked ?a then _ else _] => destruct (has_unacked a)
      end; cbn [fst]; (split; [repeat constructor; discriminate|]; split; [cbn; intros m I; intuition discriminate|left; repeat constructor; intros []]).
Qed.
Lemma wstep_queue e w o x : In x (lv_queue (wh_udp (wstep e w o))) -> In x (lv_queue (wh_udp w)) \/ exists now, In (WV (VEnqueued (fst x) (snd x) now)) (wobserved e w o).
Proof.
  assert (wh_udp (wstep e w o) = vrun (we_env e) (wh_udp w) (udp_ops w o)) as -> by (unfold wstep; destruct (we_queue e); reflexivity).
  destruct o as [| |msg rel now|h|[[]|]|k r order| |]; cbn [udp_ops vrun vstep lv_queue]; auto.
  - intros H. assert ((msg, rel) = x \/ In x (lv_queue (wh_udp w))) as [<-|H'].
    { destruct now; [exact H|]. apply in_app_or in H as [H|[H|[]]]; auto. }
    + right. exists now. cbn. now left.
    + now left.
  - destruct (nth_error (lv_udp (wh_udp w)) k) as [p|]; [|auto]. intros H. left. revert H.
    destruct p; cbn [udp_step]; auto.
    + destruct r; auto.
    + destruct (returned _ t) as [[[]|]|]; auto. destruct (has_unacked _); auto.
    + destruct (returned _ t) as [[[]|]|]; auto.
    + destruct (lv_queue (wh_udp w)) as [|[m b] q]; cbn; auto.
    + destruct (returned _ t) as [[[]|]|]; auto.
Qed.

(** One step. *)
Lemma pair_split {A} (i : nat) (l : list A) : forall (p : list (nat * A)) (x : A) (q : list (nat * A)), map (pair i) l = p ++ (i, x) :: q -> exists p' : list A, p = map (pair i) p' /\ exists q', l = p' ++ x :: q'.
Proof.
  induction l as [|a l IH]; intros p x q H; [destruct p; discriminate|]. destruct p as [|b p]; cbn in H.
  - injection H as <- <-. exists []. split; [reflexivity|]. exists l. reflexivity.
  - injection H as <- H. destruct (IH p x q H) as (p' & -> & q' & ->). exists (a :: p'). split; [reflexivity|]. exists q'. reflexivity.
Qed.
Lemma wobserved_source e w o i p x q : sane (we_env e) (lv_cf (wh_udp w)) -> e_handle_out (we_env e) = false -> leaves_all o ->
  wobserved e w o = p ++ WV (VSeen (Net (Attempted x))) :: q ->
  (exists p' a ids, of_dispatchers (map (pair i) p) = p' ++ [(i, Packing a ids)] /\ acknowledges (at_msg x) ids) \/
  exists b msg rel q' m, p = [WV (VBegun b)] /\ bg_call b = CSend msg rel /\ lv_queue (wh_udp w) = (msg, rel) :: q' /\
    nth_error (s_msgs (cf_st (lv_cf (wh_udp w)))) msg = Some m /\ key (at_msg x) = key m.
Proof.
  intros SN HO LA E. destruct (wdoes_kinds w o LA) as (_ & _ & [K|(k & r & order & msg & rel & q' & -> & N & Q & W)]).
  - left. pose proof (wobserved_seen e w o i) as S. rewrite E, map_app, of_app in S. cbn [map of_dispatchers flat_map fst snd app] in S.
    symmetry in S. destruct (pair_split _ _ _ _ _ S) as (p' & EP & q0 & G).
    destruct (gtrace_answers _ _ _ _ _ _ SN HO K G) as (p1 & a & ids & -> & A). exists (map (pair i) p1), a, ids. rewrite EP, map_app. auto.
  - right. revert E. unfold wobserved. cbn [udp_ops vhistory queue_ops]. unfold vobserved. cbn [vdoes]. rewrite N. cbn [udp_step]. rewrite Q. cbn [fst snd map app].
    rewrite !app_nil_r. assert (match we_queue e with Some q0 => map WN (nhistory q0 (w_queue w) []) | None => [] end = []) as -> by (destruct (we_queue e); reflexivity).
    rewrite app_nil_r. intros E. cbn [gtrace] in E. rewrite gevents_head in E. cbn [CrowdProofs.head app] in E.
    pose proof (cstep_own (we_env e) (lv_cf (wh_udp w)) msg region (if rel then Reliable 0 else Plain) (fun _ _ => None) (good_inv _ (sn_good _ _ SN)) HO) as O.
    destruct (cstep (we_env e) (lv_cf (wh_udp w)) (Spawn (Send msg region (if rel then Reliable 0 else Plain) (fun _ _ => None)))) as [cf1 ms].
    cbn [fst snd] in E, O. destruct p as [|b p]; [discriminate|]. injection E as <- E.
    rewrite app_nil_r in E.
    assert (In (MPut x) ms) as I.
    { apply seen_put. assert (In (WV (VSeen (Net (Attempted x)))) (p ++ WV (VSeen (Net (Attempted x))) :: q)) as X by (apply in_or_app; right; now left).
      rewrite <- E in X. apply in_map_iff in X as (y & Y & X). injection Y as ->. apply in_map_iff in X as (z & Z & X). injection Z as ->. exact X. }
    destruct O as [O|(x0 & m & O & NM & KM)]; [now apply O in I|]. rewrite O in E, I. destruct I as [I|[]]. injection I as ->.
    assert (p = []) as -> by (cbn in E; destruct p as [|? p]; [reflexivity|cbn in E; injection E as _ E; destruct p; discriminate]).
    eexists _, msg, rel, q', m. split; [reflexivity|]. auto.
Qed.
