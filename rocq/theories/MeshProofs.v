(** Lemmas for C104: managers on a network are dispatchers on a network. *)
From Verif Require Import Lib SpecWhole WholeProofs LiveManagerProofs SpecCrowd CrowdProofs AnnouncedProofs SpecMesh.
From Verif Require Import SpecLayout SpecRoundTrip SpecGreenlets SpecCrowd SpecMesh.
Open Scope Z_scope.
Open Scope list_scope.

Lemma crowd_trans a b c : crowd_steps a b -> crowd_steps b c -> crowd_steps a c.
Proof. intros H K. induction K as [n|n1 n2 n3 K IH S]; [exact H|]. exact (cs_step _ _ _ (IH H) S). Qed.
Lemma may_mono l1 l2 x : may l1 x -> may (l1 ++ l2) x.
Proof.
  destruct x as [o|]; [|auto]. destruct o; cbn; auto. intros [H|(y & P)]; [auto|]. right. exists y. now apply put_out_mono.
Qed.
(** One of them makes several steps. *)
Lemma crowd_run before env after xs : forall cf log, Forall (may log) xs ->
  crowd_steps {| w_nodes := before ++ (env, cf) :: after; w_log := log |}
    {| w_nodes := before ++ (env, fst (crun env cf xs)) :: after; w_log := log ++ map (pair (List.length before)) (gtrace env cf xs) |}.
Proof.
  induction xs as [|x xs IH]; intros cf log F; cbn [crun gtrace].
  - cbn [fst map]. rewrite app_nil_r. constructor.
  - inversion F as [|? ? M F']; subst.
    pose proof (crowd_at (List.length before) before env cf after x log eq_refl M) as S1.
    destruct (cstep env cf x) as [cf1 ms] eqn:E. cbn [fst] in *.
    specialize (IH cf1 (log ++ map (pair (List.length before)) (gevents env cf x))).
    destruct (crun env cf1 xs) as [cf2 ms2] eqn:E2. cbn [fst] in *.
    rewrite map_app, app_assoc. eapply crowd_trans; [eapply cs_step; [constructor|exact S1]|]. apply IH.
    eapply Forall_impl; [|exact F']. intros y. apply may_mono.
Qed.

(** ** One manager *)
Definition wdoes (w : whole) (o : wop) : list sched :=
  match udp_ops w o with [v] => fst (vdoes (wh_udp w) v) | _ => [] end.
Lemma wstep_cf e w o : lv_cf (wh_udp (wstep e w o)) = fst (crun (we_env e) (lv_cf (wh_udp w)) (wdoes w o)).
Proof.
  assert (wh_udp (wstep e w o) = vrun (we_env e) (wh_udp w) (udp_ops w o)) as -> by (unfold wstep; destruct (we_queue e); reflexivity).
  assert (forall v o', lv_cf (vstep (we_env e) v o') = fst (crun (we_env e) (lv_cf v) (fst (vdoes v o')))) as V.
  { intros v o'. destruct o' as [| | | |k r order]; try reflexivity. cbn [vstep vdoes].
    destruct (nth_error (lv_udp v) k) as [p|]; [|reflexivity]. destruct (udp_step v k p r order) as [[[xs bs] q] p']. reflexivity. }
  unfold wdoes. destruct o as [| | |h|[[]|]| | |]; cbn [udp_ops vrun]; try apply V; reflexivity.
Qed.
Lemma seen_map i (es : list gevent) : of_dispatchers (map (pair i) (map WV (map VSeen es))) = map (pair i) es.
Proof. induction es as [|e es IH]; [reflexivity|]. cbn. unfold of_dispatchers in IH. now rewrite IH. Qed.
Lemma of_app l1 l2 : of_dispatchers (l1 ++ l2) = of_dispatchers l1 ++ of_dispatchers l2.
Proof. apply flat_map_app. Qed.
Lemma unseen i (l : list wobs) : (forall e, ~ In (WV (VSeen e)) l) -> of_dispatchers (map (pair i) l) = [].
Proof.
  induction l as [|o l IH]; intros H; [reflexivity|]. cbn. unfold of_dispatchers in IH. rewrite IH by (intros e I; exact (H e (or_intror I))).
  destruct o as [[| | | |e]| | |]; try reflexivity. exfalso. exact (H e (or_introl eq_refl)).
Qed.
Lemma vobserved_seen env v o i : of_dispatchers (map (pair i) (map WV (vobserved env v o))) = map (pair i) (gtrace env (lv_cf v) (fst (vdoes v o))).
Proof.
  unfold vobserved. rewrite !map_app, !of_app, seen_map.
  rewrite !unseen; [reflexivity| |]; intros e I; apply in_map_iff in I as (x & E & I).
  - apply in_map_iff in I as (b & <- & _). discriminate.
  - injection E as ->. destruct o; cbn in I; intuition discriminate.
Qed.
Lemma unseen_end i (a b c : list wobs) : (forall e, ~ In (WV (VSeen e)) b) -> (forall e, ~ In (WV (VSeen e)) c) ->
  of_dispatchers (map (pair i) (a ++ b ++ c)) = of_dispatchers (map (pair i) a).
Proof. intros B C. now rewrite !map_app, !of_app, (unseen i b B), (unseen i c C), !app_nil_r. Qed.
Lemma wobserved_seen e w o i : of_dispatchers (map (pair i) (wobserved e w o)) = map (pair i) (gtrace (we_env e) (lv_cf (wh_udp w)) (wdoes w o)).
Proof.
  assert (forall ops, of_dispatchers (map (pair i) (map WV (vhistory (we_env e) (wh_udp w) ops) ++
     match we_queue e with Some q => map WN (nhistory q (w_queue w) (queue_ops o)) | None => [] end ++
     match o, stop_raises e with WStop, Some x => [WRaised x] | _, _ => [] end)) =
     of_dispatchers (map (pair i) (map WV (vhistory (we_env e) (wh_udp w) ops)))) as K.
  { intros ops. apply unseen_end.
    - intros x I. destruct (we_queue e); [|contradiction]. apply in_map_iff in I as (y & E & _). discriminate.
    - intros x I. destruct o; try contradiction. destruct (stop_raises e); [destruct I as [I|[]]; discriminate|contradiction]. }
  unfold wdoes. destruct o as [| | |h|x| | |]; cbn [wobserved].
  4: { cbn [udp_ops vdoes fst gtrace cstep]. reflexivity. }
  4: { rewrite K. destruct x as [[]|]; cbn [udp_ops vhistory map]; try reflexivity; rewrite app_nil_r; apply vobserved_seen. }
  all: rewrite K; cbn [udp_ops vhistory map]; try reflexivity; rewrite app_nil_r; apply vobserved_seen.
Qed.
Lemma wdoes_may log w o : may_happen log o -> Forall (may (of_dispatchers log)) (wdoes w o).
Proof.
  intros M. unfold wdoes. destruct o as [| | |h|x|k r order| |]; cbn [udp_ops]; try (repeat constructor; fail).
  - cbn [may_happen] in M. destruct x as [[]|]; cbn [vdoes fst]; first [apply Forall_nil | apply Forall_cons; [exact M|apply Forall_nil]].
  - cbn [vdoes]. destruct (nth_error (lv_udp (wh_udp w)) k) as [p|]; [|constructor].
    unfold udp_step. destruct p; cbn [fst]; try constructor.
    + destruct r as [|a data]; cbn [fst]; constructor.
      * cbn. left. lia.
      * constructor.
      * exact I.
      * constructor; [|constructor]. cbn in M |- *. right. destruct M as (x & P). eauto.
    + destruct (returned _ t) as [[[]|]|]; [|constructor|constructor]. destruct (has_unacked _); repeat constructor.
    + destruct (returned _ t) as [[[]|]|]; constructor.
    + destruct (lv_queue (wh_udp w)) as [|[m b] q]; [constructor|]. repeat constructor.
    + destruct (returned _ t) as [[[]|]|]; constructor.
Qed.

(** ** All of them *)
Definition dispatcher_of (p : wenv * whole) : denv * config := (we_env (fst p), lv_cf (wh_udp (snd p))).
Definition dispatchers (n : mesh) : crowd := {| w_nodes := map dispatcher_of (me_nodes n); w_log := of_dispatchers (me_log n) |}.
Lemma mesh_step_crowd n n' : mesh_step n n' -> crowd_steps (dispatchers n) (dispatchers n').
Proof.
  intros S. destruct S as [i before e w after o done log <- M]. unfold dispatchers. cbn [me_nodes me_log].
  rewrite !map_app. cbn [map]. unfold dispatcher_of at 2 5. cbn [fst snd]. rewrite wstep_cf, of_app, wobserved_seen.
  rewrite <- (map_length dispatcher_of before). apply crowd_run. now apply wdoes_may.
Qed.
Lemma mesh_steps_crowd n n' : mesh_steps n n' -> crowd_steps (dispatchers n) (dispatchers n').
Proof. intros H. induction H as [n|n1 n2 n3 H IH S]; [constructor|]. exact (crowd_trans _ _ _ IH (mesh_step_crowd _ _ S)). Qed.
Lemma mesh_start_crowd es : crowd_steps (crowd_start (map we_env es)) (dispatchers (mesh_start es)).
Proof.
  unfold dispatchers, crowd_start. cbn [mesh_start me_nodes me_log of_dispatchers flat_map]. rewrite !map_map. 
  assert (forall before, crowd_steps {| w_nodes := before ++ map (fun e => (we_env e, idle init_state)) es; w_log := [] |}
    {| w_nodes := before ++ map (fun e => dispatcher_of (e, w_init e)) es; w_log := [] |}) as K; [|exact (K [])].
  induction es as [|e es IH]; intros before; [constructor|]. cbn [map].
  pose proof (crowd_run before (we_env e) (map (fun e => (we_env e, idle init_state)) es) (v_objects (we_host e)) (idle init_state) []) as R.
  eapply crowd_trans; [apply R; repeat constructor|].
  specialize (IH (before ++ [dispatcher_of (e, w_init e)])). rewrite <- !app_assoc in IH. exact IH.
Qed.
Lemma mesh_crowd es n : mesh_steps (mesh_start es) n -> crowd_steps (crowd_start (map we_env es)) (dispatchers n).
Proof. intros H. exact (crowd_trans _ _ _ (mesh_start_crowd es) (mesh_steps_crowd _ _ H)). Qed.
