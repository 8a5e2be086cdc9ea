(** On the network of C105 only subscribers end coroutines: C107.  Vocabulary:
    SpecMeshEnds.v (with SpecTidy.v, SpecEnds.v). *)
From Verif Require Import MeshEnds MeshEndsMore TidyFinal.
From Verif Require Export SpecMeshEnds.
From Verif Require Import Lib Samples SpecFloats RoundTripProofs Prop_RoundTrip Prop_Dispatch Prop_Network Prop_Crowd Prop_Mesh Prop_Tidy WholeProofs LiveManagerProofs MeshSource.
From Verif Require Import SpecGreenlets SpecCrowd SpecLayout SpecRoundTrip SpecMesh SpecTidy SpecEnds SpecMeshEnds.
Open Scope Z_scope.
Open Scope list_scope.

(** If a coroutine has ended with an exception, it was receiving a datagram, and a
    subscriber that was being called raised it: no datagram that was put out, however
    often and wherever it arrives, no send and no acknowledgement ends a coroutine. *)
Theorem C107_only_subscribers pv ts ta es n i e w k x : mesh_steps (mesh_start es) n -> shares pv ts ta es -> well_used ts n -> in_turn es n -> sound_use ts es n ->
  nth_error (me_nodes n) i = Some (e, w) -> nth_error (lv_udp (wh_udp w)) k = Some (VEnd (Some x)) ->
  exists xs before b data, lv_cf (wh_udp w) = after (we_env e) xs /\ v_seen (udp_part (of_manager i (me_log n))) = SpecGreenlets.history (we_env e) xs /\
    calls_of k (udp_part (of_manager i (me_log n))) = before ++ [b] /\ bg_call b = CReceive data /\
    e_handle (we_env e) = true /\ a_subscriber_raised (we_env e) xs (bg_thread b) x.
Proof.
  intros S SH WU T SU N V. destruct (only_subscribers pv ts ta es n i e w k x S SH WU T SU N V) as (before & b & data & C & B & H & R).
  exists (w_sched e (of_manager i (me_done n))), before, b, data. destruct (mesh_each es n S) as [_ K]. destruct (K i e w N) as [-> KL].
  destruct (wlife_udp e (of_manager i (me_done n))) as [WU' WL].
  split; [rewrite WU'; apply vafter_cf|]. split; [|auto]. rewrite KL, WL. apply vlife_seen.
Qed.
Print Assumptions C107_only_subscribers.
(** So, while subscribers raise nothing but KeyError, no coroutine ends but by
    stop_monitors, *)
Theorem C107_none_die pv ts ta es n i e w : mesh_steps (mesh_start es) n -> shares pv ts ta es -> well_used ts n -> in_turn es n -> sound_use ts es n ->
  subscribers_return n -> nth_error (me_nodes n) i = Some (e, w) -> none_died w.
Proof. exact (nobody_dies pv ts ta es n i e w). Qed.
Print Assumptions C107_none_die.
(** and what a manager has received is acknowledged before anything is sent from its
    queue: the numbers received until then are those packed into PacketAcks, in the
    same order, as often. *)
Theorem C107_settled pv ts ta es n i e past b future msg rel a : mesh_steps (mesh_start es) n -> shares pv ts ta es -> well_used ts n -> in_turn es n -> sound_use ts es n ->
  subscribers_return n -> nth_error es i = Some e -> me_log n = past ++ (i, WV (VBegun b)) :: future -> bg_call b = CSend msg rel ->
  all_queued a (v_seen (udp_part (of_manager i past))) = all_packed a (v_seen (udp_part (of_manager i past))).
Proof.
  intros S SH WU T SU SR N L B. destruct (mesh_each es n S) as [EE K].
  rewrite <- EE, nth_error_map in N. destruct (nth_error (me_nodes n) i) as [[e' w]|] eqn:NI; [|discriminate N]. cbn in N. injection N as ->.
  pose proof (nobody_dies pv ts ta es n i e w S SH WU T SU SR NI) as ND. destruct (K i e w NI) as [KW KL]. rewrite KW in ND.
  assert (nth_error es i = Some e) as NE by (rewrite <- EE, nth_error_map, NI; reflexivity).
  assert (e_handle_out (we_env e) = false) as HO by (exact (proj1 (Forall_forall _ _) (MeshFinal.silent_out _ _ _ (proj1 SH)) e (nth_error_In _ _ NE))).
  rewrite L in KL. unfold of_manager in KL. rewrite flat_map_app in KL. cbn [flat_map fst snd] in KL. rewrite Nat.eqb_refl in KL. symmetry in KL.
  refine (C105_settled e _ _ b _ msg rel a HO _ (T i e NE) ND KL B).
  apply Forall_forall. intros o I. apply of_manager_in in I. destruct (proj1 WU _ I) as [LA _]. cbn [snd] in LA.
  destruct o as [| | | |[[]|]| | |]; try exact LA; exact Logic.I.
Qed.
Print Assumptions C107_settled.

(** ** A case *)
(** C105's [mz]: a Ping arrives, its acknowledgement leaves, then the answer. *)
Definition sound_check (o : wop) : Prop := match o with WUser (Spawn (NewMsg m)) => m = s_msg2 \/ m = cw_msg2 | _ => True end.
Lemma mz_sound n : (me_done n = mz_ops \/ me_done n = mx_sends ++ [mx_in0; (0%nat, WUser (Resume 4 (Some (Raised 3)))); mx_go 0]) -> sound_use (d_ack :: s_ts) mx_es n.
Proof.
  intros E. split; [|split].
  - assert (Forall (fun p => sound_check (snd p)) (me_done n)) as F.
    { destruct E as [-> | ->]; unfold mz_ops, mx_sends; cbn [app repeat]; repeat (constructor; [cbn; auto|]); constructor. }
    intros p I. rewrite Forall_forall in F. specialize (F p I). destruct (snd p) as [| | | |[[]|]| | |]; try exact Logic.I.
    cbn in F |- *. destruct F as [-> | ->].
    + split; [vm_compute; reflexivity|]. intros t IT NM. right.
      assert (t = s_ping) as ->.
      { destruct IT as [<-|[<-|[<-|IT]]]; try reflexivity; try discriminate NM. cbn in IT. repeat destruct IT as [<-|IT]; try discriminate NM; destruct IT. }
      eexists. split; [left; reflexivity|]. vm_compute. discriminate.
    + split; [vm_compute; reflexivity|]. intros t IT NM. right.
      assert (t = s_ping) as ->.
      { destruct IT as [<-|[<-|[<-|IT]]]; try reflexivity; try discriminate NM. cbn in IT. repeat destruct IT as [<-|IT]; try discriminate NM; destruct IT. }
      eexists. split; [left; reflexivity|]. vm_compute. discriminate.
  - intros e name I. assert (e_des_xml (we_env e) = []) as -> by (destruct I as [<-|[<-|[]]]; reflexivity). discriminate.
  - intros i e N. destruct i as [|[|i]]; [| |destruct i; discriminate]; injection N as <-;
      (destruct E as [-> | ->]; vm_compute; repeat split; try discriminate).
Qed.
Lemma mz_return : subscribers_return mz.
Proof.
  assert (Forall (fun p => match snd p with WUser (Resume _ (Some _)) => False | _ => True end) (me_done mz)) as F.
  { assert (me_done mz = mz_ops) as -> by (vm_compute; reflexivity). unfold mz_ops, mx_sends. cbn [app repeat]. repeat (constructor; [exact Logic.I|]). constructor. }
  intros i t x I. rewrite Forall_forall in F. destruct (F _ I).
Qed.
Example C107_settled_ex : exists e w, nth_error (me_nodes mz) 0 = Some (e, w) /\ none_died w /\
  exists past b future, me_log mz = past ++ (0%nat, WV (VBegun b)) :: future /\ bg_call b = CSend 0 false /\
    all_queued d_b (v_seen (udp_part (of_manager 0 past))) = [1] /\ all_packed d_b (v_seen (udp_part (of_manager 0 past))) = [1].
Proof.
  assert (exists e w, nth_error (me_nodes mz) 0 = Some (e, w)) as (e & w & N).
  { let v := eval vm_compute in (map fst (me_nodes mz)) in assert (L : map fst (me_nodes mz) = v) by (vm_compute; reflexivity).
    destruct (me_nodes mz) as [|[e w] l]; [discriminate L|]. exists e, w. reflexivity. }
  assert (me_done mz = mz_ops) as DN by (vm_compute; reflexivity).
  pose proof (mz_sound mz (or_introl DN)) as SU. pose proof (mx_in_turn mz (or_introl DN)) as T.
  exists e, w. split; [exact N|]. split; [exact (C107_none_die _ _ _ _ _ _ _ _ mz_steps mx_shares mz_used T SU mz_return N)|].
  let v := eval vm_compute in (me_log mz) in assert (L : me_log mz = v) by (vm_compute; reflexivity).
  match type of L with _ = ?l =>
    let p := eval vm_compute in (firstn (List.length l - 2) l) in
    let r := eval vm_compute in (skipn (List.length l - 2) l) in
    change (me_log mz = p ++ r) in L; set (past := p) in L;
    match r with (_, WV (VBegun ?b0)) :: ?f => exists past, b0, f end end.
  split; [exact L|]. split; [reflexivity|].
  assert (all_queued d_b (v_seen (udp_part (of_manager 0 past))) = [1]) as Q by (vm_compute; reflexivity).
  split; [exact Q|]. rewrite <- Q. symmetry.
  eapply (C107_settled _ _ _ _ _ 0%nat _ past _ _ _ _ d_b mz_steps mx_shares mz_used T SU mz_return); [reflexivity|exact L|reflexivity].
Qed.
(** A subscriber raises. *)
Definition my := fold_left mesh_do (mx_sends ++ [mx_in0; (0%nat, WUser (Resume 4 (Some (Raised 3)))); mx_go 0]) (mesh_start mx_es).
Lemma my_steps : mesh_steps (mesh_start mx_es) my.
Proof.
  apply mesh_do_steps; [constructor|]. vm_compute. repeat (split; [exact I|]).
  split; [eexists; exists 1%nat; split; [left; reflexivity|reflexivity]|]. repeat (split; [exact I|]). exact I.
Qed.
Lemma my_used : well_used (d_ack :: s_ts) my.
Proof.
  apply well_used_check; [|vm_compute; reflexivity].
  assert (me_done my = mx_sends ++ [mx_in0; (0%nat, WUser (Resume 4 (Some (Raised 3)))); mx_go 0]) as -> by (vm_compute; reflexivity).
  unfold mx_sends. cbn [app repeat]. repeat apply Forall_cons; try (left; reflexivity).
  right. exists s_msg2. split; [reflexivity|]. exists s_ping. split; [right; now left|]. split; [exact s_usable|]. split; [reflexivity|exact s_conforming2].
Qed.
Lemma my_turn : in_turn mx_es my.
Proof.
  intros i e N. destruct i as [|[|i]]; [| |destruct i; discriminate]; injection N as <-; vm_compute; repeat split; try discriminate; constructor.
Qed.
Example C107_ex_raises : exists e w xs b, nth_error (me_nodes my) 0 = Some (e, w) /\ lv_udp (wh_udp w) = [VEnd (Some (Raised 3))] /\
  calls_of 0 (udp_part (of_manager 0 (me_log my))) = [b] /\ a_subscriber_raised (we_env e) xs (bg_thread b) (Raised 3).
Proof.
  assert (map (fun p => lv_udp (wh_udp (snd p))) (me_nodes my) = [[VEnd (Some (Raised 3))]; [VSend 5]]) as L by (vm_compute; reflexivity).
  destruct (nth_error (me_nodes my) 0) as [[e w]|] eqn:N; [|destruct (me_nodes my); discriminate].
  assert (lv_udp (wh_udp w) = [VEnd (Some (Raised 3))]) as V.
  { apply (map_nth_error (fun p => lv_udp (wh_udp (snd p)))) in N. rewrite L in N. cbn in N. congruence. }
  assert (me_done my = mx_sends ++ [mx_in0; (0%nat, WUser (Resume 4 (Some (Raised 3)))); mx_go 0]) as DN by (vm_compute; reflexivity).
  destruct (C107_only_subscribers _ _ _ _ _ 0%nat e w 0%nat (Raised 3) my_steps mx_shares my_used my_turn (mz_sound my (or_intror DN)) N) as (xs & before & b & data & _ & _ & C & _ & _ & R).
  { rewrite V. reflexivity. }
  exists e, w, xs, b. split; [reflexivity|]. split; [exact V|]. split; [|exact R].
  assert (List.length (calls_of 0 (udp_part (of_manager 0 (me_log my)))) = 1%nat) as LN by (vm_compute; reflexivity).
  rewrite C in LN |- *. rewrite app_length in LN. cbn in LN. destruct before; [reflexivity|cbn in LN; lia].
Qed.
