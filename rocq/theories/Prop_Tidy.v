(** C105: one coroutine at a time announces no acks.  Vocabulary: SpecTidy.v (with
    SpecMesh.v, SpecWhole.v). *)
From Verif Require Import TidyFinal MeshFinal.
From Verif Require Export SpecTidy.
From Verif Require Import Lib Samples SpecFloats RoundTripProofs Prop_RoundTrip Prop_Dispatch Prop_Network Prop_Crowd Prop_Mesh.
From Verif Require Import SpecGreenlets SpecCrowd SpecLayout SpecRoundTrip SpecMesh SpecTidy.
Open Scope Z_scope.
Open Scope list_scope.

(** A manager that is started again only when its coroutine has ended, and whose user
    leaves sending, receiving and acknowledging to it, puts out no packet that
    announces acks: C104's case of lost datagrams does not arise. *)
Theorem C105_never_announces e ops x : e_handle_out (we_env e) = false -> Forall leaves_all ops -> w_started_in_turn e (w_init e) ops ->
  In (WV (VSeen (Net (Attempted x)))) (wlife e ops) -> ~ announces_acks x.
Proof. exact (life_quiet e ops x). Qed.
Print Assumptions C105_never_announces.
(** The reason: when the coroutine takes a message from the queue, every number
    received so far has been packed into a PacketAck, in the order of arrival, once
    per arrival - unless a coroutine was ended by an exception. *)
Theorem C105_settled e ops past b future msg rel a : e_handle_out (we_env e) = false -> Forall leaves_to_manager ops -> w_started_in_turn e (w_init e) ops ->
  none_died (wafter e ops) -> wlife e ops = past ++ WV (VBegun b) :: future -> bg_call b = CSend msg rel ->
  all_queued a (v_seen (udp_part past)) = all_packed a (v_seen (udp_part past)).
Proof. exact (life_settled e ops past b future msg rel a). Qed.
Print Assumptions C105_settled.
(** The same on a network, whatever is lost, delayed, repeated or misdirected there. *)
Theorem C105_mesh pv ts ta es n i x : mesh_steps (mesh_start es) n -> shares pv ts ta es -> (forall p, In p (me_done n) -> leaves_all (snd p)) -> in_turn es n ->
  In (i, WV (VSeen (Net (Attempted x)))) (me_log n) -> ~ announces_acks x.
Proof. intros S (ST & _) LA T. exact (mesh_quiet es n i x S (silent_out _ _ _ ST) LA T). Qed.
Print Assumptions C105_mesh.
(** So every datagram that was put out and comes out of recvfrom is accepted, apart
    from the table, deferred parsing, trusted circuits and empty Variable blocks. *)
Theorem C105_delivered pv ts ta es n past i x d future j e w k a order t : mesh_steps (mesh_start es) n -> shares pv ts ta es -> well_used ts n -> in_turn es n ->
  me_log n = past ++ (i, WV (VSeen (Net (Attempted x)))) :: future -> at_data x = Some d ->
  In t ts -> m_name (at_msg x) = t_name t -> t_blocks t = [] \/ (exists tb, In tb (t_blocks t) /\ instances (at_msg x) (tb_name tb) <> []) ->
  nth_error (me_nodes n) j = Some (e, w) -> in_recvfrom w k -> lets_in e w a t ->
  exists y rest, wobserved e w (WUdp k (RData a d) order) =
      WV (VBegun (reads w k d)) :: WV (VSeen (Net (Accepted a y))) ::
      WV (VSeen (Queued a (if Z.testbit (m_flags (at_msg x)) reliable_bit then [m_id (at_msg x)] else []))) :: rest /\
    a_copy t (at_msg x) y /\ m_acks y = [].
Proof.
  intros S SH WU T L AD IT NM NE NJ IR LI. apply (C104_delivered pv ts ta es n past i x d future j e w k a order t); auto.
  apply (C105_mesh pv ts ta es n i x S SH (fun p H => proj1 (proj1 WU p H)) T). rewrite L. apply in_or_app. right. now left.
Qed.
Print Assumptions C105_delivered.
(** And what subscribers are called with brings no acks: it is a copy of what was
    sent, in full. *)
Theorem C105_called pv ts ta es n past j s y future : mesh_steps (mesh_start es) n -> shares pv ts ta es -> well_used ts n -> in_turn es n ->
  me_log n = past ++ (j, WV (VSeen (Called s y))) :: future ->
  exists x d t, put_out (of_dispatchers past) x d /\ In t ts /\ m_name (at_msg x) = t_name t /\ a_copy t (at_msg x) y /\ m_acks y = [] /\
    ((exists ids, acknowledges (at_msg x) ids /\ Forall (a_number (of_dispatchers past)) ids) \/ enqueued_message n past (at_msg x)).
Proof. exact (mesh_called_quiet pv ts ta es n past j s y future). Qed.
Print Assumptions C105_called.

(** ** A case *)
(** As in C104's [mx]; the subscriber of manager 0 enqueues an answer, which leaves
    after the acknowledgement. *)
Definition mz_ops : list (nat * wop) :=
  mx_sends ++ [mx_in0; (0, WUser (Spawn (NewMsg cw_msg2))); (0, WEnqueue 0 false false)]%nat ++ [mx_resume 0 4; mx_go 0] ++ repeat (mx_resume 0 6) 4 ++ repeat (mx_go 0) 2.
Definition mz := fold_left mesh_do mz_ops (mesh_start mx_es).
Lemma mx_in_turn n : me_done n = mz_ops \/ me_done n = mx_sends ++ mx_rest \/ me_done n = mx_sends -> in_turn mx_es n.
Proof.
  intros H i e N. destruct i as [|[|i]]; [| |destruct i; discriminate]; injection N as <-;
    (destruct H as [-> |[-> | ->]]; vm_compute; repeat split; try discriminate; constructor).
Qed.
Lemma mz_steps : mesh_steps (mesh_start mx_es) mz.
Proof.
  apply mesh_do_steps; [constructor|]. vm_compute. repeat (split; [exact I|]).
  split; [eexists; exists 1%nat; split; [left; reflexivity|reflexivity]|]. repeat (split; [exact I|]). exact I.
Qed.
Lemma mz_used : well_used (d_ack :: s_ts) mz.
Proof.
  apply well_used_check; [|vm_compute; reflexivity].
  assert (me_done mz = mz_ops) as -> by (vm_compute; reflexivity).
  unfold mz_ops, mx_sends. cbn [app repeat]. repeat apply Forall_cons; try (left; reflexivity).
  - right. exists s_msg2. split; [reflexivity|]. exists s_ping. split; [right; now left|]. split; [exact s_usable|]. split; [reflexivity|exact s_conforming2].
  - right. exists cw_msg2. split; [reflexivity|]. exists s_ping. split; [right; now left|]. split; [exact s_usable|]. split; [reflexivity|exact cw_conforms2].
Qed.
Definition mz_mine : list wop := of_manager 0 mz_ops.
Lemma mz_mine_turn : w_started_in_turn mx_e0 (w_init mx_e0) mz_mine.
Proof. vm_compute; repeat split; try discriminate; constructor. Qed.
(** Manager 0 by itself: one number received, packed, and then the answer, which
    announces nothing. *)
Example C105_settled_ex : exists past b x, wlife mx_e0 mz_mine = past ++ [WV (VBegun b); WV (VSeen (Net (Attempted x)))] /\
  e_handle_out (we_env mx_e0) = false /\ Forall leaves_all mz_mine /\ w_started_in_turn mx_e0 (w_init mx_e0) mz_mine /\ none_died (wafter mx_e0 mz_mine) /\
  bg_call b = CSend 0 false /\ m_name (at_msg x) = "Ping"%string /\ at_data x <> None /\ ~ announces_acks x /\
  all_queued d_b (v_seen (udp_part past)) = [1] /\ all_packed d_b (v_seen (udp_part past)) = [1].
Proof.
  let v := eval vm_compute in (wlife mx_e0 mz_mine) in assert (L : wlife mx_e0 mz_mine = v) by (vm_compute; reflexivity).
  match type of L with _ = ?a :: ?b :: ?c :: ?d :: ?e :: ?f :: ?g :: ?h :: ?i :: ?j :: ?k :: WV (VBegun ?y) :: WV (VSeen (Net (Attempted ?x))) :: [] =>
    change (wlife mx_e0 mz_mine = [a; b; c; d; e; f; g; h; i; j; k] ++ [WV (VBegun y); WV (VSeen (Net (Attempted x)))]) in L;
    set (x1 := x) in L; set (y1 := y) in L; set (past := [a; b; c; d; e; f; g; h; i; j; k]) in L end.
  assert (FA : Forall leaves_all mz_mine) by (vm_compute; repeat (constructor; [exact I|]); constructor).
  pose proof mz_mine_turn as T.
  assert (ND : none_died (wafter mx_e0 mz_mine)).
  { intros x H. assert (lv_udp (wh_udp (wafter mx_e0 mz_mine)) = [VSend 7]) as E by (vm_compute; reflexivity). rewrite E in H. clear - H. destruct H as [H|[]]. discriminate H. }
  assert (~ announces_acks x1) as NA.
  { apply (C105_never_announces mx_e0 mz_mine x1 eq_refl FA T). rewrite L. apply in_or_app. right. right. now left. }
  pose proof (C105_settled mx_e0 mz_mine past y1 [WV (VSeen (Net (Attempted x1)))] 0 false d_b eq_refl) as ST.
  assert (Forall leaves_to_manager mz_mine) as FM by (vm_compute; repeat (constructor; [exact I|]); constructor).
  specialize (ST FM T ND L eq_refl).
  assert (all_queued d_b (v_seen (udp_part past)) = [1]) as AQ by (vm_compute; reflexivity).
  exists past, y1, x1. split; [exact L|]. split; [reflexivity|]. split; [exact FA|]. split; [exact T|]. split; [exact ND|]. split; [reflexivity|]. split; [reflexivity|].
  split; [intros X; discriminate X|]. split; [exact NA|]. split; [exact AQ|]. rewrite <- ST. exact AQ.
Qed.
(** On the network: the Ping gets to manager 0 although nothing is said of what it
    announces. *)
Example C105_delivered_ex : exists past x future y rest, me_log mx_0 = past ++ (1%nat, WV (VSeen (Net (Attempted x)))) :: future /\ at_data x = Some cw_first /\
  wobserved mx_e0 (mx_node mx_0 0) (WUdp 0 (RData d_b cw_first) []) =
    WV (VBegun (reads (mx_node mx_0 0) 0 cw_first)) :: WV (VSeen (Net (Accepted d_b y))) :: WV (VSeen (Queued d_b [1])) :: rest /\
  a_copy s_ping (at_msg x) y /\ m_acks y = [].
Proof.
  let v := eval vm_compute in (me_log mx_0) in assert (L : me_log mx_0 = v) by (vm_compute; reflexivity).
  match type of L with _ = ?a :: ?b :: ?c :: ?d :: ?e :: (_, WV (VSeen (Net (Attempted ?x)))) :: ?r =>
    change (me_log mx_0 = [a; b; c; d; e] ++ (1%nat, WV (VSeen (Net (Attempted x)))) :: r) in L; set (x1 := x) in L; set (past := [a; b; c; d; e]) in L; set (fut := r) in L end.
  assert (N : nth_error (me_nodes mx_0) 0 = Some (mx_e0, mx_node mx_0 0)) by (vm_compute; reflexivity).
  assert (IR : in_recvfrom (mx_node mx_0 0) 0) by (vm_compute; reflexivity).
  assert (T : in_turn mx_es mx_0) by (apply mx_in_turn; right; right; vm_compute; reflexivity).
  destruct (C105_delivered _ _ _ _ _ _ _ x1 cw_first _ 0 mx_e0 (mx_node mx_0 0) 0 d_b [] s_ping mx_0_steps mx_shares mx_0_used T L eq_refl) as (y & rest & G & C & A).
  - right. now left.
  - reflexivity.
  - right. exists s_a. split; [now left|discriminate].
  - exact N.
  - exact IR.
  - split; [vm_compute; reflexivity|]. split; [exact I|left; vm_compute; reflexivity].
  - exists past, x1, fut, y, rest. auto 8.
Qed.
(** Both subscribers of [mx] and the one of [mz] get copies in full; what [mz] puts
    out announces nothing. *)
Example C105_mesh_ex : (exists i x, In (i, WV (VSeen (Net (Attempted x)))) (me_log mz) /\ m_name (at_msg x) = "Ping"%string /\ i = 0%nat) /\
  (forall i x, In (i, WV (VSeen (Net (Attempted x)))) (me_log mz) -> ~ announces_acks x) /\
  forall j s y, In (j, WV (VSeen (Called s y))) (me_log mx) -> m_acks y = [].
Proof.
  assert (in_turn mx_es mz) as T1 by (apply mx_in_turn; left; vm_compute; reflexivity).
  assert (in_turn mx_es mx) as T2 by (apply mx_in_turn; right; left; vm_compute; reflexivity).
  split; [|split].
  - let v := eval vm_compute in (me_log mz) in assert (L : me_log mz = v) by (vm_compute; reflexivity). rewrite L.
    exists 0%nat. eexists. split; [do 18 right; left; reflexivity|]. split; reflexivity.
  - intros i x. exact (C105_mesh _ _ _ _ _ i x mz_steps mx_shares (fun p H => proj1 (proj1 mz_used p H)) T1).
  - intros j s y H. destruct (in_split _ _ H) as (past & future & E).
    destruct (C105_called _ _ _ _ _ _ _ _ _ _ mx_steps mx_shares mx_well_used T2 E) as (_ & _ & _ & _ & _ & _ & _ & A & _). exact A.
Qed.
(** The condition is needed: in C104's [my] manager 0 is started while its coroutine
    is still waiting, and puts out a packet that announces acks. *)
Example C105_needs_turn_ex : (exists x, In (0%nat, WV (VSeen (Net (Attempted x)))) (me_log my) /\ announces_acks x) /\
  (forall p, In p (me_done my) -> leaves_all (snd p)) /\ ~ in_turn mx_es my.
Proof.
  destruct C104_lost_ex as (past & x & future & err & L & _ & _ & _ & AA & _).
  assert (In (0%nat, WV (VSeen (Net (Attempted x)))) (me_log my)) as H by (rewrite L; apply in_or_app; right; now left).
  assert (forall p, In p (me_done my) -> leaves_all (snd p)) as LA by exact (fun p H => proj1 (proj1 my_used p H)).
  split; [exists x; split; [exact H|exact AA]|]. split; [exact LA|]. intros T. exact (C105_mesh _ _ _ _ _ _ x my_steps mx_shares LA T H AA).
Qed.
