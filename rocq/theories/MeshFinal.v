(** The last lemmas for C104. *)
From Verif Require Import Lib SpecWhole WholeProofs LiveManagerProofs SpecMessages MessageProofs DispatchProofs DispatchMore GreenletProofs GreenletAcks GreenletMore CopiesProofs RoundTripProofs Prop_RoundTrip Prop_Whole.
From Verif Require Import SpecCrowd CrowdProofs AnnouncedProofs Prop_Crowd SpecMesh MeshProofs MeshMore MeshSource MeshSaga MeshHosts.
From Verif Require Import SpecLayout SpecFloats SpecRoundTrip SpecGreenlets SpecCrowd SpecMesh.
Open Scope Z_scope.
Open Scope list_scope.

(** ** What subscribers get *)
Lemma in_of p i v : In (i, v) (of_dispatchers p) -> In (i, WV (VSeen v)) p.
Proof.
  unfold of_dispatchers. intros H. apply in_flat_map in H as ([j o] & I & H). destruct o as [[]| | |]; try contradiction.
  destruct H as [H|[]]. injection H as <- <-. exact I.
Qed.
Lemma mesh_source es n past i x future : mesh_steps (mesh_start es) n -> Forall (fun e => e_handle_out (we_env e) = false) es ->
  (forall p, In p (me_done n) -> leaves_all (snd p)) -> me_log n = past ++ (i, WV (VSeen (Net (Attempted x)))) :: future ->
  (exists p a ids, of_dispatchers past = p ++ [(i, Packing a ids)] /\ acknowledges (at_msg x) ids) \/
  (exists past' b msg rel now m, past = past' ++ [(i, WV (VBegun b))] /\ bg_call b = CSend msg rel /\
     In (i, WV (VEnqueued msg rel now)) past' /\ message_of n i msg = Some m /\ m_name (at_msg x) = m_name m /\ m_blocks (at_msg x) = m_blocks m).
Proof.
  intros S HO LA L. destruct (sg_source _ (mesh_saga es n S HO LA) _ _ _ _ L) as [A|(past' & b & msg & rel & now & m & A & B & C & D & E)]; [now left|right].
  unfold key in E. injection E as E1 E2. exists past', b, msg, rel, now, m. auto 8.
Qed.
Lemma silent_out pv ts es : same_templates pv ts (map we_env es) -> Forall (fun e => e_handle_out (we_env e) = false) es.
Proof.
  intros ST. unfold same_templates in ST. rewrite Forall_map in ST. eapply Forall_impl; [|exact ST]. intros e (_ & _ & H). exact H.
Qed.
Lemma mesh_what pv ts ta es n past x d : mesh_steps (mesh_start es) n -> same_templates pv ts (map we_env es) -> 
  (forall p, In p (me_done n) -> leaves_all (snd p)) -> (exists future, me_log n = past ++ future) -> In ta ts -> 
  put_out (of_dispatchers past) x d ->
  (exists ids, acknowledges (at_msg x) ids /\ Forall (a_number (of_dispatchers past)) ids) \/ enqueued_message n past (at_msg x).
Proof.
  intros S ST LA (future & L) _ (i & I & AD). apply in_of in I. destruct (in_split _ _ I) as (p & q & EP).
  assert (L' : me_log n = p ++ (i, WV (VSeen (Net (Attempted x)))) :: (q ++ future)) by (rewrite L, EP, <- app_assoc; reflexivity).
  destruct (mesh_source es n _ _ _ _ S (silent_out _ _ _ ST) LA L') as [(p1 & a & ids & E & A)|(past' & b & msg & rel & now & m & E & B & C & D & F & G)].
  - left. exists ids. split; [exact A|]. 
    destruct (ta_expl _ _ (crowd_tale _ _ (mesh_crowd es n S)) p1 i (Packing a ids) (of_dispatchers ((i, WV (VSeen (Net (Attempted x)))) :: q ++ future))) as (env & _ & F & _).
    { unfold dispatchers. cbn [w_log]. rewrite L', of_app, E, <- app_assoc. reflexivity. }
    rewrite EP, of_app, E, <- app_assoc. eapply Forall_impl; [|exact F]. intros k. apply number_mono.
  - right. exists i, msg, rel, now, m. split; [rewrite EP, E, <- app_assoc; apply in_or_app; now left|]. auto.
Qed.
Lemma keep_names_all e : forall ops w, Forall leaves_all ops -> keep_names e w ops.
Proof.
  induction ops as [|o ops IH]; intros w F; [exact I|]. inversion F; subst. split; [|now apply IH].
  destruct o as [| | | |[[]|]| | |]; cbn in *; auto. contradiction.
Qed.
Lemma done_of (n : mesh) i (P : wop -> Prop) : (forall p, In p (me_done n) -> P (snd p)) -> Forall P (of_manager i (me_done n)).
Proof.
  intros H. rewrite Forall_forall. intros o I. unfold of_manager in I. apply in_flat_map in I as (p & I & J).
  destruct (Nat.eqb (fst p) i); [|contradiction]. destruct J as [<-|[]]. auto.
Qed.
Lemma mesh_node es n i : mesh_steps (mesh_start es) n -> (exists o, In (i, o) (me_log n)) -> exists e w, nth_error (me_nodes n) i = Some (e, w).
Proof.
  intros H (o & I). remember (mesh_start es) as n0. revert i o I. induction H as [n|n1 n2 n3 H IH S]; subst; intros i o I; [contradiction|].
  destruct S as [j before e w after o' done log L M]. cbn [me_nodes me_log] in *. apply in_app_or in I as [I|I].
  - destruct (IH eq_refl i o I) as (e1 & w1 & N). destruct (NetworkProofs.nth_middle _ _ _ _ _ N) as [[-> Q]|[NE Q]].
    + eexists _, _. apply NetworkProofs.nth_at.
    + eexists _, _. apply Q.
  - apply in_map_iff in I as (y & Y & _). injection Y as <- <-. eexists _, _. rewrite <- L. apply NetworkProofs.nth_at.
Qed.
Lemma mesh_called pv ts ta es n past j s w future : mesh_steps (mesh_start es) n -> same_templates pv ts (map we_env es) ->
  Forall sized ts -> unambiguous ts -> In ta ts -> packet_ack_template ta ->
  (forall p, In p (me_done n) -> leaves_all (snd p) /\ makes_conforming ts (snd p)) -> few_packets (me_log n) ->
  me_log n = past ++ (j, WV (VSeen (Called s w))) :: future ->
  In s (subscribed_to (m_name w) (of_manager j past)) /\
  exists x d t, put_out (of_dispatchers past) x d /\ In t ts /\ m_name (at_msg x) = t_name t /\ a_copy t (at_msg x) w /\ acks_from x d (m_acks w) /\
    ((exists ids, acknowledges (at_msg x) ids /\ Forall (a_number (of_dispatchers past)) ids) \/ enqueued_message n past (at_msg x)).
Proof.
  intros S ST SZ UN IN PT D FP L.
  assert (LA : forall p, In p (me_done n) -> leaves_all (snd p)) by (intros p I; exact (proj1 (D p I))). split.
  - destruct (mesh_node es n j S) as (e & w0 & N); [exists (WV (VSeen (Called s w))); rewrite L; apply in_or_app; right; now left|].
    destruct (mesh_each es n S) as [_ K]. destruct (K _ _ _ N) as [_ KL].
    rewrite L, of_manager_app in KL. change ((j, WV (VSeen (Called s w))) :: future) with (map (pair j) [WV (VSeen (Called s w))] ++ future) in KL.
    rewrite of_manager_app, of_manager_same in KL. cbn [app] in KL.
    eapply C100_called_udp; [|symmetry; exact KL]. apply keep_names_all. exact (done_of n j _ LA).
  - pose proof (mesh_conforming pv ts ta es n S ST IN PT D FP) as CU.
    assert (L' : w_log (dispatchers n) = of_dispatchers past ++ (j, Called s w) :: of_dispatchers future) by (unfold dispatchers; cbn [w_log]; rewrite L; apply of_cons).
    destruct (C103_subscribers pv ts ta _ _ _ _ _ _ _ (mesh_crowd es n S) ST SZ UN IN PT CU L') as (_ & x & d & t & PO & IT & NM & CP & AF).
    exists x, d, t. repeat (split; [assumption|]). eapply mesh_what; eauto.
Qed.
Lemma mesh_own_acks pv ts es n : mesh_steps (mesh_start es) n -> same_templates pv ts (map we_env es) ->
  (forall p, In p (me_done n) -> leaves_all (snd p)) -> enqueues_no_acks n -> only_own_acks (of_dispatchers (me_log n)).
Proof.
  intros S ST LA NA past i x d future E AD MN. destruct (of_split _ _ _ _ E) as (p & q & EL & <- & <-). cbn [fst snd] in EL.
  destruct (mesh_source es n _ _ _ _ S (silent_out _ _ _ ST) LA EL) as [A|(past' & b & msg & rel & now & m & E1 & B & C & D & F & G)]; [exact A|].
  exfalso. apply (NA i msg rel now m); [|exact D|congruence]. rewrite EL, E1. apply in_or_app. left. apply in_or_app. now left.
Qed.

(** ** The end of a coroutine *)
Lemma nth_update_neq {A} (x : A) l : forall i j, i <> j -> nth_error (update_nth i x l) j = nth_error l j.
Proof. induction l as [|a l IH]; intros [|i] [|j] N; cbn; auto; try congruence. Qed.
Lemma nth_update_eq {A} (x : A) l : forall i, (i < List.length l)%nat -> nth_error (update_nth i x l) i = Some x.
Proof. induction l as [|a l IH]; intros [|i] N; cbn in *; try lia; auto. apply IH. lia. Qed.
Lemma vstep_ended env v o k x : nth_error (lv_udp v) k = Some (VEnd x) -> nth_error (lv_udp (vstep env v o)) k = Some (VEnd x).
Proof.
  intros N. destruct o as [| | | |i r order]; cbn [vstep lv_udp]; auto.
  - rewrite nth_error_app1; [exact N|]. apply nth_error_Some. congruence.
  - destruct (nth_error (lv_udp v) i) as [p|] eqn:NI; [|exact N]. destruct (udp_step v i p r order) as [[[xs bs] q] p'] eqn:U. cbn [lv_udp].
    destruct (Nat.eq_dec i k) as [->|NE].
    + rewrite NI in N. injection N as ->. cbn in U. injection U as _ _ _ <-. apply nth_update_eq. apply nth_error_Some. congruence.
    + now rewrite nth_update_neq.
Qed.
Lemma vrun_ended env k x ops : forall v, nth_error (lv_udp v) k = Some (VEnd x) -> nth_error (lv_udp (vrun env v ops)) k = Some (VEnd x).
Proof. induction ops as [|o ops IH]; intros v N; [exact N|]. apply IH. now apply vstep_ended. Qed.
Lemma wrun_ended e ops w k x : nth_error (lv_udp (wh_udp w)) k = Some (VEnd x) -> nth_error (lv_udp (wh_udp (wrun e w ops))) k = Some (VEnd x).
Proof. intros N. rewrite wrun_udp. now apply vrun_ended. Qed.
Lemma recv_pc e w k a d order : nth_error (lv_udp (wh_udp w)) k = Some VRecv ->
  lv_cf (wh_udp (wstep e w (WUdp k (RData a d) order))) = fst (cstep (we_env e) (set_sender (lv_cf (wh_udp w)) a) (Spawn (Receive sender d (zlen d)))) /\
  nth_error (lv_udp (wh_udp (wstep e w (WUdp k (RData a d) order)))) k = Some (VReceive (S (List.length (cf_pool (lv_cf (wh_udp w)))))).
Proof.
  intros N. assert (wh_udp (wstep e w (WUdp k (RData a d) order)) = vstep (we_env e) (wh_udp w) (VRun k (RData a d) order)) as ->
    by (unfold wstep; destruct (we_queue e); reflexivity).
  cbn [vstep vdoes]. rewrite N. cbn [udp_step fst lv_cf lv_udp]. split.
  - rewrite crun_cons. destruct (sender_set (we_env e) (lv_cf (wh_udp w)) a) as [-> _]. rewrite crun_cons. reflexivity.
  - apply nth_update_eq. apply nth_error_Some. congruence.
Qed.
Lemma recv_dies e w k a d order r order' x : nth_error (lv_udp (wh_udp w)) k = Some VRecv ->
  cf_pool (fst (cstep (we_env e) (set_sender (lv_cf (wh_udp w)) a) (Spawn (Receive sender d (zlen d))))) =
    cf_pool (set_sender (lv_cf (wh_udp w)) a) ++ [Finished (ORecv {| r_res := Err x; r_calls := [] |})] ->
  nth_error (lv_udp (wh_udp (wrun e w [WUdp k (RData a d) order; WUdp k r order']))) k = Some (VEnd (Some x)).
Proof.
  intros N P. destruct (recv_pc e w k a d order N) as [C U]. cbn [wrun]. set (w1 := wstep e w (WUdp k (RData a d) order)) in *.
  assert (wh_udp (wstep e w1 (WUdp k r order')) = vstep (we_env e) (wh_udp w1) (VRun k r order')) as -> by (unfold wstep; destruct (we_queue e); reflexivity).
  cbn [vstep]. rewrite U. cbn [udp_step]. unfold returned. rewrite C, P. cbn [set_sender cf_pool].
  rewrite nth_error_app2 by (rewrite app_length; cbn; lia). rewrite app_length. cbn [List.length].
  replace (S (List.length (cf_pool (lv_cf (wh_udp w)))) - (List.length (cf_pool (lv_cf (wh_udp w))) + 1))%nat with 0%nat by lia.
  cbn [nth_error r_res lv_udp]. apply nth_update_eq. apply nth_error_Some. congruence.
Qed.

(** ** A datagram arrives *)
Lemma mesh_arrives pv ts ta es n past i x d future j e w k a order t : mesh_steps (mesh_start es) n -> shares pv ts ta es -> well_used ts n ->
  me_log n = past ++ (i, WV (VSeen (Net (Attempted x)))) :: future -> at_data x = Some d -> ~ announces_acks x ->
  In t ts -> m_name (at_msg x) = t_name t -> t_blocks t = [] \/ (exists tb, In tb (t_blocks t) /\ instances (at_msg x) (tb_name tb) <> []) ->
  nth_error (me_nodes n) j = Some (e, w) -> in_recvfrom w k -> lets_in e w a t ->
  exists y rest, wobserved e w (WUdp k (RData a d) order) =
      WV (VBegun (reads w k d)) :: WV (VSeen (Net (Accepted a y))) ::
      WV (VSeen (Queued a (if Z.testbit (m_flags (at_msg x)) reliable_bit then [m_id (at_msg x)] else []))) :: rest /\
    a_copy t (at_msg x) y /\ m_acks y = [].
Proof.
  intros S (ST & SZ & UN & IN & PT) [D FP] L AD NA IT MN BL N IR (TR & UA & HD).
  pose proof (mesh_conforming pv ts ta es n S ST IN PT D FP) as CU.
  destruct (set_sender_step es n j e w a S N) as [CS NJ].
  rewrite (wobserved_recv _ _ _ _ _ _ IR).
  assert (LL : of_dispatchers (me_log n) = of_dispatchers past ++ (i, Net (Attempted x)) :: of_dispatchers future) by (rewrite L; apply of_cons).
  destruct (C103_delivered pv ts ta _ _ _ i x d _ j (we_env e) (set_sender (lv_cf (wh_udp w)) a) sender a t CS ST SZ UN IN PT CU LL AD NA IT MN BL NJ
    (sender_address _ a (mesh_hosts es n j e w S N)) TR UA HD) as (y & rest & G & C & A).
  rewrite G. exists y, (map WV (map VSeen rest)). auto.
Qed.
Lemma mesh_fate pv ts ta es n past i x d future j e w k a order t g l b : mesh_steps (mesh_start es) n -> shares pv ts ta es -> well_used ts n ->
  me_log n = past ++ (i, WV (VSeen (Net (Attempted x)))) :: future -> at_data x = Some d -> announces_acks x ->
  In t ts -> m_name (at_msg x) = t_name t -> t_freq t = Some g -> d = l ++ [b] ->
  t_blocks t = [] \/ (exists tb, In tb (t_blocks t) /\ instances (at_msg x) (tb_name tb) <> []) ->
  nth_error (me_nodes n) j = Some (e, w) -> in_recvfrom w k -> lets_in e w a t ->
  if 7 + number_width g + 4 * byte_value b <=? zlen d
  then exists y rest, wobserved e w (WUdp k (RData a d) order) =
      WV (VBegun (reads w k d)) :: WV (VSeen (Net (Accepted a y))) ::
      WV (VSeen (Queued a (if Z.testbit (m_flags (at_msg x)) reliable_bit then [m_id (at_msg x)] else []))) :: rest /\
    a_copy t (at_msg x) y /\ acks_from x d (m_acks y)
  else wobserved e w (WUdp k (RData a d) order) = [WV (VBegun (reads w k d)); WV (VSeen (Queued a []))] /\
    exists err, In err [IndexErr; StructError; MessageDeserializationErr] /\ forall r order' ops,
      nth_error (lv_udp (wh_udp (wrun e w (WUdp k (RData a d) order :: WUdp k r order' :: ops)))) k = Some (VEnd (Some err)).
Proof.
  intros S (ST & SZ & UN & IN & PT) [D FP] L AD AA IT MN FR DL BL N IR (TR & UA & HD).
  pose proof (mesh_conforming pv ts ta es n S ST IN PT D FP) as CU.
  destruct (set_sender_step es n j e w a S N) as [CS NJ].
  rewrite (wobserved_recv _ _ _ _ _ _ IR).
  assert (LL : of_dispatchers (me_log n) = of_dispatchers past ++ (i, Net (Attempted x)) :: of_dispatchers future) by (rewrite L; apply of_cons).
  pose proof (C103_fate pv ts ta _ _ _ i x d _ j (we_env e) (set_sender (lv_cf (wh_udp w)) a) sender a t g l b CS ST SZ UN IN PT CU LL AD AA IT MN FR DL BL NJ
    (sender_address _ a (mesh_hosts es n j e w S N)) TR UA HD) as F.
  destruct (7 + number_width g + 4 * byte_value b <=? zlen d).
  - destruct F as (y & rest & G & C & A). rewrite G. exists y, (map WV (map VSeen rest)). auto.
  - destruct F as (err & IE & G & P). rewrite G. split; [reflexivity|]. exists err. split; [exact IE|]. intros r order' ops.
    change (wrun e w (WUdp k (RData a d) order :: WUdp k r order' :: ops)) with (wrun e (wrun e w [WUdp k (RData a d) order; WUdp k r order']) ops).
    apply wrun_ended. exact (recv_dies e w k a d order r order' err IR P).
Qed.
Lemma mesh_no_false_acks es n past i a ids future k : mesh_steps (mesh_start es) n ->
  me_log n = past ++ (i, WV (VSeen (Packing a ids))) :: future -> In k ids -> a_number (of_dispatchers past) k.
Proof.
  intros S L I. eapply (C103_no_false_acks _ _ (of_dispatchers past) i a ids (of_dispatchers future)); [exact (mesh_crowd es n S)| |exact I].
  unfold dispatchers. cbn [w_log]. rewrite L. apply of_cons.
Qed.
Lemma mesh_acks_seen pv ts ta es n past j s y future b k : mesh_steps (mesh_start es) n -> shares pv ts ta es -> well_used ts n -> enqueues_no_acks n ->
  me_log n = past ++ (j, WV (VSeen (Called s y))) :: future -> m_name y = "PacketAck"%string ->
  In b (instances y "Packets") -> block_getitem b "ID" = Ok (VInt k) -> a_number (of_dispatchers past) k.
Proof.
  intros S (ST & SZ & UN & IN & PT) [D FP] NA L. 
  eapply (C103_acks_seen pv ts ta _ _ (of_dispatchers past) j s y (of_dispatchers future)); eauto using mesh_crowd, mesh_conforming.
  - exact (mesh_conforming pv ts ta es n S ST IN PT D FP).
  - exact (mesh_own_acks pv ts es n S ST (fun p I => proj1 (D p I)) NA).
  - unfold dispatchers. cbn [w_log]. rewrite L. apply of_cons.
Qed.
Lemma mesh_owed es n past i x future : mesh_steps (mesh_start es) n ->
  me_log n = past ++ (i, WV (VSeen (Net (Attempted x)))) :: future -> announces_acks x -> owed_at (of_dispatchers past) i (at_addr x).
Proof.
  intros S L A. eapply (C103_announced _ _ (of_dispatchers past) i x (of_dispatchers future)); [exact (mesh_crowd es n S)| |exact A].
  unfold dispatchers. cbn [w_log]. rewrite L. apply of_cons.
Qed.
