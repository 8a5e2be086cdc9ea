(** More lemmas for C104: Host objects do not disappear; what a coroutine does with
    a datagram. *)
From Verif Require Import Lib SpecWhole WholeProofs LiveManagerProofs DispatchProofs DispatchMore GreenletProofs GreenletAcks GreenletMore.
From Verif Require Import SpecCrowd CrowdProofs AnnouncedProofs SpecMesh MeshProofs MeshMore MeshSource MeshSaga.
From Verif Require Import SpecGreenlets SpecCrowd SpecMesh.
Open Scope Z_scope.
Open Scope list_scope.

Definition r_hosts (st : dstate) (r : step_result) : Prop := s_hosts (fst (fst r)) = s_hosts st.
Lemma transmit_hosts env st mref href md k : r_hosts st (transmit env st mref href md k).
Proof.
  unfold transmit. destruct (nth_error (s_hosts st) href) as [a|]; [|reflexivity].
  destruct (nth_error (s_msgs st) mref) as [m|] eqn:NM; [|reflexivity].
  pose proof (find_circuit_spec st href a) as FC. destruct (find_circuit st href a) as [st1 c].
  destruct FC as (EC & C1 & CO & H1 & M1 & _).
  destruct (match md with
            | Reliable r => prepare_packet c mref m LL_RELIABLE_FLAG r
            | Plain => prepare_packet c mref m LL_NONE 0
            end) as [c' m'].
  destruct md as [|r]; [|destruct (c_count c' <=? 0)]; destruct (serialize _ _ _ m') as [[b|]|]; exact H1.
Qed.
Lemma after_hosts env st e w : r_hosts st (after_handler env st e w).
Proof. destruct w as [m|mref href md k]; cbn [after_handler]; [reflexivity|]. destruct (swallow_keyerror e); [reflexivity|apply transmit_hosts]. Qed.
Lemma enter_hosts env st name i w : r_hosts st (enter_handler env st name i w).
Proof.
  unfold enter_handler. destruct (sget name (s_handler st)) as [l|]; [|apply after_hosts].
  destruct (work_message st w) as [m|]; [|apply after_hosts]. destruct (nth_error l i) as [s|]; [reflexivity|apply after_hosts].
Qed.
Lemma begin_hosts env st mref href md k : r_hosts st (begin_send env st mref href md k).
Proof.
  unfold begin_send. destruct (nth_error (s_hosts st) href) as [a|]; [|reflexivity].
  destruct (nth_error (s_msgs st) mref) as [m|]; [|reflexivity]. destruct (negb (host_ok a)); [reflexivity|].
  destruct (e_handle_out env); [apply enter_hosts|apply transmit_hosts].
Qed.
Lemma clear_hosts st k : s_hosts (clear_acks st k) = s_hosts st.
Proof. unfold clear_acks. destruct (get_circuit _ _); reflexivity. Qed.
Lemma loop_hosts env st f : r_hosts st (ack_loop env st f).
Proof.
  unfold ack_loop. destruct (take_acks (skipn (f_pos f) (ack_list st f)) []) as [ids full].
  destruct (full || (0 <? zlen ids)); [|apply clear_hosts].
  cbv zeta. match goal with |- context [begin_send ?e ?s ?m ?h ?md ?k] => pose proof (begin_hosts e s m h md k) as B;
      destruct (begin_send e s m h md k) as [[st1 ms1] th1] end. exact B.
Qed.
Lemma resume_hosts env st e th : r_hosts st (resume env st e th).
Proof.
  destruct th as [o|name i w|mref b k|r f last|todo]; cbn [resume].
  - reflexivity.
  - destruct e; [apply after_hosts|apply enter_hosts].
  - destruct e; reflexivity.
  - destruct r; [|reflexivity]. destruct last; [apply clear_hosts|apply loop_hosts].
  - destruct todo as [|k todo]; cbn [next_circuit]; [reflexivity|].
    destruct (get_circuit (s_circuits st) k); [apply loop_hosts|reflexivity].
Qed.
Lemma receive_hosts env st href buf size : s_hosts (fst (receive_check env st href buf size)) = s_hosts st.
Proof.
  unfold receive_check. destruct (nth_error (s_hosts st) href) as [a|]; [|reflexivity].
  destruct (size <=? 0); [reflexivity|]. pose proof (find_circuit_spec st href a) as FC. destruct (find_circuit st href a) as [st1 c].
  destruct FC as (EC & C1 & CO & H1 & _). cbv zeta.
  destruct (deserialize _ buf) as [[m|]|x]; [|destruct (do _ <- pyindex buf 0; unpack_z buf MVT_U32 1 (Some BE))|]; try exact H1.
  destruct (c_trusted c && negb (m_trusted m)); [exact H1|]. destruct (e_handle env); [destruct (handle _ _ m)|]; exact H1.
Qed.
Lemma update_len {A} (x : A) l : forall i, List.length (update_nth i x l) = List.length l.
Proof. induction l as [|a l IH]; intros [|i]; cbn; auto. Qed.
Lemma start_hosts env cf o : inv (cf_st cf) -> (List.length (s_hosts (cf_st cf)) <= List.length (s_hosts (fst (fst (start env cf o)))))%nat.
Proof.
  intros Iv. destruct o; cbn [start step]; try (apply Nat.le_refl).
  - cbn. rewrite app_length. lia.
  - cbn. rewrite update_len. lia.
  - destruct (get_circuit (s_circuits (cf_st cf)) a); apply Nat.le_refl.
  - rewrite begin_hosts. apply Nat.le_refl.
  - pose proof (receive_hosts (silent env) (cf_st cf) href buf size) as R. destruct (receive_check (silent env) (cf_st cf) href buf size) as [st1 r]. cbn [fst] in R.
    rewrite <- R. destruct (r_res r) as [[m|]|]; try (apply Nat.le_refl). destruct (e_handle env); [|apply Nat.le_refl].
    rewrite enter_hosts. apply Nat.le_refl.
  - rewrite resend_none by exact Iv. apply Nat.le_refl.
  - destruct (existsb acking (cf_pool cf)); apply Nat.le_refl.
Qed.
Lemma cstep_hosts env cf x : inv (cf_st cf) -> (List.length (s_hosts (cf_st cf)) <= List.length (s_hosts (cf_st (fst (cstep env cf x)))))%nat.
Proof.
  intros Iv. destruct x as [o|i e]; cbn [cstep].
  - pose proof (start_hosts env cf o Iv) as K. destruct (start env cf o) as [[st ms] th]. exact K.
  - destruct (nth_error (cf_pool cf) i) as [th|]; [|apply Nat.le_refl].
    pose proof (resume_hosts env (cf_st cf) e th) as K. destruct (resume env (cf_st cf) e th) as [[st ms] th']. cbn. unfold r_hosts in K. cbn in K. rewrite K. apply Nat.le_refl.
Qed.
Lemma crun_hosts env xs : forall cf, sane env cf -> (List.length (s_hosts (cf_st cf)) <= List.length (s_hosts (cf_st (fst (crun env cf xs)))))%nat.
Proof.
  induction xs as [|x xs IH]; intros cf SN; [apply Nat.le_refl|]. rewrite crun_cons.
  eapply Nat.le_trans; [apply (cstep_hosts env cf x (good_inv _ (sn_good _ _ SN)))|]. apply IH. now apply cstep_sane.
Qed.
Lemma mesh_hosts es n i e w : mesh_steps (mesh_start es) n -> nth_error (me_nodes n) i = Some (e, w) -> (2 <= List.length (s_hosts (cf_st (lv_cf (wh_udp w)))))%nat.
Proof.
  intros H. remember (mesh_start es) as n0. revert i e w. induction H as [n|n1 n2 n3 H IH S]; subst; intros i e w N.
  - cbn in N. rewrite nth_error_map in N. destruct (nth_error es i); [|discriminate]. injection N as <- <-. cbn. lia.
  - pose proof (fun i e w => mesh_sane es n2 i e w H) as SN. destruct S as [j before e0 w0 after o done log L M]. cbn [me_nodes] in *.
    assert (nth_error (before ++ (e0, w0) :: after) j = Some (e0, w0)) as NJ by (rewrite <- L; apply NetworkProofs.nth_at).
    destruct (NetworkProofs.nth_middle _ _ _ _ _ N) as [[-> Q]|[NE Q]].
    + injection Q as -> ->. rewrite wstep_cf. eapply Nat.le_trans; [exact (IH eq_refl _ _ _ NJ)|]. apply crun_hosts. exact (SN _ _ _ NJ).
    + exact (IH eq_refl _ _ _ (Q _)).
Qed.

(** ** A datagram *)
Definition set_sender (cf : config) (a : addr) : config :=
  {| cf_st := set_hosts (cf_st cf) (update_nth sender a (s_hosts (cf_st cf))); cf_pool := cf_pool cf ++ [Finished OUnit] |}.
Lemma sender_set env cf a : fst (cstep env cf (Spawn (SetHost sender a))) = set_sender cf a /\ gevents env cf (Spawn (SetHost sender a)) = [].
Proof. split; reflexivity. Qed.
Lemma sender_address cf a : (2 <= List.length (s_hosts (cf_st cf)))%nat -> host_address (cf_st (set_sender cf a)) sender = Some a.
Proof.
  intros L. unfold host_address, set_sender, sender. cbn [cf_st set_hosts s_hosts].
  destruct (s_hosts (cf_st cf)) as [|h0 [|h1 l]]; cbn in *; [lia|lia|reflexivity].
Qed.
Lemma wobserved_recv e w k a d order : nth_error (lv_udp (wh_udp w)) k = Some VRecv ->
  wobserved e w (WUdp k (RData a d) order) = WV (VBegun (reads w k d)) ::
    map WV (map VSeen (gevents (we_env e) (set_sender (lv_cf (wh_udp w)) a) (Spawn (Receive sender d (zlen d))))).
Proof.
  intros N. unfold wobserved. cbn [udp_ops vhistory queue_ops]. unfold vobserved. cbn [vdoes]. rewrite N. cbn [udp_step fst snd map].
  assert (match we_queue e with Some q0 => map WN (nhistory q0 (w_queue w) []) | None => [] end = []) as -> by (destruct (we_queue e); reflexivity).
  rewrite !app_nil_r. cbn [gtrace app]. destruct (sender_set (we_env e) (lv_cf (wh_udp w)) a) as [-> ->]. rewrite app_nil_r. reflexivity.
Qed.
Lemma set_sender_step es n j e w a : mesh_steps (mesh_start es) n -> nth_error (me_nodes n) j = Some (e, w) ->
  crowd_steps (crowd_start (map we_env es)) 
    {| w_nodes := firstn j (w_nodes (dispatchers n)) ++ (we_env e, set_sender (lv_cf (wh_udp w)) a) :: skipn (S j) (w_nodes (dispatchers n)); w_log := of_dispatchers (me_log n) |} /\
  nth_error (firstn j (w_nodes (dispatchers n)) ++ (we_env e, set_sender (lv_cf (wh_udp w)) a) :: skipn (S j) (w_nodes (dispatchers n))) j =
    Some (we_env e, set_sender (lv_cf (wh_udp w)) a).
Proof.
  intros S N. assert (nth_error (w_nodes (dispatchers n)) j = Some (we_env e, lv_cf (wh_udp w))) as NJ.
  { unfold dispatchers. cbn [w_nodes]. rewrite nth_error_map, N. reflexivity. }
  pose proof (mesh_crowd es n S) as C. destruct (dispatchers n) as [ns log] eqn:ED. cbn [w_nodes] in *.
  assert (log = of_dispatchers (me_log n)) as -> by (unfold dispatchers in ED; now injection ED).
  destruct (nth_error_split _ _ NJ) as (b & r & -> & L).
  rewrite <- L, firstn_app, Nat.sub_diag, firstn_all, firstn_O, app_nil_r.
  replace (skipn (Datatypes.S (List.length b)) (b ++ (we_env e, lv_cf (wh_udp w)) :: r)) with r
    by (rewrite skipn_app, skipn_all2 by lia; replace (Datatypes.S (List.length b) - List.length b)%nat with 1%nat by lia; reflexivity).
  split; [|apply NetworkProofs.nth_at].
  eapply cs_step; [exact C|].
  pose proof (crowd_at (List.length b) b (we_env e) (lv_cf (wh_udp w)) r (Spawn (SetHost sender a)) (of_dispatchers (me_log n)) eq_refl I) as K.
  destruct (sender_set (we_env e) (lv_cf (wh_udp w)) a) as [E1 E2]. rewrite E1, E2 in K. cbn [map] in K. rewrite app_nil_r in K. exact K.
Qed.
