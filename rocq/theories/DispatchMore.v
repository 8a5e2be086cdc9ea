(** More about the dispatcher: what C21-C32 need beyond DispatchProofs.v. *)
From Coq Require Import Permutation.
From Verif Require Import Lib SpecMessages MessageProofs SpecDispatch EventsProofs LayoutProofs PacketProofs PacketMore PacketForms PacketRules DispatchProofs.

(** ** C21: ids *)
Lemma ids_in_order env ops a k x :
  nth_error (attempts_to a (since_removal a (trace env init_state ops))) k = Some x ->
  m_id (at_msg x) = Z.of_nat k + 1.
Proof.
  intros H. destruct (history_ledger env ops a) as [L _].
  apply (map_nth_error (fun x => m_id (at_msg x))) in H. rewrite L in H. unfold zseq in H.
  rewrite nth_error_map in H. destruct (nth_error (seq 0 _) k) as [j|] eqn:E; [|discriminate]. injection H as <-.
  assert (j = k); [|subst; reflexivity]. apply nth_error_nth with (d := O) in E as E'.
  assert (k < List.length (seq 0 (Z.to_nat (last_id (fst (run env init_state ops)) a))))%nat as B.
  { apply nth_error_Some. congruence. }
  rewrite seq_length in B. rewrite seq_nth in E' by exact B. exact (eq_sym E').
Qed.

Definition wired (env : denv) (x : attempt) : Prop :=
  forall b, at_data x = Some b -> packet_layout (e_pv env) (e_ser_dict env) (e_ser_xml env) (at_msg x) b.

Lemma send_wired env st mref href md sock st' o :
  send_message env st mref href md sock = (st', o) -> Forall (wired env) (o_sends o) /\ (List.length (o_sends o) <= 1)%nat.
Proof.
  unfold send_message. intros H.
  destruct (nth_error (s_hosts st) href) as [a|]; [|injection H as <- <-; cbn; auto].
  destruct (nth_error (s_msgs st) mref) as [m|]; [|injection H as <- <-; cbn; auto].
  destruct (negb (host_ok a)); [injection H as <- <-; cbn; auto|].
  destruct (if e_handle_out env then handle (e_cb env) (s_handler st) m else ([], None)) as [calls [e|]];
    [injection H as <- <-; cbn; auto|].
  destruct (find_circuit st href a) as [st1 c].
  destruct (match md with
            | Reliable r => prepare_packet c mref m LL_RELIABLE_FLAG r
            | Plain => prepare_packet c mref m LL_NONE 0
            end) as [c' m'].
  cbv zeta in H.
  destruct (serialize (e_pv env) (e_ser_dict env) (e_ser_xml env) m') as [[b|]|e] eqn:S.
  1: destruct (sock a b) as [e|].
  all: injection H as _ <-; cbn [o_sends]; split; [|cbn; auto];
       constructor; [|constructor]; intros b' B; cbn in B; try discriminate.
  injection B as <-. cbn. now apply serialize_layout.
Qed.
Lemma flush_wired env sock href : forall ids cur st st' o,
  flush_acks env sock href ids cur st = (st', o) -> Forall (wired env) (o_sends o).
Proof.
  induction ids as [|id ids IH]; intros cur st st' o H; cbn [flush_acks] in H.
  - destruct (0 <? zlen cur); [|injection H as <- <-; constructor]. eapply send_wired; exact H.
  - destruct (250 <? zlen (cur ++ [id])); [|eapply IH; exact H].
    destruct (send_new env st (ack_message (cur ++ [id])) href sock) as [st1 o1] eqn:E1.
    pose proof (proj1 (send_wired _ _ _ _ _ _ _ _ E1)) as W1.
    destruct (o_res o1); [|injection H as <- <-; exact W1].
    destruct (flush_acks env sock href ids [] st1) as [st2 o2] eqn:E2. injection H as <- <-.
    apply Forall_app. split; [exact W1|eapply IH; exact E2].
Qed.
Lemma send_acks_wired env sock : forall keys st st' o,
  send_acks env sock keys st = (st', o) -> Forall (wired env) (o_sends o).
Proof.
  induction keys as [|k keys IH]; intros st st' o H; cbn [send_acks] in H; [injection H as <- <-; constructor|].
  destruct (get_circuit (s_circuits st) k) as [c|]; [|eapply IH; exact H].
  destruct (flush_acks env sock (c_host c) (c_acks c) [] st) as [st1 o1] eqn:E1.
  pose proof (flush_wired _ _ _ _ _ _ _ _ E1) as W1.
  destruct (o_res o1); [|injection H as <- <-; exact W1].
  destruct (send_acks env sock keys (clear_acks st1 k)) as [st3 o3] eqn:E3. injection H as <- <-.
  apply Forall_app. split; [exact W1|eapply IH; exact E3].
Qed.
Lemma events_wired env st o x : In (Attempted x) (events env st o) -> wired env x.
Proof.
  assert (forall xs, Forall (wired env) xs -> In (Attempted x) (map Attempted xs) -> wired env x) as ALL.
  { intros xs F H. apply in_map_iff in H as (y & [= <-] & H). rewrite Forall_forall in F. now apply F. }
  destruct o as [a|h a|m|r m|r|a b|mref href md sock|mref href|href buf size|order sock|a]; unfold events; cbn [step snd];
    try (intros []; fail).
  - destruct (send_message env st mref href md sock) as [st1 o1] eqn:E. cbn [snd]. apply ALL. eapply send_wired; exact E.
  - destruct (accepts env st href buf size) as [[a m]|]; [intros [H|[]]; discriminate|intros []].
  - destruct (process_acks env st order sock) as [st1 o1] eqn:E. cbn [snd]. apply ALL.
    unfold process_acks in E. destruct (resend_all (s_unackedc st) st) as [st2 [u|e]]; [|injection E as <- <-; constructor].
    destruct (send_acks env sock _ st2) as [st3 o3] eqn:E3. injection E as <- <-. cbn. eapply send_acks_wired; exact E3.
  - intros [H|[]]; discriminate.
Qed.
Lemma trace_wired env ops : forall st x, In (Attempted x) (trace env st ops) -> wired env x.
Proof.
  induction ops as [|o ops IH]; intros st x; cbn [trace]; [intros []|]. intros H. apply in_app_or in H as [H|H].
  - eapply events_wired; exact H.
  - eapply IH; exact H.
Qed.
Lemma layout_seq pv d x m b : packet_layout pv d x m b -> sequence_number b = Some (m_id m mod 2 ^ 32).
Proof.
  intros (t & f & id & num & ws & tl & _ & _ & -> & _ & _ & L & V & _).
  destruct id as [|b1 [|b2 [|b3 [|b4 [|b5 id]]]]]; rewrite ?zlen_cons in L; try (unfold zlen in L; cbn [List.length] in L; lia).
  cbn [app sequence_number]. now rewrite V.
Qed.

(** ** C22-C24 *)
Lemma since_attempts a xs : forall tr, since_removal a (tr ++ map Attempted xs) = since_removal a tr ++ map Attempted xs.
Proof.
  induction xs as [|x xs IH] using rev_ind; intros tr; [cbn; now rewrite !app_nil_r|].
  rewrite map_app. cbn [map]. rewrite !app_assoc, since_snoc, IH. reflexivity.
Qed.
Lemma unack_plain a xs ep n : Forall (fun x => sent_reliably x = false) xs ->
  unacknowledged a (ep ++ map Attempted xs) n <-> unacknowledged a ep n.
Proof.
  revert ep. induction xs as [|x xs IH] using rev_ind; intros ep F; [cbn; rewrite app_nil_r; tauto|].
  apply Forall_app in F as [F1 F2]. rewrite map_app. cbn [map]. rewrite app_assoc, unack_snoc, IH by exact F1. split.
  - intros [[H _]|(y & [= <-] & _ & R & _)]; [exact H|]. inversion F2; congruence.
  - intros H. left. split; [exact H|discriminate].
Qed.
Lemma process_keeps_outstanding env st order sock st' o : reachable env st ->
  process_acks env st order sock = (st', o) ->
  forall a n, In n (outstanding st' a) <-> In n (outstanding st a).
Proof.
  intros (ops & ->) H a n. destruct (run_good env ops init_state [] good_init ledger_init) as [[I V] L].
  cbn [app] in L. destruct (process_spec _ _ _ _ _ _ I V H) as (FL & _ & _ & _ & _ & F).
  destruct (L a) as [_ L1]. destruct (fl_ledger _ _ _ _ FL _ L a) as [_ L2].
  rewrite L1, L2, since_attempts, unack_plain; [tauto|].
  eapply Forall_impl; [|exact F]. intros x (p & _ & FLAG & _). unfold sent_reliably. rewrite FLAG. reflexivity.
Qed.

(** ** C25 *)
Lemma received_queue env st href a buf c' r : circ_ok (cur st href a) -> received env st (cur st href a) buf c' r ->
  c_acks c' = c_acks (cur st href a) ++ acks_due env st a buf.
Proof.
  intros K RC. unfold acks_due.
  assert (trusted st a = c_trusted (cur st href a)) as -> by (unfold trusted, cur; now destruct (circuit_of st a)).
  destruct RC as [e D|e D S _|n D S|m D T|m D T]; rewrite D, ?S, ?T, ?app_nil_r; try reflexivity.
  destruct (deserialize_header _ _ _ D) as (S & _). apply seq_range in S. apply (handle_packet_spec _ m K S).
Qed.
Lemma receive_queues env st href a buf size st' r : reachable env st -> host_address st href = Some a -> 0 < size ->
  receive_check env st href buf size = (st', r) ->
  pending_acks st' a = pending_acks st a ++ acks_due env st a buf /\
  (forall b, b <> a -> pending_acks st' b = pending_acks st b).
Proof.
  intros RE NH SZ H. destruct (reachable_good _ _ RE) as [I V].
  destruct (receive_spec env st href buf size a I NH SZ) as (st1 & r1 & c' & E & RC & C1 & CO & _).
  rewrite E in H. injection H as <- <-. split.
  - rewrite (pending_cur st href a). unfold pending_acks. rewrite C1. eapply received_queue; eauto. now apply cur_ok.
  - intros b N. unfold pending_acks. now rewrite CO.
Qed.
Lemma parsed_number c buf m : deserialize c buf = Ok (Some m) ->
  sequence_number buf = Some (m_id m) /\ exists f tl, buf = f :: tl /\ m_reliable m = bit f reliable_bit.
Proof.
  intros D. destruct (deserialize_header _ _ _ D) as (S & _ & _ & f & tl & E & _ & R). split; [exact S|]. exists f, tl. auto.
Qed.
Lemma receive_raises env st href a buf size st' r e : reachable env st -> host_address st href = Some a -> 0 < size ->
  receive_check env st href buf size = (st', r) -> r_res r = Err e ->
  (acks_due env st a buf = [] /\ r_calls r = [] /\
    (deserialize (deser_conf env st) buf = Err e \/
     deserialize (deser_conf env st) buf = Ok None /\ sequence_number buf = None /\ (e = IndexErr \/ e = DataUnpackingErr))) \/
  (exists m, deserialize (deser_conf env st) buf = Ok (Some m) /\ trusted st a = false /\ e_handle env = true /\
     snd (handle (e_cb env) (s_handler st) m) = Some e).
Proof.
  intros RE NH SZ H R. destruct (reachable_good _ _ RE) as [I V].
  destruct (receive_spec env st href buf size a I NH SZ) as (st1 & r1 & c' & E & RC & C1 & CO & _).
  rewrite E in H. injection H as <- <-. unfold acks_due.
  assert (trusted st a = c_trusted (cur st href a)) as -> by (unfold trusted, cur; now destruct (circuit_of st a)).
  destruct RC as [e' D|e' D S EE|n D S|m D T|m D T]; rewrite D.
  - cbn in R. left. split; [reflexivity|]. split; [reflexivity|]. left. congruence.
  - cbn in R. injection R as ->. left. rewrite S. split; [reflexivity|]. split; [reflexivity|]. right.
    split; [reflexivity|]. split; [reflexivity|]. subst e. destruct buf; auto.
  - discriminate.
  - discriminate.
  - right. exists m. split; [reflexivity|]. split; [exact T|]. destruct (e_handle env); [|discriminate].
    split; [reflexivity|]. cbn in R. destruct (snd (handle (e_cb env) (s_handler st) m)); [congruence|discriminate].
Qed.

(** ** C27 *)
Lemma has_unacked_spec st : NoDup (dkeys (s_circuits st)) ->
  has_unacked st = true <-> exists a, pending_acks st a <> [].
Proof.
  intros ND. unfold has_unacked. rewrite existsb_exists. split.
  - intros (c & IN & H). unfold dvals in IN. apply in_map_iff in IN as ((a & c') & E & IN). cbn in E. subst c'. exists a.
    unfold pending_acks, circuit_of, get_circuit. rewrite (dget_In_nodup _ addr_eqb_spec _ _ _ ND IN).
    intros E. rewrite E in H. discriminate.
  - intros (a & H). unfold pending_acks in H. destruct (circuit_of st a) as [c|] eqn:C; [|congruence]. exists c. split.
    + apply (dget_In _ addr_eqb_spec) in C. unfold dvals. apply in_map_iff. exists (a, c). auto.
    + destruct (c_acks c) as [|x l]; [congruence|]. rewrite zlen_cons. pose proof (zlen_nonneg l). apply Z.ltb_lt. lia.
Qed.

(** ** Sending, as seen from outside *)
Lemma flags_mode md : mode_flag md = flags_of md.
Proof. now destruct md. Qed.

Lemma send_seen env st mref href md sock a m st' o : reachable env st ->
  host_address st href = Some a -> nth_error (s_msgs st) mref = Some m -> host_ok a = true -> outgoing_quiet env st ->
  send_message env st mref href md sock = (st', o) ->
  exists x, o_sends o = [x] /\ at_addr x = a /\ m_name (at_msg x) = m_name m /\ m_blocks (at_msg x) = m_blocks m /\
    (let p := negb (match pending_acks st a with [] => true | _ => false end) && negb (String.eqb (m_name m) "PacketAck") in
     m_flags (at_msg x) = (if p then flags_of md + 2 ^ ack_bit else flags_of md) /\
     m_acks (at_msg x) = m_acks m ++ (if p then pending_acks st a else [])) /\
    m_id (at_msg x) = last_id st a + 1 /\
    at_data x = fst (put_on_wire env (at_msg x) a sock) /\
    o_res o = match at_data x with
              | Some b => Ok (Some b)
              | None => contain (snd (put_on_wire env (at_msg x) a sock)) (at_msg x)
              end /\
    s_out st' = s_out st + (match at_data x with Some _ => 1 | None => 0 end) /\
    pending_acks st' a = pending_acks st a /\ last_id st' a = last_id st a + 1 /\
    outstanding st' a = outstanding st a ++ (if is_reliable md then [m_id (at_msg x)] else []) /\
    (exists c', circuit_of st' a = Some c' /\ c_host c' = match circuit_of st a with Some c => c_host c | None => href end) /\
    (forall b, b <> a -> circuit_of st' b = circuit_of st b).
Proof.
  intros RE NH NM HO Q H. destruct (reachable_good _ _ RE) as [I V].
  assert (out_error env st m = None) as OE.
  { unfold out_error. destruct (e_handle_out env) eqn:E; [now apply Q|reflexivity]. }
  destruct (send_detail env st mref href md sock a m I NH NM HO OE)
    as (st2 & x & c' & E & AA & AD & MN & MB & ID & FL & AC & CA & CO & CH & CT & CK & CL & CU & _ & _ & _ & SO & _).
  rewrite E in H. injection H as <- <-. exists x. cbn [o_sends o_res].
  split; [reflexivity|]. split; [exact AA|]. split; [exact MN|]. split; [exact MB|].
  assert (piggyback (cur st href a) m =
          negb (match pending_acks st a with [] => true | _ => false end) && negb (String.eqb (m_name m) "PacketAck")) as PB.
  { unfold piggyback. rewrite (pending_cur st href a). f_equal. destruct (c_acks (cur st href a)) as [|i l]; [reflexivity|].
    cbn [negb]. apply Z.ltb_lt. rewrite zlen_cons. pose proof (zlen_nonneg l). lia. }
  split.
  { cbv zeta. rewrite <- PB. split.
    - rewrite FL, flags_mode. destruct (piggyback (cur st href a) m); destruct md; reflexivity.
    - rewrite AC, (pending_cur st href a). reflexivity. }
  rewrite (last_cur st href a), (pending_cur st href a), (outstanding_cur st href a).
  unfold last_id, pending_acks, outstanding. rewrite CA.
  split; [exact ID|]. split; [exact AD|]. split; [reflexivity|]. split; [exact SO|]. split; [exact CK|]. split; [exact CL|].
  split; [rewrite CU; destruct (is_reliable md); [apply map_app|now rewrite app_nil_r]|].
  split; [|exact CO]. exists c'. split; [reflexivity|]. rewrite CH. unfold cur. now destruct (circuit_of st a).
Qed.

(** ** C28: the acks are not in the datagram *)
Lemma layout_reflag pv d x m f b z acks : packet_layout pv d x m (f :: b) -> written pv false 1 z ->
  packet_layout pv d x (reflagged z acks m) (chr z :: b).
Proof.
  intros (t & f0 & id & num & ws & tl & H1 & H2 & E & H3 & H4 & H5 & H6 & H7 & H8 & H9 & H10) W.
  injection E as -> ->. exists t, (chr z), id, num, ws, tl. cbn [m_name m_flags m_id reflagged].
  split; [exact H1|]. split; [exact H2|]. split; [reflexivity|].
  split; [change byte_value with ord; apply ord_chr|]. split; [exact W|]. auto 8.
Qed.
Lemma layout_first pv d x m b : packet_layout pv d x m b -> exists f tl, b = f :: tl /\ byte_value f = m_flags m mod 256.
Proof. intros (t & f0 & id & num & ws & tl & H1 & H2 & -> & H3 & _). cbn. eauto. Qed.

(** ** C31 *)
Lemma repeat_receive env href buf size a : forall k st, reachable env st -> host_address st href = Some a -> 0 < size ->
  snd (run env st (repeat (Receive href buf size) k)) = repeat (ORecv (snd (receive_check env st href buf size))) k /\
  pending_acks (fst (run env st (repeat (Receive href buf size) k))) a =
    pending_acks st a ++ List.concat (repeat (acks_due env st a buf) k).
Proof.
  induction k as [|k IH]; intros st RE NH SZ; [cbn; now rewrite app_nil_r|].
  cbn [repeat]. rewrite run_fst. cbn [run step]. destruct (receive_check env st href buf size) as [st1 r1] eqn:E1.
  cbn [fst snd]. destruct (reachable_good _ _ RE) as [I V].
  destruct (receive_queues _ _ _ _ _ _ _ _ RE NH SZ E1) as [P1 P2].
  destruct (receive_spec env st href buf size a I NH SZ) as (st1' & r1' & c' & E & RC & C1 & CO & H1 & M1 & HD1 & _ & _ & I1).
  rewrite E1 in E. injection E as <- <-.
  assert (reachable env st1) as RE1.
  { destruct RE as (ops & ->). exists (ops ++ [Receive href buf size]).
    assert (forall ops st, fst (run env st (ops ++ [Receive href buf size])) = fst (receive_check env (fst (run env st ops)) href buf size)) as RA.
    { clear. induction ops as [|o ops IH]; intros st.
      - cbn [app]. rewrite run_fst. cbn [run step fst]. now destruct (receive_check env st href buf size).
      - cbn [app]. rewrite !run_fst. apply IH. }
    rewrite RA, E1. reflexivity. }
  assert (host_address st1 href = Some a) as NH1 by (unfold host_address; rewrite H1; exact NH).
  destruct (IH st1 RE1 NH1 SZ) as [S1 S2].
  assert (deser_conf env st1 = deser_conf env st) as DC by (unfold deser_conf; now rewrite HD1).
  assert (trusted st1 a = trusted st a) as TR.
  { unfold trusted. rewrite C1. destruct (received_ok _ _ _ _ _ _ (cur_ok st href a I) RC) as (_ & _ & -> & _).
    unfold cur. now destruct (circuit_of st a). }
  assert (acks_due env st1 a buf = acks_due env st a buf) as AD by (unfold acks_due; rewrite DC, TR; reflexivity).
  assert (snd (receive_check env st1 href buf size) = r1) as RR.
  { destruct (receive_spec env st1 href buf size a I1 NH1 SZ) as (st2 & r2 & c2 & E2 & RC2 & _).
    rewrite E2. cbn [snd].
    assert (c_trusted (cur st1 href a) = c_trusted (cur st href a)) as TC.
    { unfold trusted in TR. unfold cur. destruct (circuit_of st1 a), (circuit_of st a); auto. }
    destruct RC as [e D|e D S X|n D S|m D T|m D T];
      destruct RC2 as [e' D'|e' D' S' X'|n' D' S'|m' D' T'|m' D' T']; rewrite DC in D'; rewrite D' in D; try congruence.
    injection D as ->. rewrite HD1. reflexivity. }
  split.
  - destruct (run env st1 (repeat (Receive href buf size) k)) as [st2 xs]. cbn [snd] in *. rewrite S1, RR. reflexivity.
  - rewrite S2, P1, AD. cbn [List.concat]. now rewrite <- app_assoc.
Qed.

(** ** C32 *)
Lemma step_isolated env st o a : reachable env st -> ~ concerns st o a ->
  circuit_of (fst (step env st o)) a = circuit_of st a.
Proof.
  intros RE N. destruct (reachable_good _ _ RE) as [I V].
  destruct o as [b|h b|m|r m|r|b t|mref href md sock|mref href|href buf size|order sock|b]; cbn [step fst concerns] in *; try reflexivity.
  - fold (circuit_of st b). destruct (circuit_of st b) as [c|]; [|reflexivity]. apply put_other. congruence.
  - destruct (send_message env st mref href md sock) as [st1 o1] eqn:E. cbn [fst].
    apply (ef_other _ _ _ (send_effect _ _ _ _ _ _ _ _ I E)). intros IN.
    destruct (send_total env st mref href) as [T|(b & m & NH & NM & HO & OE)].
    + destruct (send_nothing env st mref href md sock T) as (o' & E' & S & _). rewrite E in E'. injection E' as _ ->.
      rewrite S in IN. destruct IN.
    + destruct (send_detail env st mref href md sock b m I NH NM HO OE) as (st2 & x & c' & E' & AA & _).
      rewrite E in E'. injection E' as _ ->. destruct IN as [<-|[]]. apply N. rewrite AA. exact NH.
  - destruct (host_address st href) as [b|] eqn:NH.
    2: { destruct (receive_nothing env st href buf size) as (r & -> & _); [now left|reflexivity]. }
    destruct (Z_le_gt_dec size 0) as [SZ|SZ].
    { destruct (receive_nothing env st href buf size) as (r & -> & _); [now right|reflexivity]. }
    destruct (receive_spec env st href buf size b I NH ltac:(lia)) as (st1 & r & c' & E & RC & C1 & CO & _).
    rewrite E. cbn [fst]. apply CO. congruence.
  - destruct (process_acks env st order sock) as [st1 o1] eqn:E. cbn [fst].
    destruct (process_spec _ _ _ _ _ _ I V E) as (FL & ND & IN & _).
    apply (fl_out _ _ _ _ FL).
    + rewrite IN. tauto.
    + intros H. apply N. right.
      unfold process_acks in E. rewrite (inv_unackedc _ I) in E. cbn [resend_all] in E.
      destruct (send_acks env sock (arrange order (dkeys (s_circuits st))) st) as [st2 o2] eqn:E2. injection E as <- <-.
      cbn [o_sends] in H. clear FL.
      assert (forall keys st st' o, inv st -> hosts_valid st -> NoDup keys -> (forall k, In k keys -> circuit_of st k <> None) ->
        send_acks env sock keys st = (st', o) ->
        forall y, In y (o_sends o) -> exists b c, In b keys /\ circuit_of st b = Some c /\ host_address st (c_host c) = Some (at_addr y)) as ALL.
      { clear. induction keys as [|k keys IH]; intros st st' o I V ND IN H y Y; cbn [send_acks] in H.
        - injection H as <- <-. destruct Y.
        - fold (circuit_of st k) in H. destruct (circuit_of st k) as [c|] eqn:C; [|exfalso; apply (IN k); [now left|exact C]].
          inversion ND as [|? ? NI ND']; subst.
          destruct (flush_acks env sock (c_host c) (c_acks c) [] st) as [st1 o1] eqn:E1.
          destruct (host_address st (c_host c)) as [t|] eqn:NH; [|now apply V in C].
          destruct (flush_spec env sock (c_host c) t _ [] _ _ _ I NH ltac:(cbn; lia) E1) as (EF & _ & _ & F1).
          assert (In y (o_sends o1) -> exists b c, In b (k :: keys) /\ circuit_of st b = Some c /\ host_address st (c_host c) = Some (at_addr y)) as Y1.
          { intros HY. rewrite Forall_forall in F1. destruct (F1 y HY) as [-> _]. exists k, c. split; [now left|split; assumption]. }
          destruct (o_res o1) as [r1|e1]; [|injection H as <- <-; auto].
          destruct (send_acks env sock keys (clear_acks st1 k)) as [st3 o3] eqn:E3. injection H as <- <-.
          cbn [app_out o_sends] in Y. apply in_app_or in Y as [Y|Y]; [auto|].
          destruct (clear_spec st1 k (ef_inv _ _ _ EF)) as [FL2 PK].
          pose proof (flushed_weaken st [] [k] _ _ ltac:(intros x []) (flushed_effect _ _ _ EF)) as FL1.
          pose proof (flushed_app _ _ _ _ _ _ FL1 FL2) as FL12. rewrite app_nil_r in FL12.
          set (s2 := clear_acks st1 k) in *.
          assert (forall k', In k' keys -> circuit_of s2 k' <> None) as IN2.
          { intros k' H. destruct (circuit_of st k') as [c'|] eqn:C'; [|exfalso; apply (IN k'); [now right|exact C']].
            destruct (fl_old _ _ _ _ FL12 k' c' C') as (c2 & C2 & _). congruence. }
          destruct (IH s2 st3 o3 (fl_inv _ _ _ _ FL12) (fl_valid _ _ _ _ FL12 V) ND' IN2 E3 y Y) as (b & c2 & B2 & C2 & N2).
          unfold host_address in N2. rewrite (fl_hosts _ _ _ _ FL12) in N2.
          destruct (circuit_of st b) as [c0|] eqn:C0.
          + destruct (fl_old _ _ _ _ FL12 b c0 C0) as (c2' & C2' & HH & _). rewrite C2 in C2'. injection C2' as <-.
            exists b, c0. rewrite <- HH. split; [now right|split; [exact C0|exact N2]].
          + exfalso. apply (IN b); [now right|exact C0]. }
      apply in_map_iff in H as (y & <- & Y).
      destruct (ALL _ _ _ _ I V ND (fun k => proj1 (IN k)) E2 y Y) as (b & c & _ & C & NA). exists b, c. split; assumption.
  - unfold circuit_of, get_circuit, remove_circuit_data. cbn. destruct (dmem addr_eqb b (s_circuits st)); [|reflexivity].
    apply (dget_ddel_neq _ addr_eqb_spec). congruence.
Qed.

Lemma zseq_length n : List.length (zseq n) = Z.to_nat n.
Proof. unfold zseq. now rewrite map_length, seq_length. Qed.
Lemma reachable_step env st o : reachable env st -> reachable env (fst (step env st o)).
Proof.
  intros (ops & ->). exists (ops ++ [o]).
  enough (forall ops st, fst (run env st (ops ++ [o])) = fst (step env (fst (run env st ops)) o)) as RA by now rewrite RA.
  clear. induction ops as [|o' ops IH]; intros st.
  - cbn [app]. rewrite run_fst. reflexivity.
  - cbn [app]. rewrite !run_fst. apply IH.
Qed.
Lemma since_grows a tr evs : existsb (removes a) evs = false -> since_removal a (tr ++ evs) = since_removal a tr ++ evs.
Proof.
  revert tr. induction evs as [|e evs IH]; intros tr H; [now rewrite !app_nil_r|].
  cbn in H. apply orb_false_iff in H as [H1 H2].
  change (e :: evs) with ([e] ++ evs). rewrite !app_assoc, IH by exact H2. rewrite since_snoc, H1. reflexivity.
Qed.
Lemma step_keeps env st o a c : reachable env st -> circuit_of st a = Some c -> o <> RemoveCircuit a ->
  exists c', circuit_of (fst (step env st o)) a = Some c' /\ c_host c' = c_host c /\ c_last_out c <= c_last_out c'.
Proof.
  intros RE C N.
  assert (exists c', circuit_of (fst (step env st o)) a = Some c' /\ c_host c' = c_host c) as (c' & C' & HH).
  { destruct (reachable_good _ _ RE) as [I V].
    destruct o as [b|h b|m|r m|r|b t|mref href md sock|mref href|href buf size|order sock|b]; cbn [step fst];
      try (exists c; split; [exact C|reflexivity]).
    - fold (circuit_of st b). destruct (circuit_of st b) as [c0|] eqn:C0; [|exists c; auto].
      destruct (addr_dec a b) as [->|NB].
      + exists (set_trusted c0 t). split; [apply put_same|]. cbn. congruence.
      + exists c. split; [|reflexivity]. rewrite put_other by exact NB. exact C.
    - destruct (send_message env st mref href md sock) as [st1 o1] eqn:E. cbn [fst].
      destruct (ef_old _ _ _ (send_effect _ _ _ _ _ _ _ _ I E) a c C) as (c' & C' & HH & _). eauto.
    - destruct (host_address st href) as [b|] eqn:NH.
      2: { destruct (receive_nothing env st href buf size) as (r & -> & _); [now left|]. exists c. auto. }
      destruct (Z_le_gt_dec size 0) as [SZ|SZ].
      { destruct (receive_nothing env st href buf size) as (r & -> & _); [now right|]. exists c. auto. }
      destruct (receive_spec env st href buf size b I NH ltac:(lia)) as (st1 & r & c' & E & RC & C1 & CO & _).
      rewrite E. cbn [fst]. destruct (addr_dec a b) as [->|NB].
      + exists c'. split; [exact C1|]. destruct (received_ok _ _ _ _ _ _ (cur_ok st href b I) RC) as (_ & -> & _).
        unfold cur. now rewrite C.
      + exists c. rewrite CO by exact NB. auto.
    - destruct (process_acks env st order sock) as [st1 o1] eqn:E. cbn [fst].
      destruct (process_spec _ _ _ _ _ _ I V E) as (FL & _). destruct (fl_old _ _ _ _ FL a c C) as (c' & C' & HH & _). eauto.
    - exists c. split; [|reflexivity]. rewrite <- C. unfold circuit_of, get_circuit, remove_circuit_data. cbn.
      destruct (dmem addr_eqb b (s_circuits st)); [|reflexivity]. apply (dget_ddel_neq _ addr_eqb_spec). congruence. }
  exists c'. split; [exact C'|]. split; [exact HH|].
  destruct RE as (ops & ->). destruct (run_good env ops init_state [] good_init ledger_init) as [G L]. cbn [app] in L.
  destruct (step_good env _ o _ G L) as [[I' _] L']. destruct G as [I V].
  destruct (L a) as [L1 _]. destruct (L' a) as [L2 _]. rewrite since_grows in L2.
  - rewrite attempts_app, map_app in L2. unfold last_id in L1, L2. rewrite C in L1. rewrite C' in L2.
    apply (f_equal (@List.length Z)) in L1, L2. rewrite app_length in L2. rewrite zseq_length in L1, L2.
    pose proof (ok_last _ (inv_circ _ I' _ _ C')). pose proof (ok_last _ (inv_circ _ I _ _ C)). lia.
  - set (st := fst (run env init_state ops)) in *. clearbody st. clear - N.
    destruct o as [b|h b|m|r m|r|b t|mref href md sock|mref href|href buf size|order sock|b]; unfold events; cbn [step snd]; try reflexivity.
    + destruct (send_message env st mref href md sock) as [s1 o1]. cbn. induction (o_sends o1); [reflexivity|exact IHl].
    + destruct (accepts env st href buf size) as [[? ?]|]; reflexivity.
    + destruct (process_acks env st order sock) as [s1 o1]. cbn. induction (o_sends o1); [reflexivity|exact IHl].
    + cbn. rewrite addr_eqb_neq by congruence. reflexivity.
Qed.
Lemma created_by_receive env st href a buf size st' r : reachable env st -> host_address st href = Some a -> 0 < size ->
  receive_check env st href buf size = (st', r) ->
  exists c', circuit_of st' a = Some c' /\ c_host c' = match circuit_of st a with Some c => c_host c | None => href end.
Proof.
  intros RE NH SZ H. destruct (reachable_good _ _ RE) as [I V].
  destruct (receive_spec env st href buf size a I NH SZ) as (st1 & r1 & c' & E & RC & C1 & CO & _).
  rewrite E in H. injection H as <- <-. exists c'. split; [exact C1|].
  destruct (received_ok _ _ _ _ _ _ (cur_ok st href a I) RC) as (_ & -> & _). unfold cur. now destruct (circuit_of st a).
Qed.

Lemma arrange_any p keys : NoDup keys -> Permutation p keys -> arrange p keys = p.
Proof.
  intros N P. assert (NoDup p) as NP by (eapply Permutation_NoDup; [symmetry; exact P|exact N]).
  assert (forall l, NoDup l -> adedup l = l) as DD.
  { induction l as [|b l IH]; cbn [adedup]; intros H; [reflexivity|]. inversion H as [|? ? NI ND]; subst.
    rewrite IH by exact ND. f_equal. clear - NI. induction l as [|c l IH]; cbn; [reflexivity|].
    rewrite addr_eqb_neq by (intros ->; apply NI; now left). cbn. f_equal. apply IH. intros X. apply NI. now right. }
  unfold arrange. rewrite DD by exact NP.
  assert (forall l, incl l keys -> filter (fun a => amem a keys) l = l) as F1.
  { induction l as [|b l IH]; cbn; intros H; [reflexivity|].
    rewrite (proj2 (amem_spec b keys)) by (apply H; now left). f_equal. apply IH. intros x X. apply H. now right. }
  assert (forall l, incl l p -> filter (fun a => negb (amem a p)) l = []) as F2.
  { induction l as [|b l IH]; cbn; intros H; [reflexivity|].
    rewrite (proj2 (amem_spec b p)) by (apply H; now left). cbn. apply IH. intros x X. apply H. now right. }
  rewrite F1, F2; [apply app_nil_r| |].
  - intros x X. apply (Permutation_in _ (Permutation_sym P) X).
  - intros x X. apply (Permutation_in _ P X).
Qed.

(** ** C29, C30, C31, C59 *)
Lemma shared_host env st h a b bufa bufb sizea sizeb st1 r1 st2 r2 order sock st' o r :
  (forall a b c, reachable env st2 -> circuit_of st2 a = Some c -> host_address st2 (c_host c) = Some b -> host_ok b = true ->
     pending_acks st2 a <> [] -> process_acks env st2 order sock = (st', o) -> o_res o = Ok r ->
     exists before xs after parts, o_sends o = before ++ xs ++ after /\ xs <> [] /\ packs (pending_acks st2 a) parts /\
     Forall2 (fun x p => at_addr x = b /\ acknowledges (at_msg x) p) xs parts) ->
  reachable env st -> host_address st h <> None -> circuit_of st a = None -> a <> b -> host_ok b = true ->
  0 < sizea -> 0 < sizeb ->
  receive_check env (fst (step env st (SetHost h a))) h bufa sizea = (st1, r1) -> acks_due env st a bufa <> [] ->
  receive_check env (fst (step env st1 (SetHost h b))) h bufb sizeb = (st2, r2) ->
  process_acks env st2 order sock = (st', o) -> o_res o = Ok r ->
  exists before xs after, o_sends o = before ++ xs ++ after /\ xs <> [] /\
    exists parts, packs (acks_due env st a bufa) parts /\
    Forall2 (fun x p => at_addr x = b /\ acknowledges (at_msg x) p) xs parts.
Proof.
  intros W RE NH CN NAB HO SA SB R1 AD R2 PA OK.
  set (s0 := fst (step env st (SetHost h a))) in *.
  assert (reachable env s0) as RE0 by now apply reachable_step.
  assert (host_address s0 h = Some a) as NH0.
  { unfold host_address in *. cbn. destruct (nth_error (s_hosts st) h) as [z|] eqn:E; [|congruence]. eapply nth_update; exact E. }
  assert (circuit_of s0 a = None) as CN0 by exact CN.
  destruct (created_by_receive env s0 h a bufa sizea st1 r1 RE0 NH0 SA R1) as (c1 & C1 & H1). rewrite CN0 in H1.
  destruct (receive_queues env s0 h a bufa sizea st1 r1 RE0 NH0 SA R1) as [P1 _].
  assert (pending_acks s0 a = []) as P0 by (unfold pending_acks; now rewrite CN0).
  rewrite P0 in P1. cbn [app] in P1. change (acks_due env s0 a bufa) with (acks_due env st a bufa) in P1.
  assert (reachable env st1) as RE1.
  { replace st1 with (fst (step env s0 (Receive h bufa sizea))) by (cbn [step]; rewrite R1; reflexivity). now apply reachable_step. }
  set (s1 := fst (step env st1 (SetHost h b))) in *.
  assert (reachable env s1) as RE1' by now apply reachable_step.
  assert (s_hosts st1 = s_hosts s0) as SH1.
  { destruct (reachable_good _ _ RE0) as [I V]. destruct (receive_spec env s0 h bufa sizea a I NH0 SA) as (x1 & x2 & x3 & E & _ & _ & _ & SH & _).
    rewrite R1 in E. injection E as <- <-. exact SH. }
  assert (host_address s1 h = Some b) as NH1.
  { unfold host_address in *. cbn. rewrite SH1. eapply nth_update; exact NH0. }
  destruct (receive_queues env s1 h b bufb sizeb st2 r2 RE1' NH1 SB R2) as [_ P2].
  destruct (reachable_good _ _ RE1') as [I1 V1].
  destruct (receive_spec env s1 h bufb sizeb b I1 NH1 SB) as (x1 & x2 & x3 & E & _ & _ & CO & SH & _).
  rewrite R2 in E. injection E as <- <-.
  assert (reachable env st2) as RE2.
  { replace st2 with (fst (step env s1 (Receive h bufb sizeb))) by (cbn [step]; rewrite R2; reflexivity). now apply reachable_step. }
  assert (pending_acks st2 a = acks_due env st a bufa) as P3.
  { rewrite P2 by exact NAB. exact P1. }
  destruct (W a b c1 RE2) as (before & xs & after & parts & G1 & G2 & G3 & G4); try assumption.
  - rewrite CO by exact NAB. exact C1.
  - unfold host_address. rewrite H1, SH. exact NH1.
  - now rewrite P3.
  - exists before, xs, after. split; [exact G1|]. split; [exact G2|]. exists parts. rewrite <- P3. auto.
Qed.

Lemma receive_outcome env href buf size a st m : reachable env st -> host_address st href = Some a -> 0 < size ->
  deserialize (deser_conf env st) buf = Ok (Some m) -> trusted st a = false -> e_handle env = true ->
  snd (receive_check env st href buf size) =
    {| r_res := match snd (handle (e_cb env) (s_handler st) m) with Some e => Err e | None => Ok (Some m) end;
       r_calls := map (fun s => (s, m)) (fst (handle (e_cb env) (s_handler st) m)) |}.
Proof.
  intros RE NH SZ D T EH. destruct (reachable_good _ _ RE) as [I V].
  destruct (receive_spec env st href buf size a I NH SZ) as (st1 & r1 & c' & E & RC & _). rewrite E. cbn [snd].
  assert (trusted st a = c_trusted (cur st href a)) as TE by (unfold trusted, cur; now destruct (circuit_of st a)).
  rewrite T in TE.
  destruct RC as [e' D'|e' D' S EE|n D' S|m' D' T'|m' D' T']; try congruence. rewrite D in D'. injection D' as <-. now rewrite EH.
Qed.
Lemma trusted_drops env st href a buf size st' r : reachable env st -> host_address st href = Some a -> 0 < size ->
  trusted st a = true -> receive_check env st href buf size = (st', r) ->
  r_calls r = [] /\ (forall m, r_res r <> Ok (Some m)) /\ accepts env st href buf size = None /\
  (forall m, deserialize (deser_conf env st) buf = Ok (Some m) ->
     r_res r = Ok None /\ pending_acks st' a = pending_acks st a /\ outstanding st' a = outstanding st a).
Proof.
  intros RE NH SZ T H. destruct (reachable_good _ _ RE) as [I V].
  destruct (receive_spec env st href buf size a I NH SZ) as (st1 & r1 & c' & E & RC & C1 & _). rewrite E in H. injection H as <- <-.
  assert (trusted st a = c_trusted (cur st href a)) as TE by (unfold trusted, cur; now destruct (circuit_of st a)).
  rewrite T in TE. rewrite (accepts_spec env st href buf size a NH SZ), <- TE.
  rewrite (pending_cur st href a), (outstanding_cur st href a). unfold pending_acks, outstanding. rewrite C1.
  destruct RC as [e' D'|e' D' S EE|n D' S|m' D' T'|m' D' T']; rewrite ?D'; cbn [r_calls r_res];
    try congruence; (split; [reflexivity|]); (split; [discriminate|]); (split; [reflexivity|]); intros m D; try congruence; auto.
Qed.
Lemma receive_escapes env st href a buf size e : reachable env st -> host_address st href = Some a -> 0 < size ->
  deserialize (deser_conf env st) buf = Err e ->
  r_res (snd (receive_check env st href buf size)) = Err e /\ r_calls (snd (receive_check env st href buf size)) = [].
Proof.
  intros RE NH SZ D. destruct (reachable_good _ _ RE) as [I V].
  destruct (receive_spec env st href buf size a I NH SZ) as (st1 & r1 & c' & E & RC & _). rewrite E. cbn [snd].
  destruct RC as [e' D'|e' D' S EE|n D' S|m' D' T'|m' D' T']; try congruence. cbn. split; congruence.
Qed.

Lemma fold_blocks_all (P : block -> Prop) bs : forall d, Forall P bs -> Forall (fun kl : string * list block => Forall P (snd kl)) d ->
  Forall (fun kl : string * list block => Forall P (snd kl)) (fold_left add_block bs d).
Proof.
  induction bs as [|b bs IH]; intros d F D; [exact D|]. inversion F as [|? ? PB F']; subst. cbn [fold_left]. apply IH; [exact F'|].
  assert (forall k l, Forall P l -> Forall (fun kl : string * list block => Forall P (snd kl)) (sset k l d)) as ST.
  { intros k l PL. clear - D PL. induction d as [|[k' l'] d IH]; cbn; [constructor; [exact PL|constructor]|].
    inversion D as [|? ? D1 D2]; subst. destruct (String.eqb k k'); constructor; auto. }
  unfold add_block. destruct (sget (b_name b) d) as [l|] eqn:E; apply ST.
  - apply Forall_app. split; [|constructor; [exact PB|constructor]].
    apply (dget_In _ string_eqb_spec) in E. rewrite Forall_forall in D. exact (D _ E).
  - constructor; [exact PB|constructor].
Qed.
Lemma printable_spec name args :
  Forall (fun b => forall v, In v (b_vars b) -> v_type (snd v) = None /\
                   match v_data (snd v) with VUni u => Forall (fun ch => ch < 128) u | _ => True end) (flat_args args) ->
  Forall (fun b => forall n, In n (b_list b) -> sget n (b_vars b) <> None) (flat_args args) ->
  msg_str_error (mk_message name args) = None.
Proof.
  intros F1 F2. apply prints_bytes_ok. cbn [m_blocks mk_message]. rewrite parse_blocks_flat.
  apply fold_blocks_all; [|constructor].
  rewrite Forall_forall in *. intros b IN. apply Forall_forall. intros n N.
  specialize (F2 b IN n N). destruct (sget n (b_vars b)) as [v|] eqn:E; [|congruence]. exists v.
  apply (dget_In _ string_eqb_spec) in E. destruct (F1 b IN _ E) as [T U]. cbn in T, U. unfold var_text. rewrite T.
  destruct (v_data v) as [| | | |u| | | | | |]; try (eexists; split; reflexivity).
  assert (is_ascii u = true) as ->; [|eexists; split; reflexivity]. apply forallb_forall. rewrite Forall_forall in U. intros ch C.
  apply Z.ltb_lt. now apply U.
Qed.
