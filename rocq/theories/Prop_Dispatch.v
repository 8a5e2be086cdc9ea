(** The dispatcher: C21-C32, C59, and the parts of C10 and C17 that concern it.
    Vocabulary: SpecDispatch.v (with SpecLayout.v, SpecWire.v, SpecCodec.v). *)
From Coq Require Import Permutation.
From Verif Require Import Lib SpecMessages MessageProofs Samples SpecDispatch LayoutProofs PacketMore PacketRules DispatchProofs DispatchMore.

(** ** A concrete dispatcher for the examples *)
Definition d_ack := {| t_name := "PacketAck"; t_freq := Some FIXED; t_num := 251; t_hex := None;
  t_trust := Some LL_NOTRUST; t_enc := Some LL_UNENCODED; t_dep := None;
  t_blocks := [{| tb_name := "Packets"; tb_type := Some MBT_VARIABLE; tb_number := 1;
                  tb_vars := [{| tv_name := "ID"; tv_type := Some MVT_U32; tv_size := Some 4 |}] |}] |}.
Definition d_dict : tdict :=
  match build_dict Py27 (d_ack :: s_ts) with Ok d => d | Err _ => s_dict end.
Definition d_env : denv := {| e_pv := Py27; e_ser_dict := d_dict; e_ser_xml := []; e_des_dict := d_dict; e_des_xml := [];
  e_deferred := true; e_handle := true; e_handle_out := false; e_cb := fun _ _ => None |}.
Definition d_a : addr := (HStr "1.2.3.4", HInt 12). Definition d_b : addr := (HStr "5.6.7.8", HInt 9).
Definition d_sub : sub := {| sb_handler := 1; sb_args := 0 |}.
Definition d_sock : addr -> bytes -> option exn := fun _ _ => None.
(** [s_wire] with sequence number [n], flagged reliable. *)
Definition d_in (n : byte) : bytes := [x40; x00; x00; x00; n] ++ skipn 5 s_wire.
(** The same with an appended ack for id 1. *)
Definition d_in_ack (n : byte) : bytes := [x50; x00; x00; x00; n] ++ skipn 5 s_wire ++ [x01; x00; x00; x00; x01].
Definition d_ops : list op :=
  [NewHost d_a; NewHost d_b; NewMsg s_msg; SetHandler [("Ping"%string, [d_sub])];
   Send 0 0 (Reliable 3) d_sock; Send 0 1 Plain d_sock; Receive 0 (d_in x09) 14; Send 0 0 (Reliable 3) d_sock;
   Receive 0 (d_in_ack x0a) 19].
Definition d_st : dstate := fst (run d_env init_state d_ops).
Example d_reachable : reachable d_env d_st.
Proof. exists d_ops. reflexivity. Qed.

(** ** C21 *)
(** The packets prepared for an address carry the ids 1, 2, 3, ... (counted from
    the creation of the circuit, that is from the last time it was removed). *)
Theorem C21_ids_in_order env ops a k x :
  nth_error (attempts_to a (since_removal a (trace env init_state ops))) k = Some x ->
  m_id (at_msg x) = Z.of_nat k + 1.
Proof. exact (ids_in_order env ops a k x). Qed.
Print Assumptions C21_ids_in_order.
(** The id is the one in the datagram. *)
Theorem C21_ids_on_the_wire env ops x b : In (Attempted x) (trace env init_state ops) -> at_data x = Some b ->
  packet_layout (e_pv env) (e_ser_dict env) (e_ser_xml env) (at_msg x) b /\
  sequence_number b = Some (m_id (at_msg x) mod 2 ^ 32).
Proof.
  intros H E. pose proof (trace_wired env ops init_state x H b E) as L. split; [exact L|]. eapply layout_seq; exact L.
Qed.
Print Assumptions C21_ids_on_the_wire.
(** One attempt per call at most. *)
Theorem C21_one_attempt env st mref href md sock st' o : send_message env st mref href md sock = (st', o) ->
  (List.length (o_sends o) <= 1)%nat.
Proof. intros H. exact (proj2 (send_wired env st mref href md sock st' o H)). Qed.
Print Assumptions C21_one_attempt.
Example C21_ex : map (fun x => (m_id (at_msg x), option_map (@List.length byte) (at_data x)))
    (attempts_to d_a (since_removal d_a (trace d_env init_state d_ops))) = [(1, Some 14%nat); (2, Some 14%nat)] /\
  map (fun x => m_id (at_msg x)) (attempts_to d_b (since_removal d_b (trace d_env init_state d_ops))) = [1].
Proof. vm_compute. split; reflexivity. Qed.
(** After a removal the numbers start again. *)
Example C21_ex_removed : map (fun x => m_id (at_msg x)) (attempts_to d_a (since_removal d_a
    (trace d_env init_state (d_ops ++ [RemoveCircuit d_a; Send 0 0 Plain d_sock])))) = [1].
Proof. vm_compute. reflexivity. Qed.

(** ** C22 *)
Theorem C22_outstanding env ops a n :
  In n (outstanding (fst (run env init_state ops)) a) <->
  unacknowledged a (since_removal a (trace env init_state ops)) n.
Proof. exact (proj2 (history_ledger env ops a) n). Qed.
Print Assumptions C22_outstanding.
Example C22_ex : outstanding d_st d_a = [2] /\ outstanding (fst (run d_env init_state (firstn 8 d_ops))) d_a = [1; 2].
Proof. vm_compute. split; reflexivity. Qed.

(** ** C23 *)
Theorem C23_count env st a c : reachable env st -> circuit_of st a = Some c ->
  c_count c = zlen (c_unacked c) /\ 0 <= c_count c /\ NoDup (outstanding st a) /\
  (forall n, In n (outstanding st a) -> 1 <= n <= c_last_out c).
Proof.
  intros R C. destruct (reachable_good _ _ R) as [I V]. destruct (inv_circ _ I _ _ C) as [K1 K2 K3 K4 K5 K6].
  unfold outstanding. rewrite C. split; [exact K2|]. split; [rewrite K2; apply zlen_nonneg|]. auto.
Qed.
Print Assumptions C23_count.
(** Acks for ids that are not outstanding (never sent, or acknowledged before)
    change nothing. *)
Theorem C23_unknown_acks env st a c ids : reachable env st -> circuit_of st a = Some c ->
  (forall n, In n ids -> ~ In n (outstanding st a)) -> fold_left ack_reliable_packet ids c = c.
Proof.
  intros R C N. destruct (reachable_good _ _ R) as [I V].
  apply (ack_all_spec ids c (inv_circ _ I _ _ C)). intros n H. specialize (N n H). unfold outstanding in N. now rewrite C in N.
Qed.
Print Assumptions C23_unknown_acks.
Theorem C23_twice env st a c id : reachable env st -> circuit_of st a = Some c ->
  ack_reliable_packet (ack_reliable_packet c id) id = ack_reliable_packet c id.
Proof.
  intros R C. destruct (reachable_good _ _ R) as [I V].
  destruct (ack_one_spec c id (inv_circ _ I _ _ C)) as (K & _ & _ & _ & _ & IN & _).
  apply (ack_one_spec _ id K). rewrite IN. tauto.
Qed.
Print Assumptions C23_twice.
(** Acknowledging an outstanding id lowers the count by one. *)
Theorem C23_known_ack env st a c id : reachable env st -> circuit_of st a = Some c -> In id (outstanding st a) ->
  c_count (ack_reliable_packet c id) = c_count c - 1 /\
  forall n, In n (map fst (c_unacked (ack_reliable_packet c id))) <-> In n (outstanding st a) /\ n <> id.
Proof.
  intros R C IN. destruct (reachable_good _ _ R) as [I V]. unfold outstanding in *. rewrite C in *.
  destruct (ack_one_spec c id (inv_circ _ I _ _ C)) as (K & _ & _ & _ & _ & INS & _). split; [|exact INS].
  rewrite (ok_count _ K), (ok_count _ (inv_circ _ I _ _ C)). unfold ack_reliable_packet.
  assert (dmem Z.eqb id (c_unacked c) = true) as M by (apply (Lib.dmem_In _ Lib.zeqb_spec); exact IN).
  rewrite M. assert (dmem Z.eqb id (c_final (set_unacked c (ddel Z.eqb id (c_unacked c)) (c_count c - 1))) = false) as ->.
  { cbn. rewrite (ok_final _ (inv_circ _ I _ _ C)). reflexivity. }
  cbn. apply zdel_zlen. exact IN.
Qed.
Print Assumptions C23_known_ack.
Example C23_ex : exists c, circuit_of d_st d_a = Some c /\ c_count c = 1.
Proof. vm_compute. eexists. split; reflexivity. Qed.

(** ** C24 *)
Theorem C24_nothing_to_resend env st : reachable env st -> s_unackedc st = [].
Proof. intros R. destruct (reachable_good _ _ R) as [I V]. exact (inv_unackedc _ I). Qed.
Print Assumptions C24_nothing_to_resend.
(** All that process_acks ever sends is PacketAck messages. *)
Theorem C24_only_acks env st order sock st' o x : reachable env st -> process_acks env st order sock = (st', o) ->
  In x (o_sends o) -> exists ids, acknowledges (at_msg x) ids.
Proof.
  intros R H IN. destruct (reachable_good _ _ R) as [I V].
  destruct (process_spec _ _ _ _ _ _ I V H) as (_ & _ & _ & _ & _ & F). rewrite Forall_forall in F. exact (F x IN).
Qed.
Print Assumptions C24_only_acks.
(** What was outstanding stays outstanding. *)
Theorem C24_still_outstanding env st order sock st' o a n : reachable env st -> process_acks env st order sock = (st', o) ->
  In n (outstanding st' a) <-> In n (outstanding st a).
Proof. intros R H. exact (process_keeps_outstanding env st order sock st' o R H a n). Qed.
Print Assumptions C24_still_outstanding.
(** send_retry never sends anything either. *)
Theorem C24_retry_fails env st mref href : step env st (Retry mref href) = (st, OSend (out0 (Err AttributeErr))).
Proof. reflexivity. Qed.
Print Assumptions C24_retry_fails.
Example C24_ex : outstanding d_st d_a = [2] /\
  outstanding (fst (process_acks d_env d_st [] d_sock)) d_a = [2] /\
  map (fun x => (at_addr x, m_name (at_msg x))) (o_sends (snd (process_acks d_env d_st [] d_sock))) = [(d_a, "PacketAck"%string)].
Proof. vm_compute. repeat split; reflexivity. Qed.

(** ** C25 *)
Theorem C25_queued env st href a buf size st' r : reachable env st -> host_address st href = Some a -> 0 < size ->
  receive_check env st href buf size = (st', r) ->
  pending_acks st' a = pending_acks st a ++ acks_due env st a buf /\
  (forall b, b <> a -> pending_acks st' b = pending_acks st b).
Proof. exact (receive_queues env st href a buf size st' r). Qed.
Print Assumptions C25_queued.
(** The id of a parsed message is the datagram's sequence number, and it counts as
    reliable when the datagram's RELIABLE bit is set. *)
Theorem C25_number c buf m : deserialize c buf = Ok (Some m) ->
  sequence_number buf = Some (m_id m) /\ exists f tl, buf = f :: tl /\ m_reliable m = bit f reliable_bit.
Proof. exact (parsed_number c buf m). Qed.
Print Assumptions C25_number.
(** An exception: nothing is queued, unless it comes from a subscriber. *)
Theorem C25_exception env st href a buf size st' r e : reachable env st -> host_address st href = Some a -> 0 < size ->
  receive_check env st href buf size = (st', r) -> r_res r = Err e ->
  (acks_due env st a buf = [] /\ r_calls r = [] /\
    (deserialize (deser_conf env st) buf = Err e \/
     deserialize (deser_conf env st) buf = Ok None /\ sequence_number buf = None /\ (e = IndexErr \/ e = DataUnpackingErr))) \/
  (exists m, deserialize (deser_conf env st) buf = Ok (Some m) /\ trusted st a = false /\ e_handle env = true /\
     snd (handle (e_cb env) (s_handler st) m) = Some e).
Proof. exact (receive_raises env st href a buf size st' r e). Qed.
Print Assumptions C25_exception.
(** An empty datagram does nothing at all. *)
Theorem C25_empty env st href a buf size : host_address st href = Some a -> size <= 0 ->
  receive_check env st href buf size = (st, {| r_res := Ok None; r_calls := [] |}).
Proof.
  intros H S. unfold receive_check. unfold host_address in H. rewrite H. destruct (Z.leb_spec size 0); [reflexivity|lia].
Qed.
Print Assumptions C25_empty.
(** Nothing but receiving ever adds to a queue, and only process_acks (or
    removing the circuit) takes from it. *)
Theorem C25_only_receive env st o a : reachable env st ->
  (forall h b n, o <> Receive h b n) -> pending_acks (fst (step env st o)) a = pending_acks st a \/
  (pending_acks (fst (step env st o)) a = [] /\ ((exists k s, o = ProcessAcks k s) \/ o = RemoveCircuit a)).
Proof.
  intros R N. destruct (reachable_good _ _ R) as [I V].
  destruct o as [b|h b|m|r m|r|b t|mref href md sock|mref href|href buf size|order sock|b]; cbn [step fst]; try (left; reflexivity).
  - left. fold (circuit_of st b). destruct (circuit_of st b) as [c|] eqn:C; [|reflexivity]. unfold pending_acks.
    destruct (addr_dec a b) as [->|NB]; [rewrite put_same, C; reflexivity|now rewrite put_other].
  - left. destruct (send_message env st mref href md sock) as [s1 o1] eqn:E. cbn [fst].
    pose proof (send_effect _ _ _ _ _ _ _ _ I E) as EF. unfold pending_acks. destruct (circuit_of st a) as [c|] eqn:C.
    + destruct (ef_old _ _ _ EF a c C) as (c' & -> & _ & -> & _). reflexivity.
    + destruct (circuit_of s1 a) as [c'|] eqn:C'; [|reflexivity]. now destruct (ef_new _ _ _ EF a c' C C').
  - now destruct (N href buf size).
  - destruct (process_acks env st order sock) as [s1 o1] eqn:E. cbn [fst].
    destruct (process_spec _ _ _ _ _ _ I V E) as (FL & _). unfold pending_acks. destruct (circuit_of st a) as [c|] eqn:C.
    + destruct (fl_old _ _ _ _ FL a c C) as (c' & -> & _ & _ & [->|[_ ->]]); [now left|]. right. split; [reflexivity|]. left. eauto.
    + destruct (circuit_of s1 a) as [c'|] eqn:C'; [|now left]. left. now destruct (fl_new _ _ _ _ FL a c' C C').
  - unfold pending_acks, circuit_of, get_circuit, remove_circuit_data. cbn. destruct (addr_dec a b) as [->|NB].
    + destruct (dmem addr_eqb b (s_circuits st)) eqn:M; [|now left]. right. split; [|now right].
      rewrite (Lib.dget_ddel_eq _ addr_eqb_spec) by apply (inv_keys _ I). reflexivity.
    + left. destruct (dmem addr_eqb b (s_circuits st)); [|reflexivity]. now rewrite (Lib.dget_ddel_neq _ addr_eqb_spec).
Qed.
Print Assumptions C25_only_receive.
Example C25_ex : pending_acks d_st d_a = [9; 10] /\ pending_acks d_st d_b = [] /\
  acks_due d_env d_st d_b (d_in x07) = [7] /\
  (* unreliable: none; unparsed (unknown message number 200): its number *)
  acks_due d_env d_st d_b (x00 :: tl (d_in x07)) = [] /\
  acks_due d_env d_st d_b [x00; x00; x00; x00; x05; x00; xc8] = [5] /\
  (* cut in the middle: skipped, yet acknowledged *)
  acks_due d_env d_st d_b (firstn 13 (d_in x07)) = [7].
Proof. vm_compute. repeat split; reflexivity. Qed.

(** ** C26 *)
Theorem C26_flushed env st order sock st' o r : reachable env st -> process_acks env st order sock = (st', o) ->
  o_res o = Ok r ->
  r = None /\ (forall a, pending_acks st' a = []) /\
  exists keys groups, NoDup keys /\ (forall a, In a keys <-> circuit_of st a <> None) /\
    o_sends o = List.concat groups /\
    Forall2 (fun a xs => exists c t, circuit_of st a = Some c /\ host_address st (c_host c) = Some t /\
               acks_sent t (pending_acks st a) xs) keys groups.
Proof.
  intros R H E. destruct (reachable_good _ _ R) as [I V].
  destruct (process_spec _ _ _ _ _ _ I V H) as (_ & ND & IN & RR & _ & _). destruct (RR r E) as (-> & P & groups & G1 & G2).
  split; [reflexivity|]. split; [exact P|]. exists (arrange order (dkeys (s_circuits st))), groups.
  split; [exact ND|]. split; [exact IN|]. split; [exact G1|].
  eapply Forall2_impl'; [|exact G2]. intros a xs (c & t & C & N & S). exists c, t. unfold pending_acks. rewrite C. auto.
Qed.
Print Assumptions C26_flushed.
(** It always succeeds unless a subscriber to outgoing packets raises. *)
Theorem C26_succeeds env st order sock st' o : reachable env st -> process_acks env st order sock = (st', o) ->
  outgoing_quiet env st -> o_res o = Ok None.
Proof.
  intros R H Q. destruct (reachable_good _ _ R) as [I V]. destruct (process_spec _ _ _ _ _ _ I V H) as (_ & _ & _ & _ & X & _). auto.
Qed.
Print Assumptions C26_succeeds.
(** Each of these messages is laid out on the wire as C06 says. *)
Theorem C26_datagrams env st order sock st' o x b : process_acks env st order sock = (st', o) -> In x (o_sends o) ->
  at_data x = Some b -> packet_layout (e_pv env) (e_ser_dict env) (e_ser_xml env) (at_msg x) b.
Proof.
  intros H IN. apply (events_wired env st (ProcessAcks order sock) x). unfold events. cbn [step]. rewrite H. cbn.
  now apply in_map.
Qed.
Print Assumptions C26_datagrams.
(** Every dictionary order is covered. *)
Theorem C26_any_order p keys : NoDup keys -> Permutation p keys -> arrange p keys = p.
Proof. exact (arrange_any p keys). Qed.
Print Assumptions C26_any_order.
Example C26_ex : map (fun x => (at_addr x, at_data x)) (o_sends (snd (process_acks d_env d_st [] d_sock))) =
  [(d_a, Some [x00; x00; x00; x00; x03; x00; xff; xff; xff; xfb; x02; x09; x00; x00; x00; x0a; x00; x00; x00])].
Proof. vm_compute. reflexivity. Qed.
(** 600 pending acks go out in packets of 251, 251 and 98 ids. *)
Definition d_many : dstate := fst (run d_env init_state ([NewHost d_a; SetHandler [("Ping"%string, [])]] ++ repeat (Receive 0 (d_in x07) 14) 600)).
Example C26_ex_many : zlen (pending_acks d_many d_a) = 600 /\
  map (fun x => match sget "Packets"%string (m_blocks (at_msg x)) with Some l => zlen l | None => 0 end)
      (o_sends (snd (process_acks d_env d_many [] d_sock))) = [251; 251; 98].
Proof. vm_compute. split; reflexivity. Qed.

(** ** C27 *)
Theorem C27_has_unacked env st : reachable env st -> (has_unacked st = true <-> exists a, pending_acks st a <> []).
Proof. intros R. destruct (reachable_good _ _ R) as [I V]. exact (has_unacked_spec st (inv_keys _ I)). Qed.
Print Assumptions C27_has_unacked.
Theorem C27_after_processing env st order sock st' o r : reachable env st -> process_acks env st order sock = (st', o) ->
  o_res o = Ok r -> has_unacked st' = false.
Proof.
  intros R H E. destruct (reachable_good _ _ R) as [I V].
  destruct (process_spec _ _ _ _ _ _ I V H) as (FL & _ & _ & RR & _). destruct (RR r E) as (_ & P & _).
  destruct (has_unacked st') eqn:U; [|reflexivity].
  apply has_unacked_spec in U as (a & U); [|apply (inv_keys _ (fl_inv _ _ _ _ FL))]. now rewrite P in U.
Qed.
Print Assumptions C27_after_processing.
Example C27_ex : has_unacked d_st = true /\ has_unacked (fst (process_acks d_env d_st [] d_sock)) = false.
Proof. vm_compute. split; reflexivity. Qed.

(** ** C28 *)
(** What is sent while acks are pending: the ACK flag is set, the Message object
    lists the acks, but the datagram is, flag byte aside, the one that is sent for
    the same message without acks. *)
Theorem C28_acks_not_written env st mref href md sock a m st' o : reachable env st ->
  host_address st href = Some a -> nth_error (s_msgs st) mref = Some m -> host_ok a = true -> outgoing_quiet env st ->
  pending_acks st a <> [] -> m_name m <> "PacketAck"%string ->
  send_message env st mref href md sock = (st', o) ->
  exists x, o_sends o = [x] /\ m_flags (at_msg x) = flags_of md + 2 ^ ack_bit /\
    m_acks (at_msg x) = m_acks m ++ pending_acks st a /\
    forall b, at_data x = Some b -> exists f tl, b = f :: tl /\ bit f ack_bit = true /\
      serialize (e_pv env) (e_ser_dict env) (e_ser_xml env) (reflagged (flags_of md) [] (at_msg x)) =
        Ok (Some (chr (flags_of md) :: tl)).
Proof.
  intros RE NH NM HO Q PA NN H.
  destruct (send_seen env st mref href md sock a m st' o RE NH NM HO Q H)
    as (x & S & AA & MN & MB & FA & ID & AD & _).
  assert (negb (match pending_acks st a with [] => true | _ => false end) && negb (String.eqb (m_name m) "PacketAck") = true)%bool as P.
  { destruct (pending_acks st a); [congruence|]. destruct (String.eqb_spec (m_name m) "PacketAck"); [contradiction|reflexivity]. }
  cbv zeta in FA. rewrite P in FA. destruct FA as [FL AC].
  exists x. split; [exact S|]. split; [exact FL|]. split; [exact AC|]. intros b B.
  pose proof (proj1 (send_wired env st mref href md sock st' o H)) as W. rewrite S in W. inversion W as [|? ? W1 _]; subst.
  specialize (W1 b B). destruct (layout_first _ _ _ _ _ W1) as (f & tl & -> & FV).
  exists f, tl. split; [reflexivity|]. rewrite FL in FV. split.
  - unfold bit. rewrite FV. destruct md; reflexivity.
  - apply serialize_layout. apply layout_reflag with f; [exact W1|]. right. destruct md; cbn; lia.
Qed.
Print Assumptions C28_acks_not_written.
(** The datagram does not depend on which acks are pending. *)
Theorem C28_independent env st1 st2 mref1 mref2 href1 href2 md sock a1 a2 m st1' o1 st2' o2 x1 x2 b1 b2 :
  reachable env st1 -> reachable env st2 ->
  host_address st1 href1 = Some a1 -> nth_error (s_msgs st1) mref1 = Some m -> host_ok a1 = true -> outgoing_quiet env st1 ->
  host_address st2 href2 = Some a2 -> nth_error (s_msgs st2) mref2 = Some m -> host_ok a2 = true -> outgoing_quiet env st2 ->
  pending_acks st1 a1 <> [] -> pending_acks st2 a2 <> [] ->
  send_message env st1 mref1 href1 md sock = (st1', o1) -> send_message env st2 mref2 href2 md sock = (st2', o2) ->
  In x1 (o_sends o1) -> In x2 (o_sends o2) -> at_data x1 = Some b1 -> at_data x2 = Some b2 ->
  m_id (at_msg x1) = m_id (at_msg x2) -> b1 = b2.
Proof.
  intros RE1 RE2 NH1 NM1 HO1 Q1 NH2 NM2 HO2 Q2 PA1 PA2 H1 H2 I1 I2 B1 B2 ID.
  destruct (send_seen _ _ _ _ _ _ _ _ _ _ RE1 NH1 NM1 HO1 Q1 H1) as (y1 & S1 & _ & N1 & BL1 & F1 & _).
  destruct (send_seen _ _ _ _ _ _ _ _ _ _ RE2 NH2 NM2 HO2 Q2 H2) as (y2 & S2 & _ & N2 & BL2 & F2 & _).
  pose proof (proj1 (send_wired _ _ _ _ _ _ _ _ H1)) as W1. pose proof (proj1 (send_wired _ _ _ _ _ _ _ _ H2)) as W2.
  rewrite S1 in *. rewrite S2 in *. destruct I1 as [<-|[]]. destruct I2 as [<-|[]].
  inversion W1 as [|? ? L1 _]; subst. inversion W2 as [|? ? L2 _]; subst. specialize (L1 _ B1). specialize (L2 _ B2).
  apply serialize_layout in L1, L2. rewrite (serialize_only _ _ _ (at_msg y1) (at_msg y2)) in L1; try congruence.
  cbv zeta in F1, F2. destruct (pending_acks st1 a1); [congruence|]. destruct (pending_acks st2 a2); [congruence|].
  destruct F1 as [-> _], F2 as [-> _]. reflexivity.
Qed.
Print Assumptions C28_independent.
(** What a receiver running this library makes of a datagram flagged ACK: the ids
    it believes to be acknowledged are whatever the last 1 + 4*c bytes say, c being
    the last byte; if the datagram is not longer than that, IndexError. *)
Theorem C28_receiver pv ts c handled f tl m : build_dict pv ts = Ok (dc_dict c) -> Forall sized ts -> dc_handled c = Some handled ->
  bit f ack_bit = true -> deserialize c (f :: tl) = Ok (Some m) ->
  exists front trailer, f :: tl = front ++ trailer /\ ack_trailer trailer (m_acks m).
Proof.
  intros B S H A D. apply (PacketProofs.deserialize_says pv ts c handled _ _ B S H) in D.
  destruct D as (plain & tr & ids & t & g & n & h & rest0 & U & _ & _ & _ & _ & _ & _ & flags & id & off & after & body & rest & bs &
     _ & _ & _ & _ & _ & _ & _ & _ & _ & -> & _).
  destruct U as (f0 & tl0 & coded & E & _ & T & _). injection E as <- E. rewrite A in T.
  exists (f :: tl0), tr. split; [cbn; congruence|exact T].
Qed.
Print Assumptions C28_receiver.
Theorem C28_receiver_fails c f tl l b : bit f ack_bit = true -> f :: tl = l ++ [b] -> zlen (f :: tl) <= 1 + 4 * byte_value b ->
  deserialize c (f :: tl) = Err IndexErr.
Proof. intros A E L. apply failure_eq. eapply hf_trailer; eauto. Qed.
Print Assumptions C28_receiver_fails.
(** In the example the ack for 9 is pending, and 2 goes out in the datagram
    whose last byte, 5, is data: 1 + 4*5 exceeds its length. *)
Example C28_ex :
  let st := fst (run d_env init_state (firstn 7 d_ops)) in
  let b := [x50; x00; x00; x00; x02; x00; x03; x07; x01; x03; x68; x69; x00; x05] in
  pending_acks st d_a = [9] /\
  map (fun x => (m_acks (at_msg x), at_data x)) (o_sends (snd (send_message d_env st 0 0 (Reliable 3) d_sock))) = [([9], Some b)] /\
  deserialize (deser_conf d_env d_st) b = Err IndexErr.
Proof. vm_compute. repeat split; reflexivity. Qed.

(** ** C29 *)
(** If every circuit's Host object still has the circuit's address, the acks for
    an address are sent to that address. *)
Theorem C29_right_host env st order sock st' o r : reachable env st -> hosts_kept st ->
  process_acks env st order sock = (st', o) -> o_res o = Ok r ->
  exists keys groups, NoDup keys /\ (forall a, In a keys <-> circuit_of st a <> None) /\ o_sends o = List.concat groups /\
    Forall2 (fun a xs => acks_sent a (pending_acks st a) xs) keys groups.
Proof.
  intros R K H E. destruct (C26_flushed env st order sock st' o r R H E) as (_ & _ & keys & groups & ND & IN & G & F).
  exists keys, groups. split; [exact ND|]. split; [exact IN|]. split; [exact G|].
  eapply Forall2_impl'; [|exact F]. intros a xs (c & t & C & N & S). rewrite (K a c C) in N. injection N as <-. exact S.
Qed.
Print Assumptions C29_right_host.
(** In general they go to the address that the circuit's Host object has now. *)
Theorem C29_wrong_host env st order sock st' o r a b c : reachable env st -> circuit_of st a = Some c ->
  host_address st (c_host c) = Some b -> host_ok b = true -> pending_acks st a <> [] ->
  process_acks env st order sock = (st', o) -> o_res o = Ok r ->
  exists before xs after parts, o_sends o = before ++ xs ++ after /\ xs <> [] /\ packs (pending_acks st a) parts /\
    Forall2 (fun x p => at_addr x = b /\ acknowledges (at_msg x) p) xs parts.
Proof.
  intros R C N HO P H E. destruct (C26_flushed env st order sock st' o r R H E) as (_ & _ & keys & groups & ND & IN & G & F).
  assert (In a keys) as IK by (apply IN; congruence).
  apply in_split in IK as (k1 & k2 & ->). apply Forall2_app_inv_l in F as (g1 & g2 & _ & F & ->).
  inversion F as [|? xs ? g3 (c' & t & C' & N' & S) _ E1 E2]; subst. rewrite C in C'. injection C' as <-.
  rewrite N in N'. injection N' as <-. unfold acks_sent in S. rewrite HO in S. destruct S as (parts & PK & F2).
  exists (List.concat g1), xs, (List.concat g3), parts.
  split; [rewrite G, concat_app; reflexivity|]. split; [|auto]. intros ->. inversion F2; subst. destruct PK as (PK & _). cbn in PK.
  congruence.
Qed.
Print Assumptions C29_wrong_host.
(** NetUDPClient reuses one Host object for every datagram received: a datagram
    from [a], then one from [b], both addresses new.  Then the acks for [a] go
    to [b]. *)
Theorem C29_shared_host env st h a b bufa bufb sizea sizeb st1 r1 st2 r2 order sock st' o r :
  reachable env st -> host_address st h <> None -> circuit_of st a = None -> a <> b -> host_ok b = true ->
  0 < sizea -> 0 < sizeb ->
  receive_check env (fst (step env st (SetHost h a))) h bufa sizea = (st1, r1) -> acks_due env st a bufa <> [] ->
  receive_check env (fst (step env st1 (SetHost h b))) h bufb sizeb = (st2, r2) ->
  process_acks env st2 order sock = (st', o) -> o_res o = Ok r ->
  exists before xs after, o_sends o = before ++ xs ++ after /\ xs <> [] /\
    exists parts, packs (acks_due env st a bufa) parts /\
    Forall2 (fun x p => at_addr x = b /\ acknowledges (at_msg x) p) xs parts.
Proof. exact (shared_host env st h a b bufa bufb sizea sizeb st1 r1 st2 r2 order sock st' o r
  (C29_wrong_host env st2 order sock st' o r)). Qed.
Print Assumptions C29_shared_host.
Example C29_ex :
  let ops := [NewHost d_a; SetHandler [("Ping"%string, [d_sub])]; Receive 0 (d_in x09) 14; SetHost 0 d_b; Receive 0 (d_in x21) 14] in
  let st := fst (run d_env init_state ops) in
  pending_acks st d_a = [9] /\ pending_acks st d_b = [33] /\
  map at_addr (o_sends (snd (process_acks d_env st [] d_sock))) = [d_b; d_b].
Proof. vm_compute. repeat split; reflexivity. Qed.

(** ** C30 *)
Definition printable (m : message) : Prop := msg_str_error m = None.
Theorem C30_contained env st mref href md sock a m st' o : reachable env st ->
  host_address st href = Some a -> nth_error (s_msgs st) mref = Some m -> host_ok a = true -> outgoing_quiet env st ->
  send_message env st mref href md sock = (st', o) ->
  exists x, o_sends o = [x] /\ at_addr x = a /\ m_name (at_msg x) = m_name m /\ m_blocks (at_msg x) = m_blocks m /\
    (* it works *)
    (forall b, serialize (e_pv env) (e_ser_dict env) (e_ser_xml env) (at_msg x) = Ok (Some b) -> sock a b = None ->
       at_data x = Some b /\ o_res o = Ok (Some b) /\ s_out st' = s_out st + 1) /\
    (* it does not *)
    ((forall b, serialize (e_pv env) (e_ser_dict env) (e_ser_xml env) (at_msg x) = Ok (Some b) -> sock a b <> None) ->
       at_data x = None /\ s_out st' = s_out st /\ (printable m -> o_res o = Ok None)) /\
    (* the bookkeeping is done in both cases *)
    (forall c', circuit_of st' a = Some c' -> c_last_out c' = m_id (at_msg x)) /\
    (forall n, md = Reliable n -> In (m_id (at_msg x)) (outstanding st' a)).
Proof.
  intros RE NH NM HO Q H.
  destruct (send_seen env st mref href md sock a m st' o RE NH NM HO Q H)
    as (x & S & AA & MN & MB & _ & ID & AD & OR & SO & _ & LI & OU & _).
  exists x. split; [exact S|]. split; [exact AA|]. split; [exact MN|]. split; [exact MB|].
  split; [|split; [|split]].
  - intros b E K. unfold put_on_wire in AD. rewrite E, K in AD. cbn in AD. rewrite AD in *. auto.
  - intros N. assert (at_data x = None) as D.
    { rewrite AD. unfold put_on_wire. destruct (serialize (e_pv env) (e_ser_dict env) (e_ser_xml env) (at_msg x)) as [[b|]|e]; try reflexivity.
      specialize (N b eq_refl). destruct (sock a b); [reflexivity|congruence]. }
    rewrite D in *. split; [reflexivity|]. split; [lia|]. intros P. rewrite OR. apply contain_ok.
    unfold printable, msg_str_error, data_text in *. now rewrite MN, MB.
  - intros c' C. unfold last_id in LI, ID. rewrite C in LI. congruence.
  - intros n ->. rewrite OU. apply in_or_app. right. now left.
Qed.
Print Assumptions C30_contained.
(** Values given by keyword are printable, except for unicode with a non-ASCII
    character. *)
Theorem C30_printable name args :
  Forall (fun b => forall v, In v (b_vars b) -> v_type (snd v) = None /\
                   match v_data (snd v) with VUni u => Forall (fun ch => ch < 128) u | _ => True end) (flat_args args) ->
  Forall (fun b => forall n, In n (b_list b) -> sget n (b_vars b) <> None) (flat_args args) ->
  printable (mk_message name args).
Proof. exact (printable_spec name args). Qed.
Print Assumptions C30_printable.
(** An unusable host: nothing happens at all. *)
Theorem C30_bad_host env st mref href md sock a m : host_address st href = Some a -> nth_error (s_msgs st) mref = Some m ->
  host_ok a = false -> send_message env st mref href md sock = (st, out0 (Ok None)).
Proof.
  intros NH NM HO. destruct (send_nothing env st mref href md sock) as (o & E & _ & R & _).
  { unfold host_address in NH. rewrite NH, NM. now left. }
  rewrite E, (R a NH HO) by congruence. reflexivity.
Qed.
Print Assumptions C30_bad_host.
Theorem C30_bad_host_means ip port : host_ok (ip, port) = false <->
  ip = HNone \/ ip = HInt 0 \/ port = HNone \/ port = HInt 0.
Proof.
  unfold host_ok. cbn [fst snd]. rewrite andb_false_iff.
  destruct ip as [|z|s], port as [|z'|s']; cbn; rewrite ?negb_false_iff, ?Z.eqb_eq; split; intros H;
    repeat match goal with H : _ \/ _ |- _ => destruct H end; try discriminate; subst; auto 6;
    repeat match goal with H : HInt _ = HInt _ |- _ => injection H as -> end; auto.
Qed.
Print Assumptions C30_bad_host_means.
(** A subscriber to outgoing packets that raises: nothing is prepared, and its
    exception escapes. *)
Theorem C30_subscriber_raises env st mref href md sock a m e : host_address st href = Some a ->
  nth_error (s_msgs st) mref = Some m -> host_ok a = true -> e_handle_out env = true ->
  snd (handle (e_cb env) (s_handler st) m) = Some e ->
  exists o, send_message env st mref href md sock = (st, o) /\ o_res o = Err e /\ o_sends o = [].
Proof.
  intros NH NM HO EO HE. assert (out_error env st m = Some e) as OE by (unfold out_error; now rewrite EO).
  destruct (send_nothing env st mref href md sock) as (o & E & S & _ & R).
  { unfold host_address in NH. rewrite NH, NM. right. eauto. }
  exists o. split; [exact E|]. rewrite (R a m e NH HO NM OE). auto.
Qed.
Print Assumptions C30_subscriber_raises.
(** A message with a value that does not fit (7 + 256): no datagram, yet id 3 is
    used up and waits for its ack. *)
Definition d_bad : message :=
  mk_message "Ping" [One (mk_block "A" [("X"%string, VInt 263)]); One (mk_block "B" [("X"%string, VInt 1); ("Y"%string, VStr [])])].
Example C30_ex : let '(st', o) := send_message d_env (fst (run d_env d_st [NewMsg d_bad])) 1 0 (Reliable 1) d_sock in
  o_res o = Ok None /\ map at_data (o_sends o) = [None] /\ s_out st' = s_out d_st /\ outstanding st' d_a = [2; 3].
Proof. vm_compute. repeat split; reflexivity. Qed.
(** The socket fails: the same. *)
Example C30_ex_socket : let '(st', o) := send_message d_env d_st 0 0 (Reliable 1) (fun _ _ => Some (Raised 5)) in
  o_res o = Ok None /\ map at_data (o_sends o) = [None] /\ s_out st' = s_out d_st /\ outstanding st' d_a = [2; 3].
Proof. vm_compute. repeat split; reflexivity. Qed.
(** An unprintable message lets an exception escape. *)
Example C30_ex_escapes : let m := mk_message "Ping" [One (mk_block "A" [("X"%string, VUni [233])])] in
  ~ printable m /\ o_res (snd (send_message d_env (fst (run d_env d_st [NewMsg m])) 1 0 Plain d_sock)) = Err ValueErr.
Proof. vm_compute. split; [discriminate|reflexivity]. Qed.

(** ** C31 *)
Theorem C31_no_dedup env href buf size a k st : reachable env st -> host_address st href = Some a -> 0 < size ->
  snd (run env st (repeat (Receive href buf size) k)) = repeat (ORecv (snd (receive_check env st href buf size))) k /\
  pending_acks (fst (run env st (repeat (Receive href buf size) k))) a =
    pending_acks st a ++ List.concat (repeat (acks_due env st a buf) k).
Proof. exact (repeat_receive env href buf size a k st). Qed.
Print Assumptions C31_no_dedup.
(** What one of these outcomes is. *)
Theorem C31_outcome env href buf size a st m : reachable env st -> host_address st href = Some a -> 0 < size ->
  deserialize (deser_conf env st) buf = Ok (Some m) -> trusted st a = false -> e_handle env = true ->
  snd (receive_check env st href buf size) =
    {| r_res := match snd (handle (e_cb env) (s_handler st) m) with Some e => Err e | None => Ok (Some m) end;
       r_calls := map (fun s => (s, m)) (fst (handle (e_cb env) (s_handler st) m)) |}.
Proof. exact (receive_outcome env href buf size a st m). Qed.
Print Assumptions C31_outcome.
Example C31_ex : let '(st', xs) := run d_env d_st (repeat (Receive 0 (d_in x09) 14) 3) in
  pending_acks st' d_a = [9; 10; 9; 9; 9] /\
  map (fun x => match x with ORecv r => map fst (r_calls r) | _ => [] end) xs = [[d_sub]; [d_sub]; [d_sub]].
Proof. vm_compute. split; reflexivity. Qed.

(** ** C32 *)
Theorem C32_isolated env st o a : reachable env st -> ~ concerns st o a ->
  circuit_of (fst (step env st o)) a = circuit_of st a.
Proof. exact (step_isolated env st o a). Qed.
Print Assumptions C32_isolated.
Theorem C32_created_once env st o a c : reachable env st -> circuit_of st a = Some c -> o <> RemoveCircuit a ->
  exists c', circuit_of (fst (step env st o)) a = Some c' /\ c_host c' = c_host c /\ c_last_out c <= c_last_out c'.
Proof. exact (step_keeps env st o a c). Qed.
Print Assumptions C32_created_once.
Theorem C32_created_by_receive env st href a buf size st' r : reachable env st -> host_address st href = Some a -> 0 < size ->
  receive_check env st href buf size = (st', r) ->
  exists c', circuit_of st' a = Some c' /\ c_host c' = match circuit_of st a with Some c => c_host c | None => href end.
Proof. exact (created_by_receive env st href a buf size st' r). Qed.
Print Assumptions C32_created_by_receive.
Theorem C32_created_by_send env st mref href md sock a m st' o : reachable env st ->
  host_address st href = Some a -> nth_error (s_msgs st) mref = Some m -> host_ok a = true -> outgoing_quiet env st ->
  send_message env st mref href md sock = (st', o) ->
  exists c', circuit_of st' a = Some c' /\ c_host c' = match circuit_of st a with Some c => c_host c | None => href end.
Proof.
  intros RE NH NM HO Q H. destruct (send_seen env st mref href md sock a m st' o RE NH NM HO Q H)
    as (x & _ & _ & _ & _ & _ & _ & _ & _ & _ & _ & _ & _ & C & _). exact C.
Qed.
Print Assumptions C32_created_by_send.
Theorem C32_removed env st a : reachable env st -> circuit_of (fst (step env st (RemoveCircuit a))) a = None.
Proof.
  intros R. destruct (reachable_good _ _ R) as [I V]. unfold circuit_of, get_circuit. cbn. unfold remove_circuit_data.
  destruct (dmem addr_eqb a (s_circuits st)) eqn:M.
  - apply (dget_ddel_eq _ addr_eqb_spec), (inv_keys _ I).
  - apply (dget_None _ addr_eqb_spec). intros H. apply (dmem_In _ addr_eqb_spec) in H. congruence.
Qed.
Print Assumptions C32_removed.
(** is_circuit_alive: whether there is a circuit; nothing ever marks one dead. *)
Theorem C32_alive env st a : reachable env st ->
  (is_circuit_alive (s_circuits st) a = true <-> circuit_of st a <> None).
Proof.
  intros R. destruct (reachable_good _ _ R) as [I V]. unfold circuit_of, get_circuit, is_circuit_alive.
  destruct (dget addr_eqb a (s_circuits st)) as [c|] eqn:E; [|split; [discriminate|congruence]].
  rewrite (ok_alive _ (inv_circ _ I a c E)). split; [discriminate|reflexivity].
Qed.
Print Assumptions C32_alive.
(** The last packet id received is not kept: it stays at -1, whatever arrives. *)
Theorem C32_last_in env st a c : reachable env st -> circuit_of st a = Some c -> c_last_in c = -1.
Proof. intros R E. destruct (reachable_good _ _ R) as [I V]. exact (ok_in _ (inv_circ _ I a c E)). Qed.
Print Assumptions C32_last_in.
Example C32_ex : (exists c, circuit_of d_st d_a = Some c /\ c_host c = 0%nat) /\
  ~ concerns d_st (Send 0 0 Plain d_sock) d_b /\ circuit_of d_st d_b <> None.
Proof. vm_compute. split; [eexists; split; reflexivity|]. split; discriminate. Qed.

(** ** C59 *)
(** On a circuit marked trusted nothing is ever delivered or returned. *)
Theorem C59_trusted_drops env st href a buf size st' r : reachable env st -> host_address st href = Some a -> 0 < size ->
  trusted st a = true -> receive_check env st href buf size = (st', r) ->
  r_calls r = [] /\ (forall m, r_res r <> Ok (Some m)) /\ accepts env st href buf size = None /\
  (forall m, deserialize (deser_conf env st) buf = Ok (Some m) ->
     r_res r = Ok None /\ pending_acks st' a = pending_acks st a /\ outstanding st' a = outstanding st a).
Proof. exact (trusted_drops env st href a buf size st' r). Qed.
Print Assumptions C59_trusted_drops.
(** Because a deserialized message is never marked trusted. *)
Theorem C59_never_trusted c buf m : deserialize c buf = Ok (Some m) -> m_trusted m = false.
Proof. intros D. apply (deserialize_header c buf m D). Qed.
Print Assumptions C59_never_trusted.
Example C59_ex : let st := fst (step d_env d_st (SetTrusted d_a true)) in
  trusted st d_a = true /\ (exists m, deserialize (deser_conf d_env st) (d_in x09) = Ok (Some m)) /\
  snd (receive_check d_env st 0 (d_in x09) 14) = {| r_res := Ok None; r_calls := [] |}.
Proof. vm_compute. split; [reflexivity|]. split; [eexists; reflexivity|reflexivity]. Qed.

(** ** C10 and C17 at the dispatcher *)
Theorem C10_escapes env st href a buf size e : reachable env st -> host_address st href = Some a -> 0 < size ->
  deserialize (deser_conf env st) buf = Err e ->
  r_res (snd (receive_check env st href buf size)) = Err e /\ r_calls (snd (receive_check env st href buf size)) = [].
Proof. exact (receive_escapes env st href a buf size e). Qed.
Print Assumptions C10_escapes.
(** Which names are parsed: those registered with the message handler, whether or
    not anybody subscribed; all, when deferred parsing is off. *)
Theorem C17_registered env st name : dc_handled (deser_conf env st) = Some (is_message_handled (s_handler st)) /\
  (is_message_handled (s_handler st) name = true <-> sget name (s_handler st) <> None).
Proof.
  split; [reflexivity|]. unfold is_message_handled. destruct (sget name (s_handler st)); split; congruence.
Qed.
Print Assumptions C17_registered.
