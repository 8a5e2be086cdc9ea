(** What becomes of a circuit that has numbered very many packets: C90.
    Vocabulary: SpecDispatch.v, SpecNetwork.v ([last_number]). *)
From Verif Require Import Lib Samples SpecNetwork LayoutProofs PacketProofs PacketMore PacketRules DispatchProofs DispatchMore Prop_Dispatch.
Open Scope Z_scope.
Open Scope list_scope.

(** The packets prepared for [a] since its circuit was created. *)
Definition prepared (env : denv) (ops : list op) (a : addr) : list attempt :=
  attempts_to a (since_removal a (trace env init_state ops)).
(** Those of them that were handed to the socket. *)
Definition handed_over (x : attempt) : bool := match at_data x with Some _ => true | None => false end.
(** The circuit for [a] is spent: it has given out 2^31 - 1 numbers. *)
Definition spent (st : dstate) (a : addr) : Prop := 2 ^ 31 - 1 <= last_number st a.

(** ** Proofs *)
Lemma number_last st a : last_number st a = last_id st a.
Proof. reflexivity. Qed.
Lemma wired27 env x b : wired env x -> e_pv env = Py27 -> at_data x = Some b ->
  m_id (at_msg x) < 2 ^ 31 /\ sequence_number b = Some (m_id (at_msg x) mod 2 ^ 32).
Proof.
  intros W P D. specialize (W b D). split; [|exact (layout_seq _ _ _ _ _ W)].
  destruct W as (t & f & id & num & ws & tl & _ & _ & _ & _ & _ & _ & _ & [X|[_ X]] & _); [congruence|exact X].
Qed.
Lemma attempts_in a tr x : In x (attempts_to a tr) <-> In (Attempted x) tr /\ at_addr x = a.
Proof.
  unfold attempts_to. rewrite in_flat_map. split.
  - intros (e & I & H). destruct e as [y| |]; try contradiction. destruct (addr_eqb a (at_addr y)) eqn:E; [|contradiction].
    destruct H as [->|[]]. apply addr_eqb_spec in E. auto.
  - intros (I & <-). exists (Attempted x). rewrite addr_eqb_refl. split; [exact I|now left].
Qed.
Lemma since_sub a tr : forall e, In e (since_removal a tr) -> In e tr.
Proof.
  induction tr as [|x tr IH] using rev_ind; [intros ? []|]. intros e. rewrite since_snoc. destruct (removes a x); [intros []|].
  intros H. apply in_app_or in H as [H|H]; apply in_or_app; auto.
Qed.
Lemma prepared_wired env ops a k x : nth_error (prepared env ops a) k = Some x -> wired env x.
Proof.
  intros H. apply nth_error_In, attempts_in in H as [H _]. apply since_sub in H. exact (trace_wired _ _ _ _ H).
Qed.
Lemma filter_bound {A} (p : A -> bool) (l : list A) : forall n : nat,
  (forall k x, nth_error l k = Some x -> p x = true -> (k < n)%nat) -> (List.length (filter p l) <= n)%nat.
Proof.
  induction l as [|y l IH]; intros n H; [cbn; lia|]. cbn [filter]. destruct n as [|n].
  - destruct (p y) eqn:P; [specialize (H 0%nat y eq_refl P); lia|]. apply IH. intros k x E X. specialize (H (S k) x E X). lia.
  - assert (List.length (filter p l) <= n)%nat as L by (apply IH; intros k x E X; specialize (H (S k) x E X); lia).
    destruct (p y); cbn; lia.
Qed.
Lemma trace_app env ops1 : forall st ops2, trace env st (ops1 ++ ops2) = trace env st ops1 ++ trace env (fst (run env st ops1)) ops2.
Proof.
  induction ops1 as [|o ops1 IH]; intros st ops2; [reflexivity|]. cbn [app trace]. rewrite IH, run_fst, app_assoc. reflexivity.
Qed.
Lemma run_app env ops1 : forall st ops2, fst (run env st (ops1 ++ ops2)) = fst (run env (fst (run env st ops1)) ops2).
Proof. induction ops1 as [|o ops1 IH]; intros st ops2; [reflexivity|]. cbn [app]. rewrite !run_fst. apply IH. Qed.
Lemma prepared_count env ops a : Z.of_nat (List.length (prepared env ops a)) = last_number (fst (run env init_state ops)) a.
Proof.
  destruct (history_ledger env ops a) as [L _]. rewrite number_last. apply (f_equal (@List.length Z)) in L.
  rewrite map_length, zseq_length in L. unfold prepared. rewrite L. apply Z2Nat.id.
  destruct (reachable_good env (fst (run env init_state ops)) ltac:(now exists ops)) as [I _]. unfold last_id.
  destruct (circ (fst (run env init_state ops)) a) as [c|] eqn:C; [|lia]. pose proof (ok_last _ (inv_circ _ I _ _ C)). lia.
Qed.
Lemma no_removal_events env st o a : (o <> RemoveCircuit a) -> existsb (removes a) (events env st o) = false.
Proof.
  intros N. destruct o as [b|h b|m|r m|r|b t|mref href md sock|mref href|href buf size|order sock|b]; unfold events; cbn [step snd]; try reflexivity.
  + destruct (send_message env st mref href md sock) as [s1 o1]. cbn. induction (o_sends o1); [reflexivity|exact IHl].
  + destruct (accepts env st href buf size) as [[? ?]|]; reflexivity.
  + destruct (process_acks env st order sock) as [s1 o1]. cbn. induction (o_sends o1); [reflexivity|exact IHl].
  + cbn. rewrite addr_eqb_neq by congruence. reflexivity.
Qed.
Lemma no_removal_trace env a ops : ~ In (RemoveCircuit a) ops -> forall st, existsb (removes a) (trace env st ops) = false.
Proof.
  induction ops as [|o ops IH]; intros N st; [reflexivity|]. cbn [trace]. rewrite existsb_app, no_removal_events, IH; auto.
  - intros I. apply N. now right.
  - intros ->. apply N. now left.
Qed.
(** The packets an operation prepares have later numbers than all before. *)
Lemma later_ids env st o x : reachable env st -> In (Attempted x) (events env st o) ->
  last_number st (at_addr x) < m_id (at_msg x).
Proof.
  intros (ops & ->) I. set (a := at_addr x).
  assert (o <> RemoveCircuit a) as N by (intros ->; cbn in I; destruct I as [I|[]]; discriminate).
  assert (prepared env (ops ++ [o]) a = prepared env ops a ++ attempts_to a (events env (fst (run env init_state ops)) o)) as E.
  { unfold prepared. rewrite trace_app. cbn [trace]. rewrite app_nil_r, since_grows, attempts_app by now apply no_removal_events. reflexivity. }
  assert (In x (attempts_to a (events env (fst (run env init_state ops)) o))) as J by (apply attempts_in; auto).
  apply In_nth_error in J as (k & J).
  assert (nth_error (prepared env (ops ++ [o]) a) (List.length (prepared env ops a) + k) = Some x) as H.
  { rewrite E, nth_error_app2 by lia. replace (_ + k - _)%nat with k by lia. exact J. }
  apply ids_in_order in H. rewrite H, <- prepared_count. lia.
Qed.
Lemma spent_fails env st o x : reachable env st -> e_pv env = Py27 -> In (Attempted x) (events env st o) ->
  spent st (at_addr x) -> at_data x = None.
Proof.
  intros R P I S. pose proof (later_ids env st o x R I) as L. destruct (at_data x) as [b|] eqn:D; [|reflexivity].
  destruct (wired27 env x b (events_wired env st o x I) P D) as [B _]. unfold spent in S. lia.
Qed.
(** Acknowledged ids are 32-bit numbers. *)
Lemma unpack_u32_range data pos z : unpack_z data MVT_U32 pos None = Ok z -> 0 <= z < 2 ^ 32.
Proof.
  unfold unpack_z, unpack_data.
  destruct (if pos =? -1 then Ok data else if -1 =? -1 then match sizeof (Some MVT_U32) with Some n => Ok (pyslice data pos (pos + n)) | None => Err TypeErr end else Ok (pyslice data pos (pos + -1))) as [d|e];
    cbn [bind]; [|discriminate].
  unfold unpack_raw. cbn [unpacker_table]. unfold unpack_int. destruct (Nat.eqb_spec (List.length d) 4) as [E|]; [|discriminate].
  cbn [res_map wrap_struct_error bind]. intros [= <-]. cbn [dec].
  pose proof (le_val_range d) as H. unfold zlen in H. rewrite E in H. exact H.
Qed.
Lemma read_acks_range d n : forall pos l, read_acks d pos n = Ok l -> Forall (fun i => 0 <= i < 2 ^ 32) l.
Proof.
  induction n as [|n IH]; intros pos l; cbn [read_acks]; [intros [= <-]; constructor|]. intros H. inv_bind H. inv_bind H.
  injection H as <-. constructor; [exact (unpack_u32_range _ _ _ Ha)|exact (IH _ _ Ha0)].
Qed.
Lemma decoded_acks_range c buf m : deserialize c buf = Ok (Some m) -> Forall (fun i => 0 <= i < 2 ^ 32) (m_acks m).
Proof.
  unfold deserialize. intros H. inv_bind H. destruct a as [b1 tr]. inv_bind H. inv_bind H.
  destruct a0 as [t|]; [|discriminate]. inv_bind H. destruct (negb a0); [discriminate|].
  destruct (dc_handled c); [|discriminate]. destruct (_ || _)%bool; [|discriminate].
  assert (decode_data t (a ++ tr) = Ok (Some m)) as D.
  { destruct (decode_data t (a ++ tr)) as [r|e]; [exact H|]. destruct e; discriminate. }
  clear H. unfold decode_data in D. inv_bind D. inv_bind D. inv_bind D. inv_bind D. inv_bind D. inv_bind D.
  destruct a6 as [[d pos]|]; [|discriminate]. destruct (_ && _)%bool; [discriminate|]. injection D as <-. cbn [m_acks].
  destruct (has_flag _ _); [|injection Ha5 as <-; constructor].
  inv_bind Ha5. exact (read_acks_range _ _ _ _ Ha5).
Qed.
Lemma accepted_acks env a m ops : forall st, In (Accepted a m) (trace env st ops) -> Forall (fun i => 0 <= i < 2 ^ 32) (m_acks m).
Proof.
  induction ops as [|o ops IH]; intros st; cbn [trace]; [intros []|]. intros I. apply in_app_or in I as [I|I]; [|exact (IH _ I)].
  destruct o as [b|h b|m'|r m'|r|b t|mref href md sock|mref href|href buf size|order sock|b]; unfold events in I; cbn [step snd] in I; try contradiction.
  - destruct (send_message env st mref href md sock) as [s1 o1]. cbn in I. apply in_map_iff in I as (x & [=] & _).
  - unfold accepts in I. destruct (host_address st href) as [b|]; [|destruct I]. destruct (0 <? size); [|destruct I].
    destruct (deserialize (deser_conf env st) buf) as [[m1|]|] eqn:D; try destruct I.
    destruct (_ && _)%bool; [destruct I|]. destruct I as [[= <- <-]|[]]. exact (decoded_acks_range _ _ _ D).
  - destruct (process_acks env st order sock) as [s1 o1]. cbn in I. apply in_map_iff in I as (x & [=] & _).
  - cbn in I. destruct I as [[=]|[]].
Qed.

(** ** C90 *)

(** Python 2.7.  Over every history, the packet prepared as the k-th of a
    circuit reaches the socket only if its number is below 2^31, and then carries
    it. *)
Theorem C90_numbers env ops a k x b : e_pv env = Py27 -> nth_error (prepared env ops a) k = Some x -> at_data x = Some b ->
  Z.of_nat k + 1 < 2 ^ 31 /\ sequence_number b = Some (Z.of_nat k + 1).
Proof.
  intros P N D. pose proof (ids_in_order env ops a k x N) as E. pose proof (prepared_wired _ _ _ _ _ N) as W.
  destruct (wired27 env x b W P D) as [L S]. rewrite E in L, S. rewrite Z.mod_small in S by lia. auto.
Qed.
Print Assumptions C90_numbers.
(** So a circuit carries fewer than 2^31 datagrams in its life. *)
Theorem C90_at_most env ops a : e_pv env = Py27 -> zlen (filter handed_over (prepared env ops a)) < 2 ^ 31.
Proof.
  intros P. assert (List.length (filter handed_over (prepared env ops a)) <= Z.to_nat (2 ^ 31 - 1))%nat as B.
  { apply filter_bound. intros k x N H. unfold handed_over in H. destruct (at_data x) as [b|] eqn:D; [|discriminate].
    destruct (C90_numbers env ops a k x b P N D) as [L _]. lia. }
  unfold zlen. lia.
Qed.
Print Assumptions C90_at_most.
(** Once a circuit is spent every send on it fails quietly, while a reliable
    one goes on adding to what waits for an acknowledgement. *)
Theorem C90_send_fails env st mref href md sock a m st' o : e_pv env = Py27 -> reachable env st -> spent st a ->
  host_address st href = Some a -> nth_error (s_msgs st) mref = Some m -> host_ok a = true -> outgoing_quiet env st ->
  send_message env st mref href md sock = (st', o) ->
  (forall b, o_res o <> Ok (Some b)) /\ (printable m -> o_res o = Ok None) /\ s_out st' = s_out st /\
  (exists x, o_sends o = [x] /\ at_data x = None) /\ spent st' a /\
  (forall n, md = Reliable n -> In (last_number st a + 1) (outstanding st' a)).
Proof.
  intros P R S NH NM HO Q H.
  destruct (send_seen env st mref href md sock a m st' o R NH NM HO Q H)
    as (x & SX & AA & MN & MB & _ & ID & AD & OR & SO & _ & LI & OU & _).
  assert (at_data x = None) as D.
  { apply (spent_fails env st (Send mref href md sock) x R P); [|now rewrite AA].
    unfold events. cbn [step snd]. rewrite H. cbn [snd]. rewrite SX. now left. }
  rewrite D in OR, SO. assert (exists e, o_res o = contain e (at_msg x)) as (e & OE) by eauto.
  split; [intros b; rewrite OE; unfold contain; destruct e; destruct (msg_str_error (at_msg x)); discriminate|].
  split. { intros PR. rewrite OR. apply contain_ok. unfold printable, msg_str_error, data_text in *. now rewrite MN, MB. }
  split; [lia|]. split; [now exists x|]. split; [unfold spent in *; rewrite number_last in *; lia|].
  intros n ->. rewrite OU. apply in_or_app. right. left. exact ID.
Qed.
Print Assumptions C90_send_fails.
(** The same goes for the acknowledgements process_acks sends: they are taken off
    the queue and lost. *)
Theorem C90_acks_lost env st order sock st' o r : e_pv env = Py27 -> reachable env st ->
  process_acks env st order sock = (st', o) -> o_res o = Ok r -> forall a, spent st a ->
  pending_acks st' a = [] /\ forall x, In x (o_sends o) -> at_addr x = a -> at_data x = None.
Proof.
  intros P R H E a S. split.
  - destruct (C26_flushed env st order sock st' o r R H E) as (_ & A & _). apply A.
  - intros x I <-. apply (spent_fails env st (ProcessAcks order sock) x R P); [|exact S].
    unfold events. cbn [step snd]. rewrite H. cbn [snd]. now apply in_map.
Qed.
Print Assumptions C90_acks_lost.
(** It stays so until the circuit is removed. *)
Theorem C90_for_good env st ops a : reachable env st -> spent st a -> ~ In (RemoveCircuit a) ops ->
  spent (fst (run env st ops)) a.
Proof.
  intros (ops0 & ->) S N. unfold spent in *. rewrite <- run_app, <- prepared_count in *. unfold prepared in *.
  rewrite trace_app, since_grows, attempts_app, app_length by (now apply no_removal_trace). lia.
Qed.
Print Assumptions C90_for_good.
(** Python <= 2.6.  The numbers wrap around: datagrams of a circuit carry the same
    number if and only if a multiple of 2^32 packets lies between them. *)
Theorem C90_wrap env ops a k k' x x' b b' : nth_error (prepared env ops a) k = Some x -> nth_error (prepared env ops a) k' = Some x' ->
  at_data x = Some b -> at_data x' = Some b' ->
  (sequence_number b = sequence_number b' <-> (2 ^ 32 | Z.of_nat k' - Z.of_nat k)).
Proof.
  intros N N' D D'. pose proof (ids_in_order _ _ _ _ _ N) as E. pose proof (ids_in_order _ _ _ _ _ N') as E'.
  rewrite (layout_seq _ _ _ _ _ (prepared_wired _ _ _ _ _ N b D)), (layout_seq _ _ _ _ _ (prepared_wired _ _ _ _ _ N' b' D')), E, E'.
  split.
  - intros H. injection H as H.
    exists ((Z.of_nat k' + 1) / 2 ^ 32 - (Z.of_nat k + 1) / 2 ^ 32).
    pose proof (Z.div_mod (Z.of_nat k + 1) (2 ^ 32)). pose proof (Z.div_mod (Z.of_nat k' + 1) (2 ^ 32)). lia.
  - intros (q & Q). f_equal. replace (Z.of_nat k' + 1) with (Z.of_nat k + 1 + q * 2 ^ 32) by lia.
    symmetry. apply Z.mod_add. lia.
Qed.
Print Assumptions C90_wrap.
(** A packet numbered 2^32 or more, once outstanding, is outstanding until the
    circuit is removed, whatever is received: no datagram can acknowledge it. *)
Theorem C90_never_acknowledged env st ops a n : reachable env st -> In n (outstanding st a) -> 2 ^ 32 <= n ->
  ~ In (RemoveCircuit a) ops -> In n (outstanding (fst (run env st ops)) a).
Proof.
  intros (ops0 & ->) I L N. rewrite <- run_app. apply C22_outstanding in I. apply C22_outstanding.
  rewrite trace_app, since_grows by (now apply no_removal_trace).
  destruct I as (t1 & x & t2 & E & A & R & ID & Q). exists t1, x, (t2 ++ trace env (fst (run env init_state ops0)) ops).
  rewrite E, <- app_assoc. split; [reflexivity|]. repeat (split; [assumption|]).
  intros m J. apply in_app_or in J as [J|J]; [now apply Q|]. apply accepted_acks in J. rewrite Forall_forall in J.
  intros K. specialize (J n K). lia.
Qed.
Print Assumptions C90_never_acknowledged.

(** Circuits get there: [n] sends raise the number by [n]. *)
Lemma many_sends env sock md href mref a : host_ok a = true -> forall n st,
  reachable env st -> e_handle_out env = false -> host_address st href = Some a -> nth_error (s_msgs st) mref <> None ->
  let st' := fst (run env st (repeat (Send mref href md sock) n)) in
  reachable env st' /\ last_number st' a = last_number st a + Z.of_nat n /\ host_address st' href = Some a /\ nth_error (s_msgs st') mref <> None.
Proof.
  intros HO n. induction n as [|n IH]; intros st R E NH NM; cbv zeta; [cbn; repeat split; auto; lia|].
  cbn [repeat]. rewrite run_fst. destruct (nth_error (s_msgs st) mref) as [m|] eqn:M; [|contradiction].
  destruct (reachable_good _ _ R) as [I V].
  assert (out_error env st m = None) as OE by (unfold out_error; now rewrite E).
  destruct (send_detail env st mref href md sock a m I NH M HO OE) as (st2 & x & c' & S & _ & _ & _ & _ & _ & _ & _ & CA & _ & _ & _ & _ & CL & _ & SH & _ & _ & _ & MX & _ & _).
  pose proof (reachable_step env st (Send mref href md sock) R) as R2. cbn [step] in *. rewrite S in *. cbn [fst] in *.
  destruct (IH st2 R2 E) as (R3 & L & H3 & M3).
  - unfold host_address. now rewrite SH.
  - congruence.
  - repeat split; auto. rewrite L. assert (last_number st2 a = last_number st a + 1); [|lia].
    unfold last_number at 1. unfold circuit_of. fold (circ st2 a). rewrite CA, CL, number_last, (last_cur st href a). reflexivity.
Qed.
(** For every [n] there is a dispatcher whose circuit has given out [n] numbers,
    the last of them outstanding. *)
Example C90_reached : forall n, 0 <= n -> exists st, reachable d_env st /\ last_number st d_a = n + 1 /\ In (n + 1) (outstanding st d_a) /\
  host_address st 0 = Some d_a /\ nth_error (s_msgs st) 0 <> None.
Proof.
  intros n P. set (st0 := fst (run d_env init_state [NewHost d_a; NewMsg s_msg])).
  assert (reachable d_env st0) as R0 by (now eexists).
  destruct (many_sends d_env d_sock Plain 0 0 d_a eq_refl (Z.to_nat n) st0 R0 eq_refl eq_refl ltac:(discriminate)) as (R1 & L1 & H1 & M1).
  set (st1 := fst (run d_env st0 _)) in *.
  destruct (many_sends d_env d_sock (Reliable 0) 0 0 d_a eq_refl 1 st1 R1 eq_refl H1 M1) as (R2 & L2 & H2 & M2).
  exists (fst (run d_env st1 (repeat (Send 0 0 (Reliable 0) d_sock) 1))).
  assert (last_number st1 d_a = n) as E by (rewrite L1; change (last_number st0 d_a) with 0; lia).
  split; [exact R2|]. split; [rewrite L2, E; reflexivity|]. split; [|auto].
  cbn [repeat]. rewrite run_fst. cbn [run fst step].
  destruct (nth_error (s_msgs st1) 0) as [m|] eqn:M; [|contradiction].
  destruct (send_message d_env st1 0 0 (Reliable 0) d_sock) as [st2 o] eqn:S. cbn [fst].
  destruct (send_seen d_env st1 0 0 (Reliable 0) d_sock d_a m st2 o R1 H1 M eq_refl ltac:(discriminate) S)
    as (x & _ & _ & _ & _ & _ & ID & _ & _ & _ & _ & _ & OU & _).
  rewrite OU. apply in_or_app. right. left. rewrite ID, <- number_last, E. reflexivity.
Qed.
(** A spent circuit, and one with an id that can never be acknowledged. *)
Example C90_case : exists st, reachable d_env st /\ spent st d_a /\ In (2 ^ 32) (outstanding st d_a).
Proof.
  destruct (C90_reached (2 ^ 32 - 1) ltac:(lia)) as (st & R & L & O & _). exists st. split; [exact R|].
  replace (2 ^ 32 - 1 + 1) with (2 ^ 32) in * by lia. split; [unfold spent; rewrite L; lia|exact O].
Qed.
