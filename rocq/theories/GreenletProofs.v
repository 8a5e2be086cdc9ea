(** Proofs about interleaved use of the dispatcher (C79, C80). *)
From Coq Require Import Permutation.
From Verif Require Import Lib SpecMessages MessageProofs SpecGreenlets EventsProofs LayoutProofs PacketProofs PacketMore DispatchProofs DispatchMore.

(** ** Preparing a packet *)
Definition puts (ms : list mark) : list attempt :=
  flat_map (fun m => match m with MPut x => [x] | _ => [] end) ms.
Definition from (k : back) (th : thread) : Prop :=
  (exists r, th = back_to k r) \/ (exists mref b, th = InSocket mref b k) \/
  (exists name i mref href md, th = InHandler name i (Announce mref href md k)).

Lemma transmit_detail env st mref href md k a m : inv st ->
  nth_error (s_hosts st) href = Some a -> nth_error (s_msgs st) mref = Some m ->
  exists st' x c' th, transmit env st mref href md k = (st', [MPut x], th) /\
    at_addr x = a /\ at_data x = match serialize (e_pv env) (e_ser_dict env) (e_ser_xml env) (at_msg x) with Ok o => o | Err _ => None end /\
    th = match serialize (e_pv env) (e_ser_dict env) (e_ser_xml env) (at_msg x) with
         | Ok (Some b) => InSocket mref b k
         | Ok None => back_to k (contain no_data (at_msg x))
         | Err e => back_to k (contain e (at_msg x))
         end /\
    m_name (at_msg x) = m_name m /\ m_blocks (at_msg x) = m_blocks m /\
    m_id (at_msg x) = c_last_out (cur st href a) + 1 /\
    m_flags (at_msg x) = Z.lor (mode_flag md) (if piggyback (cur st href a) m then LL_ACK_FLAG else 0) /\
    m_acks (at_msg x) = m_acks m ++ (if piggyback (cur st href a) m then c_acks (cur st href a) else []) /\
    circ st' a = Some c' /\ (forall b, b <> a -> circ st' b = circ st b) /\
    c_host c' = c_host (cur st href a) /\ c_trusted c' = c_trusted (cur st href a) /\
    c_acks c' = c_acks (cur st href a) /\ c_last_out c' = c_last_out (cur st href a) + 1 /\
    c_unacked c' = (if is_reliable md then c_unacked (cur st href a) ++ [(m_id (at_msg x), mref)]
                    else c_unacked (cur st href a)) /\
    s_hosts st' = s_hosts st /\ s_handler st' = s_handler st /\ s_in st' = s_in st /\ s_out st' = s_out st /\
    nth_error (s_msgs st') mref = Some (at_msg x) /\
    List.length (s_msgs st') = List.length (s_msgs st) /\ inv st'.
Proof.
  intros I NH NM. unfold transmit. rewrite NH, NM.
  pose proof (find_circuit_spec st href a) as FC. destruct (find_circuit st href a) as [st1 c].
  destruct FC as (EC & C1 & CO & H1 & M1 & U1 & HD1 & IN1 & OUT1 & _ & N1). subst c.
  pose proof (prepare_spec (cur st href a) mref m md (cur_ok st href a I)) as PS.
  destruct (match md with
            | Reliable r => prepare_packet (cur st href a) mref m LL_RELIABLE_FLAG r
            | Plain => prepare_packet (cur st href a) mref m LL_NONE 0
            end) as [c' m'] eqn:EP.
  destruct PS as (P1 & P2 & P3 & P4 & P5 & P6 & P7 & P8 & P9 & P10 & P11 & P12 & P13 & P14).
  cbv zeta. set (st2 := set_msgs (put_circuit st1 a c') (update_nth mref m' (s_msgs st1))).
  assert (match md with
          | Plain => st2
          | Reliable _ => if c_count c' <=? 0 then set_unackedc st2 (dset Nat.eqb href a (s_unackedc st2)) else st2
          end = st2) as ->.
  { destruct md; [reflexivity|]. specialize (P14 eq_refl). destruct (Z.leb_spec (c_count c') 0); [lia|reflexivity]. }
  assert (inv st2) as I2.
  { constructor.
    - intros b c H. destruct (addr_dec b a) as [->|N].
      + change (circ st2 a) with (circ (put_circuit st1 a c') a) in H. rewrite put_same in H. injection H as <-. exact P13.
      + change (circ st2 b) with (circ (put_circuit st1 a c') b) in H. rewrite put_other in H by exact N.
        rewrite CO in H by exact N. exact (inv_circ _ I _ _ H).
    - cbn. apply (dset_nodup _ addr_eqb_spec). apply N1. exact (inv_keys _ I).
    - cbn. rewrite U1. exact (inv_unackedc _ I). }
  assert (circ st2 a = Some c') as C2 by apply put_same.
  assert (forall b, b <> a -> circ st2 b = circ st b) as CO2.
  { intros b N. rewrite <- (CO b N). change (circ st2 b) with (circ (put_circuit st1 a c') b). now apply put_other. }
  assert (nth_error (s_msgs st2) mref = Some m') as M2.
  { cbn. rewrite M1. eapply nth_update. exact NM. }
  assert (forall {A} n (y : A) l, List.length (update_nth n y l) = List.length l) as UL.
  { clear. intros A n y l. revert l. induction n as [|n IH]; intros [|z l]; cbn; auto. }
  assert (List.length (s_msgs st2) = List.length (s_msgs st)) as L2 by (cbn; rewrite M1; apply UL).
  exists st2, {| at_addr := a; at_msg := m';
                 at_data := match serialize (e_pv env) (e_ser_dict env) (e_ser_xml env) m' with Ok o => o | Err _ => None end |}, c'.
  cbn [at_addr at_msg at_data].
  exists (match serialize (e_pv env) (e_ser_dict env) (e_ser_xml env) m' with
         | Ok (Some b) => InSocket mref b k
         | Ok None => back_to k (contain no_data m')
         | Err e => back_to k (contain e m')
         end).
  split; [destruct (serialize (e_pv env) (e_ser_dict env) (e_ser_xml env) m') as [[b|]|e]; reflexivity|].
  do 3 (split; [reflexivity|]).
  repeat (split; [first [assumption | reflexivity | (cbn; congruence)]|]). exact I2.
Qed.

Lemma transmit_effect env st mref href md k st' ms th : inv st ->
  transmit env st mref href md k = (st', ms, th) ->
  effect st (puts ms) st' /\ s_out st' = s_out st /\ from k th /\ (exists xs, ms = map MPut xs) /\
  (List.length (s_msgs st) <= List.length (s_msgs st'))%nat.
Proof.
  intros I H. destruct (nth_error (s_hosts st) href) as [a|] eqn:NH.
  2:{ unfold transmit in H. rewrite NH in H. injection H as <- <- <-. split; [now apply effect_nil|]. split; [reflexivity|].
      split; [left; eauto|]. split; [now exists []|lia]. }
  destruct (nth_error (s_msgs st) mref) as [m|] eqn:NM.
  2:{ unfold transmit in H. rewrite NH, NM in H. injection H as <- <- <-. split; [now apply effect_nil|]. split; [reflexivity|].
      split; [left; eauto|]. split; [now exists []|lia]. }
  destruct (transmit_detail env st mref href md k a m I NH NM)
      as (st2 & x & c' & th2 & E & AA & _ & TH & _ & _ & ID & FL & _ & CA & CO & CH & CT & CK & CL & CU & SH & HD & SI & SO & _ & LM & I2).
  rewrite E in H. injection H as <- <- <-. cbn [puts flat_map app].
  pose proof (cur_ok st href a I) as OK.
  split; [|split; [exact SO|split; [|split; [now exists [x]|lia]]]].
  2:{ rewrite TH. destruct (serialize (e_pv env) (e_ser_dict env) (e_ser_xml env) (at_msg x)) as [[b|]|e];
      [right; left; eauto|left; eauto|left; eauto]. }
  constructor; try assumption.
  + intros b c Hc. destruct (addr_dec b a) as [->|N].
    * exists c'. unfold cur in *. rewrite Hc in *. auto.
    * exists c. rewrite CO by exact N. auto.
  + intros b c2 Hn Hc. destruct (addr_dec b a) as [->|N].
    * rewrite CA in Hc. injection Hc as <-. unfold cur in *. rewrite Hn in *. cbn in *. auto.
    * rewrite CO in Hc by exact N. congruence.
  + intros b N. apply CO. intros ->. apply N. left. exact AA.
  + intros V b c2 Hc. unfold host_address. rewrite SH. destruct (addr_dec b a) as [->|N].
    * rewrite CA in Hc. injection Hc as <-. rewrite CH. unfold cur. destruct (circ st a) as [c|] eqn:Ec; [exact (V _ _ Ec)|].
      cbn. congruence.
    * rewrite CO in Hc by exact N. exact (V _ _ Hc).
  + intros tr L. cbn [map]. apply ledger_attempt with st; try assumption; rewrite ?AA.
    * unfold last_id. pose proof (ok_last _ OK). unfold cur in *. destruct (circ st a); cbn in *; lia.
    * unfold last_id. rewrite CA, CL. unfold cur. destruct (circ st a); reflexivity.
    * rewrite ID. unfold last_id, cur. destruct (circ st a); reflexivity.
    * unfold outstanding. rewrite CA, CU. unfold sent_reliably. rewrite FL, reliable_flag.
      unfold cur in *. destruct (circ st a) as [c|]; destruct (is_reliable md); cbn; rewrite ?app_nil_r, ?map_app; reflexivity.
    * exact CO.
Qed.

(** The marks of a send: calls and packets. *)
Definition plain_mark (m : mark) : Prop := match m with MCall _ _ | MPut _ => True | _ => False end.
Lemma puts_plain xs : Forall plain_mark (map MPut xs).
Proof. induction xs; constructor; cbn; auto. Qed.

Definition work_from (w : work) (th : thread) : Prop :=
  match w with
  | Deliver m => (exists r, th = Finished (ORecv r)) \/ exists name i, th = InHandler name i (Deliver m)
  | Announce _ _ _ k => from k th
  end.
Lemma after_effect env st e w st' ms th : inv st -> after_handler env st e w = (st', ms, th) ->
  effect st (puts ms) st' /\ s_out st' = s_out st /\ work_from w th /\ Forall plain_mark ms.
Proof.
  intros I H. destruct w as [m|mref href md k]; cbn [after_handler] in H.
  - injection H as <- <- <-. split; [now apply effect_nil|]. split; [reflexivity|]. split; [left; eauto|constructor].
  - destruct (swallow_keyerror e) as [e'|].
    + injection H as <- <- <-. split; [now apply effect_nil|]. split; [reflexivity|]. split; [left; eauto|constructor].
    + destruct (transmit_effect _ _ _ _ _ _ _ _ _ I H) as (A & B & C & (xs & ->) & _). split; [exact A|]. split; [exact B|]. split; [exact C|apply puts_plain].
Qed.
Lemma enter_effect env st name i w st' ms th : inv st -> enter_handler env st name i w = (st', ms, th) ->
  effect st (puts ms) st' /\ s_out st' = s_out st /\ work_from w th /\ Forall plain_mark ms.
Proof.
  intros I H. unfold enter_handler in H.
  destruct (sget name (s_handler st)) as [l|]; [|now apply after_effect in H].
  destruct (work_message st w) as [m|]; [|now apply after_effect in H].
  destruct (nth_error l i) as [s|]; [|now apply after_effect in H].
  injection H as <- <- <-. split; [now apply effect_nil|]. split; [reflexivity|].
  split; [|constructor; [exact Logic.I|constructor]].
  destruct w; cbn; [right; eauto|right; right; eauto 8].
Qed.
Lemma begin_effect env st mref href md k st' ms th : inv st -> begin_send env st mref href md k = (st', ms, th) ->
  effect st (puts ms) st' /\ s_out st' = s_out st /\ from k th /\ Forall plain_mark ms.
Proof.
  intros I H. unfold begin_send in H.
  assert (forall r, (st, [], back_to k r) = (st', ms, th) ->
    effect st (puts ms) st' /\ s_out st' = s_out st /\ from k th /\ Forall plain_mark ms) as RET.
  { intros r [= <- <- <-]. split; [now apply effect_nil|]. split; [reflexivity|]. split; [left; eauto|constructor]. }
  destruct (nth_error (s_hosts st) href) as [a|]; [|now apply RET in H].
  destruct (nth_error (s_msgs st) mref) as [m|]; [|now apply RET in H].
  destruct (negb (host_ok a)); [now apply RET in H|].
  destruct (e_handle_out env).
  - apply enter_effect in H; auto.
  - destruct (transmit_effect _ _ _ _ _ _ _ _ _ I H) as (A & B & C & (xs & ->) & _). split; [exact A|]. split; [exact B|]. split; [exact C|apply puts_plain].
Qed.

(** ** Going on *)
Definition emptied (ms : list mark) : list addr :=
  flat_map (fun m => match m with MEmptied k => [k] | _ => [] end) ms.
Lemma plain_emptied ms : Forall plain_mark ms -> emptied ms = [].
Proof. induction 1 as [|m ms P _ IH]; [reflexivity|]. unfold emptied in *. cbn. rewrite IH. now destruct m. Qed.

Lemma effect_counts st i o : inv st -> i = s_in st -> effect st [] (set_counts st i o).
Proof.
  intros I ->. constructor; try reflexivity.
  - intros a c H. exists c. auto.
  - intros a c' H H'. change (circ (set_counts st (s_in st) o) a) with (circ st a) in H'. congruence.
  - intros V a c H. exact (V a c H).
  - constructor; [exact (inv_circ _ I)|exact (inv_keys _ I)|exact (inv_unackedc _ I)].
  - intros tr L. cbn [map]. rewrite app_nil_r. exact L.
Qed.
Lemma inv_new st m : inv st -> inv (set_msgs st (s_msgs st ++ [m])).
Proof. intros I. constructor; [exact (inv_circ _ I)|exact (inv_keys _ I)|exact (inv_unackedc _ I)]. Qed.

Lemma empty_effect st f st' ms th : inv st -> empty_queue st f = (st', ms, th) ->
  flushed st (emptied ms) (puts ms) st' /\ s_out st' = s_out st.
Proof.
  intros I [= <- <- <-]. cbn. split; [now apply clear_spec|].
  unfold clear_acks. destruct (get_circuit (s_circuits st) (f_key f)); reflexivity.
Qed.
Lemma loop_effect env st f st' ms th : inv st -> ack_loop env st f = (st', ms, th) ->
  flushed st (emptied ms) (puts ms) st' /\ s_out st' = s_out st.
Proof.
  intros I H. unfold ack_loop in H. destruct (take_acks (skipn (f_pos f) (ack_list st f)) []) as [ids full].
  destruct (full || (0 <? zlen ids)); [|now apply empty_effect in H].
  destruct (begin_send env _ _ _ _ _) as [[st1 ms1] th1] eqn:B in H. injection H as <- <- <-.
  destruct (begin_effect _ _ _ _ _ _ _ _ _ (inv_new _ _ I) B) as (EF & SO & _ & P).
  change (emptied (MPack (f_key f) ids :: ms1)) with (emptied ms1). change (puts (MPack (f_key f) ids :: ms1)) with (puts ms1).
  rewrite (plain_emptied _ P). split; [|exact SO]. apply flushed_effect, effect_new with (ack_message ids). exact EF.
Qed.
Lemma resume_effect env st e th st' ms th' : inv st -> resume env st e th = (st', ms, th') ->
  flushed st (emptied ms) (puts ms) st' /\ s_in st' = s_in st.
Proof.
  intros I H. assert (flushed st (emptied ms) (puts ms) st') as F.
  2:{ split; [exact F|exact (fl_in _ _ _ _ F)]. }
  destruct th as [o|name i w|mref b k|r f last|todo]; cbn [resume] in H.
  - injection H as <- <- <-. now apply flushed_nil.
  - destruct e as [e|].
    + destruct (after_effect _ _ _ _ _ _ _ I H) as (EF & _ & _ & P). rewrite (plain_emptied _ P). now apply flushed_effect.
    + destruct (enter_effect _ _ _ _ _ _ _ _ I H) as (EF & _ & _ & P). rewrite (plain_emptied _ P). now apply flushed_effect.
  - destruct e as [e|]; injection H as <- <- <-; [now apply flushed_nil|]. cbn. apply flushed_effect. now apply effect_counts.
  - destruct r as [r|e']; [|injection H as <- <- <-; now apply flushed_nil].
    destruct last; [eapply empty_effect; eauto|eapply loop_effect; eauto].
  - destruct todo as [|k todo]; cbn [next_circuit] in H; [injection H as <- <- <-; now apply flushed_nil|].
    destruct (get_circuit (s_circuits st) k) as [c|]; [eapply loop_effect; eauto|injection H as <- <- <-; now apply flushed_nil].
Qed.

Lemma network_app t1 t2 : network (t1 ++ t2) = network t1 ++ network t2.
Proof. apply flat_map_app. Qed.
Lemma network_seen ms : network (map seen ms) = map Attempted (puts ms).
Proof. induction ms as [|m ms IH]; [reflexivity|]. unfold network, puts in *. cbn. rewrite IH. now destruct m. Qed.

Lemma resend_none st : inv st -> resend_all (s_unackedc st) st = (st, Ok tt).
Proof. intros I. rewrite (inv_unackedc _ I). reflexivity. Qed.

Definition simple (o : op) : bool :=
  match o with Send _ _ _ _ | Receive _ _ _ | ProcessAcks _ _ | RemoveCircuit _ => false | _ => true end.
Lemma simple_events env st o : simple o = true -> events env st o = [].
Proof. destruct o; try discriminate; intros _; unfold events; cbn; try reflexivity. Qed.

(** Every step of every schedule keeps the books of C21 and C22. *)
Lemma cstep_good env cf x tr : good (cf_st cf) -> ledger tr (cf_st cf) ->
  good (cf_st (fst (cstep env cf x))) /\ ledger (tr ++ network (gevents env cf x)) (cf_st (fst (cstep env cf x))).
Proof.
  intros G L. pose proof G as [I V]. destruct x as [o|i e].
  - assert (forall st ms th, start env cf o = (st, ms, th) ->
      cstep env cf (Spawn o) = ({| cf_st := st; cf_pool := cf_pool cf ++ [th] |}, ms)) as CS.
    { intros st ms th E. cbn [cstep]. rewrite E. reflexivity. }
    destruct (simple o) eqn:SO.
    { destruct (step_good (silent env) (cf_st cf) o tr G L) as [G1 L1]. rewrite simple_events in L1 by exact SO.
      assert (start env cf o = (fst (step (silent env) (cf_st cf) o), [], Finished (snd (step (silent env) (cf_st cf) o)))) as E.
      { unfold start. destruct o; try discriminate SO; destruct (step (silent env) (cf_st cf) _); reflexivity. }
      specialize (CS _ _ _ E). unfold gevents. rewrite CS. cbn [fst snd cf_st map].
      replace (network _) with (@nil devent); [split; assumption|]. destruct o; try discriminate SO; reflexivity. }
    destruct o as [| | | | | |mref href md sock| |href buf size|order sock|a]; try discriminate SO; clear SO.
    + destruct (begin_send env (cf_st cf) mref href md ToUser) as [[st ms] th] eqn:E.
      unfold gevents. rewrite (CS _ _ _ E). cbn [fst snd cf_st app].
      destruct (begin_effect _ _ _ _ _ _ _ _ _ I E) as (EF & _).
      rewrite network_seen. split; [split; [exact (ef_inv _ _ _ EF)|exact (ef_valid _ _ _ EF V)]|exact (ef_ledger _ _ _ EF tr L)].
    + destruct (step_good (silent env) (cf_st cf) (Receive href buf size) tr G L) as [G1 L1].
      cbn [step events] in G1, L1.
      change (accepts (silent env) (cf_st cf) href buf size) with (accepts env (cf_st cf) href buf size) in L1.
      destruct (start env cf (Receive href buf size)) as [[st ms] th] eqn:E.
      unfold gevents. rewrite (CS _ _ _ eq_refl). cbn [fst snd cf_st].
      unfold start in E. destruct (receive_check (silent env) (cf_st cf) href buf size) as [st1 r] eqn:R. cbn [fst] in G1, L1.
      assert (effect st1 (puts ms) st /\ puts ms = []) as [EF NP].
      { destruct G1 as [I1 _]. destruct (r_res r) as [[m|]|e']; try (injection E as <- <- <-; split; [now apply effect_nil|reflexivity]).
        destruct (e_handle env); [|injection E as <- <- <-; split; [now apply effect_nil|reflexivity]].
        destruct (enter_effect _ _ _ _ _ _ _ _ I1 E) as (EF & _). split; [exact EF|].
        unfold enter_handler in E. cbn [work_message] in E. destruct (sget (m_name m) (s_handler st1)) as [l|]; [|injection E as <- <- <-; reflexivity].
        destruct (nth_error l 0); injection E as <- <- <-; reflexivity. }
      split; [split; [exact (ef_inv _ _ _ EF)|exact (ef_valid _ _ _ EF (good_hosts _ G1))]|].
      pose proof (ef_ledger _ _ _ EF _ L1) as L2. rewrite NP in L2. cbn [map] in L2. rewrite app_nil_r in L2.
      rewrite !network_app, network_seen, NP. cbn [map]. rewrite app_nil_r.
      replace (network match accepts env (cf_st cf) href buf size with Some (a, m) => [Net (Accepted a m)] | None => [] end)
        with (match accepts env (cf_st cf) href buf size with Some (a, m) => [Accepted a m] | None => [] end)
        by (destruct (accepts env (cf_st cf) href buf size) as [[a m]|]; reflexivity).
      replace (network match host_address (cf_st cf) href with Some a => if 0 <? size then [Queued a (acks_due env (cf_st cf) a buf)] else [] | None => [] end)
        with (@nil devent) by (destruct (host_address (cf_st cf) href); [destruct (0 <? size)|]; reflexivity).
      rewrite app_nil_r. exact L2.
    + assert (start env cf (ProcessAcks order sock) = (cf_st cf, [], AtAcks (arrange order (dkeys (s_circuits (cf_st cf)))))) as E.
      { unfold start. rewrite resend_none by exact I. reflexivity. }
      unfold gevents. rewrite (CS _ _ _ E). cbn. rewrite app_nil_r. split; assumption.
    + unfold gevents. cbn [cstep start]. destruct (existsb acking (cf_pool cf)).
      * cbn. rewrite app_nil_r. split; assumption.
      * destruct (step_good (silent env) (cf_st cf) (RemoveCircuit a) tr G L) as [G1 L1]. cbn [step events fst snd] in *.
        cbn. split; assumption.
  - unfold gevents. cbn [cstep app]. destruct (nth_error (cf_pool cf) i) as [th|]; [|cbn; rewrite app_nil_r; split; assumption].
    destruct (resume env (cf_st cf) e th) as [[st ms] th'] eqn:R. cbn [fst snd cf_st].
    destruct (resume_effect _ _ _ _ _ _ _ I R) as [F _]. rewrite network_seen.
    split; [split; [exact (fl_inv _ _ _ _ F)|exact (fl_valid _ _ _ _ F V)]|exact (fl_ledger _ _ _ _ F tr L)].
Qed.

Lemma crun_cons env cf x xs : fst (crun env cf (x :: xs)) = fst (crun env (fst (cstep env cf x)) xs).
Proof. cbn [crun]. destruct (cstep env cf x) as [cf1 m1]. cbn [fst]. destruct (crun env cf1 xs). reflexivity. Qed.
Lemma crun_good env xs : forall cf tr, good (cf_st cf) -> ledger tr (cf_st cf) ->
  good (cf_st (fst (crun env cf xs))) /\ ledger (tr ++ network (gtrace env cf xs)) (cf_st (fst (crun env cf xs))).
Proof.
  induction xs as [|x xs IH]; intros cf tr G L; [cbn; rewrite app_nil_r; auto|].
  rewrite crun_cons. cbn [gtrace]. destruct (cstep_good env cf x tr G L) as [G1 L1].
  rewrite network_app, app_assoc. now apply IH.
Qed.
Lemma after_good env xs : good (cf_st (after env xs)).
Proof. apply (crun_good env xs (idle init_state) [] good_init ledger_init). Qed.
Lemma after_ledger env xs : ledger (network (history env xs)) (cf_st (after env xs)).
Proof. apply (crun_good env xs (idle init_state) [] good_init ledger_init). Qed.

(** C79 *)
Lemma green_ids env xs a k x :
  nth_error (attempts_to a (since_removal a (network (history env xs)))) k = Some x -> m_id (at_msg x) = Z.of_nat k + 1.
Proof.
  intros H. destruct (after_ledger env xs a) as [L _].
  apply (map_nth_error (fun x => m_id (at_msg x))) in H. rewrite L in H. unfold zseq in H.
  rewrite nth_error_map in H. destruct (nth_error (seq 0 _) k) as [j|] eqn:E; [|discriminate]. injection H as <-.
  assert (j = k); [|subst; reflexivity]. apply nth_error_nth with (d := O) in E as E'.
  assert (k < List.length (seq 0 (Z.to_nat (last_id (cf_st (after env xs)) a))))%nat as B.
  { apply nth_error_Some. congruence. }
  rewrite seq_length in B. rewrite seq_nth in E' by exact B. exact (eq_sym E').
Qed.
Lemma green_outstanding env xs a n :
  In n (outstanding (cf_st (after env xs)) a) <-> unacknowledged a (since_removal a (network (history env xs))) n.
Proof. apply (after_ledger env xs a). Qed.
