(** Lemmas for C103. *)
From Verif Require Import Lib SpecMessages MessageProofs EventsProofs LayoutProofs PacketProofs PacketMore PacketForms PacketRules DispatchProofs DispatchMore.
From Verif Require Import SpecGreenlets GreenletProofs GreenletAcks GreenletMore.
From Verif Require Import SpecFloats CodecProofs SpecRoundTrip RoundTripProofs Prop_RoundTrip CopiesProofs SpecCrowd.
From Verif Require Import SpecLayout SpecRoundTrip.
Open Scope Z_scope.

(** ** One dispatcher *)
Definition hdr (env : denv) (x : attempt) : Prop :=
  forall d, at_data x = Some d -> serialize (e_pv env) (e_ser_dict env) (e_ser_xml env) (at_msg x) = Ok (Some d) /\
    1 <= m_id (at_msg x) /\ exists fl, (fl = 0 \/ fl = 2 ^ reliable_bit) /\ (m_flags (at_msg x) = fl \/ m_flags (at_msg x) = fl + 2 ^ ack_bit).
Definition mk (env : denv) (D : message -> Prop) (Q : addr -> Prop) (m : mark) : Prop :=
  match m with MPut x => hdr env x /\ (announces_acks x -> Q (at_addr x)) | MCall s w => e_handle_out env = false -> D w | _ => True end.
Definition dl (env : denv) (D : message -> Prop) (th : thread) : Prop :=
  match th with
  | InHandler _ _ (Deliver m) => D m
  | InHandler _ _ (Announce _ _ _ _) => e_handle_out env = true
  | _ => True
  end.
Definition fair (env : denv) (D : message -> Prop) (Q : addr -> Prop) (r : step_result) : Prop :=
  Forall (mk env D Q) (snd (fst r)) /\ dl env D (snd r).

Lemma back_dl env D k r : dl env D (back_to k r).
Proof. destruct k; exact I. Qed.
Definition owes (Q : addr -> Prop) (st : dstate) : Prop := forall a, pending_acks st a <> [] -> Q a.
Lemma transmit_fair env D Q st mref href md k : inv st -> owes Q st -> fair env D Q (transmit env st mref href md k).
Proof.
  intros Iv OW. destruct (nth_error (s_hosts st) href) as [a|] eqn:NH.
  2:{ unfold transmit. rewrite NH. split; [constructor|apply back_dl]. }
  destruct (nth_error (s_msgs st) mref) as [m|] eqn:NM.
  2:{ unfold transmit. rewrite NH, NM. split; [constructor|apply back_dl]. }
  destruct (transmit_detail env st mref href md k a m Iv NH NM)
      as (st2 & x & c' & th2 & E & AA & AD & TH & _ & _ & ID & FL & _).
  rewrite E. split; cbn [fst snd].
  - constructor; [|constructor]. split; cycle 1.
    { unfold announces_acks. rewrite FL, AA. unfold piggyback, cur, pending_acks in *. intros AN. apply OW.
      unfold pending_acks. change (circuit_of st a) with (circ st a).
      destruct (circ st a) as [c|]; [|destruct md; discriminate AN].
      destruct (c_acks c); [destruct md; discriminate AN|discriminate]. }
    intros d Hd. rewrite AD in Hd.
    destruct (serialize (e_pv env) (e_ser_dict env) (e_ser_xml env) (at_msg x)) as [o|]; [|discriminate].
    split; [now rewrite Hd|]. split; [rewrite ID; pose proof (ok_last _ (cur_ok st href a Iv)); lia|].
    exists (mode_flag md). split; [destruct md; [left|right]; reflexivity|]. rewrite FL.
    destruct (piggyback (cur st href a) m); [right|left]; destruct md; reflexivity.
  - rewrite TH. destruct (serialize (e_pv env) (e_ser_dict env) (e_ser_xml env) (at_msg x)) as [[b|]|]; [exact I|apply back_dl|apply back_dl].
Qed.
Definition wl (env : denv) (D : message -> Prop) (Q : addr -> Prop) (st : dstate) (w : work) : Prop :=
  match w with Deliver m => D m | Announce _ _ _ _ => e_handle_out env = true /\ owes Q st end.
Lemma after_fair env D Q st e w : inv st -> wl env D Q st w -> fair env D Q (after_handler env st e w).
Proof.
  intros Iv W. destruct w as [m|mref href md k]; cbn [after_handler]; [split; [constructor|exact I]|].
  destruct W as [W OW]. destruct (swallow_keyerror e); [split; [constructor|apply back_dl]|now apply transmit_fair].
Qed.
Lemma enter_fair env D Q st name i w : inv st -> wl env D Q st w -> fair env D Q (enter_handler env st name i w).
Proof.
  intros Iv W. unfold enter_handler. destruct (sget name (s_handler st)) as [l|]; [|now apply after_fair].
  destruct (work_message st w) as [m|] eqn:WM; [|now apply after_fair].
  destruct (nth_error l i) as [s|]; [|now apply after_fair]. split; cbn [fst snd].
  - constructor; [|constructor]. intros HO. destruct w as [m'|]; cbn in *; [injection WM as <-; exact W|destruct W; congruence].
  - destruct w; apply W.
Qed.
Lemma begin_fair env D Q st mref href md k : inv st -> owes Q st -> fair env D Q (begin_send env st mref href md k).
Proof.
  intros Iv OW. unfold begin_send. destruct (nth_error (s_hosts st) href) as [a|]; [|split; [constructor|apply back_dl]].
  destruct (nth_error (s_msgs st) mref) as [m|]; [|split; [constructor|apply back_dl]].
  destruct (negb (host_ok a)); [split; [constructor|apply back_dl]|].
  destruct (e_handle_out env) eqn:HO; [now apply enter_fair|now apply transmit_fair].
Qed.
Lemma loop_fair env D Q st f : inv st -> owes Q st -> fair env D Q (ack_loop env st f).
Proof.
  intros Iv OW. unfold ack_loop. destruct (take_acks (skipn (f_pos f) (ack_list st f)) []) as [ids full].
  destruct (full || (0 <? zlen ids)); [|split; [constructor; [exact I|constructor]|exact I]].
  match goal with |- context [begin_send ?e ?s ?m ?h ?md ?k] => pose proof (begin_fair e D Q s m h md k (inv_new _ _ Iv) OW) as [A B];
    destruct (begin_send e s m h md k) as [[st1 ms1] th1] end.
  split; [constructor; [exact I|exact A]|exact B].
Qed.
Lemma resume_fair env D Q st e th : inv st -> owes Q st -> dl env D th -> fair env D Q (resume env st e th).
Proof.
  intros Iv OW DL. destruct th as [o|name i w|mref b k|r f last|todo]; cbn [resume].
  - split; [constructor|exact I].
  - assert (wl env D Q st w) as W by (destruct w; cbn; auto). destruct e; [now apply after_fair|now apply enter_fair].
  - destruct e; (split; [constructor|apply back_dl]).
  - destruct r; [|split; [constructor; [exact I|constructor]|exact I]].
    destruct last; [split; [constructor; [exact I|constructor]|exact I]|now apply loop_fair].
  - destruct todo as [|k todo]; cbn [next_circuit]; [split; [constructor|exact I]|].
    destruct (get_circuit (s_circuits st) k); [now apply loop_fair|split; [constructor|exact I]].
Qed.

Lemma receive_message env st href buf size st' r m : receive_check (silent env) st href buf size = (st', r) ->
  r_res r = Ok (Some m) -> exists a, accepts env st href buf size = Some (a, m).
Proof.
  unfold accepts, host_address, receive_check. intros E R. destruct (nth_error (s_hosts st) href) as [a0|] eqn:NH; [|injection E as <- <-; discriminate R].
  destruct (Z.leb_spec size 0); [injection E as <- <-; discriminate R|]. destruct (Z.ltb_spec 0 size); [|lia].
  pose proof (find_circuit_spec st href a0) as F. destruct (find_circuit st href a0) as [st1 c0].
  destruct F as (C0 & _ & _ & _ & _ & _ & HH & _). unfold deser_conf in *. cbn [silent e_des_dict e_des_xml e_deferred s_handler set_counts] in E.
  rewrite HH in E.
  assert (match circuit_of st a0 with Some c => c_trusted c | None => false end = c_trusted c0) as ->.
  { rewrite C0. unfold cur. change (circuit_of st a0) with (circ st a0). now destruct (circ st a0). }
  destruct (deserialize _ buf) as [[m0|]|]; cycle 1.
  { destruct (bind _ _) in E; injection E as <- <-; discriminate R. }
  { injection E as <- <-; discriminate R. }
  destruct (_ && _); [injection E as <- <-; discriminate R|]. cbn [e_handle silent] in E. injection E as <- <-. injection R as <-. eauto.
Qed.

(** What is before a step's own marks. *)
Definition head (env : denv) (cf : config) (x : sched) : list gevent :=
  match x with
  | Spawn (Receive h buf size) =>
      match accepts env (cf_st cf) h buf size with Some (a, m) => [Net (Accepted a m)] | None => [] end ++
      match host_address (cf_st cf) h with
      | Some a => if 0 <? size then [Queued a (acks_due env (cf_st cf) a buf)] else []
      | None => []
      end
  | Spawn (RemoveCircuit a) => if existsb acking (cf_pool cf) then [] else [Net (Removed a)]
  | _ => []
  end.
Lemma gevents_head env cf x : gevents env cf x = head env cf x ++ map seen (snd (cstep env cf x)).
Proof. reflexivity. Qed.

Lemma start_fair env (D : message -> Prop) (Q : addr -> Prop) cf o : inv (cf_st cf) -> owes Q (cf_st cf) ->
  (forall a m, In (Net (Accepted a m)) (head env cf (Spawn o)) -> D m) -> fair env D Q (start env cf o).
Proof.
  intros Iv OW HD. unfold start.
  assert (forall o', fair env D Q (let '(st, x) := step (silent env) (cf_st cf) o' in (st, [], Finished x))) as S.
  { intros o'. destruct (step (silent env) (cf_st cf) o'). split; [constructor|exact I]. }
  destruct o as [| | | | | |mref href md sock| |href buf size|order sock|a]; try apply S.
  - now apply begin_fair.
  - destruct (receive_check (silent env) (cf_st cf) href buf size) as [st1 r] eqn:R.
    destruct (receive_queues _ _ _ _ _ _ _ Iv R) as [I1 _].
    destruct (r_res r) as [[m|]|e'] eqn:RR; try (split; [constructor|exact I]).
    destruct (e_handle env); [|split; [constructor|exact I]]. apply enter_fair; [exact I1|]. cbn [wl].
    destruct (receive_message _ _ _ _ _ _ _ _ R RR) as (a & A). apply (HD a). cbn [head]. rewrite A. now left.
  - rewrite resend_none by exact Iv. split; [constructor|exact I].
  - destruct (existsb acking (cf_pool cf)); [split; [constructor|exact I]|apply S].
Qed.

Lemma dl_mono env (D D' : message -> Prop) th : (forall m, D m -> D' m) -> dl env D th -> dl env D' th.
Proof. intros H. destruct th as [|name i [m|]| | |]; cbn; auto. Qed.
Lemma dl_detach env D k l th : dl env D th -> dl env D (detach k l th).
Proof. destruct th as [|name i [m|]| | |]; cbn; auto. Qed.
Lemma dl_detach_all env D st ms : forall pool, (forall th, In th pool -> dl env D th) -> forall th, In th (detach_all st ms pool) -> dl env D th.
Proof.
  induction ms as [|m ms IH] using rev_ind; intros pool H th X; [exact (H th X)|].
  unfold detach_all in *. rewrite fold_left_app in X. cbn [fold_left] in X.
  destruct m; try exact (IH pool H th X). apply in_map_iff in X as (th1 & <- & X). apply dl_detach. exact (IH pool H th1 X).
Qed.
Lemma cstep_fair env (D : message -> Prop) (Q : addr -> Prop) cf x : inv (cf_st cf) -> owes Q (cf_st cf) -> (forall th, In th (cf_pool cf) -> dl env D th) ->
  (forall a m, In (Net (Accepted a m)) (head env cf x) -> D m) ->
  Forall (mk env D Q) (snd (cstep env cf x)) /\ forall th, In th (cf_pool (fst (cstep env cf x))) -> dl env D th.
Proof.
  intros Iv OW DL HD. destruct x as [o|i e]; cbn [cstep].
  - destruct (start_fair env D Q cf o Iv OW HD) as [A B]. destruct (start env cf o) as [[st ms] th1]. cbn [fst snd cf_pool] in *.
    split; [exact A|]. intros th X. apply in_app_or in X as [X|[<-|[]]]; auto.
  - destruct (nth_error (cf_pool cf) i) as [th|] eqn:N; [|split; [constructor|exact DL]].
    destruct (resume_fair env D Q (cf_st cf) e th Iv OW (DL _ (nth_error_In _ _ N))) as [A B].
    destruct (resume env (cf_st cf) e th) as [[st ms] th']. cbn [fst snd cf_pool] in *. split; [exact A|].
    intros th1 X. apply in_update in X as [->|X]; [exact B|]. eapply dl_detach_all; eauto.
Qed.

(** What is packed was queued. *)
Lemma queued_event a tr : forall l k, In k (fold_left (queue_in a) tr l) -> In k l \/ exists ids, In (Queued a ids) tr /\ In k ids.
Proof.
  induction tr as [|e tr IH]; intros l k H; [auto|]. cbn [fold_left] in H. destruct (IH _ _ H) as [X|(ids & X & Y)]; [|right; exists ids; split; [now right|exact Y]].
  destruct e as [[x|b m|b]|s m|b ids|b ids|b|b]; cbn [queue_in] in X; auto.
  - destruct (addr_eqb a b); [contradiction|auto].
  - destruct (addr_eqb a b) eqn:E; [|auto]. apply addr_eqb_spec in E as <-. apply in_app_or in X as [X|X]; [auto|]. right. exists ids. split; [now left|exact X].
Qed.
Lemma pack_queued env cf x tr a ids : inv (cf_st cf) -> sound cf tr -> In (MPack a ids) (snd (cstep env cf x)) ->
  incl ids (all_queued a tr) /\ 1 <= zlen ids <= 251.
Proof.
  intros Iv SO H. destruct x as [o|i e]; cbn [cstep] in H.
  - exfalso. destruct (start env cf o) as [[st ms] th] eqn:E. cbn [snd] in H. unfold start in E.
    destruct o as [| | | | | |mref href md sock| |href buf size|order sock|b]; try (destruct (step (silent env) (cf_st cf) _); injection E as <- <- <-; contradiction).
    + destruct (begin_effect _ _ _ _ _ _ _ _ _ Iv E) as (_ & _ & _ & P). rewrite Forall_forall in P. exact (P _ H).
    + destruct (receive_check (silent env) (cf_st cf) href buf size) as [st1 r] eqn:R.
      destruct (receive_queues _ _ _ _ _ _ _ Iv R) as [I1 _].
      destruct (r_res r) as [[m|]|e']; try (injection E as <- <- <-; contradiction).
      destruct (e_handle env); [|injection E as <- <- <-; contradiction].
      destruct (enter_effect _ _ _ _ _ _ _ _ I1 E) as (_ & _ & _ & P). rewrite Forall_forall in P. exact (P _ H).
    + rewrite resend_none in E by exact Iv. injection E as <- <- <-. contradiction.
    + destruct (existsb acking (cf_pool cf)); [injection E as <- <- <-; contradiction|destruct (step (silent env) (cf_st cf) _); injection E as <- <- <-; contradiction].
  - destruct (nth_error (cf_pool cf) i) as [th|] eqn:NT; [|contradiction].
    destruct (resume env (cf_st cf) e th) as [[st ms] th'] eqn:R. cbn [snd] in H.
    destruct (resume_origin _ _ _ _ _ _ _ Iv R) as [OP _]. destruct (OP a ids H) as (h & lst & O & IN & SZ). split; [|exact SZ].
    eapply incl_tran; [exact IN|]. destruct lst as [l|]; cbn [ids_of]; [|apply (so_pending _ _ SO)].
    destruct O as [(f & last & F & K & _ & L)|[X _]]; [|discriminate].
    destruct (so_pool _ _ SO th f last (nth_error_In _ _ NT) F) as [_ Q]. rewrite <- K. now apply Q.
Qed.
Lemma due_number env st a buf k : In k (acks_due env st a buf) -> sequence_number buf = Some k.
Proof.
  unfold acks_due. destruct (deserialize (deser_conf env st) buf) as [[m|]|] eqn:D; [| |contradiction].
  - destruct (trusted st a); [contradiction|]. destruct (m_reliable m); [|contradiction]. intros [<-|[]].
    now destruct (deserialize_header _ _ _ D).
  - destruct (sequence_number buf); [|contradiction]. now intros [<-|[]].
Qed.

(** ** The crowd *)
Definition at_node (i : nat) (log : list (nat * gevent)) : list gevent :=
  map snd (filter (fun p => Nat.eqb (fst p) i) log).
Lemma at_node_app i l1 l2 : at_node i (l1 ++ l2) = at_node i l1 ++ at_node i l2.
Proof. unfold at_node. now rewrite filter_app, map_app. Qed.
Lemma at_node_same i es : at_node i (map (pair i) es) = es.
Proof. unfold at_node. induction es as [|e es IH]; [reflexivity|]. cbn. rewrite Nat.eqb_refl. cbn. now rewrite IH. Qed.
Lemma at_node_other i j es : i <> j -> at_node i (map (pair j) es) = [].
Proof. intros N. unfold at_node. induction es as [|e es IH]; [reflexivity|]. cbn. destruct (Nat.eqb_spec j i); [congruence|exact IH]. Qed.
Lemma at_node_in i e log : In e (at_node i log) -> In (i, e) log.
Proof.
  unfold at_node. intros H. apply in_map_iff in H as ([j e'] & <- & H). apply filter_In in H as [H E].
  cbn in *. apply Nat.eqb_eq in E as ->. exact H.
Qed.

Definition known (i : nat) (log : list (nat * gevent)) (m : message) : Prop := exists a, In (i, Net (Accepted a m)) log.
Definition expl (env : denv) (i : nat) (past : list (nat * gevent)) (e : gevent) : Prop :=
  match e with
  | Net (Accepted a w) => exists x d, put_out past x d /\ deserialize (open_conf (e_des_dict env)) d = Ok (Some w)
  | Net (Attempted x) => hdr env x /\ (announces_acks x -> owed_at past i (at_addr x))
  | Called _ w => e_handle_out env = false -> known i past w
  | Queued _ ids => Forall (a_number past) ids
  | Packing _ ids => Forall (a_number past) ids /\ 1 <= zlen ids <= 251
  | _ => True
  end.
Lemma owed_mono i l1 l2 a : owed_at l1 i a -> owed_at (l1 ++ l2) i a.
Proof. intros (k & ids & H). exists k, ids. apply in_or_app. now left. Qed.
Lemma put_out_mono l1 l2 x d : put_out l1 x d -> put_out (l1 ++ l2) x d.
Proof. intros (i & H & E). exists i. split; [apply in_or_app; now left|exact E]. Qed.
Lemma number_mono l1 l2 n : a_number l1 n -> a_number (l1 ++ l2) n.
Proof. intros (y & d & P & E). exists y, d. split; [now apply put_out_mono|exact E]. Qed.
Lemma known_mono i l1 l2 m : known i l1 m -> known i (l1 ++ l2) m.
Proof. intros (a & H). exists a. apply in_or_app. now left. Qed.
Lemma expl_mono env i l1 l2 e : expl env i l1 e -> expl env i (l1 ++ l2) e.
Proof.
  assert (forall ids, Forall (a_number l1) ids -> Forall (a_number (l1 ++ l2)) ids) as N.
  { intros ids. apply Forall_impl. intros n. apply number_mono. }
  destruct e as [[x|a w|a]|s w|a ids|a ids|a|a]; cbn [expl]; auto.
  - intros [A B]. split; [exact A|]. intros X. apply owed_mono. auto.
  - intros (x & d & P & E). exists x, d. split; [now apply put_out_mono|exact E].
  - intros H E. apply known_mono. auto.
  - intros [A B]. split; auto.
Qed.

Lemma head_expl env cf x i log e : may log x -> In e (head env cf x) -> expl env i log e.
Proof.
  intros M H. destruct x as [o|]; [|contradiction]. destruct o as [| | | | | | | |h buf size| |b]; try contradiction; cbn [head] in H.
  - assert (forall a, host_address (cf_st cf) h = Some a -> 0 < size -> exists y, put_out log y buf) as B.
    { intros a _ S. cbn in M. destruct M as [M|M]; [lia|exact M]. }
    apply in_app_or in H as [H|H].
    + unfold accepts in H. destruct (host_address (cf_st cf) h) as [a|]; [|contradiction].
      destruct (Z.ltb_spec 0 size) as [SZ|]; [|contradiction]. destruct (B a eq_refl SZ) as (y & P).
      destruct (deserialize (deser_conf env (cf_st cf)) buf) as [[m|]|] eqn:D; try contradiction.
      destruct (_ && _); [contradiction|]. destruct H as [<-|[]]. exists y, buf. split; [exact P|exact (deserialize_open _ _ _ D)].
    + destruct (host_address (cf_st cf) h) as [a|]; [|contradiction].
      destruct (Z.ltb_spec 0 size) as [SZ|]; [|contradiction]. destruct (B a eq_refl SZ) as (y & P).
      destruct H as [<-|[]]. cbn [expl]. rewrite Forall_forall. intros k K. exists y, buf. split; [exact P|exact (due_number _ _ _ _ _ K)].
  - destruct (existsb acking (cf_pool cf)); [contradiction|]. destruct H as [<-|[]]. exact I.
Qed.

Record node_fair (env : denv) (i : nat) (log : list (nat * gevent)) (cf : config) : Prop := {
  nf_good : good (cf_st cf);
  nf_ledger : exists tr, ledger tr (cf_st cf);
  nf_sound : sound cf (at_node i log);
  nf_known : forall th, In th (cf_pool cf) -> dl env (known i log) th }.
Lemma node_step env cf x i log : node_fair env i log cf ->
  (forall a ids, In (i, Queued a ids) log -> Forall (a_number log) ids) -> may log x ->
  node_fair env i (log ++ map (pair i) (gevents env cf x)) (fst (cstep env cf x)) /\
  forall p e q, gevents env cf x = p ++ e :: q -> expl env i (log ++ map (pair i) p) e.
Proof.
  intros [G [tr L] SO DL] QU M. destruct (cstep_good env cf x tr G L) as [G' L']. pose proof (good_inv _ G) as Iv.
  pose (log' := log ++ map (pair i) (head env cf x)).
  assert (owes (owed_at log' i) (cf_st cf)) as OW.
  { intros a NE. destruct (pending_acks (cf_st cf) a) as [|k l] eqn:PE; [contradiction|].
    assert (In k (all_queued a (at_node i log))) as Q by (apply (so_pending _ _ SO); rewrite PE; now left).
    destruct (queued_event a _ [] k Q) as [[]|(ids & Q1 & Q2)]. apply at_node_in in Q1. apply owed_mono.
    destruct ids as [|k' ids]; [contradiction|]. exists k', ids. exact Q1. }
  destruct (cstep_fair env (known i log') (owed_at log' i) cf x Iv OW) as [MK DL'].
  { intros th X. eapply dl_mono; [|exact (DL th X)]. intros m. apply known_mono. }
  { intros a m X. exists a. apply in_or_app. right. now apply in_map. }
  split.
  - constructor.
    + exact G'.
    + eexists. exact L'.
    + rewrite at_node_app, at_node_same. now apply cstep_sound.
    + intros th X. eapply dl_mono; [|exact (DL' th X)]. intros m K. unfold log' in K. rewrite gevents_head, map_app, app_assoc. now apply known_mono.
  - intros p e q E. rewrite gevents_head in E. destruct (split_app _ _ _ _ _ E) as [(f & H)|(p' & -> & H)].
    + apply expl_mono. eapply head_expl; [exact M|]. rewrite H. apply in_or_app. right. now left.
    + rewrite map_app, app_assoc. apply expl_mono. fold log'.
      assert (In e (map seen (snd (cstep env cf x)))) as X by (rewrite H; apply in_or_app; right; now left).
      apply in_map_iff in X as (k & <- & X). pose proof MK as MK'. rewrite Forall_forall in MK. specialize (MK k X).
      destruct k as [s w|y|a ids|a|a]; cbn [seen expl mk] in *; auto.
      destruct (pack_queued env cf x _ a ids Iv SO X) as [IN SZ]. split; [|exact SZ].
      rewrite Forall_forall. intros k K. apply IN in K. destruct (queued_event a _ [] k K) as [[]|(ids' & Q1 & Q2)].
      apply at_node_in in Q1. pose proof (QU _ _ Q1) as F. rewrite Forall_forall in F. unfold log'. apply number_mono. auto.
Qed.

Record tale (envs : list denv) (n : crowd) : Prop := {
  ta_nodes : map fst (w_nodes n) = envs;
  ta_fair : forall i env cf, nth_error (w_nodes n) i = Some (env, cf) -> node_fair env i (w_log n) cf;
  ta_expl : forall past i e future, w_log n = past ++ (i, e) :: future ->
    exists env, nth_error envs i = Some env /\ expl env i past e }.
Lemma tale_start envs : tale envs (crowd_start envs).
Proof.
  constructor.
  - cbn. rewrite map_map. apply map_id.
  - intros i env cf H. cbn in H. rewrite nth_error_map in H. destruct (nth_error envs i) as [env'|]; [|discriminate].
    injection H as <- <-. constructor.
    + exact good_init.
    + exists []. exact ledger_init.
    + constructor; [intros a x []|intros a x []|intros th f last []].
    + intros th [].
  - intros past i e future H. cbn in H. destruct past; discriminate.
Qed.
Lemma tale_step envs n n' : crowd_step n n' -> tale envs n -> tale envs n'.
Proof.
  intros ST. destruct ST as [i before env cf after x log L M]. intros [TN TF TE]. cbn [w_nodes w_log] in *.
  assert (nth_error (before ++ (env, cf) :: after) i = Some (env, cf)) as NI by (rewrite <- L; apply NetworkProofs.nth_at).
  assert (nth_error envs i = Some env) as EI.
  { rewrite <- TN, nth_error_map, NI. reflexivity. }
  destruct (node_step env cf x i log (TF i env cf NI)) as [NF EX]; [|exact M|].
  { intros a ids H. destruct (in_split _ _ H) as (p1 & p2 & ->). destruct (TE _ _ _ _ eq_refl) as (env' & _ & F). cbn in F.
    eapply Forall_impl; [|exact F]. intros k. apply number_mono. }
  constructor; cbn [w_nodes w_log].
  - rewrite <- TN, !map_app. reflexivity.
  - intros j env1 cf1 H. destruct (NetworkProofs.nth_middle _ _ _ _ _ H) as [[-> Q]|[NE Q]].
    + injection Q as -> ->. rewrite L. exact NF.
    + destruct (TF j env1 cf1 (Q _)) as [A B C D]. constructor; auto.
      * rewrite at_node_app, at_node_other, app_nil_r by congruence. exact C.
      * intros th X. eapply dl_mono; [|exact (D th X)]. intros m. apply known_mono.
  - intros past j e future H. destruct (split_app _ _ _ _ _ H) as [(f & ->)|(p & -> & H2)]; [eapply TE; reflexivity|].
    assert (j = i /\ exists p0 q0, p = map (pair i) p0 /\ gevents env cf x = p0 ++ e :: q0) as [-> (p0 & q0 & -> & G)].
    { revert H2. generalize (gevents env cf x). clear. induction p as [|y p IH]; intros es H2.
      - destruct es as [|e0 es]; [discriminate|]. injection H2 as <- <- _. split; [reflexivity|]. exists [], es. auto.
      - destruct es as [|e0 es]; [discriminate|]. injection H2 as <- H2. destruct (IH es H2) as (-> & p0 & q0 & -> & ->).
        split; [reflexivity|]. exists (e0 :: p0), q0. auto. }
    exists env. split; [exact EI|]. exact (EX _ _ _ G).
Qed.
Lemma crowd_tale envs n : crowd_steps (crowd_start envs) n -> tale envs n.
Proof.
  intros H. remember (crowd_start envs) as n0. induction H as [n|n1 n2 n3 H IH S]; [subst; apply tale_start|].
  subst. eapply tale_step; [exact S|auto].
Qed.

Lemma crowd_no_false_acks envs n past i a ids future k : crowd_steps (crowd_start envs) n ->
  w_log n = past ++ (i, Packing a ids) :: future -> In k ids -> a_number past k.
Proof.
  intros S L K. destruct (ta_expl _ _ (crowd_tale _ _ S) _ _ _ _ L) as (env & _ & F & _). rewrite Forall_forall in F. auto.
Qed.

(** What an answer is made of. *)
Lemma answer_known envs n past i x d future : tale envs n -> w_log n = past ++ (i, Net (Attempted x)) :: future ->
  answering past i x -> at_data x = Some d ->
  exists p, acknowledges (at_msg x) p /\ 1 <= zlen p <= 251 /\ Forall (a_number past) p /\ Forall (fun k => 0 <= k < 2 ^ 32) p.
Proof.
  intros T L (p & a & ids & EP & A) AD. rewrite EP, <- app_assoc in L. cbn [app] in L.
  destruct (ta_expl _ _ T _ _ _ _ L) as (env & _ & F & SZ). exists ids. split; [exact A|]. split; [exact SZ|]. split.
  - rewrite EP. eapply Forall_impl; [|exact F]. intros k. apply number_mono.
  - eapply Forall_impl; [|exact F]. intros k (y & b & _ & SQ). exact (seq_range _ _ SQ).
Qed.

(** A datagram with the ACK flag that is accepted, against the one without it. *)
Lemma unflagged pv ts c handled f f' tl m :
  build_dict pv ts = Ok (dc_dict c) -> Forall sized ts -> dc_handled c = Some handled ->
  bit f ack_bit = false -> bit f zero_bit = false -> byte_value f' = byte_value f + 16 ->
  deserialize c (f' :: tl) = Ok (Some m) ->
  deserialize c (f :: tl) = Ok (Some (reflagged (byte_value f) [] m)) /\
  (exists front trailer, f' :: tl = front ++ trailer /\ ack_trailer trailer (m_acks m)).
Proof.
  intros Hbd Hsz Hh Ha Hz Ho H. apply (deserialize_says pv ts c handled _ _ Hbd Hsz Hh) in H.
  change byte_value with ord in Ho. destruct (bits_plus f f' 4 ltac:(cbn; auto) Ha Ho) as [B1 B2].
  destruct H as (plain & tr0 & ids0 & t & g & n & h & rest0 & Hu & (six & Ep & E6) & Hn & Hc & Hg & Hal & Hw &
      flags & id & off & after & body & rest & bs & Eh & Hid & Hsk & Hr & Hne & Hname & Hfl & Hidv & Hbl & Hac & Hna & Hrel & Heq & Htr & Hre).
  destruct Hu as (f0 & tl0 & cd & E & Ec & Ht0 & Hz0). cbn [app] in E. injection E as <- E.
  change (bit f' ack_bit) with (bit f' 4) in Ht0. rewrite B1 in Ht0.
  rewrite (B2 zero_bit) in Hz0 by (cbv; congruence). rewrite Hz in Hz0. rewrite Ec in Hz0. subst cd. rewrite Hz0 in Ep, Eh, Hsk.
  assert ((f' :: tl0) ++ tr0 = f' :: tl) as EP by (cbn; now rewrite E).
  split.
  2: { rewrite Hac. exists (f' :: tl0), tr0. split; [now rewrite EP|exact Ht0]. }
  apply (deserialize_says pv ts c handled _ _ Hbd Hsz Hh).
  rewrite EP in Eh, Hsk. injection Eh as <- Er.
  exists (f :: tl), [], [], t, g, n, h, (rest0 ++ tr0). split.
  { exists f, tl, (f :: tl). rewrite app_nil_r, Ha, Hz. auto. }
  split. { destruct six as [|x six]; [discriminate|]. injection Ep as <- Ez. exists (f :: six).
    split; [cbn; rewrite E, Ez, <- !app_assoc; reflexivity|]. rewrite zlen_cons in *. exact E6. }
  split; [exact Hn|]. split; [exact Hc|]. split; [exact Hg|]. split; [exact Hal|]. split; [exact Hw|].
  exists f, id, off, after, body, rest, bs. rewrite app_nil_r. split; [cbn; now rewrite Er|]. split; [exact Hid|].
  split.
  { rewrite <- Hsk. change byte_value with ord. pose proof (ord_range off).
    destruct (Z.to_nat (6 + number_width g + ord off)) as [|k] eqn:Ek; [destruct g; cbn [number_width] in Ek; lia|]. reflexivity. }
  split; [exact Hr|]. split; [exact Hne|].
  cbn -[bit byte_value]. repeat split; try assumption; try reflexivity. rewrite Hrel. apply B2. cbv; congruence.
Qed.

Lemma small_byte f z : byte_value f = z mod 256 -> 0 <= z < 256 -> byte_value f = z.
Proof. intros -> H. now apply Z.mod_small. Qed.
Lemma chr_value z : 0 <= z < 256 -> byte_value (chr z) = z.
Proof. intros H. change (ord (chr z) = z). rewrite ord_chr. now apply Z.mod_small. Qed.

Lemma any_read_back pv' pv ts dict xm x d w t fl : build_dict pv' ts = Ok dict -> Forall sized ts -> unambiguous ts -> In t ts -> usable t ->
  m_name (at_msg x) = t_name t -> conforming t (at_msg x) -> 1 <= m_id (at_msg x) < 2 ^ 31 ->
  (fl = 0 \/ fl = 2 ^ reliable_bit) -> (m_flags (at_msg x) = fl \/ m_flags (at_msg x) = fl + 2 ^ ack_bit) ->
  serialize pv dict xm (at_msg x) = Ok (Some d) -> deserialize (open_conf dict) d = Ok (Some w) ->
  a_copy t (at_msg x) w /\ acks_from x d (m_acks w).
Proof.
  intros BD SZ UN IN US NM CF ID FL MF S D. unfold acks_from. destruct MF as [MF|MF].
  - assert (Z.testbit (m_flags (at_msg x)) ack_bit = false) as -> by (rewrite MF; destruct FL as [-> | ->]; reflexivity).
    assert (message_back t (at_msg x) w) as MB by (eapply read_back; eauto; rewrite MF; exact FL).
    destruct MB as (M1 & M2 & M3 & M4 & M5 & M6 & M7 & M8). split; [|exact M4].
    split; [exact M1|]. repeat (split; [assumption || reflexivity|]). exact M8.
  - assert (Z.testbit (m_flags (at_msg x)) ack_bit = true) as -> by (rewrite MF; destruct FL as [-> | ->]; reflexivity).
    apply serialize_layout in S. destruct (layout_first _ _ _ _ _ S) as (f' & tl & -> & FV).
    apply small_byte in FV; [|rewrite MF; destruct FL as [-> | ->]; cbn; lia].
    assert (byte_value (chr fl) = fl) as CV by (apply chr_value; destruct FL as [-> | ->]; cbn; lia).
    destruct (unflagged pv' ts (open_conf dict) (fun _ => true) (chr fl) f' tl w) as [D0 TR]; auto.
    { unfold bit. rewrite CV. destruct FL as [-> | ->]; reflexivity. }
    { unfold bit. rewrite CV. destruct FL as [-> | ->]; reflexivity. }
    { rewrite CV, FV, MF. reflexivity. }
    split; [|exact TR].
    assert (serialize pv dict xm (reflagged fl [] (at_msg x)) = Ok (Some (chr fl :: tl))) as S0.
    { apply serialize_layout. apply layout_reflag with f'; [exact S|]. right. destruct FL as [-> | ->]; cbn; lia. }
    assert (message_back t (reflagged fl [] (at_msg x)) (reflagged (byte_value (chr fl)) [] w)) as MB.
    { eapply (read_back pv' pv ts dict xm); try exact S0; try exact D0; try assumption. }
    destruct (deserialize_header _ _ _ D) as (_ & _ & _ & f1 & tl1 & E1 & HF & _). injection E1 as <- <-.
    destruct MB as (M1 & M2 & M3 & M4 & M5 & M6 & M7 & M8). cbn in M1, M2, M3, M6.
    split; [exact M1|]. split; [cbn; rewrite HF; exact FV|]. split; [exact M3|]. split; [reflexivity|]. split; [reflexivity|].
    split; [cbn; rewrite M6, MF; destruct FL as [-> | ->]; reflexivity|]. split; [exact M7|exact M8].
Qed.

Lemma nodup_name (ts : list template) t t' : NoDup (map t_name ts) -> In t ts -> In t' ts -> t_name t = t_name t' -> t = t'.
Proof.
  induction ts as [|u ts IH]; intros N A B E; [contradiction|]. cbn in N. inversion N as [|? ? N1 N2]; subst.
  destruct A as [->|A], B as [->|B]; auto; exfalso; apply N1.
  - rewrite E. now apply in_map.
  - rewrite <- E. now apply in_map.
Qed.
Lemma crowd_core pv ts ta envs n past j a w future : crowd_steps (crowd_start envs) n -> same_templates pv ts envs ->
  Forall sized ts -> unambiguous ts -> In ta ts -> packet_ack_template ta -> conforming_use ts (w_log n) ->
  w_log n = past ++ (j, Net (Accepted a w)) :: future ->
  exists i x d p1 p2 t, past = p1 ++ (i, Net (Attempted x)) :: p2 /\ at_data x = Some d /\
     In t ts /\ m_name (at_msg x) = t_name t /\ a_copy t (at_msg x) w /\ acks_from x d (m_acks w) /\
     (answering p1 i x -> exists p, t = ta /\ acknowledges (at_msg x) p /\ Forall (a_number p1) p).
Proof.
  intros S ST SZ UN IN PT CU L. pose proof (crowd_tale _ _ S) as T.
  destruct (ta_expl _ _ T _ _ _ _ L) as (env & CJ & x & d & (i & HI & AD) & D).
  destruct (in_split _ _ HI) as (p1 & p2 & EP).
  assert (w_log n = p1 ++ (i, Net (Attempted x)) :: (p2 ++ (j, Net (Accepted a w)) :: future)) as L1.
  { rewrite L, EP, <- app_assoc. reflexivity. }
  destruct (ta_expl _ _ T _ _ _ _ L1) as (env1 & CI & HD & _). destruct (HD d AD) as (SE & I1 & fl & FL & MF).
  destruct (CU _ _ _ _ _ L1 AD) as [I2 CF]. unfold same_templates in ST. rewrite Forall_forall in ST.
  apply nth_error_In, ST in CJ as (BD & ED & HO). apply nth_error_In, ST in CI as (BD1 & ED1 & HO1).
  assert (e_ser_dict env1 = e_ser_dict env) as DD by congruence. rewrite ED in D. rewrite DD in SE.
  assert (answering p1 i x -> exists p, acknowledges (at_msg x) p /\ Forall (a_number p1) p /\ usable ta /\ m_name (at_msg x) = t_name ta /\ conforming ta (at_msg x)) as AN.
  { intros AN. destruct (answer_known _ _ _ _ _ _ _ T L1 AN AD) as (p & A & LP & NP & RP).
    destruct (ack_conforming ta (at_msg x) p PT A LP RP) as (U1 & U2 & U3). exists p. auto 8. }
  assert (exists t, In t ts /\ usable t /\ m_name (at_msg x) = t_name t /\ conforming t (at_msg x)) as (t & T1 & T2 & T3 & T4).
  { destruct CF as [A|CF]; [|exact CF]. destruct (AN A) as (p & _ & _ & U1 & U2 & U3). exists ta. auto. }
  destruct (any_read_back pv (e_pv env1) ts (e_ser_dict env) _ x d w t fl BD SZ UN T1 T2 T3 T4 (conj I1 I2) FL MF SE D) as [AC AF].
  exists i, x, d, p1, p2, t. repeat (split; [assumption|]). intros A. destruct (AN A) as (p & A1 & A2 & _ & U2 & _).
  exists p. split; [|auto]. apply (nodup_name ts t ta (proj1 UN) T1 IN). congruence.
Qed.
Lemma crowd_copies pv ts ta envs n past j a w future : crowd_steps (crowd_start envs) n -> same_templates pv ts envs ->
  Forall sized ts -> unambiguous ts -> In ta ts -> packet_ack_template ta -> conforming_use ts (w_log n) ->
  w_log n = past ++ (j, Net (Accepted a w)) :: future ->
  exists x d t, put_out past x d /\ In t ts /\ m_name (at_msg x) = t_name t /\ a_copy t (at_msg x) w /\ acks_from x d (m_acks w).
Proof.
  intros S ST SZ UN IN PT CU L.
  destruct (crowd_core pv ts ta envs n past j a w future S ST SZ UN IN PT CU L) as (i & x & d & p1 & p2 & t & -> & AD & H1 & H2 & H3 & H4 & _).
  exists x, d, t. split; [|auto]. exists i. split; [apply in_or_app; right; now left|exact AD].
Qed.
(** Subscribers see accepted messages only. *)
Lemma crowd_called pv ts envs n past j s w future : crowd_steps (crowd_start envs) n -> same_templates pv ts envs ->
  w_log n = past ++ (j, Called s w) :: future -> exists a, In (j, Net (Accepted a w)) past.
Proof.
  intros S ST L. destruct (ta_expl _ _ (crowd_tale _ _ S) _ _ _ _ L) as (env & CJ & H). apply H.
  unfold same_templates in ST. rewrite Forall_forall in ST. now apply nth_error_In, ST in CJ as (_ & _ & HO).
Qed.
Lemma crowd_subscribers pv ts ta envs n past j s w future : crowd_steps (crowd_start envs) n -> same_templates pv ts envs ->
  Forall sized ts -> unambiguous ts -> In ta ts -> packet_ack_template ta -> conforming_use ts (w_log n) ->
  w_log n = past ++ (j, Called s w) :: future ->
  exists x d t, put_out past x d /\ In t ts /\ m_name (at_msg x) = t_name t /\ a_copy t (at_msg x) w /\ acks_from x d (m_acks w).
Proof.
  intros S ST SZ UN IN PT CU L. destruct (crowd_called _ _ _ _ _ _ _ _ _ S ST L) as (a & H).
  destruct (in_split _ _ H) as (q1 & q2 & ->). rewrite <- app_assoc in L. cbn [app] in L.
  destruct (crowd_copies pv ts ta envs n q1 j a w _ S ST SZ UN IN PT CU L) as (x & d & t & P & X). exists x, d, t.
  split; [now apply put_out_mono|exact X].
Qed.
(** What a packet announcing acks had: acks queued for its address. *)
Lemma crowd_owed envs n past i x future : crowd_steps (crowd_start envs) n ->
  w_log n = past ++ (i, Net (Attempted x)) :: future -> announces_acks x -> owed_at past i (at_addr x).
Proof. intros S L. now destruct (ta_expl _ _ (crowd_tale _ _ S) _ _ _ _ L) as (env & _ & _ & H). Qed.

Lemma ids_back (P : Z -> Prop) ta m w p b k : packet_ack_template ta -> a_copy ta m w -> acknowledges m p -> Forall P p ->
  In b (instances w "Packets") -> block_getitem b "ID" = Ok (VInt k) -> P k.
Proof.
  intros PT (_ & _ & _ & _ & _ & _ & _ & B4) (An & Af & Aa & bl & Ab & Ai) FP HB HG. destruct PT as (Tn & Tf & nn & Tb).
  set (id := {| tv_name := "ID"; tv_type := Some MVT_U32; tv_size := Some 4 |}) in *.
  set (tb := {| tb_name := "Packets"; tb_type := Some MBT_VARIABLE; tb_number := nn; tb_vars := [id] |}) in *.
  assert (In1 : instances m "Packets" = bl) by (unfold instances, get_block; rewrite Ab; reflexivity).
  destruct (B4 tb) as [B5 _]; [rewrite Tb; now left|].
  change (instances (reflagged (m_flags w) [] w) (tb_name tb)) with (instances w "Packets") in B5.
  change (tb_name tb) with "Packets"%string in B5. rewrite In1 in B5. clear -B5 Ai FP HB HG. revert p Ai FP.
  induction B5 as [|b0 b' bl bs (_ & _ & G) _ IH]; intros p Ai FP; [contradiction|].
  inversion Ai as [|? i ? p' (_ & _ & H) Ai']; subst. inversion FP as [|? ? N1 FP']; subst. destruct HB as [->|HB]; [|eapply IH; eauto].
  destruct (G id (or_introl eq_refl)) as (x & y & G1 & G2 & G3). cbn in G1, G2. rewrite H in G1. injection G1 as <-. rewrite HG in G2. injection G2 as <-.
  destruct G3 as (t & x' & [= <-] & SF & z & Z1 & ZE). apply stands_other in SF; try discriminate; [|reflexivity].
  subst x'. inversion Z1; subst. injection ZE as ->. exact N1.
Qed.
Lemma crowd_acks_seen pv ts ta envs n past j s w future b k : crowd_steps (crowd_start envs) n -> same_templates pv ts envs ->
  Forall sized ts -> unambiguous ts -> In ta ts -> packet_ack_template ta -> conforming_use ts (w_log n) -> only_own_acks (w_log n) ->
  w_log n = past ++ (j, Called s w) :: future -> m_name w = "PacketAck"%string ->
  In b (instances w "Packets") -> block_getitem b "ID" = Ok (VInt k) -> a_number past k.
Proof.
  intros S ST SZ UN IN PT CU OA L MW HB HG. destruct (crowd_called _ _ _ _ _ _ _ _ _ S ST L) as (a & H).
  destruct (in_split _ _ H) as (q1 & q2 & ->). rewrite <- app_assoc in L. cbn [app] in L.
  destruct (crowd_core pv ts ta envs n q1 j a w _ S ST SZ UN IN PT CU L) as (i & x & d & p1 & p2 & t & -> & AD & H1 & H2 & H3 & H4 & H5).
  rewrite <- app_assoc in L. cbn [app] in L.
  destruct (H5 (OA _ _ _ _ _ L AD ltac:(destruct H3 as (E & _); cbn in E; congruence))) as (p & -> & A & F).
  apply number_mono, number_mono. exact (ids_back _ ta _ _ p b k PT H3 A F HB HG).
Qed.

(** A packet that announces no acks is read by whoever gets it. *)
Lemma crowd_delivered pv ts ta envs n past i x d future j env cf h a t : crowd_steps (crowd_start envs) n -> same_templates pv ts envs ->
  Forall sized ts -> unambiguous ts -> In ta ts -> packet_ack_template ta -> conforming_use ts (w_log n) ->
  w_log n = past ++ (i, Net (Attempted x)) :: future -> at_data x = Some d -> ~ announces_acks x ->
  In t ts -> m_name (at_msg x) = t_name t ->
  t_blocks t = [] \/ (exists tb, In tb (t_blocks t) /\ instances (at_msg x) (tb_name tb) <> []) ->
  nth_error (w_nodes n) j = Some (env, cf) -> host_address (cf_st cf) h = Some a -> trusted (cf_st cf) a = false ->
  udp_allowed (e_des_xml env) (t_name t) -> is_message_handled (s_handler (cf_st cf)) (t_name t) = true \/ e_deferred env = false ->
  exists w rest, gevents env cf (Spawn (Receive h d (zlen d))) =
      Net (Accepted a w) :: Queued a (if Z.testbit (m_flags (at_msg x)) reliable_bit then [m_id (at_msg x)] else []) :: rest /\
    a_copy t (at_msg x) w /\ m_acks w = [].
Proof.
  intros S ST SZ UN IN PT CU L AD NA IT NM NE NJ HA TR UA HD. pose proof (crowd_tale _ _ S) as T.
  destruct (ta_expl _ _ T _ _ _ _ L) as (env1 & CI & HDR & _). destruct (HDR d AD) as (SE & I1 & fl & FL & MF).
  destruct (CU _ _ _ _ _ L AD) as [I2 CF].
  assert (nth_error envs j = Some env) as CJ by (rewrite <- (ta_nodes _ _ T), nth_error_map, NJ; reflexivity).
  unfold same_templates in ST. rewrite Forall_forall in ST.
  apply nth_error_In, ST in CJ as (BD & ED & HO). apply nth_error_In, ST in CI as (BD1 & ED1 & HO1).
  assert (e_ser_dict env1 = e_ser_dict env) as DD by congruence. rewrite DD in SE.
  assert (usable t /\ conforming t (at_msg x)) as [US CO].
  { destruct CF as [A|(t' & T1 & T2 & T3 & T4)].
    - destruct (answer_known _ _ _ _ _ _ _ T L A AD) as (p & AK & LP & _ & RP).
      destruct (ack_conforming ta (at_msg x) p PT AK LP RP) as (U1 & U2 & U3).
      rewrite (nodup_name ts t ta (proj1 UN) IT IN) by congruence. auto.
    - rewrite (nodup_name ts t t' (proj1 UN) IT T1) by congruence. auto. }
  assert (m_flags (at_msg x) = fl) as FM.
  { destruct MF as [MF|MF]; [exact MF|]. exfalso. apply NA. unfold announces_acks. rewrite MF. destruct FL as [-> | ->]; reflexivity. }
  assert (plain_header (e_pv env1) (at_msg x)) as PH.
  { split; [rewrite FM; destruct FL as [-> | ->]; cbn; lia|]. split; [rewrite FM; destruct FL as [-> | ->]; reflexivity|].
    split; [rewrite FM; destruct FL as [-> | ->]; reflexivity|]. split; [lia|]. right. unfold fits. cbn. lia. }
  pose proof (serialize_open _ _ _ _ _ SE) as SO.
  destruct (round_trip pv (e_pv env1) ts (deser_conf env (cf_st cf)) [] (at_msg x) t (is_message_handled (s_handler (cf_st cf)))) as (d' & w & S' & D & B); auto.
  { cbn. now rewrite ED. }
  { exact I. }
  cbn [deser_conf dc_dict] in S'. rewrite ED in S'. rewrite S' in SO. injection SO as ->.
  assert (0 < zlen d) as LD.
  { destruct d as [|b d]; [|rewrite zlen_cons; pose proof (zlen_nonneg d); lia]. unfold deserialize in D. discriminate D. }
  assert (accepts env (cf_st cf) h d (zlen d) = Some (a, w)) as AC.
  { unfold accepts. rewrite HA. destruct (Z.ltb_spec 0 (zlen d)); [|lia]. rewrite D. unfold trusted in TR. rewrite TR. reflexivity. }
  exists w, (map seen (snd (cstep env cf (Spawn (Receive h d (zlen d)))))). split.
  - unfold gevents. rewrite AC, HA. destruct (Z.ltb_spec 0 (zlen d)); [|lia]. unfold acks_due. rewrite D, TR.
    destruct B as (_ & _ & B3 & _ & _ & B6 & _). rewrite B6, B3. reflexivity.
  - destruct B as (M1 & M2 & M3 & M4 & M5 & M6 & M7 & M8). split; [|exact M4].
    split; [exact M1|]. repeat (split; [assumption || reflexivity|]). exact M8.
Qed.
