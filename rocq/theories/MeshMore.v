(** More lemmas for C104: where the packets of managers come from. *)
From Verif Require Import Lib SpecWhole WholeProofs LiveManagerProofs SpecMessages MessageProofs DispatchProofs DispatchMore GreenletProofs GreenletAcks GreenletMore CopiesProofs.
From Verif Require Import SpecCrowd CrowdProofs AnnouncedProofs SpecMesh MeshProofs.
From Verif Require Import SpecLayout SpecRoundTrip SpecGreenlets SpecCrowd SpecMesh.
Open Scope Z_scope.
Open Scope list_scope.

(** ** Message objects keep their contents *)
Definition key (m : message) := (m_name m, m_blocks m).
Definition keys (st : dstate) := map key (s_msgs st).
Definition pack_keys (ms : list mark) := flat_map (fun x => match x with MPack _ ids => [key (ack_message ids)] | _ => [] end) ms.
Definition r_keys (st : dstate) (r : step_result) : Prop := keys (fst (fst r)) = keys st ++ pack_keys (snd (fst r)).
Lemma keys_same st st' : s_msgs st' = s_msgs st -> keys st' = keys st ++ [].
Proof. unfold keys. intros ->. now rewrite app_nil_r. Qed.
Lemma keys_update l : forall r m m', nth_error l r = Some m -> key m' = key m -> map key (update_nth r m' l) = map key l.
Proof.
  induction l as [|a l IH]; intros [|r] m m' N K; try discriminate; cbn in *.
  - injection N as ->. now rewrite K.
  - f_equal. eapply IH; eauto.
Qed.
Lemma transmit_keys env st mref href md k : inv st -> r_keys st (transmit env st mref href md k).
Proof.
  intros Iv. unfold transmit. destruct (nth_error (s_hosts st) href) as [a|]; [|now apply keys_same].
  destruct (nth_error (s_msgs st) mref) as [m|] eqn:NM; [|now apply keys_same].
  pose proof (find_circuit_spec st href a) as FC. destruct (find_circuit st href a) as [st1 c].
  destruct FC as (EC & C1 & CO & H1 & M1 & _). subst c.
  pose proof (prepare_spec (cur st href a) mref m md (cur_ok st href a Iv)) as PS.
  destruct (match md with
            | Reliable r => prepare_packet (cur st href a) mref m LL_RELIABLE_FLAG r
            | Plain => prepare_packet (cur st href a) mref m LL_NONE 0
            end) as [c' m'] eqn:EP.
  assert (key m' = key m) as K.
  { unfold key. destruct PS as (P1 & P2 & P3 & P4 & P5 & P6 & P7 & P8 & P9 & P10 & P11 & P12 & P13 & P14). congruence. }
  cbv zeta. 
  match goal with |- context [set_msgs ?s ?l] => set (st2 := set_msgs s l) end.
  assert (keys st2 = keys st) as K2.
  { unfold st2, keys. cbn [set_msgs s_msgs put_circuit]. rewrite M1. now apply keys_update with m. }
  match goal with |- context [serialize _ _ _ m'] => idtac end.
  assert (forall s, s_msgs s = s_msgs st2 -> keys s = keys st ++ []) as G by (intros s E; rewrite app_nil_r, <- K2; unfold keys; now rewrite E).
  destruct md as [|r]; [|destruct (c_count c' <=? 0)]; destruct (serialize _ _ _ m') as [[b|]|]; (apply G; reflexivity).
Qed.
Lemma after_keys env st e w : inv st -> r_keys st (after_handler env st e w).
Proof.
  intros Iv. destruct w as [m|mref href md k]; cbn [after_handler]; [now apply keys_same|].
  destruct (swallow_keyerror e); [now apply keys_same|now apply transmit_keys].
Qed.
Lemma enter_keys env st name i w : inv st -> r_keys st (enter_handler env st name i w).
Proof.
  intros Iv. unfold enter_handler. destruct (sget name (s_handler st)) as [l|]; [|now apply after_keys].
  destruct (work_message st w) as [m|]; [|now apply after_keys].
  destruct (nth_error l i) as [s|]; [now apply keys_same|now apply after_keys].
Qed.
Lemma begin_keys env st mref href md k : inv st -> r_keys st (begin_send env st mref href md k).
Proof.
  intros Iv. unfold begin_send. destruct (nth_error (s_hosts st) href) as [a|]; [|now apply keys_same].
  destruct (nth_error (s_msgs st) mref) as [m|]; [|now apply keys_same].
  destruct (negb (host_ok a)); [now apply keys_same|].
  destruct (e_handle_out env); [now apply enter_keys|now apply transmit_keys].
Qed.
Lemma loop_keys env st f : inv st -> r_keys st (ack_loop env st f).
Proof.
  intros Iv. unfold ack_loop. destruct (take_acks (skipn (f_pos f) (ack_list st f)) []) as [ids full].
  destruct (full || (0 <? zlen ids)).
  - cbv zeta. match goal with |- context [begin_send ?e ?s ?m ?h ?md ?k] => pose proof (begin_keys e s m h md k (inv_new _ _ Iv)) as B;
      pose proof (begin_effect e s m h md k) as BE; destruct (begin_send e s m h md k) as [[st1 ms1] th1] end.
    unfold r_keys in *. cbn [fst snd] in *. rewrite B. unfold keys at 1. cbn [set_msgs s_msgs]. rewrite map_app, <- app_assoc.
    f_equal.
  - destruct (clear_keeps st (f_key f)) as [M _]. now apply keys_same.
Qed.
Lemma resume_keys env st e th : inv st -> r_keys st (resume env st e th).
Proof.
  intros Iv. destruct th as [o|name i w|mref b k|r f last|todo]; cbn [resume].
  - now apply keys_same.
  - destruct e; [now apply after_keys|now apply enter_keys].
  - destruct e; now apply keys_same.
  - destruct r; [|now apply keys_same].
    destruct last; [|now apply loop_keys]. destruct (clear_keeps st (f_key f)) as [M _]. now apply keys_same.
  - destruct todo as [|k todo]; cbn [next_circuit]; [now apply keys_same|].
    destruct (get_circuit (s_circuits st) k); [now apply loop_keys|now apply keys_same].
Qed.
Definition made (x : sched) := match x with Spawn (NewMsg m) => [key m] | _ => [] end.
Lemma start_keys env cf o : inv (cf_st cf) -> (forall r m, o <> SetMsg r m) ->
  keys (fst (fst (start env cf o))) = keys (cf_st cf) ++ made (Spawn o) ++ pack_keys (snd (fst (start env cf o))).
Proof.
  intros Iv N. destruct o; cbn [start step made app]; try (now apply keys_same).
  - unfold keys. cbn [fst snd set_msgs s_msgs pack_keys flat_map]. now rewrite map_app.
  - now destruct (N mref m).
  - destruct (get_circuit (s_circuits (cf_st cf)) a); now apply keys_same.
  - now apply begin_keys.
  - destruct (receive_keeps (silent env) (cf_st cf) href buf size) as [RM RH].
    destruct (receive_check (silent env) (cf_st cf) href buf size) as [st1 r] eqn:R. cbn [fst] in RM, RH.
    destruct (receive_queues _ _ _ _ _ _ _ Iv R) as [I1 _].
    assert (keys st1 = keys (cf_st cf) ++ []) as K0 by (now apply keys_same).
    destruct (r_res r) as [[m|]|]; try exact K0. destruct (e_handle env); [|exact K0].
    pose proof (enter_keys env st1 (m_name m) 0 (Deliver m) I1) as W. unfold r_keys in W. rewrite W, K0, app_nil_r. reflexivity.
  - rewrite resend_none by exact Iv. now apply keys_same.
  - destruct (existsb acking (cf_pool cf)); now apply keys_same.
Qed.
Lemma cstep_keys env cf x : inv (cf_st cf) -> (forall r m, x <> Spawn (SetMsg r m)) ->
  keys (cf_st (fst (cstep env cf x))) = keys (cf_st cf) ++ made x ++ pack_keys (snd (cstep env cf x)).
Proof.
  intros Iv N. destruct x as [o|i e]; cbn [cstep].
  - assert (forall r m, o <> SetMsg r m) as N' by (intros r m ->; now apply (N r m)).
    pose proof (start_keys env cf o Iv N') as K. destruct (start env cf o) as [[st ms] th]. exact K.
  - destruct (nth_error (cf_pool cf) i) as [th|]; [|now apply keys_same].
    pose proof (resume_keys env (cf_st cf) e th Iv) as K. destruct (resume env (cf_st cf) e th) as [[st ms] th']. exact K.
Qed.

(** ** Who puts packets *)
Definition no_put (ms : list mark) : Prop := forall x, ~ In (MPut x) ms.
Definition own (st : dstate) (mref : nat) (ms : list mark) : Prop :=
  no_put ms \/ exists x m, ms = [MPut x] /\ nth_error (s_msgs st) mref = Some m /\ key (at_msg x) = key m.
Definition acks_only (ms : list mark) : Prop :=
  no_put ms \/ exists k ids x, ms = [MPack k ids; MPut x] /\ acknowledges (at_msg x) ids.
Lemma no_put_nil : no_put [].
Proof. intros x []. Qed.
Lemma no_put_one m : (forall x, m <> MPut x) -> no_put [m].
Proof. intros H x [E|[]]. now apply (H x). Qed.
Lemma begin_own env st mref href md k : inv st -> e_handle_out env = false -> own st mref (snd (fst (begin_send env st mref href md k))).
Proof.
  intros Iv HO. unfold begin_send. destruct (nth_error (s_hosts st) href) as [a|] eqn:NH; [|left; exact no_put_nil].
  destruct (nth_error (s_msgs st) mref) as [m|] eqn:NM; [|left; exact no_put_nil].
  destruct (negb (host_ok a)); [left; exact no_put_nil|]. rewrite HO.
  destruct (transmit_detail env st mref href md k a m Iv NH NM) as (st2 & x & c' & th2 & E & _ & _ & _ & MN & MB & _).
  rewrite E. right. exists x, m. cbn. split; [reflexivity|]. split; [exact NM|]. unfold key. congruence.
Qed.
Lemma loop_acks env st f : inv st -> e_handle_out env = false -> acks_only (snd (fst (ack_loop env st f))).
Proof.
  intros Iv HO. destruct (ack_loop env st f) as [[st' ms] th] eqn:E. cbn [fst snd].
  pose proof E as E0. unfold ack_loop in E0. destruct (take_acks (skipn (f_pos f) (ack_list st f)) []) as [ids full].
  destruct (full || (0 <? zlen ids)).
  - destruct (begin_send env _ _ _ _ _) as [[st1 ms1] th1] eqn:BS in E0. injection E0 as <- <- <-.
    destruct (host_address st (f_host f)) as [t|] eqn:NH.
    + pose proof (loop_packet env st f _ _ _ (f_key f) ids t Iv HO E (or_introl eq_refl) NH) as LP.
      destruct (host_ok t); [|rewrite LP; left; apply no_put_one; discriminate].
      destruct LP as (x & -> & _ & A). right. eauto.
    + unfold begin_send in BS. change (s_hosts (set_msgs st (s_msgs st ++ [ack_message ids]))) with (s_hosts st) in BS.
      unfold host_address in NH. rewrite NH in BS. injection BS as <- <- <-. left. apply no_put_one. discriminate.
  - injection E0 as <- <- <-. left. apply no_put_one. discriminate.
Qed.
Lemma deliver_quiet env st name i m : no_put (snd (fst (enter_handler env st name i (Deliver m)))).
Proof.
  unfold enter_handler. destruct (sget name (s_handler st)) as [l|]; [|exact no_put_nil]. cbn [work_message].
  destruct (nth_error l i); [|exact no_put_nil]. apply no_put_one. discriminate.
Qed.
Lemma resume_acks env D st e th : inv st -> e_handle_out env = false -> dl env D th -> acks_only (snd (fst (resume env st e th))).
Proof.
  intros Iv HO DL. destruct th as [o|name i w|mref b k|r f last|todo]; cbn [resume].
  - left. exact no_put_nil.
  - destruct w as [m|]; [|cbn in DL; congruence]. destruct e; left; [exact no_put_nil|apply deliver_quiet].
  - destruct e; left; exact no_put_nil.
  - destruct r; [|left; apply no_put_one; discriminate].
    destruct last; [left; apply no_put_one; discriminate|now apply loop_acks].
  - destruct todo as [|k todo]; cbn [next_circuit]; [left; exact no_put_nil|].
    destruct (get_circuit (s_circuits st) k); [now apply loop_acks|left; exact no_put_nil].
Qed.
Definition spawns_send (x : sched) : Prop := match x with Spawn (Send _ _ _ _) => True | _ => False end.
Lemma cstep_acks env D cf x : inv (cf_st cf) -> e_handle_out env = false -> (forall th, In th (cf_pool cf) -> dl env D th) ->
  ~ spawns_send x -> acks_only (snd (cstep env cf x)).
Proof.
  intros Iv HO DL NS. destruct x as [o|i e]; cbn [cstep].
  - assert (no_put (snd (fst (start env cf o)))) as K; [|destruct (start env cf o) as [[st ms] th]; left; exact K].
    unfold start. destruct o as [| | | | | |mref href md sock| |href buf size|order sock|a]; try (destruct (step (silent env) (cf_st cf) _); exact no_put_nil).
    + now destruct NS.
    + destruct (receive_check (silent env) (cf_st cf) href buf size) as [st1 r].
      destruct (r_res r) as [[m|]|]; try exact no_put_nil. destruct (e_handle env); [apply deliver_quiet|exact no_put_nil].
    + rewrite resend_none by exact Iv. exact no_put_nil.
    + destruct (existsb acking (cf_pool cf)); [exact no_put_nil|destruct (step (silent env) (cf_st cf) _); exact no_put_nil].
  - destruct (nth_error (cf_pool cf) i) as [th|] eqn:N; [|left; exact no_put_nil].
    pose proof (resume_acks env D (cf_st cf) e th Iv HO (DL _ (nth_error_In _ _ N))) as K.
    destruct (resume env (cf_st cf) e th) as [[st ms] th']. exact K.
Qed.
Lemma cstep_own env cf mref href md sock : inv (cf_st cf) -> e_handle_out env = false ->
  own (cf_st cf) mref (snd (cstep env cf (Spawn (Send mref href md sock)))).
Proof.
  intros Iv HO. cbn [cstep start]. pose proof (begin_own env (cf_st cf) mref href md ToUser Iv HO) as B.
  destruct (begin_send env (cf_st cf) mref href md ToUser) as [[st ms] th]. exact B.
Qed.
