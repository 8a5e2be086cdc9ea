(** Proofs about the traffic counters (C74). *)
From Verif Require Import Lib SpecTraffic DispatchProofs DispatchMore ManagerProofs.
Local Open Scope list_scope.

Lemma wire_app xs ys : on_the_wire (xs ++ ys) = on_the_wire xs ++ on_the_wire ys.
Proof. apply flat_map_app. Qed.
Lemma attempts_of_app t1 t2 : attempts_of (t1 ++ t2) = attempts_of t1 ++ attempts_of t2.
Proof. apply flat_map_app. Qed.
Lemma attempts_of_map xs : attempts_of (map Attempted xs) = xs.
Proof. induction xs as [|x xs IH]; [reflexivity|]. cbn. f_equal. exact IH. Qed.

(** [counted st xs st']: going from [st] to [st'], [xs] were attempted. *)
Definition counted (st : dstate) (xs : list attempt) (st' : dstate) : Prop :=
  s_in st' = s_in st /\ s_out st' = s_out st + zlen (on_the_wire xs) /\ s_hosts st' = s_hosts st.
Lemma counted_app st xs st1 ys st2 : counted st xs st1 -> counted st1 ys st2 -> counted st (xs ++ ys) st2.
Proof.
  intros (A & B & C) (D & E & F). split; [congruence|]. split; [|congruence].
  rewrite wire_app, zlen_app. lia.
Qed.
Lemma counted_nil st st' : s_in st' = s_in st -> s_out st' = s_out st -> s_hosts st' = s_hosts st -> counted st [] st'.
Proof. intros A B C. split; [exact A|]. split; [cbn; lia|exact C]. Qed.
Lemma find_counted st href a : forall st1 c, find_circuit st href a = (st1, c) -> counted st [] st1.
Proof.
  intros st1 c. unfold find_circuit. destruct (get_circuit (s_circuits st) a); intros [= <- <-]; now apply counted_nil.
Qed.
Lemma send_counted env st mref href md sock st' o :
  send_message env st mref href md sock = (st', o) -> counted st (o_sends o) st'.
Proof.
  unfold send_message. intros H.
  destruct (nth_error (s_hosts st) href) as [a|]; [|injection H as <- <-; now apply counted_nil].
  destruct (nth_error (s_msgs st) mref) as [m|]; [|injection H as <- <-; now apply counted_nil].
  destruct (negb (host_ok a)); [injection H as <- <-; now apply counted_nil|].
  destruct (if e_handle_out env then handle (e_cb env) (s_handler st) m else ([], None)) as [calls [e|]];
    [injection H as <- <-; now apply counted_nil|].
  destruct (find_circuit st href a) as [st1 c] eqn:FC.
  destruct (find_counted _ _ _ _ _ FC) as (I1 & O1 & H1). cbn in O1.
  destruct (match md with
            | Reliable r => prepare_packet c mref m LL_RELIABLE_FLAG r
            | Plain => prepare_packet c mref m LL_NONE 0
            end) as [c' m'].
  cbv zeta in H.
  set (st2 := set_msgs (put_circuit st1 a c') (update_nth mref m' (s_msgs st1))) in *.
  set (st3 := match md with
              | Plain => st2
              | Reliable _ => if c_count c' <=? 0 then set_unackedc st2 (dset Nat.eqb href a (s_unackedc st2)) else st2
              end) in *.
  assert (s_in st3 = s_in st /\ s_out st3 = s_out st /\ s_hosts st3 = s_hosts st) as (A & B & C).
  { assert (s_in st2 = s_in st /\ s_out st2 = s_out st /\ s_hosts st2 = s_hosts st) as X by (cbn; repeat split; try assumption; lia).
    subst st3. destruct md; [exact X|]. destruct (c_count c' <=? 0); exact X. }
  clearbody st3.
  destruct (serialize (e_pv env) (e_ser_dict env) (e_ser_xml env) m') as [[b|]|e] eqn:S.
  1: destruct (sock a b) as [e|].
  all: injection H as <- <-; split; [assumption|]; split; [|assumption]; cbn; lia.
Qed.
Lemma send_new_counted env st m href sock st' o : send_new env st m href sock = (st', o) -> counted st (o_sends o) st'.
Proof. intros H. apply send_counted in H. exact H. Qed.
Lemma flush_counted env sock href : forall ids cur st st' o,
  flush_acks env sock href ids cur st = (st', o) -> counted st (o_sends o) st'.
Proof.
  induction ids as [|id ids IH]; intros cur st st' o H; cbn [flush_acks] in H.
  - destruct (0 <? zlen cur); [|injection H as <- <-; now apply counted_nil]. eapply send_new_counted; exact H.
  - destruct (250 <? zlen (cur ++ [id])); [|eapply IH; exact H].
    destruct (send_new env st (ack_message (cur ++ [id])) href sock) as [st1 o1] eqn:E1.
    pose proof (send_new_counted _ _ _ _ _ _ _ E1) as W1.
    destruct (o_res o1); [|injection H as <- <-; exact W1].
    destruct (flush_acks env sock href ids [] st1) as [st2 o2] eqn:E2. injection H as <- <-.
    eapply counted_app; [exact W1|eapply IH; exact E2].
Qed.
Lemma send_acks_counted env sock : forall keys st st' o,
  send_acks env sock keys st = (st', o) -> counted st (o_sends o) st'.
Proof.
  induction keys as [|k keys IH]; intros st st' o H; cbn [send_acks] in H; [injection H as <- <-; now apply counted_nil|].
  destruct (get_circuit (s_circuits st) k) as [c|]; [|eapply IH; exact H].
  destruct (flush_acks env sock (c_host c) (c_acks c) [] st) as [st1 o1] eqn:E1.
  pose proof (flush_counted _ _ _ _ _ _ _ _ E1) as W1.
  destruct (o_res o1); [|injection H as <- <-; exact W1].
  destruct (send_acks env sock keys (clear_acks st1 k)) as [st3 o3] eqn:E3. injection H as <- <-.
  eapply counted_app; [exact W1|]. apply IH in E3.
  assert (counted st1 [] (clear_acks st1 k)) as C by (unfold clear_acks; destruct (get_circuit (s_circuits st1) k); now apply counted_nil).
  exact (counted_app _ _ _ _ _ C E3).
Qed.
Lemma resend_counted : forall l st st' r, resend_all l st = (st', r) -> counted st [] st'.
Proof.
  induction l as [|[h a] l IH]; intros st st' r H; cbn [resend_all] in H; [injection H as <- <-; now apply counted_nil|].
  destruct (get_circuit (s_circuits st) a) as [c|]; [|eapply IH; exact H].
  destruct (c_unacked c) as [|[i mref] u]; [eapply IH; exact H|].
  destruct (nth_error (s_msgs st) mref); injection H as <- <-; now apply counted_nil.
Qed.
Lemma process_counted env st order sock st' o : process_acks env st order sock = (st', o) -> counted st (o_sends o) st'.
Proof.
  unfold process_acks. intros E. destruct (resend_all (s_unackedc st) st) as [st2 r] eqn:R.
  pose proof (resend_counted _ _ _ _ R) as C. destruct r as [u|e]; [|injection E as <- <-; exact C].
  destruct (send_acks env sock _ st2) as [st3 o3] eqn:E3. injection E as <- <-. cbn [o_sends].
  exact (counted_app _ _ _ _ _ C (send_acks_counted _ _ _ _ _ _ E3)).
Qed.
Lemma nth_length {A} (l : list A) n : (n <? List.length l)%nat = match nth_error l n with Some _ => true | None => false end.
Proof. revert l. induction n as [|n IH]; intros [|x l]; try reflexivity. exact (IH l). Qed.
Lemma receive_counted env st href buf size st' r : receive_check env st href buf size = (st', r) ->
  s_in st' = s_in st + zlen (given st (Receive href buf size)) /\ s_out st' = s_out st /\ s_hosts st' = s_hosts st.
Proof.
  unfold receive_check, given. rewrite nth_length. intros H. destruct (nth_error (s_hosts st) href) as [a|].
  2: { injection H as <- <-. cbn. repeat split. lia. }
  destruct (Z.leb_spec size 0) as [L|L].
  { injection H as <- <-. destruct (Z.ltb_spec 0 size); [lia|]. cbn. repeat split. lia. }
  destruct (Z.ltb_spec 0 size) as [_|]; [|lia].
  destruct (find_circuit st href a) as [st1 c] eqn:FC.
  destruct (find_counted _ _ _ _ _ FC) as (I1 & O1 & H1). cbn in O1.
  assert (forall x, x = s_in st1 + 1 -> x = s_in st + zlen [buf]) as II by (intros x ->; rewrite I1; reflexivity).
  destruct (deserialize _ buf) as [[m|]|e].
  - destruct (c_trusted c && negb (m_trusted m)); [injection H as <- <-; cbn [s_in s_out s_hosts set_counts]; repeat split; [now apply II|lia|exact H1]|].
    cbv zeta in H. destruct (e_handle env).
    + destruct (handle _ _ m) as [calls e]. injection H as <- <-. cbn [s_in s_out s_hosts set_counts put_circuit set_circuits]. repeat split; [now apply II|lia|exact H1].
    + injection H as <- <-. cbn [s_in s_out s_hosts set_counts put_circuit set_circuits]. repeat split; [now apply II|lia|exact H1].
  - destruct (do _ <- pyindex buf 0; unpack_z buf MVT_U32 1 (Some BE)) as [id|e];
      injection H as <- <-; cbn [s_in s_out s_hosts set_counts put_circuit set_circuits]; repeat split; try (now apply II); try lia; exact H1.
  - injection H as <- <-. cbn [s_in s_out s_hosts set_counts]. repeat split; [now apply II|lia|exact H1].
Qed.

Lemma step_counts env st o : let st' := fst (step env st o) in
  s_in st' = s_in st + zlen (given st o) /\
  s_out st' = s_out st + zlen (on_the_wire (attempts_of (events env st o))).
Proof.
  cbv zeta.
  destruct o as [b|h b|m|r m|r|b t|mref href md sock|mref href|href buf size|order sock|b]; unfold events; cbn [step].
  1-5: cbn; lia.
  - destruct (get_circuit (s_circuits st) b); cbn; lia.
  - destruct (send_message env st mref href md sock) as [st1 o1] eqn:E. cbn [fst snd]. rewrite attempts_of_map.
    destruct (send_counted _ _ _ _ _ _ _ _ E) as (A & B & _). cbn [given]. unfold zlen at 1. cbn. lia.
  - cbn. lia.
  - destruct (receive_check env st href buf size) as [st1 r1] eqn:E. cbn [fst snd].
    destruct (receive_counted _ _ _ _ _ _ _ E) as (A & B & _). split; [exact A|].
    destruct (accepts env st href buf size) as [[a m]|]; cbn; lia.
  - destruct (process_acks env st order sock) as [st1 o1] eqn:E. cbn [fst snd]. rewrite attempts_of_map.
    destruct (process_counted _ _ _ _ _ _ E) as (A & B & _). cbn [given]. unfold zlen at 1. cbn. lia.
  - cbn. lia.
Qed.
Lemma run_counts env ops : forall st, let st' := fst (run env st ops) in
  s_in st' = s_in st + zlen (given_by env st ops) /\
  s_out st' = s_out st + zlen (on_the_wire (attempts_of (trace env st ops))).
Proof.
  cbv zeta. induction ops as [|o ops IH]; intros st; [cbn; lia|].
  rewrite run_fst. cbn [given_by trace]. rewrite attempts_of_app, wire_app, !zlen_app.
  destruct (IH (fst (step env st o))) as [A B]. destruct (step_counts env st o) as [C D]. cbv zeta in C, D. lia.
Qed.

Lemma send_returns env st mref href md sock st' o : send_message env st mref href md sock = (st', o) ->
  forall b, o_res o = Ok (Some b) <-> exists a, on_the_wire (o_sends o) = [(a, b)].
Proof.
  unfold send_message. intros H b.
  assert (forall e (m : message), contain e m <> Ok (Some b)) as NC.
  { intros e m. unfold contain. destruct e; try (destruct (msg_str_error m); discriminate); discriminate. }
  destruct (nth_error (s_hosts st) href) as [a|]; [|injection H as <- <-; cbn; split; [discriminate|intros (? & Y); discriminate Y]].
  destruct (nth_error (s_msgs st) mref) as [m|]; [|injection H as <- <-; cbn; split; [discriminate|intros (? & Y); discriminate Y]].
  destruct (negb (host_ok a)); [injection H as <- <-; cbn; split; [discriminate|intros (? & Y); discriminate Y]|].
  destruct (if e_handle_out env then handle (e_cb env) (s_handler st) m else ([], None)) as [calls [e|]];
    [injection H as <- <-; cbn; split; [discriminate|intros (? & Y); discriminate Y]|].
  destruct (find_circuit st href a) as [st1 c].
  destruct (match md with
            | Reliable r => prepare_packet c mref m LL_RELIABLE_FLAG r
            | Plain => prepare_packet c mref m LL_NONE 0
            end) as [c' m'].
  cbv zeta in H.
  destruct (serialize (e_pv env) (e_ser_dict env) (e_ser_xml env) m') as [[b'|]|e] eqn:S.
  1: destruct (sock a b') as [e|].
  all: injection H as _ <-; cbn [o_res o_sends on_the_wire flat_map at_data at_addr app];
    try (split; [intros X; destruct (NC _ _ X)|intros (? & Y); discriminate Y]).
  - split; [intros [= ->]; eexists; reflexivity|intros (? & [= _ ->]); reflexivity].
  - split; [intros X; destruct (NC no_data m' X)|intros (? & Y); discriminate Y].
Qed.

(** ** The manager *)
Lemma mstep_counts env m o : m_good env m -> let d' := mm_disp (fst (mstep env m o)) in
  s_in d' = s_in (mm_disp m) + zlen (m_given m o) /\
  s_out d' = s_out (mm_disp m) + zlen (on_the_wire (m_attempts env m o)).
Proof.
  intros G. cbv zeta. destruct o as [msg rel now| |o|r order sock].
  - cbn. lia.
  - cbn. unfold stop_monitors. destruct (mm_eq m); cbn; lia.
  - cbn [mstep fst m_given m_attempts]. exact (step_counts env (mm_disp m) o).
  - unfold m_given, m_attempts. cbn [mstep]. unfold loop_step. destruct (mm_pc m) eqn:PC.
    + cbn. destruct r as [|a [|b bs]]; cbn; lia.
    + cbn. destruct r as [|a [|b bs]]; cbn; lia.
    + unfold loop_receive. destruct (receive_packet m r) as [[d buf] size] eqn:RP.
      assert (s_in d = s_in (mm_disp m) /\ s_out d = s_out (mm_disp m) /\
              List.length (s_hosts d) = List.length (s_hosts (mm_disp m)) /\
              zlen (match r with RData _ (b :: bs) => [b :: bs] | _ => [] end) = zlen (given d (Receive (mm_sender m) buf size)))
        as (A & B & _ & C).
      { assert ((mm_sender m <? List.length (s_hosts d))%nat = true) as L.
        { destruct G as [R HH HS HL]. rewrite HS. apply Nat.ltb_lt.
          destruct r; cbn in RP; injection RP as <- _ _; cbn; rewrite ?upd_length; lia. }
        unfold given. rewrite L.
        destruct r as [|a [|b bs]]; cbn in RP; injection RP as <- <- <-; cbn [s_in s_out s_hosts set_hosts andb]; rewrite ?upd_length; repeat split. }
      destruct (receive_check env d (mm_sender m) buf size) as [d1 ro] eqn:RC.
      destruct (receive_counted _ _ _ _ _ _ _ RC) as (A1 & B1 & _).
      assert (forall p, s_in d1 = s_in (mm_disp m) + zlen (match r with RData _ (b :: bs) => [b :: bs] | _ => [] end) /\
        s_out (mm_disp (mm_set m d1 (mm_queue m) p)) = s_out (mm_disp m) + zlen (@nil (addr * bytes))) as DONE.
      { intros p. split; [lia|]. cbn. lia. }
      destruct (r_res ro) as [x|e]; [|exact (DONE (PEnd (Some e)))].
      destruct (has_unacked d1); [|exact (DONE PDrain)].
      destruct (process_acks env d1 order sock) as [d2 o] eqn:PA.
      destruct (process_counted _ _ _ _ _ _ PA) as (A2 & B2 & _).
      destruct (DONE PDrain) as [D1 D2]. cbn in D2.
      destruct (o_res o); cbn [fst snd mm_disp mm_set flat_map]; rewrite app_nil_l, app_nil_r; split; try lia; rewrite A2; exact D1.
    + destruct (mm_queue m) as [|[msg rel] q].
      * cbn. destruct r as [|a [|b bs]]; cbn; lia.
      * unfold send_udp_message. destruct (send_message env (mm_disp m) msg (mm_host m) (if rel then Reliable 0 else Plain) sock) as [d o] eqn:SM.
        destruct (send_counted _ _ _ _ _ _ _ _ SM) as (A & B & _). cbn [fst snd mm_disp mm_set flat_map]. rewrite app_nil_r.
        split; [|exact B]. destruct r as [|a [|b bs]]; cbn; lia.
    + cbn. destruct r as [|a [|b bs]]; cbn; lia.
Qed.
Lemma mrun_counts env ops : forall m, m_good env m -> let d' := mm_disp (fst (mrun env m ops)) in
  s_in d' = s_in (mm_disp m) + zlen (m_given_by env m ops) /\
  s_out d' = s_out (mm_disp m) + zlen (m_wired_by env m ops).
Proof.
  cbv zeta. induction ops as [|o ops IH]; intros m G; [cbn; lia|].
  rewrite mrun_cons. cbn [m_given_by m_wired_by]. rewrite !zlen_app.
  destruct (IH _ (m_good_step env m o G)) as [A B]. destruct (mstep_counts env m o G) as [C D]. cbv zeta in C, D. cbn [fst]. lia.
Qed.

Lemma send_handed env st mref href md sock st' o : send_message env st mref href md sock = (st', o) ->
  forall x b, In x (o_sends o) -> at_data x = Some b <->
    serialize (e_pv env) (e_ser_dict env) (e_ser_xml env) (at_msg x) = Ok (Some b) /\ sock (at_addr x) b = None.
Proof.
  unfold send_message. intros H x b X.
  destruct (nth_error (s_hosts st) href) as [a|]; [|injection H as <- <-; destruct X].
  destruct (nth_error (s_msgs st) mref) as [m|]; [|injection H as <- <-; destruct X].
  destruct (negb (host_ok a)); [injection H as <- <-; destruct X|].
  destruct (if e_handle_out env then handle (e_cb env) (s_handler st) m else ([], None)) as [calls [e|]];
    [injection H as <- <-; destruct X|].
  destruct (find_circuit st href a) as [st1 c].
  destruct (match md with
            | Reliable r => prepare_packet c mref m LL_RELIABLE_FLAG r
            | Plain => prepare_packet c mref m LL_NONE 0
            end) as [c' m'].
  cbv zeta in H.
  destruct (serialize (e_pv env) (e_ser_dict env) (e_ser_xml env) m') as [[b'|]|e] eqn:S.
  1: destruct (sock a b') as [e|] eqn:K.
  all: injection H as _ <-; destruct X as [<-|[]]; cbn [at_data at_msg at_addr]; rewrite S.
  - split; [discriminate|]. intros [[= <-] L]. congruence.
  - split; [intros [= <-]; auto|]. intros [[= <-] L]. reflexivity.
  - split; [discriminate|]. intros [E _]. discriminate E.
  - split; [discriminate|]. intros [E _]. discriminate E.
Qed.
