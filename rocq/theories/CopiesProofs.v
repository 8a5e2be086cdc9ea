(** C98: nothing but copies of what was sent. *)
From Verif Require Import Lib SpecMessages MessageProofs SpecNetwork EventsProofs LayoutProofs PacketProofs PacketMore PacketForms PacketRules DispatchProofs DispatchMore ManagerProofs NetworkProofs DeliveryProofs.
From Verif Require Import SpecFloats CodecProofs SpecRoundTrip RoundTripProofs Prop_RoundTrip SpecCopies.
From Verif Require Import SpecLayout SpecRoundTrip.
Open Scope Z_scope.

(** Decoding and encoding without any filter. *)
Definition open_conf (d : tdict) : dconf :=
  {| dc_dict := d; dc_xml := []; dc_deferred := false; dc_handled := Some (fun _ => true) |}.
Lemma deserialize_open c d w : deserialize c d = Ok (Some w) -> deserialize (open_conf (dc_dict c)) d = Ok (Some w).
Proof.
  unfold deserialize. cbn [dc_dict dc_xml dc_deferred dc_handled open_conf].
  destruct (strip_acks d) as [[b ta]|]; [|discriminate]. cbn [bind]. destruct (expand b) as [b'|]; [|discriminate]. cbn [bind].
  destruct (decode_template (dc_dict c) b') as [[t|]|]; try discriminate. cbn [bind].
  unfold validate_udp_msg at 2. cbn [dget bind negb]. destruct (validate_udp_msg (dc_xml c) (t_name t)) as [[]|]; cbn [bind negb]; try discriminate.
  destruct (dc_handled c) as [h|]; [|discriminate]. destruct (h (t_name t) || negb (dc_deferred c))%bool; [|discriminate].
  auto.
Qed.
Lemma serialize_open pv d x m b : serialize pv d x m = Ok (Some b) -> serialize pv d [] m = Ok (Some b).
Proof.
  unfold serialize. destruct (get_template d (m_name m)) as [t|]; [|discriminate].
  unfold validate_udp_msg at 2. cbn [dget bind negb]. destruct (validate_udp_msg x (t_name t)) as [[]|]; cbn [bind negb]; try discriminate. auto.
Qed.

(** ** What process_acks packs *)
Definition pk (Q : Z -> Prop) (x : attempt) : Prop :=
  exists q, m_blocks (at_msg x) = m_blocks (ack_message q) /\ 1 <= zlen q <= 251 /\ Forall Q q.
Lemma send_new_blocks env st m href sock st' o : send_new env st m href sock = (st', o) ->
  Forall (fun x => m_blocks (at_msg x) = m_blocks m) (o_sends o).
Proof.
  unfold send_new, send_message. intros H.
  destruct (nth_error (s_hosts _) href) as [a|]; [|injection H as <- <-; cbn; auto].
  cbn [set_msgs s_msgs] in H. rewrite nth_error_app2, Nat.sub_diag in H by lia. cbn [nth_error] in H.
  destruct (negb (host_ok a)); [injection H as <- <-; cbn; auto|].
  match type of H with (let '(_, _) := ?X in _) = _ => destruct X as [calls [e|]] end;
    [injection H as <- <-; cbn; auto|].
  match type of H with (let '(_, _) := ?X in _) = _ => destruct X as [st1 c] end.
  match type of H with (let '(_, _) := ?X in _) = _ => destruct X as [c' m'] eqn:PP end.
  assert (m_blocks m' = m_blocks m) as MB.
  { assert (G : forall ids w, m_blocks (fold_left add_ack ids w) = m_blocks w) by (induction ids as [|i ids IH]; intros w; [reflexivity|cbn [fold_left]; now rewrite IH]).
    revert PP. clear -G. unfold prepare_packet. intros PP. injection PP as _ <-. destruct (_ && _)%bool; [rewrite G|]; reflexivity. }
  cbv zeta in H.
  destruct (serialize (e_pv env) (e_ser_dict env) (e_ser_xml env) m') as [[b|]|e].
  1: destruct (sock a b) as [e|].
  all: injection H as _ <-; cbn [o_sends]; constructor; [exact MB|constructor].
Qed.
Lemma flush_pk Q env sock href : forall ids cur st st' o, zlen cur <= 250 -> Forall Q cur -> Forall Q ids ->
  flush_acks env sock href ids cur st = (st', o) -> Forall (pk Q) (o_sends o).
Proof.
  assert (P : forall cur st st' o, 1 <= zlen cur <= 251 -> Forall Q cur ->
    send_new env st (ack_message cur) href sock = (st', o) -> Forall (pk Q) (o_sends o)).
  { intros cur st st' o L F E. eapply Forall_impl; [|exact (send_new_blocks _ _ _ _ _ _ _ E)]. intros x X. exists cur. auto. }
  induction ids as [|id ids IH]; intros cur st st' o L FC FI H; cbn [flush_acks] in H.
  - destruct (Z.ltb_spec 0 (zlen cur)); [|injection H as <- <-; constructor]. eapply P; [| |exact H]; [lia|assumption].
  - inversion FI as [|? ? Q1 FI']; subst.
    assert (Forall Q (cur ++ [id])) as FC' by (apply Forall_app; split; [exact FC|constructor; [exact Q1|constructor]]).
    assert (zlen (cur ++ [id]) = zlen cur + 1) as LL by (unfold zlen; rewrite app_length; cbn; lia).
    pose proof (zlen_nonneg cur).
    destruct (Z.ltb_spec 250 (zlen (cur ++ [id]))); [|eapply IH; [| | |exact H]; [lia|assumption|assumption]].
    destruct (send_new env st (ack_message (cur ++ [id])) href sock) as [st1 o1] eqn:E1.
    assert (Forall (pk Q) (o_sends o1)) as W1 by (eapply P; [| |exact E1]; [lia|assumption]).
    destruct (o_res o1); [|injection H as <- <-; exact W1].
    destruct (flush_acks env sock href ids [] st1) as [st2 o2] eqn:E2. injection H as <- <-.
    apply Forall_app. split; [exact W1|eapply IH; [| | |exact E2]; [cbn; lia|constructor|assumption]].
Qed.
(** Every id queued is a [Q]. *)
Definition queued_are (Q : Z -> Prop) (st : dstate) : Prop := forall a c, circ st a = Some c -> Forall Q (c_acks c).
Lemma send_acks_pk Q env sock : forall keys st st' o, inv st -> hosts_valid st -> queued_are Q st ->
  send_acks env sock keys st = (st', o) -> Forall (pk Q) (o_sends o) /\ queued_are Q st'.
Proof.
  induction keys as [|k keys IH]; intros st st' o I V F H; cbn [send_acks] in H; [injection H as <- <-; split; [constructor|exact F]|].
  fold (circ st k) in H. destruct (circ st k) as [c|] eqn:C; [|eapply IH; eauto].
  destruct (flush_acks env sock (c_host c) (c_acks c) [] st) as [st1 o1] eqn:E1.
  destruct (host_address st (c_host c)) as [t|] eqn:NH; [|now apply V in C].
  destruct (flush_spec env sock (c_host c) t _ [] _ _ _ I NH ltac:(cbn; lia) E1) as (EF & _ & _ & _).
  assert (Forall (pk Q) (o_sends o1)) as W1 by (eapply flush_pk; [| | |exact E1]; [cbn; lia|constructor|exact (F k c C)]).
  assert (queued_are Q st1) as F1.
  { unfold queued_are. intros a1 c1 C1. destruct (circ st a1) as [c0|] eqn:C0.
    - destruct (ef_old _ _ _ EF a1 c0 C0) as (c2 & C2 & _ & A & _). rewrite C1 in C2. injection C2 as <-. rewrite A. exact (F a1 c0 C0).
    - destruct (ef_new _ _ _ EF a1 c1 C0 C1) as [-> _]. constructor. }
  destruct (o_res o1); [|injection H as <- <-; auto].
  destruct (send_acks env sock keys (clear_acks st1 k)) as [st3 o3] eqn:E3. injection H as <- <-.
  assert (queued_are Q (clear_acks st1 k)) as F2.
  { unfold queued_are. intros a1 c2 C2. unfold clear_acks in C2. fold (circ st1 k) in C2. destruct (circ st1 k) as [c1|] eqn:C1; [|exact (F1 a1 c2 C2)].
    destruct (addr_dec a1 k) as [->|N]; [rewrite put_same in C2; injection C2 as <-; constructor|].
    rewrite put_other in C2 by exact N. exact (F1 a1 c2 C2). }
  destruct (clear_spec st1 k (ef_inv _ _ _ EF)) as [FL2 _].
  destruct (IH (clear_acks st1 k) st3 o3 (fl_inv _ _ _ _ FL2) (fl_valid _ _ _ _ FL2 (ef_valid _ _ _ EF V)) F2 E3) as [W3 F3].
  split; [apply Forall_app; auto|exact F3].
Qed.
Lemma process_pk Q env st order sock st' o : reachable env st -> queued_are Q st ->
  process_acks env st order sock = (st', o) -> Forall (pk Q) (o_sends o) /\ queued_are Q st'.
Proof.
  intros R F E. destruct (reachable_good _ _ R) as [I V]. unfold process_acks in E. rewrite (inv_unackedc _ I) in E. cbn [resend_all] in E.
  destruct (send_acks env sock _ st) as [st3 o3] eqn:E3. injection E as <- <-. cbn. eapply send_acks_pk; eauto.
Qed.
Lemma process_acknowledges Q env st order sock st' o x : reachable env st -> queued_are Q st ->
  process_acks env st order sock = (st', o) -> In x (o_sends o) ->
  exists p, acknowledges (at_msg x) p /\ 1 <= zlen p <= 251 /\ Forall Q p.
Proof.
  intros R F E X. destruct (reachable_good _ _ R) as [I V].
  destruct (process_spec _ _ _ _ _ _ I V E) as (_ & _ & _ & _ & _ & A). destruct (process_pk Q _ _ _ _ _ _ R F E) as [P _].
  rewrite Forall_forall in A, P. destruct (A x X) as (p & A1 & A2 & A3 & _). destruct (P x X) as (q & B & L & FQ).
  exists q. split; [|auto]. apply ack_acknowledges; auto. intros ->. cbn in L. lia.
Qed.

(** ** One step of one manager *)
Lemma receive_story Q env st href buf size st' ro : reachable env st -> receive_check env st href buf size = (st', ro) ->
  queued_are Q st -> (0 < size -> forall n, sequence_number buf = Some n -> Q n) ->
  queued_are Q st' /\
  forall s w, In (s, w) (r_calls ro) -> 0 < size /\ deserialize (open_conf (e_des_dict env)) buf = Ok (Some w).
Proof.
  intros R E F QB. destruct (reachable_good _ _ R) as [I V].
  destruct (host_address st href) as [b|] eqn:NH.
  2: { destruct (receive_nothing env st href buf size (or_introl NH)) as (r' & E' & C' & _). rewrite E' in E. injection E as <- <-. rewrite C'. split; [exact F|intros s w []]. }
  destruct (Z_lt_le_dec 0 size) as [S|S].
  2: { destruct (receive_nothing env st href buf size (or_intror S)) as (r' & E' & C' & _). rewrite E' in E. injection E as <- <-. rewrite C'. split; [exact F|intros s w []]. }
  destruct (receive_spec env st href buf size b I NH S) as (st1 & r1 & c' & E' & RC & CA & CO & _).
  rewrite E' in E. injection E as <- <-.
  assert (Forall Q (c_acks (cur st href b))) as FC.
  { unfold cur. destruct (circ st b) as [c|] eqn:C; [exact (F b c C)|constructor]. }
  assert (circ_ok (cur st href b)) as K by now apply cur_ok.
  assert (Forall Q (c_acks c') -> queued_are Q st1) as G.
  { intros FA a c C. destruct (addr_dec a b) as [->|N]; [rewrite CA in C; injection C as <-; exact FA|].
    rewrite CO in C by exact N. exact (F a c C). }
  inversion RC as [e D|e D SQ|k D SQ|m D T|m D T]; subst; try (split; [now apply G|intros s w []]).
  - split; [|intros s w []]. apply G. cbn. apply Forall_app. split; [exact FC|]. constructor; [now apply QB|constructor].
  - destruct (deserialize_header _ _ _ D) as (SQ & _). split.
    + apply G. destruct (handle_packet_spec (cur st href b) m K (seq_range _ _ SQ)) as (_ & _ & _ & A & _). rewrite A.
      apply Forall_app. split; [exact FC|]. destruct (m_reliable m); [|constructor]. constructor; [now apply QB|constructor].
    + intros s w H. split; [exact S|]. destruct (e_handle env); cbn in H; [|contradiction].
      apply in_map_iff in H as (s' & [= _ <-] & _). exact (deserialize_open _ _ _ D).
Qed.

Definition header (env : denv) (x : attempt) : Prop :=
  forall d, at_data x = Some d -> serialize (e_pv env) (e_ser_dict env) (e_ser_xml env) (at_msg x) = Ok (Some d) /\
    (m_flags (at_msg x) = 0 \/ m_flags (at_msg x) = 2 ^ reliable_bit) /\ 1 <= m_id (at_msg x).
Lemma put_serialized env sock x d : put env sock x -> at_data x = Some d ->
  serialize (e_pv env) (e_ser_dict env) (e_ser_xml env) (at_msg x) = Ok (Some d).
Proof.
  unfold put, put_on_wire. intros P E. rewrite E in P. destruct (serialize _ _ _ _) as [[b|]|]; try discriminate.
  destruct (sock (at_addr x) b); [discriminate|]. cbn in P. congruence.
Qed.
Definition receives (env : denv) (wire : list bytes) (ro : rout) : Prop :=
  forall s w, In (s, w) (r_calls ro) -> exists d, In d wire /\ deserialize (open_conf (e_des_dict env)) d = Ok (Some w).
Definition answers (env : denv) (Q : Z -> Prop) (o : dout) : Prop :=
  forall x, In x (o_sends o) -> header env x /\ exists p, acknowledges (at_msg x) p /\ 1 <= zlen p <= 251 /\
    Forall (fun n => Q n /\ 0 <= n < 2 ^ 32) p.
Lemma node_story Q env m wire o m' es : m_good env m -> in_drain m -> may wire o -> mstep env m o = (m', es) ->
  queued_are Q (mm_disp m) -> (forall d n, In d wire -> sequence_number d = Some n -> Q n) ->
  queued_are Q (mm_disp m') /\
  (es = [] \/ (exists ro, es = [ERecv ro] /\ receives env wire ro) \/
   (exists ro oo, es = [ERecv ro; EAcks oo] /\ receives env wire ro /\ answers env Q oo) \/
   exists msg rel oo, es = [ESend msg rel oo] /\ forall x, In x (o_sends oo) -> header env x).
Proof.
  intros [R MH MS ML] D M E F QW.
  destruct o as [msg rel now| |o|r order sock]; cbn [mstep] in E.
  - injection E as <- <-. split; [exact F|auto].
  - assert (m' = fst (stop_monitors m) /\ es = []) as [-> ->] by (injection E as <- <-; auto).
    unfold stop_monitors. destruct (mm_eq m); split; auto.
  - injection E as <- <-. split; [|auto]. cbn [mm_disp mm_set]. unfold queued_are. intros a1 c1 C1.
    destruct o; cbn in M; try contradiction; cbn [step fst] in C1; try exact (F a1 c1 C1).
    fold (circ (mm_disp m) a) in C1. destruct (circ (mm_disp m) a) as [c|] eqn:C; [|exact (F a1 c1 C1)].
    destruct (addr_dec a1 a) as [->|N]; [rewrite put_same in C1; injection C1 as <-; exact (F a c C)|].
    rewrite put_other in C1 by exact N. exact (F a1 c1 C1).
  - unfold loop_step in E. destruct (mm_pc m) eqn:PC.
    + injection E as <- <-. split; [exact F|auto].
    + injection E as <- <-. split; [exact F|auto].
    + unfold loop_receive in E. destruct (receive_packet m r) as [[d buf] size] eqn:RP.
      pose proof (receive_packet_reach env m r d buf size R RP) as R1.
      assert (0 < size -> In buf wire) as B.
      { destruct r as [|a data]; cbn in RP; injection RP as _ <- <-; [lia|]. intros _. exact M. }
      assert (queued_are Q d) as FD.
      { destruct r as [|b data]; cbn in RP; injection RP as <- _ _; exact F. }
      pose proof (receive_reach env d (mm_sender m) buf size R1) as R2.
      destruct (receive_check env d (mm_sender m) buf size) as [d1 ro] eqn:RC. cbn [fst] in R2.
      destruct (receive_story Q _ _ _ _ _ _ _ R1 RC FD) as [F1 CL]; [intros S n SN; eapply QW; eauto|].
      assert (receives env wire ro) as RV by (intros s w H; destruct (CL s w H) as [S DD]; eauto).
      destruct (r_res ro) as [vv|ee].
      2: { injection E as <- <-. split; [exact F1|eauto]. }
      destruct (has_unacked d1); [|injection E as <- <-; split; [exact F1|eauto]].
      destruct (process_acks env d1 order sock) as [d2 oo] eqn:PA.
      assert (queued_are (fun n => Q n /\ 0 <= n < 2 ^ 32) d1) as F1'.
      { intros a c C. pose proof (F1 a c C) as X. pose proof (ok_acks _ (inv_circ _ (good_inv _ (reachable_good _ _ R2)) a c C)) as Y.
        rewrite Forall_forall in *. auto. }
      assert (queued_are Q d2 /\ answers env Q oo) as [F2 AN].
      { split; [exact (proj2 (process_pk Q _ _ _ _ _ _ R2 F1 PA))|]. intros x X. split.
        - intros b BD. split; [|split].
          + eapply put_serialized; [|exact BD]. pose proof (process_put _ _ _ _ _ _ PA) as PP. rewrite Forall_forall in PP. exact (PP x X).
          + destruct (process_acknowledges _ _ _ _ _ _ _ x R2 F1' PA X) as (p & (_ & FL & _) & _). now left.
          + exact (process_ids _ _ _ _ _ _ _ R2 PA X).
        - exact (process_acknowledges _ _ _ _ _ _ _ x R2 F1' PA X). }
      destruct (o_res oo) as [v|x] eqn:OR; injection E as <- <-; split; [exact F2|right; right; left; eauto|exact F2|right; right; left; eauto].
    + destruct (mm_queue m) as [|[msg rel] q].
      * injection E as <- <-. split; [exact F|auto].
      * unfold send_udp_message in E. destruct (send_message _ _ _ _ _ _) as [d oo] eqn:SM. injection E as <- <-. split.
        -- destruct (send_network _ _ _ _ _ _ _ _ R (D PC) SM) as (_ & P & _). cbn [mm_disp mm_set]. intros a c C.
           pose proof (P a) as PP. unfold pending_acks in PP. change (circuit_of d a) with (circ d a) in PP. rewrite C in PP. rewrite PP. constructor.
        -- right; right; right. exists msg, rel, oo. split; [reflexivity|]. intros x X b BD.
           destruct (sent_header _ _ _ _ _ _ _ _ x R SM X (D PC _)) as (FL & I1 & HO & AD). split; [|split; [|exact I1]].
           ++ eapply put_serialized; [exact AD|exact BD].
           ++ rewrite FL. destruct rel; [right|left]; reflexivity.
    + injection E as <- <-. split; [exact F|auto].
Qed.

(** ** The whole network *)
Definition fine (env : denv) (past : list (nat * mevent)) (e : mevent) : Prop :=
  match e with
  | ERecv ro => forall s w, In (s, w) (r_calls ro) -> exists x d, put_out past x d /\ deserialize (open_conf (e_des_dict env)) d = Ok (Some w)
  | EAcks o => answers env (fun n => exists y d, put_out past y d /\ sequence_number d = Some n) o
  | ESend _ _ o => forall x, In x (o_sends o) -> header env x
  end.
Lemma put_out_mono a b x d : put_out a x d -> put_out (a ++ b) x d.
Proof. intros (i & e & H & X). exists i, e. split; [apply in_or_app; now left|exact X]. Qed.
Lemma queued_mono (P Q : Z -> Prop) st : (forall n, P n -> Q n) -> queued_are P st -> queued_are Q st.
Proof. intros H F a c C. eapply Forall_impl; [exact H|exact (F a c C)]. Qed.
Lemma answers_mono env (P Q : Z -> Prop) o : (forall n, P n -> Q n) -> answers env P o -> answers env Q o.
Proof.
  intros H A x X. destruct (A x X) as (HD & p & AK & L & F). split; [exact HD|]. exists p. split; [exact AK|]. split; [exact L|].
  eapply Forall_impl; [|exact F]. intros n [N1 N2]. auto.
Qed.
Lemma split_app {A} (log l2 past future : list A) y : log ++ l2 = past ++ y :: future ->
  (exists f, log = past ++ y :: f) \/ (exists p, past = log ++ p /\ l2 = p ++ y :: future).
Proof.
  revert past. induction log as [|a log IH]; intros past H; [right; exists past; auto|].
  destruct past as [|b past]; cbn in H; injection H as <- H; [left; exists log; reflexivity|].
  destruct (IH past H) as [(f & ->)|(p & -> & ->)]; [left; exists f; reflexivity|right; exists p; auto].
Qed.
Definition numbered (log : list (nat * mevent)) (n : Z) : Prop := exists y d, put_out log y d /\ sequence_number d = Some n.
Record story (cs : list (denv * addr * option eqstate)) (n : network) : Prop := {
  st_nodes : map fst (n_nodes n) = map (fun c => fst (fst c)) cs;
  st_wire : forall d, In d (n_wire n) -> exists x, put_out (n_log n) x d;
  st_queued : forall i env m, nth_error (n_nodes n) i = Some (env, m) -> queued_are (numbered (n_log n)) (mm_disp m);
  st_fine : forall past j e future, n_log n = past ++ (j, e) :: future ->
    exists c, nth_error cs j = Some c /\ fine (fst (fst c)) past e }.
Lemma story_start cs : story cs (net_start cs).
Proof.
  constructor.
  - cbn. rewrite map_map. apply map_ext. intros [[env host] eq]. reflexivity.
  - intros d [].
  - intros i env m H. cbn in H. rewrite nth_error_map in H. destruct (nth_error cs i) as [[[env' host] eq]|]; [|discriminate].
    injection H as <- <-. intros a c. discriminate.
  - intros past j e future H. cbn in H. destruct past; discriminate.
Qed.
Lemma datagrams_out i es d log : In d (datagrams es) -> exists x, put_out (log ++ map (pair i) es) x d.
Proof.
  unfold datagrams. rewrite in_flat_map. intros (e & H & D).
  assert (exists x, In x (sends_of e) /\ at_data x = Some d) as (x & X & XD).
  { destruct e as [ro|o|msg rel o]; [contradiction| |]; apply in_flat_map in D as (x & X & D);
      (destruct (at_data x) as [b|] eqn:AD; [|contradiction]); destruct D as [<-|[]]; exists x; auto. }
  exists x, i, e. split; [|auto]. apply in_or_app. right. now apply in_map.
Qed.
Lemma story_step cs n n' : net_inv n -> net_step n n' -> story cs n -> story cs n'.
Proof.
  intros [W N] ST. destruct ST as [i before env m after o m' es wire log L M E]. intros [SN SW SQ SF]. cbn [n_nodes n_wire n_log] in *.
  destruct (N i env m) as (G & D & _); [rewrite <- L; apply nth_at|].
  assert (queued_are (numbered log) (mm_disp m)) as FQ by (apply (SQ i env); rewrite <- L; apply nth_at).
  assert (forall d k, In d wire -> sequence_number d = Some k -> numbered log k) as QW.
  { intros d k H S. destruct (SW d H) as (x & P). exists x, d. auto. }
  destruct (node_story (numbered log) env m wire o m' es G D M E FQ QW) as [FQ' ES].
  assert (exists c, nth_error cs i = Some c /\ fst (fst c) = env) as (c & CI & CE).
  { assert (nth_error (map (fun c => fst (fst c)) cs) i = Some env) as H.
    { rewrite <- SN, nth_error_map, <- L, nth_at. reflexivity. }
    rewrite nth_error_map in H. destruct (nth_error cs i) as [c|]; [|discriminate]. injection H as H. exists c. auto. }
  assert (forall k, numbered log k -> forall more, numbered (log ++ more) k) as NM.
  { intros k (y & d & P & S) more. exists y, d. split; [now apply put_out_mono|exact S]. }
  constructor; cbn [n_nodes n_wire n_log].
  - rewrite <- SN, !map_app. reflexivity.
  - intros d H. apply in_app_or in H as [H|H]; [destruct (SW d H) as (x & P); exists x; now apply put_out_mono|].
    now apply datagrams_out.
  - intros j env1 m1 H. destruct (NetworkProofs.nth_middle _ _ _ _ _ H) as [[-> Q]|[NE Q]].
    + injection Q as -> ->. eapply queued_mono; [|exact FQ']. intros k K. now apply NM.
    + eapply queued_mono; [|exact (SQ j env1 m1 (Q _))]. intros k K. now apply NM.
  - intros past j e future H. destruct (split_app _ _ _ _ _ H) as [(f & ->)|(p & -> & H2)]; [eapply SF; reflexivity|].
    assert (forall ro more, receives env wire ro -> fine env (log ++ more) (ERecv ro)) as RF.
    { intros ro more R s w Hs. destruct (R s w Hs) as (d & Hd & DD). destruct (SW d Hd) as (x & P). exists x, d. split; [now apply put_out_mono|exact DD]. }
    assert (j = i /\ fine env (log ++ p) e) as [-> F].
    { destruct ES as [->|[(ro & -> & R)|[(ro & oo & -> & R & A)|(msg & rel & oo & -> & A)]]]; cbn [map] in H2.
      - destruct p; discriminate.
      - destruct p as [|p0 [|p1 p]]; try discriminate. injection H2 as <- <- _. split; [reflexivity|now apply RF].
      - destruct p as [|p0 [|p1 [|p2 p]]]; try discriminate.
        + injection H2 as <- <- _. split; [reflexivity|now apply RF].
        + injection H2 as <- <- <- _. split; [reflexivity|]. cbn [fine]. eapply answers_mono; [|exact A]. intros k K. now apply NM.
      - destruct p as [|p0 [|p1 p]]; try discriminate. injection H2 as <- <- _. split; [reflexivity|exact A]. }
    exists c. split; [exact CI|]. now rewrite CE.
Qed.
Lemma net_story cs n : net_steps (net_start cs) n -> story cs n.
Proof.
  intros H. remember (net_start cs) as n0. induction H as [n|n1 n2 n3 H IH S]; [subst; apply story_start|].
  subst. eapply story_step; [|exact S|auto]. apply net_reachable_inv. now exists cs.
Qed.
Lemma acknowledges_unique m p q : acknowledges m p -> acknowledges m q -> p = q.
Proof.
  intros (_ & _ & _ & bl & B1 & F1) (_ & _ & _ & bl2 & B2 & F2). rewrite B1 in B2. injection B2 as <-. clear B1. revert q F2.
  induction F1 as [|b i bl p (_ & _ & G) _ IH]; intros q F2; inversion F2 as [|? k ? q' (_ & _ & G2) F3]; subst; [reflexivity|].
  f_equal; [congruence|now apply IH].
Qed.
Lemma no_false_acks cs n past i o future x p k : net_steps (net_start cs) n -> n_log n = past ++ (i, EAcks o) :: future ->
  In x (o_sends o) -> acknowledges (at_msg x) p -> In k p -> exists y d, put_out past y d /\ sequence_number d = Some k.
Proof.
  intros S L X A K. destruct (st_fine _ _ (net_story _ _ S) _ _ _ _ L) as (c & _ & F). destruct (F x X) as (_ & q & A2 & _ & FQ).
  rewrite (acknowledges_unique _ _ _ A A2) in K. rewrite Forall_forall in FQ. now apply FQ.
Qed.

Lemma ack_conforming t m p : packet_ack_template t -> acknowledges m p -> 1 <= zlen p <= 251 ->
  Forall (fun n => 0 <= n < 2 ^ 32) p -> usable t /\ m_name m = t_name t /\ conforming t m.
Proof.
  intros (Tn & Tf & n & Tb) (An & Af & Aa & bl & Ab & Ai) Hp Hr.
  set (id := {| tv_name := "ID"; tv_type := Some MVT_U32; tv_size := Some 4 |}) in *.
  set (tb := {| tb_name := "Packets"; tb_type := Some MBT_VARIABLE; tb_number := n; tb_vars := [id] |}) in *.
  assert (L : List.length bl = List.length p) by exact (Forall2_len _ _ _ Ai).
  split; [|split; [congruence|]].
  - split; [exact Tf|]. rewrite Tb. split; [|split; [cbn; repeat constructor; auto|]].
    + intros u Hu. rewrite Tb in Hu. destruct Hu as [<-|[]]. split; [discriminate|]. intros v [<-|[]]. exists MVT_U32, 4. auto.
    + intros u [<-|[]]. cbn. repeat constructor; auto.
  - intros u Hu. rewrite Tb in Hu. destruct Hu as [<-|[]]. exists bl. cbn [tb_name tb].
    split; [unfold get_block; rewrite Ab; reflexivity|]. split; [cbn; unfold zlen in *; lia|].
    intros b v Hb [<-|[]]. revert Hr Hb. clear -Ai. induction Ai as [|b' i bl p (_ & _ & G) _ IH]; [intros _ []|].
    intros Hr [->|Hb]; inversion Hr; subst; [|auto]. exists (VInt i). split; [exact G|]. eapply proper_in_range; [reflexivity|]. exists i. split; [constructor|]. assumption.
Qed.
(** What was sent and what is read from its datagram. *)
Lemma read_back pv' pv ts dict x m d w t : build_dict pv' ts = Ok dict -> Forall sized ts -> unambiguous ts -> In t ts -> usable t ->
  m_name m = t_name t -> conforming t m -> (m_flags m = 0 \/ m_flags m = 2 ^ reliable_bit) -> 1 <= m_id m < 2 ^ 31 ->
  serialize pv dict x m = Ok (Some d) -> deserialize (open_conf dict) d = Ok (Some w) -> message_back t m w.
Proof.
  intros BD SZ UN IN US NM CF FL ID S D. apply serialize_open in S.
  assert (plain_header pv m) as PH.
  { split; [destruct FL as [-> | ->]; cbn; lia|]. split; [destruct FL as [-> | ->]; reflexivity|]. split; [destruct FL as [-> | ->]; reflexivity|].
    split; [lia|]. right. unfold fits. cbn. lia. }
  assert (t_blocks t = [] \/ (exists tb, In tb (t_blocks t) /\ instances m (tb_name tb) <> []) \/
          (t_blocks t <> [] /\ forall tb, In tb (t_blocks t) -> instances m (tb_name tb) = [])) as [T|[T|[T1 T2]]].
  { destruct (t_blocks t) as [|b0 bs]; [auto|]. right.
    assert (forall l, (exists tb, In tb l /\ instances m (tb_name tb) <> []) \/ forall tb, In tb l -> instances m (tb_name tb) = []) as K.
    { induction l as [|b l [(tb & H1 & H2)|IH]]; [right; intros tb []|left; exists tb; split; [now right|exact H2]|].
      destruct (instances m (tb_name b)) eqn:EB; [right; intros tb [<-|H]; auto|left; exists b; split; [now left|congruence]]. }
    destruct (K (b0 :: bs)) as [H|H]; [left; exact H|right; split; [discriminate|exact H]]. }
  1, 2: destruct (round_trip pv' pv ts (open_conf dict) [] m t (fun _ => true)) as (d' & w' & S' & D' & B); auto; try exact I;
        cbn [dc_dict open_conf] in S'; rewrite S' in S; injection S as ->; rewrite D' in D; injection D as ->; exact B.
  destruct (empty_round_trip pv' pv ts (open_conf dict) [] m t (fun _ => true)) as (d' & S' & D'); auto; try exact I.
  cbn [dc_dict open_conf] in S'. rewrite S' in S. injection S as ->. congruence.
Qed.
Lemma copies_core pv ts ta cs n past j ro future s w : net_steps (net_start cs) n -> same_templates pv ts cs ->
  Forall sized ts -> unambiguous ts -> In ta ts -> packet_ack_template ta -> conforming_traffic ts (n_log n) ->
  n_log n = past ++ (j, ERecv ro) :: future -> In (s, w) (r_calls ro) ->
  exists i e x d t, In (i, e) past /\ In x (sends_of e) /\ at_data x = Some d /\ In t ts /\ m_name (at_msg x) = t_name t /\
    message_back t (at_msg x) w /\
    match e with
    | EAcks _ => t = ta /\ exists p, acknowledges (at_msg x) p /\ Forall (numbered past) p
    | _ => True
    end.
Proof.
  intros S ST SZ UN IN PT CT L H. pose proof (net_story _ _ S) as [_ _ _ SF].
  destruct (SF _ _ _ _ L) as (c & CJ & F). destruct (F s w H) as (x & d & P & D).
  unfold same_templates in ST. rewrite Forall_forall in ST.
  destruct c as [[env hh] qq]. apply nth_error_In, ST in CJ as [BD ED]. cbn [fst] in D. rewrite ED in D.
  pose proof P as (i & e & HI & X & AD). destruct (in_split _ _ HI) as (p1 & p2 & EP).
  destruct (SF p1 i e (p2 ++ (j, ERecv ro) :: future)) as ([[env1 h1] q1] & CI & F1).
  { rewrite L, EP, <- app_assoc. reflexivity. }
  apply nth_error_In, ST in CI as [BD1 ED1]. cbn [fst] in F1. assert (e_ser_dict env1 = e_ser_dict env) as DD by congruence.
  destruct (CT i e x d) as [ID CF]; [rewrite L; apply in_or_app; now left|exact X|exact AD|].
  assert (header env1 x /\ exists t, In t ts /\ usable t /\ m_name (at_msg x) = t_name t /\ conforming t (at_msg x) /\
    match e with
    | EAcks _ => t = ta /\ exists p, acknowledges (at_msg x) p /\ Forall (numbered past) p
    | _ => True
    end) as [HD (t & T1 & T2 & T3 & T4 & T5)].
  { destruct e as [r0|o|msg rel o]; [contradiction| |].
    - destruct (F1 x X) as (HD & q & A & LQ & FQ). split; [exact HD|]. exists ta. split; [exact IN|].
      destruct (ack_conforming ta (at_msg x) q PT A LQ) as (U1 & U2 & U3); [eapply Forall_impl; [|exact FQ]; intros k [_ K]; exact K|].
      repeat (split; [assumption|]). split; [reflexivity|]. exists q. split; [exact A|]. eapply Forall_impl; [|exact FQ].
      intros k [(y & b & P1 & P2) _]. exists y, b. split; [rewrite EP; now apply put_out_mono|exact P2].
    - split; [exact (F1 x X)|]. destruct CF as (t & C1 & C2 & C3 & C4). exists t. auto. }
  destruct (HD d AD) as (SE & FL & I1). rewrite DD in SE.
  exists i, e, x, d, t. repeat (split; [assumption|]). split; [|exact T5].
  eapply (read_back pv (e_pv env1) ts (e_ser_dict env) _ (at_msg x) d w t); eauto.
Qed.
Lemma nothing_but_copies pv ts ta cs n past j ro future s w : net_steps (net_start cs) n -> same_templates pv ts cs ->
  Forall sized ts -> unambiguous ts -> In ta ts -> packet_ack_template ta -> conforming_traffic ts (n_log n) ->
  n_log n = past ++ (j, ERecv ro) :: future -> In (s, w) (r_calls ro) ->
  exists x d t, put_out past x d /\ In t ts /\ m_name (at_msg x) = t_name t /\ message_back t (at_msg x) w.
Proof.
  intros S ST SZ UN IN PT CT L H.
  destruct (copies_core pv ts ta cs n past j ro future s w S ST SZ UN IN PT CT L H) as (i & e & x & d & t & H1 & H2 & H3 & H4 & H5 & H6 & _).
  exists x, d, t. split; [exists i, e; auto|auto].
Qed.
Lemma acks_seen pv ts ta cs n past j ro future s w b k : net_steps (net_start cs) n -> same_templates pv ts cs ->
  Forall sized ts -> unambiguous ts -> In ta ts -> packet_ack_template ta -> conforming_traffic ts (n_log n) ->
  (forall i msg rel o x, In (i, ESend msg rel o) (n_log n) -> In x (o_sends o) -> m_name (at_msg x) <> "PacketAck"%string) ->
  n_log n = past ++ (j, ERecv ro) :: future -> In (s, w) (r_calls ro) -> m_name w = "PacketAck"%string ->
  In b (instances w "Packets") -> block_getitem b "ID" = Ok (VInt k) ->
  exists y d, put_out past y d /\ sequence_number d = Some k.
Proof.
  intros S ST SZ UN IN PT CT NA L H MW HB HG.
  destruct (copies_core pv ts ta cs n past j ro future s w S ST SZ UN IN PT CT L H) as (i & e & x & d & t & H1 & H2 & H3 & H4 & H5 & H6 & H7).
  pose proof H6 as (MN & _ & _ & _ & _ & _ & _ & B4).
  destruct e as [r0|o|msg rel o]; [contradiction| |].
  2: { exfalso. apply (NA i msg rel o x); [rewrite L; apply in_or_app; now left|exact H2|congruence]. }
  destruct H7 as (-> & p & (An & Af & Aa & bl & Ab & Ai) & FP). destruct PT as (Tn & Tf & nn & Tb).
  set (id := {| tv_name := "ID"; tv_type := Some MVT_U32; tv_size := Some 4 |}) in *.
  set (tb := {| tb_name := "Packets"; tb_type := Some MBT_VARIABLE; tb_number := nn; tb_vars := [id] |}) in *.
  assert (In1 : instances (at_msg x) "Packets" = bl) by (unfold instances, get_block; rewrite Ab; reflexivity).
  destruct (B4 tb) as [B5 _]; [rewrite Tb; now left|].
  change (tb_name tb) with "Packets"%string in B5. rewrite In1 in B5. clear -B5 Ai FP HB HG. revert p Ai FP.
  induction B5 as [|b0 b' bl bs (_ & _ & G) _ IH]; intros p Ai FP; [contradiction|].
  inversion Ai as [|? i ? p' (_ & _ & H) Ai']; subst. inversion FP as [|? ? N1 FP']; subst. destruct HB as [->|HB]; [|eapply IH; eauto].
  destruct (G id (or_introl eq_refl)) as (x & y & G1 & G2 & G3). cbn in G1, G2. rewrite H in G1. injection G1 as <-. rewrite HG in G2. injection G2 as <-.
  destruct G3 as (t & x' & [= <-] & SF & z & Z1 & ZE). apply stands_other in SF; try discriminate; [|reflexivity].
  subst x'. inversion Z1; subst. injection ZE as ->. exact N1.
Qed.
