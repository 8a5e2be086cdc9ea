(** Proofs about networks of managers. *)
From Verif Require Import Lib SpecMessages MessageProofs SpecNetwork EventsProofs LayoutProofs PacketProofs PacketMore PacketForms PacketRules DispatchProofs DispatchMore ManagerProofs.
Open Scope Z_scope.

Lemma bare_flags f : byte_value f = 0 \/ byte_value f = 2 ^ reliable_bit ->
  has_flag (ord f) LL_ACK_FLAG = false /\ has_flag (ord f) LL_ZERO_CODE_FLAG = false.
Proof. change byte_value with ord. intros [-> | ->]; split; reflexivity. Qed.

Lemma bare_acks c d m : bare d -> deserialize c d = Ok (Some m) -> m_acks m = [].
Proof.
  intros (f & tl & -> & B) D. destruct (bare_flags f B) as [A Z]. unfold deserialize in D.
  unfold strip_acks in D. change (pyindex (f :: tl) 0) with (@Ok byte f) in D. cbn [bind] in D. rewrite A in D. cbn [bind] in D.
  unfold expand in D. change (pyindex (f :: tl) 0) with (@Ok byte f) in D. cbn [bind] in D. rewrite Z in D. cbn [bind] in D.
  inv_bind D. rename a into ot. destruct ot as [t|]; [|discriminate]. inv_bind D. rename a into ok.
  destruct ok; [|discriminate]. cbn [negb] in D.
  destruct (dc_handled c) as [h|]; [|discriminate]. destruct (h (t_name t) || negb (dc_deferred c))%bool; [|discriminate].
  rewrite app_nil_r in D.
  assert (decode_data t (f :: tl) = Ok (Some m)) as DD.
  { destruct (decode_data t (f :: tl)) as [x|x]; [exact D|]. destruct x; discriminate. }
  clear D. unfold decode_data in DD. change (pyindex (f :: tl) 0) with (@Ok byte f) in DD. cbn [bind] in DD. rewrite A in DD.
  inv_bind DD. cbn [bind] in DD. inv_bind DD. inv_bind DD. inv_bind DD. destruct a2 as [[dd pos]|]; [|discriminate].
  destruct ((zlen dd <=? 0) && (0 <? zlen (t_blocks t)))%bool; [discriminate|]. injection DD as <-. reflexivity.
Qed.

(** ** The pieces of a loop step *)
Lemma receive_keeps env st href buf size st' r : reachable env st -> receive_check env st href buf size = (st', r) ->
  size <= 0 \/ bare buf -> forall a n, In n (outstanding st' a) <-> In n (outstanding st a).
Proof.
  intros R E B a n. destruct (reachable_good _ _ R) as [I V].
  destruct (host_address st href) as [b|] eqn:NH.
  2: { destruct (receive_nothing env st href buf size (or_introl NH)) as (r' & E' & _). rewrite E' in E. injection E as <- _. tauto. }
  destruct (Z_lt_le_dec 0 size) as [S|S].
  2: { destruct (receive_nothing env st href buf size (or_intror S)) as (r' & E' & _). rewrite E' in E. injection E as <- _. tauto. }
  destruct B as [B|B]; [lia|].
  destruct (receive_spec env st href buf size b I NH S) as (st1 & r1 & c' & E' & RC & CA & CO & _).
  rewrite E' in E. injection E as <- _. destruct (addr_dec a b) as [->|N].
  - rewrite (outstanding_cur st href b). unfold outstanding. fold (circ st1 b) in *.
    change (circuit_of st1 b) with (circ st1 b). rewrite CA.
    assert (circ_ok (cur st href b)) as K by now apply cur_ok.
    inversion RC as [e D|e D SQ|k D SQ|m D T|m D T]; subst; try tauto.
    destruct (deserialize_header _ _ _ D) as (SQ & _). apply seq_range in SQ.
    destruct (handle_packet_spec (cur st href b) m K SQ) as (_ & _ & _ & _ & _ & U). rewrite U.
    rewrite (bare_acks _ _ _ B D). cbn. tauto.
  - unfold outstanding. change (circuit_of st1 a) with (circ st1 a). rewrite CO by exact N. tauto.
Qed.

Lemma wired_bare env x d : wired env x -> m_flags (at_msg x) = 0 \/ m_flags (at_msg x) = 2 ^ reliable_bit -> at_data x = Some d -> bare d.
Proof.
  intros W F D. destruct (layout_first _ _ _ _ _ (W _ D)) as (f & tl & -> & E). exists f, tl. split; [reflexivity|].
  rewrite E. destruct F as [-> | ->]; [left|right]; reflexivity.
Qed.

Lemma process_bare env st order sock st' o : reachable env st -> process_acks env st order sock = (st', o) ->
  Forall bare (datagrams [EAcks o]).
Proof.
  intros R E. destruct (reachable_good _ _ R) as [I V]. destruct (process_spec _ _ _ _ _ _ I V E) as (_ & _ & _ & _ & _ & F).
  apply Forall_forall. intros d. cbn. rewrite app_nil_r. rewrite in_flat_map. intros (x & X & D).
  destruct (at_data x) as [d'|] eqn:AD; [|contradiction]. destruct D as [<-|[]].
  rewrite Forall_forall in F. destruct (F x X) as (p & _ & FL & _).
  apply (wired_bare env x); auto. apply (events_wired env st (ProcessAcks order sock)). unfold events. cbn [step snd]. rewrite E. cbn [snd].
  apply in_map. exact X.
Qed.

Lemma send_network env st msg h (rel : bool) sock st' o : reachable env st -> (forall a, pending_acks st a = []) ->
  send_message env st msg h (if rel then Reliable 0 else Plain) sock = (st', o) ->
  Forall bare (datagrams [ESend msg rel o]) /\ (forall a, pending_acks st' a = []) /\
  forall a n, In n (outstanding st' a) <-> In n (outstanding st a) \/
    (rel = true /\ exists x, In x (o_sends o) /\ at_addr x = a /\ m_id (at_msg x) = n).
Proof.
  intros R P E. destruct (reachable_good _ _ R) as [I V]. set (md := if rel then Reliable 0 else Plain) in *.
  destruct (send_total env st msg h) as [T|(a & m & NH & NM & HO & OE)].
  - destruct (send_nothing env st msg h md sock T) as (o' & E' & S & _). rewrite E' in E. injection E as <- <-. cbn. rewrite S. cbn.
    split; [constructor|]. split; [exact P|]. intros a n. split; [auto|]. intros [H|(_ & x & [] & _)]. exact H.
  - pose proof (send_wired _ _ _ _ _ _ _ _ E) as [W _].
    destruct (send_detail env st msg h md sock a m I NH NM HO OE)
      as (st2 & x & c' & E' & AA & AD & MN & MB & ID & FL & AC & CA & CO & CH & CT & CK & CL & CU & _).
    rewrite E' in E. injection E as <- <-. cbn [o_sends] in *.
    assert (piggyback (cur st h a) m = false) as PB.
    { unfold piggyback. rewrite <- (pending_cur st h a), P. reflexivity. }
    rewrite PB, Z.lor_0_r in FL. split; [|split].
    + cbn. rewrite !app_nil_r. destruct (at_data x) as [d|] eqn:D; [|constructor]. constructor; [|constructor].
      apply (wired_bare env x); [now inversion W| |exact D]. rewrite FL. unfold md. destruct rel; [right|left]; reflexivity.
    + intros b. destruct (addr_dec b a) as [->|N].
      * unfold pending_acks. change (circuit_of st2 a) with (circ st2 a). rewrite CA, CK, <- (pending_cur st h a). apply P.
      * unfold pending_acks. change (circuit_of st2 b) with (circ st2 b). rewrite CO by exact N. apply P.
    + intros b n. destruct (addr_dec b a) as [->|N].
      * rewrite (outstanding_cur st h a). unfold outstanding. change (circuit_of st2 a) with (circ st2 a). rewrite CA, CU.
        unfold md. destruct rel; cbn [is_reliable].
        -- rewrite map_app, in_app_iff. cbn. split.
           ++ intros [H|[H|[]]]; [auto|]. right. split; [reflexivity|]. exists x. auto.
           ++ intros [H|(_ & y & [<-|[]] & _ & H)]; auto.
        -- split; [auto|]. intros [H|[H _]]; [exact H|discriminate].
      * unfold outstanding. change (circuit_of st2 b) with (circ st2 b). rewrite CO by exact N. split; [auto|].
        intros [H|(_ & y & [<-|[]] & H & _)]; [exact H|congruence].
Qed.

(** ** One step of a node *)
Definition in_drain (m : mstate) : Prop := mm_pc m = PDrain -> forall a, pending_acks (mm_disp m) a = [].
Definition new_reliable (es : list mevent) (a : addr) (n : Z) : Prop :=
  exists msg o x, In (ESend msg true o) es /\ In x (o_sends o) /\ at_addr x = a /\ m_id (at_msg x) = n.

Lemma trusted_view st a b k : match get_circuit (s_circuits st) a with
       | Some c => put_circuit st a (set_trusted c b)
       | None => st
       end = k -> forall x, outstanding k x = outstanding st x /\ pending_acks k x = pending_acks st x.
Proof.
  intros <- x. unfold outstanding, pending_acks, circuit_of. destruct (get_circuit (s_circuits st) a) as [c|] eqn:C; [|auto].
  destruct (addr_dec x a) as [->|N].
  - pose proof (put_same st a (set_trusted c b)) as H. unfold circ in H. rewrite H, C. auto.
  - pose proof (put_other st a x (set_trusted c b) N) as H. unfold circ in H. rewrite H. auto.
Qed.

Lemma application_view env st o : by_application o -> forall a,
  outstanding (fst (step env st o)) a = outstanding st a /\ pending_acks (fst (step env st o)) a = pending_acks st a.
Proof.
  destruct o; cbn [by_application step fst]; try tauto; intros _ x; try (split; reflexivity).
  eapply trusted_view. reflexivity.
Qed.

Lemma node_step env m wire o m' es : m_good env m -> in_drain m -> Forall bare wire -> may wire o -> mstep env m o = (m', es) ->
  m_good env m' /\ in_drain m' /\ Forall bare (datagrams es) /\
  forall a n, In n (outstanding (mm_disp m') a) <-> In n (outstanding (mm_disp m) a) \/ new_reliable es a n.
Proof.
  intros G D W M E. split; [pose proof (m_good_step env m o G) as H; now rewrite E in H|].
  assert (forall a n (st : dstate), In n (outstanding st a) <-> In n (outstanding st a) \/ new_reliable [] a n) as NIL.
  { intros a n st. split; [auto|]. intros [H|(msg & o' & x & [] & _)]. exact H. }
  assert (forall (P : Prop) a n ro, P <-> P \/ new_reliable [ERecv ro] a n) as NIL1.
  { intros P a n ro. split; [auto|]. intros [H|(msg & o' & x & [H|[]] & _)]; [exact H|discriminate]. }
  assert (forall (P : Prop) a n ro oo, P <-> P \/ new_reliable [ERecv ro; EAcks oo] a n) as NIL2.
  { intros P a n ro oo. split; [auto|]. intros [H|(msg & o' & x & [H|[H|[]]] & _)]; [exact H|discriminate|discriminate]. }
  destruct G as [R MH MS ML].
  destruct o as [msg rel now| |o|r order sock]; cbn [mstep] in E.
  - injection E as <- <-. split; [exact D|]. split; [constructor|]. intros a n. apply NIL.
  - assert (m' = fst (stop_monitors m) /\ es = []) as [-> ->] by (injection E as <- <-; auto).
    unfold stop_monitors. destruct (mm_eq m); (split; [exact D|]); (split; [constructor|]); intros a n; apply NIL.
  - injection E as <- <-. pose proof (application_view env (mm_disp m) o M) as AV. split; [|split; [constructor|]].
    + intros P a. cbn. rewrite (proj2 (AV a)). apply D. exact P.
    + intros a n. cbn. rewrite (proj1 (AV a)). apply NIL.
  - unfold loop_step in E. destruct (mm_pc m) eqn:PC.
    + injection E as <- <-. split; [|split; [constructor|]; intros a n; apply NIL].
      unfold in_drain, loop_top. cbn. destruct (mm_running m); discriminate.
    + injection E as <- <-. split; [|split; [constructor|]; intros a n; apply NIL]. unfold in_drain. cbn. discriminate.
    + unfold loop_receive in E. destruct (receive_packet m r) as [[d buf] size] eqn:RP.
      pose proof (receive_packet_reach env m r d buf size R RP) as R1.
      assert (size <= 0 \/ bare buf) as B.
      { destruct r as [|a data]; cbn in RP; injection RP as _ <- <-; [left; lia|]. right. cbn in M. rewrite Forall_forall in W. now apply W. }
      assert (forall a, outstanding d a = outstanding (mm_disp m) a) as OD.
      { intros a. destruct r as [|b data]; cbn in RP; injection RP as <- _ _; reflexivity. }
      pose proof (receive_reach env d (mm_sender m) buf size R1) as R2.
      destruct (receive_check env d (mm_sender m) buf size) as [d1 ro] eqn:RC. cbn [fst] in R2.
      pose proof (receive_keeps _ _ _ _ _ _ _ R1 RC B) as K.
      destruct (r_res ro) as [vv|ee].
      2: { injection E as <- <-. split; [unfold in_drain; cbn; discriminate|]. split; [constructor|]. intros a n. cbn. rewrite <- OD, K. apply NIL1. }
      pose proof (has_unacked_spec d1 (inv_keys _ (good_inv _ (reachable_good _ _ R2)))) as HU.
      destruct (has_unacked d1).
      * destruct (process_acks env d1 order sock) as [d2 oo] eqn:PA.
        pose proof (process_bare _ _ _ _ _ _ R2 PA) as PB. pose proof (process_keeps_outstanding _ _ _ _ _ _ R2 PA) as PK.
        destruct (reachable_good _ _ R2) as [I2 V2].
        destruct (process_spec _ _ _ _ _ _ I2 V2 PA) as (_ & _ & _ & PE & _).
        assert (Forall bare (datagrams [ERecv ro; EAcks oo])) as PB' by exact PB.
        destruct (o_res oo) as [v|x] eqn:OR; injection E as <- <-; (split; [|split; [exact PB'|]]).
        -- intros _ a. cbn. now destruct (PE v eq_refl) as (_ & H & _).
        -- intros a n. cbn [mm_disp mm_set]. rewrite PK, K, OD. apply NIL2.
        -- unfold in_drain. cbn. discriminate.
        -- intros a n. cbn [mm_disp mm_set]. rewrite PK, K, OD. apply NIL2.
      * injection E as <- <-. split; [|split; [constructor|]].
        -- intros _ a. cbn. destruct (pending_acks d1 a) as [|x l] eqn:PA; [reflexivity|]. exfalso.
           assert (false = true); [|discriminate]. apply HU. exists a. rewrite PA. discriminate.
        -- intros a n. cbn [mm_disp mm_set]. rewrite K, OD. apply NIL1.
    + destruct (mm_queue m) as [|[msg rel] q].
      * injection E as <- <-. split; [|split; [constructor|]; intros a n; apply NIL].
        unfold in_drain, loop_top. cbn. destruct (mm_running m); discriminate.
      * unfold send_udp_message in E. destruct (send_message _ _ _ _ _ _) as [d oo] eqn:SM. injection E as <- <-.
        destruct (send_network _ _ _ _ _ _ _ _ R (D PC) SM) as (B & P & O). split; [|split; [exact B|]].
        -- intros _ a. apply P.
        -- intros a n. cbn [mm_disp mm_set]. rewrite O. split; (intros [H|H]; [left; exact H|right]).
           ++ destruct H as (-> & x & X). exists msg, oo, x. split; [now left|exact X].
           ++ destruct H as (msg' & o' & x & [H|[]] & X). injection H as <- -> <-. split; [reflexivity|]. exists x. exact X.
    + injection E as <- <-. split; [|split; [constructor|]; intros a n; apply NIL]. unfold in_drain. rewrite PC. discriminate.
Qed.

(** ** The whole network *)
Definition sent_by (log : list (nat * mevent)) (i : nat) (a : addr) (n : Z) : Prop :=
  exists msg o x, In (i, ESend msg true o) log /\ In x (o_sends o) /\ at_addr x = a /\ m_id (at_msg x) = n.
Definition net_inv (n : network) : Prop :=
  Forall bare (n_wire n) /\
  forall i env m, nth_error (n_nodes n) i = Some (env, m) ->
    m_good env m /\ in_drain m /\ forall a id, In id (outstanding (mm_disp m) a) <-> sent_by (n_log n) i a id.

Lemma nth_middle {A} (before : list A) x after y i : nth_error (before ++ x :: after) i = Some y ->
  (i = List.length before /\ y = x) \/ (i <> List.length before /\ forall z, nth_error (before ++ z :: after) i = Some y).
Proof.
  revert i. induction before as [|b before IH]; intros [|i]; cbn; intros H.
  - injection H as ->. auto.
  - right. split; [lia|]. auto.
  - right. split; [lia|]. auto.
  - destruct (IH i H) as [[-> ->]|[N Q]]; [left; auto|]. right. split; [lia|exact Q].
Qed.
Lemma nth_at {A} (before : list A) x after : nth_error (before ++ x :: after) (List.length before) = Some x.
Proof. induction before; auto. Qed.

Lemma net_start_inv cs : net_inv (net_start cs).
Proof.
  split; [constructor|]. intros i env m H. cbn in H. rewrite nth_error_map in H.
  destruct (nth_error cs i) as [[[env' host] eq]|]; [|discriminate]. injection H as <- <-. split; [|split].
  - constructor; [apply mm_init_reach|reflexivity|reflexivity|cbn; lia].
  - unfold in_drain. cbn. discriminate.
  - intros a id. cbn. split; [intros []|]. intros (msg & o & x & [] & _).
Qed.
Lemma net_step_inv n n' : net_step n n' -> net_inv n -> net_inv n'.
Proof.
  intros [i before env m after o m' es wire log L M E] [W N]. cbn [n_wire n_nodes n_log] in *.
  destruct (N i env m) as (G & D & O); [rewrite <- L; apply nth_at|].
  destruct (node_step _ _ _ _ _ _ G D W M E) as (G' & D' & B & O'). split; [cbn; apply Forall_app; auto|].
  intros j env1 m1 H. cbn [n_nodes n_log] in *. destruct (nth_middle _ _ _ _ _ H) as [[-> Q]|[NE Q]].
  - injection Q as -> ->. split; [exact G'|]. split; [exact D'|]. intros a id. rewrite O', O, L. unfold sent_by, new_reliable. split.
    + intros [(msg & oo & x & H1 & H2)|(msg & oo & x & H1 & H2)]; exists msg, oo, x; (split; [apply in_or_app|exact H2]).
      * left. exact H1.
      * right. apply in_map_iff. eexists. split; [reflexivity|exact H1].
    + intros (msg & oo & x & H1 & H2). apply in_app_or in H1 as [H1|H1]; [left|right]; exists msg, oo, x; (split; [|exact H2]); [exact H1|].
      apply in_map_iff in H1 as (e & [= ->] & H1). exact H1.
  - destruct (N j env1 m1 (Q _)) as (G1 & D1 & O1). split; [exact G1|]. split; [exact D1|]. intros a id. rewrite O1. unfold sent_by. split.
    + intros (msg & oo & x & H1 & H2). exists msg, oo, x. split; [apply in_or_app; now left|exact H2].
    + intros (msg & oo & x & H1 & H2). exists msg, oo, x. split; [|exact H2]. apply in_app_or in H1 as [H1|H1]; [exact H1|].
      apply in_map_iff in H1 as (e & [= <- _] & _). congruence.
Qed.
Lemma net_steps_inv n n' : net_steps n n' -> net_inv n -> net_inv n'.
Proof. induction 1; auto. intros H1. eapply net_step_inv; eauto. Qed.
Lemma net_reachable_inv n : net_reachable n -> net_inv n.
Proof. intros (cs & H). eapply net_steps_inv; [exact H|apply net_start_inv]. Qed.

Lemma net_bare n d : net_reachable n -> In d (n_wire n) -> bare d.
Proof. intros R H. destruct (net_reachable_inv n R) as [W _]. rewrite Forall_forall in W. now apply W. Qed.

Lemma net_step_log n n' : net_step n n' -> List.length (n_nodes n') = List.length (n_nodes n) /\ incl (n_log n) (n_log n').
Proof.
  intros [i before env m after o m' es wire log L M E]. cbn. rewrite !app_length. cbn. split; [reflexivity|]. apply incl_appl, incl_refl.
Qed.
Lemma net_steps_log n n' : net_steps n n' -> List.length (n_nodes n') = List.length (n_nodes n) /\ incl (n_log n) (n_log n').
Proof.
  induction 1 as [n|n1 n2 n3 H [IH1 IH2] S]; [split; [reflexivity|apply incl_refl]|].
  destruct (net_step_log _ _ S) as [A B]. split; [congruence|]. eapply incl_tran; eauto.
Qed.
Lemma net_log_index n : net_reachable n -> forall i e, In (i, e) (n_log n) -> (i < List.length (n_nodes n))%nat.
Proof.
  intros (cs & H). remember (net_start cs) as n0. induction H as [n|n1 n2 n3 H IH S]; [subst; intros i e []|].
  specialize (IH Heqn0). destruct S as [i before env m after o m' es wire log L M E]. cbn in *. intros j e HH.
  assert (List.length (before ++ (env, m') :: after) = List.length (before ++ (env, m) :: after)) as -> by (rewrite !app_length; reflexivity).
  apply in_app_or in HH as [HH|HH]; [eapply IH; exact HH|]. apply in_map_iff in HH as (x & [= <- _] & _).
  rewrite app_length. cbn. lia.
Qed.
Lemma net_waiting n i a id : net_reachable n -> waiting n i a id <-> once_sent n i a id.
Proof.
  intros R. destruct (net_reachable_inv n R) as [_ N]. split.
  - intros (env & m & H & O). destruct (N i env m H) as (_ & _ & Q). now apply Q.
  - intros H. destruct (nth_error (n_nodes n) i) as [[env m]|] eqn:E.
    + exists env, m. split; [exact E|]. destruct (N i env m E) as (_ & _ & Q). now apply Q.
    + destruct H as (msg & o & x & H & _). apply nth_error_None in E. pose proof (net_log_index n R _ _ H). lia.
Qed.
Lemma net_waiting_forever n n' i a id : net_reachable n -> net_steps n n' -> waiting n i a id -> waiting n' i a id.
Proof.
  intros R S W. assert (net_reachable n') as R'.
  { destruct R as (cs & H). exists cs. clear W. induction S as [n|n1 n2 n3 H1 IH S1]; [exact H|]. eapply ns_step; [apply IH; exact H|exact S1]. }
  apply net_waiting in W; [|exact R]. apply net_waiting; [exact R'|].
  destruct W as (msg & o & x & H & Q). exists msg, o, x. split; [|exact Q]. apply (proj2 (net_steps_log _ _ S)). exact H.
Qed.

(** ** One manager: every ack goes back to where the datagram came from *)
Record kept (env : denv) (host : addr) (m : mstate) : Prop := {
  k_good : m_good env m;
  k_zero : host_address (mm_disp m) 0 = Some host;
  k_circ : forall a c, circ (mm_disp m) a = Some c -> c_host c = 1%nat \/ (c_host c = 0%nat /\ a = host);
  k_pend : forall a, pending_acks (mm_disp m) a = [] }.

Lemma kept_init env host eq : kept env host (mm_init host eq).
Proof.
  constructor; [constructor; [apply mm_init_reach|reflexivity|reflexivity|cbn; lia]|reflexivity|discriminate|reflexivity].
Qed.
Lemma packs_nil parts : packs [] parts -> parts = [].
Proof.
  intros (E & F & _). destruct parts as [|p parts]; [reflexivity|]. inversion F as [|? ? H _]; subst.
  destruct p; [cbn in H; unfold zlen in H; cbn in H; lia|discriminate].
Qed.
Lemma packs_one n parts : packs [n] parts -> parts = [[n]].
Proof.
  intros (E & F & _). destruct parts as [|p parts]; [discriminate|]. inversion F as [|? ? H F']; subst.
  destruct p as [|x p]; [unfold zlen in H; cbn in H; lia|]. cbn in E. injection E as -> E.
  destruct p; [|discriminate]. cbn in E. destruct parts as [|p parts]; [reflexivity|]. inversion F'; subst.
  destruct p; [unfold zlen in *; cbn in *; lia|discriminate].
Qed.
Lemma acks_sent_nil t xs : acks_sent t [] xs -> xs = [].
Proof.
  unfold acks_sent. destruct (host_ok t); [|auto]. intros (parts & P & F). rewrite (packs_nil _ P) in F. now inversion F.
Qed.

(** Only one circuit has acks to send. *)
Lemma process_one env st order sock st' o b c t n r : reachable env st -> process_acks env st order sock = (st', o) ->
  o_res o = Ok r -> circ st b = Some c -> host_address st (c_host c) = Some t -> pending_acks st b = [n] ->
  (forall a, a <> b -> pending_acks st a = []) ->
  r = None /\ (forall a, pending_acks st' a = []) /\
  (if host_ok t then exists x, o_sends o = [x] /\ at_addr x = t /\ acknowledges (at_msg x) [n] else o_sends o = []).
Proof.
  intros R E Q C NH P PO. destruct (reachable_good _ _ R) as [I V].
  destruct (process_spec _ _ _ _ _ _ I V E) as (FL & ND & IN & RR & _ & _).
  destruct (RR r Q) as (-> & PE & groups & G & F). split; [reflexivity|]. split; [exact PE|].
  assert (forall keys groups, NoDup keys -> Forall2 (for_circuit st) keys groups ->
    (In b keys -> exists xs, acks_sent t [n] xs /\ List.concat groups = xs) /\ (~ In b keys -> List.concat groups = [])) as K.
  { clear - C NH P PO. intros keys groups ND F. induction F as [|k g keys groups FC F IH]; [split; [intros []|reflexivity]|].
    inversion ND as [|? ? NI ND']; subst. destruct (IH ND') as [IH1 IH2]. destruct FC as (c' & t' & C' & NH' & AS). cbn [List.concat].
    destruct (addr_dec k b) as [->|N].
    - split; [intros _|intros H; exfalso; apply H; now left]. rewrite C in C'. injection C' as <-. rewrite NH in NH'. injection NH' as <-.
      unfold pending_acks in P. change (circuit_of st b) with (circ st b) in P. rewrite C in P. rewrite P in AS.
      exists g. split; [exact AS|]. rewrite (IH2 NI). apply app_nil_r.
    - assert (g = []) as ->.
      { specialize (PO k N). unfold pending_acks in PO. change (circuit_of st k) with (circ st k) in PO. rewrite C' in PO. rewrite PO in AS.
        now apply acks_sent_nil in AS. }
      cbn. split; [intros [H|H]; [congruence|now apply IH1]|intros H; apply IH2; intros H'; apply H; now right]. }
  destruct (K _ _ ND F) as [K1 _]. destruct K1 as (xs & AS & CC); [apply IN; congruence|]. rewrite G, CC.
  unfold acks_sent in AS. destruct (host_ok t); [|exact AS]. destruct AS as (parts & PP & F2). rewrite (packs_one _ _ PP) in F2.
  inversion F2 as [|x ? xs' ? [A B] F3]; subst. inversion F3; subst. exists x. auto.
Qed.

Lemma acks_due_one env st a buf : exists n, acks_due env st a buf = [] \/ acks_due env st a buf = [n].
Proof.
  unfold acks_due. destruct (deserialize (deser_conf env st) buf) as [[m|]|e]; [|destruct (sequence_number buf)|].
  - exists (m_id m). destruct (trusted st a); [auto|]. destruct (m_reliable m); auto.
  - eauto.
  - exists 0. auto.
  - exists 0. auto.
Qed.

Lemma receive_one env host m b data order sock m' es : kept env host m -> mm_pc m = PRecv -> data <> [] ->
  mstep env m (MLoop (RData b data) order sock) = (m', es) ->
  answered env m b data es /\ (ended m' \/ kept env host m').
Proof.
  intros [G Z CH PN] PC ND E. pose proof (m_good_step env m (MLoop (RData b data) order sock) G) as G'. rewrite E in G'. cbn [fst] in G'.
  destruct G as [R MH MS ML]. cbn [mstep] in E. unfold loop_step in E. rewrite PC in E. unfold loop_receive in E. cbn [receive_packet] in E.
  rewrite MS in E. set (d := set_hosts (mm_disp m) (update_nth 1 b (s_hosts (mm_disp m)))) in *.
  assert (reachable env d) as R1 by exact (reachable_step env (mm_disp m) (SetHost 1 b) R).
  assert (host_address d 1 = Some b) as HB.
  { unfold host_address, d. cbn [s_hosts set_hosts]. destruct (nth_error (s_hosts (mm_disp m)) 1) as [y|] eqn:NE; [exact (nth_update 1 b _ y NE)|].
    apply nth_error_None in NE. lia. }
  assert (host_address d 0 = Some host) as HZ.
  { unfold host_address in *. cbn. destruct (s_hosts (mm_disp m)) as [|h0 [|h1 hs]]; cbn in *; auto. }
  assert (0 < zlen data) as SZ by (destruct data; [congruence|]; rewrite zlen_cons; pose proof (zlen_nonneg data); lia).
  destruct (reachable_good _ _ R1) as [I1 V1].
  destruct (receive_spec env d 1 data (zlen data) b I1 HB SZ) as (d1 & ro & c' & RC & RD & CA & CO & SH & _).
  rewrite RC in E. pose proof (receive_reach env d 1 data (zlen data) R1) as R2. rewrite RC in R2. cbn [fst] in R2.
  destruct (receive_queues _ _ _ _ _ _ _ _ R1 HB SZ RC) as [Q1 Q2].
  assert (pending_acks d1 b = acks_due env (mm_disp m) b data) as P1.
  { rewrite Q1. change (pending_acks d b) with (pending_acks (mm_disp m) b). rewrite PN. reflexivity. }
  assert (forall a, a <> b -> pending_acks d1 a = []) as P2 by (intros a N; rewrite (Q2 a N); apply PN).
  destruct (received_ok _ _ _ _ _ _ (cur_ok d 1 b I1) RD) as (_ & CHO & _).
  assert (c_host c' = 1%nat \/ (c_host c' = 0%nat /\ b = host)) as CB.
  { rewrite CHO. unfold cur. change (circ d b) with (circ (mm_disp m) b). destruct (circ (mm_disp m) b) as [c|] eqn:C; [exact (CH _ _ C)|now left]. }
  assert (forall a c, circ d1 a = Some c -> c_host c = 1%nat \/ (c_host c = 0%nat /\ a = host)) as CH1.
  { intros a c C. destruct (addr_dec a b) as [->|N]; [rewrite CA in C; injection C as <-; exact CB|].
    rewrite CO in C by exact N. exact (CH a c C). }
  assert (host_address d1 (c_host c') = Some b) as HC.
  { unfold host_address. rewrite SH. destruct CB as [-> |[-> ->]]; assumption. }
  pose proof (has_unacked_spec d1 (inv_keys _ (good_inv _ (reachable_good _ _ R2)))) as HU.
  destruct (r_res ro) as [v|e] eqn:RR.
  2: { injection E as <- <-. split; [|left; eexists; reflexivity]. exists ro, []. rewrite RR. auto. }
  destruct (acks_due_one env (mm_disp m) b data) as (n & [AD|AD]).
  - assert (has_unacked d1 = false) as HF.
    { destruct (has_unacked d1); [|reflexivity]. exfalso. destruct (proj1 HU eq_refl) as (a & N). apply N.
      destruct (addr_dec a b) as [->|NB]; [now rewrite P1|now apply P2]. }
    rewrite HF in E. injection E as <- <-. split; [exists ro, []; rewrite RR, AD; auto|]. right. constructor.
    + exact G'.
    + unfold host_address. cbn. rewrite SH. exact HZ.
    + exact CH1.
    + intros a. cbn. destruct (addr_dec a b) as [->|NB]; [now rewrite P1|now apply P2].
  - assert (has_unacked d1 = true) as HT by (apply HU; exists b; rewrite P1, AD; discriminate).
    rewrite HT in E. destruct (process_acks env d1 order sock) as [d2 o] eqn:PA. rewrite AD in P1.
    destruct (reachable_good _ _ R2) as [I2 V2].
    destruct (process_spec _ _ _ _ _ _ I2 V2 PA) as (FL & ND' & IN & RR' & QQ & _).
    assert (outgoing_quiet env (mm_disp m) -> o_res o = Ok None) as QU.
    { intros Q. apply QQ. unfold outgoing_quiet in *. intros HO x. destruct (receive_spec env d 1 data (zlen data) b I1 HB SZ) as (d1' & ro' & c'' & RC' & _ & _ & _ & _ & _ & HD & _).
      rewrite RC in RC'. injection RC' as <- <-. rewrite HD. now apply Q. }
    assert (forall v, o_res o = Ok v -> if host_ok b then exists x, o_sends o = [x] /\ at_addr x = b /\ acknowledges (at_msg x) [n] else o_sends o = []) as ONE.
    { intros v0 OR. destruct (process_one _ _ _ _ _ _ _ _ _ _ _ R2 PA OR CA HC P1 P2) as (_ & _ & K). exact K. }
    split.
    { exists ro, [EAcks o]. split; [destruct (o_res o); injection E as _ <-; reflexivity|]. rewrite RR, AD. exists o. auto. }
    destruct (o_res o) as [v0|e] eqn:OR; injection E as <- <-; [right|left; eexists; reflexivity].
    destruct (process_one _ _ _ _ _ _ _ _ _ _ _ R2 PA OR CA HC P1 P2) as (_ & PE & K). constructor.
    + exact G'.
    + unfold host_address. cbn [mm_disp mm_set]. rewrite (fl_hosts _ _ _ _ FL), SH. exact HZ.
    + intros a c C. cbn [mm_disp mm_set] in C. destruct (circ d1 a) as [c1|] eqn:C1.
      * destruct (fl_old _ _ _ _ FL a c1 C1) as (c2 & C2 & EH & _). rewrite C in C2. injection C2 as <-. rewrite EH. exact (CH1 a c1 C1).
      * exfalso. rewrite (fl_out _ _ _ _ FL a) in C; [congruence| |].
        -- rewrite IN. congruence.
        -- assert (a <> b) as NB by congruence. destruct (host_ok b); [destruct K as (x & -> & AA & _); cbn; intros [H|[]]; congruence|rewrite K; intros []].
    + exact PE.
Qed.

(** Every other step. *)
Lemma kept_step env host m o m' es : kept env host m -> host_keeping o -> mstep env m o = (m', es) -> ended m' \/ kept env host m'.
Proof.
  intros K HK E. pose proof (m_good_step env m o (k_good _ _ _ K)) as G'. rewrite E in G'. cbn [fst] in G'.
  destruct o as [msg rel now| |o|r order sock].
  - injection E as <- <-. right. destruct K. constructor; auto.
  - right. cbn [mstep] in E. assert (mm_disp m' = mm_disp m) as D.
    { injection E as <- _. unfold stop_monitors. now destruct (mm_eq m). }
    destruct K. constructor; rewrite ?D; auto.
  - right. cbn [mstep] in E. injection E as <- <-. destruct K as [G Z CH PN].
    assert (by_application o) as BA by (destruct o; cbn in HK; auto; contradiction).
    pose proof (application_view env (mm_disp m) o BA) as AV. constructor; auto.
    + cbn [mm_disp mm_set]. unfold host_address in *. destruct o; cbn in HK |- *; try contradiction; try exact Z.
      * destruct (s_hosts (mm_disp m)); [discriminate|exact Z].
      * destruct (get_circuit (s_circuits (mm_disp m)) a); exact Z.
    + cbn [mm_disp mm_set]. destruct o; cbn in HK; try contradiction; cbn [step fst]; try exact CH.
      intros x c C. destruct (get_circuit (s_circuits (mm_disp m)) a) as [c0|] eqn:C0; [|exact (CH x c C)].
      destruct (addr_dec x a) as [->|N].
      * rewrite put_same in C. injection C as <-. exact (CH a c0 C0).
      * rewrite put_other in C by exact N. exact (CH x c C).
    + intros a. cbn [mm_disp mm_set]. rewrite (proj2 (AV a)). apply PN.
  - cbn [mstep] in E. destruct (mm_pc m) eqn:PC.
    + unfold loop_step in E. rewrite PC in E. injection E as <- <-. right. destruct K. constructor; auto.
    + unfold loop_step in E. rewrite PC in E. injection E as <- <-. right. destruct K. constructor; auto.
    + destruct r as [|b data].
      * unfold loop_step in E. rewrite PC in E. unfold loop_receive in E. cbn [receive_packet] in E.
        destruct K as [G Z CH PN].
        assert (host_address (mm_disp m) (mm_sender m) <> None) as NS.
        { destruct G as [_ _ MS ML]. rewrite MS. intros H. apply nth_error_None in H. lia. }
        destruct (receive_nothing env (mm_disp m) (mm_sender m) [] 0 (or_intror (Z.le_refl 0))) as (r & EN & _ & _ & RN).
        rewrite EN in E. rewrite (RN NS) in E.
        assert (has_unacked (mm_disp m) = false) as HF.
        { pose proof (has_unacked_spec (mm_disp m) (inv_keys _ (good_inv _ (reachable_good _ _ (mg_reach _ _ G))))) as HU.
          destruct (has_unacked (mm_disp m)); [|reflexivity]. destruct (proj1 HU eq_refl) as (a & N). now rewrite PN in N. }
        rewrite HF in E. injection E as <- <-. right. constructor; auto.
      * destruct data as [|x data]; [|eapply receive_one; eauto; discriminate].
        unfold loop_step in E. rewrite PC in E. unfold loop_receive in E. cbn [receive_packet] in E.
        destruct K as [G Z CH PN]. destruct G as [R MH MS ML]. rewrite MS in E.
        set (d := set_hosts (mm_disp m) (update_nth 1 b (s_hosts (mm_disp m)))) in *.
        assert (host_address d 1 <> None) as NS.
        { unfold host_address, d. cbn [s_hosts set_hosts]. intros H. apply nth_error_None in H. rewrite upd_length in H. lia. }
        change (zlen (@nil byte)) with 0 in E.
        destruct (receive_nothing env d 1 [] 0 (or_intror (Z.le_refl 0))) as (r & EN & _ & _ & RN).
        rewrite EN in E. rewrite (RN NS) in E.
        assert (has_unacked d = false) as HF.
        { pose proof (has_unacked_spec d (inv_keys _ (good_inv _ (reachable_good _ _ R)))) as HU.
          destruct (has_unacked d); [|reflexivity]. destruct (proj1 HU eq_refl) as (a & N).
          change (pending_acks d a) with (pending_acks (mm_disp m) a) in N. now rewrite PN in N. }
        rewrite HF in E. injection E as <- <-. right. constructor; auto.
        unfold host_address in *. cbn. destruct (s_hosts (mm_disp m)) as [|h0 [|h1 hs]]; cbn in *; auto.
    + unfold loop_step in E. rewrite PC in E. destruct K as [G Z CH PN]. destruct (mm_queue m) as [|[msg rel] q].
      * injection E as <- <-. right. constructor; auto.
      * unfold send_udp_message in E. destruct (send_message _ _ _ _ _ _) as [d oo] eqn:SM. injection E as <- <-. right.
        destruct (send_network _ _ _ _ _ _ _ _ (mg_reach _ _ G) PN SM) as (_ & P & _).
        destruct (reachable_good _ _ (mg_reach _ _ G)) as [I V].
        rewrite (mg_host _ _ G) in SM. set (md := if rel then Reliable 0 else Plain) in *.
        destruct (send_total env (mm_disp m) msg 0) as [T|(a & w & NH & NM & HO & OE)].
        -- destruct (send_nothing env (mm_disp m) msg 0 md sock T) as (o' & E' & _). rewrite E' in SM. injection SM as <- _.
           constructor; auto.
        -- destruct (send_detail env (mm_disp m) msg 0 md sock a w I NH NM HO OE)
             as (st2 & x & c' & E' & AA & AD & MN & MB & ID & FL & AC & CA & CO & CHH & CT & CK & CL & CU & SH & _).
           rewrite E' in SM. injection SM as <- _. constructor; [exact G'| | |exact P].
           ++ unfold host_address. cbn [mm_disp mm_set]. rewrite SH. exact Z.
           ++ intros b c C. cbn [mm_disp mm_set] in C. destruct (addr_dec b a) as [->|N].
              ** rewrite CA in C. injection C as <-. rewrite CHH. unfold cur. destruct (circ (mm_disp m) a) as [c0|] eqn:C0; [exact (CH a c0 C0)|].
                 right. split; [reflexivity|]. unfold host_address in Z. congruence.
              ** rewrite CO in C by exact N. exact (CH b c C).
    + left. unfold loop_step in E. rewrite PC in E. injection E as <- <-. exists e. exact PC.
Qed.
Lemma kept_run env host ops : forall m, kept env host m -> Forall host_keeping ops ->
  ended (fst (mrun env m ops)) \/ kept env host (fst (mrun env m ops)).
Proof.
  induction ops as [|o ops IH]; intros m K F; [right; exact K|]. inversion F as [|? ? F1 F2]; subst. rewrite mrun_cons. cbn [fst].
  destruct (mstep env m o) as [m' es] eqn:E. cbn [fst].
  destruct (kept_step _ _ _ _ _ _ K F1 E) as [N|K']; [|now apply IH].
  left. destruct N as (e & N). exists e. destruct (ended_forever env ops m' (ex_intro _ e N)) as [_ ->]. exact N.
Qed.
Lemma one_ack env host eq ops m b data order sock m' es : Forall host_keeping ops -> m = fst (mrun env (mm_init host eq) ops) ->
  mm_pc m = PRecv -> data <> [] -> mstep env m (MLoop (RData b data) order sock) = (m', es) -> answered env m b data es.
Proof.
  intros F -> PC ND E. destruct (kept_run env host ops (mm_init host eq) (kept_init env host eq) F) as [(e & N)|K]; [congruence|].
  eapply receive_one; eauto.
Qed.
Lemma acks_only_received env host eq ops m o m' es acks : Forall host_keeping ops -> m = fst (mrun env (mm_init host eq) ops) ->
  mstep env m o = (m', es) -> In (EAcks acks) es ->
  exists b data order sock, o = MLoop (RData b data) order sock /\ data <> [] /\ mm_pc m = PRecv.
Proof.
  intros F -> E IN. destruct (kept_run env host ops (mm_init host eq) (kept_init env host eq) F) as [(e & N)|K].
  { exfalso. set (m := fst (mrun env (mm_init host eq) ops)) in *.
    destruct (ended_forever env [o] m (ex_intro _ e N)) as [A _]. rewrite mrun_cons in A. cbn in A. rewrite E, app_nil_r in A. cbn in A. subst. contradiction. }
  set (m := fst (mrun env (mm_init host eq) ops)) in *. clearbody m.
  destruct o as [msg rel now| |o|r order sock]; try (injection E as <- <-; contradiction).
  cbn [mstep] in E. unfold loop_step in E. destruct (mm_pc m) eqn:PC; try (injection E as <- <-; contradiction).
  - destruct r as [|b data].
    + exfalso. unfold loop_receive in E. cbn [receive_packet] in E. destruct K as [G Z CH PN].
      destruct (receive_nothing env (mm_disp m) (mm_sender m) [] 0 (or_intror (Z.le_refl 0))) as (r & EN & _ & _ & RN).
      rewrite EN in E. destruct (r_res r); [|injection E as <- <-; destruct IN as [H|[]]; discriminate].
      assert (has_unacked (mm_disp m) = false) as HF.
      { pose proof (has_unacked_spec (mm_disp m) (inv_keys _ (good_inv _ (reachable_good _ _ (mg_reach _ _ G))))) as HU.
        destruct (has_unacked (mm_disp m)); [|reflexivity]. destruct (proj1 HU eq_refl) as (a1 & N). now rewrite PN in N. }
      rewrite HF in E. injection E as <- <-. destruct IN as [H|[]]; discriminate.
    + destruct data as [|x data]; [|exists b, (x :: data), order, sock; repeat split; congruence].
      exfalso. unfold loop_receive in E. cbn [receive_packet] in E. destruct K as [G Z CH PN].
      set (d := set_hosts (mm_disp m) _) in *. change (zlen (@nil byte)) with 0 in E.
      destruct (receive_nothing env d (mm_sender m) [] 0 (or_intror (Z.le_refl 0))) as (r & EN & _ & _ & RN).
      rewrite EN in E. destruct (r_res r); [|injection E as <- <-; destruct IN as [H|[]]; discriminate].
      assert (has_unacked d = false) as HF.
      { pose proof (has_unacked_spec d (inv_keys _ (good_inv _ (reachable_good _ _ (mg_reach _ _ G))))) as HU.
        destruct (has_unacked d); [|reflexivity]. destruct (proj1 HU eq_refl) as (a1 & N).
        change (pending_acks d a1) with (pending_acks (mm_disp m) a1) in N. now rewrite PN in N. }
      rewrite HF in E. injection E as <- <-. destruct IN as [H|[]]; discriminate.
  - destruct (mm_queue m) as [|[msg rel] q]; [injection E as <- <-; contradiction|].
    destruct (send_udp_message env m msg rel sock) as [d oo]. injection E as <- <-. destruct IN as [H|[]]; discriminate.
Qed.

(** ** Acknowledging an acknowledgement *)
Definition put (env : denv) (sock : addr -> bytes -> option exn) (x : attempt) : Prop :=
  at_data x = fst (put_on_wire env (at_msg x) (at_addr x) sock).
Lemma send_put env st mref href md sock st' o :
  send_message env st mref href md sock = (st', o) -> Forall (put env sock) (o_sends o).
Proof.
  unfold send_message. intros H.
  destruct (nth_error (s_hosts st) href) as [a|]; [|injection H as <- <-; cbn; auto].
  destruct (nth_error (s_msgs st) mref) as [m|]; [|injection H as <- <-; cbn; auto].
  destruct (negb (host_ok a)); [injection H as <- <-; cbn; auto|].
  destruct (if e_handle_out env then handle (e_cb env) (s_handler st) m else ([], None)) as [calls [e|]];
    [injection H as <- <-; cbn; auto|].
  destruct (find_circuit st href a) as [st1 c].
  destruct (match md with
            | Reliable r => prepare_packet c mref m LL_RELIABLE_FLAG r
            | Plain => prepare_packet c mref m LL_NONE 0
            end) as [c' m'].
  cbv zeta in H.
  destruct (serialize (e_pv env) (e_ser_dict env) (e_ser_xml env) m') as [[b|]|e] eqn:S.
  1: destruct (sock a b) as [e|] eqn:SK.
  all: injection H as _ <-; cbn [o_sends]; constructor; [|constructor]; unfold put, put_on_wire; cbn; rewrite S, ?SK; reflexivity.
Qed.
Lemma flush_put env sock href : forall ids cur st st' o,
  flush_acks env sock href ids cur st = (st', o) -> Forall (put env sock) (o_sends o).
Proof.
  induction ids as [|id ids IH]; intros cur st st' o H; cbn [flush_acks] in H.
  - destruct (0 <? zlen cur); [|injection H as <- <-; constructor]. eapply send_put; exact H.
  - destruct (250 <? zlen (cur ++ [id])); [|eapply IH; exact H].
    destruct (send_new env st (ack_message (cur ++ [id])) href sock) as [st1 o1] eqn:E1.
    pose proof (send_put _ _ _ _ _ _ _ _ E1) as W1.
    destruct (o_res o1); [|injection H as <- <-; exact W1].
    destruct (flush_acks env sock href ids [] st1) as [st2 o2] eqn:E2. injection H as <- <-.
    apply Forall_app. split; [exact W1|eapply IH; exact E2].
Qed.
Lemma send_acks_put env sock : forall keys st st' o,
  send_acks env sock keys st = (st', o) -> Forall (put env sock) (o_sends o).
Proof.
  induction keys as [|k keys IH]; intros st st' o H; cbn [send_acks] in H; [injection H as <- <-; constructor|].
  destruct (get_circuit (s_circuits st) k) as [c|]; [|eapply IH; exact H].
  destruct (flush_acks env sock (c_host c) (c_acks c) [] st) as [st1 o1] eqn:E1.
  pose proof (flush_put _ _ _ _ _ _ _ _ E1) as W1.
  destruct (o_res o1); [|injection H as <- <-; exact W1].
  destruct (send_acks env sock keys (clear_acks st1 k)) as [st3 o3] eqn:E3. injection H as <- <-.
  apply Forall_app. split; [exact W1|eapply IH; exact E3].
Qed.
Lemma process_put env st order sock st' o : process_acks env st order sock = (st', o) -> Forall (put env sock) (o_sends o).
Proof.
  unfold process_acks. intros E. destruct (resend_all (s_unackedc st) st) as [st2 [u|e]]; [|injection E as <- <-; constructor].
  destruct (send_acks env sock _ st2) as [st3 o3] eqn:E3. injection E as <- <-. cbn. eapply send_acks_put; exact E3.
Qed.
Lemma trace_app env ops1 : forall st ops2, trace env st (ops1 ++ ops2) = trace env st ops1 ++ trace env (fst (run env st ops1)) ops2.
Proof.
  induction ops1 as [|o ops1 IH]; intros st ops2; [reflexivity|]. cbn [app trace]. rewrite IH, run_fst, app_assoc. reflexivity.
Qed.
Lemma process_ids env st order sock st' o x : reachable env st -> process_acks env st order sock = (st', o) -> In x (o_sends o) ->
  1 <= m_id (at_msg x).
Proof.
  intros (ops & ->) E X.
  assert (In x (attempts_to (at_addr x) (since_removal (at_addr x) (trace env init_state (ops ++ [ProcessAcks order sock]))))) as H.
  { rewrite trace_app. cbn [trace]. unfold events. cbn [step snd]. rewrite E. cbn [snd]. rewrite app_nil_r.
    rewrite since_attempts, attempts_app. apply in_or_app. right. unfold attempts_to. apply in_flat_map. exists (Attempted x).
    split; [now apply in_map|]. rewrite addr_eqb_refl. now left. }
  apply In_nth_error in H as (k & H). apply ids_in_order in H. lia.
Qed.

Lemma ack_acked env host eq ops m b data order sock m' es t0 :
  Forall host_keeping ops -> m = fst (mrun env (mm_init host eq) ops) -> mm_pc m = PRecv ->
  e_deferred env = true -> is_message_handled (s_handler (mm_disp m)) "PacketAck" = false ->
  sget "PacketAck"%string (e_des_xml env) <> Some None ->
  outgoing_quiet env (mm_disp m) -> host_ok b = true -> carries (e_des_dict env) data t0 -> t_name t0 = "PacketAck"%string ->
  mstep env m (MLoop (RData b data) order sock) = (m', es) ->
  exists ro o x n, es = [ERecv ro; EAcks o] /\ r_calls ro = [] /\ sequence_number data = Some n /\
    o_sends o = [x] /\ at_addr x = b /\ acknowledges (at_msg x) [n] /\ mm_pc m' = PDrain /\ 0 <= n < 2 ^ 32 /\
    1 <= m_id (at_msg x) /\ put env sock x.
Proof.
  intros F EM PC DF NH XM Q HO CA TN E.
  assert (deserialize (deser_conf env (mm_disp m)) data = Ok None) as D.
  { apply (deferred_unhandled _ (is_message_handled (s_handler (mm_disp m))) data t0); auto; rewrite TN; auto. }
  assert (exists n, sequence_number data = Some n) as (n & SN).
  { destruct CA as (p & tr & ids & six & h & rest & f & k & U & EP & L6 & _).
    destruct (seq_unwrapped data p tr ids U) as [_ S].
    - rewrite EP, zlen_app. pose proof (zlen_nonneg (h ++ rest)). lia.
    - destruct (sequence_number data) as [n|]; [eauto|congruence]. }
  assert (data <> []) as ND by (intros ->; discriminate).
  destruct (kept_run env host ops (mm_init host eq) (kept_init env host eq) F) as [(e & N)|K]; [congruence|]. rewrite <- EM in K.
  destruct (receive_one _ _ _ _ _ _ _ _ _ K PC ND E) as [(ro & acks & EA & A) _].
  assert (m_reachable env m) as RM by (exists host, eq, ops; exact EM).
  destruct (loop_received env m b data order sock m' es RM PC ND E) as (dd & d1 & ro' & RD & HAd & SHd & SC & RC & R1 & HDs).
  rewrite EA in HDs. injection HDs as <-.
  assert (ro = {| r_res := Ok None; r_calls := [] |}) as RO.
  { destruct (reachable_good _ _ RD) as [I V]. assert (0 < zlen data) as SZ by (destruct data; [congruence|]; rewrite zlen_cons; pose proof (zlen_nonneg data); lia).
    destruct (receive_spec env dd 1 data (zlen data) b I HAd SZ) as (x1 & x2 & x3 & EQ & RV & _). rewrite RC in EQ. injection EQ as <- <-.
    assert (deserialize (deser_conf env dd) data = Ok None) as D' by (unfold deser_conf in *; now rewrite SHd).
    inversion RV; congruence. }
  rewrite RO in A. cbn [r_res] in A. unfold acks_due in A. rewrite D, SN in A. destruct A as (o & -> & QU & ONE).
  specialize (QU Q). specialize (ONE None QU). rewrite HO in ONE. destruct ONE as (x & OS & AA & AK).
  exists ro, o, x, n. split; [exact EA|]. split; [now rewrite RO|]. split; [exact SN|]. split; [exact OS|]. split; [exact AA|]. split; [exact AK|].
  assert (exists d0 d2, process_acks env d0 order sock = (d2, o) /\ reachable env d0 /\ mm_pc m' = PDrain) as (d0 & d2 & PA & R2 & PD).
  { cbn [mstep] in E. unfold loop_step in E. rewrite PC in E. unfold loop_receive in E.
    destruct (receive_packet m (RData b data)) as [[d' buf] size] eqn:RP.
    pose proof (receive_packet_reach env m _ d' buf size (m_reachable_disp _ _ RM) RP) as RA.
    pose proof (receive_reach env d' (mm_sender m) buf size RA) as RB.
    destruct (receive_check env d' (mm_sender m) buf size) as [d0 ro1]. cbn [fst] in RB.
    destruct (r_res ro1); [|injection E as _ E; rewrite EA in E; discriminate].
    destruct (has_unacked d0); [|injection E as _ E; rewrite EA in E; discriminate].
    destruct (process_acks env d0 order sock) as [d2 o2] eqn:PA. exists d0, d2.
    destruct (o_res o2) eqn:OR; injection E as <- E; rewrite EA in E; injection E as -> ->; [auto|congruence]. }
  split; [exact PD|]. split; [eapply seq_range; exact SN|]. assert (In x (o_sends o)) as IN by (rewrite OS; now left).
  split; [eapply process_ids; eauto|]. pose proof (process_put _ _ _ _ _ _ PA) as FP. rewrite Forall_forall in FP. now apply FP.
Qed.
