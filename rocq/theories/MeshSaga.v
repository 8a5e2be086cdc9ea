(** More lemmas for C104: from one step to all of them. *)
From Verif Require Import Lib SpecWhole WholeProofs LiveManagerProofs SpecMessages MessageProofs DispatchProofs DispatchMore GreenletProofs GreenletAcks GreenletMore CopiesProofs RoundTripProofs Prop_RoundTrip.
From Verif Require Import SpecCrowd CrowdProofs AnnouncedProofs SpecMesh MeshProofs MeshMore MeshSource.
From Verif Require Import SpecLayout SpecFloats SpecRoundTrip SpecGreenlets SpecCrowd SpecMesh.
Open Scope Z_scope.
Open Scope list_scope.

Lemma mesh_sane es n i e w : mesh_steps (mesh_start es) n -> nth_error (me_nodes n) i = Some (e, w) -> sane (we_env e) (lv_cf (wh_udp w)).
Proof.
  intros S N. pose proof (crowd_tale _ _ (mesh_crowd es n S)) as T.
  destruct (ta_fair _ _ T i (we_env e) (lv_cf (wh_udp w))) as [G L _ D].
  { unfold dispatchers. cbn [w_nodes]. rewrite nth_error_map, N. reflexivity. }
  constructor; [exact G|exact L|]. intros th X. eapply dl_mono; [|exact (D th X)]. auto.
Qed.
Definition from_somewhere (i : nat) (done : list (nat * wop)) (log : list (nat * gevent)) (k : string * list (string * list block)) : Prop :=
  (exists m, In (i, WUser (Spawn (NewMsg m))) done /\ k = key m) \/
  exists a ids, In (i, Packing a ids) log /\ k = key (ack_message ids).
Lemma from_mono i d1 d2 l1 l2 k : from_somewhere i d1 l1 k -> from_somewhere i (d1 ++ d2) (l1 ++ l2) k.
Proof.
  intros [(m & A & B)|(a & ids & A & B)]; [left; exists m|right; exists a, ids]; (split; [apply in_or_app; now left|exact B]).
Qed.
Record saga (n : mesh) : Prop := {
  sg_keys : forall i e w, nth_error (me_nodes n) i = Some (e, w) ->
    Forall (from_somewhere i (me_done n) (of_dispatchers (me_log n))) (keys (cf_st (lv_cf (wh_udp w))));
  sg_queue : forall i e w msg rel, nth_error (me_nodes n) i = Some (e, w) -> In (msg, rel) (lv_queue (wh_udp w)) ->
    exists now, In (i, WV (VEnqueued msg rel now)) (me_log n);
  sg_source : forall past i x future, me_log n = past ++ (i, WV (VSeen (Net (Attempted x)))) :: future ->
    answering (of_dispatchers past) i x \/
    exists past' b msg rel now m, past = past' ++ [(i, WV (VBegun b))] /\ bg_call b = CSend msg rel /\
      In (i, WV (VEnqueued msg rel now)) past' /\ message_of n i msg = Some m /\ key (at_msg x) = key m }.
Lemma keys_nth st r m : nth_error (s_msgs st) r = Some m -> nth_error (keys st) r = Some (key m).
Proof. intros H. unfold keys. now rewrite nth_error_map, H. Qed.
Lemma nth_keys st r k : nth_error (keys st) r = Some k -> exists m, nth_error (s_msgs st) r = Some m /\ key m = k.
Proof. unfold keys. rewrite nth_error_map. destruct (nth_error (s_msgs st) r) as [m|]; [|discriminate]. cbn. intros H. injection H as <-. eauto. Qed.
Lemma wstep_keys e w o i : sane (we_env e) (lv_cf (wh_udp w)) -> leaves_all o ->
  exists new, keys (cf_st (lv_cf (wh_udp (wstep e w o)))) = keys (cf_st (lv_cf (wh_udp w))) ++ new /\
    Forall (from_somewhere i [(i, o)] (of_dispatchers (map (pair i) (wobserved e w o)))) new.
Proof.
  intros SN LA. destruct (wdoes_kinds w o LA) as (NS & NM & _). rewrite wstep_cf, wobserved_seen.
  destruct (crun_keys (we_env e) (wdoes w o) (lv_cf (wh_udp w)) SN NS) as (new & E & K). exists new. split; [exact E|].
  rewrite Forall_forall. intros k H. destruct (K k H) as [(m & A & B)|(a & ids & A & B)].
  - left. exists m. split; [|exact B]. left. f_equal. now apply NM.
  - right. exists a, ids. split; [now apply in_map|exact B].
Qed.
Lemma stays es n n' i r m : mesh_steps (mesh_start es) n -> mesh_step n n' -> (forall p, In p (me_done n') -> leaves_all (snd p)) ->
  message_of n i r = Some m -> exists m', message_of n' i r = Some m' /\ key m' = key m.
Proof.
  intros S ST LA. pose proof (fun i e w => mesh_sane es n i e w S) as SN. destruct ST as [j before e w after o done log L M]. unfold message_of. cbn [me_nodes me_done] in *.
  assert (nth_error (before ++ (e, w) :: after) j = Some (e, w)) as NJ by (rewrite <- L; apply NetworkProofs.nth_at).
  assert (leaves_all o) as LO by (apply (LA (j, o)); apply in_or_app; right; now left).
  destruct (wstep_keys e w o j (SN _ _ _ NJ) LO) as (new & E & _). clear SN.
  intros H. destruct (Nat.eq_dec i j) as [->|NE].
  - rewrite NJ in H. rewrite <- L, NetworkProofs.nth_at. apply nth_keys. rewrite E.
    apply keys_nth in H. rewrite nth_error_app1; [exact H|]. apply nth_error_Some. now rewrite H.
  - destruct (nth_error (before ++ (e, w) :: after) i) as [[e1 w1]|] eqn:N; [|discriminate].
    destruct (NetworkProofs.nth_middle _ _ _ _ _ N) as [[Q _]|[_ Q]]; [congruence|]. rewrite Q. eauto.
Qed.
Lemma saga_start es : saga (mesh_start es).
Proof.
  constructor; cbn [mesh_start me_nodes me_log].
  - intros i e w N. rewrite nth_error_map in N. destruct (nth_error es i); [|discriminate]. injection N as <- <-. constructor.
  - intros i e w msg rel N I. rewrite nth_error_map in N. destruct (nth_error es i); [|discriminate]. injection N as <- <-. destruct I.
  - intros past i x future H. destruct past; discriminate.
Qed.
Lemma saga_step es n n' : mesh_steps (mesh_start es) n -> Forall (fun e => e_handle_out (we_env e) = false) es ->
  (forall p, In p (me_done n') -> leaves_all (snd p)) -> mesh_step n n' -> saga n -> saga n'.
Proof.
  intros S HO LA ST. pose proof (fun i r m => stays es n n' i r m S ST LA) as KEEP. pose proof (fun i e w => mesh_sane es n i e w S) as SN.
  destruct (mesh_each es n S) as [EE _]. destruct ST as [i before e w after o done log L M]. intros [GK GQ GS].
  cbn [me_nodes me_log me_done] in *.
  assert (nth_error (before ++ (e, w) :: after) i = Some (e, w)) as NI by (rewrite <- L; apply NetworkProofs.nth_at).
  assert (leaves_all o) as LO by (apply (LA (i, o)); apply in_or_app; right; now left).
  assert (e_handle_out (we_env e) = false) as HE.
  { rewrite Forall_forall in HO. apply HO. rewrite <- EE, map_app. apply in_or_app. right. now left. }
  pose proof (SN _ _ _ NI) as SNI.
  constructor; cbn [me_nodes me_log me_done].
  - intros j e1 w1 N. destruct (NetworkProofs.nth_middle _ _ _ _ _ N) as [[-> Q]|[NE Q]].
    + injection Q as -> ->. rewrite L in *. destruct (wstep_keys e w o i SNI LO) as (new & E & F). rewrite E. apply Forall_app. split.
      * eapply Forall_impl; [|exact (GK _ _ _ NI)]. intros k. rewrite of_app. apply from_mono.
      * eapply Forall_impl; [|exact F]. intros k H. rewrite of_app. destruct H as [(m & A & B)|(a & ids & A & B)];
          [left; exists m|right; exists a, ids]; (split; [apply in_or_app; now right|exact B]).
    + eapply Forall_impl; [|exact (GK _ _ _ (Q _))]. intros k. rewrite of_app. apply from_mono.
  - intros j e1 w1 msg rel N I. destruct (NetworkProofs.nth_middle _ _ _ _ _ N) as [[-> Q]|[NE Q]].
    + injection Q as -> ->. rewrite L in *. destruct (wstep_queue e w o _ I) as [H|(now & H)].
      * destruct (GQ _ _ _ _ _ NI H) as (now & H'). exists now. apply in_or_app. now left.
      * exists now. apply in_or_app. right. now apply in_map.
    + destruct (GQ _ _ _ _ _ (Q _) I) as (now & H'). exists now. apply in_or_app. now left.
  - intros past j x future H. destruct (split_app _ _ _ _ _ H) as [(f & ->)|(p & -> & H2)].
    + destruct (GS _ _ _ _ eq_refl) as [A|(past' & b & msg & rel & now & m & -> & B & C & D & E)]; [now left|right].
      destruct (KEEP _ _ _ D) as (m' & D' & E'). exists past', b, msg, rel, now, m'. repeat (split; [assumption || reflexivity|]). congruence.
    + assert (j = i) as ->.
      { assert (In (j, WV (VSeen (Net (Attempted x)))) (map (pair i) (wobserved e w o))) as X by (rewrite H2; apply in_or_app; right; now left).
        apply in_map_iff in X as (y & Y & _). now injection Y. }
      destruct (pair_split i _ p _ _ H2) as (p' & -> & q' & G).
      destruct (wobserved_source e w o i p' x q' SNI HE LO G) as [(p1 & a & ids & E & A)|(b & msg & rel & q1 & m & -> & B & C & D & E)].
      * left. exists (of_dispatchers log ++ p1), a, ids. rewrite of_app, E, app_assoc. auto.
      * right. assert (In (msg, rel) (lv_queue (wh_udp w))) as IQ by (rewrite C; now left).
        destruct (GQ _ _ _ _ _ NI IQ) as (now & X).
        destruct (KEEP i msg m) as (m' & D' & E'); [unfold message_of; cbn [me_nodes]; now rewrite NI|].
        exists log, b, msg, rel, now, m'. repeat (split; [assumption || reflexivity|]). congruence.
Qed.
Lemma done_grows es n n' : mesh_steps (mesh_start es) n -> mesh_step n n' -> incl (me_done n) (me_done n').
Proof. intros _ ST. destruct ST. cbn. intros x I. apply in_or_app. now left. Qed.
Lemma mesh_saga es n : mesh_steps (mesh_start es) n -> Forall (fun e => e_handle_out (we_env e) = false) es ->
  (forall p, In p (me_done n) -> leaves_all (snd p)) -> saga n.
Proof.
  intros H HO. remember (mesh_start es) as n0. induction H as [n|n1 n2 n3 H IH S]; subst; intros LA; [apply saga_start|].
  pose proof (done_grows es n2 n3 H S) as G. eapply (saga_step es); eauto.
Qed.

(** ** The conditions of C103 *)
Lemma of_split log : forall past e future, of_dispatchers log = past ++ e :: future ->
  exists p q, log = p ++ (fst e, WV (VSeen (snd e))) :: q /\ of_dispatchers p = past /\ of_dispatchers q = future.
Proof.
  induction log as [|[i x] log IH]; intros past e future H; [destruct past; discriminate|].
  assert ((exists v, x = WV (VSeen v)) \/ of_dispatchers ((i, x) :: log) = of_dispatchers log) as [(v & ->)|K].
  { destruct x as [[| | | |v]| | |]; [right; reflexivity..|left; eauto|right; reflexivity|right; reflexivity|right; reflexivity]. }
  - change (of_dispatchers ((i, WV (VSeen v)) :: log)) with ((i, v) :: of_dispatchers log) in H.
    destruct past as [|e0 past]; cbn [app] in H.
    + injection H as <- <-. exists [], log. auto.
    + injection H as <- H. destruct (IH _ _ _ H) as (p & q & -> & E1 & E2). exists ((i, WV (VSeen v)) :: p), q. split; [reflexivity|]. split; [|exact E2].
      change (of_dispatchers ((i, WV (VSeen v)) :: p)) with ((i, v) :: of_dispatchers p). now rewrite E1.
  - rewrite K in H. destruct (IH _ _ _ H) as (p & q & -> & E1 & E2). exists ((i, x) :: p), q. split; [reflexivity|]. split; [|exact E2].
    change ((i, x) :: p) with ([(i, x)] ++ p). rewrite of_app, E1. destruct x as [[| | | |v]| | |]; try reflexivity.
    exfalso. change (of_dispatchers ((i, WV (VSeen v)) :: p ++ (fst e, WV (VSeen (snd e))) :: q)) with ((i, v) :: of_dispatchers (p ++ (fst e, WV (VSeen (snd e))) :: q)) in K.
    apply (f_equal (@List.length _)) in K. cbn in K. lia.
Qed.
Lemma of_cons p i v q : of_dispatchers (p ++ (i, WV (VSeen v)) :: q) = of_dispatchers p ++ (i, v) :: of_dispatchers q.
Proof. now rewrite of_app. Qed.
Lemma conforming_key t m m' : key m = key m' -> conforming t m' -> conforming t m.
Proof. intros E H tb I. unfold conforming, instances in *. unfold key in E. injection E as _ E. rewrite E. exact (H tb I). Qed.
Lemma mesh_conforming pv ts ta es n : mesh_steps (mesh_start es) n -> same_templates pv ts (map we_env es) -> In ta ts -> packet_ack_template ta ->
  (forall p, In p (me_done n) -> leaves_all (snd p) /\ makes_conforming ts (snd p)) -> few_packets (me_log n) ->
  conforming_use ts (of_dispatchers (me_log n)).
Proof.
  intros S ST IN PT D FP past i x d future E AD. destruct (of_split _ _ _ _ E) as (p & q & EL & <- & <-). cbn [fst snd] in EL.
  assert (Forall (fun e => e_handle_out (we_env e) = false) es) as HO.
  { unfold same_templates in ST. rewrite Forall_map in ST. eapply Forall_impl; [|exact ST]. intros e (_ & _ & H). exact H. }
  pose proof (mesh_saga es n S HO (fun p I => proj1 (D p I))) as G.
  split; [apply (FP i); rewrite EL; apply in_or_app; right; now left|].
  destruct (sg_source _ G _ _ _ _ EL) as [A|(past' & b & msg & rel & now & m & _ & _ & _ & MO & K)]; [now left|right].
  unfold message_of in MO. destruct (nth_error (me_nodes n) i) as [[e w]|] eqn:NI; [|discriminate].
  pose proof (sg_keys _ G _ _ _ NI) as F. rewrite Forall_forall in F.
  specialize (F (key m)). destruct F as [(m0 & I0 & K0)|(a & ids & I0 & K0)]; [unfold keys; apply in_map; eapply nth_error_In; exact MO| |].
  - destruct (proj2 (D _ I0)) as (t & T1 & T2 & T3 & T4). exists t. split; [exact T1|]. split; [exact T2|].
    assert (key (at_msg x) = key m0) as K1 by congruence. split; [|exact (conforming_key _ _ _ K1 T4)].
    unfold key in K1. injection K1 as -> _. exact T3.
  - destruct (in_split _ _ I0) as (l1 & l2 & EI).
    pose proof (crowd_tale _ _ (mesh_crowd es n S)) as T.
    destruct (ta_expl _ _ T l1 i (Packing a ids) l2) as (env & _ & FN & SZ); [exact EI|].
    assert (Forall (fun k => 0 <= k < 2 ^ 32) ids) as R.
    { eapply Forall_impl; [|exact FN]. intros k (y & bb & _ & SQ). exact (seq_range _ _ SQ). }
    pose (m1 := {| m_name := "PacketAck"%string; m_blocks := m_blocks (ack_message ids); m_flags := 0; m_id := 0; m_eqid := 0; m_acks := []; m_num_acks := 0;
       m_trusted := false; m_reliable := false; m_retries := 0 |}).
    assert (acknowledges m1 ids) as AK by (apply ack_acknowledges; try reflexivity; intros ->; cbn in SZ; lia).
    destruct (ack_conforming ta m1 ids PT AK SZ R) as (U1 & U2 & U3).
    assert (key (at_msg x) = key m1) as K1.
    { rewrite K, K0. destruct (ack_message_spec ids) as (A1 & _). unfold key. now rewrite A1. }
    exists ta. split; [exact IN|]. split; [exact U1|]. split; [|exact (conforming_key _ _ _ K1 U3)].
    unfold key in K1. injection K1 as -> _. exact U2.
Qed.
