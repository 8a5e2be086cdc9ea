(** Lemmas for C107. *)
From Verif Require Import SpecMessages MessageProofs.
From Verif Require Import Lib SpecWhole WholeProofs SpecLiveManager SpecManager ManagerProofs DispatchProofs DispatchMore GreenletProofs GreenletAcks GreenletMore LiveManagerProofs LiveManagerMore LiveManagerAcks.
From Verif Require Import CopiesProofs.
From Verif Require Import SpecCrowd CrowdProofs SpecMesh MeshProofs MeshMore MeshSource MeshSaga MeshHosts MeshFinal TidyProofs TidyMore TidyFinal.
From Verif Require Import EndProofs SpecFloats RoundTripProofs Prop_RoundTrip SpecLayout SpecRoundTrip SpecGreenlets SpecCrowd SpecMesh SpecTidy SpecEnds SpecMeshEnds.
Open Scope Z_scope.
Open Scope list_scope.

(** ** A datagram that was put out can be read *)
Lemma deserialize_some c d w : deserialize (open_conf (dc_dict c)) d = Ok (Some w) ->
  (forall name, sget name (dc_xml c) <> Some None) -> dc_handled c <> None -> exists r, deserialize c d = Ok r.
Proof.
  unfold deserialize. cbn [dc_dict dc_xml dc_deferred dc_handled open_conf]. intros D X H. revert D.
  destruct (strip_acks d) as [[b ta]|]; [|discriminate]. cbn [bind]. destruct (expand b) as [b'|]; [|discriminate]. cbn [bind].
  destruct (decode_template (dc_dict c) b') as [[t|]|]; try discriminate. cbn [bind].
  unfold validate_udp_msg. cbn [dget bind negb orb]. intros D. specialize (X (t_name t)).
  assert (exists r, (match decode_data t (b' ++ ta) with Err DataUnpackingErr => Err MessageDeserializationErr | r => r end) = Ok r) as [r R].
  { exists (Some w). exact D. }
  clear D. destruct (sget (t_name t) (dc_xml c)) as [[f|]|]; [|congruence|]; cbn [bind negb].
  - destruct (String.eqb f "template"); cbn [negb]; [|eauto]. destruct (dc_handled c) as [h|]; [|congruence].
    destruct (h (t_name t) || negb (dc_deferred c))%bool; eauto.
  - destruct (dc_handled c) as [h|]; [|congruence]. destruct (h (t_name t) || negb (dc_deferred c))%bool; eauto.
Qed.
Lemma crowd_readable pv ts ta envs n past i x d future env st e : crowd_steps (crowd_start envs) n -> same_templates pv ts envs ->
  Forall sized ts -> unambiguous ts -> In ta ts -> packet_ack_template ta -> conforming_use ts (w_log n) ->
  w_log n = past ++ (i, Net (Attempted x)) :: future -> at_data x = Some d -> ~ announces_acks x ->
  (forall t, In t ts -> m_name (at_msg x) = t_name t -> t_blocks t = [] \/ (exists tb, In tb (t_blocks t) /\ instances (at_msg x) (tb_name tb) <> [])) ->
  In env envs -> (forall name, sget name (e_des_xml env) <> Some None) -> ~ unreadable env st d e.
Proof.
  intros S ST SZ UN IN PT CU L AD NA NE NJ NB. pose proof (crowd_tale _ _ S) as T.
  destruct (ta_expl _ _ T _ _ _ _ L) as (env1 & CI & HDR & _). destruct (HDR d AD) as (SE & I1 & fl & FL & MF).
  destruct (CU _ _ _ _ _ L AD) as [I2 CF].
  unfold same_templates in ST. rewrite Forall_forall in ST.
  apply ST in NJ as (BD & ED & HO). apply nth_error_In, ST in CI as (BD1 & ED1 & HO1).
  assert (e_ser_dict env1 = e_ser_dict env) as DD by congruence. rewrite DD in SE.
  assert (exists t, In t ts /\ m_name (at_msg x) = t_name t /\ usable t /\ conforming t (at_msg x)) as (t & IT & NM & US & CO).
  { destruct CF as [A|(t' & T1 & T2 & T3 & T4)].
    - destruct (answer_known _ _ _ _ _ _ _ T L A AD) as (p & AK & LP & _ & RP).
      destruct (ack_conforming ta (at_msg x) p PT AK LP RP) as (U1 & U2 & U3). exists ta. auto.
    - exists t'. auto. }
  assert (m_flags (at_msg x) = fl) as FM.
  { destruct MF as [MF|MF]; [exact MF|]. exfalso. apply NA. unfold announces_acks. rewrite MF. destruct FL as [-> | ->]; reflexivity. }
  assert (plain_header (e_pv env1) (at_msg x)) as PH.
  { split; [rewrite FM; destruct FL as [-> | ->]; cbn; lia|]. split; [rewrite FM; destruct FL as [-> | ->]; reflexivity|].
    split; [rewrite FM; destruct FL as [-> | ->]; reflexivity|]. split; [lia|]. right. unfold fits. cbn. lia. }
  pose proof (serialize_open _ _ _ _ _ SE) as SO.
  destruct (round_trip pv (e_pv env1) ts (open_conf (e_ser_dict env)) [] (at_msg x) t (fun _ => true)) as (d' & w & S' & D & B); auto; try exact I.
  cbn [open_conf dc_dict] in S'. rewrite S' in SO. injection SO as ->.
  pose proof (deserialize_header _ _ _ D) as (SQ & _).
  destruct (deserialize_some (deser_conf env st) d w) as (r & R).
  { cbn [deser_conf dc_dict]. rewrite ED. exact D. }
  { exact NB. }
  { cbn. discriminate. }
  intros [U|(_ & U & _)]; congruence.
Qed.

(** ** Where the datagrams come from that coroutines are called with *)
Lemma begun_receive w o b data e : In (WV (VBegun b)) (wobserved e w o) -> bg_call b = CReceive data ->
  data = [] \/ exists k a order, o = WUdp k (RData a data) order.
Proof.
  intros H B. unfold wobserved in H.
  assert (In (VBegun b) (vhistory (we_env e) (wh_udp w) (udp_ops w o))) as H'.
  { destruct o; [..|]; try (apply in_app_or in H as [H|H];
      [apply in_map_iff in H as (y & Y & H); injection Y as <-; exact H|
       exfalso; apply in_app_or in H as [H|H];
        [destruct (we_queue e); [apply in_map_iff in H as (y & Y & _); discriminate Y|exact H]|
         destruct (stop_raises e); cbn in H; try contradiction; destruct H as [H|[]]; discriminate H]]).
    destruct H as [H|[]]; discriminate H. }
  clear H. destruct o as [| |msg rel now|h|x|k r order| |]; cbn [udp_ops] in H'.
  - cbn in H'. destruct H' as [H'|[]]; discriminate H'.
  - cbn in H'. destruct H' as [H'|[]]; discriminate H'.
  - cbn in H'. destruct H' as [H'|[]]; discriminate H'.
  - exfalso. cbn [vhistory] in H'. rewrite app_nil_r in H'. unfold vobserved in H'. cbn [vdoes fst snd app map] in H'.
    apply in_map_iff in H' as (y & Y & _). discriminate Y.
  - exfalso. assert (In (VBegun b) (vhistory (we_env e) (wh_udp w) [VUser x])) as H''.
    { destruct x as [[]|]; exact H'. }
    clear H'. cbn [vhistory] in H''. rewrite app_nil_r in H''. unfold vobserved in H''. cbn [vdoes fst snd app map] in H''.
    apply in_map_iff in H'' as (y & Y & _). discriminate Y.
  - cbn [vhistory] in H'. rewrite app_nil_r in H'. unfold vobserved in H'. cbn [app] in H'. apply in_app_or in H' as [H'|H'].
    2: { apply in_map_iff in H' as (y & Y & _). discriminate Y. }
    apply in_map_iff in H' as (y & Y & H'). injection Y as ->. cbn [vdoes] in H'.
    destruct (nth_error (lv_udp (wh_udp w)) k) as [p|]; [|destruct H'].
    destruct p as [| | |t|t| |t|x]; cbn [udp_step snd] in H'.
    all: try (destruct H'; fail).
    + destruct r as [|a d]; cbn [snd] in H'; destruct H' as [<-|[]]; cbn in B; injection B as <-; [now left|right; eauto].
    + destruct (returned (lv_cf (wh_udp w)) t) as [[]|]; [destruct (has_unacked _)|..]; cbn [snd] in H'; try (destruct H'; fail).
      destruct H' as [<-|[]]; discriminate B.
    + destruct (returned (lv_cf (wh_udp w)) t) as [[]|]; destruct H'.
    + destruct (lv_queue (wh_udp w)) as [|[msg rel] q]; cbn [snd] in H'; [destruct H'|]. destruct H' as [<-|[]]; discriminate B.
    + destruct (returned (lv_cf (wh_udp w)) t) as [[]|]; destruct H'.
  - destruct H'.
  - destruct H'.
Qed.
Lemma mesh_received es n j b data : mesh_steps (mesh_start es) n -> In (j, WV (VBegun b)) (me_log n) -> bg_call b = CReceive data ->
  data = [] \/ exists x, put_out (of_dispatchers (me_log n)) x data.
Proof.
  intros H. remember (mesh_start es) as n0. induction H as [n|n1 n2 n3 H IH S]; subst; intros I B; [destruct I|].
  destruct S as [i before e w after o done log L M]. cbn [me_log] in *. rewrite of_app. apply in_app_or in I as [I|I].
  - destruct (IH eq_refl I B) as [->|(x & P)]; [now left|right]. exists x. destruct P as (k & K & A). exists k. split; [apply in_or_app; now left|exact A].
  - apply in_map_iff in I as (y & Y & I). injection Y as <- ->.
    destruct (begun_receive w o b data e I B) as [->|(k & a & order & ->)]; [now left|right]. cbn [may_happen] in M.
    destruct M as (x & k' & K & A). exists x, k'. split; [apply in_or_app; now left|exact A].
Qed.

(** ** What is sent says something *)
Lemma instances_key m m' name : key m = key m' -> instances m name = instances m' name.
Proof. unfold key, instances, get_block. intros E. injection E as _ E. now rewrite E. Qed.
Lemma ack_says ta m ids : packet_ack_template ta -> acknowledges m ids -> 1 <= zlen ids -> says_something ta m.
Proof.
  intros (_ & _ & nn & TB) (_ & _ & _ & bl & B & F) L. right. rewrite TB. eexists. split; [now left|]. cbn [tb_name].
  unfold instances, get_block. rewrite B. cbn. destruct F; [cbn in L; lia|discriminate].
Qed.
Lemma says_key t m m' : key m = key m' -> says_something t m' -> says_something t m.
Proof. intros K [H|(tb & I & H)]; [now left|right]. exists tb. rewrite (instances_key _ _ _ K). auto. Qed.
Lemma mesh_says pv ts ta es n past i x d future t : mesh_steps (mesh_start es) n -> same_templates pv ts (map we_env es) -> unambiguous ts -> In ta ts -> packet_ack_template ta ->
  (forall p, In p (me_done n) -> leaves_all (snd p)) -> (forall p, In p (me_done n) -> makes_sound ts (snd p)) ->
  me_log n = past ++ (i, WV (VSeen (Net (Attempted x)))) :: future -> at_data x = Some d -> In t ts -> m_name (at_msg x) = t_name t ->
  says_something t (at_msg x).
Proof.
  intros S ST UN IN PT LA MS EL AD IT NM. pose proof (crowd_tale _ _ (mesh_crowd es n S)) as T.
  pose proof (mesh_saga es n S (silent_out _ _ _ ST) LA) as G.
  destruct (sg_source _ G _ _ _ _ EL) as [A|(past' & b & msg & rel & now & m & _ & _ & _ & MO & K)].
  - assert (w_log (dispatchers n) = of_dispatchers past ++ (i, Net (Attempted x)) :: of_dispatchers future) as L.
    { cbn [dispatchers w_log]. rewrite EL. apply of_cons. }
    destruct (answer_known _ _ _ _ _ _ _ T L A AD) as (p & AK & LP & _ & _).
    assert (t = ta) as ->.
    { apply (nodup_name ts t ta (proj1 UN) IT IN). rewrite <- NM. destruct AK as (-> & _). destruct PT as (-> & _). reflexivity. }
    apply (ack_says ta _ p PT AK). lia.
  - unfold message_of in MO. destruct (nth_error (me_nodes n) i) as [[e w]|] eqn:NI; [|discriminate].
    pose proof (sg_keys _ G _ _ _ NI) as F. rewrite Forall_forall in F.
    specialize (F (key m)). destruct F as [(m0 & I0 & K0)|(a & ids & I0 & K0)]; [unfold keys; apply in_map; eapply nth_error_In; exact MO| |].
    + assert (key (at_msg x) = key m0) as K1 by congruence. apply (says_key _ _ _ K1). apply (proj2 (MS _ I0) t IT).
      unfold key in K1. injection K1 as E _. congruence.
    + destruct (in_split _ _ I0) as (l1 & l2 & EI). destruct (ta_expl _ _ T l1 i (Packing a ids) l2) as (env & _ & _ & SZ); [exact EI|].
      assert (key (at_msg x) = key (ack_message ids)) as K1 by congruence. destruct (ack_message_spec ids) as (A1 & _ & A3).
      assert (t = ta) as ->.
      { apply (nodup_name ts t ta (proj1 UN) IT IN). rewrite <- NM. unfold key in K1. injection K1 as -> _. rewrite A1. destruct PT as (-> & _). reflexivity. }
      apply (says_key _ _ _ K1). destruct PT as (_ & _ & nn & TB). right. rewrite TB. eexists. split; [now left|]. cbn [tb_name].
      unfold instances, get_block. rewrite A3. destruct ids; [cbn in SZ; lia|]. cbn. discriminate.
Qed.

(** ** The schedule of one manager *)
Definition w_sched (e : wenv) (ops : list wop) : list sched := vschedule (we_env e) (we_host e) (w_udp_ops e (w_init e) ops).
Lemma vsched_app env a : forall v b, vsched env v (a ++ b) = vsched env v a ++ vsched env (vrun env v a) b.
Proof. induction a as [|o a IH]; intros v b; [reflexivity|]. cbn [app vsched vrun]. now rewrite IH, app_assoc. Qed.
Lemma vsched_does env w o : vsched env (wh_udp w) (udp_ops w o) = wdoes w o.
Proof. unfold wdoes. destruct o as [| | |h|[[]|]| | |]; cbn [udp_ops vsched]; rewrite ?app_nil_r; reflexivity. Qed.
Lemma sched_in e x ops : forall w, In x (vsched (we_env e) (wh_udp w) (w_udp_ops e w ops)) -> exists o w', In o ops /\ In x (wdoes w' o).
Proof.
  induction ops as [|o ops IH]; intros w H; [destruct H|]. cbn [w_udp_ops] in H. rewrite vsched_app, <- wstep_udp, vsched_does in H.
  apply in_app_or in H as [H|H]; [exists o, w; split; [now left|exact H]|].
  destruct (IH _ H) as (o' & w' & I & K). exists o', w'. split; [now right|exact K].
Qed.
Lemma w_sched_in e x ops : In x (w_sched e ops) -> (exists a, x = Spawn (NewHost a)) \/ exists o w', In o ops /\ In x (wdoes w' o).
Proof.
  unfold w_sched, vschedule. intros H. apply in_app_or in H as [H|H]; [left; destruct H as [<-|[<-|[]]]; eauto|right].
  exact (sched_in e x ops (w_init e) H).
Qed.
Lemma w_sched_quiet e ops : Forall leaves_all ops -> Forall no_setmsg (w_sched e ops).
Proof.
  intros LA. rewrite Forall_forall in *. intros x H. destruct (w_sched_in e x ops H) as [(a & ->)|(o & w' & I & K)]; [discriminate|].
  destruct (wdoes_kinds w' o (LA o I)) as (NS & _). rewrite Forall_forall in NS. exact (NS x K).
Qed.
Lemma w_sched_new e ops m : Forall leaves_all ops -> In (Spawn (NewMsg m)) (w_sched e ops) -> In (WUser (Spawn (NewMsg m))) ops.
Proof.
  intros LA H. destruct (w_sched_in e _ ops H) as [(a & K)|(o & w' & I & K)]; [discriminate|].
  rewrite Forall_forall in LA. destruct (wdoes_kinds w' o (LA o I)) as (_ & NM & _). now rewrite <- (NM m K).
Qed.
Lemma wdoes_resume w o t x : In (Resume t x) (wdoes w o) -> o = WUser (Resume t x).
Proof.
  unfold wdoes. destruct o as [| | |h|[[]|]|k r order| |]; cbn [udp_ops vdoes fst]; try (intros H; cbn in H; intuition (try discriminate); fail).
  - intros [H|[]]. now rewrite H.
  - destruct (nth_error (lv_udp (wh_udp w)) k) as [p|]; [|intros []]. intros H. exfalso.
    destruct p as [| | |t1|t1| |t1|y]; cbn [udp_step fst] in H; try (destruct H; fail).
    + destruct r; cbn in H; intuition discriminate.
    + destruct (returned (lv_cf (wh_udp w)) t1) as [[]|]; [destruct (has_unacked _)|..]; cbn in H; intuition discriminate.
    + destruct (returned (lv_cf (wh_udp w)) t1) as [[]|]; cbn in H; intuition discriminate.
    + destruct (lv_queue (wh_udp w)) as [|[msg rel] q]; cbn in H; intuition discriminate.
    + destruct (returned (lv_cf (wh_udp w)) t1) as [[]|]; cbn in H; intuition discriminate.
Qed.
Lemma w_sched_resume e ops t x : In (Resume t x) (w_sched e ops) -> In (WUser (Resume t x)) ops.
Proof.
  intros H. destruct (w_sched_in e _ ops H) as [(a & K)|(o & w' & I & K)]; [discriminate|]. now rewrite <- (wdoes_resume w' o t x K).
Qed.
(** Messages are printable throughout. *)
Lemma key_printable m m' : key m = key m' -> msg_str_error m = msg_str_error m'.
Proof. unfold key, msg_str_error, data_text. intros E. injection E as -> ->. reflexivity. Qed.
Lemma all_printable env xs r x : Forall no_setmsg xs -> (forall m, In (Spawn (NewMsg m)) xs -> msg_str_error m = None) -> ~ unprintable env xs r x.
Proof.
  intros NS NM (p & q & m & -> & N & P). apply Forall_app in NS as [NS _].
  assert (sane env (idle init_state)) as SN by exact (after_sane env []).
  destruct (crun_keys env p (idle init_state) SN NS) as (new & E & K). fold (after env p) in E. cbn [idle cf_st keys init_state s_msgs map app] in E.
  assert (In (key m) new) as I by (rewrite <- E; unfold keys; apply in_map; exact (nth_error_In _ _ N)).
  destruct (K _ I) as [(m0 & I0 & K0)|(a & ids & _ & K0)]; rewrite (key_printable _ _ K0) in P.
  - rewrite NM in P; [discriminate|]. apply in_or_app. now left.
  - destruct (ack_message_spec ids) as (_ & _ & B). rewrite (ack_printable _ ids B) in P. discriminate.
Qed.
