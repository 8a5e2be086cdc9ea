(** From one manager to another: C62. *)
From Verif Require Import Lib SpecMessages MessageProofs SpecNetwork EventsProofs LayoutProofs PacketProofs PacketMore PacketForms PacketRules DispatchProofs DispatchMore ManagerProofs NetworkProofs.
From Verif Require Import SpecFloats CodecProofs SpecRoundTrip RoundTripProofs.
From Verif Require Import SpecLayout SpecRoundTrip.
Open Scope Z_scope.

Lemma instances_blocks m m' name : m_blocks m' = m_blocks m -> instances m' name = instances m name.
Proof. intros E. unfold instances. now rewrite E. Qed.
Lemma conforming_blocks t m m' : m_blocks m' = m_blocks m -> conforming t m -> conforming t m'.
Proof. intros E C tb I. rewrite E. exact (C tb I). Qed.

Lemma sent_header env st msg h md sock st' o x : reachable env st -> send_message env st msg h md sock = (st', o) -> In x (o_sends o) ->
  pending_acks st (at_addr x) = [] ->
  m_flags (at_msg x) = flags_of md /\ 1 <= m_id (at_msg x) /\ host_ok (at_addr x) = true /\
  at_data x = fst (put_on_wire env (at_msg x) (at_addr x) sock).
Proof.
  intros R E X P. destruct (reachable_good _ _ R) as [I V]. destruct (send_total env st msg h) as [T|(a & m & NH & NM & HO & OE)].
  - destruct (send_nothing env st msg h md sock T) as (o' & E' & S & _). rewrite E' in E. injection E as _ <-. rewrite S in X. contradiction.
  - destruct (send_detail env st msg h md sock a m I NH NM HO OE)
      as (st2 & y & c' & E' & AA & AD & MN & MB & ID & FL & AC & _).
    rewrite E' in E. injection E as _ <-. cbn in X. destruct X as [<-|[]]. rewrite AA in P.
    assert (piggyback (cur st h a) m = false) as PB by (unfold piggyback; rewrite <- (pending_cur st h a), P; reflexivity).
    rewrite PB, Z.lor_0_r, flags_mode in FL. split; [exact FL|]. split; [|split; [now rewrite AA|now rewrite AD, AA]].
    rewrite ID. pose proof (ok_last _ (cur_ok st h a I)). lia.
Qed.

Lemma deliver env1 m1 r order sock m1' msg rel o x w
  env2 m2 src pv' ts t :
  m_reachable env1 m1 -> mstep env1 m1 (MLoop r order sock) = (m1', [ESend msg rel o]) -> In x (o_sends o) ->
  nth_error (s_msgs (mm_disp m1)) msg = Some w ->
  m_id (at_msg x) < 2 ^ 31 -> pending_acks (mm_disp m1) (at_addr x) = [] -> (forall d, sock (at_addr x) d = None) ->
  build_dict pv' ts = Ok (e_ser_dict env1) -> e_des_dict env2 = e_ser_dict env1 -> Forall sized ts -> unambiguous ts -> In t ts -> usable t ->
  m_name w = t_name t -> conforming t w ->
  t_blocks t = [] \/ (exists tb, In tb (t_blocks t) /\ instances w (tb_name tb) <> []) ->
  udp_allowed (e_ser_xml env1) (t_name t) -> udp_allowed (e_des_xml env2) (t_name t) ->
  m_reachable env2 m2 -> mm_pc m2 = PRecv -> e_handle env2 = true -> is_message_handled (s_handler (mm_disp m2)) (t_name t) = true ->
  trusted (mm_disp m2) src = false ->
  exists d w', at_data x = Some d /\ message_back t (at_msg x) w' /\
    acks_due env2 (mm_disp m2) src d = (if rel then [m_id (at_msg x)] else []) /\
    forall order2 sock2, exists m2' ro acks, mstep env2 m2 (MLoop (RData src d) order2 sock2) = (m2', ERecv ro :: acks) /\
      r_calls ro = map (fun s => (s, w')) (fst (handle (e_cb env2) (s_handler (mm_disp m2)) w')) /\
      r_res ro = match snd (handle (e_cb env2) (s_handler (mm_disp m2)) w') with Some e => Err e | None => Ok (Some w') end.
Proof.
  intros R1 E1 X NW ID PN SK BD ED SZ UN IN US NM CF NE A1 A2 R2 PC HD HH TR.
  destruct (step_send env1 m1 (MLoop r order sock) msg rel o) as (r' & order' & sock' & m'' & EO & PD & EM & QU & SM).
  { rewrite E1. now left. }
  injection EO as <- <- <-. rewrite E1 in EM. injection EM as <-.
  destruct (sends_reliably _ _ _ _ _ _ _ _ x (m_reachable_disp _ _ R1) SM X) as (SR & HA & w0 & NW0 & MN & MB).
  rewrite NW in NW0. injection NW0 as <-.
  destruct (sent_header _ _ _ _ _ _ _ _ x (m_reachable_disp _ _ R1) SM X PN) as (FL & I1 & HO & AD).
  set (c := deser_conf env2 (mm_disp m2)).
  assert (exists d w', serialize (e_pv env1) (dc_dict c) (e_ser_xml env1) (at_msg x) = Ok (Some d) /\ deserialize c d = Ok (Some w') /\ message_back t (at_msg x) w') as (d & w' & S & D & B).
  { apply (round_trip pv' (e_pv env1) ts c (e_ser_xml env1) (at_msg x) t (is_message_handled (s_handler (mm_disp m2)))); auto.
    - cbn. now rewrite ED.
    - congruence.
    - eapply conforming_blocks; eauto.
    - split; [rewrite FL; destruct rel; cbn; lia|]. split; [rewrite FL; destruct rel; reflexivity|]. split; [rewrite FL; destruct rel; reflexivity|].
      split; [lia|]. right. unfold fits. cbn. lia.
    - destruct NE as [NE|(tb & N1 & N2)]; [now left|right]. exists tb. split; [exact N1|]. now rewrite (instances_blocks w). }
  cbn [dc_dict c deser_conf] in S. rewrite ED in S.
  assert (at_data x = Some d) as DD by (rewrite AD; unfold put_on_wire; rewrite S, SK; reflexivity).
  exists d, w'. split; [exact DD|]. split; [exact B|]. split.
  { unfold acks_due. fold c. rewrite D, TR. destruct B as (_ & _ & BI & _ & _ & BR & _). rewrite BR, BI.
    unfold sent_reliably in SR. rewrite SR. now destruct rel. }
  assert (d <> []) as ND.
  { intros ->. destruct (deserialize_header _ _ _ D) as (_ & _ & _ & f & tl & Q & _). discriminate. }
  intros order2 sock2. destruct (mstep env2 m2 (MLoop (RData src d) order2 sock2)) as [m2' es] eqn:E2.
  destruct (loop_received env2 m2 src d order2 sock2 m2' es R2 PC ND E2) as (dd & d1 & ro & RD & HAd & SHd & SC & RC & _ & HDs).
  destruct es as [|e0 acks]; [discriminate|]. injection HDs as ->. exists m2', ro, acks. split; [reflexivity|].
  assert (deser_conf env2 dd = c) as DC by (unfold c, deser_conf; now rewrite SHd).
  assert (trusted dd src = false) as TD.
  { unfold trusted, circuit_of in *. now rewrite SC. }
  assert (0 < zlen d) as SZ'. { destruct d as [|b0 d']; [congruence|]. rewrite zlen_cons. pose proof (zlen_nonneg d'). lia. }
  rewrite <- DC in D.
  pose proof (receive_outcome env2 1 d (zlen d) src dd w' RD HAd SZ' D TD HD) as RO. rewrite RC in RO. cbn [snd] in RO.
  rewrite RO, SHd. cbn. split; reflexivity.
Qed.
