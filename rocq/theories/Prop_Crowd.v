(** C103: whatever overlaps in the use of several dispatchers, what they accept from
    each other is a copy of something that was sent. *)
From Verif Require Import CrowdProofs AnnouncedProofs RoundTripProofs Prop_RoundTrip.
From Verif Require Export SpecCrowd SpecRoundTrip.
From Verif Require Import Lib Samples SpecFloats Prop_Dispatch Prop_Network.
From Verif Require Import SpecGreenlets SpecCrowd SpecLayout SpecRoundTrip.
Open Scope Z_scope.
Open Scope list_scope.

(** However the operations of the dispatchers are interleaved and datagrams
    duplicated, reordered, lost, misdirected or given a wrong source address: an
    accepted message [w] is a copy of a packet that somebody had put out before.
    Only the acks that [w] seems to bring can be wrong. *)
Theorem C103_nothing_but_copies pv ts ta envs n past j a w future : crowd_steps (crowd_start envs) n -> same_templates pv ts envs ->
  Forall sized ts -> unambiguous ts -> In ta ts -> packet_ack_template ta -> conforming_use ts (w_log n) ->
  w_log n = past ++ (j, Net (Accepted a w)) :: future ->
  exists x d t, put_out past x d /\ In t ts /\ m_name (at_msg x) = t_name t /\ a_copy t (at_msg x) w /\ acks_from x d (m_acks w).
Proof. exact (crowd_copies pv ts ta envs n past j a w future). Qed.
Print Assumptions C103_nothing_but_copies.
(** Subscribers are called with such messages only. *)
Theorem C103_subscribers pv ts ta envs n past j s w future : crowd_steps (crowd_start envs) n -> same_templates pv ts envs ->
  Forall sized ts -> unambiguous ts -> In ta ts -> packet_ack_template ta -> conforming_use ts (w_log n) ->
  w_log n = past ++ (j, Called s w) :: future ->
  (exists a, In (j, Net (Accepted a w)) past) /\
  exists x d t, put_out past x d /\ In t ts /\ m_name (at_msg x) = t_name t /\ a_copy t (at_msg x) w /\ acks_from x d (m_acks w).
Proof.
  intros S ST SZ UN IN PT CU L. split; [exact (crowd_called pv ts envs n past j s w future S ST L)|].
  exact (crowd_subscribers pv ts ta envs n past j s w future S ST SZ UN IN PT CU L).
Qed.
Print Assumptions C103_subscribers.
(** A packet that announces acks was prepared by a dispatcher that had received a
    datagram from that address and was to acknowledge it. *)
Theorem C103_announced envs n past i x future : crowd_steps (crowd_start envs) n ->
  w_log n = past ++ (i, Net (Attempted x)) :: future -> announces_acks x -> owed_at past i (at_addr x).
Proof. exact (crowd_owed envs n past i x future). Qed.
Print Assumptions C103_announced.
(** Every id that process_acks puts into a PacketAck is the number of a datagram
    that somebody put out before; so is every id that a subscriber to PacketAck
    gets to see, if nobody sends PacketAcks of his own. *)
Theorem C103_no_false_acks envs n past i a ids future k : crowd_steps (crowd_start envs) n ->
  w_log n = past ++ (i, Packing a ids) :: future -> In k ids -> a_number past k.
Proof. exact (crowd_no_false_acks envs n past i a ids future k). Qed.
Print Assumptions C103_no_false_acks.
Theorem C103_acks_seen pv ts ta envs n past j s w future b k : crowd_steps (crowd_start envs) n -> same_templates pv ts envs ->
  Forall sized ts -> unambiguous ts -> In ta ts -> packet_ack_template ta -> conforming_use ts (w_log n) -> only_own_acks (w_log n) ->
  w_log n = past ++ (j, Called s w) :: future -> m_name w = "PacketAck"%string ->
  In b (instances w "Packets") -> block_getitem b "ID" = Ok (VInt k) -> a_number past k.
Proof. exact (crowd_acks_seen pv ts ta envs n past j s w future b k). Qed.
Print Assumptions C103_acks_seen.
(** On the other hand, a packet that announces no acks is accepted by whoever gets
    it, on a circuit that is not trusted, unless his table or his deferred parsing
    excludes the message, or nothing but empty Variable blocks were sent (C07); and
    it will be acknowledged exactly if it was sent reliably. *)
Theorem C103_delivered pv ts ta envs n past i x d future j env cf h a t : crowd_steps (crowd_start envs) n -> same_templates pv ts envs ->
  Forall sized ts -> unambiguous ts -> In ta ts -> packet_ack_template ta -> conforming_use ts (w_log n) ->
  w_log n = past ++ (i, Net (Attempted x)) :: future -> at_data x = Some d -> ~ announces_acks x ->
  In t ts -> m_name (at_msg x) = t_name t ->
  t_blocks t = [] \/ (exists tb, In tb (t_blocks t) /\ instances (at_msg x) (tb_name tb) <> []) ->
  nth_error (w_nodes n) j = Some (env, cf) -> host_address (cf_st cf) h = Some a -> trusted (cf_st cf) a = false ->
  udp_allowed (e_des_xml env) (t_name t) -> is_message_handled (s_handler (cf_st cf)) (t_name t) = true \/ e_deferred env = false ->
  exists w rest, gevents env cf (Spawn (Receive h d (zlen d))) =
      Net (Accepted a w) :: Queued a (if Z.testbit (m_flags (at_msg x)) reliable_bit then [m_id (at_msg x)] else []) :: rest /\
    a_copy t (at_msg x) w /\ m_acks w = [].
Proof. exact (crowd_delivered pv ts ta envs n past i x d future j env cf h a t). Qed.
Print Assumptions C103_delivered.
(** A packet that does announce acks is accepted exactly if, its last byte taken for
    a number of acks, these would leave the number of the message standing;
    otherwise receive_check raises - the packet is lost, and not acknowledged. *)
Theorem C103_fate pv ts ta envs n past i x d future j env cf h a t g l b : crowd_steps (crowd_start envs) n -> same_templates pv ts envs ->
  Forall sized ts -> unambiguous ts -> In ta ts -> packet_ack_template ta -> conforming_use ts (w_log n) ->
  w_log n = past ++ (i, Net (Attempted x)) :: future -> at_data x = Some d -> announces_acks x ->
  In t ts -> m_name (at_msg x) = t_name t -> t_freq t = Some g -> d = l ++ [b] ->
  t_blocks t = [] \/ (exists tb, In tb (t_blocks t) /\ instances (at_msg x) (tb_name tb) <> []) ->
  nth_error (w_nodes n) j = Some (env, cf) -> host_address (cf_st cf) h = Some a -> trusted (cf_st cf) a = false ->
  udp_allowed (e_des_xml env) (t_name t) -> is_message_handled (s_handler (cf_st cf)) (t_name t) = true \/ e_deferred env = false ->
  if 7 + number_width g + 4 * byte_value b <=? zlen d
  then exists w rest, gevents env cf (Spawn (Receive h d (zlen d))) =
      Net (Accepted a w) :: Queued a (if Z.testbit (m_flags (at_msg x)) reliable_bit then [m_id (at_msg x)] else []) :: rest /\
    a_copy t (at_msg x) w /\ acks_from x d (m_acks w)
  else exists e, In e [IndexErr; StructError; MessageDeserializationErr] /\
    gevents env cf (Spawn (Receive h d (zlen d))) = [Queued a []] /\
    cf_pool (fst (cstep env cf (Spawn (Receive h d (zlen d))))) = cf_pool cf ++ [Finished (ORecv {| r_res := Err e; r_calls := [] |})].
Proof. exact (crowd_fate pv ts ta envs n past i x d future j env cf h a t g l b). Qed.
Print Assumptions C103_fate.

(** ** A case *)
(** One step, computed. *)
Definition crowd_do (n : crowd) (io : nat * sched) : crowd :=
  match nth_error (w_nodes n) (fst io) with
  | None => n
  | Some (env, cf) =>
      {| w_nodes := firstn (fst io) (w_nodes n) ++ (env, fst (cstep env cf (snd io))) :: skipn (S (fst io)) (w_nodes n);
         w_log := w_log n ++ map (pair (fst io)) (gevents env cf (snd io)) |}
  end.
Lemma crowd_do_step n io : may (w_log n) (snd io) -> crowd_do n io = n \/ crowd_step n (crowd_do n io).
Proof.
  intros M. unfold crowd_do. destruct (nth_error (w_nodes n) (fst io)) as [[env m]|] eqn:E; [|now left]. right.
  destruct n as [ns l]. cbn [w_nodes w_log] in *. destruct (nth_error_split _ _ E) as (b & a & -> & L).
  rewrite <- L, firstn_app, Nat.sub_diag, firstn_all, firstn_O, app_nil_r.
  replace (skipn (S (List.length b)) (b ++ (env, m) :: a)) with a
    by (rewrite skipn_app, skipn_all2 by lia; replace (S (List.length b) - List.length b)%nat with 1%nat by lia; reflexivity).
  apply (crowd_at (List.length b) b env m a (snd io)); auto.
Qed.
Fixpoint crowd_ok (n : crowd) (ios : list (nat * sched)) : Prop :=
  match ios with [] => True | io :: tl => may (w_log n) (snd io) /\ crowd_ok (crowd_do n io) tl end.
Lemma crowd_do_steps ios : forall n0 n, crowd_steps n0 n -> crowd_ok n ios -> crowd_steps n0 (fold_left crowd_do ios n).
Proof.
  induction ios as [|io ios IH]; intros n0 n S; cbn; [auto|]. intros [M K]. apply IH; [|exact K].
  destruct (crowd_do_step n io M) as [->|N]; [exact S|]. exact (cs_step _ _ _ S N).
Qed.
(** Dispatcher 1 sends three packets reliably; the first arrives at dispatcher 0,
    whose subscriber answers at once with [cw_msg]; then the first packet is
    acknowledged.  Both datagrams arrive at dispatcher 1. *)
Definition cw_msg : message :=
  mk_message "Ping" [Many [mk_block "B" [("X"%string, VInt 1); ("Y"%string, VStr [x00; x00])]]; One (mk_block "A" [("X"%string, VInt 7)])].
Definition cw_first : bytes := [x40; x00; x00; x00; x01; x00; x03; x07; x02; x03; x68; x69; x00; x05; x01; x00; x01].
Definition cw_reply : bytes := [x10; x00; x00; x00; x01; x00; x03; x07; x01; x03; x00; x00; x00; x01].
Definition cw_ack : bytes := [x00; x00; x00; x00; x02; x00; xff; xff; xff; xfb; x01; x01; x00; x00; x00].
Definition cw_sends : list (nat * sched) :=
  [(1, Spawn (NewHost d_a)); (1, Spawn (NewMsg s_msg2)); (1, Spawn (SetHandler [("Ping"%string, [d_sub]); ("PacketAck"%string, [d_sub])]));
   (1, Spawn (Send 0 0 (Reliable 3) d_sock)); (1, Spawn (Send 0 0 (Reliable 3) d_sock)); (1, Spawn (Send 0 0 (Reliable 3) d_sock))]%nat.
Definition cw_rest : list (nat * sched) :=
  [(0, Spawn (NewHost d_b)); (0, Spawn (NewMsg cw_msg)); (0, Spawn (SetHandler [("Ping"%string, [d_sub])]));
   (0, Spawn (Receive 0 cw_first 17)); (0, Spawn (Send 0 0 Plain d_sock));
   (0, Spawn (ProcessAcks [] d_sock)); (0, Resume 5 None);
   (1, Spawn (Receive 0 cw_reply 14)); (1, Spawn (Receive 0 cw_ack 15))]%nat.
Definition cw : crowd := fold_left crowd_do (cw_sends ++ cw_rest) (crowd_start [d_env; d_env]).
Lemma cw_steps : crowd_steps (crowd_start [d_env; d_env]) cw.
Proof.
  apply crowd_do_steps; [constructor|]. vm_compute. repeat (split; [exact I|]).
  split; [right; eexists; exists 1%nat; split; [left; reflexivity|reflexivity]|].
  repeat (split; [exact I|]).
  split; [right; eexists; exists 0%nat; split; [do 6 right; left; reflexivity|reflexivity]|].
  split; [right; eexists; exists 0%nat; split; [do 8 right; left; reflexivity|reflexivity]|]. exact I.
Qed.
Lemma cw_log : exists x1 x2 x3 x4 x5 w1 w2 w3 b,
  w_log cw = [(1, Net (Attempted x1)); (1, Net (Attempted x2)); (1, Net (Attempted x3));
              (0, Net (Accepted d_b w1)); (0, Queued d_b [1%Z]); (0, Called d_sub w1); (0, Net (Attempted x4));
              (0, Packing d_b [1%Z]); (0, Net (Attempted x5));
              (1, Net (Accepted d_a w2)); (1, Queued d_a []); (1, Called d_sub w2);
              (1, Net (Accepted d_a w3)); (1, Queued d_a []); (1, Called d_sub w3)]%nat /\
  Forall (fun x => m_id (at_msg x) < 2 ^ 31) [x1; x2; x3; x4; x5] /\
  Forall (fun x => m_name (at_msg x) = "Ping"%string /\ m_blocks (at_msg x) = m_blocks s_msg2) [x1; x2; x3] /\
  m_name (at_msg x4) = "Ping"%string /\ m_blocks (at_msg x4) = m_blocks cw_msg /\ announces_acks x4 /\
  acknowledges (at_msg x5) [1] /\ m_id w1 = 1 /\ m_acks w1 = [] /\ m_flags w2 = 16 /\ m_acks w2 = [3] /\
  m_name w3 = "PacketAck"%string /\ instances w3 "Packets" = [b] /\ block_getitem b "ID" = Ok (VInt 1) /\
  map (fun p => outstanding (cf_st (snd p)) d_a) (w_nodes cw) = [[]; [1; 2]].
Proof.
  let v := eval vm_compute in (w_log cw) in assert (L : w_log cw = v) by (vm_compute; reflexivity).
  rewrite L. do 9 eexists. split; [reflexivity|].
  split; [repeat constructor|]. split; [repeat constructor|].
  do 3 (split; [reflexivity|]).
  split; [do 3 (split; [reflexivity|]); eexists; split; [reflexivity|]; repeat constructor|].
  do 7 (split; [reflexivity|]). vm_compute. reflexivity.
Qed.
Lemma cw_conforms : conforming s_ping cw_msg.
Proof.
  intros tb [<-|[<-|[]]]; eexists; (split; [reflexivity|]); (split; [cbn; lia|]).
  - intros b v [<-|[]] [<-|[]]; eexists; (split; [reflexivity|]); eapply proper_in_range; try reflexivity. exists 7. split; [constructor|cbn; lia].
  - intros b v [<-|[]] [<-|[<-|[]]]; eexists; (split; [reflexivity|]); eapply proper_in_range; try reflexivity.
    + exists [x00; x00], 1. split; [constructor|]. split; [reflexivity|cbn; lia].
    + exists 1. split; [constructor|cbn; lia].
Qed.
Lemma cw_same : same_templates Py27 (d_ack :: s_ts) [d_env; d_env].
Proof. repeat (apply Forall_cons || apply Forall_nil); (split; [exact d_built|split; reflexivity]). Qed.
(** Conforming depends on the blocks only. *)
Lemma conforming_blocks_only t m m' : m_blocks m = m_blocks m' -> conforming t m' -> conforming t m.
Proof. intros E H tb I. unfold conforming, instances in *. rewrite E. exact (H tb I). Qed.
Lemma cw_use : conforming_use (d_ack :: s_ts) (w_log cw) /\ only_own_acks (w_log cw).
Proof.
  destruct cw_log as (x1 & x2 & x3 & x4 & x5 & w1 & w2 & w3 & b & L & N & P & M4 & B4 & _ & A5 & _). rewrite L. clear L.
  assert (forall past i x future, [(1, Net (Attempted x1)); (1, Net (Attempted x2)); (1, Net (Attempted x3));
              (0, Net (Accepted d_b w1)); (0, Queued d_b [1%Z]); (0, Called d_sub w1); (0, Net (Attempted x4));
              (0, Packing d_b [1%Z]); (0, Net (Attempted x5));
              (1, Net (Accepted d_a w2)); (1, Queued d_a []); (1, Called d_sub w2);
              (1, Net (Accepted d_a w3)); (1, Queued d_a []); (1, Called d_sub w3)]%nat = past ++ (i, Net (Attempted x)) :: future ->
    In x [x1; x2; x3; x4] \/ x = x5 /\ answering past i x) as K.
  { intros past i x future E.
    do 15 (destruct past as [|? past];
      [cbn [app] in E; first [discriminate E | injection E as <- <- <-];
       first [left; cbn [In]; now auto 6 | right; split; [reflexivity|]; exists [(1, Net (Attempted x1)); (1, Net (Attempted x2)); (1, Net (Attempted x3));
              (0, Net (Accepted d_b w1)); (0, Queued d_b [1%Z]); (0, Called d_sub w1); (0, Net (Attempted x4))]%nat, d_b, [1]; split; [reflexivity|exact A5]]|
       cbn [app] in E; injection E as <- E]).
    destruct past; discriminate E. }
  assert (forall x, In x [x1; x2; x3; x4] -> m_name (at_msg x) = "Ping"%string /\ conforming s_ping (at_msg x)) as U.
  { intros x [<-|X].
    2: destruct X as [<-|X]; [|destruct X as [<-|X]; [|destruct X as [<-|[]]]].
    4: { split; [exact M4|]. exact (conforming_blocks_only _ _ _ B4 cw_conforms). }
    all: rewrite Forall_forall in P; match goal with |- m_name (at_msg ?y) = _ /\ _ => destruct (P y) as [PA PB]; [cbn [In]; auto 6|] end; split; [exact PA|exact (conforming_blocks_only _ _ _ PB s_conforming2)]. }
  rewrite Forall_forall in N. split.
  - intros past i x d future E _. destruct (K _ _ _ _ E) as [X|[-> X]].
    + split; [apply N; cbn [In] in *; intuition auto|]. right. exists s_ping. split; [right; now left|]. split; [exact s_usable|].
      exact (U x X).
    + split; [apply N; cbn [In]; auto 8|]. now left.
  - intros past i x d future E _ Q. destruct (K _ _ _ _ E) as [X|[-> X]]; [|exact X].
    destruct (U x X) as [W _]. rewrite W in Q. discriminate.
Qed.
(** Dispatcher 1 is handed a true copy of the answer, and with it an acknowledgement
    of its packet 3, although nobody has received that packet: the answer was
    prepared while an ack was pending, so it announces acks, which are not in it;
    its own last bytes are read as one.  Packet 3 no longer counts as
    outstanding. *)
Example C103_ex : exists past x d t w future, w_log cw = past ++ (1%nat, Net (Accepted d_a w)) :: future /\
  put_out past x d /\ In t (d_ack :: s_ts) /\ m_name (at_msg x) = t_name t /\ a_copy t (at_msg x) w /\ announces_acks x /\ m_acks w = [3] /\
  (forall j a v, In (j, Net (Accepted a v)) past -> m_id v <> 3) /\
  map (fun p => outstanding (cf_st (snd p)) d_a) (w_nodes cw) = [[]; [1; 2]].
Proof.
  destruct cw_log as (x1 & x2 & x3 & x4 & x5 & w1 & w2 & w3 & b & L & N & P & M4 & B4 & F4 & A5 & I1 & _ & F2 & A2 & _ & _ & _ & O).
  pose proof L as L'.
  change (w_log cw = [(1, Net (Attempted x1)); (1, Net (Attempted x2)); (1, Net (Attempted x3));
              (0, Net (Accepted d_b w1)); (0, Queued d_b [1%Z]); (0, Called d_sub w1); (0, Net (Attempted x4));
              (0, Packing d_b [1%Z]); (0, Net (Attempted x5))]%nat ++ (1%nat, Net (Accepted d_a w2)) :: 
              [(1, Queued d_a []); (1, Called d_sub w2);
              (1, Net (Accepted d_a w3)); (1, Queued d_a []); (1, Called d_sub w3)]%nat) in L'.
  destruct (C103_nothing_but_copies Py27 (d_ack :: s_ts) d_ack _ cw _ _ _ _ _
    cw_steps cw_same d_sized d_unambiguous (or_introl eq_refl) (proj1 C26_decodes_ex) (proj1 cw_use) L') as (x & d & t & PO & IT & NT & CP & _).
  eexists _, x, d, t, w2, _. split; [exact L'|]. do 4 (split; [assumption|]).
  split; [unfold announces_acks; destruct CP as (_ & CF & _); cbn [reflagged m_flags] in CF; rewrite <- CF, F2; reflexivity|].
  split; [exact A2|]. split; [|exact O]. intros j a v I.
  do 9 (destruct I as [E|I]; [first [discriminate E | injection E as _ _ <-; rewrite I1; discriminate]|]). destruct I.
Qed.
(** A subscriber sees the PacketAck, and the id in it is a packet's number. *)
Example C103_acks_ex : exists past w future b, w_log cw = past ++ (1%nat, Called d_sub w) :: future /\
  m_name w = "PacketAck"%string /\ In b (instances w "Packets") /\ block_getitem b "ID" = Ok (VInt 1) /\ a_number past 1.
Proof.
  destruct cw_log as (x1 & x2 & x3 & x4 & x5 & w1 & w2 & w3 & b & L & _ & _ & _ & _ & _ & _ & _ & _ & _ & _ & M3 & IB & GB & _).
  change (w_log cw = [(1, Net (Attempted x1)); (1, Net (Attempted x2)); (1, Net (Attempted x3));
              (0, Net (Accepted d_b w1)); (0, Queued d_b [1%Z]); (0, Called d_sub w1); (0, Net (Attempted x4));
              (0, Packing d_b [1%Z]); (0, Net (Attempted x5)); (1, Net (Accepted d_a w2)); (1, Queued d_a []); (1, Called d_sub w2);
              (1, Net (Accepted d_a w3)); (1, Queued d_a [])]%nat ++ (1%nat, Called d_sub w3) :: []) in L.
  assert (In b (instances w3 "Packets")) as HB by (rewrite IB; now left).
  eexists _, w3, _, b. split; [exact L|]. do 3 (split; [assumption|]).
  exact (C103_acks_seen Py27 (d_ack :: s_ts) d_ack _ cw _ _ _ _ _ b 1
    cw_steps cw_same d_sized d_unambiguous (or_introl eq_refl) (proj1 C26_decodes_ex) (proj1 cw_use) (proj2 cw_use) L M3 HB GB).
Qed.
(** The PacketAck announces the number of a packet that was received; and the answer,
    which announced acks, was sent by a dispatcher that owed one. *)
Example C103_owed_ex : exists past x future past' future', w_log cw = past ++ (0%nat, Net (Attempted x)) :: future /\ announces_acks x /\ owed_at past 0 (at_addr x) /\
  w_log cw = past' ++ (0%nat, Packing d_b [1]) :: future' /\ a_number past' 1.
Proof.
  destruct cw_log as (x1 & x2 & x3 & x4 & x5 & w1 & w2 & w3 & b & L & _ & _ & _ & _ & F4 & _).
  pose proof L as L'.
  change (w_log cw = [(1, Net (Attempted x1)); (1, Net (Attempted x2)); (1, Net (Attempted x3));
              (0, Net (Accepted d_b w1)); (0, Queued d_b [1%Z]); (0, Called d_sub w1)]%nat ++ (0%nat, Net (Attempted x4)) :: 
              [(0, Packing d_b [1%Z]); (0, Net (Attempted x5)); (1, Net (Accepted d_a w2)); (1, Queued d_a []); (1, Called d_sub w2);
              (1, Net (Accepted d_a w3)); (1, Queued d_a []); (1, Called d_sub w3)]%nat) in L.
  change (w_log cw = [(1, Net (Attempted x1)); (1, Net (Attempted x2)); (1, Net (Attempted x3));
              (0, Net (Accepted d_b w1)); (0, Queued d_b [1%Z]); (0, Called d_sub w1); (0, Net (Attempted x4))]%nat ++ (0%nat, Packing d_b [1%Z]) ::
              [(0, Net (Attempted x5)); (1, Net (Accepted d_a w2)); (1, Queued d_a []); (1, Called d_sub w2);
              (1, Net (Accepted d_a w3)); (1, Queued d_a []); (1, Called d_sub w3)]%nat) in L'.
  eexists _, x4, _, _, _. split; [exact L|]. split; [exact F4|]. split; [exact (C103_announced _ _ _ _ _ _ cw_steps L F4)|].
  split; [exact L'|]. exact (C103_no_false_acks _ _ _ _ _ _ _ 1 cw_steps L' (or_introl eq_refl)).
Qed.
(** The first packet of dispatcher 1, delivered to dispatcher 0. *)
Definition cw_0 : crowd := fold_left crowd_do (cw_sends ++ firstn 3 cw_rest) (crowd_start [d_env; d_env]).
Lemma cw_0_steps : crowd_steps (crowd_start [d_env; d_env]) cw_0.
Proof. apply crowd_do_steps; [constructor|]. vm_compute. repeat (split; [exact I|]). exact I. Qed.
Lemma cw_0_log : exists rest, w_log cw = w_log cw_0 ++ rest /\
  exists x1 x2 x3, w_log cw_0 = [(1, Net (Attempted x1)); (1, Net (Attempted x2)); (1, Net (Attempted x3))]%nat /\
    at_data x1 = Some cw_first /\ m_flags (at_msg x1) = 2 ^ reliable_bit /\ m_id (at_msg x1) = 1 /\ m_name (at_msg x1) = "Ping"%string /\
    m_blocks (at_msg x1) = m_blocks s_msg2.
Proof.
  let v := eval vm_compute in (w_log cw) in assert (L : w_log cw = v) by (vm_compute; reflexivity).
  let v := eval vm_compute in (w_log cw_0) in assert (L0 : w_log cw_0 = v) by (vm_compute; reflexivity).
  rewrite L, L0. eexists. split; [cbn [app]; reflexivity|]. do 3 eexists. split; [reflexivity|]. repeat split; reflexivity.
Qed.
Lemma conforming_prefix ts l1 l2 : conforming_use ts (l1 ++ l2) -> conforming_use ts l1.
Proof. intros H past i x d future E A. apply (H past i x d (future ++ l2)); [|exact A]. rewrite E, <- app_assoc. reflexivity. Qed.
Definition cw_node : config := match nth_error (w_nodes cw_0) 0 with Some (_, cf) => cf | None => idle init_state end.
Example C103_delivered_ex : exists past x future w rest, w_log cw_0 = past ++ (1%nat, Net (Attempted x)) :: future /\ at_data x = Some cw_first /\
  nth_error (w_nodes cw_0) 0 = Some (d_env, cw_node) /\
  gevents d_env cw_node (Spawn (Receive 0 cw_first 17)) = Net (Accepted d_b w) :: Queued d_b [1] :: rest /\
  a_copy s_ping (at_msg x) w /\ m_acks w = [].
Proof.
  destruct cw_0_log as (fut & EL & x1 & x2 & x3 & L & AD & MF & ID & MN & MB).
  assert (N : nth_error (w_nodes cw_0) 0 = Some (d_env, cw_node)) by (vm_compute; reflexivity).
  pose proof (proj1 cw_use) as CU. rewrite EL in CU. apply conforming_prefix in CU.
  destruct (C103_delivered Py27 (d_ack :: s_ts) d_ack _ cw_0 [] 1 x1 cw_first _ 0 d_env cw_node 0 d_b s_ping
    cw_0_steps cw_same d_sized d_unambiguous (or_introl eq_refl) (proj1 C26_decodes_ex) CU L AD) as (w & rest & G & C & A); auto.
  - unfold announces_acks. rewrite MF. discriminate.
  - right. now left.
  - right. exists s_a. split; [now left|]. unfold instances. rewrite MB. discriminate.
  - exact I.
  - rewrite MF, ID in G. change (zlen cw_first) with 17 in G. exists [], x1. eexists _, w, rest. split; [exact L|]. split; [exact AD|]. split; [exact N|]. split; [exact G|]. auto.
Qed.
(** The answer, delivered once more; and an answer whose last byte is 200. *)
Definition cw_node1 : config := match nth_error (w_nodes cw) 1 with Some (_, cf) => cf | None => idle init_state end.
Example C103_fate_ex : exists past x future w rest, w_log cw = past ++ (0%nat, Net (Attempted x)) :: future /\ at_data x = Some cw_reply /\ announces_acks x /\
  nth_error (w_nodes cw) 1 = Some (d_env, cw_node1) /\
  gevents d_env cw_node1 (Spawn (Receive 0 cw_reply 14)) = Net (Accepted d_a w) :: Queued d_a [] :: rest /\
  a_copy s_ping (at_msg x) w /\ acks_from x cw_reply (m_acks w).
Proof.
  let v := eval vm_compute in (w_log cw) in assert (L : w_log cw = v) by (vm_compute; reflexivity).
  match type of L with _ = ?a :: ?b :: ?c :: ?d :: ?e :: ?f :: (_, Net (Attempted ?x)) :: ?r =>
    change (w_log cw = [a; b; c; d; e; f] ++ (0%nat, Net (Attempted x)) :: r) in L; set (x4 := x) in L; set (past := [a; b; c; d; e; f]) in L; set (rest := r) in L end.
  assert (N : nth_error (w_nodes cw) 1 = Some (d_env, cw_node1)) by (vm_compute; reflexivity).
  assert (AA : announces_acks x4) by reflexivity.
  pose proof (C103_fate Py27 (d_ack :: s_ts) d_ack _ cw past 0 x4 cw_reply rest 1 d_env cw_node1 0 d_a s_ping HIGH (removelast cw_reply) x01
    cw_steps cw_same d_sized d_unambiguous (or_introl eq_refl) (proj1 C26_decodes_ex) (proj1 cw_use) L eq_refl AA (or_intror (or_introl eq_refl)) eq_refl eq_refl eq_refl) as F.
  destruct F as (w & r & G & C & A); [right; exists s_a; split; [now left|discriminate]|exact N|vm_compute; reflexivity|vm_compute; reflexivity|exact I|left; vm_compute; reflexivity|].
  exists past, x4, rest, w, r. split; [exact L|]. split; [reflexivity|]. split; [exact AA|]. split; [exact N|]. split; [exact G|]. auto.
Qed.
Definition cw_msg2 : message :=
  mk_message "Ping" [Many [mk_block "B" [("X"%string, VInt 200); ("Y"%string, VStr [x00; x00])]]; One (mk_block "A" [("X"%string, VInt 7)])].
Definition cw_reply2 : bytes := [x10; x00; x00; x00; x01; x00; x03; x07; x01; x03; x00; x00; x00; xc8].
Definition cx : crowd := fold_left crowd_do (firstn 4 cw_sends ++
  [(0, Spawn (NewHost d_b)); (0, Spawn (NewMsg cw_msg2)); (0, Spawn (SetHandler [("Ping"%string, [d_sub])]));
   (0, Spawn (Receive 0 cw_first 17)); (0, Spawn (Send 0 0 Plain d_sock))]%nat) (crowd_start [d_env; d_env]).
Lemma cx_steps : crowd_steps (crowd_start [d_env; d_env]) cx.
Proof.
  apply crowd_do_steps; [constructor|]. vm_compute. repeat (split; [exact I|]).
  split; [right; eexists; exists 1%nat; split; [left; reflexivity|reflexivity]|].
  repeat (split; [exact I|]). exact I.
Qed.
Lemma cw_conforms2 : conforming s_ping cw_msg2.
Proof.
  intros tb [<-|[<-|[]]]; eexists; (split; [reflexivity|]); (split; [cbn; lia|]).
  - intros b v [<-|[]] [<-|[]]; eexists; (split; [reflexivity|]); eapply proper_in_range; try reflexivity. exists 7. split; [constructor|cbn; lia].
  - intros b v [<-|[]] [<-|[<-|[]]]; eexists; (split; [reflexivity|]); eapply proper_in_range; try reflexivity.
    + exists [x00; x00], 1. split; [constructor|]. split; [reflexivity|cbn; lia].
    + exists 200. split; [constructor|cbn; lia].
Qed.
Definition cx_node1 : config := match nth_error (w_nodes cx) 1 with Some (_, cf) => cf | None => idle init_state end.
Example C103_lost_ex : exists past x future e, w_log cx = past ++ (0%nat, Net (Attempted x)) :: future /\ at_data x = Some cw_reply2 /\ announces_acks x /\
  conforming s_ping (at_msg x) /\ nth_error (w_nodes cx) 1 = Some (d_env, cx_node1) /\ In e [IndexErr; StructError; MessageDeserializationErr] /\
  gevents d_env cx_node1 (Spawn (Receive 0 cw_reply2 14)) = [Queued d_a []] /\
  cf_pool (fst (cstep d_env cx_node1 (Spawn (Receive 0 cw_reply2 14)))) = cf_pool cx_node1 ++ [Finished (ORecv {| r_res := Err e; r_calls := [] |})].
Proof.
  let v := eval vm_compute in (w_log cx) in assert (L : w_log cx = v) by (vm_compute; reflexivity).
  match type of L with _ = [(_, Net (Attempted ?x)); ?b; ?c; ?d; (_, Net (Attempted ?y))] =>
    set (x1 := x) in L; set (x4 := y) in L; set (bb := b) in L; set (cc := c) in L; set (dd := d) in L end.
  assert (C1 : conforming s_ping (at_msg x1)) by (apply (conforming_blocks_only _ _ s_msg2); [reflexivity|exact s_conforming2]).
  assert (C4 : conforming s_ping (at_msg x4)) by (apply (conforming_blocks_only _ _ cw_msg2); [reflexivity|exact cw_conforms2]).
  assert (CU : conforming_use (d_ack :: s_ts) (w_log cx)).
  { assert (forall past i x future, w_log cx = past ++ (i, Net (Attempted x)) :: future -> x = x1 \/ x = x4) as K.
    { rewrite L. intros past i x future E. apply (f_equal (In (i, Net (Attempted x)))) in E.
      assert (In (i, Net (Attempted x)) (past ++ (i, Net (Attempted x)) :: future)) as X by (apply in_or_app; right; now left).
      rewrite <- E in X. destruct X as [X|[X|[X|[X|[X|[]]]]]]; try discriminate X; injection X as _ <-; auto. }
    intros past i x d future E AD. destruct (K _ _ _ _ E) as [-> | ->]; (split; [reflexivity|]); right; exists s_ping;
      (split; [right; now left|split; [exact s_usable|split; [reflexivity|assumption]]]). }
  assert (N : nth_error (w_nodes cx) 1 = Some (d_env, cx_node1)) by (vm_compute; reflexivity).
  assert (AA : announces_acks x4) by reflexivity.
  pose proof (C103_fate Py27 (d_ack :: s_ts) d_ack _ cx [(1%nat, Net (Attempted x1)); bb; cc; dd] 0 x4 cw_reply2 [] 1 d_env cx_node1 0 d_a s_ping HIGH (removelast cw_reply2) xc8
    cx_steps cw_same d_sized d_unambiguous (or_introl eq_refl) (proj1 C26_decodes_ex) CU L eq_refl AA (or_intror (or_introl eq_refl)) eq_refl eq_refl eq_refl) as F.
  destruct F as (e & IE & G & P); [right; exists s_a; split; [now left|discriminate]|exact N|vm_compute; reflexivity|vm_compute; reflexivity|exact I|left; vm_compute; reflexivity|].
  exists [(1%nat, Net (Attempted x1)); bb; cc; dd], x4, [], e. split; [exact L|]. split; [reflexivity|]. split; [exact AA|]. split; [exact C4|].
  split; [exact N|]. split; [exact IE|]. split; [exact G|exact P].
Qed.
