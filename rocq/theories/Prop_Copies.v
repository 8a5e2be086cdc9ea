(** C98: in a network of managers, whatever reaches a subscriber is a copy of
    something that was sent before. *)
From Verif Require Import SpecNetwork Prop_Network CopiesProofs Prop_RoundTrip.
From Verif Require Export SpecCopies SpecRoundTrip.
From Verif Require Import Lib Samples SpecFloats Prop_Dispatch Prop_Manager.
From Verif Require Import SpecLayout SpecRoundTrip.
Open Scope Z_scope.
Open Scope list_scope.

(** However datagrams are duplicated, reordered, lost, misdirected or given a
    wrong source address: if a subscriber of one of the managers is called with the
    message [w], then some manager had earlier handed to its socket a packet that
    [w] is a copy of. *)
Theorem C98_nothing_but_copies pv ts ta cs n past j ro future s w : net_steps (net_start cs) n -> same_templates pv ts cs ->
  Forall sized ts -> unambiguous ts -> In ta ts -> packet_ack_template ta -> conforming_traffic ts (n_log n) ->
  n_log n = past ++ (j, ERecv ro) :: future -> In (s, w) (r_calls ro) ->
  exists x d t, put_out past x d /\ In t ts /\ m_name (at_msg x) = t_name t /\ message_back t (at_msg x) w.
Proof. exact (nothing_but_copies pv ts ta cs n past j ro future s w). Qed.
Print Assumptions C98_nothing_but_copies.

(** Every id in a PacketAck that a manager sends is the number of a datagram that
    some manager put out before; this needs no assumption about templates or
    messages. *)
Theorem C98_no_false_acks cs n past i o future x p k : net_steps (net_start cs) n -> n_log n = past ++ (i, EAcks o) :: future ->
  In x (o_sends o) -> acknowledges (at_msg x) p -> In k p -> exists y d, put_out past y d /\ sequence_number d = Some k.
Proof. exact (no_false_acks cs n past i o future x p k). Qed.
Print Assumptions C98_no_false_acks.

(** And the ids that subscribers to PacketAck see, if no application sends
    PacketAcks of its own. *)
Theorem C98_acks_seen pv ts ta cs n past j ro future s w b k : net_steps (net_start cs) n -> same_templates pv ts cs ->
  Forall sized ts -> unambiguous ts -> In ta ts -> packet_ack_template ta -> conforming_traffic ts (n_log n) ->
  (forall i msg rel o x, In (i, ESend msg rel o) (n_log n) -> In x (o_sends o) -> m_name (at_msg x) <> "PacketAck"%string) ->
  n_log n = past ++ (j, ERecv ro) :: future -> In (s, w) (r_calls ro) -> m_name w = "PacketAck"%string ->
  In b (instances w "Packets") -> block_getitem b "ID" = Ok (VInt k) ->
  exists y d, put_out past y d /\ sequence_number d = Some k.
Proof. exact (acks_seen pv ts ta cs n past j ro future s w b k). Qed.
Print Assumptions C98_acks_seen.

(** ** A case: the two managers of C60, the first one now subscribed to PacketAck *)
Definition cp_after : list (nat * mop) :=
  [(1, MUser (SetHandler [("Ping"%string, [d_sub])])); (1, MLoop (RData d_a nw_data) [] d_sock);
   (0, mg_quiet); (0, mg_quiet); (0, MUser (SetHandler [("PacketAck"%string, [d_sub])])); (0, MLoop (RData d_b nw_ack) [] d_sock)]%nat.
Definition cp_2 := fold_left net_do cp_after nw_1.
Lemma cp_steps : net_steps nw_start cp_2.
Proof.
  apply (net_trans _ _ _ nw_steps1). apply net_do_steps; [constructor|]. vm_compute. auto 20.
Qed.
Definition cp_cs : list (denv * addr * option eqstate) := [(d_env, d_b, None); (d_env, d_a, Some eq_init)].
Lemma cp_log : exists r0 o1 r1 o2 r2 x1 x2 w1 w2 b,
  n_log cp_2 = [(0%nat, ERecv r0); (0%nat, ESend 0 true o1); (1%nat, ERecv r1); (1%nat, EAcks o2); (0%nat, ERecv r2)] /\
  o_sends o1 = [x1] /\ m_id (at_msg x1) = 1 /\ m_name (at_msg x1) = "Ping"%string /\ m_blocks (at_msg x1) = m_blocks s_msg2 /\
  r_calls r1 = [(d_sub, w1)] /\
  o_sends o2 = [x2] /\ m_id (at_msg x2) = 1 /\ acknowledges (at_msg x2) [1] /\
  r_calls r2 = [(d_sub, w2)] /\ m_name w2 = "PacketAck"%string /\ instances w2 "Packets" = [b] /\ block_getitem b "ID" = Ok (VInt 1).
Proof.
  vm_compute. do 10 eexists. repeat match goal with |- _ /\ _ => split end; try reflexivity.
  eexists. split; [reflexivity|]. repeat constructor.
Qed.
Lemma cp_conforming : conforming_traffic (d_ack :: s_ts) (n_log cp_2).
Proof.
  destruct cp_log as (r0 & o1 & r1 & o2 & r2 & x1 & x2 & w1 & w2 & b & -> & S1 & I1 & N1 & B1 & _ & S2 & I2 & _).
  intros i e x d [H|[H|[H|[H|[H|[]]]]]] X _; injection H as <- <-; cbn [sends_of] in X; try contradiction.
  - rewrite S1 in X. destruct X as [<-|[]]. split; [lia|]. exists s_ping. split; [right; now left|]. split; [exact s_usable|].
    split; [exact N1|]. eapply DeliveryProofs.conforming_blocks; [|exact s_conforming2]. exact B1.
  - rewrite S2 in X. destruct X as [<-|[]]. split; [lia|exact I].
Qed.
Lemma cp_same : same_templates Py27 (d_ack :: s_ts) cp_cs.
Proof. assert (forall P : denv * addr * option eqstate -> Prop, P (d_env, d_b, None) -> P (d_env, d_a, Some eq_init) -> Forall P cp_cs) as F by (intros P A B; repeat constructor; assumption).
  apply F; (split; [exact d_built|reflexivity]). Qed.
(** Both subscribers are called, and the hypotheses of the theorems hold. *)
Example C98_ex : exists past ro future w x d t, n_log cp_2 = past ++ (1%nat, ERecv ro) :: future /\ In (d_sub, w) (r_calls ro) /\
  put_out past x d /\ In t (d_ack :: s_ts) /\ m_name (at_msg x) = t_name t /\ message_back t (at_msg x) w.
Proof.
  destruct cp_log as (r0 & o1 & r1 & o2 & r2 & x1 & x2 & w1 & w2 & b & L & _ & _ & _ & _ & C1 & _).
  exists [(0%nat, ERecv r0); (0%nat, ESend 0 true o1)], r1, [(1%nat, EAcks o2); (0%nat, ERecv r2)], w1.
  assert (In (d_sub, w1) (r_calls r1)) as H by (rewrite C1; now left).
  destruct (C98_nothing_but_copies Py27 (d_ack :: s_ts) d_ack cp_cs cp_2 [(0%nat, ERecv r0); (0%nat, ESend 0 true o1)] 1 r1 [(1%nat, EAcks o2); (0%nat, ERecv r2)] d_sub w1
    cp_steps cp_same d_sized d_unambiguous (or_introl eq_refl) (proj1 C26_decodes_ex) cp_conforming L H) as (x & d & t & Q).
  exists x, d, t. split; [exact L|]. split; [exact H|exact Q].
Qed.
Example C98_acks_ex : exists past o future x y d, n_log cp_2 = past ++ (1%nat, EAcks o) :: future /\ In x (o_sends o) /\
  acknowledges (at_msg x) [1] /\ put_out past y d /\ sequence_number d = Some 1.
Proof.
  destruct cp_log as (r0 & o1 & r1 & o2 & r2 & x1 & x2 & w1 & w2 & b & L & _ & _ & _ & _ & C1 & S2 & _ & A & _).
  assert (In x2 (o_sends o2)) as H by (rewrite S2; now left).
  change (n_log cp_2 = [(0%nat, ERecv r0); (0%nat, ESend 0 true o1); (1%nat, ERecv r1)] ++ (1%nat, EAcks o2) :: [(0%nat, ERecv r2)]) in L.
  destruct (C98_no_false_acks cp_cs cp_2 _ _ _ _ _ _ 1 cp_steps L H A (or_introl eq_refl)) as (y & d & P).
  eexists _, o2, _, x2, y, d. split; [exact L|]. auto.
Qed.
Example C98_acks_seen_ex : exists past ro future w b y d, n_log cp_2 = past ++ (0%nat, ERecv ro) :: future /\ In (d_sub, w) (r_calls ro) /\
  m_name w = "PacketAck"%string /\ In b (instances w "Packets") /\ block_getitem b "ID" = Ok (VInt 1) /\
  put_out past y d /\ sequence_number d = Some 1.
Proof.
  destruct cp_log as (r0 & o1 & r1 & o2 & r2 & x1 & x2 & w1 & w2 & b & L & S1 & _ & N1 & _ & _ & S2 & _ & _ & C2 & MN & IB & GB).
  assert (In (d_sub, w2) (r_calls r2)) as H by (rewrite C2; now left).
  assert (In b (instances w2 "Packets")) as HB by (rewrite IB; now left).
  pose proof L as L'. change (n_log cp_2 = [(0%nat, ERecv r0); (0%nat, ESend 0 true o1); (1%nat, ERecv r1); (1%nat, EAcks o2)] ++ (0%nat, ERecv r2) :: []) in L.
  assert (forall i msg rel o x, In (i, ESend msg rel o) (n_log cp_2) -> In x (o_sends o) -> m_name (at_msg x) <> "PacketAck"%string) as NA.
  { rewrite L'. intros i msg rel o x [Q|[Q|[Q|[Q|[Q|[]]]]]] X; try discriminate. injection Q as <- <- <- <-. rewrite S1 in X. destruct X as [<-|[]]. rewrite N1. discriminate. }
  destruct (C98_acks_seen Py27 (d_ack :: s_ts) d_ack cp_cs cp_2 _ _ _ _ d_sub w2 b 1
    cp_steps cp_same d_sized d_unambiguous (or_introl eq_refl) (proj1 C26_decodes_ex) cp_conforming NA L H MN HB GB) as (y & d & P).
  eexists _, r2, _, w2, b, y, d. split; [exact L|]. auto 10.
Qed.
