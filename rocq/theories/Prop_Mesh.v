(** C104: managers on a network.  Vocabulary: SpecMesh.v (with SpecWhole.v, SpecCrowd.v). *)
From Verif Require Import MeshFinal MeshMore MeshSource MeshSaga MeshHosts MeshProofs.
From Verif Require Export SpecMesh.
From Verif Require Import Lib Samples SpecFloats RoundTripProofs Prop_RoundTrip Prop_Dispatch Prop_Network Prop_Crowd.
From Verif Require Import SpecGreenlets SpecCrowd SpecLayout SpecRoundTrip SpecMesh.
Open Scope Z_scope.
Open Scope list_scope.

(** Each manager is one as in C91-C94 and C100: whatever happens on the network, its
    part of what happened is the life of a single manager. *)
Theorem C104_each es n i e w : mesh_steps (mesh_start es) n -> nth_error (me_nodes n) i = Some (e, w) ->
  nth_error es i = Some e /\ w = wafter e (of_manager i (me_done n)) /\ of_manager i (me_log n) = wlife e (of_manager i (me_done n)).
Proof.
  intros S N. destruct (mesh_each es n S) as [E K]. split; [|exact (K i e w N)].
  rewrite <- E, nth_error_map, N. reflexivity.
Qed.
Print Assumptions C104_each.
(** And their dispatchers are dispatchers as in C103. *)
Theorem C104_dispatchers es n : mesh_steps (mesh_start es) n -> exists c, crowd_steps (crowd_start (map we_env es)) c /\
  w_log c = of_dispatchers (me_log n) /\ w_nodes c = map (fun p => (we_env (fst p), lv_cf (wh_udp (snd p)))) (me_nodes n).
Proof. intros S. exists (dispatchers n). split; [exact (mesh_crowd es n S)|]. split; reflexivity. Qed.
Print Assumptions C104_dispatchers.
(** From end to end: a subscriber of the manager [j] is called with a message only
    while subscribed to messages of that name; the message is a copy of a packet put
    out before - by whichever manager -, which is either the acknowledgement of
    datagrams put out before, or has the name and the blocks of a Message enqueued
    before. *)
Theorem C104_end_to_end pv ts ta es n past j s y future : mesh_steps (mesh_start es) n -> shares pv ts ta es -> well_used ts n ->
  me_log n = past ++ (j, WV (VSeen (Called s y))) :: future ->
  In s (subscribed_to (m_name y) (of_manager j past)) /\
  exists x d t, put_out (of_dispatchers past) x d /\ In t ts /\ m_name (at_msg x) = t_name t /\ a_copy t (at_msg x) y /\ acks_from x d (m_acks y) /\
    ((exists ids, acknowledges (at_msg x) ids /\ Forall (a_number (of_dispatchers past)) ids) \/ enqueued_message n past (at_msg x)).
Proof. intros S (ST & SZ & UN & IN & PT) [D FP]. exact (mesh_called pv ts ta es n past j s y future S ST SZ UN IN PT D FP). Qed.
Print Assumptions C104_end_to_end.
(** What a manager puts on the network is the PacketAck its process_acks has just
    packed, or the Message with which its coroutine has just called send_message,
    which was enqueued before. *)
Theorem C104_source pv ts ta es n past i x future : mesh_steps (mesh_start es) n -> shares pv ts ta es ->
  (forall p, In p (me_done n) -> leaves_all (snd p)) -> me_log n = past ++ (i, WV (VSeen (Net (Attempted x)))) :: future ->
  (exists p a ids, of_dispatchers past = p ++ [(i, Packing a ids)] /\ acknowledges (at_msg x) ids) \/
  (exists past' b msg rel now m, past = past' ++ [(i, WV (VBegun b))] /\ bg_call b = CSend msg rel /\
     In (i, WV (VEnqueued msg rel now)) past' /\ message_of n i msg = Some m /\ m_name (at_msg x) = m_name m /\ m_blocks (at_msg x) = m_blocks m).
Proof. intros S (ST & _) LA L. exact (mesh_source es n past i x future S (silent_out _ _ _ ST) LA L). Qed.
Print Assumptions C104_source.
(** Only what was put out is acknowledged; and a subscriber to PacketAck sees no
    other ids, if nobody enqueues PacketAcks of his own. *)
Theorem C104_no_false_acks es n past i a ids future k : mesh_steps (mesh_start es) n ->
  me_log n = past ++ (i, WV (VSeen (Packing a ids))) :: future -> In k ids -> a_number (of_dispatchers past) k.
Proof. exact (mesh_no_false_acks es n past i a ids future k). Qed.
Print Assumptions C104_no_false_acks.
Theorem C104_acks_seen pv ts ta es n past j s y future b k : mesh_steps (mesh_start es) n -> shares pv ts ta es -> well_used ts n -> enqueues_no_acks n ->
  me_log n = past ++ (j, WV (VSeen (Called s y))) :: future -> m_name y = "PacketAck"%string ->
  In b (instances y "Packets") -> block_getitem b "ID" = Ok (VInt k) -> a_number (of_dispatchers past) k.
Proof. exact (mesh_acks_seen pv ts ta es n past j s y future b k). Qed.
Print Assumptions C104_acks_seen.
(** A datagram that was put out and comes out of recvfrom, its packet announcing no
    acks: the coroutine calls receive_check with it, which accepts a copy of the
    packet - unless the table, deferred parsing, a trusted circuit or empty Variable
    blocks stand in the way (C07) - and queues its number to be acknowledged exactly
    if it was sent reliably. *)
Theorem C104_delivered pv ts ta es n past i x d future j e w k a order t : mesh_steps (mesh_start es) n -> shares pv ts ta es -> well_used ts n ->
  me_log n = past ++ (i, WV (VSeen (Net (Attempted x)))) :: future -> at_data x = Some d -> ~ announces_acks x ->
  In t ts -> m_name (at_msg x) = t_name t -> t_blocks t = [] \/ (exists tb, In tb (t_blocks t) /\ instances (at_msg x) (tb_name tb) <> []) ->
  nth_error (me_nodes n) j = Some (e, w) -> in_recvfrom w k -> lets_in e w a t ->
  exists y rest, wobserved e w (WUdp k (RData a d) order) =
      WV (VBegun (reads w k d)) :: WV (VSeen (Net (Accepted a y))) ::
      WV (VSeen (Queued a (if Z.testbit (m_flags (at_msg x)) reliable_bit then [m_id (at_msg x)] else []))) :: rest /\
    a_copy t (at_msg x) y /\ m_acks y = [].
Proof. exact (mesh_arrives pv ts ta es n past i x d future j e w k a order t). Qed.
Print Assumptions C104_delivered.
(** A packet that announces acks - its sender owed some to that address - is accepted
    only if its last byte, taken for a number of acks, is small enough; otherwise it
    is lost, and the coroutine that received it ends: from then on that coroutine
    neither receives, acknowledges nor sends anything, whatever follows. *)
Theorem C104_owed es n past i x future : mesh_steps (mesh_start es) n ->
  me_log n = past ++ (i, WV (VSeen (Net (Attempted x)))) :: future -> announces_acks x -> owed_at (of_dispatchers past) i (at_addr x).
Proof. exact (mesh_owed es n past i x future). Qed.
Print Assumptions C104_owed.
Theorem C104_fate pv ts ta es n past i x d future j e w k a order t g l b : mesh_steps (mesh_start es) n -> shares pv ts ta es -> well_used ts n ->
  me_log n = past ++ (i, WV (VSeen (Net (Attempted x)))) :: future -> at_data x = Some d -> announces_acks x ->
  In t ts -> m_name (at_msg x) = t_name t -> t_freq t = Some g -> d = l ++ [b] ->
  t_blocks t = [] \/ (exists tb, In tb (t_blocks t) /\ instances (at_msg x) (tb_name tb) <> []) ->
  nth_error (me_nodes n) j = Some (e, w) -> in_recvfrom w k -> lets_in e w a t ->
  if 7 + number_width g + 4 * byte_value b <=? zlen d
  then exists y rest, wobserved e w (WUdp k (RData a d) order) =
      WV (VBegun (reads w k d)) :: WV (VSeen (Net (Accepted a y))) ::
      WV (VSeen (Queued a (if Z.testbit (m_flags (at_msg x)) reliable_bit then [m_id (at_msg x)] else []))) :: rest /\
    a_copy t (at_msg x) y /\ acks_from x d (m_acks y)
  else wobserved e w (WUdp k (RData a d) order) = [WV (VBegun (reads w k d)); WV (VSeen (Queued a []))] /\
    exists err, In err [IndexErr; StructError; MessageDeserializationErr] /\ forall r order' ops,
      nth_error (lv_udp (wh_udp (wrun e w (WUdp k (RData a d) order :: WUdp k r order' :: ops)))) k = Some (VEnd (Some err)).
Proof. exact (mesh_fate pv ts ta es n past i x d future j e w k a order t g l b). Qed.
Print Assumptions C104_fate.

(** ** A case *)
(** One step, computed. *)
Definition mesh_do (n : mesh) (io : nat * wop) : mesh :=
  match nth_error (me_nodes n) (fst io) with
  | None => n
  | Some (e, w) =>
      {| me_nodes := firstn (fst io) (me_nodes n) ++ (e, wstep e w (snd io)) :: skipn (S (fst io)) (me_nodes n);
         me_done := me_done n ++ [io]; me_log := me_log n ++ map (pair (fst io)) (wobserved e w (snd io)) |}
  end.
Lemma mesh_do_step n io : may_happen (me_log n) (snd io) -> mesh_do n io = n \/ mesh_step n (mesh_do n io).
Proof.
  intros M. unfold mesh_do. destruct (nth_error (me_nodes n) (fst io)) as [[e w]|] eqn:E; [|now left]. right.
  destruct n as [ns dn l], io as [i o]. cbn [me_nodes me_log me_done fst snd] in *. destruct (nth_error_split _ _ E) as (b & a & -> & <-).
  rewrite firstn_app, Nat.sub_diag, firstn_all, firstn_O, app_nil_r.
  replace (skipn (S (List.length b)) (b ++ (e, w) :: a)) with a
    by (rewrite skipn_app, skipn_all2 by lia; replace (S (List.length b) - List.length b)%nat with 1%nat by lia; reflexivity).
  apply (mesh_at (List.length b) b e w a o); auto.
Qed.
Fixpoint mesh_ok (n : mesh) (ios : list (nat * wop)) : Prop :=
  match ios with [] => True | io :: tl => may_happen (me_log n) (snd io) /\ mesh_ok (mesh_do n io) tl end.
Lemma mesh_do_steps ios : forall n0 n, mesh_steps n0 n -> mesh_ok n ios -> mesh_steps n0 (fold_left mesh_do ios n).
Proof.
  induction ios as [|io ios IH]; intros n0 n S; cbn; [auto|]. intros [M K]. apply IH; [|exact K].
  destruct (mesh_do_step n io M) as [->|N]; [exact S|]. exact (ms_step _ _ _ S N).
Qed.
(** Manager 1 enqueues a Ping for manager 0, whose subscriber gets it; the
    acknowledgement arrives at manager 1. *)
Definition mx_es : list wenv := [{| we_env := d_env; we_host := d_b; we_queue := None |}; {| we_env := d_env; we_host := d_a; we_queue := None |}].
Definition mx_go (i : nat) : nat * wop := (i, WUdp 0 RFail []).
Definition mx_sends : list (nat * wop) :=
  [(1, WUser (Spawn (NewMsg s_msg2))); (1, WHandler (HSubscribe "PacketAck" d_sub)); (1, WEnqueue 0 true false); (1, WStart)]%nat ++ repeat (mx_go 1) 6 ++
  [(0, WHandler (HSubscribe "Ping" d_sub)); (0, WStart)]%nat ++ repeat (mx_go 0) 2.
Definition mx_in0 : nat * wop := (0%nat, WUdp 0 (RData d_b cw_first) []).
Definition mx_resume (i t : nat) : nat * wop := (i, WUser (Resume t None)).
Definition mx_ack : bytes := [x00; x00; x00; x00; x01; x00; xff; xff; xff; xfb; x01; x01; x00; x00; x00].
Definition mx_in1 : nat * wop := (1%nat, WUdp 0 (RData d_a mx_ack) []).
Definition mx_rest : list (nat * wop) :=
  [mx_in0; mx_resume 0 4; mx_go 0] ++ repeat (mx_resume 0 5) 4 ++ [mx_resume 1 5] ++ repeat (mx_go 0) 3 ++ repeat (mx_go 1) 3 ++ [mx_in1].
Definition mx_0 := fold_left mesh_do mx_sends (mesh_start mx_es).
Definition mx := fold_left mesh_do (mx_sends ++ mx_rest) (mesh_start mx_es).
Lemma mx_log : exists b1 b2 b3 b4 b5 x1 x2 w1 w2 b,
  me_log mx = [(1, WUsed (HSubscribe "PacketAck" d_sub)); (1, WV (VEnqueued 0 true false)); (1, WV VStarted);
               (1, WV (VBegun b1)); (1, WV (VBegun b2)); (1, WV (VSeen (Net (Attempted x1))));
               (0, WUsed (HSubscribe "Ping" d_sub)); (0, WV VStarted); (0, WV (VBegun b3));
               (0, WV (VSeen (Net (Accepted d_b w1)))); (0, WV (VSeen (Queued d_b [1%Z]))); (0, WV (VSeen (Called d_sub w1)));
               (0, WV (VBegun b4)); (0, WV (VSeen (Packing d_b [1%Z]))); (0, WV (VSeen (Net (Attempted x2)))); (0, WV (VSeen (Emptied d_b)));
               (1, WV (VBegun b5)); (1, WV (VSeen (Net (Accepted d_a w2)))); (1, WV (VSeen (Queued d_a []))); (1, WV (VSeen (Called d_sub w2)))]%nat /\
  bg_call b2 = CSend 0 true /\ at_data x1 = Some cw_first /\ m_name (at_msg x1) = "Ping"%string /\ m_blocks (at_msg x1) = m_blocks s_msg2 /\
  m_flags (at_msg x1) = 2 ^ reliable_bit /\ m_id (at_msg x1) = 1 /\ at_data x2 = Some mx_ack /\
  m_name w1 = "Ping"%string /\ m_name w2 = "PacketAck"%string /\ instances w2 "Packets" = [b] /\ block_getitem b "ID" = Ok (VInt 1).
Proof.
  let v := eval vm_compute in (me_log mx) in assert (L : me_log mx = v) by (vm_compute; reflexivity).
  rewrite L. do 10 eexists. split; [reflexivity|]. repeat (split; [reflexivity|]). reflexivity.
Qed.

Lemma mx_steps : mesh_steps (mesh_start mx_es) mx.
Proof.
  apply mesh_do_steps; [constructor|]. unfold mx_sends, mx_rest. cbn [app repeat].
  vm_compute. repeat (split; [exact I|]).
  split; [eexists; exists 1%nat; split; [left; reflexivity|reflexivity]|]. 
  repeat (split; [exact I|]).
  split; [eexists; exists 0%nat; split; [do 5 right; left; reflexivity|reflexivity]|]. exact I.
Qed.
Lemma mx_shares : shares Py27 (d_ack :: s_ts) d_ack mx_es.
Proof.
  split; [exact cw_same|]. split; [exact d_sized|]. split; [exact d_unambiguous|]. split; [now left|exact (proj1 C26_decodes_ex)].
Qed.
(** Checks for the conditions on the users and on the numbers of packets. *)
Definition plain_op (o : wop) : bool := match o with WUser (Spawn _) => false | _ => true end.
Definition few_check (p : nat * wobs) : bool := match snd p with WV (VSeen (Net (Attempted x))) => m_id (at_msg x) <? 2 ^ 31 | _ => true end.
Lemma well_used_check ts n : Forall (fun p => plain_op (snd p) = true \/ exists m, snd p = WUser (Spawn (NewMsg m)) /\ exists t, In t ts /\ usable t /\ m_name m = t_name t /\ conforming t m) (me_done n) ->
  forallb few_check (me_log n) = true -> well_used ts n.
Proof.
  intros F B. split.
  - intros p J. rewrite Forall_forall in F. destruct (F p J) as [H|(m & -> & H)]; [|split; [exact I|exact H]].
    destruct (snd p) as [| | | |[]| | |]; try discriminate; split; exact I.
  - intros i x J. rewrite forallb_forall in B. apply B in J. cbn in J. lia.
Qed.
Lemma mx_well_used : well_used (d_ack :: s_ts) mx.
Proof.
  apply well_used_check; [|vm_compute; reflexivity].
  assert (me_done mx = mx_sends ++ mx_rest) as -> by (vm_compute; reflexivity).
  unfold mx_sends, mx_rest. cbn [app repeat]. repeat apply Forall_cons; try (left; reflexivity).
  right. exists s_msg2. split; [reflexivity|]. exists s_ping. split; [right; now left|]. split; [exact s_usable|]. split; [reflexivity|exact s_conforming2].
Qed.
Definition enq_check (n : mesh) (p : nat * wobs) : bool :=
  match snd p with
  | WV (VEnqueued msg _ _) => match message_of n (fst p) msg with Some m => negb (String.eqb (m_name m) "PacketAck") | None => true end
  | _ => true
  end.
Lemma no_acks_check n : forallb (enq_check n) (me_log n) = true -> enqueues_no_acks n.
Proof.
  intros B i msg rel now m J E Q. rewrite forallb_forall in B. apply B in J. cbn in J. rewrite E, Q in J. discriminate.
Qed.
Lemma mx_no_acks : enqueues_no_acks mx.
Proof. apply no_acks_check. vm_compute. reflexivity. Qed.
(** What the two subscribers of [mx] get: a copy of the Ping that was enqueued, and
    an acknowledgement, with the number of the datagram with the Ping. *)
Example C104_end_to_end_ex : exists past s y future past' y' future' b,
  me_log mx = past ++ (0%nat, WV (VSeen (Called s y))) :: future /\ m_name y = "Ping"%string /\ In s (subscribed_to "Ping" (of_manager 0 past)) /\
  (exists x d, put_out (of_dispatchers past) x d /\ a_copy s_ping (at_msg x) y /\ enqueued_message mx past (at_msg x)) /\
  me_log mx = past' ++ (1%nat, WV (VSeen (Called s y'))) :: future' /\ m_name y' = "PacketAck"%string /\
  (exists x d ids, put_out (of_dispatchers past') x d /\ a_copy d_ack (at_msg x) y' /\ acknowledges (at_msg x) ids) /\
  In b (instances y' "Packets") /\ block_getitem b "ID" = Ok (VInt 1) /\ a_number (of_dispatchers past') 1.
Proof.
  destruct mx_log as (b1 & b2 & b3 & b4 & b5 & x1 & x2 & w1 & w2 & b & L & B2 & AD & N1 & MB & _ & _ & AD2 & M1 & M2 & IB & GB).
  assert (forall t, In t (d_ack :: s_ts) -> "Ping"%string = t_name t -> t = s_ping) as TP.
  { intros t [<-|[<-|[<-|T]]] E; try discriminate E; try reflexivity; cbn in T; intuition (subst; discriminate E). }
  assert (forall t, In t (d_ack :: s_ts) -> "PacketAck"%string = t_name t -> t = d_ack) as TA.
  { intros t [<-|[<-|[<-|T]]] E; try discriminate E; try reflexivity; cbn in T; intuition (subst; discriminate E). }
  pose proof L as L1. pose proof L as L2.
  change (?a :: ?b :: ?c :: ?d :: ?e :: ?f :: ?g :: ?h :: ?i :: ?j :: ?k :: ?l :: ?r) with ([a; b; c; d; e; f; g; h; i; j; k] ++ l :: r) in L1.
  change (?a :: ?b :: ?c :: ?d :: ?e :: ?f :: ?g :: ?h :: ?i :: ?j :: ?k :: ?l :: ?m :: ?n :: ?o :: ?p :: ?q :: ?s :: ?t :: ?u :: []) with
    ([a; b; c; d; e; f; g; h; i; j; k; l; m; n; o; p; q; s; t] ++ u :: []) in L2.
  destruct (C104_end_to_end _ _ _ _ _ _ _ _ _ _ mx_steps mx_shares mx_well_used L1) as (S1 & x & d & t & P & IT & NM & CP & _ & SRC).
  destruct (C104_end_to_end _ _ _ _ _ _ _ _ _ _ mx_steps mx_shares mx_well_used L2) as (S2 & x' & d' & t' & P' & IT' & NM' & CP' & _ & SRC').
  assert (In b (instances w2 "Packets")) as HB by (rewrite IB; now left).
  pose proof (C104_acks_seen _ _ _ _ _ _ _ _ _ _ b 1 mx_steps mx_shares mx_well_used mx_no_acks L2 M2 HB GB) as NUM.
  rewrite M1 in S1.
  do 3 eexists. eexists. do 3 eexists. exists b. split; [exact L1|]. split; [exact M1|]. split; [exact S1|].
  split.
  { assert (t = s_ping) as -> by (apply (TP t IT); rewrite <- NM, <- M1; exact (proj1 CP)).
    exists x, d. split; [exact P|]. split; [exact CP|]. destruct SRC as [(ids & (K & _) & _)|K]; [|exact K].
    exfalso. rewrite K in NM. discriminate NM. }
  split; [exact L2|]. split; [exact M2|]. split; [|auto].
  assert (t' = d_ack) as -> by (apply (TA t' IT'); rewrite <- NM', <- M2; exact (proj1 CP')).
  destruct SRC' as [(ids & K & _)|(i & msg & rel & now & m & K & Q & N & _)]; [exists x', d', ids; auto|].
  exfalso. apply (mx_no_acks i msg rel now m); [|exact Q|rewrite <- N; exact NM'].
  rewrite L2. apply in_or_app. now left.
Qed.
(** The datagram with the Ping, before it arrives at manager 0. *)
Definition mx_node (n : mesh) (i : nat) : whole := match nth_error (me_nodes n) i with Some (_, w) => w | None => w_init {| we_env := d_env; we_host := d_b; we_queue := None |} end.
Definition mx_e0 : wenv := {| we_env := d_env; we_host := d_b; we_queue := None |}.
Definition mx_e1 : wenv := {| we_env := d_env; we_host := d_a; we_queue := None |}.
Lemma mx_0_steps : mesh_steps (mesh_start mx_es) mx_0.
Proof. apply mesh_do_steps; [constructor|]. vm_compute. repeat (split; [exact I|]). exact I. Qed.
Lemma mx_0_used : well_used (d_ack :: s_ts) mx_0.
Proof.
  apply well_used_check; [|vm_compute; reflexivity].
  assert (me_done mx_0 = mx_sends) as -> by (vm_compute; reflexivity).
  unfold mx_sends. cbn [app repeat]. repeat apply Forall_cons; try (left; reflexivity).
  right. exists s_msg2. split; [reflexivity|]. exists s_ping. split; [right; now left|]. split; [exact s_usable|]. split; [reflexivity|exact s_conforming2].
Qed.
Example C104_delivered_ex : exists past x future y rest, me_log mx_0 = past ++ (1%nat, WV (VSeen (Net (Attempted x)))) :: future /\ at_data x = Some cw_first /\
  nth_error (me_nodes mx_0) 0 = Some (mx_e0, mx_node mx_0 0) /\ in_recvfrom (mx_node mx_0 0) 0 /\
  wobserved mx_e0 (mx_node mx_0 0) (WUdp 0 (RData d_b cw_first) []) =
    WV (VBegun (reads (mx_node mx_0 0) 0 cw_first)) :: WV (VSeen (Net (Accepted d_b y))) :: WV (VSeen (Queued d_b [1])) :: rest /\
  a_copy s_ping (at_msg x) y /\ m_acks y = [].
Proof.
  let v := eval vm_compute in (me_log mx_0) in assert (L : me_log mx_0 = v) by (vm_compute; reflexivity).
  match type of L with _ = ?a :: ?b :: ?c :: ?d :: ?e :: (_, WV (VSeen (Net (Attempted ?x)))) :: ?r =>
    change (me_log mx_0 = [a; b; c; d; e] ++ (1%nat, WV (VSeen (Net (Attempted x)))) :: r) in L; set (x1 := x) in L; set (past := [a; b; c; d; e]) in L; set (fut := r) in L end.
  assert (N : nth_error (me_nodes mx_0) 0 = Some (mx_e0, mx_node mx_0 0)) by (vm_compute; reflexivity).
  assert (IR : in_recvfrom (mx_node mx_0 0) 0) by (vm_compute; reflexivity).
  destruct (C104_delivered _ _ _ _ _ _ _ x1 cw_first _ 0 mx_e0 (mx_node mx_0 0) 0 d_b [] s_ping mx_0_steps mx_shares mx_0_used L eq_refl) as (y & rest & G & C & A).
  - discriminate.
  - right. now left.
  - reflexivity.
  - right. exists s_a. split; [now left|discriminate].
  - exact N.
  - exact IR.
  - split; [vm_compute; reflexivity|]. split; [exact I|left; vm_compute; reflexivity].
  - exists past, x1, fut, y, rest. auto 8.
Qed.
(** Manager 0 has two coroutines: stop_monitors and start_monitors were called while
    the first was waiting.  One receives the Ping, the other sends at that moment
    what was enqueued: the packet announces acks.  It is well-formed; its last byte
    is 200; the coroutine of manager 1 that receives it dies. *)
Definition my_ops : list (nat * wop) :=
  [(1, WUser (Spawn (NewMsg s_msg2))); (1, WHandler (HSubscribe "Ping" d_sub)); (1, WEnqueue 0 true false); (1, WStart)]%nat ++ repeat (mx_go 1) 6 ++ [mx_resume 1 5] ++ repeat (mx_go 1) 3 ++
  [(0, WUser (Spawn (NewMsg cw_msg2))); (0, WHandler (HSubscribe "Ping" d_sub)); (0, WStart)]%nat ++ repeat (mx_go 0) 2 ++ [(0, WStop); (0, WStart)]%nat ++
  repeat (0%nat, WUdp 1 RFail []) 4 ++ [(0%nat, WEnqueue 0 false false); mx_in0; (0%nat, WUdp 1 RFail [])].
Definition my := fold_left mesh_do my_ops (mesh_start mx_es).
Lemma my_steps : mesh_steps (mesh_start mx_es) my.
Proof.
  apply mesh_do_steps; [constructor|]. vm_compute. repeat (split; [exact I|]).
  split; [eexists; exists 1%nat; split; [left; reflexivity|reflexivity]|]. repeat (split; [exact I|]). exact I.
Qed.
Lemma my_used : well_used (d_ack :: s_ts) my.
Proof.
  apply well_used_check; [|vm_compute; reflexivity].
  assert (me_done my = my_ops) as -> by (vm_compute; reflexivity).
  unfold my_ops. cbn [app repeat]. repeat apply Forall_cons; try (left; reflexivity).
  - right. exists s_msg2. split; [reflexivity|]. exists s_ping. split; [right; now left|]. split; [exact s_usable|]. split; [reflexivity|exact s_conforming2].
  - right. exists cw_msg2. split; [reflexivity|]. exists s_ping. split; [right; now left|]. split; [exact s_usable|]. split; [reflexivity|exact cw_conforms2].
Qed.
Example C104_lost_ex : exists past x future err, me_log my = past ++ (0%nat, WV (VSeen (Net (Attempted x)))) :: future /\ at_data x = Some cw_reply2 /\
  m_name (at_msg x) = "Ping"%string /\ m_blocks (at_msg x) = m_blocks cw_msg2 /\ announces_acks x /\ owed_at (of_dispatchers past) 0 (at_addr x) /\
  nth_error (me_nodes my) 1 = Some (mx_e1, mx_node my 1) /\ in_recvfrom (mx_node my 1) 0 /\
  wobserved mx_e1 (mx_node my 1) (WUdp 0 (RData d_a cw_reply2) []) = [WV (VBegun (reads (mx_node my 1) 0 cw_reply2)); WV (VSeen (Queued d_a []))] /\
  In err [IndexErr; StructError; MessageDeserializationErr] /\ forall r order ops,
    nth_error (lv_udp (wh_udp (wrun mx_e1 (mx_node my 1) (WUdp 0 (RData d_a cw_reply2) [] :: WUdp 0 r order :: ops)))) 0 = Some (VEnd (Some err)).
Proof.
  let v := eval vm_compute in (me_log my) in assert (L : me_log my = v) by (vm_compute; reflexivity).
  match type of L with _ = ?a :: ?b :: ?c :: ?d :: ?e :: ?f :: ?g :: ?h :: ?i :: ?j :: ?k :: ?l :: ?m :: ?n :: ?o :: ?p :: ?q :: ?s :: (_, WV (VSeen (Net (Attempted ?x)))) :: ?r =>
    change (me_log my = [a; b; c; d; e; f; g; h; i; j; k; l; m; n; o; p; q; s] ++ (0%nat, WV (VSeen (Net (Attempted x)))) :: r) in L;
    set (x1 := x) in L; set (past := [a; b; c; d; e; f; g; h; i; j; k; l; m; n; o; p; q; s]) in L; set (fut := r) in L end.
  assert (N : nth_error (me_nodes my) 1 = Some (mx_e1, mx_node my 1)) by (vm_compute; reflexivity).
  assert (IR : in_recvfrom (mx_node my 1) 0) by (vm_compute; reflexivity).
  assert (AA : announces_acks x1) by reflexivity.
  pose proof (C104_fate _ _ _ _ _ _ _ x1 cw_reply2 _ 1 mx_e1 (mx_node my 1) 0 d_a [] s_ping HIGH (removelast cw_reply2) xc8 my_steps mx_shares my_used L eq_refl AA) as F.
  destruct F as (G & err & IE & D).
  - right. now left.
  - reflexivity.
  - reflexivity.
  - reflexivity.
  - right. exists s_a. split; [now left|discriminate].
  - exact N.
  - exact IR.
  - split; [vm_compute; reflexivity|]. split; [exact I|left; vm_compute; reflexivity].
  - exists past, x1, fut, err. split; [exact L|]. split; [reflexivity|]. split; [reflexivity|]. split; [reflexivity|]. split; [exact AA|].
    split; [exact (C104_owed _ _ _ _ _ _ my_steps L AA)|]. split; [exact N|]. split; [exact IR|]. split; [exact G|]. split; [exact IE|exact D].
Qed.
