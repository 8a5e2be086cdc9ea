(** A dispatcher used by subscribers while they are called and by several
    greenlets at once: C79 and C80.  Vocabulary: SpecGreenlets.v (with
    SpecDispatch.v, SpecLayout.v). *)
From Coq Require Import Permutation.
From Verif Require Import Lib SpecMessages MessageProofs Samples SpecGreenlets LayoutProofs DispatchProofs Prop_Dispatch
  GreenletProofs GreenletAcks GreenletMore GreenletSeq GreenletFlush.

(** ** Schedules for the examples *)
(** A datagram arrives; the subscriber called for it sends two messages, the second
    while the first is in the socket, then fails (KeyError). *)
Definition g_inside : list sched :=
  map Spawn [NewHost d_a; NewHost d_b; NewMsg s_msg; NewMsg s_msg; SetHandler [("Ping"%string, [d_sub])]] ++
  [Spawn (Receive 0 (d_in x09) 14);
   Spawn (Send 0 0 (Reliable 3) d_sock); Spawn (Send 1 0 Plain d_sock);
   Resume 7 None; Resume 6 (Some (Raised 5)); Resume 5 (Some KeyErr)].
Definition g_start : list sched :=
  map Spawn [NewHost d_a; SetHandler [("Ping"%string, [])]; Receive 0 (d_in x09) 14].
(** Everything in turn. *)
Definition g_turn : list sched :=
  g_start ++ Spawn (ProcessAcks [] d_sock) :: repeat (Resume 3 None) 4 ++ [Spawn (Receive 0 (d_in x0a) 14)].
(** A datagram arrives while the acknowledgement of the first is in the socket. *)
Definition g_late : list sched :=
  g_start ++ [Spawn (ProcessAcks [] d_sock); Resume 3 None; Spawn (Receive 0 (d_in x0a) 14)] ++ repeat (Resume 3 None) 3.
(** Two process_acks overlap. *)
Definition g_twice : list sched :=
  g_start ++ [Spawn (ProcessAcks [] d_sock); Spawn (ProcessAcks [] d_sock); Resume 3 None; Resume 4 None] ++
  repeat (Resume 3 None) 3 ++ repeat (Resume 4 None) 3.

(** ** C79 *)
(** Nothing that C21 and C22 promise depends on operations not overlapping: the
    packets prepared for an address carry the ids 1, 2, 3, ... *)
Theorem C79_ids env xs a k x :
  nth_error (attempts_to a (since_removal a (network (history env xs)))) k = Some x -> m_id (at_msg x) = Z.of_nat k + 1.
Proof. exact (green_ids env xs a k x). Qed.
Print Assumptions C79_ids.
(** ... in the bytes given to the socket too, whatever happened to the message
    object meanwhile; *)
Theorem C79_wire env xs x b : In (Net (Attempted x)) (history env xs) -> at_data x = Some b ->
  packet_layout (e_pv env) (e_ser_dict env) (e_ser_xml env) (at_msg x) b /\ sequence_number b = Some (m_id (at_msg x) mod 2 ^ 32).
Proof. exact (green_wired env xs x b). Qed.
Print Assumptions C79_wire.
(** and what waits for an acknowledgement is exactly what was prepared as reliable
    and not acknowledged in a datagram accepted since. *)
Theorem C79_outstanding env xs a n :
  In n (outstanding (cf_st (after env xs)) a) <-> unacknowledged a (since_removal a (network (history env xs))) n.
Proof. exact (green_outstanding env xs a n). Qed.
Print Assumptions C79_outstanding.
Example C79_ex :
  map (fun x => (m_id (at_msg x), option_map (@List.length byte) (at_data x)))
      (attempts_to d_a (since_removal d_a (network (history d_env g_inside)))) = [(1, Some 14%nat); (2, Some 14%nat)] /\
  outstanding (cf_st (after d_env g_inside)) d_a = [1] /\
  calls (history d_env g_inside) <> [] /\
  skipn 5 (map (fun th => match th with Finished (ORecv r) => match r_res r with Ok (Some _) => 1 | _ => 2 end
                                      | Finished (OSend o) => match o_res o with Ok (Some _) => 3 | Ok None => 4 | Err _ => 5 end
                                      | _ => 6 end) (cf_pool (after d_env g_inside))) = [1; 4; 3].
Proof. vm_compute. repeat split; discriminate. Qed.
(** Operations that do not overlap are those of C21-C32: starting one and letting
    it go on until it is finished can always end like the step of that history,
    the subscribers and the socket having raised what they raise there. *)
Theorem C79_one_after_the_other env st o : reachable env st ->
  exists es x ms,
    crun env (idle st) (Spawn o :: map (Resume 0) es) = ({| cf_st := fst (step env st o); cf_pool := [Finished x] |}, ms) /\
    reports (snd (step env st o)) (map seen ms) x.
Proof. exact (one_after_the_other env st o). Qed.
Print Assumptions C79_one_after_the_other.
Example C79_ex_step : reachable d_env d_st /\
  List.length (o_sends (snd (process_acks d_env d_st [] d_sock))) = 1%nat.
Proof. split; [exact d_reachable|]. vm_compute. reflexivity. Qed.

(** ** C80 *)
(** If no process_acks is started while another is under way, and none is under
    way now, then for every address: what was to be acknowledged in time has been
    packed or is still queued, in order, once each; what came while the last
    packet of a flush was being sent is lost, and nothing else is. *)
Theorem C80_accounted env xs a : one_at_a_time env (idle init_state) xs -> at_rest (after env xs) ->
  let B := keep_books a (history env xs) in
  due B = acked B ++ pending_acks (cf_st (after env xs)) a /\ packed B = [] /\ late B = [] /\
  Permutation (all_queued a (history env xs)) (due B ++ lost B) /\
  (never_abandoned a (history env xs) -> all_packed a (history env xs) = acked B).
Proof. exact (accounted env xs a). Qed.
Print Assumptions C80_accounted.
(** In particular nothing is lost and nothing acknowledged twice if receiving and
    process_acks are done in turn, as the library's own loop does. *)
Theorem C80_nothing_lost env xs a : one_at_a_time env (idle init_state) xs -> no_reception_inside env (idle init_state) xs ->
  at_rest (after env xs) -> never_abandoned a (history env xs) ->
  all_queued a (history env xs) = all_packed a (history env xs) ++ pending_acks (cf_st (after env xs)) a.
Proof. exact (nothing_lost env xs a). Qed.
Print Assumptions C80_nothing_lost.
(** Whatever overlaps, nothing is acknowledged that was not received. *)
Theorem C80_only_queued env xs a : incl (all_packed a (history env xs)) (all_queued a (history env xs)).
Proof. exact (only_queued env xs a). Qed.
Print Assumptions C80_only_queued.
(** Every packing is one PacketAck with those ids, to the current address of the
    circuit's host (nothing, if that is no valid address). *)
Theorem C80_packets env xs x a ids : e_handle_out env = false ->
  In (Packing a ids) (gevents env (after env xs) x) ->
  1 <= zlen ids <= 251 /\
  exists c t, circuit_of (cf_st (after env xs)) a = Some c /\ host_address (cf_st (after env xs)) (c_host c) = Some t /\
    if host_ok t
    then exists y, gevents env (after env xs) x = [Packing a ids; Net (Attempted y)] /\ at_addr y = t /\ acknowledges (at_msg y) ids
    else gevents env (after env xs) x = [Packing a ids].
Proof. exact (ack_packets env xs x a ids). Qed.
Print Assumptions C80_packets.
(** However calls overlap, each puts the queue it began with into packets, in
    order and 251 at a time, even if another call has replaced the queue since:
    operation [i], about to see to [a] after [before], has in the course of [xs]
    packed [P] of the queue [V], a beginning of it; its next step packs nothing
    or the next 251 ids (or what there is); and it is done with [a] only when it
    has packed all of [V], or all that was there when it last looked. *)
Theorem C80_each_flush env before i a todo xs :
  nth_error (cf_pool (after env before)) i = Some (AtAcks (a :: todo)) ->
  circuit_of (cf_st (after env before)) a <> None ->
  (xs = [] \/ exists e mid, xs = Resume i e :: mid) ->
  busy_with env (after env before) i a xs ->
  let P := packed_by env (after env before) i a xs in
  let V := queue_kept env (after env before) a xs in
  (exists r, V = P ++ r) /\
  forall e, let evs := gevents env (after env (before ++ xs)) (Resume i e) in
    (packs a evs = [] \/ packs a evs = firstn 251 (skipn (List.length P) V)) /\
    (empties a evs = true -> packs a evs = [] /\ (P = V \/ zlen P mod 251 <> 0)).
Proof. exact (each_flush env before i a todo xs). Qed.
Print Assumptions C80_each_flush.
(** 252 datagrams; while the first 251 are being acknowledged another call
    acknowledges all and empties the queue; the first call then acknowledges the
    last one again. *)
Definition g_many : list sched :=
  map Spawn [NewHost d_a; SetHandler [("Ping"%string, [])]] ++ repeat (Spawn (Receive 0 (d_in x09) 14)) 252 ++
  [Spawn (ProcessAcks [] d_sock); Spawn (ProcessAcks [] d_sock)].
Definition g_overlap : list sched := Resume 254 None :: repeat (Resume 255 None) 6 ++ [Resume 254 None].
Example C80_ex_each :
  nth_error (cf_pool (after d_env g_many)) 254 = Some (AtAcks [d_a]) /\
  circuit_of (cf_st (after d_env g_many)) d_a <> None /\
  busy_with d_env (after d_env g_many) 254 d_a g_overlap /\
  zlen (packed_by d_env (after d_env g_many) 254 d_a g_overlap) = 251 /\
  zlen (packed_by d_env (after d_env g_many) 255 d_a g_overlap) = 252 /\
  zlen (queue_kept d_env (after d_env g_many) d_a g_overlap) = 252 /\
  pending_acks (cf_st (after d_env (g_many ++ g_overlap))) d_a = [] /\
  packs d_a (gevents d_env (after d_env (g_many ++ g_overlap)) (Resume 254 None)) = [9].
Proof.
  split; [vm_compute; reflexivity|]. split; [vm_compute; discriminate|]. split.
  { vm_compute. repeat (split; [intros [x Hx]; first [discriminate Hx|split; reflexivity]|]). exact I. }
  vm_compute. repeat split.
Qed.
Example C80_ex : one_at_a_time d_env (idle init_state) g_turn /\ no_reception_inside d_env (idle init_state) g_turn /\
  at_rest (after d_env g_turn) /\ never_abandoned d_a (history d_env g_turn) /\
  all_queued d_a (history d_env g_turn) = [9; 10] /\ all_packed d_a (history d_env g_turn) = [9] /\
  pending_acks (cf_st (after d_env g_turn)) d_a = [10] /\ e_handle_out d_env = false.
Proof.
  vm_compute. repeat split; try (repeat constructor; fail). intros H. repeat destruct H as [H|H]; try discriminate H. exact H.
Qed.
(** The ack for a datagram received during the last packet of a flush is lost. *)
Example C80_ex_lost : one_at_a_time d_env (idle init_state) g_late /\ at_rest (after d_env g_late) /\
  all_queued d_a (history d_env g_late) = [9; 10] /\ all_packed d_a (history d_env g_late) = [9] /\
  pending_acks (cf_st (after d_env g_late)) d_a = [] /\ lost (keep_books d_a (history d_env g_late)) = [10].
Proof. vm_compute. repeat split; repeat constructor. Qed.
(** Overlapping calls of process_acks acknowledge the same datagram twice. *)
Example C80_ex_twice : at_rest (after d_env g_twice) /\
  all_queued d_a (history d_env g_twice) = [9] /\ all_packed d_a (history d_env g_twice) = [9; 9].
Proof. vm_compute. repeat split; repeat constructor. Qed.
