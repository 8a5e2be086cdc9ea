(** C77: dropped, rejected or decoded.  Vocabulary: SpecCut.v (with SpecLayout.v). *)
From Verif Require Import Samples SpecCut PacketProofs PacketMore PacketRules CutProofs.
From Verif Require Import SpecRoundTrip.
From Verif Require Import SpecLayout.

(** deserialize returns None exactly on the datagrams of [dropped]: an unknown
    number, a message that message.xml bans or nobody wants, or a body that ends
    inside a field. *)
Theorem C77_dropped pv ts c handled buf :
  build_dict pv ts = Ok (dc_dict c) -> Forall well_formed ts -> dc_handled c = Some handled ->
  (forall t, In t ts -> sget (t_name t) (dc_xml c) <> Some None) ->
  (deserialize c buf = Ok None <->
   dropped (dc_dict c) (udp_allowed (dc_xml c)) (fun name => handled name = true \/ dc_deferred c = false) buf).
Proof. intros Hb Hw Hh Hx. exact (dropped_iff pv ts c handled Hb Hw Hh Hx buf). Qed.
Print Assumptions C77_dropped.
(** It raises MessageDeserializationError exactly on those of [rejected]: at most
    six bytes, a body that ends where a repeat count belongs, or a body with no
    block instance at all although the template has blocks. *)
Theorem C77_rejected pv ts c handled buf :
  build_dict pv ts = Ok (dc_dict c) -> Forall well_formed ts -> dc_handled c = Some handled ->
  (forall t, In t ts -> sget (t_name t) (dc_xml c) <> Some None) ->
  (deserialize c buf = Err MessageDeserializationErr <->
   rejected (dc_dict c) (udp_allowed (dc_xml c)) (fun name => handled name = true \/ dc_deferred c = false) buf).
Proof. intros Hb Hw Hh Hx. exact (rejected_iff pv ts c handled Hb Hw Hh Hx buf). Qed.
Print Assumptions C77_rejected.
(** With C09 and C10: every datagram is decoded, dropped, rejected or has a broken
    header, and only one of the four. *)
Lemma four_ways pv ts c handled buf :
  build_dict pv ts = Ok (dc_dict c) -> Forall well_formed ts -> Forall sized ts -> dc_handled c = Some handled ->
  (forall t, In t ts -> sget (t_name t) (dc_xml c) <> Some None) ->
  let allowed := udp_allowed (dc_xml c) in let wanted := fun name => handled name = true \/ dc_deferred c = false in
  let says := exists m, datagram_says (dc_dict c) allowed wanted buf m in
  let drop := dropped (dc_dict c) allowed wanted buf in
  let reject := rejected (dc_dict c) allowed wanted buf in
  let broken := exists e, header_failure buf e in
  (says \/ drop \/ reject \/ broken) /\
  ~ (says /\ drop) /\ ~ (says /\ reject) /\ ~ (says /\ broken) /\ ~ (drop /\ reject) /\ ~ (drop /\ broken) /\ ~ (reject /\ broken).
Proof.
  intros Hb Hw Hsz Hh Hx allowed wanted says drop reject broken.
  assert (A1 : says <-> exists m, deserialize c buf = Ok (Some m)).
  { split; intros (m & H); exists m; apply (deserialize_says pv ts c handled buf m Hb Hsz Hh); exact H. }
  assert (A2 : drop <-> deserialize c buf = Ok None) by (symmetry; exact (dropped_iff pv ts c handled Hb Hw Hh Hx buf)).
  assert (A3 : reject <-> deserialize c buf = Err MessageDeserializationErr) by (symmetry; exact (rejected_iff pv ts c handled Hb Hw Hh Hx buf)).
  assert (A4 : broken <-> exists e, e <> MessageDeserializationErr /\ deserialize c buf = Err e).
  { split.
    - intros (e & H). exists e. split; [apply failure_kinds in H as [->| ->]; discriminate|]. now apply failure_eq.
    - intros (e & He & H). exists e. now apply (deserialize_failures pv ts c handled buf e Hb Hw Hh Hx He). }
  rewrite A1, A2, A3, A4. clear.
  split.
  - destruct (deserialize c buf) as [[m|]|e]; [left; eauto|auto|]. right; right.
    destruct e; solve [left; reflexivity | right; eexists; split; [|reflexivity]; discriminate].
  - repeat split; intros [H H']; repeat match goal with H : ex _ |- _ => destruct H end; intuition congruence.
Qed.
Theorem C77_four_ways pv ts c handled buf :
  build_dict pv ts = Ok (dc_dict c) -> Forall well_formed ts -> Forall sized ts -> dc_handled c = Some handled ->
  (forall t, In t ts -> sget (t_name t) (dc_xml c) <> Some None) ->
  let allowed := udp_allowed (dc_xml c) in let wanted := fun name => handled name = true \/ dc_deferred c = false in
  let says := exists m, datagram_says (dc_dict c) allowed wanted buf m in
  let drop := dropped (dc_dict c) allowed wanted buf in
  let reject := rejected (dc_dict c) allowed wanted buf in
  let broken := exists e, header_failure buf e in
  (says \/ drop \/ reject \/ broken) /\
  ~ (says /\ drop) /\ ~ (says /\ reject) /\ ~ (says /\ broken) /\ ~ (drop /\ reject) /\ ~ (drop /\ broken) /\ ~ (reject /\ broken).
Proof. exact (four_ways pv ts c handled buf). Qed.
Print Assumptions C77_four_ways.
(** A datagram without extra header bytes that the template reads to its last byte
    is never decoded once bytes are missing at its end. *)
Theorem C77_truncated pv ts c handled f id rest t body bs p q m :
  build_dict pv ts = Ok (dc_dict c) -> Forall well_formed ts -> dc_handled c = Some handled ->
  (forall t, In t ts -> sget (t_name t) (dc_xml c) <> Some None) ->
  f :: id ++ x00 :: rest = p ++ q -> zlen id = 4 -> q <> [] ->
  bit f zero_bit = false -> bit f ack_bit = false ->
  body_of (dc_dict c) (p ++ q) t body -> blocks_read (t_blocks t) body bs ->
  deserialize c p <> Ok (Some m).
Proof. intros Hb Hw Hh Hx. exact (truncated_never pv ts c handled Hb Hw Hh Hx f id rest t body bs p q m). Qed.
Print Assumptions C77_truncated.
(** In particular no proper prefix of a packet that serialize wrote is decoded
    (RegionHandshakeReply, which ends with four spare bytes, aside). *)
Theorem C77_sent_truncated pv' pv ts c x m t handled w p q m' :
  build_dict pv' ts = Ok (dc_dict c) -> Forall well_formed ts -> unambiguous ts -> In t ts -> usable t ->
  dc_handled c = Some handled -> (forall t, In t ts -> sget (t_name t) (dc_xml c) <> Some None) ->
  m_name m = t_name t -> conforming t m -> plain_header pv m -> t_name t <> "RegionHandshakeReply"%string ->
  serialize pv (dc_dict c) x m = Ok (Some w) -> w = p ++ q -> q <> [] ->
  deserialize c p <> Ok (Some m').
Proof. exact (sent_truncated pv' pv ts c x m t handled w p q m'). Qed.
Print Assumptions C77_sent_truncated.

(** The sample packet of C06, cut after every byte: broken header, missing count,
    or dropped without an exception. *)
Example C77_ex : build_dict Py27 s_ts = Ok (dc_dict s_conf) /\ Forall well_formed s_ts /\ Forall sized s_ts /\
  (forall t, In t s_ts -> sget (t_name t) (dc_xml s_conf) <> Some None) /\
  (exists m, deserialize s_conf s_wire = Ok (Some m)) /\
  map (fun n => deserialize s_conf (firstn n s_wire)) (seq 0 14) =
  [Err IndexErr] ++ repeat (Err MessageDeserializationErr) 6 ++
  [Ok None; Err MessageDeserializationErr; Ok None; Ok None; Ok None; Ok None; Ok None].
Proof.
  split; [exact s_built|]. split; [exact s_well_formed|]. split; [exact s_sized|]. split.
  - intros t [<-|[<-|[<-|[]]]]; discriminate.
  - split; [eexists; reflexivity|]. vm_compute. reflexivity.
Qed.
(** The same cuts, through the specification. *)
Example C77_cut_ex : blocks_cut [s_a; s_b] [x07; x01; x03; x68] /\ count_missing [s_a; s_b] [x07].
Proof.
  split.
  - change [x07; x01; x03; x68] with ([x07] ++ [x01; x03; x68]). eapply bsc_later.
    + apply br_single; [reflexivity|]. change [x07] with ([x07] ++ []). eapply ir_cons; [|constructor].
      eexists [[x07]], [VInt 7]. repeat split. constructor; [|constructor]. apply fr_plain; [discriminate|reflexivity|reflexivity].
    + apply bsc_here, bc_variable; [reflexivity|]. apply ic_here, fsc_here.
      apply (fc_text _ _ 1 [x03] [x68]); try reflexivity.
  - change [x07] with ([x07] ++ []). eapply cm_later.
    + apply br_single; [reflexivity|]. change [x07] with ([x07] ++ []). eapply ir_cons; [|constructor].
      eexists [[x07]], [VInt 7]. repeat split. constructor; [|constructor]. apply fr_plain; [discriminate|reflexivity|reflexivity].
    + now constructor.
Qed.
