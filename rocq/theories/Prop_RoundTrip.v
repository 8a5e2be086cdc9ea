(** The round trip: C07, and the decoding part of C26.
    Vocabulary: SpecRoundTrip.v (with SpecLayout.v, SpecFloats.v, SpecCodec.v, SpecTemplate.v). *)
From Coq Require Import Reals.
From Flocq Require Import Core BinarySingleNaN.
From Verif Require Import Lib Samples SpecFloats CodecProofs FloatProofs FloatRound FloatField ObjectProofs SpecRoundTrip RoundTripProofs.
From Verif Require Import PacketMore PacketRules TemplateParser TemplateFile ShippedTemplates Prop_Template.
From Verif Require Import SpecDispatch DispatchProofs DispatchMore Prop_Dispatch.
From Verif Require Import SpecLayout SpecRoundTrip.
Open Scope Z_scope.

(** ** C07 *)
(** [c] is the receiver's configuration; [x] the sender's message.xml. *)
Theorem C07_round_trip pv' pv ts c x m t handled :
  build_dict pv' ts = Ok (dc_dict c) -> Forall sized ts -> unambiguous ts -> In t ts -> usable t ->
  m_name m = t_name t -> conforming t m -> plain_header pv m ->
  udp_allowed x (t_name t) -> udp_allowed (dc_xml c) (t_name t) ->
  dc_handled c = Some handled -> handled (t_name t) = true \/ dc_deferred c = false ->
  t_blocks t = [] \/ (exists tb, In tb (t_blocks t) /\ instances m (tb_name tb) <> []) ->
  exists w m', serialize pv (dc_dict c) x m = Ok (Some w) /\ deserialize c w = Ok (Some m') /\ message_back t m m'.
Proof. exact (round_trip pv' pv ts c x m t handled). Qed.
Print Assumptions C07_round_trip.
(** The exception: all the blocks of the message are Variable and empty. *)
Theorem C07_all_empty pv' pv ts c x m t handled :
  build_dict pv' ts = Ok (dc_dict c) -> Forall sized ts -> unambiguous ts -> In t ts -> usable t ->
  m_name m = t_name t -> conforming t m -> plain_header pv m ->
  udp_allowed x (t_name t) -> udp_allowed (dc_xml c) (t_name t) ->
  dc_handled c = Some handled -> handled (t_name t) = true \/ dc_deferred c = false ->
  t_blocks t <> [] -> (forall tb, In tb (t_blocks t) -> instances m (tb_name tb) = []) ->
  exists w, serialize pv (dc_dict c) x m = Ok (Some w) /\ deserialize c w = Err MessageDeserializationErr.
Proof. exact (empty_round_trip pv' pv ts c x m t handled). Qed.
Print Assumptions C07_all_empty.

(** *** A case *)
Lemma s_unambiguous : unambiguous s_ts.
Proof. split; cbn; repeat constructor; cbn; intuition congruence. Qed.
Lemma s_usable : usable s_ping.
Proof.
  split; [exists HIGH; split; [reflexivity|cbn; lia]|]. split; [exact (Forall_inv s_well_formed)|].
  split; [cbn; repeat constructor; cbn; intuition congruence|].
  intros tb [<-|[<-|[]]]; cbn; repeat constructor; cbn; intuition congruence.
Qed.
Definition s_msg2 : message :=
  mk_message "Ping" [Many [mk_block "B" [("X"%string, VInt 5); ("Y"%string, VStr s_hi)]; mk_block "B" [("Y"%string, VNone); ("X"%string, VBool true)]];
                     One (mk_block "A" [("X"%string, VInt 7)])].
Example C07_ex : conforming s_ping s_msg2 /\ plain_header Py27 s_msg2 /\
  exists w m', serialize Py27 (dc_dict s_conf) s_xml s_msg2 = Ok (Some w) /\ deserialize s_conf w = Ok (Some m') /\
    message_back s_ping s_msg2 m'.
Proof.
  assert (C : conforming s_ping s_msg2).
  { intros tb [<-|[<-|[]]]; eexists; (split; [reflexivity|]); (split; [cbn; lia|]).
    - intros b v [<-|[]] [<-|[]]; eexists; (split; [reflexivity|]); eapply proper_in_range; try reflexivity. exists 7. split; [constructor|cbn; lia].
    - intros b v [<-|[<-|[]]] [<-|[<-|[]]]; eexists; (split; [reflexivity|]); eapply proper_in_range; try reflexivity.
      + exists s_hi, 1. split; [constructor|]. split; [reflexivity|cbn; lia].
      + exists 5. split; [constructor|cbn; lia].
      + exists [], 1. split; [constructor|]. split; [reflexivity|cbn; lia].
      + exists 1. split; [constructor|cbn; lia]. }
  assert (H : plain_header Py27 s_msg2) by (cbv; intuition congruence || (right; cbv; intuition congruence)).
  split; [exact C|]. split; [exact H|].
  apply (C07_round_trip Py27 Py27 s_ts s_conf s_xml s_msg2 s_ping (fun n => String.eqb n "Ping") s_built s_sized s_unambiguous (or_introl eq_refl) s_usable);
    try reflexivity; auto.
  right. exists s_a. split; [now left|discriminate].
Qed.
(** A message with nothing but empty blocks: PacketAck without ids. *)
Example C07_all_empty_ex :
  let tb := {| tb_name := "L"; tb_type := Some MBT_VARIABLE; tb_number := 0; tb_vars := [s_x] |} in
  let t := {| t_name := "Z"; t_freq := Some HIGH; t_num := 9; t_hex := None;
     t_trust := Some LL_NOTRUST; t_enc := Some LL_UNENCODED; t_dep := None; t_blocks := [tb] |} in
  let m := {| m_name := "Z"; m_blocks := [("L"%string, [])]; m_flags := 0; m_id := 1; m_eqid := 0; m_acks := [];
              m_num_acks := 0; m_trusted := false; m_reliable := false; m_retries := 1 |} in
  exists d, build_dict Py27 [t] = Ok d /\ conforming t m /\
    serialize Py27 d [] m = Ok (Some [x00; x00; x00; x00; x01; x00; x09; x00]) /\
    deserialize {| dc_dict := d; dc_xml := []; dc_deferred := false; dc_handled := Some (fun _ => true) |}
      [x00; x00; x00; x00; x01; x00; x09; x00] = Err MessageDeserializationErr.
Proof.
  eexists. split; [reflexivity|]. split; [|split; vm_compute; reflexivity].
  intros u [<-|[]]. exists []. split; [reflexivity|]. split; [cbn; lia|]. intros b v [].
Qed.
(** What comes back, value by value: an F32 field, and a quaternion with a
    negative W. *)
Example C07_values :
  let f32 := {| tv_name := "F"; tv_type := Some MVT_F32; tv_size := Some 4 |} in
  let txt := {| tv_name := "Name"; tv_type := Some MVT_VARIABLE; tv_size := Some 1 |} in
  let dat := {| tv_name := "Data"; tv_type := Some MVT_VARIABLE; tv_size := Some 2 |} in
  in_range f32 (VFloat (S754_infinity true)) /\
  (forall y, comes_back f32 (VFloat (S754_infinity true)) y -> y = VFloat (S754_infinity true)) /\
  in_range txt (VStr [x61; x00]) /\ (forall y, comes_back txt (VStr [x61; x00]) y -> y = VStr [x61]) /\
  (forall y, comes_back dat (VStr [x61; x00]) y -> y = VStr [x61; x00; x00]).
Proof.
  cbv zeta. split.
  { exists MVT_F32, (VFloat (S754_infinity true)). split; [reflexivity|]. split; [constructor|].
    exists (S754_infinity true). split; [reflexivity|]. split; [reflexivity|]. intros _ []. }
  split.
  { intros y (t & x' & [= <-] & S & f & g & -> & -> & _ & H). f_equal. inversion S as [| ? ? z ? _ I| | | |]; subst.
    - apply H; exact (fun x => x).
    - inversion I. }
  split.
  { exists MVT_VARIABLE, (VStr [x61; x00]). split; [reflexivity|]. split; [constructor|].
    exists [x61; x00], 1; split; [constructor|split; [reflexivity|cbn; lia]]. }
  split; intros y (t & x' & [= <-] & S & s & Hs & H); inversion S as [| ? ? z ? [T|T] I| | ? ? ? [T|T]| |]; subst; try discriminate;
    inversion Hs; subst; cbn in H; [|exact H].
  destruct H as (r & R & ->). apply rstrip0_unique in R. now rewrite <- R.
Qed.

(** Values that stand for others: ints in an F32 field, True in an F64 field, a
    tuple of ints for a vector and for a quaternion with negative W. *)
Lemma small_as_float z f : float_of_int z = Ok f -> Z.abs z <= 2 ^ 53 -> int_as_float z f.
Proof.
  intros E B. destruct (float_of_small z B) as (g & G & (V & F) & R). rewrite E in G. injection G as <-.
  split; [exact V|]. split; [now apply finite_SF|]. split; [|exact (float_of_int_sign z f E)].
  now rewrite R, int_format.
Qed.
Lemma small_fits z f : int_as_float z f -> Z.abs z <= 2 ^ 53 -> float_fits MVT_F32 f.
Proof.
  intros (V & F & R & _) B. split; [exact V|]. intros _ _. rewrite R, int_format by exact B.
  apply Rle_lt_trans with (bpow radix2 53).
  - apply abs_round_le_generic.
    + apply FLT_exp_valid. reflexivity.
    + apply valid_rnd_N.
    + apply generic_format_bpow. unfold FLT_exp. lia.
    + rewrite <- abs_IZR. change (bpow radix2 53) with (IZR (2 ^ 53)). now apply IZR_le.
  - now apply bpow_lt.
Qed.
Example C07_ints_for_floats : forall a b c, Forall (fun z => Z.abs z <= 2 ^ 53) [a; b; c] ->
  let fld t n := {| tv_name := "F"; tv_type := Some t; tv_size := Some n |} in
  in_range (fld MVT_F32 4) (VInt a) /\ in_range (fld MVT_F64 8) (VBool true) /\
  in_range (fld MVT_LLVector3 12) (VTuple [NI a; NI b; NI c]) /\
  in_range (fld MVT_LLQuaternion 12) (VTuple [NI a; NI b; NI c; NI (-1)]).
Proof.
  intros a b c H fld. inversion H as [|? ? A H1]; subst. inversion H1 as [|? ? B H2]; subst. inversion H2 as [|? ? C _]; subst.
  assert (forall z, Z.abs z <= 2 ^ 53 -> exists f, int_as_float z f) as K.
  { intros z Z. destruct (float_of_small z Z) as (f & E & _). exists f. now apply small_as_float. }
  destruct (K a A) as (fa & Fa), (K b B) as (fb & Fb), (K c C) as (fc & Fc).
  destruct (K (- a)) as (ga & Ga); [lia|]. destruct (K (- b)) as (gb & Gb); [lia|]. destruct (K (- c)) as (gc & Gc); [lia|].
  split; [|split; [|split]].
  - exists MVT_F32, (VFloat fa). split; [reflexivity|]. split; [eapply sf_number; eauto; constructor|].
    exists fa. split; [reflexivity|]. now apply small_fits with a.
  - destruct (K 1) as (f1 & F1); [lia|]. exists MVT_F64, (VFloat f1). split; [reflexivity|].
    split; [eapply sf_number; eauto; constructor|]. exists f1. split; [reflexivity|]. split; [apply F1|discriminate].
  - exists MVT_LLVector3, (VVec3 fa fb fc). split; [reflexivity|]. split; [apply sf_vector3; do 3 (apply Forall2_cons; [now apply item_int|]); constructor|].
    exists MVT_F32, [fa; fb; fc]. split; [reflexivity|]. do 3 (apply Forall_cons; [eapply small_fits; eauto|]). constructor.
  - exists MVT_LLQuaternion, (VQuat ga gb gc (S754_zero false)). split; [reflexivity|]. split.
    + apply sf_quat_neg with (w' := S754_finite true 4503599627370496 (-52)); try exact I.
      * do 3 (apply Forall2_cons; [now apply item_int|]). constructor.
      * apply item_int. now apply small_as_float.
    + exists ga, gb, gc, (S754_zero false). split; [reflexivity|].
      do 3 (apply Forall_cons; [eapply small_fits; eauto; lia|]). constructor.
Qed.

(** *** The shipped template *)
Lemma proper_usable t : proper_template t -> usable t.
Proof.
  intros (F & _ & _ & _ & B & N). rewrite Forall_forall in B. split; [exact F|]. split; [|split; [exact N|]].
  - intros tb Htb. destruct (B tb Htb) as (T & V & _). split; [destruct T as [->|[[-> _]| ->]]; discriminate|].
    intros v Hv. rewrite Forall_forall in V. destruct (V v Hv) as (ty & Ht & Hs). exists ty.
    destruct ty; try (exists (sizeof_mvt MVT_U8); now auto);
      try (eexists; split; [exact Ht|]; split; [exact Hs|reflexivity]).
    + destruct Hs as (n & Hs & Hn). exists n. auto.
    + destruct Hs as [Hs|Hs]; (eexists; split; [exact Ht|]; split; [exact Hs|]; cbn; auto).
  - intros tb Htb. apply (B tb Htb).
Qed.
(** Every message of the shipped template, sent and received with the shipped
    dictionary. *)
Theorem C07_shipped ts pv c x m t handled : parse_template_file Py26 template_text = Ok ts ->
  build_dict Py26 ts = Ok (dc_dict c) -> In t ts ->
  m_name m = t_name t -> conforming t m -> plain_header pv m ->
  udp_allowed x (t_name t) -> udp_allowed (dc_xml c) (t_name t) ->
  dc_handled c = Some handled -> handled (t_name t) = true \/ dc_deferred c = false ->
  t_blocks t = [] \/ (exists tb, In tb (t_blocks t) /\ instances m (tb_name tb) <> []) ->
  exists w m', serialize pv (dc_dict c) x m = Ok (Some w) /\ deserialize c w = Ok (Some m') /\ message_back t m m'.
Proof.
  intros P. pose proof (C53_unambiguous ts P) as U. pose proof (C53_proper ts P) as PR. clear P. intros Hbd Hin.
  apply (C07_round_trip Py26 pv ts c x m t handled Hbd); auto.
  - eapply Forall_impl; [|exact PR]. intros u Hu. apply well_formed_sized. apply (proper_usable u Hu).
  - rewrite Forall_forall in PR. apply proper_usable, PR, Hin.
Qed.
Print Assumptions C07_shipped.
Example C07_shipped_ex : exists ts d t, parse_template_file Py26 template_text = Ok ts /\ build_dict Py26 ts = Ok d /\
  In t ts /\ t_name t = "CompletePingCheck"%string /\
  conforming t (mk_message "CompletePingCheck" [One (mk_block "PingID" [("PingID"%string, VInt 5)])]).
Proof.
  destruct (C53_found_again shipped_templates C53_parsed) as (d & D & _).
  exists shipped_templates, d, (nth 5 shipped_templates s_ping).
  split; [exact C53_parsed|]. split; [exact D|]. split; [apply (nth_error_In _ 5); vm_compute; reflexivity|].
  split; [vm_compute; reflexivity|].
  intros tb [<-|[]]. eexists. split; [vm_compute; reflexivity|]. split; [vm_compute; reflexivity|].
  intros b v [<-|[]] [<-|[]]. eexists. split; [reflexivity|]. eapply proper_in_range; [reflexivity|]. exists 5. split; [constructor|cbn; lia].
Qed.

(** ** C26 *)
(** The shipped PacketAck: one Variable block "Packets" with one U32 "ID". *)
Definition packet_ack_template (t : template) : Prop :=
  t_name t = "PacketAck"%string /\ (exists f, t_freq t = Some f /\ codable f (t_num t)) /\
  exists n, t_blocks t = [{| tb_name := "Packets"; tb_type := Some MBT_VARIABLE; tb_number := n;
                             tb_vars := [{| tv_name := "ID"; tv_type := Some MVT_U32; tv_size := Some 4 |}] |}].
Theorem C26_decodes pv' pv ts c x m p t handled :
  build_dict pv' ts = Ok (dc_dict c) -> Forall sized ts -> unambiguous ts -> In t ts -> packet_ack_template t ->
  acknowledges m p -> 1 <= zlen p <= 251 -> Forall (fun i => 0 <= i < 2 ^ 32) p ->
  0 <= m_id m < 2 ^ 32 -> SpecLayout.written pv true 4 (m_id m) ->
  udp_allowed x "PacketAck" -> udp_allowed (dc_xml c) "PacketAck" ->
  dc_handled c = Some handled -> handled "PacketAck"%string = true \/ dc_deferred c = false ->
  exists w m', serialize pv (dc_dict c) x m = Ok (Some w) /\ deserialize c w = Ok (Some m') /\
    m_name m' = "PacketAck"%string /\ m_id m' = m_id m /\
    Forall2 (fun b i => block_getitem b "ID" = Ok (VInt i)) (instances m' "Packets") p.
Proof.
  intros Hbd Hsz Hun Hin (Tn & Tf & n & Tb) (An & Af & Aa & bl & Ab & Ai) Hp Hr I1 I2 X1 X2 Hh Hw.
  set (id := {| tv_name := "ID"; tv_type := Some MVT_U32; tv_size := Some 4 |}) in *.
  set (tb := {| tb_name := "Packets"; tb_type := Some MBT_VARIABLE; tb_number := n; tb_vars := [id] |}) in *.
  assert (L : List.length bl = List.length p) by exact (Forall2_len _ _ _ Ai).
  assert (In1 : instances m "Packets" = bl) by (unfold instances, get_block; rewrite Ab; reflexivity).
  assert (U : usable t).
  { split; [exact Tf|]. rewrite Tb. split; [|split; [cbn; repeat constructor; auto|]].
    - intros u Hu. rewrite Tb in Hu. destruct Hu as [<-|[]]. split; [discriminate|]. intros v [<-|[]]. exists MVT_U32, 4. auto.
    - intros u [<-|[]]. cbn. repeat constructor; auto. }
  assert (C : conforming t m).
  { intros u Hu. rewrite Tb in Hu. destruct Hu as [<-|[]]. exists bl. cbn [tb_name tb].
    split; [unfold get_block; rewrite Ab; reflexivity|]. split; [cbn; unfold zlen in *; lia|].
    intros b v Hb [<-|[]]. revert Hr Hb. clear -Ai. induction Ai as [|b' i bl p (_ & _ & G) _ IH]; [intros _ []|].
    intros Hr [->|Hb]; inversion Hr; subst; [|auto]. exists (VInt i). split; [exact G|]. eapply proper_in_range; [reflexivity|]. exists i. split; [constructor|]. assumption. }
  rewrite <- Tn in X1, X2, Hw.
  destruct (C07_round_trip pv' pv ts c x m t handled) as (w & m' & S & D & B); auto; try congruence.
  - split; [rewrite Af; lia|]. rewrite Af. auto.
  - right. exists tb. rewrite Tb. split; [now left|]. change (tb_name tb) with "Packets"%string. rewrite In1.
    destruct bl; [|discriminate]. destruct p; [|discriminate]. unfold zlen in Hp. cbn in Hp. lia.
  - exists w, m'. split; [exact S|]. split; [exact D|]. destruct B as (B1 & B2 & B3 & _ & _ & _ & _ & B4).
    split; [congruence|]. split; [exact B3|]. destruct (B4 tb) as [B5 _]; [rewrite Tb; now left|].
    change (tb_name tb) with "Packets"%string in B5. rewrite In1 in B5. revert Ai. clear -B5. revert p.
    induction B5 as [|b b' bl bs (_ & _ & G) _ IH]; intros p Ai; inversion Ai as [|? i ? p' (_ & _ & H) Ai']; subst; constructor; auto.
    destruct (G id (or_introl eq_refl)) as (x & y & G1 & G2 & G3). cbn in G1, G2. rewrite H in G1. injection G1 as <-.
    rewrite G2. destruct G3 as (t & x' & [= <-] & SF & z & Z1 & ->). apply stands_other in SF; try discriminate; [|reflexivity].
    subst x'. inversion Z1. reflexivity.
Qed.
Print Assumptions C26_decodes.
(** The ids that are waiting to be acknowledged are 32-bit numbers, so they fit. *)
Theorem C26_ids_fit env st a : reachable env st -> Forall (fun i => 0 <= i < 2 ^ 32) (pending_acks st a).
Proof.
  intros (ops & ->). revert a. induction ops as [|o ops IH] using rev_ind; [constructor|]. intros a.
  assert (RA : fst (run env init_state (ops ++ [o])) = fst (step env (fst (run env init_state ops)) o)).
  { clear. generalize init_state. induction ops as [|o' ops IH]; intros st; cbn [app]; rewrite !run_fst; [reflexivity|apply IH]. }
  rewrite RA. set (st := fst (run env init_state ops)) in *. assert (R : reachable env st) by (exists ops; reflexivity).
  assert (D : (exists h b n, o = Receive h b n) \/ forall h b n, o <> Receive h b n).
  { destruct o; try (right; discriminate). left; eauto. }
  destruct D as [(h & buf & n & ->)|D].
  - cbn [step]. destruct (receive_check env st h buf n) as [st' r] eqn:E. cbn [fst].
    destruct (host_address st h) as [b|] eqn:H.
    + destruct (Z_le_gt_dec n 0) as [L|L].
      * rewrite (C25_empty env st h b buf n H L) in E. injection E as <- _. apply IH.
      * destruct (C25_queued env st h b buf n st' r R H ltac:(lia) E) as [Q1 Q2].
        destruct (addr_dec a b) as [->|N]; [|rewrite Q2 by exact N; apply IH]. rewrite Q1. apply Forall_app. split; [apply IH|].
        assert (S : forall k, sequence_number buf = Some k -> 0 <= k < 2 ^ 32).
        { intros k. unfold sequence_number. destruct buf as [|b0 [|b1 [|b2 [|b3 [|b4 s]]]]]; try discriminate. intros [= <-].
          rewrite value_msb_be. change (2 ^ 32) with (2 ^ (8 * zlen (rev [b1; b2; b3; b4]))). apply le_val_range. }
        unfold acks_due. destruct (deserialize (deser_conf env st) buf) as [[m|]|e] eqn:Ed; [| |constructor].
        -- destruct (trusted st b); [constructor|]. destruct (m_reliable m); [|constructor]. constructor; [|constructor].
           apply S. apply (C25_number _ _ _ Ed).
        -- destruct (sequence_number buf) as [k|]; constructor; auto.
    + unfold receive_check in E. unfold host_address in H. rewrite H in E. injection E as <- _. apply IH.
  - destruct (C25_only_receive env st o a R D) as [-> | [-> _]]; [apply IH|constructor].
Qed.
Print Assumptions C26_ids_fit.
Example C26_decodes_ex : packet_ack_template d_ack /\
  exists w m', serialize Py27 d_dict [] (at_msg (hd {| at_addr := d_a; at_msg := s_msg; at_data := None |}
      (o_sends (snd (process_acks d_env d_st [] d_sock))))) = Ok (Some w) /\
    deserialize {| dc_dict := d_dict; dc_xml := []; dc_deferred := false; dc_handled := Some (fun _ => false) |} w = Ok (Some m') /\
    map (fun b => block_getitem b "ID") (instances m' "Packets") = [Ok (VInt 9); Ok (VInt 10)].
Proof.
  split; [split; [reflexivity|]; split; [exists FIXED; split; [reflexivity|cbn; lia]|eexists; reflexivity]|].
  do 2 eexists. split; [vm_compute; reflexivity|]. split; vm_compute; reflexivity.
Qed.
