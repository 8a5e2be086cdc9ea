(** Why a datagram was dropped: what the deserializer logs (Logging.v). *)
From Verif Require Import LoggingProofs SpecCodec SpecWire SpecLayout SpecCut SpecLogging Lib CodecProofs HeaderProofs CutProofs PacketMore PacketRules PacketProofs DecodeProofs.

(** Decoding logs one line when it gives up on short data, and nothing otherwise. *)
Definition cut_trace {A} (name : string) (data : bytes) (x : lres (option A)) : Prop :=
  match x with
  | (t, Ok None) => exists w, zlen data < w /\ lines t = [ShortLine w (zlen data) name]
  | (t, _) => t = []
  end.
Lemma lines_app t t' : lines (t ++ t') = lines t ++ lines t'.
Proof. apply flat_map_app. Qed.
Lemma cut_lift {A} name data (a : A) : cut_trace name data (lift (Ok (Some a))).
Proof. reflexivity. Qed.
Lemma cut_bind {A B} name data (x : lres (option A)) (f : A -> lres (option B)) :
  cut_trace name data x -> (forall a, snd x = Ok (Some a) -> cut_trace name data (f a)) ->
  cut_trace name data (ldo r <- x; match r with None => lift (Ok None) | Some a => f a end).
Proof.
  destruct x as [t [[a|]|e]]; cbn; intros H Hf.
  - subst t. specialize (Hf a eq_refl). destruct (f a) as [t' r]. exact Hf.
  - rewrite app_nil_r. exact H.
  - exact H.
Qed.
Lemma lbind_ext {A B} (x : lres A) (f g : A -> lres B) : (forall a, f a = g a) -> lbind x f = lbind x g.
Proof. intros E. destruct x as [t [a|e]]; cbn; [|reflexivity]. now rewrite E. Qed.

Lemma decode_var_trace name block data v pos : var_ok v -> 0 <= pos -> cut_trace name data (decode_var_l name block data v pos).
Proof.
  intros (ty & s & Ht & Hs & Hok) Hp. unfold decode_var_l. rewrite Hs.
  assert (Fin : forall n p, 0 <= p -> 0 <= n -> match ty with MVT_FIXED | MVT_VARIABLE => True | _ => n = sizeof_mvt ty end ->
    cut_trace name data
      (if zlen data <? p + n
       then ldo _ <- (([Printed n], Ok tt) : lres unit);
            ldo _ <- emit true (ShortLine (p + n) (zlen data) name); lift (Ok None)
       else
         match unpack_data data (tv_type v) p n None with
         | Err e => ldo _ <- emit true (ProblemLine name block (tv_name v)); lift (Err e)
         | Ok u =>
             let u := match tv_type v, u with
                      | Some MVT_VARIABLE, VStr s =>
                          if String.eqb (tv_name v) "Data" then u else VStr (rstrip0 s)
                      | _, _ => u
                      end in
             lift (Ok (Some (u, p + n)))
         end)).
  { intros n p Hp' Hn Hty. destruct (Z.ltb_spec (zlen data) (p + n)) as [L|L].
    - cbn. exists (p + n). split; [exact L|reflexivity].
    - rewrite Ht. destruct (unpack_at_total data ty p n Hp' Hn L Hty) as [y ->]. reflexivity. }
  destruct (match ty with MVT_VARIABLE => true | _ => false end) eqn:EV.
  - destruct ty; try discriminate. clear EV. rewrite Ht in Fin |- *.
    destruct (Z.ltb_spec (zlen data) (pos + s)) as [L|L].
    + cbn. exists (pos + s). split; [exact L|reflexivity].
    + rewrite (prefix_read data s pos Hok Hp L).
      set (z := value_lsb_first (firstn (Z.to_nat s) (skipn (Z.to_nat pos) data))).
      assert (Hz : 0 <= z).
      { unfold z. set (len := firstn _ _). pose proof (dec_range LE len). rewrite <- value_dec in H. cbn [value] in H. lia. }
      assert (1 <= s) by (cbn in Hok; lia).
      specialize (Fin z (pos + s) ltac:(lia) Hz I). cbn [lift lbind app] in Fin |- *.
      match goal with |- cut_trace _ _ (let '(t', r) := ?y in _) => destruct y as [t' r] end. exact Fin.
  - assert (E : forall A (a b : A), match tv_type v with Some MVT_VARIABLE => a | _ => b end = b).
    { intros. rewrite Ht. destruct ty; try reflexivity. discriminate EV. }
    rewrite E. assert (0 <= s) by (destruct ty; try discriminate EV; cbn in Hok; lia).
    specialize (Fin s pos Hp ltac:(lia)). cbn [lift lbind app] in Fin |- *.
    match goal with |- cut_trace _ _ (let '(t', r) := ?y in _) => destruct y as [t' r] end. apply Fin.
    destruct ty; auto; discriminate EV.
Qed.
Lemma decode_vars_trace name data vs : Forall var_ok vs -> forall b pos, 0 <= pos ->
  cut_trace name data (decode_vars_l name data vs b pos).
Proof.
  induction 1 as [|v vs Hv Hvs IH]; intros b pos Hp; cbn [decode_vars_l]; [reflexivity|].
  set (f := fun uq : pyval * Z => decode_vars_l name data vs (add_variable b (tv_name v) {| v_data := fst uq; v_type := tv_type v |}) (snd uq)).
  rewrite (lbind_ext _ _ (fun r => match r with None => lift (Ok None) | Some a => f a end)) by (intros [[]|]; reflexivity).
  apply cut_bind; [now apply decode_var_trace|]. intros [u q] E. rewrite decode_var_same in E.
  destruct (decode_var_pos data v pos u q Hp (var_ok_pos v Hv) E) as (w & _ & -> & _).
  apply IH. cbn [snd]. pose proof (zlen_nonneg w). lia.
Qed.
Lemma decode_instances_trace name data tb : block_ok tb -> forall n i d pos, 0 <= pos ->
  cut_trace name data (decode_instances_l name data tb i n d pos).
Proof.
  intros Hb. induction n as [|n IH]; intros i d pos Hp; cbn [decode_instances_l]; [reflexivity|].
  set (f := fun bq : block * Z => decode_instances_l name data tb (i + 1) n (add_block d (fst bq)) (snd bq)).
  rewrite (lbind_ext _ _ (fun r => match r with None => lift (Ok None) | Some a => f a end)) by (intros [[]|]; reflexivity).
  apply cut_bind; [apply decode_vars_trace; [exact (proj2 Hb)|exact Hp]|]. intros [b q] E. rewrite decode_vars_same in E.
  destruct (decode_vars_inv data (tb_vars tb) (block_ok_pos tb Hb) _ _ _ _ Hp E) as (ws & ys & _ & _ & -> & _).
  apply IH. cbn [snd]. pose proof (zlen_nonneg (List.concat ws)). lia.
Qed.
Lemma decode_blocks_trace name data tbs : Forall block_ok tbs -> forall d pos, 0 <= pos ->
  cut_trace name data (decode_blocks_l name data tbs d pos).
Proof.
  induction 1 as [|tb tbs Hb Hbs IH]; intros d pos Hp; cbn [decode_blocks_l]; [reflexivity|].
  assert (Rest : forall n p, 0 <= p -> cut_trace name data
    (ldo r <- decode_instances_l name data tb 0 (Z.to_nat n) d p;
     match r with None => lift (Ok None) | Some (d', pos') => decode_blocks_l name data tbs d' pos' end)).
  { intros n p Hp'.
    set (f := fun bq : blockdict * Z => decode_blocks_l name data tbs (fst bq) (snd bq)).
    rewrite (lbind_ext _ _ (fun r => match r with None => lift (Ok None) | Some a => f a end)) by (intros [[]|]; reflexivity).
    apply cut_bind; [now apply decode_instances_trace|]. intros [b q] E. rewrite decode_instances_same in E.
    destruct (decode_instances_inv data tb (block_ok_pos tb Hb) _ _ _ _ _ _ Hp' E) as (w & bs & _ & _ & _ & -> & _).
    apply IH. cbn [snd]. pose proof (zlen_nonneg w). lia. }
  destruct (tb_type tb) as [[]|] eqn:T; [| | |destruct Hb; congruence].
  - specialize (Rest 1 pos Hp). cbn [lift lbind app] in Rest |- *.
    match goal with |- cut_trace _ _ (let '(t', r) := ?y in _) => destruct y as [t' r] end. exact Rest.
  - specialize (Rest (tb_number tb) pos Hp). cbn [lift lbind app] in Rest |- *.
    match goal with |- cut_trace _ _ (let '(t', r) := ?y in _) => destruct y as [t' r] end. exact Rest.
  - cbn [lift lbind]. destruct (unpack_z data MVT_U8 pos None) as [c|e]; [|reflexivity].
    specialize (Rest c (pos + 1) ltac:(lia)). cbn [lift lbind app] in Rest |- *.
    match goal with |- cut_trace _ _ (let '(t', r) := ?y in _) => destruct y as [t' r] end. exact Rest.
Qed.
Lemma cut_lbind {A B} name data (r : res A) (f : A -> lres (option B)) :
  (forall a, r = Ok a -> cut_trace name data (f a)) -> cut_trace name data (lbind (lift r) f).
Proof. destruct r as [a|e]; cbn; intros H; [|reflexivity]. specialize (H a eq_refl). now destruct (f a). Qed.
Lemma decode_data_trace t data : Forall block_ok (t_blocks t) -> cut_trace (t_name t) data (decode_data_l t data).
Proof.
  intros Hb. unfold decode_data_l.
  apply cut_lbind. intros c0 _. apply cut_lbind. intros id _. apply cut_lbind. intros acks _.
  apply cut_lbind. intros off Eo. apply cut_lbind. intros fb Ef.
  set (f := fun bq : blockdict * Z =>
    if (zlen (fst bq) <=? 0) && (0 <? zlen (t_blocks t)) then lift (Err MessageDeserializationErr)
    else lift (Ok (Some {| m_name := t_name t; m_blocks := fst bq; m_flags := ord c0; m_id := id;
                       m_eqid := 0; m_acks := acks; m_num_acks := zlen acks;
                       m_trusted := false; m_reliable := has_flag (ord c0) LL_RELIABLE_FLAG; m_retries := 1 |}))).
  rewrite (lbind_ext _ _ (fun r => match r with None => lift (Ok None) | Some a => f a end)) by (intros [[]|]; reflexivity).
  apply cut_bind.
  - apply decode_blocks_trace; [exact Hb|].
    assert (0 <= off) by (apply unpack_u8_at in Eo as (c & r & _ & ->); [pose proof (ord_range c); lia|unfold PHL_OFFSET; lia]).
    assert (0 <= fb) by (unfold freq_bytes in Ef; destruct (t_freq t) as [[]|]; inversion Ef; cbn; lia).
    unfold PACKET_ID_LENGTH. lia.
  - intros [d p] _. unfold f. destruct ((zlen (fst (d, p)) <=? 0) && (0 <? zlen (t_blocks t))); reflexivity.
Qed.

(** ** Whole datagrams *)
Lemma header_slice (six h rest : bytes) : zlen six = 6 -> pyslice (six ++ h ++ rest) PACKET_ID_LENGTH 12 = firstn 6 (h ++ rest).
Proof.
  intros H6. unfold PACKET_ID_LENGTH. rewrite pyslice_pos by lia. rewrite skipn_app.
  rewrite skipn_all2 by (unfold zlen in H6; lia).
  replace (Z.to_nat 6 - List.length six)%nat with O by (unfold zlen in H6; lia). reflexivity.
Qed.
Section Reason.
Context (pv : pyver) (ts : list template) (s hs : settings) (d : tdict) (x : xmltable) (handled : string -> bool).
Context (Hb : build_dict pv ts = Ok d) (Hw : Forall well_formed ts)
        (Hx : forall t, In t ts -> sget (t_name t) x <> Some None).
Let wanted name := handled name = true \/ ENABLE_DEFERRED_PACKET_PARSING s = false.
Let says_why buf (y : lres (option message)) : Prop :=
  match y with
  | (t, Ok None) => exists l, reason d (udp_allowed x) wanted buf l /\
      ((switched_on s hs l /\ lines t = [l]) \/ (~ switched_on s hs l /\ lines t = []))
  | (t, _) => t = []
  end.
Lemma says_lift buf (r : res (option message)) : r <> Ok None -> says_why buf (lift r).
Proof. destruct r as [[m|]|e]; cbn; congruence. Qed.
Lemma deserialize_l_says buf : says_why buf (deserialize_l s d x handled buf).
Proof.
  unfold deserialize_l.
  destruct (strip_acks buf) as [[mb tr]|e] eqn:Es; cbn [lift lbind]; [|reflexivity].
  destruct (expand mb) as [plain|e] eqn:Ee; cbn [lift lbind]; [|reflexivity].
  destruct (unwrapped_inv buf mb tr plain Es Ee) as (ids & fl & tl & tl' & Hu & -> & Epl & Htr).
  destruct (Z_le_gt_dec (zlen plain) 6) as [L|L].
  { unfold decode_template_l, PACKET_ID_LENGTH. destruct (Z.leb_spec (zlen plain) 6); [reflexivity|lia]. }
  destruct (header_cases plain) as [(e & Hsh)|(six & h & rest & f & n & Ep & H6 & Hn & Hc)]; [lia| |].
  { pose proof (decode_template_same d plain) as E. rewrite (decode_template_short _ _ _ Hsh) in E.
    unfold decode_template_l in *. destruct (zlen plain <=? PACKET_ID_LENGTH); [reflexivity|].
    destruct (decode_header d (pyslice plain PACKET_ID_LENGTH 12)) as [[t|]|e']; cbn in E |- *; congruence. }
  pose proof (decode_template_same d plain) as E. rewrite Ep in E at 2.
  rewrite (decode_template_number _ six f n h rest H6 Hn Hc) in E.
  assert (Et : decode_template_l d plain =
    match get_template_by_pair d (Some f) n with
    | Some t => ([], Ok (Some t))
    | None => ([Line (UnknownLine (firstn 6 (h ++ rest)))], Ok None)
    end).
  { unfold decode_template_l in *. destruct (Z.leb_spec (zlen plain) PACKET_ID_LENGTH) as [L'|_]; [unfold PACKET_ID_LENGTH in L'; lia|].
    assert (Eh : pyslice plain PACKET_ID_LENGTH 12 = firstn 6 (h ++ rest)) by (rewrite Ep; now apply header_slice).
    rewrite Eh in *.
    destruct (decode_header d (firstn 6 (h ++ rest))) as [[t|]|e]; cbn in E |- *; try discriminate E; injection E as E; rewrite <- E; reflexivity. }
  rewrite Et. destruct (get_template_by_pair d (Some f) n) as [t|] eqn:Eg; cbn [lbind lift app].
  2: { exists (UnknownLine (firstn 6 (h ++ rest))). split.
       - eapply why_unknown; eauto.
       - left. split; [exact I|reflexivity]. }
  assert (Hca : carries d buf t) by (exists plain, tr, ids, six, h, rest, f, n; tauto).
  pose proof Hca as Hbo. apply carries_body in Hbo as (body & Hbo).
  assert (Hca' : carries (dc_dict (conf_of s d x handled)) buf t) by exact Hca.
  destruct (carried_template pv ts (conf_of s d x handled) buf t Hb Hca') as (t0 & Hin & Hst).
  assert (Hv : sget (t_name t) x <> Some None) by (destruct Hst as (<- & _); auto).
  assert (W : Forall block_ok (t_blocks t)).
  { rewrite Forall_forall in Hw. pose proof (Hw t0 Hin) as W. apply well_formed_blocks in W.
    destruct Hst as (_ & _ & _ & _ & _ & _ & Eb). now rewrite Eb in W. }
  assert (V : (validate_udp_msg x (t_name t) = Ok true /\ udp_allowed x (t_name t)) \/
              (validate_udp_msg x (t_name t) = Ok false /\ ~ udp_allowed x (t_name t))).
  { unfold validate_udp_msg, udp_allowed. destruct (sget (t_name t) x) as [[fv|]|]; [|congruence|left; auto].
    destruct (String.eqb_spec fv "template"); [left|right]; auto. }
  destruct V as [[V Ha]|[V Ha]]; rewrite V; cbn [lbind lift app negb].
  2: { exists (BannedInLine (t_name t)). split; [now constructor|]. left. split; [exact I|reflexivity]. }
  destruct (handled (t_name t) || negb (ENABLE_DEFERRED_PACKET_PARSING s)) eqn:Ew.
  - assert (Hwn : wanted (t_name t)).
    { apply orb_true_iff in Ew. rewrite negb_true_iff in Ew. exact Ew. }
    pose proof (decode_data_trace t (plain ++ tr) W) as T.
    pose proof (decode_data_same t (plain ++ tr)) as D.
    pose proof (body_outcome pv ts (conf_of s d x handled) handled buf t body Hb Hw eq_refl Hx Hbo) as (X & B & O).
    destruct B as [(_ & _ & B)|[(B & _)|(B & _)]]; [|contradiction|contradiction].
    rewrite (deserialize_unwrapped _ buf plain tr ids Hu) in B. rewrite Ep in B at 1.
    rewrite (decode_template_number _ six f n h rest H6 Hn Hc) in B. cbn [dc_dict conf_of bind] in B. rewrite Eg in B.
    cbn [rest_of dc_xml dc_handled dc_deferred conf_of] in B. rewrite V in B. cbn [bind negb] in B. rewrite Ew in B.
    rewrite <- D in B. clear D.
    destruct (decode_data_l t (plain ++ tr)) as [tr' [[m|]|e]]; cbn [snd finish cut_trace] in *; subst X.
    + subst tr'. reflexivity.
    + destruct T as (w & Hlt & T). cbn [lift lbind app says_why].
      destruct O as [((m & O) & _)|[(_ & Hcut & _)|(O & _)]]; [discriminate| |discriminate].
      exists (ShortLine w (zlen (plain ++ tr)) (t_name t)). split; [eapply why_cut; eauto|].
      left. split; [exact I|exact T].
    + subst tr'. destruct e; reflexivity.
  - assert (Hwn : ~ wanted (t_name t)).
    { apply orb_false_iff in Ew as [E1 E2]. apply negb_false_iff in E2. intros [K|K]; congruence. }
    exists (SkippedLine (t_name t)). split; [now constructor|]. cbn [switched_on].
    destruct (LOG_VERBOSE s), (ENABLE_UDP_LOGGING s), (LOG_SKIPPED_PACKETS s), (PROXY_LOGGING s); cbn;
      solve [left; repeat split; reflexivity | right; split; [intros (K1 & K2 & K3 & K4); congruence|reflexivity]].
Qed.
End Reason.
(** ** receive_check *)
Lemma handle_received hs cb r m h n i x : ~ In (Line (ReceivedLine h n i x)) (fst (handle_l hs cb r m)).
Proof.
  unfold handle_l. destruct (sget (m_name m) r) as [l|]; cbn [fst]; [|tauto].
  destruct (0 <? subscriber_count l); cbn [fst]; [|tauto].
  assert (K : ~ In (Line (ReceivedLine h n i x)) (fst (call_all_l cb m l))).
  { clear. induction l as [|s l IH]; cbn; [tauto|]. destruct (cb s m); cbn; [intuition discriminate|].
    destruct (call_all_l cb m l) as [t r]. cbn in *. intuition discriminate. }
  destruct (call_all_l cb m l) as [t e]. cbn [fst] in *. intros H. apply in_app_iff in H as [H|H]; [|tauto].
  destruct (handling_logged hs); cbn in H; intuition discriminate.
Qed.
Lemma call_all_notified cb m l : notified cb m l (fst (call_all_l cb m l)).
Proof.
  induction l as [|x l IH]; cbn; [constructor|]. destruct (cb x m) as [e|] eqn:E; [econstructor; exact E|].
  destruct (call_all_l cb m l) as [t r]. now constructor.
Qed.
Lemma handle_delivered s hs cb st m : delivered s hs cb m (subscribers st (m_name m)) (fst (handle_l hs cb (s_handler st) m)).
Proof.
  unfold handle_l, subscribers. destruct (sget (m_name m) (s_handler st)) as [l|]; [|reflexivity].
  destruct l as [|x l]; [reflexivity|]. unfold subscriber_count. rewrite zlen_cons. pose proof (zlen_nonneg l).
  destruct (Z.ltb_spec 0 (1 + zlen l)) as [_|K]; [|lia].
  pose proof (call_all_notified cb m (x :: l)) as N. destruct (call_all_l cb m (x :: l)) as [t e]. cbn [fst] in *.
  exists t. split; [exact N|]. unfold handling_logged. cbn [switched_on].
  destruct (LOG_VERBOSE hs), (UDP_SPAMMERS hs) as [|u us], (DISABLE_SPAMMERS hs); cbn;
    solve [left; split; [split; [reflexivity|auto]|reflexivity] | right; split; [|reflexivity]; intros [K1 [K2|K2]]; discriminate].
Qed.
Lemma receive_story pv ts s hs env st h a buf size :
  build_dict pv ts = Ok (e_des_dict env) -> Forall well_formed ts ->
  (forall t, In t ts -> sget (t_name t) (e_des_xml env) <> Some None) ->
  nth_error (s_hosts st) h = Some a -> 0 < size ->
  let d := e_des_dict env in let allowed := udp_allowed (e_des_xml env) in
  let wanted n := is_message_handled (s_handler st) n = true \/ ENABLE_DEFERRED_PACKET_PARSING s = false in
  let '(_, r, t) := receive_check_l s hs env st h buf size in
  (exists l, reason d allowed wanted buf l /\ r_calls r = [] /\
     ((switched_on s hs l /\ lines t = [l]) \/ (~ switched_on s hs l /\ lines t = []))) \/
  (exists m c, datagram_says d allowed wanted buf m /\ get_circuit (s_circuits st) a = Some c /\ c_trusted c = true /\
     r_res r = Ok None /\ r_calls r = [] /\ t = []) \/
  (exists m t', datagram_says d allowed wanted buf m /\
     ((ENABLE_UDP_LOGGING s = true /\ PROXY_LOGGING s = false /\ t = Line (received_line s a m buf) :: t') \/
      (~ (ENABLE_UDP_LOGGING s = true /\ PROXY_LOGGING s = false) /\ t = t')) /\
     (forall h n i x, ~ In (Line (ReceivedLine h n i x)) t') /\
     (if HANDLE_PACKETS s then delivered s hs (e_cb env) m (subscribers st (m_name m)) t' else t' = [])) \/
  (exists e, r_res r = Err e /\ t = [] /\ r_calls r = [] /\ (rejected d allowed wanted buf \/ header_failure buf e)).
Proof.
  intros Hb Hw Hx Ha Hsz d allowed wanted. unfold receive_check_l. rewrite Ha.
  destruct (Z.leb_spec size 0) as [L|_]; [lia|].
  pose proof (deserialize_l_says pv ts s hs d (e_des_xml env) (is_message_handled (s_handler st)) Hb Hw Hx buf) as W.
  pose proof (deserialize_same s d (e_des_xml env) (is_message_handled (s_handler st)) buf) as D.
  set (c := conf_of s d (e_des_xml env) (is_message_handled (s_handler st))) in *.
  assert (Hs : Forall sized ts) by (eapply Forall_impl; [|exact Hw]; intros; now apply well_formed_sized).
  pose proof (deserialize_says pv ts c (is_message_handled (s_handler st)) buf) as S.
  assert (Eh : s_handler (fst (find_circuit st h a)) = s_handler st) by (unfold find_circuit; now destruct (get_circuit (s_circuits st) a)).
  assert (Et : c_trusted (snd (find_circuit st h a)) = true ->
               exists ci, get_circuit (s_circuits st) a = Some ci /\ c_trusted ci = true).
  { unfold find_circuit. destruct (get_circuit (s_circuits st) a) as [ci|]; cbn; [eauto|discriminate]. }
  destruct (find_circuit st h a) as [st1 ci]. cbn [fst snd] in *.
  change (s_handler (set_counts st1 (s_in st1 + 1) (s_out st1))) with (s_handler st1). rewrite Eh. change (e_des_dict env) with d.
  destruct (deserialize_l s d (e_des_xml env) (is_message_handled (s_handler st)) buf) as [t [[m|]|e]] eqn:El;
    cbn [snd] in D; cbv zeta in W.
  - subst t. symmetry in D. apply S in D; [|exact Hb|exact Hs|reflexivity].
    destruct (c_trusted ci && negb (m_trusted m)) eqn:Eu.
    + right; left. apply andb_true_iff in Eu as [Eu _]. destruct (Et Eu) as (ci' & K1 & K2).
      exists m, ci'. repeat split; auto.
    + change (s_handler (put_circuit (set_counts st1 (s_in st1 + 1) (s_out st1)) a (handle_packet ci m))) with (s_handler st1). rewrite Eh.
      assert (Sw : forall t', (forall h n i x, ~ In (Line (ReceivedLine h n i x)) t') ->
         (if HANDLE_PACKETS s then delivered s hs (e_cb env) m (subscribers st (m_name m)) t' else t' = []) ->
         exists m' t'', datagram_says d allowed wanted buf m' /\
          ((ENABLE_UDP_LOGGING s = true /\ PROXY_LOGGING s = false /\
            ([] ++ (if ENABLE_UDP_LOGGING s && negb (PROXY_LOGGING s) then [Line (ReceivedLine (if ENABLE_HOST_LOGGING s then Some a else None) (m_name m) (m_id m) (if ENABLE_BYTES_TO_HEX_LOGGING s then Some (bytes_to_hex buf) else None))] else [])) ++ t' =
               Line (received_line s a m' buf) :: t'') \/
           (~ (ENABLE_UDP_LOGGING s = true /\ PROXY_LOGGING s = false) /\
            ([] ++ (if ENABLE_UDP_LOGGING s && negb (PROXY_LOGGING s) then [Line (ReceivedLine (if ENABLE_HOST_LOGGING s then Some a else None) (m_name m) (m_id m) (if ENABLE_BYTES_TO_HEX_LOGGING s then Some (bytes_to_hex buf) else None))] else [])) ++ t' = t'')) /\
          (forall h n i x, ~ In (Line (ReceivedLine h n i x)) t'') /\
          (if HANDLE_PACKETS s then delivered s hs (e_cb env) m' (subscribers st (m_name m')) t'' else t'' = [])).
      { intros t' Ht' Hp'. exists m, t'. split; [exact D|]. split; [|split; [exact Ht'|exact Hp']].
        destruct (ENABLE_UDP_LOGGING s), (PROXY_LOGGING s); cbn [andb negb];
          solve [left; repeat split; reflexivity | right; split; [intros [K1 K2]; discriminate|reflexivity]]. }
      destruct (HANDLE_PACKETS s) eqn:Hp.
      * specialize (Sw (fst (handle_l hs (e_cb env) (s_handler st) m))). destruct (handle_l hs (e_cb env) (s_handler st) m) as [t' e] eqn:Eha.
        right; right; left. apply Sw; [|pose proof (handle_delivered s hs (e_cb env) st m) as K; rewrite Eha in K; exact K]. intros. pose proof (handle_received hs (e_cb env) (s_handler st) m h0 n i x) as K. rewrite Eha in K. exact K.
      * specialize (Sw []). rewrite app_nil_r in Sw. right; right; left. apply Sw; [|reflexivity]. cbn. tauto.
  - destruct W as (l & Hr & W).
    destruct (do _ <- pyindex buf 0; unpack_z buf MVT_U32 1 (Some BE)) as [id|e]; left; exists l; (split; [exact Hr|split; [reflexivity|exact W]]).
  - right; right; right. subst t. exists e. repeat split. symmetry in D.
    assert (De : e = MessageDeserializationErr \/ e <> MessageDeserializationErr) by (destruct e; auto; right; discriminate). destruct De as [->|Ne].
    + left. apply (rejected_iff pv ts c (is_message_handled (s_handler st)) Hb Hw eq_refl Hx buf). exact D.
    + right. now apply (deserialize_failures pv ts c (is_message_handled (s_handler st)) buf e Hb Hw eq_refl Hx).
Qed.

(** ** Failures to send *)
(** The serializer contains no assertion. *)
Definition calm {A} (r : res A) : Prop := r <> Err AssertionErr.
Lemma calm_bind {A B} (x : res A) (f : A -> res B) : calm x -> (forall a, calm (f a)) -> calm (bind x f).
Proof. unfold calm. destruct x as [a|e]; cbn; [auto|]. congruence. Qed.
Lemma calm_map {A B} (f : A -> B) x : calm x -> calm (res_map f x).
Proof. unfold calm. destruct x; cbn; congruence. Qed.
Lemma calm_need x : calm x -> calm (need x).
Proof. unfold calm. destruct x as [[b|]|e]; cbn; congruence. Qed.
Lemma calm_int pv en sg n z : calm (pack_int pv en sg n z).
Proof. unfold calm, pack_int. destruct (in_range sg n z), pv, (Nat.ltb n 8); discriminate. Qed.
Lemma calm_float en db f : calm (pack_float en db f).
Proof.
  unfold pack_float. destruct db; apply calm_map; unfold calm.
  - unfold pack_f64. destruct f; discriminate.
  - unfold pack_f32. repeat (destruct f || match goal with |- (if ?b then _ else _) <> _ => destruct b | |- match ?b with _ => _ end <> _ => destruct b end); discriminate.
Qed.
Lemma calm_num n : calm (num_float n).
Proof. unfold calm. destruct n as [z|f]; cbn [num_float]; [|discriminate]. destruct (float_of_int z); discriminate. Qed.
Lemma calm_nums en db l : calm (pack_nums en db l).
Proof.
  induction l as [|n l IH]; cbn [pack_nums]; [discriminate|].
  apply calm_bind; [apply calm_num|]. intros f. apply calm_bind; [apply calm_float|]. intros b. apply calm_bind; [exact IH|]. discriminate.
Qed.
Lemma calm_tuple en db v : calm (pack_tuple en db v).
Proof. destruct v; cbn [pack_tuple]; try discriminate; try (match goal with |- context [match ?l with [] => _ | _ :: _ => _ end] => destruct l end; discriminate). apply calm_nums. Qed.
Lemma calm_pack pv v t et : calm (pack_data pv v t et).
Proof.
  unfold pack_data. destruct t as [t|]; [|discriminate]. destruct (packer_table t) as [en0 fn]. apply calm_map.
  destruct fn.
  - apply calm_bind; [|intros; apply calm_int]. unfold calm. destruct v; cbn [as_pyint]; try discriminate.
    match goal with |- context [int_of_float ?g] => destruct g end; destruct pv; discriminate.
  - apply calm_bind; [|intros; apply calm_float]. destruct v; cbn [as_pyfloat]; try discriminate; apply calm_num.
  - unfold pack_vector3. destruct v; apply calm_tuple.
  - apply calm_tuple.
  - apply calm_tuple.
  - destruct v; cbn [pack_quat]; try discriminate.
    + destruct (Nat.leb _ _); discriminate.
    + destruct (Nat.leb _ _); discriminate.
    + apply calm_bind; [|intros; apply calm_nums].
      unfold pack_quaternion_to_vector3. do 4 (destruct l as [|? l]; [discriminate|]). destruct (num_nonneg _); discriminate.
    + apply calm_bind; [|intros; apply calm_nums]. cbn [pack_quaternion_to_vector3]. destruct (num_nonneg _); discriminate.
  - destruct v; discriminate.
  - destruct v; discriminate.
Qed.
Lemma calm_var pv b v : calm (build_var pv b v).
Proof.
  unfold build_var. apply calm_bind.
  { unfold get_variable. destruct (sget (tv_name v) (b_vars b)); discriminate. }
  intros x. apply calm_bind; [apply calm_pack|]. intros data.
  assert (K : calm (need (Ok data))) by (apply calm_need; discriminate).
  destruct (tv_type v) as [[]|]; try exact K. destruct data as [dd|]; [|discriminate].
  apply calm_bind; [|discriminate]. destruct (tv_size v) as [z|]; [|discriminate].
  destruct z as [|z|z]; try discriminate. destruct z as [z|z|]; [discriminate| |apply calm_need, calm_pack].
  destruct z as [z|z|]; [discriminate| |apply calm_need, calm_pack]. destruct z as [z|z|]; [discriminate|discriminate|apply calm_need, calm_pack].
Qed.
Lemma calm_block pv tb m : calm (build_block pv tb m).
Proof.
  unfold build_block. apply calm_bind.
  { unfold get_block. destruct (sget (tb_name tb) (m_blocks m)); discriminate. }
  intros bl. apply calm_bind.
  { destruct (tb_type tb) as [[]|]; try discriminate. destruct (tb_number tb =? zlen bl); discriminate. }
  intros _. apply calm_bind.
  { destruct (tb_type tb) as [[]|]; try discriminate. apply calm_int. }
  intros count. apply calm_bind; [|discriminate].
  induction bl as [|b bl IH]; cbn [build_instances]; [discriminate|]. apply calm_bind.
  - generalize (tb_vars tb). induction l as [|v vs IHv]; cbn [build_vars]; [discriminate|].
    apply calm_bind; [apply calm_var|]. intros. apply calm_bind; [exact IHv|]. discriminate.
  - intros. apply calm_bind; [exact IH|]. discriminate.
Qed.
Lemma calm_serialize pv d x m : calm (serialize pv d x m).
Proof.
  unfold serialize. destruct (get_template d (m_name m)) as [t|]; [|discriminate].
  apply calm_bind.
  { unfold validate_udp_msg. destruct (sget (t_name t) x) as [[f|]|]; try discriminate. }
  intros ok. destruct (negb ok); [discriminate|].
  do 3 (apply calm_bind; [apply calm_need, calm_pack|]; intros).
  apply calm_bind; [apply calm_need; discriminate|]. intros.
  apply calm_bind; [|intros; apply calm_bind; [|discriminate]].
  - induction (t_blocks t) as [|tb tbs IH]; cbn [build_blocks]; [discriminate|].
    apply calm_bind; [apply calm_block|]. intros. apply calm_bind; [exact IH|]. discriminate.
  - destruct (String.eqb _ _); [apply calm_int|discriminate].
Qed.
Lemma send_failure s hs env st mref href md sock a :
  nth_error (s_hosts st) href = Some a -> host_ok a = true ->
  let '(_, o, t) := send_message_l s hs env st mref href md sock in
  o_res o = Ok None ->
  exists m, o_sends o = [{| at_addr := a; at_msg := m; at_data := None |}] /\
    ((exists t', t = t' ++ [Line (FailedLine m)]) \/
     (exists b, sock a b = Some AssertionErr /\ exists t', t = t' ++ [Handed a m b false])).
Proof.
  intros Ha Hok. unfold send_message_l. rewrite Ha. destruct (nth_error (s_msgs st) mref) as [m|]; [|discriminate].
  rewrite Hok. cbn [negb].
  destruct (if HANDLE_OUTGOING_PACKETS s then handle_l hs (e_cb env) (s_handler st) m else ([], None)) as [t0 [e|]]; [discriminate|].
  destruct (find_circuit st href a) as [st1 c].
  destruct (match md with Reliable r => prepare_packet c mref m LL_RELIABLE_FLAG r | Plain => prepare_packet c mref m LL_NONE 0 end) as [c1 m1].
  set (st2 := match md with Plain => _ | Reliable _ => _ end). clearbody st2.
  set (sending := ldo send_buffer <- _; _).
  assert (K : match sending with
              | (t, Err AssertionErr) => exists b, sock a b = Some AssertionErr /\ exists t', t = t' ++ [Handed a m1 b false]
              | _ => True end).
  { unfold sending. pose proof (calm_serialize (e_pv env) (e_ser_dict env) (e_ser_xml env) m1) as C. unfold calm in C.
    rewrite <- serialize_l_same in C. destruct (serialize_l _ _ _ m1) as [ts [[b|]|e]]; cbn [snd lbind] in *.
    - rewrite log_sent_eq. cbn [send_packet_l].
      destruct (ENABLE_UDP_LOGGING s && _); destruct (sock a b) as [e|] eqn:K; cbn; try exact I; destruct e; try exact I.
      + exists b. split; [exact K|]. exists (ts ++ [Line (sent_line s a m1 b)]). now rewrite <- app_assoc.
      + exists b. split; [exact K|]. now exists ts.
    - rewrite log_sent_eq. cbn [send_packet_l].
      destruct (ENABLE_UDP_LOGGING s && _); [destruct (ENABLE_BYTES_TO_HEX_LOGGING s)|]; exact I.
    - destruct e; try exact I. congruence. }
  destruct sending as [t [b|e]]; [discriminate|].
  destruct (match e with AssertionErr => true | _ => false end) eqn:Ae.
  - destruct e; try discriminate. cbn. intros _. exists m1. split; [reflexivity|]. right.
    destruct K as (b & K & t' & ->). exists b. split; [exact K|]. exists (t0 ++ t'). now rewrite app_nil_r, app_assoc.
  - assert (E : contain_l e m1 = match msg_str_error m1 with
         | Some e' => lift (Err e')
         | None => ldo _ <- emit true (FailedLine m1); lift (Ok None)
         end) by (destruct e; try reflexivity; discriminate).
    rewrite E. clear E K Ae. destruct (msg_str_error m1) as [e'|]; [discriminate|]. cbn. intros _.
    exists m1. split; [reflexivity|]. left. exists (t0 ++ t). now rewrite app_assoc.
Qed.
