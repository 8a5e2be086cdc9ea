(** One operation after the other: the schedules in which nothing is interleaved
    are the histories of C21-C32. *)
From Coq Require Import Permutation.
From Verif Require Import Lib SpecMessages MessageProofs SpecGreenlets EventsProofs LayoutProofs PacketProofs PacketMore PacketForms DispatchProofs DispatchMore GreenletProofs GreenletAcks GreenletMore.

Inductive leads (env : denv) : step_result -> step_result -> Prop :=
| ld_refl r : leads env r r
| ld_step st ms th e st1 ms1 th1 r : resume env st e th = (st1, ms1, th1) ->
    leads env (st1, ms ++ ms1, th1) r -> leads env (st, ms, th) r.
Lemma leads_trans env r1 r2 r3 : leads env r1 r2 -> leads env r2 r3 -> leads env r1 r3.
Proof. induction 1; [auto|]. intros L. econstructor; eauto. Qed.
Lemma leads_prefix env p r1 r2 : leads env r1 r2 ->
  leads env (fst (fst r1), p ++ snd (fst r1), snd r1) (fst (fst r2), p ++ snd (fst r2), snd r2).
Proof.
  induction 1 as [r|st ms th e st1 ms1 th1 r R _ IH]; [constructor|]. cbn [fst snd] in *.
  econstructor; [exact R|]. rewrite <- app_assoc. exact IH.
Qed.
Lemma leads_pre env p st ms th st' ms' th' : leads env (st, ms, th) (st', ms', th') ->
  leads env (st, p ++ ms, th) (st', p ++ ms', th').
Proof. apply (leads_prefix env p). Qed.
Lemma leads_run env st ms th st' ms' th' : leads env (st, ms, th) (st', ms', th') ->
  exists es ms2, crun env {| cf_st := st; cf_pool := [th] |} (map (Resume 0) es) = ({| cf_st := st'; cf_pool := [th'] |}, ms2) /\ ms' = ms ++ ms2.
Proof.
  intros L. remember (st, ms, th) as r1. remember (st', ms', th') as r2. revert st ms th Heqr1 st' ms' th' Heqr2.
  induction L as [r|st0 ms0 th0 e st1 ms1 th1 r R L IH]; intros st ms th E1 st' ms' th' E2; subst.
  - injection E2 as <- <- <-. exists [], []. split; [reflexivity|]. now rewrite app_nil_r.
  - injection E1 as -> -> ->. destruct (IH st1 (ms ++ ms1) th1 eq_refl st' ms' th' eq_refl) as (es & ms2 & RU & ->).
    exists (e :: es), (ms1 ++ ms2). split; [|now rewrite app_assoc].
    cbn [map crun cstep cf_pool cf_st nth_error]. rewrite R.
    destruct (detach_all_map st ms1 [th]) as (g & _ & ->). cbn [map update_nth]. rewrite RU. reflexivity.
Qed.

(** Subscribers. *)
Lemma handler_leads env st name w m l (cb : sub -> message -> option exn) :
  sget name (s_handler st) = Some l -> work_message st w = Some m ->
  forall n i, (i + n)%nat = List.length l ->
  let '(cs, e) := call_all cb m (skipn i l) in
  let '(st1, ms1, th1) := after_handler env st e w in
  leads env (enter_handler env st name i w) (st1, map (fun s => MCall s m) cs ++ ms1, th1).
Proof.
  intros SG WM. induction n as [|n IH]; intros i L.
  - rewrite skipn_all2 by lia. cbn [call_all]. destruct (after_handler env st None w) as [[st1 ms1] th1] eqn:A.
    cbn [map app]. unfold enter_handler. rewrite SG, WM.
    assert (nth_error l i = None) as -> by (apply nth_error_None; lia). rewrite A. constructor.
  - destruct (nth_error l i) as [s|] eqn:NE; [|apply nth_error_None in NE; lia].
    assert (skipn i l = s :: skipn (S i) l) as ->.
    { clear -NE. revert i NE. induction l as [|x l IH]; intros [|i] NE; try discriminate; cbn in *; [now injection NE as ->|]. now apply IH. }
    cbn [call_all]. unfold enter_handler at 1. rewrite SG, WM, NE.
    destruct (cb s m) as [e|] eqn:CB.
    + destruct (after_handler env st (Some e) w) as [[st1 ms1] th1] eqn:A. cbn [map app].
      apply ld_step with (Some e) st1 ms1 th1; [cbn [resume]; exact A|]. constructor.
    + specialize (IH (S i) ltac:(lia)). destruct (call_all cb m (skipn (S i) l)) as [cs e'].
      destruct (after_handler env st e' w) as [[st1 ms1] th1]. cbn [map app].
      destruct (enter_handler env st name (S i) w) as [[st2 ms2] th2] eqn:EH.
      apply ld_step with None st2 ms2 th2; [cbn [resume]; exact EH|]. cbn [app].
      exact (leads_pre env [MCall s m] _ _ _ _ _ _ IH).
Qed.
Lemma handle_leads env st m w (cb : sub -> message -> option exn) : work_message st w = Some m ->
  let '(cs, e) := handle cb (s_handler st) m in
  exists e0, e = swallow_keyerror e0 /\
  let '(st1, ms1, th1) := after_handler env st e0 w in
  leads env (enter_handler env st (m_name m) 0 w) (st1, map (fun s => MCall s m) cs ++ ms1, th1).
Proof.
  intros WM. unfold handle. destruct (sget (m_name m) (s_handler st)) as [l|] eqn:SG.
  - destruct (Z.ltb_spec 0 (subscriber_count l)) as [P|P].
    + pose proof (handler_leads env st (m_name m) w m l cb SG WM (List.length l) 0 eq_refl) as H. cbn [skipn] in H.
      destruct (call_all cb m l) as [cs e]. exists e. split; [reflexivity|exact H].
    + exists None. split; [reflexivity|]. assert (l = []) as ->.
      { destruct l as [|s l]; [reflexivity|]. unfold subscriber_count in P. rewrite zlen_cons in P. pose proof (zlen_nonneg l). lia. }
      destruct (after_handler env st None w) as [[st1 ms1] th1] eqn:A. cbn [map app]. unfold enter_handler. rewrite SG, WM. cbn [nth_error].
      rewrite A. constructor.
  - exists None. split; [reflexivity|]. destruct (after_handler env st None w) as [[st1 ms1] th1] eqn:A. cbn [map app].
    unfold enter_handler. rewrite SG, A. constructor.
Qed.

Lemma packets_seen ms : packets (map seen ms) = puts ms.
Proof. induction ms as [|m ms IH]; [reflexivity|]. unfold packets, puts in *. cbn. rewrite IH. now destruct m. Qed.
Definition mcalls (ms : list mark) : list (sub * message) :=
  flat_map (fun x => match x with MCall s m => [(s, m)] | _ => [] end) ms.
Lemma calls_seen ms : calls (map seen ms) = mcalls ms.
Proof. induction ms as [|m ms IH]; [reflexivity|]. unfold calls, mcalls in *. cbn. rewrite IH. now destruct m. Qed.
Lemma mcalls_app a b : mcalls (a ++ b) = mcalls a ++ mcalls b.
Proof. apply flat_map_app. Qed.
Lemma puts_app a b : puts (a ++ b) = puts a ++ puts b.
Proof. apply flat_map_app. Qed.
Lemma mcalls_map m cs : mcalls (map (fun s => MCall s m) cs) = map (fun s => (s, m)) cs.
Proof. induction cs as [|s cs IH]; [reflexivity|]. unfold mcalls in *. cbn. now rewrite IH. Qed.
Lemma puts_map m cs : puts (map (fun s => MCall s m) cs) = [].
Proof. induction cs as [|s cs IH]; [reflexivity|]. exact IH. Qed.

(** What a send reports. *)
Definition shows (ms : list mark) (o : dout) : Prop :=
  mcalls ms = o_calls o /\ Forall2 same_packet (puts ms) (o_sends o).

Lemma transmit_leads env st mref href md k sock a m cs st' o :
  nth_error (s_hosts st) href = Some a -> nth_error (s_msgs st) mref = Some m -> host_ok a = true ->
  (if e_handle_out env then handle (e_cb env) (s_handler st) m else ([], None)) = (cs, None) ->
  send_message env st mref href md sock = (st', o) ->
  exists ms, leads env (transmit env st mref href md k) (st', ms, back_to k (o_res o)) /\
    mcalls ms = [] /\ Forall2 same_packet (puts ms) (o_sends o) /\ o_calls o = map (fun s => (s, m)) cs.
Proof.
  intros NH NM HO HD H. unfold send_message in H. rewrite NH, NM, HO, HD in H. cbn [negb] in H.
  unfold transmit. rewrite NH, NM.
  assert (s_msgs (fst (find_circuit st href a)) = s_msgs st) as FM.
  { pose proof (find_circuit_spec st href a) as FC. destruct (find_circuit st href a). now destruct FC as (_ & _ & _ & _ & M & _). }
  destruct (find_circuit st href a) as [st1 c]. cbn [fst] in FM.
  destruct (match md with
            | Reliable r => prepare_packet c mref m LL_RELIABLE_FLAG r
            | Plain => prepare_packet c mref m LL_NONE 0
            end) as [c' m'].
  cbv zeta in *. set (st2 := match md with Plain => _ | Reliable _ => _ end) in *.
  assert (nth_error (s_msgs st2) mref = Some m') as M2.
  { assert (s_msgs st2 = update_nth mref m' (s_msgs st1)) as ->.
    { unfold st2. destruct md; [reflexivity|]. destruct (c_count c' <=? 0); reflexivity. }
    rewrite FM. eapply nth_update. exact NM. }
  destruct (serialize (e_pv env) (e_ser_dict env) (e_ser_xml env) m') as [[b|]|e].
  - assert (forall d, d = Some b \/ d = None -> same_packet {| at_addr := a; at_msg := m'; at_data := Some b |} {| at_addr := a; at_msg := m'; at_data := d |}) as SP.
    { intros d [-> | ->]; repeat split; cbn; auto. }
    destruct (sock a b) as [e|] eqn:SO; injection H as <- <-; cbn [o_res o_sends o_calls].
    + eexists. split; [|split; [|split; [|reflexivity]]].
      * apply ld_step with (Some e) st2 [] (back_to k (contain e m')); [cbn [resume]; rewrite M2; reflexivity|]. constructor.
      * reflexivity.
      * cbn. constructor; [apply SP; auto|constructor].
    + eexists. split; [|split; [|split; [|reflexivity]]].
      * eapply ld_step with None _ [] _; [cbn [resume]; reflexivity|]. constructor.
      * reflexivity.
      * cbn. constructor; [apply SP; auto|constructor].
  - injection H as <- <-. cbn [o_res o_sends o_calls]. eexists. split; [constructor|]. split; [reflexivity|]. split; [|reflexivity].
    cbn. constructor; [repeat split; cbn; auto|constructor].
  - injection H as <- <-. cbn [o_res o_sends o_calls]. eexists. split; [constructor|]. split; [reflexivity|]. split; [|reflexivity].
    cbn. constructor; [repeat split; cbn; auto|constructor].
Qed.

Lemma send_leads env st mref href md k sock st' o :
  send_message env st mref href md sock = (st', o) ->
  exists ms, leads env (begin_send env st mref href md k) (st', ms, back_to k (o_res o)) /\ shows ms o.
Proof.
  intros H. unfold begin_send.
  destruct (nth_error (s_hosts st) href) as [a|] eqn:NH.
  2:{ unfold send_message in H. rewrite NH in H. injection H as <- <-. exists []. split; [constructor|]. split; [reflexivity|constructor]. }
  destruct (nth_error (s_msgs st) mref) as [m|] eqn:NM.
  2:{ unfold send_message in H. rewrite NH, NM in H. injection H as <- <-. exists []. split; [constructor|]. split; [reflexivity|constructor]. }
  destruct (host_ok a) eqn:HO; cbn [negb].
  2:{ unfold send_message in H. rewrite NH, NM, HO in H. injection H as <- <-. exists []. split; [constructor|]. split; [reflexivity|constructor]. }
  destruct (e_handle_out env) eqn:EO.
  - pose proof (handle_leads env st m (Announce mref href md k) (e_cb env) NM) as HL.
    destruct (handle (e_cb env) (s_handler st) m) as [cs e] eqn:HE. destruct HL as (e0 & E & HL).
    cbn [after_handler] in HL. rewrite <- E in HL. destruct e as [e|].
    + unfold send_message in H. rewrite NH, NM, HO, EO, HE in H. cbn [negb] in H. injection H as <- <-.
      eexists. split; [exact HL|]. rewrite app_nil_r. split; [apply mcalls_map|]. rewrite puts_map. constructor.
    + destruct (transmit_leads env st mref href md k sock a m cs st' o NH NM HO) as (ms & L & A & B & C); [rewrite EO; exact HE|exact H|].
      destruct (transmit env st mref href md k) as [[st1 ms1] th1].
      eexists. split; [eapply leads_trans; [exact HL|]; apply leads_pre; exact L|].
      split; [rewrite mcalls_app, mcalls_map, A, app_nil_r; now symmetry|]. rewrite puts_app, puts_map. exact B.
  - destruct (transmit_leads env st mref href md k sock a m [] st' o NH NM HO) as (ms & L & A & B & C); [rewrite EO; reflexivity|exact H|].
    exists ms. split; [exact L|]. split; [now rewrite A, C|exact B].
Qed.

(** process_acks *)
Lemma flush_take env sock href : forall rest cur st, zlen cur <= 250 ->
  flush_acks env sock href rest cur st =
  let '(ids, full) := take_acks rest cur in
  if full then
    let '(st, o) := send_new env st (ack_message ids) href sock in
    match o_res o with
    | Err _ => (st, o)
    | Ok _ => let '(st, o') := flush_acks env sock href (skipn (List.length ids - List.length cur) rest) [] st in (st, app_out o o')
    end
  else if 0 <? zlen ids then send_new env st (ack_message ids) href sock else (st, out0 (Ok None)).
Proof.
  induction rest as [|id rest IH]; intros cur st L; cbn [flush_acks take_acks]; [reflexivity|].
  destruct (Z.ltb_spec 250 (zlen (cur ++ [id]))) as [B|B].
  - rewrite app_length. cbn [List.length]. replace (List.length cur + 1 - List.length cur)%nat with 1%nat by lia. reflexivity.
  - rewrite IH by exact B. pose proof (take_spec rest (cur ++ [id]) B) as T. destruct (take_acks rest (cur ++ [id])) as [ids full].
    destruct T as (n & E & _). destruct full; [|reflexivity].
    assert (List.length ids - List.length cur = S (List.length ids - List.length (cur ++ [id])))%nat as ->; [|reflexivity].
    rewrite E, !app_length. cbn. lia.
Qed.
Lemma shows_app a b o1 o2 : shows a o1 -> shows b o2 -> shows (a ++ b) (app_out o1 o2).
Proof.
  intros [A1 A2] [B1 B2]. split; [rewrite mcalls_app; cbn; congruence|]. rewrite puts_app. cbn. now apply Forall2_app.
Qed.
Lemma shows_nil r : shows [] (out0 r).
Proof. split; [reflexivity|constructor]. Qed.
(** Marks that show nothing of a send. *)
Lemma shows_cons x ms o : (match x with MCall _ _ | MPut _ => False | _ => True end) -> shows ms o -> shows (x :: ms) o.
Proof. intros N [A B]. destruct x; try contradiction; (split; [exact A|exact B]). Qed.

Lemma flush_leads env sock : forall n f st st' o, inv st -> f_list f = None ->
  (List.length (skipn (f_pos f) (pending_acks st (f_key f))) <= n)%nat ->
  (f_pos f <= List.length (pending_acks st (f_key f)))%nat ->
  flush_acks env sock (f_host f) (skipn (f_pos f) (pending_acks st (f_key f))) [] st = (st', o) ->
  exists ms, shows ms o /\
  match o_res o with
  | Err e => leads env (ack_loop env st f) (st', ms, Finished (OSend (out0 (Err e))))
  | Ok _ => leads env (ack_loop env st f) (clear_acks st' (f_key f), ms, AtAcks (f_todo f))
  end.
Proof.
  induction n as [|n IH]; intros f st st' o I FL LN PB H.
  - (* nothing left *)
    assert (skipn (f_pos f) (pending_acks st (f_key f)) = []) as E by (destruct (skipn _ _); [reflexivity|cbn in LN; lia]).
    rewrite E in H. cbn in H. injection H as <- <-. cbn [o_res out0]. exists [MEmptied (f_key f)].
    split; [apply shows_cons; [exact Logic.I|apply shows_nil]|]. unfold ack_loop, ack_list. rewrite FL. fold (circ st (f_key f)).
    change (match circ st (f_key f) with Some c => c_acks c | None => [] end) with (pending_acks st (f_key f)). rewrite E. cbn. constructor.
  - rewrite flush_take in H by (cbn; lia).
    pose proof (take_list (pending_acks st (f_key f)) (f_pos f) PB) as T.
    assert (ack_list st f = pending_acks st (f_key f)) as AL by (unfold ack_list; rewrite FL; reflexivity).
    unfold ack_loop. rewrite AL. destruct (take_acks (skipn (f_pos f) (pending_acks st (f_key f))) []) as [ids full].
    destruct T as (T1 & T2 & T3 & T4 & T5 & T6).
    set (f' := {| f_key := f_key f; f_host := f_host f; f_pos := f_pos f + List.length ids; f_list := f_list f; f_todo := f_todo f |}).
    destruct full; cbn [orb negb].
    + unfold send_new in H. destruct (send_message env (set_msgs st (s_msgs st ++ [ack_message ids])) (List.length (s_msgs st)) (f_host f) Plain sock) as [st1 o1] eqn:SM.
      destruct (send_leads _ _ _ _ _ (ToAcks f' false) _ _ _ SM) as (ms1 & L1 & S1).
      destruct (begin_send env _ _ _ _ _) as [[st0 ms0] th0] eqn:BS.
      pose proof (leads_pre env [MPack (f_key f) ids] _ _ _ _ _ _ L1) as L2. cbn [app] in L2.
      pose proof (send_effect _ _ _ _ _ _ _ _ (inv_new _ _ I) SM) as EF.
      cbn [back_to] in L2. destruct (o_res o1) as [r1|e1] eqn:O1.
      * destruct (flush_acks env sock (f_host f) (skipn (List.length ids - List.length (@nil Z)) (skipn (f_pos f) (pending_acks st (f_key f)))) [] st1) as [st2 o2] eqn:E2.
        injection H as <- <-.
        assert (pending_acks st1 (f_key f) = pending_acks st (f_key f)) as PE by (rewrite (pending_effect _ _ _ _ EF); reflexivity).
        assert (skipn (List.length ids - List.length (@nil Z)) (skipn (f_pos f) (pending_acks st (f_key f))) = skipn (f_pos f') (pending_acks st1 (f_key f'))) as SK.
        { cbn [f_pos f' f_key List.length]. rewrite PE. rewrite Nat.sub_0_r. rewrite skipn_skipn. f_equal. lia. }
        rewrite SK in E2.
        assert (1 <= List.length ids)%nat as NE.
        { symmetry in T4. apply Z.eqb_eq in T4. unfold zlen in T4. lia. }
        destruct (IH f' st1 st2 o2 (ef_inv _ _ _ EF) FL) as (ms2 & S2 & L3); [| |exact E2|].
        { cbn [f_pos f' f_key]. rewrite PE. rewrite skipn_length in *. lia. }
        { cbn [f_pos f' f_key]. rewrite PE. exact T3. }
        exists ((MPack (f_key f) ids :: ms1) ++ ms2).
        split; [apply shows_app; [apply shows_cons; [exact Logic.I|exact S1]|exact S2]|].
        change (o_res (app_out o1 o2)) with (o_res o2).
        assert (forall X, leads env (ack_loop env st1 f') X -> leads env (st0, MPack (f_key f) ids :: ms0, th0)
                  (fst (fst X), (MPack (f_key f) ids :: ms1) ++ snd (fst X), snd X)) as GO.
        { intros X LX. eapply leads_trans; [exact L2|]. destruct (ack_loop env st1 f') as [[st3 ms3] th3] eqn:AK.
          eapply ld_step with None st3 ms3 th3; [cbn [resume]; exact AK|].
          exact (leads_prefix env (MPack (f_key f) ids :: ms1) _ _ LX). }
        destruct (o_res o2); [exact (GO _ L3)|exact (GO _ L3)].
      * injection H as <- <-. rewrite O1. exists ((MPack (f_key f) ids :: ms1) ++ [MAbandoned (f_key f)]). split.
        -- destruct S1 as [A B]. split; [rewrite mcalls_app; cbn; rewrite app_nil_r; exact A|]. rewrite puts_app. cbn. rewrite app_nil_r. exact B.
        -- eapply leads_trans; [exact L2|]. eapply ld_step with None _ _ _; [cbn [resume]; reflexivity|]. constructor.
    + destruct (0 <? zlen ids).
      * unfold send_new in H.
        destruct (send_leads _ _ _ _ _ (ToAcks f' true) _ _ _ H) as (ms1 & L1 & S1).
        destruct (begin_send env _ _ _ _ _) as [[st0 ms0] th0] eqn:BS.
        pose proof (leads_pre env [MPack (f_key f) ids] _ _ _ _ _ _ L1) as L2. cbn [app back_to] in L2.
        destruct (o_res o) as [r1|e1] eqn:O1.
        -- exists ((MPack (f_key f) ids :: ms1) ++ [MEmptied (f_key f)]). split.
           ++ destruct S1 as [A B]. split; [rewrite mcalls_app; cbn; rewrite app_nil_r; exact A|]. rewrite puts_app. cbn. rewrite app_nil_r. exact B.
           ++ eapply leads_trans; [exact L2|]. eapply ld_step with None _ _ _; [cbn [resume empty_queue]; reflexivity|]. constructor.
        -- exists ((MPack (f_key f) ids :: ms1) ++ [MAbandoned (f_key f)]). split.
           ++ destruct S1 as [A B]. split; [rewrite mcalls_app; cbn; rewrite app_nil_r; exact A|]. rewrite puts_app. cbn. rewrite app_nil_r. exact B.
           ++ eapply leads_trans; [exact L2|]. eapply ld_step with None _ _ _; [cbn [resume]; reflexivity|]. constructor.
      * injection H as <- <-. cbn [o_res out0]. exists [MEmptied (f_key f)].
        split; [apply shows_cons; [exact Logic.I|apply shows_nil]|]. constructor.
Qed.

Lemma acks_leads env sock : forall keys st st' o ms0, inv st -> send_acks env sock keys st = (st', o) ->
  exists ms, shows ms o /\
    leads env (st, ms0, AtAcks keys) (st', ms0 ++ ms, Finished (OSend (out0 (match o_res o with Err e => Err e | Ok _ => Ok None end)))).
Proof.
  induction keys as [|k keys IH]; intros st st' o ms0 I H; cbn [send_acks] in H.
  - injection H as <- <-. exists []. split; [apply shows_nil|]. cbn [o_res out0].
    eapply ld_step with None _ [] _; [reflexivity|]. rewrite !app_nil_r. constructor.
  - destruct (get_circuit (s_circuits st) k) as [c|] eqn:C.
    + set (f := {| f_key := k; f_host := c_host c; f_pos := 0; f_list := None; f_todo := keys |}).
      assert (c_acks c = skipn (f_pos f) (pending_acks st (f_key f))) as PA by (cbn; unfold pending_acks, circuit_of; now rewrite C).
      destruct (flush_acks env sock (c_host c) (c_acks c) [] st) as [st1 o1] eqn:F. rewrite PA in F.
      destruct (flush_leads env sock (List.length (skipn (f_pos f) (pending_acks st (f_key f)))) f st st1 o1 I eq_refl ltac:(lia) ltac:(cbn; lia) F) as (ms1 & S1 & L1).
      assert (forall X, leads env (ack_loop env st f) X -> leads env (st, ms0, AtAcks (k :: keys)) (fst (fst X), ms0 ++ snd (fst X), snd X)) as GO.
      { intros X LX. destruct (ack_loop env st f) as [[st3 ms3] th3] eqn:AK.
        eapply ld_step with None st3 ms3 th3; [cbn [resume next_circuit]; rewrite C; exact AK|]. exact (leads_prefix env ms0 _ _ LX). }
      destruct (o_res o1) as [r1|e1] eqn:O1.
      * destruct (send_acks env sock keys (clear_acks st1 k)) as [st2 o2] eqn:SA. injection H as <- <-.
        assert (inv (clear_acks st1 k)) as I2.
        { assert (inv st1) as I1.
          { destruct (host_address st (c_host c)) as [t|] eqn:HA.
            - exact (ef_inv _ _ _ (proj1 (flush_spec env sock (c_host c) t (skipn (f_pos f) (pending_acks st (f_key f))) [] st st1 o1 I HA ltac:(cbn; lia) F))).
            - assert (forall ids cur st0 st9 o9, inv st0 -> host_address st0 (c_host c) = None -> flush_acks env sock (c_host c) ids cur st0 = (st9, o9) -> inv st9) as NOH.
              { clear. assert (forall st0 m st9 o9, inv st0 -> host_address st0 (c_host c) = None -> send_new env st0 m (c_host c) sock = (st9, o9) -> inv st9 /\ host_address st9 (c_host c) = None) as SN.
                { intros st0 m st9 o9 I0 HA E. unfold send_new, send_message in E. cbn [s_hosts set_msgs] in E. unfold host_address in HA. rewrite HA in E.
                  injection E as <- <-. split; [now apply inv_new|exact HA]. }
                induction ids as [|id ids IH]; intros cur st0 st9 o9 I0 HA E; cbn [flush_acks] in E.
                - destruct (0 <? zlen cur); [now apply SN in E|now injection E as <- <-].
                - destruct (250 <? zlen (cur ++ [id])); [|eapply IH; eauto].
                  destruct (send_new env st0 (ack_message (cur ++ [id])) (c_host c) sock) as [st8 o8] eqn:E8.
                  destruct (SN _ _ _ _ I0 HA E8) as [I8 H8]. destruct (o_res o8); [|now injection E as <- <-].
                  destruct (flush_acks env sock (c_host c) ids [] st8) as [st7 o7] eqn:E7. injection E as <- <-. eapply IH; eauto. }
              eapply NOH; eauto. }
          exact (fl_inv _ _ _ _ (proj1 (clear_spec _ _ I1))). }
        destruct (IH _ _ _ (ms0 ++ ms1) I2 SA) as (ms2 & S2 & L2). exists (ms1 ++ ms2). split; [now apply shows_app|].
        change (o_res (app_out o1 o2)) with (o_res o2). rewrite app_assoc. eapply leads_trans; [exact (GO _ L1)|exact L2].
      * injection H as <- <-. rewrite O1. exists ms1. split; [exact S1|]. exact (GO _ L1).
    + destruct (IH _ _ _ ms0 I H) as (ms & S & L). exists ms. split; [exact S|].
      eapply ld_step with None _ [] _; [cbn [resume next_circuit]; rewrite C; reflexivity|]. rewrite app_nil_r. exact L.
Qed.

Lemma step_leads env st o : inv st ->
  exists st1 ms1 th1 ms x, start env (idle st) o = (st1, ms1, th1) /\
    leads env (st1, ms1, th1) (fst (step env st o), ms, Finished x) /\ reports (snd (step env st o)) (map seen ms) x.
Proof.
  intros I. unfold reports. destruct (simple o) eqn:SI.
  { assert (start env (idle st) o = (fst (step (silent env) st o), [], Finished (snd (step (silent env) st o)))) as E.
    { unfold start. destruct o; try discriminate SI; destruct (step (silent env) (cf_st (idle st)) _) eqn:X; cbn [cf_st idle] in X; rewrite X; reflexivity. }
    do 3 eexists. exists [], (snd (step (silent env) st o)). split; [exact E|]. split; [|destruct o; try discriminate SI; cbn; auto].
    replace (fst (step env st o)) with (fst (step (silent env) st o)) by (destruct o; try discriminate SI; reflexivity).
    constructor. }
  destruct o as [| | | | | |mref href md sock| |href buf size|order sock|a]; try discriminate SI; clear SI.
  - cbn [step]. destruct (send_message env st mref href md sock) as [st' o] eqn:SM.
    destruct (send_leads _ _ _ _ _ ToUser _ _ _ SM) as (ms & L & S1 & S2).
    unfold start. cbn [idle cf_st]. destruct (begin_send env st mref href md ToUser) as [[st1 ms1] th1].
    exists st1, ms1, th1, ms. eexists. split; [reflexivity|]. split; [exact L|]. cbn [snd fst].
    rewrite calls_seen, packets_seen. auto.
  - cbn [step]. unfold start. cbn [idle cf_st].
    destruct (host_address st href) as [a|] eqn:NH.
    2:{ unfold host_address in NH. unfold receive_check. rewrite NH. cbn [r_res fst snd]. do 3 eexists. exists []. eexists.
        split; [reflexivity|]. split; [constructor|]. cbn. auto. }
    destruct (Z_le_gt_dec size 0) as [SZ|SZ].
    { unfold host_address in NH. unfold receive_check. rewrite NH. destruct (Z.leb_spec size 0); [|lia]. cbn [r_res fst snd]. do 3 eexists. exists []. eexists.
      split; [reflexivity|]. split; [constructor|]. cbn. auto. }
    unfold receive_check. unfold host_address in NH. rewrite NH. destruct (Z.leb_spec size 0); [lia|].
    destruct (find_circuit st href a) as [st1 c]. set (st2 := set_counts st1 (s_in st1 + 1) (s_out st1)).
    change (deser_conf (silent env) st2) with (deser_conf env st2).
    destruct (deserialize (deser_conf env st2) buf) as [[m|]|e].
    + destruct (c_trusted c && negb (m_trusted m)).
      { cbn [r_res fst snd]. do 3 eexists. exists []. eexists. split; [reflexivity|]. split; [constructor|]. cbn. auto. }
      set (st3 := put_circuit st2 a (handle_packet c m)). change (e_handle (silent env)) with false. cbv iota. cbn [r_res].
      destruct (e_handle env).
      * pose proof (handle_leads env st3 m (Deliver m) (e_cb env) eq_refl) as HL.
        destruct (handle (e_cb env) (s_handler st3) m) as [cs e]. destruct HL as (e0 & -> & HL). cbn [after_handler] in HL.
        destruct (enter_handler env st3 (m_name m) 0 (Deliver m)) as [[st4 ms4] th4].
        do 3 eexists. eexists. eexists. split; [reflexivity|]. split; [exact HL|]. cbn [snd r_res r_calls].
        rewrite calls_seen, packets_seen, app_nil_r, mcalls_map, puts_map. auto.
      * do 3 eexists. exists []. eexists. split; [reflexivity|]. split; [constructor|]. cbn. auto.
    + destruct (do _ <- pyindex buf 0; unpack_z buf MVT_U32 1 (Some BE)) as [id|e]; cbn [r_res fst snd];
        (do 3 eexists; exists []; eexists; split; [reflexivity|]; split; [constructor|]; cbn; auto).
    + cbn [r_res fst snd]. do 3 eexists. exists []. eexists. split; [reflexivity|]. split; [constructor|]. cbn. auto.
  - cbn [step]. unfold start, process_acks. cbn [idle cf_st]. rewrite resend_none by exact I.
    destruct (send_acks env sock (arrange order (dkeys (s_circuits st))) st) as [st' o] eqn:SA.
    destruct (acks_leads _ _ _ _ _ _ [] I SA) as (ms & [S1 S2] & L). cbn [app] in L.
    do 3 eexists. exists ms. eexists. split; [reflexivity|]. split; [exact L|]. cbn [snd o_res o_calls o_sends out0].
    rewrite calls_seen, packets_seen. auto.
  - cbn [step]. unfold start. cbn [idle cf_st cf_pool existsb step]. do 3 eexists. exists []. eexists. split; [reflexivity|]. split; [constructor|]. cbn. auto.
Qed.
Lemma one_after_the_other env st o : reachable env st ->
  exists es x ms, crun env (idle st) (Spawn o :: map (Resume 0) es) = ({| cf_st := fst (step env st o); cf_pool := [Finished x] |}, ms) /\
    reports (snd (step env st o)) (map seen ms) x.
Proof.
  intros R. pose proof (good_inv _ (reachable_good _ _ R)) as I.
  destruct (step_leads env st o I) as (st1 & ms1 & th1 & ms & x & S & L & RP).
  destruct (leads_run _ _ _ _ _ _ _ L) as (es & ms2 & RU & ->).
  exists es, x, (ms1 ++ ms2). split; [|exact RP]. cbn [crun cstep]. rewrite S. cbn [idle cf_pool app]. rewrite RU. reflexivity.
Qed.
