(** More about interleaved use of the dispatcher (C79, C80): what is packed, and
    the packets. *)
From Coq Require Import Permutation.
From Verif Require Import Lib SpecMessages MessageProofs SpecGreenlets EventsProofs LayoutProofs PacketProofs PacketMore PacketForms DispatchProofs DispatchMore GreenletProofs GreenletAcks.

(** Where the flush of a thread after a step comes from: the thread before it, or
    a circuit there is. *)
Definition origin (st : dstate) (th : thread) (k : addr) (h : nat) (lst : option (list Z)) : Prop :=
  (exists f last, flush_of th = Some (f, last) /\ f_key f = k /\ f_host f = h /\ f_list f = lst) \/
  (lst = None /\ exists c, circ st k = Some c /\ c_host c = h).
Definition ids_of (st : dstate) (k : addr) (lst : option (list Z)) : list Z :=
  match lst with Some l => l | None => pending_acks st k end.

Lemma take_incl rest : forall cur, incl (fst (take_acks rest cur)) (cur ++ rest).
Proof.
  induction rest as [|id rest IH]; intros cur; cbn [take_acks]; [rewrite app_nil_r; apply incl_refl|].
  destruct (250 <? zlen (cur ++ [id])).
  - cbn [fst]. intros x H. apply in_app_or in H as [H|[<-|[]]]; apply in_or_app; [now left|right; now left].
  - intros x H. apply IH in H. rewrite <- app_assoc in H. exact H.
Qed.
Lemma take_size l : let '(ids, full) := take_acks l [] in zlen ids <= 251 /\ (full = true -> zlen ids = 251).
Proof.
  pose proof (take_spec l [] ltac:(cbn; lia)) as T. destruct (take_acks l []) as [ids full]. destruct T as (n & _ & T).
  destruct full; destruct T; split; try lia; discriminate.
Qed.
Lemma skipn_incl {A} n (l : list A) : incl (skipn n l) l.
Proof. intros x H. rewrite <- (firstn_skipn n l). apply in_or_app. now right. Qed.

Lemma loop_origin env st f st' ms th : inv st -> ack_loop env st f = (st', ms, th) ->
  (forall k ids, In (MPack k ids) ms -> k = f_key f /\ incl ids (ack_list st f) /\ 1 <= zlen ids <= 251) /\
  (forall f' last', flush_of th = Some (f', last') -> f_key f' = f_key f /\ f_host f' = f_host f /\ f_list f' = f_list f).
Proof.
  intros I H. unfold ack_loop in H. pose proof (take_incl (skipn (f_pos f) (ack_list st f)) []) as TI.
  pose proof (take_size (skipn (f_pos f) (ack_list st f))) as TS.
  destruct (take_acks (skipn (f_pos f) (ack_list st f)) []) as [ids full]. cbn [fst app] in TI. destruct TS as [TS TF].
  destruct (full || (0 <? zlen ids)) eqn:NE.
  - destruct (begin_send env _ _ _ _ _) as [[st1 ms1] th1] eqn:BS in H. injection H as <- <- <-.
    destruct (begin_effect _ _ _ _ _ _ _ _ _ (inv_new _ _ I) BS) as (_ & _ & FR & P). split.
    + intros k l [H|H].
      * injection H as <- <-. split; [reflexivity|]. split; [intros x X; eapply skipn_incl, TI; exact X|].
        split; [|exact TS]. destruct full; [rewrite TF by reflexivity; lia|]. cbn in NE. apply Z.ltb_lt in NE. lia.
      * exfalso. rewrite Forall_forall in P. exact (P _ H).
    + intros f' last' E. apply from_flush in FR as [FR _]. rewrite FR in E. injection E as <- <-. auto.
  - injection H as <- <- <-. split; [intros k l [H|[]]; discriminate|discriminate].
Qed.

Lemma resume_origin env st e th st' ms th' : inv st -> resume env st e th = (st', ms, th') ->
  (forall k ids, In (MPack k ids) ms -> exists h lst, origin st th k h lst /\ incl ids (ids_of st k lst) /\ 1 <= zlen ids <= 251) /\
  (forall f' last', flush_of th' = Some (f', last') -> origin st th (f_key f') (f_host f') (f_list f')).
Proof.
  intros I H.
  assert (forall (NP : Forall plain_mark ms) (FE : flush_of th' = flush_of th),
    (forall k ids, In (MPack k ids) ms -> exists h lst, origin st th k h lst /\ incl ids (ids_of st k lst) /\ 1 <= zlen ids <= 251) /\
    (forall f' last', flush_of th' = Some (f', last') -> origin st th (f_key f') (f_host f') (f_list f'))) as SAME.
  { intros NP FE. split.
    - intros k ids X. exfalso. rewrite Forall_forall in NP. exact (NP _ X).
    - intros f' last' E. left. exists f', last'. rewrite <- FE. auto. }
  assert (forall f, f_list f = None \/ flush_of th <> None -> origin st th (f_key f) (f_host f) (f_list f) -> ack_loop env st f = (st', ms, th') ->
    (forall k ids, In (MPack k ids) ms -> exists h lst, origin st th k h lst /\ incl ids (ids_of st k lst) /\ 1 <= zlen ids <= 251) /\
    (forall f' last', flush_of th' = Some (f', last') -> origin st th (f_key f') (f_host f') (f_list f'))) as LOOP.
  { intros f _ O E. destruct (loop_origin _ _ _ _ _ _ I E) as [A B]. split.
    - intros k ids X. destruct (A k ids X) as (-> & C & D). exists (f_host f), (f_list f). split; [exact O|]. split; [exact C|exact D].
    - intros f' last' X. destruct (B f' last' X) as (-> & -> & ->). exact O. }
  destruct th as [o|name i w|mref b k|r f last|todo]; cbn [resume] in H.
  - injection H as <- <- <-. apply SAME; [constructor|reflexivity].
  - assert (work_from w th' /\ Forall plain_mark ms) as (FR & P).
    { destruct e as [e|].
      - destruct (after_effect _ _ _ _ _ _ _ I H) as (EF & _ & FR & P). auto.
      - destruct (enter_effect _ _ _ _ _ _ _ _ I H) as (EF & _ & FR & P). auto. }
    apply SAME; [exact P|]. destruct w as [m|mref href md [|f last]].
    + destruct FR as [(r & ->)|(n & j & ->)]; reflexivity.
    + now apply from_user in FR as [-> _].
    + now apply from_flush in FR as [-> _].
  - destruct e as [e|]; injection H as <- <- <-; (apply SAME; [constructor|destruct k; reflexivity]).
  - destruct r as [r|e'].
    + destruct last.
      * injection H as <- <- <-. split; [intros k l [H|[]]; discriminate|discriminate].
      * apply (LOOP f); [right; discriminate| |exact H]. left. exists f, false. auto.
    + injection H as <- <- <-. split; [intros k l [H|[]]; discriminate|discriminate].
  - destruct todo as [|k todo]; cbn [next_circuit] in H.
    + injection H as <- <- <-. apply SAME; [constructor|reflexivity].
    + destruct (get_circuit (s_circuits st) k) as [c|] eqn:C; [|injection H as <- <- <-; apply SAME; [constructor|reflexivity]].
      apply (LOOP _) in H; [exact H|now left|]. right. cbn. split; [reflexivity|]. exists c. split; [exact C|reflexivity].
Qed.

(** Circuits stay, with their Host objects. *)
Definition keeps (st st' : dstate) : Prop :=
  forall a c, circ st a = Some c -> exists c', circ st' a = Some c' /\ c_host c' = c_host c.
Lemma keeps_refl st : keeps st st.
Proof. intros a c H. eauto. Qed.
Lemma keeps_trans s1 s2 s3 : keeps s1 s2 -> keeps s2 s3 -> keeps s1 s3.
Proof. intros A B a c H. destruct (A a c H) as (c1 & H1 & E1). destruct (B a c1 H1) as (c2 & H2 & E2). exists c2. split; congruence. Qed.
Lemma keeps_effect st xs st' : effect st xs st' -> keeps st st'.
Proof. intros F a c H. destruct (ef_old _ _ _ F a c H) as (c' & A & B & _). eauto. Qed.
Lemma keeps_flushed st ks xs st' : flushed st ks xs st' -> keeps st st'.
Proof. intros F a c H. destruct (fl_old _ _ _ _ F a c H) as (c' & A & B & _). eauto. Qed.
Lemma keeps_receive env st href buf size st' r : inv st -> receive_check env st href buf size = (st', r) -> keeps st st'.
Proof.
  intros I H. destruct (host_address st href) as [b|] eqn:NH.
  2:{ destruct (receive_nothing env st href buf size) as (r' & E & _); [now left|]. rewrite E in H. injection H as <- <-. apply keeps_refl. }
  destruct (Z_le_gt_dec size 0) as [SZ|SZ].
  { destruct (receive_nothing env st href buf size) as (r' & E & _); [now right|]. rewrite E in H. injection H as <- <-. apply keeps_refl. }
  destruct (receive_spec env st href buf size b I NH ltac:(lia)) as (st1 & r1 & c' & E & RC & C1 & CO & _).
  rewrite E in H. injection H as <- <-. pose proof (cur_ok st href b I) as K. destruct (received_ok _ _ _ _ _ _ K RC) as (_ & RH & _).
  intros a c X. destruct (addr_dec a b) as [->|N].
  - exists c'. split; [exact C1|]. rewrite RH. unfold cur. now rewrite X.
  - exists c. rewrite CO by exact N. auto.
Qed.
Lemma keeps_simple env st o : simple o = true -> keeps st (fst (step env st o)).
Proof.
  intros S. destruct o as [| | | | |a b| | | | |]; try discriminate S; try (intros x c H; exists c; split; [exact H|reflexivity]; fail).
  cbn [step fst]. fold (circ st a). destruct (circ st a) as [c|] eqn:C; [|apply keeps_refl].
  intros x c0 H. destruct (addr_dec x a) as [->|N].
  - rewrite put_same. rewrite C in H. injection H as <-. eauto.
  - rewrite put_other by exact N. eauto.
Qed.

(** ** The invariant *)
Record sound (cf : config) (tr : list gevent) : Prop := {
  so_pending : forall a, incl (pending_acks (cf_st cf) a) (all_queued a tr);
  so_packed : forall a, incl (all_packed a tr) (all_queued a tr);
  so_pool : forall th f last, In th (cf_pool cf) -> flush_of th = Some (f, last) ->
    (exists c, circ (cf_st cf) (f_key f) = Some c /\ c_host c = f_host f) /\
    (forall l, f_list f = Some l -> incl l (all_queued (f_key f) tr)) }.

Lemma queued_app a t1 t2 : all_queued a (t1 ++ t2) = fold_left (queue_in a) t2 (all_queued a t1).
Proof. unfold all_queued. rewrite fold_left_app. reflexivity. Qed.
Lemma packed_app a t1 t2 : all_packed a (t1 ++ t2) = fold_left (pack_in a) t2 (all_packed a t1).
Proof. unfold all_packed. rewrite fold_left_app. reflexivity. Qed.
Lemma queue_seen a ms : forall l, fold_left (queue_in a) (map seen ms) l = l.
Proof. induction ms as [|m ms IH]; intros l; [reflexivity|]. cbn [map fold_left]. rewrite IH. destruct m; reflexivity. Qed.
Lemma pack_seen a ms : forall l, incl (fold_left (pack_in a) (map seen ms) l) (l ++ flat_map (fun m => match m with MPack k ids => if addr_eqb a k then ids else [] | _ => [] end) ms).
Proof.
  induction ms as [|m ms IH]; intros l; [cbn; rewrite app_nil_r; apply incl_refl|]. cbn [map fold_left flat_map]. intros x H. apply IH in H.
  destruct m as [s m|y|k ids|k|k]; cbn [seen pack_in] in H; try exact H. destruct (addr_eqb a k); [|exact H].
  now rewrite <- app_assoc in H.
Qed.
Lemma flush_acking th f last : flush_of th = Some (f, last) -> acking th = true.
Proof. destruct th as [o|name i [m|mref href md [|f' l']]|mref b [|f' l']|r f' l'|todo]; try discriminate; reflexivity. Qed.
Lemma flush_detach k l th f last : flush_of (detach k l th) = Some (f, last) ->
  exists f0, flush_of th = Some (f0, last) /\ f_key f = f_key f0 /\ f_host f = f_host f0 /\
    (f_list f = f_list f0 \/ k = f_key f0 /\ f_list f = Some l).
Proof.
  assert (forall f0, f = detach_flush k l f0 -> f_key f = f_key f0 /\ f_host f = f_host f0 /\
    (f_list f = f_list f0 \/ k = f_key f0 /\ f_list f = Some l)) as D.
  { intros f0 ->. unfold detach_flush. destruct (addr_eqb k (f_key f0)) eqn:E; [|auto]. apply addr_eqb_spec in E.
    destruct (f_list f0) eqn:L; cbn; auto. }
  destruct th as [o|name i [m|mref href md [|f' l']]|mref b [|f' l']|r f' l'|todo]; try discriminate; cbn; intros [= <- <-]; eauto.
Qed.
Lemma flush_detach_all st ms : forall pool th f last, In th (detach_all st ms pool) -> flush_of th = Some (f, last) ->
  exists th0 f0, In th0 pool /\ flush_of th0 = Some (f0, last) /\ f_key f = f_key f0 /\ f_host f = f_host f0 /\
    (f_list f = f_list f0 \/ f_list f = Some (pending_acks st (f_key f0))).
Proof.
  induction ms as [|m ms IH] using rev_ind; intros pool th f last H E.
  - cbn in H. exists th, f. auto 8.
  - unfold detach_all in *. rewrite fold_left_app in H. cbn [fold_left] in H.
    destruct m as [s m|x|k ids|k|k]; try exact (IH pool th f last H E).
    apply in_map_iff in H as (th1 & <- & H). destruct (flush_detach _ _ _ _ _ E) as (f1 & E1 & K1 & H1 & L1).
    destruct (IH pool th1 f1 last H E1) as (th0 & f0 & A & B & K0 & H0 & L0). exists th0, f0.
    split; [exact A|]. split; [exact B|]. split; [congruence|]. split; [congruence|].
    destruct L1 as [->|[-> ->]]; [exact L0|]. right. rewrite K0. reflexivity.
Qed.
Lemma in_update {A} i (x y : A) l : In x (update_nth i y l) -> x = y \/ In x l.
Proof.
  revert i. induction l as [|z l IH]; intros [|i]; cbn; auto; intros [H|H]; auto. destruct (IH i H); auto.
Qed.

Lemma sound_spawn cf tr st' th' evs : sound cf tr -> flush_of th' = None -> keeps (cf_st cf) st' ->
  (forall a, incl (pending_acks st' a) (all_queued a (tr ++ evs))) ->
  (forall a, incl (all_packed a (tr ++ evs)) (all_queued a (tr ++ evs))) ->
  (forall a, incl (all_queued a tr) (all_queued a (tr ++ evs))) ->
  sound {| cf_st := st'; cf_pool := cf_pool cf ++ [th'] |} (tr ++ evs).
Proof.
  intros [S1 S2 S3] F K P1 P2 Q. constructor; cbn [cf_st cf_pool]; auto.
  intros th f last H E. apply in_app_or in H as [H|[<-|[]]]; [|congruence].
  destruct (S3 th f last H E) as [(c & C & CH) L]. split.
  - destruct (K _ _ C) as (c' & C' & CH'). exists c'. split; congruence.
  - intros l X. eapply incl_tran; [exact (L l X)|apply Q].
Qed.
Lemma plain_packs a ms : Forall plain_mark ms -> forall l, fold_left (pack_in a) (map seen ms) l = l.
Proof. induction 1 as [|m ms P _ IH]; intros l; [reflexivity|]. cbn [map fold_left]. rewrite IH. destruct m; try contradiction; reflexivity. Qed.

Lemma cstep_sound env cf x tr : good (cf_st cf) -> sound cf tr -> sound (fst (cstep env cf x)) (tr ++ gevents env cf x).
Proof.
  intros [I V] SO. destruct x as [o|i e].
  - assert (forall st ms th, start env cf o = (st, ms, th) ->
      cstep env cf (Spawn o) = ({| cf_st := st; cf_pool := cf_pool cf ++ [th] |}, ms)) as CS.
    { intros st ms th E. cbn [cstep]. rewrite E. reflexivity. }
    destruct (simple o) eqn:SI.
    { assert (start env cf o = (fst (step (silent env) (cf_st cf) o), [], Finished (snd (step (silent env) (cf_st cf) o)))) as E.
      { unfold start. destruct o; try discriminate SI; destruct (step (silent env) (cf_st cf) _); reflexivity. }
      specialize (CS _ _ _ E). unfold gevents. rewrite CS. cbn [fst snd map].
      replace (match o with Receive _ _ _ => _ | RemoveCircuit _ => _ | _ => [] end) with (@nil gevent) by (destruct o; try discriminate SI; reflexivity).
      cbn [app]. apply sound_spawn; try exact SO; try reflexivity.
      - now apply keeps_simple.
      - intros a. rewrite app_nil_r. replace (pending_acks (fst (step (silent env) (cf_st cf) o)) a) with (pending_acks (cf_st cf) a); [apply (so_pending _ _ SO)|].
        destruct o; try discriminate SI; try reflexivity. symmetry. apply trusted_pending.
      - rewrite app_nil_r. apply (so_packed _ _ SO).
      - rewrite app_nil_r. intros a. apply incl_refl. }
    destruct o as [| | | | | |mref href md sock| |href buf size|order sock|a]; try discriminate SI; clear SI.
    + destruct (begin_send env (cf_st cf) mref href md ToUser) as [[st ms] th] eqn:E.
      unfold gevents. rewrite (CS _ _ _ E). cbn [fst snd app].
      destruct (begin_effect _ _ _ _ _ _ _ _ _ I E) as (EF & _ & FR & P).
      apply sound_spawn; [exact SO|now apply from_user|now apply keeps_effect with (puts ms)|..]; intros a; rewrite queued_app, queue_seen.
      * rewrite (pending_effect _ _ _ _ EF). apply (so_pending _ _ SO).
      * rewrite packed_app, plain_packs by exact P. apply (so_packed _ _ SO).
      * apply incl_refl.
    + destruct (start env cf (Receive href buf size)) as [[st ms] th] eqn:E.
      unfold gevents. rewrite (CS _ _ _ eq_refl). cbn [fst snd].
      unfold start in E. destruct (receive_check (silent env) (cf_st cf) href buf size) as [st1 r] eqn:R.
      destruct (receive_queues _ _ _ _ _ _ _ I R) as [I1 PQ]. pose proof (keeps_receive _ _ _ _ _ _ _ I R) as KR.
      assert ((forall a, pending_acks st a = pending_acks st1 a) /\ Forall plain_mark ms /\ flush_of th = None /\ keeps st1 st) as (PE & PM & AK & KK).
      { destruct (r_res r) as [[m|]|e']; try (injection E as <- <- <-; split; [reflexivity|split; [constructor|split; [reflexivity|apply keeps_refl]]]).
        destruct (e_handle env); [|injection E as <- <- <-; split; [reflexivity|split; [constructor|split; [reflexivity|apply keeps_refl]]]].
        destruct (enter_effect _ _ _ _ _ _ _ _ I1 E) as (EF & _ & FR & P).
        split; [intros a; eapply pending_effect; exact EF|]. split; [exact P|]. split; [|eapply keeps_effect; exact EF].
        destruct FR as [(r' & ->)|(n & j & ->)]; reflexivity. }
      set (pre := match accepts env (cf_st cf) href buf size with Some (a, m) => [Net (Accepted a m)] | None => [] end ++
        match host_address (cf_st cf) href with Some a => if 0 <? size then [Queued a (acks_due env (cf_st cf) a buf)] else [] | None => [] end).
      assert (forall a l, fold_left (queue_in a) pre l = l ++
        match host_address (cf_st cf) href with Some b => if addr_eqb a b && (0 <? size) then acks_due env (cf_st cf) b buf else [] | None => [] end) as QP.
      { intros a l. unfold pre. rewrite fold_left_app.
        replace (fold_left (queue_in a) match accepts env (cf_st cf) href buf size with Some (a0, m) => [Net (Accepted a0 m)] | None => [] end l) with l
          by (destruct (accepts env (cf_st cf) href buf size) as [[? ?]|]; reflexivity).
        destruct (host_address (cf_st cf) href) as [b|]; [|now rewrite app_nil_r].
        destruct (0 <? size); [|now rewrite andb_false_r, app_nil_r]. rewrite andb_true_r. cbn. destruct (addr_eqb a b); [reflexivity|now rewrite app_nil_r]. }
      assert (forall a l, fold_left (pack_in a) pre l = l) as PP.
      { intros a l. unfold pre. rewrite fold_left_app. destruct (accepts env (cf_st cf) href buf size) as [[? ?]|]; cbn [fold_left pack_in];
        (destruct (host_address (cf_st cf) href); [destruct (0 <? size)|]; reflexivity). }
      apply sound_spawn; [exact SO|exact AK|eapply keeps_trans; eauto|..]; intros a; rewrite queued_app, fold_left_app, queue_seen, QP.
      * rewrite PE, PQ. change (acks_due (silent env)) with (acks_due env). apply incl_app_app; [apply (so_pending _ _ SO)|apply incl_refl].
      * rewrite packed_app, fold_left_app, plain_packs, PP by exact PM. apply incl_appl, (so_packed _ _ SO).
      * apply incl_appl, incl_refl.
    + assert (start env cf (ProcessAcks order sock) = (cf_st cf, [], AtAcks (arrange order (dkeys (s_circuits (cf_st cf)))))) as E.
      { unfold start. rewrite resend_none by exact I. reflexivity. }
      unfold gevents. rewrite (CS _ _ _ E). cbn [fst snd map app].
      apply sound_spawn; [exact SO|reflexivity|apply keeps_refl|..]; rewrite app_nil_r; [apply (so_pending _ _ SO)|apply (so_packed _ _ SO)|intros a; apply incl_refl].
    + destruct (start env cf (RemoveCircuit a)) as [[st ms] th] eqn:E.
      unfold gevents. rewrite (CS _ _ _ eq_refl). cbn [fst snd]. unfold start in E.
      destruct (existsb acking (cf_pool cf)) eqn:EX.
      * injection E as <- <- <-. cbn [map app].
        apply sound_spawn; [exact SO|reflexivity|apply keeps_refl|..]; rewrite app_nil_r; [apply (so_pending _ _ SO)|apply (so_packed _ _ SO)|intros b; apply incl_refl].
      * destruct (step (silent env) (cf_st cf) (RemoveCircuit a)) as [st1 x1] eqn:ST. injection E as <- <- <-. cbn [map app].
        pose proof (remove_pending (silent env) (cf_st cf) a I) as RP. rewrite ST in RP. cbn [fst] in RP.
        constructor; cbn [cf_st cf_pool].
        -- intros b. rewrite RP, queued_app. cbn [fold_left queue_in]. destruct (addr_eqb b a); [intros y []|apply (so_pending _ _ SO)].
        -- intros b. rewrite queued_app, packed_app. cbn [fold_left queue_in pack_in]. destruct (addr_eqb b a); [intros y []|apply (so_packed _ _ SO)].
        -- intros th f last H FE. exfalso. apply in_app_or in H as [H|[<-|[]]]; [|discriminate].
           apply flush_acking in FE. assert (existsb acking (cf_pool cf) = true) by (apply existsb_exists; eauto). congruence.
  - unfold gevents. cbn [cstep app]. destruct (nth_error (cf_pool cf) i) as [th|] eqn:NT; [|cbn; rewrite app_nil_r; exact SO].
    destruct (resume env (cf_st cf) e th) as [[st ms] th'] eqn:R. cbn [fst snd].
    pose proof (nth_error_In _ _ NT) as IT.
    destruct (resume_effect _ _ _ _ _ _ _ I R) as [F _]. destruct (resume_origin _ _ _ _ _ _ _ I R) as [OP OF].
    assert (forall k h lst, origin (cf_st cf) th k h lst ->
      (exists c, circ (cf_st cf) k = Some c /\ c_host c = h) /\ incl (ids_of (cf_st cf) k lst) (all_queued k tr)) as ORI.
    { intros k h lst [(f & last & FE & <- & <- & <-)|(-> & C)].
      - destruct (so_pool _ _ SO th f last IT FE) as [C L]. split; [exact C|].
        destruct (f_list f) as [l|] eqn:FL; [now apply L|apply (so_pending _ _ SO)].
      - split; [exact C|apply (so_pending _ _ SO)]. }
    assert (forall a, incl (pending_acks st a) (pending_acks (cf_st cf) a)) as PI.
    { intros a. unfold pending_acks. destruct (circ (cf_st cf) a) as [c|] eqn:C.
      - destruct (fl_old _ _ _ _ F a c C) as (c' & -> & _ & _ & [->|[_ ->]]); [apply incl_refl|intros y []].
      - destruct (circ st a) as [c'|] eqn:C'; [|apply incl_refl]. destruct (fl_new _ _ _ _ F a c' C C') as [-> _]. apply incl_refl. }
    constructor; cbn [cf_st cf_pool].
    + intros a. rewrite queued_app, queue_seen. eapply incl_tran; [apply PI|apply (so_pending _ _ SO)].
    + intros a. rewrite queued_app, packed_app, queue_seen. eapply incl_tran; [apply pack_seen|]. apply incl_app; [apply (so_packed _ _ SO)|].
      intros y Y. apply in_flat_map in Y as (m & M & Y). destruct m as [s m|x|k ids|k|k]; try contradiction.
      destruct (addr_eqb a k) eqn:E; [|contradiction]. apply addr_eqb_spec in E as ->.
      destruct (OP k ids M) as (h & lst & O & INC & _). destruct (ORI _ _ _ O) as [_ Q]. now apply Q, INC.
    + intros th0 f last H FE. rewrite queued_app, queue_seen. apply in_update in H as [->|H].
      * pose proof (OF f last FE) as O. destruct (ORI _ _ _ O) as [(c & C & CH) Q]. split.
        -- destruct (keeps_flushed _ _ _ _ F _ _ C) as (c' & C' & CH'). exists c'. split; congruence.
        -- intros l FL. rewrite FL in Q. exact Q.
      * destruct (flush_detach_all _ _ _ _ _ _ H FE) as (th1 & f1 & I1 & F1 & K1 & H1 & L1).
        destruct (so_pool _ _ SO th1 f1 last I1 F1) as [(c & C & CH) Q]. rewrite K1, H1. split.
        -- destruct (keeps_flushed _ _ _ _ F _ _ C) as (c' & C' & CH'). exists c'. split; congruence.
        -- intros l FL. destruct L1 as [E|E]; rewrite E in FL; [now apply Q|]. injection FL as <-. apply (so_pending _ _ SO).
Qed.
Lemma crun_sound env xs : forall cf tr, good (cf_st cf) -> ledger (network tr) (cf_st cf) -> sound cf tr ->
  sound (fst (crun env cf xs)) (tr ++ gtrace env cf xs).
Proof.
  induction xs as [|x xs IH]; intros cf tr G L S; [cbn; rewrite app_nil_r; exact S|].
  rewrite crun_cons. cbn [gtrace]. rewrite app_assoc.
  destruct (cstep_good env cf x _ G L) as [G1 L1]. rewrite <- network_app in L1.
  apply IH; [exact G1|exact L1|now apply cstep_sound].
Qed.
Lemma sound_init : sound (idle init_state) [].
Proof. constructor; cbn; try (intros; intros y []; fail). intros th f last []. Qed.
Lemma after_sound env xs : sound (after env xs) (history env xs).
Proof. exact (crun_sound env xs (idle init_state) [] good_init ledger_init sound_init). Qed.

Lemma only_queued env xs a : incl (all_packed a (history env xs)) (all_queued a (history env xs)).
Proof. apply (so_packed _ _ (after_sound env xs)). Qed.

(** ** The packets of process_acks *)
Lemma transmit_ack env st ids href t k : inv st -> host_address st href = Some t -> ids <> [] ->
  exists st' x th, transmit env (set_msgs st (s_msgs st ++ [ack_message ids])) (List.length (s_msgs st)) href Plain k = (st', [MPut x], th) /\
    at_addr x = t /\ acknowledges (at_msg x) ids.
Proof.
  intros I NH NE. set (st1 := set_msgs st (s_msgs st ++ [ack_message ids])).
  assert (nth_error (s_msgs st1) (List.length (s_msgs st)) = Some (ack_message ids)) as NM.
  { cbn. rewrite nth_error_app2 by lia. now rewrite Nat.sub_diag. }
  destruct (transmit_detail env st1 (List.length (s_msgs st)) href Plain k t (ack_message ids) (inv_new _ _ I) NH NM)
    as (st2 & x & c' & th & E & AA & _ & _ & MN & MB & _ & FL & AC & _).
  exists st2, x, th. split; [exact E|]. split; [exact AA|].
  destruct (ack_message_spec ids) as (N1 & N2 & N3).
  assert (piggyback (cur st1 href t) (ack_message ids) = false) as PB.
  { unfold piggyback. rewrite N1. apply andb_false_r. }
  rewrite PB in *. apply ack_acknowledges; [exact NE|now rewrite MN|exact FL| |exact MB].
  rewrite AC, N2. reflexivity.
Qed.
Lemma loop_packet env st f st' ms th k ids t : inv st -> e_handle_out env = false -> ack_loop env st f = (st', ms, th) ->
  In (MPack k ids) ms -> host_address st (f_host f) = Some t ->
  if host_ok t then exists x, ms = [MPack k ids; MPut x] /\ at_addr x = t /\ acknowledges (at_msg x) ids else ms = [MPack k ids].
Proof.
  intros I HO H M NH. pose proof (loop_origin _ _ _ _ _ _ I H) as [LO _]. destruct (LO k ids M) as (-> & _ & SZ). clear LO.
  unfold ack_loop in H. destruct (take_acks (skipn (f_pos f) (ack_list st f)) []) as [ids' full].
  destruct (full || (0 <? zlen ids')) eqn:NE; [|injection H as <- <- <-; destruct M as [M|[]]; discriminate].
  destruct (begin_send env _ _ _ _ _) as [[st1 ms1] th1] eqn:BS in H. injection H as <- <- <-.
  destruct (begin_effect _ _ _ _ _ _ _ _ _ (inv_new _ _ I) BS) as (_ & _ & _ & P).
  assert (ids' = ids) as ->.
  { destruct M as [M|M]; [now injection M|]. exfalso. rewrite Forall_forall in P. exact (P _ M). }
  unfold begin_send in BS. change (s_hosts (set_msgs st (s_msgs st ++ [ack_message ids]))) with (s_hosts st) in BS.
  unfold host_address in NH. rewrite NH in BS. cbn [s_msgs set_msgs] in BS.
  rewrite nth_error_app2, Nat.sub_diag in BS by lia. cbn [nth_error] in BS. rewrite HO in BS.
  destruct (host_ok t); cbn [negb] in BS.
  - destruct (transmit_ack env st ids (f_host f) t (ToAcks {| f_key := f_key f; f_host := f_host f; f_pos := f_pos f + List.length ids;
        f_list := f_list f; f_todo := f_todo f |} (negb full)) I NH) as (st2 & x & th2 & E & A & B).
    { intros ->. cbn in SZ. lia. }
    rewrite E in BS. injection BS as <- <- <-. exists x. auto.
  - injection BS as <- <- <-. reflexivity.
Qed.
Lemma ack_packets env xs x a ids : e_handle_out env = false ->
  In (Packing a ids) (gevents env (after env xs) x) ->
  1 <= zlen ids <= 251 /\
  exists c t, circuit_of (cf_st (after env xs)) a = Some c /\ host_address (cf_st (after env xs)) (c_host c) = Some t /\
    if host_ok t
    then exists y, gevents env (after env xs) x = [Packing a ids; Net (Attempted y)] /\ at_addr y = t /\ acknowledges (at_msg y) ids
    else gevents env (after env xs) x = [Packing a ids].
Proof.
  intros HO H. pose proof (after_sound env xs) as SO. pose proof (after_good env xs) as [I V]. set (cf := after env xs) in *.
  assert (forall ms, In (Packing a ids) (map seen ms) -> In (MPack a ids) ms) as BACK.
  { intros ms X. apply in_map_iff in X as (m & E & X). destruct m; try discriminate. injection E as -> ->. exact X. }
  destruct x as [o|i e].
  - exfalso. unfold gevents in H. apply in_app_or in H as [H|H].
    + destruct o as [| | | | | | | |h buf size| |b]; try contradiction.
      * apply in_app_or in H as [H|H].
        -- destruct (accepts env (cf_st cf) h buf size) as [[b m]|]; [destruct H as [H|[]]; discriminate|contradiction].
        -- destruct (host_address (cf_st cf) h); [|contradiction]. destruct (0 <? size); [destruct H as [H|[]]; discriminate|contradiction].
      * destruct (existsb acking (cf_pool cf)); [contradiction|destruct H as [H|[]]; discriminate].
    + apply BACK in H. cbn [cstep] in H. destruct (start env cf o) as [[st ms] th] eqn:E. cbn [snd] in H.
      destruct (simple o) eqn:SI.
      { assert (start env cf o = (fst (step (silent env) (cf_st cf) o), [], Finished (snd (step (silent env) (cf_st cf) o)))) as E'.
        { unfold start. destruct o; try discriminate SI; destruct (step (silent env) (cf_st cf) _); reflexivity. }
        rewrite E' in E. injection E as <- <- <-. contradiction. }
      destruct o as [| | | | | |mref href md sock| |href buf size|order sock|b]; try discriminate SI.
      * destruct (begin_effect _ _ _ _ _ _ _ _ _ I E) as (_ & _ & _ & P). rewrite Forall_forall in P. exact (P _ H).
      * unfold start in E. destruct (receive_check (silent env) (cf_st cf) href buf size) as [st1 r] eqn:R.
        destruct (receive_queues _ _ _ _ _ _ _ I R) as [I1 _].
        destruct (r_res r) as [[m|]|e']; try (injection E as <- <- <-; contradiction).
        destruct (e_handle env); [|injection E as <- <- <-; contradiction].
        destruct (enter_effect _ _ _ _ _ _ _ _ I1 E) as (_ & _ & _ & P). rewrite Forall_forall in P. exact (P _ H).
      * unfold start in E. rewrite resend_none in E by exact I. injection E as <- <- <-. contradiction.
      * unfold start in E. destruct (existsb acking (cf_pool cf)); [injection E as <- <- <-; contradiction|].
        destruct (step (silent env) (cf_st cf) (RemoveCircuit b)). injection E as <- <- <-. contradiction.
  - unfold gevents in *. cbn [app cstep] in *. destruct (nth_error (cf_pool cf) i) as [th|] eqn:NT; [|contradiction].
    destruct (resume env (cf_st cf) e th) as [[st ms] th'] eqn:R. cbn [snd] in *. apply BACK in H.
    pose proof (nth_error_In _ _ NT) as IT.
    destruct (resume_origin _ _ _ _ _ _ _ I R) as [OP _]. destruct (OP a ids H) as (_ & _ & _ & _ & SZ). split; [exact SZ|].
    assert (forall f, (exists c, circ (cf_st cf) (f_key f) = Some c /\ c_host c = f_host f) -> ack_loop env (cf_st cf) f = (st, ms, th') ->
      exists c t, circuit_of (cf_st cf) a = Some c /\ host_address (cf_st cf) (c_host c) = Some t /\
      if host_ok t then exists y, map seen ms = [Packing a ids; Net (Attempted y)] /\ at_addr y = t /\ acknowledges (at_msg y) ids
      else map seen ms = [Packing a ids]) as LOOP.
    { intros f (c & C & CH) E. destruct (loop_origin _ _ _ _ _ _ I E) as [LO _]. destruct (LO a ids H) as (-> & _).
      pose proof (V _ _ C) as VH. destruct (host_address (cf_st cf) (c_host c)) as [t|] eqn:NH; [|congruence].
      exists c, t. split; [exact C|]. split; [exact NH|]. rewrite CH in NH.
      pose proof (loop_packet _ _ _ _ _ _ _ _ _ I HO E H NH) as P. destruct (host_ok t).
      - destruct P as (y & -> & A & B). exists y. auto.
      - now rewrite P. }
    destruct th as [o|name j w|mref b k|r f last|todo]; cbn [resume] in R.
    + injection R as <- <- <-. contradiction.
    + exfalso. assert (Forall plain_mark ms) as P; [|rewrite Forall_forall in P; exact (P _ H)].
      destruct e; [now destruct (after_effect _ _ _ _ _ _ _ I R) as (_ & _ & _ & P)|now destruct (enter_effect _ _ _ _ _ _ _ _ I R) as (_ & _ & _ & P)].
    + destruct e; injection R as <- <- <-; contradiction.
    + destruct r as [r|e']; [|injection R as <- <- <-; destruct H as [H|[]]; discriminate].
      destruct last; [injection R as <- <- <-; destruct H as [H|[]]; discriminate|].
      apply (LOOP f); [|exact R]. now destruct (so_pool _ _ SO _ f false IT eq_refl).
    + destruct todo as [|k todo]; cbn [next_circuit] in R; [injection R as <- <- <-; contradiction|].
      destruct (get_circuit (s_circuits (cf_st cf)) k) as [c|] eqn:C; [|injection R as <- <- <-; contradiction].
      apply (LOOP {| f_key := k; f_host := c_host c; f_pos := 0; f_list := None; f_todo := todo |}); [|exact R]. exists c. split; [exact C|reflexivity].
Qed.
