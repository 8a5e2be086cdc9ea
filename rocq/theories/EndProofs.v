(** Lemmas for C106. *)
From Verif Require Import Lib SpecWhole WholeProofs LiveManagerProofs DispatchProofs DispatchMore GreenletProofs GreenletAcks GreenletMore.
From Verif Require Import LiveManagerMore SpecCrowd CrowdProofs SpecMesh MeshProofs MeshMore MeshSource MeshHosts SpecEnds.
Open Scope Z_scope.
Open Scope list_scope.

(** ** A call of __send_message *)
Definition sends (env : denv) (r h : nat) (k : back) (st' : dstate) (th : thread) : Prop :=
  (exists x, th = back_to k x /\ forall e, x = Err e -> exists m, nth_error (s_msgs st') r = Some m /\ msg_str_error m = Some e) \/
  (exists b, th = InSocket r b k) \/
  (exists name i md, th = InHandler name i (Announce r h md k) /\ e_handle_out env = true).
Lemma contain_err e m x : contain e m = Err x -> msg_str_error m = Some x.
Proof. unfold contain. destruct e; try discriminate; destruct (msg_str_error m); congruence. Qed.
Lemma transmit_sends env st r h md k : nth_error (s_hosts st) h <> None -> nth_error (s_msgs st) r <> None ->
  sends env r h k (fst (fst (transmit env st r h md k))) (snd (transmit env st r h md k)).
Proof.
  intros H M. unfold transmit. destruct (nth_error (s_hosts st) h) as [a|]; [|congruence].
  destruct (nth_error (s_msgs st) r) as [m|] eqn:NM; [|congruence].
  pose proof (find_circuit_spec st h a) as FC. destruct (find_circuit st h a) as [st1 c].
  destruct FC as (EC & C1 & CO & H1 & M1 & _).
  assert (r < List.length (s_msgs st))%nat as L by (apply nth_error_Some; congruence).
  destruct (match md with
            | Reliable x => prepare_packet c r m LL_RELIABLE_FLAG x
            | Plain => prepare_packet c r m LL_NONE 0
            end) as [c' m'].
  match goal with |- context [serialize _ _ _ m'] => idtac end.
  set (st2 := match md with Reliable _ => _ | Plain => _ end).
  assert (nth_error (s_msgs st2) r = Some m') as N2.
  { assert (s_msgs st2 = update_nth r m' (s_msgs st)) as ->.
    { subst st2. destruct md as [|x]; [|destruct (c_count c' <=? 0)]; cbn; now rewrite M1. }
    now apply HeaderProofs.nth_update_eq. }
  destruct (serialize _ _ _ m') as [[b|]|x]; cbn [fst snd].
  - right. left. eauto.
  - left. eexists. split; [reflexivity|]. intros e E. apply contain_err in E. eauto.
  - left. eexists. split; [reflexivity|]. intros e E. apply contain_err in E. eauto.
Qed.
Lemma enter_sends env st name i r h md k : nth_error (s_hosts st) h <> None -> nth_error (s_msgs st) r <> None -> e_handle_out env = true ->
  let x := enter_handler env st name i (Announce r h md k) in sends env r h k (fst (fst x)) (snd x).
Proof.
  intros H M HO. cbv zeta. unfold enter_handler, work_message.
  pose proof (transmit_sends env st r h md k H M) as T.
  destruct (sget name (s_handler st)) as [l|]; [|exact T]. destruct (nth_error (s_msgs st) r) as [m|]; [|congruence].
  destruct (nth_error l i) as [s|]; [|exact T]. right. right. cbn. eauto 6.
Qed.
Lemma begin_sends env st r h md k : nth_error (s_hosts st) h <> None -> nth_error (s_msgs st) r <> None ->
  let x := begin_send env st r h md k in sends env r h k (fst (fst x)) (snd x).
Proof.
  intros H M. cbv zeta. unfold begin_send. pose proof (transmit_sends env st r h md k H M) as T.
  destruct (e_handle_out env) eqn:HO.
  - assert (forall name, let x := enter_handler env st name 0 (Announce r h md k) in sends env r h k (fst (fst x)) (snd x)) as En
      by (intros name; now apply enter_sends). cbv zeta in En.
    destruct (nth_error (s_hosts st) h) as [a|]; [|congruence]. destruct (nth_error (s_msgs st) r) as [m|]; [|congruence].
    destruct (negb (host_ok a)); [|apply En]. left. exists (Ok None). split; [reflexivity|discriminate].
  - destruct (nth_error (s_hosts st) h) as [a|]; [|congruence]. destruct (nth_error (s_msgs st) r) as [m|]; [|congruence].
    destruct (negb (host_ok a)); [|exact T]. left. exists (Ok None). split; [reflexivity|discriminate].
Qed.

(** ** Message objects stay what they are *)
Definition untouched (r : nat) (x : sched) : Prop := forall m, x <> Spawn (SetMsg r m).
Lemma cstep_kept env cf x r k : inv (cf_st cf) -> untouched r x -> nth_error (keys (cf_st cf)) r = Some k ->
  nth_error (keys (cf_st (fst (cstep env cf x)))) r = Some k.
Proof.
  intros Iv U N. assert ((forall r' m, x <> Spawn (SetMsg r' m)) \/ exists r' m, x = Spawn (SetMsg r' m)) as [D|(r' & m & ->)].
  { destruct x as [[]|]; try (left; discriminate). right; eauto. }
  - rewrite (cstep_keys env cf x Iv D), nth_error_app1; [exact N|]. apply nth_error_Some. congruence.
  - cbn. unfold keys in *. destruct (Nat.eq_dec r r') as [<-|NE]; [now elim (U m)|].
    rewrite nth_error_map in *. rewrite HeaderProofs.nth_update_neq by congruence. exact N.
Qed.
Lemma cstep_msgs_len env cf x : inv (cf_st cf) -> (List.length (s_msgs (cf_st cf)) <= List.length (s_msgs (cf_st (fst (cstep env cf x)))))%nat.
Proof.
  intros Iv. assert ((forall r' m, x <> Spawn (SetMsg r' m)) \/ exists r' m, x = Spawn (SetMsg r' m)) as [D|(r' & m & ->)].
  { destruct x as [[]|]; try (left; discriminate). right; eauto. }
  - pose proof (f_equal (@List.length _) (cstep_keys env cf x Iv D)) as E. unfold keys in E. rewrite app_length, !map_length in E. lia.
  - cbn. rewrite update_len. lia.
Qed.

(** ** The invariant *)
Definition is_acks (o : op) : Prop := exists order sock, o = ProcessAcks order sock.
Definition own_ack (env : denv) (xs : list sched) (r : nat) : Prop :=
  (exists ids, nth_error (keys (cf_st (after env xs))) r = Some (key (ack_message ids))) \/ exists m, In (Spawn (SetMsg r m)) xs.
Definition sending (env : denv) (xs : list sched) (o : op) (st : dstate) (r h : nat) (k : back) : Prop :=
  nth_error (s_hosts (cf_st (after env xs))) h <> None /\ nth_error (s_msgs (cf_st (after env xs))) r <> None /\
  match k with
  | ToUser => exists md sock, o = Send r h md sock
  | ToAcks f _ => is_acks o /\ f_host f = h /\ (List.length (s_msgs st) <= r)%nat /\ own_ack env xs r
  end.
Definition kind (env : denv) (xs : list sched) (o : op) (st : dstate) (th : thread) : Prop :=
  match th with
  | Finished _ => True
  | InHandler _ _ (Deliver _) => (exists h d n, o = Receive h d n) /\ e_handle env = true
  | InHandler _ _ (Announce r h md k) => e_handle_out env = true /\ sending env xs o st r h k
  | InSocket r _ k => exists h, sending env xs o st r h k
  | Returning _ f _ => is_acks o /\ nth_error (s_hosts (cf_st (after env xs))) (f_host f) <> None
  | AtAcks _ => is_acks o
  end.
Definition failed (th : thread) : option exn :=
  match th with Returning (Err e) _ _ => Some e | _ => raised th end.
Definition told (env : denv) (xs : list sched) (t : nat) (th : thread) : Prop :=
  exists o st, started env xs t o st /\ kind env xs o st th /\ forall e, failed th = Some e -> reason env xs t o st e.

Lemma after_snoc env xs x : after env (xs ++ [x]) = fst (cstep env (after env xs) x).
Proof. unfold after. rewrite crun_app, crun_cons. reflexivity. Qed.
Lemma after_sane env xs : sane env (after env xs).
Proof.
  unfold after. assert (forall cf, sane env cf -> sane env (fst (crun env cf xs))) as H.
  { induction xs as [|x xs IH]; intros cf SN; [exact SN|]. rewrite crun_cons. apply IH. now apply cstep_sane. }
  apply H. constructor.
  - exact good_init.
  - exists []. exact ledger_init.
  - intros th [].
Qed.
Lemma after_inv env xs : inv (cf_st (after env xs)).
Proof. exact (good_inv _ (sn_good _ _ (after_sane env xs))). Qed.

Lemma started_snoc env xs x t o st : started env xs t o st -> started env (xs ++ [x]) t o st.
Proof. intros (p & q & -> & L & E). exists p, (q ++ [x]). rewrite <- app_assoc. auto. Qed.
Lemma raised_snoc env xs x t e : a_subscriber_raised env xs t e -> a_subscriber_raised env (xs ++ [x]) t e.
Proof. intros (p & q & name & i & w & -> & K & N). exists p, (q ++ [x]), name, i, w. rewrite <- app_assoc. auto. Qed.
Lemma unprintable_snoc env xs x r e : unprintable env xs r e -> unprintable env (xs ++ [x]) r e.
Proof. intros (p & q & m & -> & N & E). exists p, (q ++ [x]), m. rewrite <- app_assoc. auto. Qed.
Lemma reason_snoc env xs x t o st e : reason env xs t o st e -> reason env (xs ++ [x]) t o st e.
Proof.
  destruct o; cbn [reason]; auto.
  - intros [(A & B)|[A|A]]; auto using raised_snoc, unprintable_snoc.
  - intros [(A & B)|A]; auto using raised_snoc.
  - intros [(A & B)|(r & m & A & B & C)]; auto using raised_snoc. right. exists r, m. split; [exact A|]. split; [apply in_or_app; now left|now apply unprintable_snoc].
Qed.
Lemma hosts_snoc env xs x h : nth_error (s_hosts (cf_st (after env xs))) h <> None -> nth_error (s_hosts (cf_st (after env (xs ++ [x])))) h <> None.
Proof. rewrite !nth_error_Some, after_snoc. pose proof (cstep_hosts env (after env xs) x (after_inv env xs)). lia. Qed.
Lemma msgs_snoc env xs x r : nth_error (s_msgs (cf_st (after env xs))) r <> None -> nth_error (s_msgs (cf_st (after env (xs ++ [x])))) r <> None.
Proof. rewrite !nth_error_Some, after_snoc. pose proof (cstep_msgs_len env (after env xs) x (after_inv env xs)). lia. Qed.
Lemma own_snoc env xs x r : own_ack env xs r -> own_ack env (xs ++ [x]) r.
Proof.
  intros [(ids & N)|(m & M)].
  - assert (untouched r x \/ exists m, x = Spawn (SetMsg r m)) as [U|(m & ->)].
    { destruct x as [o|]; [|left; discriminate]. destruct o as [| | |r' m| | | | | | |]; try (left; discriminate).
      destruct (Nat.eq_dec r r') as [<-|NE]; [right; eauto|]. left. intros m' [= E _]. congruence. }
    + left. exists ids. rewrite after_snoc. apply cstep_kept; [apply after_inv|exact U|exact N].
    + right. exists m. apply in_or_app. right. now left.
  - right. exists m. apply in_or_app. now left.
Qed.
Lemma sending_snoc env xs x o st r h k : sending env xs o st r h k -> sending env (xs ++ [x]) o st r h k.
Proof.
  intros (H & M & K). split; [now apply hosts_snoc|]. split; [now apply msgs_snoc|]. destruct k as [|f last]; [exact K|].
  destruct K as (A & B & C & D). auto using own_snoc.
Qed.
Lemma kind_snoc env xs x o st th : kind env xs o st th -> kind env (xs ++ [x]) o st th.
Proof.
  destruct th as [y|name i [m|r h md k]|r b k|y f last|todo]; cbn [kind]; auto.
  - intros (A & B). auto using sending_snoc.
  - intros (h & B). eauto using sending_snoc.
  - intros (A & B). auto using hosts_snoc.
Qed.
Lemma told_snoc env xs x t th : told env xs t th -> told env (xs ++ [x]) t th.
Proof. intros (o & st & A & B & C). exists o, st. auto using started_snoc, kind_snoc, reason_snoc. Qed.
Lemma told_detach env xs t th k l : told env xs t th -> told env xs t (detach k l th).
Proof.
  assert (forall f, f_host (detach_flush k l f) = f_host f) as FH.
  { intros f. unfold detach_flush. destruct (addr_eqb k (f_key f)); [destruct (f_list f)|]; reflexivity. }
  assert (forall o st r h b, sending env xs o st r h b -> sending env xs o st r h (detach_back k l b)) as SB.
  { intros o st r h [|f last] H; [exact H|]. unfold sending in *. cbn [detach_back]. rewrite FH. exact H. }
  intros (o & st & A & B & C). exists o, st. split; [exact A|].
  destruct th as [y|name i [m|r h md b]|r buf b|y f last|todo]; cbn [detach kind failed] in *; auto.
  - destruct B as (B1 & B2). auto.
  - destruct B as (h & B). eauto.
  - destruct B as (B1 & B2). rewrite FH. auto.
Qed.

(** ** Steps *)
Lemma sends_told env xs t o st r h k th : started env xs t o st -> sending env xs o st r h k ->
  sends env r h k (cf_st (after env xs)) th -> told env xs t th.
Proof.
  intros A (H & M & K) S. exists o, st. split; [exact A|].
  destruct S as [(x & -> & E)|[(b & ->)|(name & i & md & -> & HO)]].
  - destruct k as [|f last]; cbn [back_to].
    + destruct K as (md & sock & ->). split; [exact Logic.I|]. cbn. intros e F. destruct x as [y|e']; [discriminate|]. injection F as ->.
      destruct (E e eq_refl) as (m & N & P). right. left. exists xs, [], m. rewrite app_nil_r. auto.
    + destruct K as (IA & FH & L & OW). cbn [kind failed]. split; [rewrite FH; auto|]. intros e F.
      destruct x as [y|e']; [discriminate|]. injection F as ->. destruct (E e eq_refl) as (m & N & P).
      destruct IA as (order & sock & ->). cbn [reason]. right. destruct OW as [(ids & W)|(m' & W)].
      * exfalso. unfold keys in W. rewrite nth_error_map, N in W. cbn in W. injection W as W1 W2.
        destruct (ack_message_spec ids) as (_ & _ & B). rewrite (ack_printable m ids) in P; [discriminate|]. congruence.
      * exists r, m'. split; [exact L|]. split; [exact W|]. exists xs, [], m. rewrite app_nil_r. auto.
  - split; [|discriminate]. exists h. split; auto.
  - split; [|discriminate]. cbn [kind]. split; [exact HO|]. split; auto.
Qed.
Lemma started_len env xs t o st : started env xs t o st -> (List.length (s_msgs st) <= List.length (s_msgs (cf_st (after env xs))))%nat.
Proof.
  intros (p & q & -> & _ & ->). generalize (Spawn o :: q) as l. clear q o. intros l. revert p.
  induction l as [|x l IH]; intros p; [rewrite app_nil_r; lia|].
  pose proof (cstep_msgs_len env (after env p) x (after_inv env p)) as K. rewrite <- after_snoc in K.
  specialize (IH (p ++ [x])). rewrite <- app_assoc in IH. cbn [app] in IH. lia.
Qed.
Lemma loop_told env xs x t o st f : is_acks o -> started env xs t o st ->
  nth_error (s_hosts (cf_st (after env xs))) (f_host f) <> None ->
  cf_st (after env (xs ++ [x])) = fst (fst (ack_loop env (cf_st (after env xs)) f)) ->
  told env (xs ++ [x]) t (snd (ack_loop env (cf_st (after env xs)) f)).
Proof.
  intros IA A H E. pose proof (started_snoc env xs x t o st A) as A'. pose proof (started_len env xs t o st A) as L.
  pose proof (loop_keys env (cf_st (after env xs)) f) as K. unfold ack_loop in *.
  destruct (take_acks (skipn (f_pos f) (ack_list (cf_st (after env xs)) f)) []) as [ids full].
  destruct (full || (0 <? zlen ids)).
  - set (f' := {| f_key := f_key f; f_host := f_host f; f_pos := _; f_list := _; f_todo := _ |}) in *.
    set (st1 := set_msgs (cf_st (after env xs)) (s_msgs (cf_st (after env xs)) ++ [ack_message ids])) in *.
    set (r := List.length (s_msgs (cf_st (after env xs)))) in *.
    pose proof (begin_sends env st1 r (f_host f) Plain (ToAcks f' (negb full))) as B. cbv zeta in B.
    pose proof (begin_hosts env st1 r (f_host f) Plain (ToAcks f' (negb full))) as BH. unfold r_hosts in BH.
    assert (nth_error (s_msgs st1) r <> None) as N1.
    { subst st1 r. cbn. rewrite nth_error_app2, Nat.sub_diag by lia. discriminate. }
    specialize (B H N1).
    destruct (begin_send env st1 r (f_host f) Plain (ToAcks f' (negb full))) as [[st' ms] th]. cbn [fst snd] in *.
    rewrite <- E in B, BH.
    assert (nth_error (keys (cf_st (after env (xs ++ [x])))) r = Some (key (ack_message ids))) as OW.
    { rewrite E. assert (inv (cf_st (after env xs))) as Iv by apply after_inv. 
      try specialize (K Iv). unfold r_keys in K. cbn [fst snd] in K. rewrite K. cbn [pack_keys flat_map app].
      unfold keys. rewrite nth_error_app2 by (rewrite map_length; subst r; lia). rewrite map_length. subst r. rewrite Nat.sub_diag. reflexivity. }
    apply (sends_told env (xs ++ [x]) t o st r (f_host f) (ToAcks f' (negb full)) th A'); [|exact B].
    split; [rewrite BH; exact H|]. split.
    { unfold keys in OW. rewrite nth_error_map in OW. destruct (nth_error (s_msgs (cf_st (after env (xs ++ [x])))) r); discriminate. }
    split; [exact IA|]. split; [reflexivity|]. split; [exact L|]. left. eauto.
  - cbn. exists o, st. split; [exact A'|]. split; [exact IA|discriminate].
Qed.

Lemma reason_subscriber env xs t o st e th : kind env xs o st th -> a_subscriber_raised env xs t e ->
  match th with InHandler _ _ _ => True | _ => False end -> reason env xs t o st e.
Proof.
  intros K R H. destruct th as [y|name i [m|r h md k]|r buf b|y f last|todo]; try contradiction; cbn [kind] in K.
  - destruct K as ((h & d & n & ->) & HE). left. auto.
  - destruct K as (HO & _ & _ & K). destruct k as [|f last].
    + destruct K as (md' & sock & ->). left. auto.
    + destruct K as ((order & sock & ->) & _). left. auto.
Qed.
Lemma after_told env xs x t o st name i e w : started env xs t o st -> kind env xs o st (InHandler name i w) ->
  (forall e', swallow_keyerror e = Some e' -> reason env (xs ++ [x]) t o st e') ->
  cf_st (after env (xs ++ [x])) = fst (fst (after_handler env (cf_st (after env xs)) e w)) ->
  told env (xs ++ [x]) t (snd (after_handler env (cf_st (after env xs)) e w)).
Proof.
  intros A K R E. pose proof (started_snoc env xs x t o st A) as A'. pose proof (kind_snoc env xs x o st _ K) as K'.
  destruct w as [m|r h md k]; cbn [after_handler] in *.
  - exists o, st. split; [exact A'|]. split; [exact Logic.I|]. cbn. destruct (swallow_keyerror e) as [e1|]; cbn; [|discriminate].
    intros e' [= <-]. now apply R.
  - destruct (swallow_keyerror e) as [e1|].
    + exists o, st. split; [exact A'|]. destruct K' as (_ & KH & KM & K'). destruct k as [|f last]; cbn [back_to snd].
      * split; [exact Logic.I|]. cbn. intros e' [= <-]. now apply R.
      * destruct K' as (IA & FH & _). cbn [kind failed]. split; [rewrite FH; auto|]. intros e' [= <-]. now apply R.
    + destruct K as (HO & KH & KM & K). pose proof (transmit_sends env _ r h md k KH KM) as S. rewrite <- E in S.
      destruct K' as (_ & K'). exact (sends_told env _ t o st r h k _ A' K' S).
Qed.
Lemma enter_told env xs x t o st name0 i0 name i w : started env xs t o st -> kind env xs o st (InHandler name0 i0 w) ->
  cf_st (after env (xs ++ [x])) = fst (fst (enter_handler env (cf_st (after env xs)) name i w)) ->
  told env (xs ++ [x]) t (snd (enter_handler env (cf_st (after env xs)) name i w)).
Proof.
  intros A K E. assert (forall e', swallow_keyerror None = Some e' -> reason env (xs ++ [x]) t o st e') as R by discriminate.
  pose proof (after_told env xs x t o st name0 i0 None w A K R) as T. unfold enter_handler in *.
  destruct (sget name (s_handler (cf_st (after env xs)))) as [l|]; [|now apply T].
  destruct (work_message (cf_st (after env xs)) w) as [m|]; [|now apply T].
  destruct (nth_error l i) as [s|]; [|now apply T].
  exists o, st. split; [now apply started_snoc|]. split; [|discriminate].
  apply (kind_snoc env xs x) in K. destruct w; exact K.
Qed.
Lemma resume_told env xs t e th : told env xs t th -> nth_error (cf_pool (after env xs)) t = Some th ->
  cf_st (after env (xs ++ [Resume t e])) = fst (fst (resume env (cf_st (after env xs)) e th)) ->
  told env (xs ++ [Resume t e]) t (snd (resume env (cf_st (after env xs)) e th)).
Proof.
  intros T N E. pose proof (told_snoc env xs (Resume t e) t th T) as T'. destruct T as (o & st & A & K & F).
  destruct th as [y|name i w|r buf k|y f last|todo]; cbn [resume] in *.
  - exact T'.
  - destruct e as [e|]; [|exact (enter_told env xs (Resume t None) t o st name i name i w A K E)].
    apply (after_told env xs (Resume t (Some e)) t o st name i); [exact A|exact K| |exact E].
    intros e' H. apply (reason_subscriber env _ t o st e' (InHandler name i w)); [now apply kind_snoc| |exact Logic.I].
    exists xs, [], name, i, w. destruct e; try discriminate; injection H as <-; (split; [reflexivity|]); (split; [discriminate|exact N]).
  - destruct K as (h & K). apply (sends_told env _ t o st r h k); [now apply started_snoc|now apply sending_snoc|].
    left. destruct e as [e|]; cbn [snd fst] in *.
    + eexists. split; [reflexivity|]. intros e' H. rewrite E. destruct (nth_error (s_msgs (cf_st (after env xs))) r) as [m|]; [|discriminate].
      apply contain_err in H. eauto.
    + eexists. split; [reflexivity|discriminate].
  - destruct y as [y|e1].
    + destruct K as (IA & FH). destruct last.
      * exists o, st. split; [now apply started_snoc|]. split; [exact IA|discriminate].
      * exact (loop_told env xs (Resume t e) t o st f IA A FH E).
    + exists o, st. split; [now apply started_snoc|]. split; [exact Logic.I|]. cbn. intros e' [= <-].
      apply reason_snoc. now apply F.
  - unfold next_circuit in *. destruct todo as [|k todo].
    + exists o, st. split; [now apply started_snoc|]. split; [exact Logic.I|discriminate].
    + destruct (get_circuit (s_circuits (cf_st (after env xs))) k) as [c|] eqn:G.
      * apply (loop_told env xs (Resume t e) t o st _ K A); [|exact E].
        exact (good_hosts _ (sn_good _ _ (after_sane env xs)) k c G).
      * exists o, st. split; [now apply started_snoc|]. split; [exact K|discriminate].
Qed.
Lemma started_now env xs o : started env (xs ++ [Spawn o]) (List.length (spawned xs)) o (cf_st (after env xs)).
Proof. exists xs, []. auto. Qed.
Lemma start_told env xs o :
  cf_st (after env (xs ++ [Spawn o])) = fst (fst (start env (after env xs) o)) ->
  told env (xs ++ [Spawn o]) (List.length (spawned xs)) (snd (start env (after env xs) o)).
Proof.
  intros E. set (t := List.length (spawned xs)). set (st0 := cf_st (after env xs)) in *.
  assert (started env (xs ++ [Spawn o]) t o st0) as A by apply started_now.
  assert (forall th, (exists x, th = Finished x) -> (forall e, raised th = Some e -> reason env (xs ++ [Spawn o]) t o st0 e) -> told env (xs ++ [Spawn o]) t th) as FIN.
  { intros th (x & ->) R. exists o, st0. split; [exact A|]. split; [exact Logic.I|exact R]. }
  destruct o as [a|h a|m|r m|hd|a b|r h md sock|r h|h buf n|order sock|a]; cbn [start step fst snd] in *; fold st0 in E |- *;
    try (apply FIN; [eauto|discriminate]).
  - (* Send *)
    destruct (nth_error (s_hosts st0) h) as [a|] eqn:NH; [destruct (nth_error (s_msgs st0) r) as [m|] eqn:NM|].
    + assert (nth_error (s_hosts st0) h <> None) as H1 by congruence. assert (nth_error (s_msgs st0) r <> None) as M1 by congruence.
      pose proof (begin_sends env st0 r h md ToUser H1 M1) as S. cbv zeta in S. rewrite <- E in S.
      apply (sends_told env _ t _ st0 r h ToUser _ A); [|exact S].
      split; [now apply hosts_snoc|]. split; [now apply msgs_snoc|]. eauto.
    + unfold begin_send. rewrite NH, NM. apply FIN; [cbn; eauto|]. cbn. intros e [= <-]. right. right. split; [now right|reflexivity].
    + unfold begin_send. rewrite NH. apply FIN; [cbn; eauto|]. cbn. intros e [= <-]. right. right. split; [now left|reflexivity].
  - (* Retry *)
    unfold send_retry. cbn [snd]. apply FIN; [eauto|]. cbn. intros e [= <-]. reflexivity.
  - (* Receive *)
    destruct (receive_check (silent env) st0 h buf n) as [st1 rr] eqn:R.
    assert (forall e, r_res rr = Err e -> reason env (xs ++ [Spawn (Receive h buf n)]) t (Receive h buf n) st0 e) as RS.
    { intros e Er. cbn [reason]. right. unfold host_address, unreadable. unfold receive_check in R.
      destruct (nth_error (s_hosts st0) h) as [a|] eqn:NH.
      2:{ right. injection R as <- <-. injection Er as <-. auto. }
      left. destruct (Z.leb_spec n 0) as [|L]; [injection R as <- <-; discriminate|]. split; [exact L|]. split; [discriminate|].
      destruct (find_circuit st0 h a) as [st2 c] eqn:FC. pose proof (find_circuit_spec st0 h a) as FS. rewrite FC in FS.
      match type of R with context [deserialize ?c buf] => assert (c = deser_conf env st0) as DC end.
      { destruct FS as (_ & _ & _ & _ & _ & _ & HS & _). unfold deser_conf. cbn [s_handler set_counts]. rewrite HS. reflexivity. }
      rewrite DC in R. destruct (deserialize (deser_conf env st0) buf) as [[m|]|x].
      - destruct (c_trusted c && negb (m_trusted m)); [injection R as <- <-; discriminate|]. cbn in R. injection R as <- <-. discriminate.
      - right. split; [reflexivity|]. destruct buf as [|f r].
        + cbn in R. injection R as <- <-. injection Er as <-. auto.
        + change (pyindex (f :: r) 0) with (@Ok byte f) in R. cbn [bind] in R. rewrite id_read in R.
          destruct (sequence_number (f :: r)) as [s|]; injection R as <- <-; [discriminate|]. injection Er as <-. auto.
      - left. injection R as <- <-. exact Er. }
    destruct (r_res rr) as [[m|]|x] eqn:RR; try (apply FIN; [cbn; eauto|]; cbn; rewrite RR; try discriminate; intros e [= <-]; now apply RS).
    destruct (e_handle env) eqn:HE; [|apply FIN; [cbn; eauto|]; cbn; rewrite RR; discriminate].
    assert (exists name i, snd (enter_handler env st1 (m_name m) 0 (Deliver m)) = InHandler name i (Deliver m) \/
                      snd (enter_handler env st1 (m_name m) 0 (Deliver m)) = Finished (ORecv {| r_res := Ok (Some m); r_calls := [] |})) as (name & i & [D|D]).
    { exists (m_name m), 1%nat. unfold enter_handler. destruct (sget (m_name m) (s_handler st1)) as [l|]; [|right; reflexivity].
      destruct (work_message st1 (Deliver m)) as [m'|]; [|right; reflexivity]. destruct (nth_error l 0); [left|right]; reflexivity. }
    + rewrite D. exists (Receive h buf n), st0. split; [exact A|]. split; [|discriminate]. cbn. split; [eauto|exact HE].
    + rewrite D. apply FIN; [eauto|discriminate].
  - (* ProcessAcks *)
    rewrite resend_none in * by apply after_inv. cbn [snd]. exists (ProcessAcks order sock), st0. split; [exact A|]. split; [|discriminate].
    cbn. red. eauto.
  - destruct (existsb acking (cf_pool (after env xs))); cbn [snd]; apply FIN; [eauto|discriminate|eauto|discriminate].
Qed.

(** ** All of it *)
Lemma all_told env xs : forall t th, nth_error (cf_pool (after env xs)) t = Some th -> told env xs t th.
Proof.
  induction xs as [|x xs IH] using rev_ind; intros t th N.
  - destruct t; discriminate.
  - assert (List.length (cf_pool (after env xs)) = List.length (spawned xs)) as PL by (unfold after; rewrite crun_pool; reflexivity).
    pose proof (after_snoc env xs x) as E. destruct x as [o|i e]; cbn [cstep] in E.
    + pose proof (start_told env xs o) as S. destruct (start env (after env xs) o) as [[st ms] th0]. cbn [fst snd] in *.
      rewrite E in N. cbn [cf_pool] in N. destruct (Nat.lt_ge_cases t (List.length (cf_pool (after env xs)))) as [L|L].
      * rewrite nth_error_app1 in N by exact L. apply told_snoc. now apply IH.
      * rewrite nth_error_app2 in N by exact L. destruct (t - List.length (cf_pool (after env xs)))%nat as [|d] eqn:D; [|destruct d; discriminate].
        injection N as <-. assert (t = List.length (spawned xs)) as -> by lia. apply S. rewrite E. reflexivity.
    + destruct (nth_error (cf_pool (after env xs)) i) as [th0|] eqn:NI.
      * pose proof (resume_told env xs i e th0 (IH _ _ NI) NI) as R.
        destruct (resume env (cf_st (after env xs)) e th0) as [[st ms] th1]. cbn [fst snd] in *.
        rewrite E in N. cbn [cf_pool] in N. destruct (Nat.eq_dec t i) as [->|NE].
        -- rewrite HeaderProofs.nth_update_eq in N.
           { injection N as <-. apply R. rewrite E. reflexivity. }
           destruct (detach_all_map (cf_st (after env xs)) ms (cf_pool (after env xs))) as (g & _ & ->). rewrite map_length. apply nth_error_Some. congruence.
        -- rewrite HeaderProofs.nth_update_neq in N by congruence. clear R E. revert th N.
           assert (forall pool, (forall th, nth_error pool t = Some th -> told env (xs ++ [Resume i e]) t th) ->
             forall th, nth_error (detach_all (cf_st (after env xs)) ms pool) t = Some th -> told env (xs ++ [Resume i e]) t th) as G.
           { induction ms as [|m ms IHm]; intros pool H th N; [now apply H|]. unfold detach_all in N. cbn [fold_left] in N.
             destruct m; try (exact (IHm pool H th N)). refine (IHm _ _ th N).
             intros th' N'. rewrite nth_error_map in N'. destruct (nth_error pool t) as [y|] eqn:Y; [|discriminate]. injection N' as <-.
             apply told_detach. now apply H. }
           apply G. intros th N. apply told_snoc. now apply IH.
      * apply told_snoc. apply IH. rewrite E in N. exact N.
Qed.
Lemma ended_because env xs t e : ended_with env xs t e ->
  exists o st, started env xs t o st /\ reason env xs t o st e.
Proof.
  intros (th & N & R). destruct (all_told env xs t th N) as (o & st & A & _ & F). exists o, st. split; [exact A|]. apply F.
  destruct th; try discriminate. exact R.
Qed.

(** ** What a subscriber's exception does *)
Lemma started_nth env xs t o st : started env xs t o st -> nth_error (spawned xs) t = Some o.
Proof.
  intros (p & q & -> & <- & _). rewrite spawned_app. change (spawned (Spawn o :: q)) with (o :: spawned q).
  rewrite nth_error_app2, Nat.sub_diag by lia. reflexivity.
Qed.
Lemma started_fun env xs t o st o' st' : started env xs t o st -> started env xs t o' st' -> o = o'.
Proof. intros A B. apply started_nth in A, B. congruence. Qed.
Definition doomed (e : exn) (th : thread) : Prop :=
  raised th = Some e \/ exists f last, th = Returning (Err e) f last.
Lemma detach_doomed e k l th : doomed e th -> doomed e (detach k l th).
Proof. intros [R|(f & last & ->)]; [left; destruct th; try discriminate; exact R|right; cbn; eauto]. Qed.
Lemma detach_all_doomed e st ms : forall pool t th, nth_error pool t = Some th -> doomed e th ->
  exists th', nth_error (detach_all st ms pool) t = Some th' /\ doomed e th'.
Proof.
  induction ms as [|m ms IH]; intros pool t th N D; [eauto|]. unfold detach_all. cbn [fold_left].
  destruct m; try exact (IH pool t th N D). eapply IH; [rewrite nth_error_map, N; reflexivity|]. now apply detach_doomed.
Qed.
Lemma cstep_doomed env cf x t e th : nth_error (cf_pool cf) t = Some th -> doomed e th ->
  exists th', nth_error (cf_pool (fst (cstep env cf x))) t = Some th' /\ doomed e th' /\
    forall y, x = Resume t y -> raised th' = Some e.
Proof.
  intros N D. assert (t < List.length (cf_pool cf))%nat as L by (apply nth_error_Some; congruence).
  destruct x as [o|i y]; cbn [cstep].
  - destruct (start env cf o) as [[st ms] th0]. cbn [fst cf_pool]. exists th. rewrite nth_error_app1 by exact L. repeat split; auto. discriminate.
  - destruct (nth_error (cf_pool cf) i) as [thi|] eqn:NI.
    2:{ exists th. cbn [fst]. repeat split; auto. intros z [= -> _]. congruence. }
    destruct (resume env (cf_st cf) y thi) as [[st ms] thj] eqn:R. cbn [fst cf_pool].
    destruct (Nat.eq_dec i t) as [->|NE].
    + rewrite NI in N. injection N as ->. rewrite HeaderProofs.nth_update_eq.
      2:{ destruct (detach_all_map (cf_st cf) ms (cf_pool cf)) as (g & _ & ->). now rewrite map_length. }
      exists thj. split; [reflexivity|]. assert (raised thj = Some e) as RE.
      { destruct D as [D|(f & last & ->)].
        - destruct th; try discriminate. cbn in R. injection R as <- <- <-. exact D.
        - cbn in R. injection R as <- <- <-. reflexivity. }
      split; [now left|]. auto.
    + rewrite HeaderProofs.nth_update_neq by congruence. destruct (detach_all_doomed e (cf_st cf) ms _ _ _ N D) as (th' & N' & D').
      exists th'. repeat split; auto. intros z [= E _]. congruence.
Qed.
Lemma crun_doomed env q : forall cf t e th, nth_error (cf_pool cf) t = Some th -> doomed e th ->
  exists th', nth_error (cf_pool (fst (crun env cf q))) t = Some th' /\ doomed e th'.
Proof.
  induction q as [|x q IH]; intros cf t e th N D; [eauto|]. rewrite crun_cons.
  destruct (cstep_doomed env cf x t e th N D) as (th' & N' & D' & _). eauto.
Qed.
Lemma subscriber_ends env xs t e o st : a_subscriber_raised env xs t e -> started env xs t o st ->
  (~ is_acks o -> ended_with env xs t e) /\ (forall y, ended_with env (xs ++ [Resume t y]) t e).
Proof.
  intros (p & q & name & i & w & -> & NK & N) A.
  assert (swallow_keyerror (Some e) = Some e) as SW by (destruct e; try reflexivity; congruence).
  destruct (all_told env p t _ N) as (o' & st' & A' & K & _).
  assert (o' = o) as ->.
  { destruct A' as (p' & q' & -> & B1 & B2). apply (started_fun env _ t o' st' o st) with (2 := A).
    exists p', (q' ++ Resume t (Some e) :: q). rewrite <- app_assoc. auto. }
  assert (after env (p ++ Resume t (Some e) :: q) = fst (crun env (after env (p ++ [Resume t (Some e)])) q)) as E.
  { unfold after. rewrite <- crun_app, <- app_assoc. reflexivity. }
  assert (exists th, nth_error (cf_pool (after env (p ++ [Resume t (Some e)]))) t = Some th /\ doomed e th /\ (~ is_acks o -> raised th = Some e)) as (th & Nt & D & R).
  { rewrite after_snoc. cbn [cstep]. rewrite N. cbn [resume].
    destruct (after_handler env (cf_st (after env p)) (Some e) w) as [[s1 ms] th] eqn:AH. cbn [fst cf_pool].
    rewrite HeaderProofs.nth_update_eq.
    2:{ destruct (detach_all_map (cf_st (after env p)) ms (cf_pool (after env p))) as (g & _ & ->). rewrite map_length. apply nth_error_Some. congruence. }
    exists th. split; [reflexivity|]. unfold after_handler in AH. rewrite SW in AH. destruct w as [m|r h md k].
    - injection AH as <- <- <-. split; [now left|reflexivity].
    - injection AH as <- <- <-. destruct k as [|f last]; cbn [back_to].
      + split; [now left|reflexivity].
      + split; [right; eauto|]. intros NA. elim NA. destruct K as (_ & _ & _ & IA & _). exact IA. }
  destruct (crun_doomed env q _ t e th Nt D) as (th' & N' & D'). rewrite <- E in N'. split.
  - intros NA. specialize (R NA). exists th. rewrite E. split; [|exact R].
    destruct th as [y| | | |]; try discriminate. now apply crun_finished.
  - intros y. destruct (cstep_doomed env _ (Resume t y) t e th' N' D') as (th2 & N2 & _ & R2).
    exists th2. rewrite after_snoc. eauto.
Qed.

(** ** The manager *)
Lemma nth_started env xs t o : nth_error (spawned xs) t = Some o -> exists st, started env xs t o st.
Proof.
  revert t. induction xs as [|x xs IH] using rev_ind; intros t N; [destruct t; discriminate|].
  rewrite spawned_app in N. destruct (Nat.lt_ge_cases t (List.length (spawned xs))) as [L|L].
  - rewrite nth_error_app1 in N by exact L. destruct (IH t N) as (st & A). exists st. now apply started_snoc.
  - rewrite nth_error_app2 in N by exact L. destruct x as [o'|]; [|destruct (t - _)%nat; discriminate].
    destruct (t - List.length (spawned xs))%nat as [|d] eqn:D; [|destruct d; discriminate]. injection N as ->.
    exists (cf_st (after env xs)). exists xs, []. split; [reflexivity|]. split; [lia|reflexivity].
Qed.
Lemma unreadable_ends env p h buf n q e : 0 < n -> host_address (cf_st (after env p)) h <> None ->
  unreadable env (cf_st (after env p)) buf e -> ended_with env (p ++ Spawn (Receive h buf n) :: q) (List.length (spawned p)) e.
Proof.
  intros L H U. exists (Finished (ORecv {| r_res := Err e; r_calls := [] |})). split; [|reflexivity].
  assert (after env (p ++ Spawn (Receive h buf n) :: q) = fst (crun env (fst (cstep env (after env p) (Spawn (Receive h buf n)))) q)) as ->.
  { unfold after. rewrite crun_app, crun_cons. reflexivity. }
  apply crun_finished. cbn [cstep start]. set (st0 := cf_st (after env p)) in *.
  assert (List.length (cf_pool (after env p)) = List.length (spawned p)) as PL by (unfold after; rewrite crun_pool; reflexivity).
  destruct (receive_check (silent env) st0 h buf n) as [st1 rr] eqn:R.
  assert (rr = {| r_res := Err e; r_calls := [] |}) as ->.
  { unfold receive_check in R. unfold host_address in H. destruct (nth_error (s_hosts st0) h) as [a|]; [|congruence].
    destruct (Z.leb_spec n 0); [lia|].
    destruct (find_circuit st0 h a) as [st2 c] eqn:FC. pose proof (find_circuit_spec st0 h a) as FS. rewrite FC in FS.
    match type of R with context [deserialize ?c buf] => assert (c = deser_conf env st0) as DC end.
    { destruct FS as (_ & _ & _ & _ & _ & _ & HS & _). unfold deser_conf. cbn [s_handler set_counts]. rewrite HS. reflexivity. }
    rewrite DC in R. destruct U as [U|(U & SN & ->)]; rewrite U in R.
    - injection R as <- <-. reflexivity.
    - destruct buf as [|f r].
      + cbn in R. injection R as <- <-. reflexivity.
      + change (pyindex (f :: r) 0) with (@Ok byte f) in R. cbn [bind] in R. rewrite id_read, SN in R. injection R as <- <-. reflexivity. }
  cbn [r_res fst cf_pool]. rewrite nth_error_app2 by lia. rewrite PL, Nat.sub_diag. reflexivity.
Qed.
Lemma acks_safe env xs t order sock e : e_handle_out env = false -> (forall r m, ~ In (Spawn (SetMsg r m)) xs) ->
  nth_error (spawned xs) t = Some (ProcessAcks order sock) -> ~ ended_with env xs t e.
Proof.
  intros HO NS N En. destruct (ended_because env xs t e En) as (o & st & A & R).
  pose proof (started_nth env xs t o st A) as N'. rewrite N in N'. injection N' as <-.
  destruct R as [(HO' & _)|(r & m & _ & I & _)]; [congruence|exact (NS r m I)].
Qed.
Lemma coroutine_ended env host ops i e : nth_error (lv_udp (vafter env host ops)) i = Some (VEnd (Some e)) ->
  let xs := vschedule env host ops in exists before b o st,
    calls_of i (vlife env host ops) = before ++ [b] /\ stands_for o (bg_call b) /\
    started env xs (bg_thread b) o st /\ reason env xs (bg_thread b) o st e.
Proof.
  intros V xs. destruct (live_ended_by env host ops i e V) as (before & b & C & En).
  assert (In b (v_begun (vlife env host ops))) as B.
  { assert (In b (calls_of i (vlife env host ops))) as I by (rewrite C; apply in_or_app; right; now left).
    unfold calls_of in I. apply filter_In in I. tauto. }
  destruct (proj1 (Forall_forall _ _) (vlife_stands env host ops) b B) as (o & N & ST).
  fold xs in N. assert (ended_with env xs (bg_thread b) e) as EW.
  { unfold call_ended in En. rewrite vafter_cf in En. fold xs in En. unfold ended_with.
    destruct (nth_error (cf_pool (after env xs)) (bg_thread b)) as [[[|r|r]| | | |]|]; try contradiction; try discriminate.
    - eexists. split; [reflexivity|]. cbn. destruct (o_res r); congruence.
    - eexists. split; [reflexivity|]. cbn. destruct (r_res r); congruence. }
  destruct (ended_because env xs _ e EW) as (o' & st & A & R). assert (o' = o) as -> by (apply started_nth in A; congruence).
  exists before, b, o, st. auto.
Qed.
