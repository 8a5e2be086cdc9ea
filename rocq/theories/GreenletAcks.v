(** Proofs about interleaved use of the dispatcher: packets (C79) and acknowledgements (C80). *)
From Coq Require Import Permutation.
From Verif Require Import Lib SpecMessages MessageProofs SpecGreenlets EventsProofs LayoutProofs PacketProofs PacketMore PacketForms DispatchProofs DispatchMore GreenletProofs.

(** ** The datagrams *)
Lemma transmit_wired env st mref href md k st' ms th :
  transmit env st mref href md k = (st', ms, th) -> Forall (wired env) (puts ms).
Proof.
  unfold transmit. intros H.
  destruct (nth_error (s_hosts st) href) as [a|]; [|injection H as <- <- <-; constructor].
  destruct (nth_error (s_msgs st) mref) as [m|]; [|injection H as <- <- <-; constructor].
  destruct (find_circuit st href a) as [st1 c].
  destruct (match md with
            | Reliable r => prepare_packet c mref m LL_RELIABLE_FLAG r
            | Plain => prepare_packet c mref m LL_NONE 0
            end) as [c' m'].
  cbv zeta in H.
  destruct (serialize (e_pv env) (e_ser_dict env) (e_ser_xml env) m') as [[b|]|e] eqn:S; injection H as _ <- _;
    (constructor; [|constructor]); intros b' B; cbn in B; try discriminate.
  injection B as <-. cbn. now apply serialize_layout.
Qed.
Lemma after_wired env st e w st' ms th : after_handler env st e w = (st', ms, th) -> Forall (wired env) (puts ms).
Proof.
  intros H. destruct w as [m|mref href md k]; cbn [after_handler] in H; [injection H as <- <- <-; constructor|].
  destruct (swallow_keyerror e); [injection H as <- <- <-; constructor|eapply transmit_wired; exact H].
Qed.
Lemma enter_wired env st name i w st' ms th : enter_handler env st name i w = (st', ms, th) -> Forall (wired env) (puts ms).
Proof.
  intros H. unfold enter_handler in H.
  destruct (sget name (s_handler st)) as [l|]; [|eapply after_wired; exact H].
  destruct (work_message st w) as [m|]; [|eapply after_wired; exact H].
  destruct (nth_error l i); [injection H as <- <- <-; constructor|eapply after_wired; exact H].
Qed.
Lemma begin_wired env st mref href md k st' ms th : begin_send env st mref href md k = (st', ms, th) -> Forall (wired env) (puts ms).
Proof.
  intros H. unfold begin_send in H.
  destruct (nth_error (s_hosts st) href) as [a|]; [|injection H as <- <- <-; constructor].
  destruct (nth_error (s_msgs st) mref) as [m|]; [|injection H as <- <- <-; constructor].
  destruct (negb (host_ok a)); [injection H as <- <- <-; constructor|].
  destruct (e_handle_out env); [eapply enter_wired; exact H|eapply transmit_wired; exact H].
Qed.
Lemma loop_wired env st f st' ms th : ack_loop env st f = (st', ms, th) -> Forall (wired env) (puts ms).
Proof.
  intros H. unfold ack_loop in H. destruct (take_acks (skipn (f_pos f) (ack_list st f)) []) as [ids full].
  destruct (full || (0 <? zlen ids)); [|injection H as <- <- <-; constructor].
  destruct (begin_send env _ _ _ _ _) as [[st1 ms1] th1] eqn:B in H. injection H as <- <- <-.
  exact (begin_wired _ _ _ _ _ _ _ _ _ B).
Qed.
Lemma resume_wired env st e th st' ms th' : resume env st e th = (st', ms, th') -> Forall (wired env) (puts ms).
Proof.
  intros H. destruct th as [o|name i w|mref b k|r f last|todo]; cbn [resume] in H.
  - injection H as <- <- <-. constructor.
  - destruct e; [eapply after_wired; exact H|eapply enter_wired; exact H].
  - destruct e; injection H as <- <- <-; constructor.
  - destruct r as [r|e']; [|injection H as <- <- <-; constructor].
    destruct last; [injection H as <- <- <-; constructor|eapply loop_wired; exact H].
  - destruct todo as [|k todo]; cbn [next_circuit] in H; [injection H as <- <- <-; constructor|].
    destruct (get_circuit (s_circuits st) k); [eapply loop_wired; exact H|injection H as <- <- <-; constructor].
Qed.
Lemma start_wired env cf o st' ms th : start env cf o = (st', ms, th) -> Forall (wired env) (puts ms).
Proof.
  intros H. destruct o as [a|h a|m|r m|r|a b|mref href md sock|mref href|href buf size|order sock|a]; unfold start in H;
    try (destruct (step (silent env) (cf_st cf) _) in H; injection H as <- <- <-; constructor; fail).
  - eapply begin_wired; exact H.
  - destruct (receive_check (silent env) (cf_st cf) href buf size) as [st1 r].
    destruct (r_res r) as [[m|]|e]; try (injection H as <- <- <-; constructor).
    destruct (e_handle env); [eapply enter_wired; exact H|injection H as <- <- <-; constructor].
  - destruct (resend_all (s_unackedc (cf_st cf)) (cf_st cf)) as [st1 [u|e]]; injection H as <- <- <-; constructor.
  - destruct (existsb acking (cf_pool cf)); [injection H as <- <- <-; constructor|].
    destruct (step (silent env) (cf_st cf) _) in H. injection H as <- <- <-. constructor.
Qed.
Lemma attempted_put x ms : In (Net (Attempted x)) (map seen ms) -> In x (puts ms).
Proof.
  intros H. apply in_map_iff in H as (m & E & H). apply in_flat_map. exists m. split; [exact H|].
  destruct m; try discriminate. injection E as ->. now left.
Qed.
Lemma gevents_wired env cf s x : In (Net (Attempted x)) (gevents env cf s) -> wired env x.
Proof.
  unfold gevents. intros H. apply in_app_or in H as [H|H].
  { exfalso. destruct s as [o|i e]; [|contradiction]. destruct o as [| | | | | | | |h buf size| |a]; try contradiction.
    - apply in_app_or in H as [H|H].
      + destruct (accepts env (cf_st cf) h buf size) as [[a m]|]; [destruct H as [H|[]]; discriminate|contradiction].
      + destruct (host_address (cf_st cf) h); [|contradiction]. destruct (0 <? size); [destruct H as [H|[]]; discriminate|contradiction].
    - destruct (existsb acking (cf_pool cf)); [contradiction|destruct H as [H|[]]; discriminate]. }
  apply attempted_put in H. destruct s as [o|i e]; cbn [cstep] in H.
  - destruct (start env cf o) as [[st ms] th] eqn:E. apply start_wired in E. rewrite Forall_forall in E. now apply E.
  - destruct (nth_error (cf_pool cf) i) as [th|]; [|contradiction].
    destruct (resume env (cf_st cf) e th) as [[st ms] th'] eqn:E. apply resume_wired in E. rewrite Forall_forall in E. now apply E.
Qed.
Lemma gtrace_wired env xs : forall cf x, In (Net (Attempted x)) (gtrace env cf xs) -> wired env x.
Proof.
  induction xs as [|s xs IH]; intros cf x; cbn [gtrace]; [intros []|]. intros H. apply in_app_or in H as [H|H].
  - eapply gevents_wired; exact H.
  - eapply IH; exact H.
Qed.
Lemma green_wired env xs x b : In (Net (Attempted x)) (history env xs) -> at_data x = Some b ->
  packet_layout (e_pv env) (e_ser_dict env) (e_ser_xml env) (at_msg x) b /\ sequence_number b = Some (m_id (at_msg x) mod 2 ^ 32).
Proof.
  intros H D. pose proof (gtrace_wired _ _ _ _ H b D) as W. split; [exact W|]. eapply layout_seq; exact W.
Qed.

(** ** Taking acks *)
Lemma take_spec rest : forall cur, zlen cur <= 250 ->
  let '(ids, full) := take_acks rest cur in
  exists n, ids = cur ++ firstn n rest /\
  if (full : bool) then zlen ids = 251 /\ (n <= List.length rest)%nat else n = List.length rest /\ zlen ids <= 250.
Proof.
  induction rest as [|id rest IH]; intros cur L; cbn [take_acks].
  - exists 0%nat. rewrite app_nil_r. auto.
  - assert (zlen (cur ++ [id]) = zlen cur + 1) as LL by (rewrite zlen_app; reflexivity).
    destruct (Z.ltb_spec 250 (zlen (cur ++ [id]))) as [B|B].
    + exists 1%nat. cbn [firstn]. split; [reflexivity|]. split; [lia|cbn; lia].
    + specialize (IH (cur ++ [id]) B). destruct (take_acks rest (cur ++ [id])) as [ids full].
      destruct IH as (n & -> & F). exists (S n). cbn [firstn List.length]. split; [now rewrite <- app_assoc|].
      destruct full; destruct F; split; auto; lia.
Qed.
Lemma take_list (P : list Z) pos : (pos <= List.length P)%nat ->
  let '(ids, full) := take_acks (skipn pos P) [] in
  ids = firstn (List.length ids) (skipn pos P) /\ firstn pos P ++ ids = firstn (pos + List.length ids) P /\
  (pos + List.length ids <= List.length P)%nat /\
  full = (zlen ids =? 251) /\ zlen ids <= 251 /\ (full = false -> skipn (pos + List.length ids) P = [] /\ ids = skipn pos P).
Proof.
  intros B. pose proof (take_spec (skipn pos P) [] ltac:(cbn; lia)) as T.
  destruct (take_acks (skipn pos P) []) as [ids full]. destruct T as (n & E & F). cbn [app] in E.
  assert (n <= List.length (skipn pos P))%nat as NB by (destruct full; destruct F; lia).
  assert (List.length ids = n) as LI by (rewrite E, firstn_length; lia).
  rewrite skipn_length in NB.
  split; [rewrite LI; exact E|]. split.
  { rewrite LI, E. clear -B NB. rewrite <- (firstn_skipn pos P) at 3. rewrite firstn_app, firstn_firstn.
    rewrite firstn_length. replace (Nat.min (pos + n) pos) with pos by lia. f_equal. f_equal. lia. }
  split; [lia|]. destruct full; destruct F as [F1 F2].
  - split; [symmetry; now apply Z.eqb_eq|]. split; [lia|discriminate].
  - split; [symmetry; apply Z.eqb_neq; lia|]. split; [lia|]. intros _. rewrite skipn_length in F1.
    split; [apply skipn_all2; lia|]. rewrite E. apply firstn_all2. rewrite skipn_length. lia.
Qed.

(** ** The books *)
Definition flush_of (th : thread) : option (flush * bool) :=
  match th with
  | InHandler _ _ (Announce _ _ _ (ToAcks f last)) | InSocket _ _ (ToAcks f last) | Returning _ f last => Some (f, last)
  | _ => None
  end.
Definition rest (B : books) (P : list Z) : Prop :=
  packed B = [] /\ late B = [] /\ closing B = false /\ due B = acked B ++ P.
Definition busy (B : books) (P : list Z) (f : flush) (last : bool) : Prop :=
  f_list f = None /\ (f_pos f <= List.length P)%nat /\ packed B = firstn (f_pos f) P /\
  due B ++ late B = acked B ++ P /\ closing B = last /\
  late B = if last then skipn (f_pos f) P else [].
Definition status (a : addr) (th : thread) (B : books) (P : list Z) : Prop :=
  match flush_of th with
  | Some (f, last) => if addr_eqb a (f_key f) then busy B P f last else rest B P
  | None => rest B P
  end.
Definition note (a : addr) (B : books) (ms : list mark) : books := fold_left (enter a) (map seen ms) B.

Lemma note_plain a ms : Forall plain_mark ms -> forall B, note a B ms = B.
Proof. induction 1 as [|m ms P _ IH]; intros B; [reflexivity|]. unfold note in *. cbn [map fold_left]. destruct m; try contradiction; apply IH. Qed.
Lemma pending_effect st xs st' a : effect st xs st' -> pending_acks st' a = pending_acks st a.
Proof.
  intros F. unfold pending_acks. destruct (circ st a) as [c|] eqn:C.
  - destruct (ef_old _ _ _ F a c C) as (c' & -> & _ & E & _). exact E.
  - destruct (circ st' a) as [c'|] eqn:C'; [|reflexivity]. now destruct (ef_new _ _ _ F a c' C C').
Qed.
Lemma from_flush f last th : from (ToAcks f last) th -> flush_of th = Some (f, last) /\ acking th = true.
Proof. intros [(r & ->)|[(mref & b & ->)|(name & i & mref & href & md & ->)]]; auto. Qed.
Lemma from_user th : from ToUser th -> flush_of th = None /\ acking th = false.
Proof. intros [(r & ->)|[(mref & b & ->)|(name & i & mref & href & md & ->)]]; auto. Qed.

Lemma empty_status a st f st' ms th B : inv st -> empty_queue st f = (st', ms, th) ->
  (if addr_eqb a (f_key f)
   then due B ++ late B = acked B ++ pending_acks st a /\ packed B ++ late B = pending_acks st a
   else rest B (pending_acks st a)) ->
  status a th (note a B ms) (pending_acks st' a) /\ flush_of th = None.
Proof.
  intros I [= <- <- <-] H. unfold note, status, seen. cbn. split; [|reflexivity].
  destruct (addr_dec a (f_key f)) as [->|N].
  - rewrite addr_eqb_refl in *. destruct (clear_spec st (f_key f) I) as [_ ->]. unfold rest. cbn.
    rewrite app_nil_r. destruct H as [H1 H2]. repeat split; auto. rewrite <- H2, app_assoc in H1. now apply app_inv_tail in H1.
  - rewrite addr_eqb_neq in * by exact N. destruct (clear_spec st (f_key f) I) as [F _].
    unfold pending_acks. rewrite (fl_out _ _ _ _ F); [exact H| |intros []]. intros [E|[]]. congruence.
Qed.
Lemma loop_status a env st f st' ms th B : inv st -> f_list f = None -> ack_loop env st f = (st', ms, th) ->
  status a (Returning (Ok None) f false) B (pending_acks st a) ->
  status a th (note a B ms) (pending_acks st' a).
Proof.
  intros I FL H S. unfold ack_loop in H. unfold ack_list in H. rewrite FL in H.
  change (match get_circuit (s_circuits st) (f_key f) with Some c => c_acks c | None => [] end) with (pending_acks st (f_key f)) in H.
  assert (a = f_key f \/ a <> f_key f) as [E|N] by (destruct (addr_dec a (f_key f)); auto).
  2:{ unfold status in S. cbn [flush_of] in S. rewrite addr_eqb_neq in S by exact N.
      destruct (take_acks (skipn (f_pos f) (pending_acks st (f_key f))) []) as [ids full].
      destruct (full || (0 <? zlen ids)).
      - destruct (begin_send env _ _ _ _ _) as [[st1 ms1] th1] eqn:BS in H. injection H as <- <- <-.
        destruct (begin_effect _ _ _ _ _ _ _ _ _ (inv_new _ _ I) BS) as (EF & SO & FR & P).
        unfold note. cbn [map seen fold_left enter]. rewrite addr_eqb_neq by exact N. fold (note a B ms1). rewrite note_plain by exact P.
        rewrite (pending_effect _ _ _ _ EF). apply from_flush in FR as [FR _]. unfold status. rewrite FR. cbn [f_key].
        rewrite addr_eqb_neq by exact N. exact S.
      - eapply empty_status; [exact I|exact H|]. rewrite addr_eqb_neq by exact N. exact S. }
  subst a. unfold status in S. cbn [flush_of] in S. rewrite addr_eqb_refl in S.
  destruct S as (_ & PB & PK & DA & CL & LT).
  pose proof (take_list (pending_acks st (f_key f)) (f_pos f) PB) as T.
  destruct (take_acks (skipn (f_pos f) (pending_acks st (f_key f))) []) as [ids full].
  destruct T as (T1 & T2 & T3 & T4 & T5 & T6).
  destruct (full || (0 <? zlen ids)) eqn:NE.
  - destruct (begin_send env _ _ _ _ _) as [[st1 ms1] th1] eqn:BS in H. injection H as <- <- <-.
    destruct (begin_effect _ _ _ _ _ _ _ _ _ (inv_new _ _ I) BS) as (EF & SO & FR & P).
    unfold note. cbn [map seen fold_left enter]. rewrite addr_eqb_refl.
    match goal with |- context [fold_left (enter (f_key f)) (map seen ms1) ?b] => fold (note (f_key f) b ms1) end.
    rewrite note_plain by exact P.
    rewrite (pending_effect _ _ _ _ EF). apply from_flush in FR as [FR _]. unfold status. rewrite FR. cbn [f_key].
    rewrite addr_eqb_refl. change (pending_acks (set_msgs st (s_msgs st ++ [ack_message ids])) (f_key f)) with (pending_acks st (f_key f)).
    unfold busy. cbn. split; [reflexivity|]. split; [exact T3|]. split; [rewrite PK; exact T2|]. split; [exact DA|].
    split; [now rewrite T4|]. rewrite LT. destruct full; cbn [negb]; [reflexivity|]. symmetry. now apply T6.
  - apply orb_false_iff in NE as [-> NE]. destruct (T6 eq_refl) as [T7 T8].
    assert (ids = []) as -> by (destruct ids as [|i ids]; [reflexivity|rewrite zlen_cons in NE; pose proof (zlen_nonneg ids); apply Z.ltb_ge in NE; lia]).
    eapply empty_status; [exact I|exact H|]. rewrite addr_eqb_refl. split; [exact DA|].
    rewrite PK, LT, app_nil_r. rewrite <- (firstn_skipn (f_pos f) (pending_acks st (f_key f))) at 2. rewrite <- T8. now rewrite app_nil_r.
Qed.

(** One step of a process_acks. *)
Lemma resume_status a env st e th st' ms th' B : inv st -> acking th = true -> resume env st e th = (st', ms, th') ->
  (forall f last, flush_of th = Some (f, last) -> f_list f = None) ->
  status a th B (pending_acks st a) -> status a th' (note a B ms) (pending_acks st' a).
Proof.
  intros I AK H FL S. destruct th as [o|name i w|mref b k|r f last|todo]; cbn [resume] in H; try discriminate AK.
  - destruct w as [m|mref href md [|f last]]; try discriminate AK.
    assert (effect st (puts ms) st' /\ from (ToAcks f last) th' /\ Forall plain_mark ms) as (EF & FR & P).
    { destruct e as [e|].
      - destruct (after_effect _ _ _ _ _ _ _ I H) as (EF & _ & FR & P). auto.
      - destruct (enter_effect _ _ _ _ _ _ _ _ I H) as (EF & _ & FR & P). auto. }
    rewrite note_plain by exact P. rewrite (pending_effect _ _ _ _ EF). apply from_flush in FR as [FR _].
    unfold status in *. rewrite FR. exact S.
  - destruct k as [|f last]; [discriminate AK|].
    destruct e as [e|]; injection H as <- <- <-; exact S.
  - destruct r as [r|e'].
    + destruct last; [|eapply loop_status; eauto; cbn in *; now apply (FL f false)].
      eapply empty_status; [exact I|exact H|]. unfold status in S. cbn [flush_of] in S.
      destruct (addr_eqb a (f_key f)) eqn:E; [|exact S].
      destruct S as (_ & PB & PK & DA & CL & LT). split; [exact DA|]. rewrite PK, LT. apply firstn_skipn.
    + injection H as <- <- <-. unfold note, status. cbn. unfold status in S. cbn [flush_of] in S.
      destruct (addr_eqb a (f_key f)); [|exact S]. destruct S as (_ & PB & PK & DA & CL & LT).
      unfold rest. cbn. repeat split. exact DA.
  - destruct todo as [|k todo]; cbn [next_circuit] in H; [injection H as <- <- <-; exact S|].
    destruct (get_circuit (s_circuits st) k) as [c|]; [|injection H as <- <- <-; exact S].
    eapply loop_status; [exact I| |exact H|]; [reflexivity|]. unfold status in *. cbn [flush_of f_key] in *.
    destruct (addr_eqb a k); [|exact S]. destruct S as (A1 & A2 & A3 & A4). unfold busy. cbn.
    split; [reflexivity|]. split; [lia|]. rewrite A2, app_nil_r. auto.
Qed.

(** Steps of other operations. *)
Lemma resume_other env st e th st' ms th' : inv st -> acking th = false -> resume env st e th = (st', ms, th') ->
  (forall a, pending_acks st' a = pending_acks st a) /\ Forall plain_mark ms /\ acking th' = false.
Proof.
  intros I AK H. destruct th as [o|name i w|mref b k|r f last|todo]; cbn [resume] in H; try discriminate AK.
  - injection H as <- <- <-. split; [reflexivity|]. split; [constructor|reflexivity].
  - assert (effect st (puts ms) st' /\ work_from w th' /\ Forall plain_mark ms) as (EF & FR & P).
    { destruct e as [e|].
      - destruct (after_effect _ _ _ _ _ _ _ I H) as (EF & _ & FR & P). auto.
      - destruct (enter_effect _ _ _ _ _ _ _ _ I H) as (EF & _ & FR & P). auto. }
    split; [intros a; eapply pending_effect; exact EF|]. split; [exact P|].
    destruct w as [m|mref href md [|f last]]; try discriminate AK.
    + destruct FR as [(r & ->)|(n & j & ->)]; reflexivity.
    + now apply from_user.
  - destruct k as [|f last]; [|discriminate AK]. destruct e as [e|]; injection H as <- <- <-; split; [reflexivity| |reflexivity|];
      split; try constructor; reflexivity.
Qed.

(** ** All operations in progress *)
Lemma detach_acking k l th : acking (detach k l th) = acking th.
Proof. destruct th as [o|name i [m|mref href md [|f last]]|mref b [|f last]|r f last|todo]; reflexivity. Qed.
Lemma detach_all_map st ms pool : exists g, (forall th, acking (g th) = acking th) /\ detach_all st ms pool = map g pool.
Proof.
  revert pool. induction ms as [|m ms IH] using rev_ind; intros pool.
  - exists (fun th => th). split; [reflexivity|]. unfold detach_all. cbn. symmetry. apply map_id.
  - destruct (IH pool) as (g & A & E). unfold detach_all in *. rewrite fold_left_app, E. cbn [fold_left].
    destruct m as [s m|x|k ids|k|k]; try (exists g; split; [exact A|reflexivity]).
    exists (fun th => detach k (pending_acks st k) (g th)). split; [intros th; rewrite detach_acking; apply A|]. apply (map_map g (detach k (pending_acks st k))).
Qed.
Lemma detach_all_plain st ms pool : Forall plain_mark ms -> detach_all st ms pool = pool.
Proof.
  unfold detach_all. intros F. revert pool. induction F as [|m ms P _ IH]; intros pool; [reflexivity|].
  cbn [fold_left]. destruct m; try contradiction; apply IH.
Qed.
Lemma filter_map_acking g l : (forall th, acking (g th) = acking th) -> filter acking (map g l) = map g (filter acking l).
Proof. intros A. induction l as [|x l IH]; [reflexivity|]. cbn. rewrite A. destruct (acking x); cbn; now rewrite IH. Qed.
Lemma nth_split_update {A} (l : list A) i x : nth_error l i = Some x ->
  exists l1 l2, l = l1 ++ x :: l2 /\ forall B (g : A -> B) y, update_nth i y (map g l) = map g l1 ++ y :: map g l2.
Proof.
  revert i. induction l as [|z l IH]; intros [|i] H; try discriminate; cbn in H.
  - injection H as ->. exists [], l. split; reflexivity.
  - destruct (IH i H) as (l1 & l2 & -> & U). exists (z :: l1), l2. split; [reflexivity|]. intros B g y. cbn. now rewrite U.
Qed.
Lemma at_rest_filter cf : at_rest cf <-> filter acking (cf_pool cf) = [].
Proof.
  unfold at_rest. induction (cf_pool cf) as [|x l IH]; cbn; [split; auto|]. split.
  - intros H. inversion H; subst. rewrite H2. now apply IH.
  - intros H. destruct (acking x) eqn:E; [discriminate|]. constructor; [exact E|now apply IH].
Qed.
Lemma existsb_filter (l : list thread) : existsb acking l = match filter acking l with [] => false | _ => true end.
Proof. induction l as [|x l IH]; [reflexivity|]. cbn. destruct (acking x); [reflexivity|exact IH]. Qed.

Definition tally (cf : config) (tr : list gevent) : Prop :=
  (filter acking (cf_pool cf) = [] /\ forall a, rest (keep_books a tr) (pending_acks (cf_st cf) a)) \/
  (exists th, filter acking (cf_pool cf) = [th] /\ forall a, status a th (keep_books a tr) (pending_acks (cf_st cf) a)).
Definition one_ok (cf : config) (x : sched) : Prop := match x with Spawn (ProcessAcks _ _) => at_rest cf | _ => True end.

Lemma keep_app a t1 t2 : keep_books a (t1 ++ t2) = fold_left (enter a) t2 (keep_books a t1).
Proof. unfold keep_books. apply fold_left_app. Qed.
Lemma status_frame a th B P ids : status a th B P -> status a th (enter a B (Queued a ids)) (P ++ ids).
Proof.
  unfold status. cbn [enter]. rewrite addr_eqb_refl.
  assert (rest B P -> rest (if closing B then
     {| due := due B; late := late B ++ ids; packed := packed B; acked := acked B; lost := lost B; closing := true |}
     else {| due := due B ++ ids; late := late B; packed := packed B; acked := acked B; lost := lost B; closing := false |}) (P ++ ids)) as R.
  { intros (A1 & A2 & A3 & A4). rewrite A3. unfold rest. cbn. rewrite A4, app_assoc. auto. }
  destruct (flush_of th) as [[f last]|]; [|exact R]. destruct (addr_eqb a (f_key f)); [|exact R].
  intros (A1 & A2 & A3 & A4 & A5 & A6). unfold busy.
  assert (firstn (f_pos f) (P ++ ids) = firstn (f_pos f) P) as E1.
  { rewrite firstn_app. replace (f_pos f - List.length P)%nat with O by lia. cbn. apply app_nil_r. }
  assert (skipn (f_pos f) (P ++ ids) = skipn (f_pos f) P ++ ids) as E2.
  { rewrite skipn_app. now replace (f_pos f - List.length P)%nat with O by lia. }
  rewrite E1, E2, app_length. rewrite A5. destruct last; cbn.
  - split; [exact A1|]. split; [lia|]. split; [exact A3|]. split; [rewrite !app_assoc, A4; reflexivity|]. split; [reflexivity|]. now rewrite A6.
  - rewrite A6, app_nil_r in A4. split; [exact A1|]. split; [lia|]. split; [exact A3|]. rewrite A6, app_nil_r, A4, app_assoc. auto.
Qed.
Lemma enter_other a b B ids : a <> b -> enter a B (Queued b ids) = B.
Proof. intros N. cbn. now rewrite addr_eqb_neq. Qed.

Lemma receive_queues env st href buf size st' r : inv st -> receive_check env st href buf size = (st', r) ->
  inv st' /\ forall a, pending_acks st' a = pending_acks st a ++
    match host_address st href with Some b => if addr_eqb a b && (0 <? size) then acks_due env st b buf else [] | None => [] end.
Proof.
  intros I H. destruct (host_address st href) as [b|] eqn:NH.
  2:{ destruct (receive_nothing env st href buf size) as (r' & E & _); [now left|]. rewrite E in H. injection H as <- <-.
      split; [exact I|]. intros a. now rewrite app_nil_r. }
  destruct (Z.ltb_spec 0 size) as [SZ|SZ].
  2:{ destruct (receive_nothing env st href buf size) as (r' & E & _); [now right|]. rewrite E in H. injection H as <- <-.
      split; [exact I|]. intros a. now rewrite andb_false_r, app_nil_r. }
  destruct (receive_spec env st href buf size b I NH SZ) as (st1 & r1 & c' & E & RC & C1 & CO & _ & _ & _ & _ & _ & I1).
  rewrite E in H. injection H as <- <-. split; [exact I1|]. intros a. rewrite andb_true_r.
  destruct (addr_dec a b) as [->|N].
  - rewrite addr_eqb_refl, (pending_cur st href). unfold pending_acks. rewrite C1.
    eapply received_queue; [apply cur_ok; exact I|exact RC].
  - rewrite addr_eqb_neq by exact N. rewrite app_nil_r. unfold pending_acks. now rewrite CO.
Qed.

Lemma trusted_pending env st a b x : pending_acks (fst (step env st (SetTrusted a b))) x = pending_acks st x.
Proof.
  cbn [step fst]. fold (circ st a). destruct (circ st a) as [c|] eqn:C; [|reflexivity].
  unfold pending_acks. destruct (addr_dec x a) as [->|N]; [rewrite put_same, C; reflexivity|now rewrite put_other].
Qed.
Lemma remove_pending env st a : inv st -> forall x,
  pending_acks (fst (step env st (RemoveCircuit a))) x = if addr_eqb x a then [] else pending_acks st x.
Proof.
  intros I x. cbn [step fst]. unfold remove_circuit_data, pending_acks, circuit_of, get_circuit. cbn [s_circuits set_circuits].
  destruct (dmem addr_eqb a (s_circuits st)) eqn:M.
  - destruct (addr_dec x a) as [->|N].
    + rewrite addr_eqb_refl. now rewrite (dget_ddel_eq _ addr_eqb_spec) by apply (inv_keys _ I).
    + rewrite addr_eqb_neq by exact N. now rewrite (dget_ddel_neq _ addr_eqb_spec) by exact N.
  - destruct (addr_dec x a) as [->|N]; [|now rewrite addr_eqb_neq].
    rewrite addr_eqb_refl. assert (dget addr_eqb a (s_circuits st) = None) as ->; [|reflexivity].
    apply (dget_None _ addr_eqb_spec). intros H. apply (dmem_In _ addr_eqb_spec) in H. congruence.
Qed.

(** A step that is no part of any process_acks. *)
Lemma tally_frame cf tr st' th' evs :
  tally cf tr -> acking th' = false ->
  (forall a th B P, status a th B (pending_acks (cf_st cf) a) -> P = pending_acks (cf_st cf) a -> status a th (fold_left (enter a) evs B) (pending_acks st' a)) ->
  tally {| cf_st := st'; cf_pool := cf_pool cf ++ [th'] |} (tr ++ evs).
Proof.
  intros T AK F. assert (forall l, filter acking (l ++ [th']) = filter acking l) as E.
  { intros l. rewrite filter_app. cbn. rewrite AK. apply app_nil_r. }
  destruct T as [[T1 T2]|(th & T1 & T2)].
  - left. cbn [cf_pool cf_st]. split; [rewrite E; exact T1|]. intros a. rewrite keep_app.
    exact (F a (Finished OUnit) _ _ (T2 a) eq_refl).
  - right. exists th. cbn [cf_pool cf_st]. split; [rewrite E; exact T1|]. intros a. rewrite keep_app. exact (F a th _ _ (T2 a) eq_refl).
Qed.
Lemma plain_note a ms B : Forall plain_mark ms -> fold_left (enter a) (map seen ms) B = B.
Proof. intros P. exact (note_plain a ms P B). Qed.

Lemma cstep_tally env cf x tr : good (cf_st cf) -> tally cf tr -> one_ok cf x ->
  tally (fst (cstep env cf x)) (tr ++ gevents env cf x).
Proof.
  intros [I _] T OK. destruct x as [o|i e].
  - assert (forall st ms th, start env cf o = (st, ms, th) ->
      cstep env cf (Spawn o) = ({| cf_st := st; cf_pool := cf_pool cf ++ [th] |}, ms)) as CS.
    { intros st ms th E. cbn [cstep]. rewrite E. reflexivity. }
    destruct (simple o) eqn:SO.
    { assert (start env cf o = (fst (step (silent env) (cf_st cf) o), [], Finished (snd (step (silent env) (cf_st cf) o)))) as E.
      { unfold start. destruct o; try discriminate SO; destruct (step (silent env) (cf_st cf) _); reflexivity. }
      specialize (CS _ _ _ E). unfold gevents. rewrite CS. cbn [fst snd map].
      replace (match o with Receive _ _ _ => _ | RemoveCircuit _ => _ | _ => [] end) with (@nil gevent) by (destruct o; try discriminate SO; reflexivity).
      apply tally_frame; [exact T|reflexivity|]. intros a th B P S _. cbn [app fold_left].
      replace (pending_acks (fst (step (silent env) (cf_st cf) o)) a) with (pending_acks (cf_st cf) a); [exact S|].
      destruct o; try discriminate SO; try reflexivity. symmetry. apply trusted_pending. }
    destruct o as [| | | | | |mref href md sock| |href buf size|order sock|a]; try discriminate SO; clear SO.
    + destruct (begin_send env (cf_st cf) mref href md ToUser) as [[st ms] th] eqn:E.
      unfold gevents. rewrite (CS _ _ _ E). cbn [fst snd app].
      destruct (begin_effect _ _ _ _ _ _ _ _ _ I E) as (EF & _ & FR & P).
      apply tally_frame; [exact T|now apply from_user|]. intros a th0 B Q S _. rewrite plain_note by exact P.
      rewrite (pending_effect _ _ _ _ EF). exact S.
    + destruct (start env cf (Receive href buf size)) as [[st ms] th] eqn:E.
      unfold gevents. rewrite (CS _ _ _ eq_refl). cbn [fst snd].
      unfold start in E. destruct (receive_check (silent env) (cf_st cf) href buf size) as [st1 r] eqn:R.
      destruct (receive_queues _ _ _ _ _ _ _ I R) as [I1 PQ].
      assert ((forall a, pending_acks st a = pending_acks st1 a) /\ Forall plain_mark ms /\ acking th = false) as (PE & PM & AK).
      { destruct (r_res r) as [[m|]|e']; try (injection E as <- <- <-; split; [reflexivity|split; [constructor|reflexivity]]).
        destruct (e_handle env); [|injection E as <- <- <-; split; [reflexivity|split; [constructor|reflexivity]]].
        destruct (enter_effect _ _ _ _ _ _ _ _ I1 E) as (EF & _ & FR & P).
        split; [intros a; eapply pending_effect; exact EF|]. split; [exact P|].
        destruct FR as [(r' & ->)|(n & j & ->)]; reflexivity. }
      apply tally_frame; [exact T|exact AK|]. intros a th0 B Q S _.
      rewrite !fold_left_app, plain_note by exact PM. rewrite PE, PQ.
      change (acks_due (silent env)) with (acks_due env).
      replace (fold_left (enter a) match accepts env (cf_st cf) href buf size with Some (a0, m) => [Net (Accepted a0 m)] | None => [] end B) with B
        by (destruct (accepts env (cf_st cf) href buf size) as [[k m]|]; reflexivity).
      destruct (host_address (cf_st cf) href) as [b|]; [|rewrite app_nil_r; exact S].
      destruct (0 <? size); [|rewrite andb_false_r, app_nil_r; exact S]. rewrite andb_true_r. cbn [fold_left].
      destruct (addr_dec a b) as [->|N].
      * rewrite addr_eqb_refl. now apply status_frame.
      * rewrite enter_other, addr_eqb_neq, app_nil_r by exact N. exact S.
    + assert (start env cf (ProcessAcks order sock) = (cf_st cf, [], AtAcks (arrange order (dkeys (s_circuits (cf_st cf)))))) as E.
      { unfold start. rewrite resend_none by exact I. reflexivity. }
      unfold gevents. rewrite (CS _ _ _ E). cbn [fst snd map app]. rewrite app_nil_r.
      cbn in OK. apply at_rest_filter in OK.
      destruct T as [[T1 T2]|(th & T1 & T2)]; [|congruence]. right. eexists. cbn [cf_pool cf_st].
      rewrite filter_app, OK. cbn [app filter acking]. split; [reflexivity|]. exact T2.
    + destruct (start env cf (RemoveCircuit a)) as [[st ms] th] eqn:E.
      unfold gevents. rewrite (CS _ _ _ eq_refl). cbn [fst snd]. unfold start in E. rewrite existsb_filter in *.
      destruct T as [[T1 T2]|(th0 & T1 & T2)]; rewrite T1 in *.
      * destruct (step (silent env) (cf_st cf) (RemoveCircuit a)) as [st1 x1] eqn:ST. injection E as <- <- <-.
        left. cbn [cf_pool cf_st]. split; [rewrite filter_app, T1; reflexivity|]. intros b. rewrite keep_app. cbn [map app fold_left enter].
        pose proof (remove_pending (silent env) (cf_st cf) a I b) as RP. rewrite ST in RP. cbn [fst] in RP. rewrite RP.
        destruct (addr_eqb b a); [|apply T2]. unfold rest. cbn. auto.
      * injection E as <- <- <-. right. exists th0. cbn [cf_pool cf_st]. split; [rewrite filter_app, T1; reflexivity|].
        intros b. cbn [map app]. rewrite app_nil_r. apply T2.
  - unfold gevents. cbn [cstep app]. destruct (nth_error (cf_pool cf) i) as [th|] eqn:NT; [|cbn; rewrite app_nil_r; exact T].
    destruct (resume env (cf_st cf) e th) as [[st ms] th'] eqn:R. cbn [fst snd].
    destruct (nth_split_update _ _ _ NT) as (l1 & l2 & EL & U).
    destruct (acking th) eqn:AK.
    + destruct T as [[T1 _]|(th0 & T1 & T2)].
      { exfalso. rewrite EL, filter_app in T1. cbn in T1. rewrite AK in T1. destruct (filter acking l1); discriminate. }
      assert (filter acking l1 = [] /\ filter acking l2 = [] /\ th0 = th) as (F1 & F2 & ->).
      { rewrite EL, filter_app in T1. cbn in T1. rewrite AK in T1. destruct (filter acking l1) as [|y l]; cbn in T1.
        - injection T1 as <- T1. auto.
        - injection T1 as _ T1. destruct l; discriminate. }
      assert (forall f last, flush_of th = Some (f, last) -> f_list f = None) as FL.
      { intros f last E. specialize (T2 (f_key f)). unfold status in T2. rewrite E, addr_eqb_refl in T2. apply T2. }
      assert (forall a, status a th' (keep_books a (tr ++ map seen ms)) (pending_acks st a)) as S'.
      { intros a. rewrite keep_app. exact (resume_status a env _ e th st ms th' _ I AK R FL (T2 a)). }
      destruct (detach_all_map (cf_st cf) ms (cf_pool cf)) as (g & GA & GE).
      assert (filter acking (update_nth i th' (detach_all (cf_st cf) ms (cf_pool cf))) = filter acking [th']) as FE.
      { rewrite GE, U, filter_app. cbn [filter]. rewrite !filter_map_acking, F1, F2 by exact GA. cbn. destruct (acking th'); reflexivity. }
      destruct (acking th') eqn:AK'.
      * right. exists th'. cbn [cf_pool cf_st]. split; [rewrite FE; cbn; now rewrite AK'|exact S'].
      * left. cbn [cf_pool cf_st]. split; [rewrite FE; cbn; now rewrite AK'|]. intros a. specialize (S' a). unfold status in S'.
        destruct th' as [o|name j [m|mref href md [|f last]]|mref b [|f last]|r f last|todo]; try discriminate AK'; exact S'.
    + destruct (resume_other _ _ _ _ _ _ _ I AK R) as (PE & P & AK').
      assert (filter acking (update_nth i th' (detach_all (cf_st cf) ms (cf_pool cf))) = filter acking (cf_pool cf)) as FE.
      { rewrite detach_all_plain by exact P. rewrite <- (map_id (cf_pool cf)) at 1. rewrite U, !map_id, EL, !filter_app. cbn [filter].
        now rewrite AK, AK'. }
      destruct T as [[T1 T2]|(th0 & T1 & T2)].
      * left. cbn [cf_pool cf_st]. rewrite FE. split; [exact T1|]. intros a. rewrite keep_app, plain_note, PE by exact P. apply T2.
      * right. exists th0. cbn [cf_pool cf_st]. rewrite FE. split; [exact T1|]. intros a. rewrite keep_app, plain_note, PE by exact P. apply T2.
Qed.

Lemma crun_tally env xs : forall cf tr, good (cf_st cf) -> ledger (network tr) (cf_st cf) -> tally cf tr -> one_at_a_time env cf xs ->
  tally (fst (crun env cf xs)) (tr ++ gtrace env cf xs).
Proof.
  induction xs as [|x xs IH]; intros cf tr G L T OK; [cbn; rewrite app_nil_r; exact T|].
  destruct OK as [O1 O2]. rewrite crun_cons. cbn [gtrace]. rewrite app_assoc.
  destruct (cstep_good env cf x _ G L) as [G1 L1]. rewrite <- network_app in L1.
  apply IH; [exact G1|exact L1|now apply cstep_tally|exact O2].
Qed.
Lemma tally_init : tally (idle init_state) [].
Proof. left. split; [reflexivity|]. intros a. unfold rest. auto. Qed.
Lemma after_tally env xs : one_at_a_time env (idle init_state) xs -> tally (after env xs) (history env xs).
Proof. intros O. exact (crun_tally env xs (idle init_state) [] good_init ledger_init tally_init O). Qed.

(** ** The sums *)
Definition queue_in (a : addr) (l : list Z) (e : gevent) : list Z :=
  match e with
  | Queued k ids => if addr_eqb a k then l ++ ids else l
  | Net (Removed k) => if addr_eqb a k then [] else l
  | _ => l
  end.
Definition pack_in (a : addr) (l : list Z) (e : gevent) : list Z :=
  match e with
  | Packing k ids => if addr_eqb a k then l ++ ids else l
  | Net (Removed k) => if addr_eqb a k then [] else l
  | _ => l
  end.
Lemma queued_perm a tr : Permutation (all_queued a tr) (due (keep_books a tr) ++ late (keep_books a tr) ++ lost (keep_books a tr)).
Proof.
  induction tr as [|e tr IH] using rev_ind; [constructor|]. unfold all_queued in *. rewrite fold_left_app, keep_app. cbn [fold_left].
  set (l := fold_left _ tr []) in *. set (B := keep_books a tr) in *. clearbody l B.
  destruct e as [[x|b m|b]|s m|b ids|b ids|b|b]; cbn [enter]; try exact IH; destruct (addr_eqb a b); try exact IH.
  - cbn. constructor.
  - destruct (closing B); cbn [due late lost].
    + rewrite IH. rewrite <- !app_assoc. apply Permutation_app_head, Permutation_app_head, Permutation_app_comm.
    + rewrite IH. rewrite <- !app_assoc. apply Permutation_app_head. rewrite app_assoc. apply Permutation_app_comm.
  - cbn [due late lost app]. rewrite IH. apply Permutation_app_head, Permutation_app_comm.
  - cbn [due late lost app]. rewrite IH. now rewrite <- app_assoc.
Qed.
Lemma packed_sum a tr : never_abandoned a tr -> all_packed a tr = acked (keep_books a tr) ++ packed (keep_books a tr).
Proof.
  unfold never_abandoned. induction tr as [|e tr IH] using rev_ind; [reflexivity|]. intros N.
  specialize (IH ltac:(intros H; apply N, in_or_app; now left)).
  unfold all_packed in *. rewrite fold_left_app, keep_app. cbn [fold_left].
  set (l := fold_left _ tr []) in *. set (B := keep_books a tr) in *. clearbody l B.
  destruct e as [[x|b m|b]|s m|b ids|b ids|b|b]; cbn [enter]; try exact IH; destruct (addr_eqb a b) eqn:E; try exact IH.
  - reflexivity.
  - destruct (closing B); exact IH.
  - cbn. now rewrite IH, app_assoc.
  - cbn. now rewrite IH, app_nil_r.
  - exfalso. apply addr_eqb_spec in E as ->. apply N, in_or_app. right. now left.
Qed.

Lemma accounted env xs a : one_at_a_time env (idle init_state) xs -> at_rest (after env xs) ->
  let B := keep_books a (history env xs) in
  due B = acked B ++ pending_acks (cf_st (after env xs)) a /\ packed B = [] /\ late B = [] /\
  Permutation (all_queued a (history env xs)) (due B ++ lost B) /\
  (never_abandoned a (history env xs) -> all_packed a (history env xs) = acked B).
Proof.
  intros O R B. apply at_rest_filter in R. destruct (after_tally env xs O) as [[_ T]|(th & T & _)]; [|congruence].
  destruct (T a) as (A1 & A2 & A3 & A4). fold B in A1, A2, A3, A4. split; [exact A4|]. split; [exact A1|]. split; [exact A2|].
  split.
  - pose proof (queued_perm a (history env xs)) as P. fold B in P. rewrite A2 in P. exact P.
  - intros N. rewrite packed_sum by exact N. fold B. rewrite A1. apply app_nil_r.
Qed.

(** Without receptions inside process_acks nothing comes late. *)
Definition punctual (cf : config) (tr : list gevent) : Prop :=
  forall a, late (keep_books a tr) = [] /\ lost (keep_books a tr) = [] /\ all_queued a tr = due (keep_books a tr).
Lemma punctual_event a e B l : (forall k ids, e = Queued k ids -> closing B = false) ->
  late B = [] /\ lost B = [] /\ l = due B ->
  late (enter a B e) = [] /\ lost (enter a B e) = [] /\ queue_in a l e = due (enter a B e).
Proof.
  intros C (A1 & A2 & ->). destruct e as [[x|b m|b]|s m|b ids|b ids|b|b]; cbn [enter queue_in]; auto; destruct (addr_eqb a b); auto.
  - rewrite (C b ids eq_refl). cbn. auto.
  - cbn. rewrite A1, A2. auto.
  - cbn. rewrite A1, app_nil_r. auto.
Qed.
Lemma punctual_events a evs : (forall k ids, ~ In (Queued k ids) evs) -> forall B l,
  late B = [] /\ lost B = [] /\ l = due B ->
  late (fold_left (enter a) evs B) = [] /\ lost (fold_left (enter a) evs B) = [] /\ fold_left (queue_in a) evs l = due (fold_left (enter a) evs B).
Proof.
  induction evs as [|e evs IH]; intros N B l H; [exact H|]. cbn [fold_left]. apply IH.
  - intros k ids H'. apply (N k ids). now right.
  - apply punctual_event; [|exact H]. intros k ids ->. exfalso. apply (N k ids). now left.
Qed.
Lemma cstep_punctual env cf x tr : tally cf tr -> punctual cf tr ->
  match x with Spawn (Receive _ _ _) => at_rest cf | _ => True end ->
  punctual (fst (cstep env cf x)) (tr ++ gevents env cf x).
Proof.
  intros T P R a. rewrite keep_app. unfold all_queued. rewrite fold_left_app. fold (queue_in a). fold (all_queued a tr).
  assert (forall e, (forall k ids, e <> Queued k ids) \/ exists k ids, e = Queued k ids) as DEC.
  { intros [| |k ids| | |]; eauto; left; discriminate. }
  assert (forall k ids, In (Queued k ids) (gevents env cf x) -> exists h buf size, x = Spawn (Receive h buf size)) as ONLY.
  { intros k ids H. unfold gevents in H. apply in_app_or in H as [H|H].
    - destruct x as [o|i e]; [|contradiction]. destruct o; try contradiction; eauto.
      destruct (existsb acking (cf_pool cf)); [contradiction|destruct H as [H|[]]; discriminate].
    - apply in_map_iff in H as (m & E & _). destruct m; discriminate. }
  assert ((forall k ids, ~ In (Queued k ids) (gevents env cf x)) \/ exists h buf size, x = Spawn (Receive h buf size)) as [N|(h & buf & size & ->)].
  { destruct x as [o|i e]; [destruct o; eauto 6|]; left; intros k ids H; destruct (ONLY k ids H) as (? & ? & ? & ?); discriminate. }
  - apply punctual_events; [exact N|apply P].
  - apply at_rest_filter in R. destruct T as [[_ T]|(th & T & _)]; [|congruence]. destruct (T a) as (_ & _ & CL & _).
    unfold gevents. rewrite !fold_left_app.
    destruct (accepts env (cf_st cf) h buf size) as [[k m]|]; cbn [fold_left enter queue_in];
    (apply punctual_events; [intros j ids H; apply in_map_iff in H as (m' & E & _); destruct m'; discriminate|]);
    (destruct (host_address (cf_st cf) h) as [b|]; [|apply P]);
    (destruct (0 <? size); [|apply P]); cbn [fold_left]; apply punctual_event; try apply P; intros; exact CL.
Qed.
Lemma crun_punctual env xs : forall cf tr, good (cf_st cf) -> ledger (network tr) (cf_st cf) -> tally cf tr -> punctual cf tr ->
  one_at_a_time env cf xs -> no_reception_inside env cf xs -> punctual (fst (crun env cf xs)) (tr ++ gtrace env cf xs).
Proof.
  induction xs as [|x xs IH]; intros cf tr G L T P OK NR; [cbn; rewrite app_nil_r; exact P|].
  destruct OK as [O1 O2]. destruct NR as [N1 N2]. rewrite crun_cons. cbn [gtrace]. rewrite app_assoc.
  destruct (cstep_good env cf x _ G L) as [G1 L1]. rewrite <- network_app in L1.
  apply IH; [exact G1|exact L1|now apply cstep_tally|now apply cstep_punctual|exact O2|exact N2].
Qed.
Lemma nothing_lost env xs a : one_at_a_time env (idle init_state) xs -> no_reception_inside env (idle init_state) xs ->
  at_rest (after env xs) -> never_abandoned a (history env xs) ->
  all_queued a (history env xs) = all_packed a (history env xs) ++ pending_acks (cf_st (after env xs)) a.
Proof.
  intros O NR R NA. destruct (accounted env xs a O R) as (A1 & _ & _ & _ & A2).
  assert (punctual (after env xs) (history env xs)) as P.
  { apply (crun_punctual env xs (idle init_state) [] good_init ledger_init tally_init); auto. intros b. auto. }
  destruct (P a) as (_ & _ & ->). rewrite (A2 NA). exact A1.
Qed.
