(** Lemmas for C101 and C102. *)
From Verif Require Import Lib NetworkProofs EventsProofs DispatchProofs GreenletProofs SpecHanding.

(** ** A thread nobody else touches *)
Definition settled (th : thread) : Prop := forall k l, detach k l th = th.
Lemma detach_all_settled st ms : forall pool t th, nth_error pool t = Some th -> settled th ->
  nth_error (detach_all st ms pool) t = Some th.
Proof.
  induction ms as [|x ms IH]; intros pool t th N S0; [exact N|]. unfold detach_all in *. cbn [fold_left]. destruct x; try (now apply IH).
  apply IH; [|exact S0]. rewrite nth_error_map, N. cbn. now rewrite S0.
Qed.
Definition goes_on_at (t : nat) (x : sched) : bool := match x with Resume j _ => Nat.eqb t j | Spawn _ => false end.
Lemma nth_error_update_neq {A} (l : list A) : forall i j x, i <> j -> nth_error (update_nth i x l) j = nth_error l j.
Proof. induction l as [|a l IH]; intros i j x N; [destruct i; reflexivity|]. destruct i, j; cbn; try reflexivity; [congruence|]. apply IH. congruence. Qed.
Lemma nth_error_update_eq {A} (l : list A) : forall i x y, nth_error l i = Some y -> nth_error (update_nth i x l) i = Some x.
Proof. induction l as [|a l IH]; intros i x y N; [destruct i; discriminate|]. destruct i; cbn in *; [reflexivity|]. now apply (IH _ _ y). Qed.
Lemma other_turn env c x t th : nth_error (cf_pool c) t = Some th -> settled th -> goes_on_at t x = false ->
  nth_error (cf_pool (fst (cstep env c x))) t = Some th.
Proof.
  intros N S0 G. assert (t < List.length (cf_pool c))%nat as L by (apply nth_error_Some; congruence). destruct x as [o|j e]; cbn [cstep].
  - destruct (start env c o) as [[st ms] th']. cbn. now rewrite nth_error_app1.
  - cbn in G. apply Nat.eqb_neq in G. destruct (nth_error (cf_pool c) j) as [th0|]; [|exact N].
    destruct (resume env (cf_st c) e th0) as [[st ms] th']. cbn. rewrite nth_error_update_neq by congruence. now apply detach_all_settled.
Qed.
Lemma own_turn env c t e th st ms th' : nth_error (cf_pool c) t = Some th -> resume env (cf_st c) e th = (st, ms, th') ->
  cf_st (fst (cstep env c (Resume t e))) = st /\ nth_error (cf_pool (fst (cstep env c (Resume t e)))) t = Some th' /\
  gevents env c (Resume t e) = map seen ms.
Proof.
  intros N R. cbn [cstep gevents app]. rewrite N, R. cbn. split; [reflexivity|]. split; [|reflexivity].
  assert (exists y, nth_error (detach_all (cf_st c) ms (cf_pool c)) t = Some y) as [y Y].
  { clear R. revert th N. generalize (cf_pool c) as pool. unfold detach_all. induction ms as [|x ms IH]; intros pool th N; [now exists th|].
    cbn [fold_left]. destruct x; try (now apply (IH _ th)). eapply IH. rewrite nth_error_map, N. reflexivity. }
  exact (nth_error_update_eq _ _ _ _ Y).
Qed.
Lemma seen_other env c t x xs th : nth_error (cf_pool c) t = Some th -> goes_on_at t x = false ->
  turns env c t (x :: xs) = turns env (fst (cstep env c x)) t xs /\ seen_of env c t (x :: xs) = seen_of env (fst (cstep env c x)) t xs.
Proof.
  intros N G. assert (t < List.length (cf_pool c))%nat as L by (apply nth_error_Some; congruence). cbn [turns seen_of]. destruct x as [o|j e].
  - rewrite (proj2 (Nat.eqb_neq t (List.length (cf_pool c)))) by lia. now split.
  - cbn in G. rewrite G. now split.
Qed.
Lemma seen_own env c t e xs : 
  turns env c t (Resume t e :: xs) = (e, c) :: turns env (fst (cstep env c (Resume t e))) t xs /\
  seen_of env c t (Resume t e :: xs) = gevents env c (Resume t e) ++ seen_of env (fst (cstep env c (Resume t e))) t xs.
Proof. cbn [turns seen_of]. rewrite Nat.eqb_refl. now split. Qed.
Lemma goes_on_cases t x : goes_on_at t x = false \/ exists e, x = Resume t e.
Proof. destruct x as [o|j e]; [now left|]. cbn. destruct (Nat.eqb_spec t j) as [->|N]; [right; now exists e|now left]. Qed.
Lemma finished_settled o : settled (Finished o). Proof. intros k l. reflexivity. Qed.
Lemma deliver_settled name i m : settled (InHandler name i (Deliver m)). Proof. intros k l. reflexivity. Qed.
Lemma announce_settled name i mref href md : settled (InHandler name i (Announce mref href md ToUser)). Proof. intros k l. reflexivity. Qed.
Lemma socket_settled mref b : settled (InSocket mref b ToUser). Proof. intros k l. reflexivity. Qed.
Lemma crun_fst_cons env c x xs : fst (crun env c (x :: xs)) = fst (crun env (fst (cstep env c x)) xs).
Proof. cbn [crun]. destruct (cstep env c x) as [c1 m1]. cbn. now destruct (crun env c1 xs). Qed.
(** One that has returned does nothing. *)
Lemma finished_run env xs : forall c t o, nth_error (cf_pool c) t = Some (Finished o) ->
  nth_error (cf_pool (fst (crun env c xs))) t = Some (Finished o) /\ seen_of env c t xs = [].
Proof.
  induction xs as [|x xs IH]; intros c t o N; [now split|]. rewrite crun_fst_cons.
  destruct (goes_on_cases t x) as [G|[e ->]].
  - rewrite (proj2 (seen_other env c t x xs _ N G)). apply IH. now apply other_turn; [|apply finished_settled|].
  - destruct (own_turn env c t e _ _ _ _ N eq_refl) as (A & B & D). rewrite (proj2 (seen_own env c t e xs)), D. cbn [map app]. now apply IH.
Qed.
Lemma calls_app a b : calls (a ++ b) = calls a ++ calls b. Proof. apply flat_map_app. Qed.
Lemma packets_app a b : packets (a ++ b) = packets a ++ packets b. Proof. apply flat_map_app. Qed.

(** ** A received message *)
(** What follows the call of position [k]. *)
Definition after_call (name : string) (k : nat) (later : list (option exn * config)) :=
  match later with
  | [] => ([], None)
  | (Some e, c') :: later' => ([], Some (Some e, c', later'))
  | (None, c') :: later' => handing name (S k) c' later'
  end.
Lemma handing_eq name k c later : handing name k c later =
  match nth_error (subscribers name c) k with
  | None => ([], Some (None, c, later))
  | Some s => let '(called, ended) := after_call name k later in ((s, c) :: called, ended)
  end.
Proof. destruct later as [|[[e|] c'] later']; reflexivity. Qed.
Lemma swallow_passed e : swallow_keyerror e = passed_on e.
Proof. destruct e as [[]|]; reflexivity. Qed.
Definition received (m : message) (e : option exn) : outcome :=
  ORecv {| r_res := match passed_on e with Some e => Err e | None => Ok (Some m) end; r_calls := [] |}.
Lemma enter_deliver env c name k m : enter_handler env (cf_st c) name k (Deliver m) =
  match nth_error (subscribers name c) k with
  | Some s => (cf_st c, [MCall s m], InHandler name (S k) (Deliver m))
  | None => (cf_st c, [], Finished (received m None))
  end.
Proof.
  unfold enter_handler, subscribers. cbn [work_message]. destruct (sget name (s_handler (cf_st c))) as [l|].
  - destruct (nth_error l k); reflexivity.
  - destruct k; reflexivity.
Qed.
Definition delivery_end (m : message) (name : string) (c : config) (t : nat)
  (ended : option (option exn * config * list (option exn * config))) : Prop :=
  match ended with
  | None => exists i, nth_error (cf_pool c) t = Some (InHandler name i (Deliver m))
  | Some (e, _, _) => nth_error (cf_pool c) t = Some (Finished (received m e))
  end.
Lemma deliver_run env t m name ys : forall c k, nth_error (cf_pool c) t = Some (InHandler name (S k) (Deliver m)) ->
  let '(called, ended) := after_call name k (turns env c t ys) in
  calls (seen_of env c t ys) = map (fun '(s, _) => (s, m)) called /\ packets (seen_of env c t ys) = [] /\
  delivery_end m name (fst (crun env c ys)) t ended.
Proof.
  induction ys as [|x ys IH]; intros c k N.
  { cbn. repeat split. now exists (S k). }
  rewrite crun_fst_cons. destruct (goes_on_cases t x) as [G|[e ->]].
  - destruct (seen_other env c t x ys _ N G) as [-> ->]. apply IH. now apply other_turn; [|apply deliver_settled|].
  - destruct (seen_own env c t e ys) as [-> ->]. destruct e as [e|].
    + destruct (own_turn env c t (Some e) _ _ _ _ N eq_refl) as (A & B & D). cbn [after_call]. rewrite D. cbn [map app].
      rewrite swallow_passed in B. destruct (finished_run env ys _ t _ B) as [F ->]. repeat split. exact F.
    + cbn [after_call]. rewrite handing_eq. pose proof (enter_deliver env c name (S k) m) as R.
      destruct (nth_error (subscribers name c) (S k)) as [s|].
      * destruct (own_turn env c t None _ _ _ _ N R) as (A & B & D). rewrite D. specialize (IH _ _ B).
        destruct (after_call name (S k) _) as [called ended]. destruct IH as (I1 & I2 & I3).
        rewrite calls_app, packets_app, I1, I2. repeat split. exact I3.
      * destruct (own_turn env c t None _ _ _ _ N R) as (A & B & D). rewrite D. destruct (finished_run env ys _ t _ B) as [F ->].
        repeat split. exact F.
Qed.
Lemma receive_starts env c h buf size a m : accepts env (cf_st c) h buf size = Some (a, m) -> e_handle env = true ->
  exists st, s_handler st = s_handler (cf_st c) /\
    start env c (Receive h buf size) = enter_handler env st (m_name m) 0 (Deliver m).
Proof.
  unfold accepts, host_address, start, receive_check. intros A HE. destruct (nth_error (s_hosts (cf_st c)) h) as [a0|] eqn:NH; [|discriminate A].
  destruct (Z.ltb_spec 0 size); [|discriminate A]. destruct (Z.leb_spec size 0); [lia|].
  pose proof (find_circuit_spec (cf_st c) h a0) as F. destruct (find_circuit (cf_st c) h a0) as [st1 c0].
  destruct F as (C0 & _ & _ & _ & _ & _ & HH & _). unfold deser_conf in *. cbn [silent e_des_dict e_des_xml e_deferred s_handler set_counts].
  rewrite HH. destruct (deserialize _ buf) as [[m0|]|]; try discriminate A.
  assert (c_trusted c0 = match circ (cf_st c) a0 with Some c => c_trusted c | None => false end) as ->.
  { rewrite C0. unfold cur. now destruct (circ (cf_st c) a0). }
  destruct (_ && _); [discriminate A|]. injection A as <- <-. cbn [e_handle silent r_res]. rewrite HE. eexists. split; [|reflexivity]. exact HH.
Qed.
Lemma deliver_all env c h buf size a m ys : accepts env (cf_st c) h buf size = Some (a, m) -> e_handle env = true ->
  let t := List.length (cf_pool c) in let xs := Spawn (Receive h buf size) :: ys in
  let '(called, ended) := handing (m_name m) 0 c (turns env c t xs) in
  calls (seen_of env c t xs) = map (fun '(s, _) => (s, m)) called /\ packets (seen_of env c t xs) = [] /\
  delivery_end m (m_name m) (fst (crun env c xs)) t ended.
Proof.
  intros A HE t xs. destruct (receive_starts env c h buf size a m A HE) as (st & HH & ST).
  set (c1 := fst (cstep env c (Spawn (Receive h buf size)))).
  assert (turns env c t xs = turns env c1 t ys) as -> by reflexivity.
  assert (seen_of env c t xs = gevents env c (Spawn (Receive h buf size)) ++ seen_of env c1 t ys) as ->.
  { unfold xs, t. cbn [seen_of]. now rewrite Nat.eqb_refl. }
  unfold xs. rewrite crun_fst_cons. fold c1.
  assert (cstep env c (Spawn (Receive h buf size)) = let '(st, ms, th) := enter_handler env st (m_name m) 0 (Deliver m) in
    ({| cf_st := st; cf_pool := cf_pool c ++ [th] |}, ms)) as CS by (cbn [cstep]; now rewrite ST).
  change (enter_handler env st (m_name m) 0 (Deliver m)) with
    (enter_handler env (cf_st {| cf_st := st; cf_pool := [] |}) (m_name m) 0 (Deliver m)) in CS.
  rewrite enter_deliver in CS.
  assert (subscribers (m_name m) {| cf_st := st; cf_pool := [] |} = subscribers (m_name m) c) as SB by (unfold subscribers; cbn; now rewrite HH).
  rewrite SB in CS. rewrite handing_eq.
  assert (forall ms, snd (cstep env c (Spawn (Receive h buf size))) = ms ->
    calls (gevents env c (Spawn (Receive h buf size))) = calls (map seen ms) /\ packets (gevents env c (Spawn (Receive h buf size))) = packets (map seen ms)) as GE.
  { intros ms E. unfold gevents. rewrite E, calls_app, packets_app, A.
    destruct (host_address (cf_st c) h); [destruct (0 <? size)|]; now split. }
  destruct (nth_error (subscribers (m_name m) c) 0) as [s|]; cbn [cf_st] in CS.
  - assert (nth_error (cf_pool c1) t = Some (InHandler (m_name m) 1 (Deliver m))) as N.
    { unfold c1. rewrite CS. cbn. unfold t. now rewrite nth_error_app2, Nat.sub_diag. }
    pose proof (deliver_run env t m (m_name m) ys c1 0 N) as D. destruct (after_call _ _ _) as [called ended]. destruct D as (D1 & D2 & D3).
    destruct (GE [MCall s m]) as [G1 G2]; [now rewrite CS|]. rewrite calls_app, packets_app, G1, G2, D1, D2. repeat split. exact D3.
  - assert (nth_error (cf_pool c1) t = Some (Finished (received m None))) as N.
    { unfold c1. rewrite CS. cbn. unfold t. now rewrite nth_error_app2, Nat.sub_diag. }
    destruct (finished_run env ys c1 t _ N) as [F ->]. destruct (GE []) as [G1 G2]; [now rewrite CS|].
    rewrite calls_app, packets_app, G1, G2. repeat split. exact F.
Qed.

(** ** Objects do not go away *)
Definition grows (st st' : dstate) : Prop :=
  (List.length (s_msgs st) <= List.length (s_msgs st'))%nat /\ (List.length (s_hosts st) <= List.length (s_hosts st'))%nat.
Lemma grows_refl st : grows st st. Proof. split; lia. Qed.
Lemma grows_trans a b c : grows a b -> grows b c -> grows a c. Proof. unfold grows. lia. Qed.
Lemma grows_same st st' : s_msgs st' = s_msgs st -> s_hosts st' = s_hosts st -> grows st st'.
Proof. intros A B. unfold grows. rewrite A, B. lia. Qed.
Definition sres (x : step_result) : dstate := fst (fst x).
Lemma update_length {A} (l : list A) : forall i x, List.length (update_nth i x l) = List.length l.
Proof. induction l as [|a l IH]; intros [|i] x; cbn; auto. Qed.
Lemma transmit_grows env st mref href md k : grows st (sres (transmit env st mref href md k)).
Proof.
  unfold transmit. destruct (nth_error (s_hosts st) href) as [a|]; [|apply grows_refl]. destruct (nth_error (s_msgs st) mref) as [m|]; [|apply grows_refl].
  pose proof (find_circuit_spec st href a) as F. destruct (find_circuit st href a) as [st1 c]. destruct F as (_ & _ & _ & H1 & M1 & _).
  destruct (match md with Reliable r => _ | Plain => _ end) as [c' m']. cbv zeta.
  set (st2 := match md with Plain => _ | Reliable _ => _ end).
  assert (grows st st2) as G.
  { unfold st2, grows. destruct md; [|destruct (c_count c' <=? 0)]; cbn; rewrite update_length, H1, M1; lia. }
  destruct (serialize _ _ _ m') as [[b|]|e]; exact G.
Qed.
Lemma after_grows env st e w : grows st (sres (after_handler env st e w)).
Proof. destruct w as [m|mref href md k]; cbn; [apply grows_refl|]. destruct (swallow_keyerror e); [apply grows_refl|apply transmit_grows]. Qed.
Lemma enter_grows env st name i w : grows st (sres (enter_handler env st name i w)).
Proof.
  unfold enter_handler. destruct (sget name (s_handler st)) as [l|]; [|apply after_grows]. destruct (work_message st w); [|apply after_grows].
  destruct (nth_error l i); [apply grows_refl|apply after_grows].
Qed.
Lemma begin_grows env st mref href md k : grows st (sres (begin_send env st mref href md k)).
Proof.
  unfold begin_send. destruct (nth_error (s_hosts st) href) as [a|]; [|apply grows_refl]. destruct (nth_error (s_msgs st) mref) as [m|]; [|apply grows_refl].
  destruct (negb (host_ok a)); [apply grows_refl|]. destruct (e_handle_out env); [apply enter_grows|apply transmit_grows].
Qed.
Lemma clear_grows st k : grows st (clear_acks st k).
Proof. unfold clear_acks. destruct (get_circuit _ _); apply grows_same; reflexivity. Qed.
Lemma loop_grows env st f : grows st (sres (ack_loop env st f)).
Proof.
  unfold ack_loop. destruct (take_acks _ _) as [ids full]. destruct (full || (0 <? zlen ids)); [|apply clear_grows]. cbv zeta.
  match goal with |- context [begin_send ?e ?s ?a ?b ?c ?d] => pose proof (begin_grows e s a b c d) as B; destruct (begin_send e s a b c d) as [[st2 ms] th] end.
  eapply grows_trans; [|exact B]. unfold grows. cbn. rewrite app_length. cbn. lia.
Qed.
Lemma resume_grows env st e th : grows st (sres (resume env st e th)).
Proof.
  destruct th as [o|name i w|mref b k|r f last|todo]; cbn [resume].
  - apply grows_refl.
  - destruct e; [apply after_grows|apply enter_grows].
  - destruct e; [apply grows_refl|now apply grows_same].
  - destruct r; [destruct last; [apply clear_grows|apply loop_grows]|apply grows_refl].
  - unfold next_circuit. destruct todo as [|k todo]; [apply grows_refl|]. destruct (get_circuit (s_circuits st) k); [apply loop_grows|apply grows_refl].
Qed.
Lemma resend_grows l : forall st, grows st (fst (resend_all l st)).
Proof.
  induction l as [|[h a] l IH]; intros st; cbn [resend_all]; [apply grows_refl|].
  destruct (get_circuit (s_circuits st) a) as [c|]; [|apply IH]. destruct (c_unacked c) as [|[id mref] u]; [apply IH|].
  destruct (nth_error (s_msgs st) mref) as [m|]; [|apply grows_refl]. unfold grows. cbn. rewrite update_length. lia.
Qed.
Lemma receive_grows env st href buf size : grows st (fst (receive_check env st href buf size)).
Proof.
  unfold receive_check. destruct (nth_error (s_hosts st) href) as [a|]; [|apply grows_refl].
  destruct (size <=? 0); [apply grows_refl|].
  pose proof (find_circuit_spec st href a) as F. destruct (find_circuit st href a) as [st1 c]. destruct F as (_ & _ & _ & H1 & M1 & _).
  cbv zeta. destruct (deserialize _ buf) as [[m|]|x]; [|destruct (do _ <- pyindex buf 0; unpack_z buf MVT_U32 1 (Some BE))|]; try (now apply grows_same).
  destruct (c_trusted c && negb (m_trusted m)); [now apply grows_same|].
  destruct (e_handle env); [destruct (handle _ _ m)|]; now apply grows_same.
Qed.
Lemma start_grows env c o : grows (cf_st c) (sres (start env c o)).
Proof.
  destruct o; cbn [start step]; try apply begin_grows; try (now apply grows_same);
    try (unfold grows, sres; cbn; rewrite ?app_length, ?update_length; cbn; lia).
  - destruct (get_circuit (s_circuits (cf_st c)) a); now apply grows_same.
  - pose proof (receive_grows (silent env) (cf_st c) href buf size) as G. destruct (receive_check (silent env) (cf_st c) href buf size) as [st1 r].
    destruct (r_res r) as [[m|]|]; try exact G. destruct (e_handle env); [|exact G]. eapply grows_trans; [exact G|apply enter_grows].
  - pose proof (resend_grows (s_unackedc (cf_st c)) (cf_st c)) as G. destruct (resend_all (s_unackedc (cf_st c)) (cf_st c)) as [st1 [u|e]]; exact G.
  - destruct (existsb acking (cf_pool c)); [apply grows_refl|now apply grows_same].
Qed.
Lemma cstep_grows env c x : grows (cf_st c) (cf_st (fst (cstep env c x))).
Proof.
  destruct x as [o|j e]; cbn [cstep].
  - pose proof (start_grows env c o) as G. destruct (start env c o) as [[st ms] th]. exact G.
  - destruct (nth_error (cf_pool c) j) as [th|]; [|apply grows_refl]. pose proof (resume_grows env (cf_st c) e th) as G.
    destruct (resume env (cf_st c) e th) as [[st ms] th']. exact G.
Qed.
Definition exists_in (mref href : nat) (c : config) : Prop :=
  (mref < List.length (s_msgs (cf_st c)))%nat /\ (href < List.length (s_hosts (cf_st c)))%nat.
Lemma exists_step env c x mref href : exists_in mref href c -> exists_in mref href (fst (cstep env c x)).
Proof. intros [A B]. destruct (cstep_grows env c x). unfold exists_in. lia. Qed.

(** ** A message to be sent *)
Definition sent_with (r : res (option bytes)) : outcome := OSend (out0 r).
Definition no_bytes (r : res (option bytes)) : Prop := forall b, r <> Ok (Some b).
Lemma contain_no_bytes e m : no_bytes (contain e m).
Proof. intros b. unfold contain. destruct e; try discriminate; destruct (msg_str_error m); discriminate. Qed.
(** In the socket, and what becomes of it. *)
Definition in_socket (c : config) (t mref : nat) (b : bytes) (later : list (option exn * config)) : Prop :=
  match later with
  | [] => nth_error (cf_pool c) t = Some (InSocket mref b ToUser)
  | (None, _) :: _ => nth_error (cf_pool c) t = Some (Finished (sent_with (Ok (Some b))))
  | (Some e, _) :: _ => exists r, nth_error (cf_pool c) t = Some (Finished (sent_with r)) /\ no_bytes r
  end.
Lemma socket_run env t mref b ys : forall c, nth_error (cf_pool c) t = Some (InSocket mref b ToUser) ->
  calls (seen_of env c t ys) = [] /\ packets (seen_of env c t ys) = [] /\
  in_socket (fst (crun env c ys)) t mref b (turns env c t ys).
Proof.
  induction ys as [|x ys IH]; intros c N; [now repeat split|]. rewrite crun_fst_cons. destruct (goes_on_cases t x) as [G|[e ->]].
  - destruct (seen_other env c t x ys _ N G) as [-> ->]. apply IH. now apply other_turn; [|apply socket_settled|].
  - destruct (seen_own env c t e ys) as [-> ->]. destruct e as [e|].
    + destruct (own_turn env c t (Some e) _ _ _ _ N eq_refl) as (A & B & D). rewrite D. cbn [back_to] in B.
      destruct (finished_run env ys _ t _ B) as [F ->]. repeat split. cbn [in_socket]. eexists. split; [exact F|].
      destruct (nth_error (s_msgs (cf_st c)) mref); [apply contain_no_bytes|intros b0; discriminate].
    + destruct (own_turn env c t None _ _ _ _ N eq_refl) as (A & B & D). rewrite D.
      destruct (finished_run env ys _ t _ B) as [F ->]. repeat split. exact F.
Qed.
Lemma add_acks_content ids : forall m, same_content m (fold_left add_ack ids m).
Proof.
  induction ids as [|i ids IH]; intros m; [now split|]. cbn [fold_left]. destruct (IH (add_ack m i)) as [A B]. split; [now rewrite A|now rewrite B].
Qed.
Lemma prepare_content c mref m f r : same_content m (snd (prepare_packet c mref m f r)).
Proof.
  unfold prepare_packet. destruct (next_packet_id c) as [id c1]. cbn [snd].
  destruct ((0 <? zlen (c_acks c1)) && _); [|now split]. destruct (add_acks_content (c_acks c1) (or_flags (set_header m f r id) LL_ACK_FLAG)) as [A B].
  split; [now rewrite A|now rewrite B].
Qed.
(** From the last subscriber to the socket. *)
Lemma transmit_spec env c mref href md a m : host_address (cf_st c) href = Some a -> nth_error (s_msgs (cf_st c)) mref = Some m ->
  exists st x th, transmit env (cf_st c) mref href md ToUser = (st, [MPut x], th) /\ at_addr x = a /\ same_content m (at_msg x) /\
    match at_data x with
    | Some b => th = InSocket mref b ToUser
    | None => exists r, th = Finished (sent_with r) /\ no_bytes r
    end.
Proof.
  unfold host_address. intros NH NM. unfold transmit. rewrite NH, NM. destruct (find_circuit (cf_st c) href a) as [st1 c0].
  assert (exists c' m', match md with
            | Reliable r => prepare_packet c0 mref m LL_RELIABLE_FLAG r
            | Plain => prepare_packet c0 mref m LL_NONE 0
            end = (c', m') /\ same_content m m') as (c' & m' & -> & SC).
  { destruct md as [|r].
    - pose proof (prepare_content c0 mref m LL_NONE 0) as H. destruct (prepare_packet c0 mref m LL_NONE 0) as [c' m']. now exists c', m'.
    - pose proof (prepare_content c0 mref m LL_RELIABLE_FLAG r) as H. destruct (prepare_packet c0 mref m LL_RELIABLE_FLAG r) as [c' m']. now exists c', m'. }
  cbv zeta. destruct (serialize _ _ _ m') as [[b|]|e]; (eexists _, _, _; split; [reflexivity|]; cbn [at_addr at_msg at_data]; split; [reflexivity|]; split; [exact SC|]).
  - reflexivity.
  - eexists. split; [reflexivity|]. apply contain_no_bytes.
  - eexists. split; [reflexivity|]. apply contain_no_bytes.
Qed.
Definition sending_end (mref href : nat) (c : config) (t : nat) (packs : list attempt)
  (ended : option (option exn * config * list (option exn * config))) : Prop :=
  match ended with
  | None => packs = [] /\ exists name i md, nth_error (cf_pool c) t = Some (InHandler name i (Announce mref href md ToUser))
  | Some (e, c', later) =>
      match passed_on e with
      | Some e => packs = [] /\ nth_error (cf_pool c) t = Some (Finished (sent_with (Err e)))
      | None => exists a m x, host_address (cf_st c') href = Some a /\ nth_error (s_msgs (cf_st c')) mref = Some m /\
                  packs = [x] /\ at_addr x = a /\ same_content m (at_msg x) /\
                  match at_data x with
                  | Some b => in_socket c t mref b later
                  | None => exists r, nth_error (cf_pool c) t = Some (Finished (sent_with r)) /\ no_bytes r
                  end
      end
  end.
Lemma there mref href c : exists_in mref href c -> exists a m, host_address (cf_st c) href = Some a /\ nth_error (s_msgs (cf_st c)) mref = Some m.
Proof.
  intros [A B]. destruct (nth_error (s_msgs (cf_st c)) mref) as [m|] eqn:M; [|apply nth_error_None in M; lia].
  unfold host_address. destruct (nth_error (s_hosts (cf_st c)) href) as [a|] eqn:H; [|apply nth_error_None in H; lia]. now exists a, m.
Qed.
(** The operation leaves the handler, with [e], at [c]; it is then [c1]. *)
Lemma leave_handler env t mref href md e c st ms th c1 ys : exists_in mref href c ->
  after_handler env (cf_st c) e (Announce mref href md ToUser) = (st, ms, th) -> nth_error (cf_pool c1) t = Some th ->
  calls (map seen ms ++ seen_of env c1 t ys) = [] /\
  sending_end mref href (fst (crun env c1 ys)) t (packets (map seen ms ++ seen_of env c1 t ys)) (Some (e, c, turns env c1 t ys)).
Proof.
  intros X E N. cbn [after_handler] in E. rewrite swallow_passed in E. cbn [sending_end]. destruct (passed_on e) as [e0|].
  - injection E as <- <- <-. cbn [map app]. destruct (finished_run env ys _ t _ N) as [F ->]. now repeat split.
  - destruct (there mref href c X) as (a & m & NH & NM).
    destruct (transmit_spec env c mref href md a m NH NM) as (st0 & x & th0 & T & TA & TC & TD). rewrite T in E. injection E as <- <- <-.
    destruct (at_data x) as [b|] eqn:AD.
    + subst th0. destruct (socket_run env t mref b ys c1 N) as (S1 & S2 & S3). rewrite calls_app, packets_app, S1, S2.
      split; [reflexivity|]. exists a, m, x. rewrite AD. repeat split; try assumption; apply TC.
    + destruct TD as (r & -> & NB). destruct (finished_run env ys _ t _ N) as [F ->].
      split; [reflexivity|]. exists a, m, x. rewrite AD. repeat split; try assumption; try apply TC. now exists r.
Qed.
Lemma enter_announce env c name k mref href md m : nth_error (s_msgs (cf_st c)) mref = Some m ->
  enter_handler env (cf_st c) name k (Announce mref href md ToUser) =
  match nth_error (subscribers name c) k with
  | Some s => (cf_st c, [MCall s m], InHandler name (S k) (Announce mref href md ToUser))
  | None => after_handler env (cf_st c) None (Announce mref href md ToUser)
  end.
Proof.
  intros NM. unfold enter_handler, subscribers. cbn [work_message]. rewrite NM. destruct (sget name (s_handler (cf_st c))) as [l|].
  - destruct (nth_error l k); reflexivity.
  - destruct k; reflexivity.
Qed.
Definition shown (mref : nat) (called : list (sub * config)) : list (sub * option message) :=
  map (fun '(s, c) => (s, nth_error (s_msgs (cf_st c)) mref)) called.
Definition with_some (l : list (sub * message)) : list (sub * option message) := map (fun '(s, m) => (s, Some m)) l.
Lemma announce_run env t mref href md name ys : forall c k, exists_in mref href c ->
  nth_error (cf_pool c) t = Some (InHandler name (S k) (Announce mref href md ToUser)) ->
  let '(called, ended) := after_call name k (turns env c t ys) in
  with_some (calls (seen_of env c t ys)) = shown mref called /\
  sending_end mref href (fst (crun env c ys)) t (packets (seen_of env c t ys)) ended.
Proof.
  induction ys as [|x ys IH]; intros c k X N.
  { cbn. repeat split. now exists name, (S k), md. }
  rewrite crun_fst_cons. destruct (goes_on_cases t x) as [G|[e ->]].
  - destruct (seen_other env c t x ys _ N G) as [-> ->]. apply IH; [now apply exists_step|]. now apply other_turn; [|apply announce_settled|].
  - destruct (seen_own env c t e ys) as [-> ->]. destruct e as [e|].
    + cbn [after_call]. destruct (after_handler env (cf_st c) (Some e) (Announce mref href md ToUser)) as [[st ms] th] eqn:R.
      destruct (own_turn env c t (Some e) _ _ _ _ N R) as (A & B & D). rewrite D.
      destruct (leave_handler env t mref href md (Some e) c st ms th _ ys X R B) as [L1 L2]. rewrite L1. split; [reflexivity|exact L2].
    + cbn [after_call]. rewrite handing_eq. destruct (there mref href c X) as (a & m & NH & NM).
      pose proof (enter_announce env c name (S k) mref href md m NM) as R.
      destruct (nth_error (subscribers name c) (S k)) as [s|].
      * destruct (own_turn env c t None _ _ _ _ N R) as (A & B & D). rewrite D.
        specialize (IH _ _ (exists_step env c (Resume t None) mref href X) B).
        destruct (after_call name (S k) _) as [called ended]. destruct IH as (I1 & I2). rewrite calls_app, packets_app. cbn [map seen calls packets flat_map app].
        split; [|exact I2]. cbn [with_some map shown]. rewrite NM. f_equal. exact I1.
      * destruct (after_handler env (cf_st c) None (Announce mref href md ToUser)) as [[st ms] th] eqn:R0.
        destruct (own_turn env c t None _ _ _ _ N R) as (A & B & D). rewrite D.
        destruct (leave_handler env t mref href md None c st ms th _ ys X R0 B) as [L1 L2]. rewrite L1. split; [reflexivity|exact L2].
Qed.
Lemma announce_all env c mref href md sock a m ys : host_address (cf_st c) href = Some a -> host_ok a = true ->
  nth_error (s_msgs (cf_st c)) mref = Some m -> e_handle_out env = true ->
  let t := List.length (cf_pool c) in let xs := Spawn (Send mref href md sock) :: ys in
  let '(called, ended) := handing (m_name m) 0 c (turns env c t xs) in
  with_some (calls (seen_of env c t xs)) = shown mref called /\
  sending_end mref href (fst (crun env c xs)) t (packets (seen_of env c t xs)) ended.
Proof.
  intros NH OK NM HE t xs.
  assert (exists_in mref href c) as X.
  { unfold host_address in NH. split; apply nth_error_Some; congruence. }
  set (c1 := fst (cstep env c (Spawn (Send mref href md sock)))).
  assert (turns env c t xs = turns env c1 t ys) as -> by reflexivity.
  assert (seen_of env c t xs = gevents env c (Spawn (Send mref href md sock)) ++ seen_of env c1 t ys) as ->.
  { unfold xs, t. cbn [seen_of]. now rewrite Nat.eqb_refl. }
  unfold xs. rewrite crun_fst_cons. fold c1.
  assert (start env c (Send mref href md sock) = enter_handler env (cf_st c) (m_name m) 0 (Announce mref href md ToUser)) as ST.
  { cbn [start]. unfold begin_send. unfold host_address in NH. now rewrite NH, NM, OK, HE. }
  rewrite (enter_announce env c (m_name m) 0 mref href md m NM) in ST. rewrite handing_eq.
  assert (forall st ms th, start env c (Send mref href md sock) = (st, ms, th) ->
    gevents env c (Spawn (Send mref href md sock)) = map seen ms /\ nth_error (cf_pool c1) t = Some th) as GE.
  { intros st ms th E. unfold c1, gevents. cbn [cstep]. rewrite E. cbn. split; [reflexivity|]. unfold t. now rewrite nth_error_app2, Nat.sub_diag. }
  destruct (nth_error (subscribers (m_name m) c) 0) as [s|].
  - destruct (GE _ _ _ ST) as [-> N]. assert (exists_in mref href c1) as X1 by (now apply exists_step).
    pose proof (announce_run env t mref href md (m_name m) ys c1 0 X1 N) as D. destruct (after_call _ _ _) as [called ended]. destruct D as (D1 & D2).
    rewrite calls_app, packets_app. cbn [map seen calls packets flat_map app]. split; [|exact D2]. cbn [with_some map shown]. rewrite NM. f_equal. exact D1.
  - destruct (after_handler env (cf_st c) None (Announce mref href md ToUser)) as [[st ms] th] eqn:R.
    destruct (GE _ _ _ ST) as [-> N]. destruct (leave_handler env t mref href md None c st ms th c1 ys X R N) as [L1 L2]. rewrite L1. split; [reflexivity|exact L2].
Qed.

(** ** About handing over *)
Lemma handing_calls name later : forall k c called ended, handing name k c later = (called, ended) ->
  forall i s c', nth_error called i = Some (s, c') -> nth_error (subscribers name c') (k + i) = Some s /\
    match i with O => c' = c | S j => nth_error later j = Some (None, c') end.
Proof.
  induction later as [|[[e|] c0] later IH]; intros k c called ended H i s c' N; rewrite handing_eq in H;
    destruct (nth_error (subscribers name c) k) as [s0|] eqn:E; cbn [after_call] in H;
    try (injection H as <- <-; destruct i as [|i]; [|destruct i]; cbn in N; try discriminate N; injection N as <- <-; rewrite Nat.add_0_r; now split).
  all: try (injection H as <- <-; destruct i; discriminate N).
  destruct (handing name (S k) c0 later) as [cl en] eqn:R. injection H as <- <-. destruct i as [|i].
  - cbn in N. injection N as <- <-. rewrite Nat.add_0_r. now split.
  - cbn [nth_error] in N. destruct (IH _ _ _ _ R i s c' N) as [A B]. split; [now rewrite Nat.add_succ_r|]. destruct i; [now subst c'|exact B].
Qed.
Lemma skipn_nth {A} (l : list A) : forall k, skipn k l = match nth_error l k with Some x => x :: skipn (S k) l | None => [] end.
Proof. induction l as [|a l IH]; intros [|k]; try reflexivity. cbn [skipn nth_error]. rewrite IH. reflexivity. Qed.
Lemma handing_alone name later : forall k c, left_alone name c later ->
  let l := skipn k (subscribers name c) in
  let '(called, ended) := handing name k c later in
  map fst called = firstn (S (List.length later)) l /\
  match ended with Some (e, _, _) => e = None /\ (List.length l <= List.length later)%nat | None => (List.length later < List.length l)%nat end.
Proof.
  induction later as [|[e c0] later IH]; intros k c F l; unfold l; rewrite handing_eq, (skipn_nth (subscribers name c) k).
  - destruct (nth_error (subscribers name c) k) as [s|]; cbn; [split; [reflexivity|lia]|]. repeat split. lia.
  - pose proof (Forall_inv F) as F1. pose proof (Forall_inv_tail F) as F'. cbn beta iota in F1. destruct F1 as [-> SB]. clear F. destruct (nth_error (subscribers name c) k) as [s|] eqn:E.
    + cbn [after_call]. assert (left_alone name c0 later) as F0.
      { unfold left_alone in *. rewrite Forall_forall in *. intros [e1 c1] I1. destruct (F' _ I1) as [A B]. split; [exact A|congruence]. }
      specialize (IH (S k) c0 F0). cbv zeta in IH. rewrite SB in IH. destruct (handing name (S k) c0 later) as [called ended].
      destruct IH as [I1 I2]. cbn [map fst]. split; [cbn [List.length]; rewrite firstn_cons; now rewrite I1|].
      destruct ended as [[[e1 c1] l1]|]; cbn [List.length]; [destruct I2; split; [assumption|lia]|lia].
    + cbn. repeat split. lia.
Qed.
(** An exception ends it. *)
Lemma handing_raises name later : forall k c called ended, handing name k c later = (called, ended) ->
  match ended with
  | None => List.length later = pred (List.length called) /\ called <> [] /\ Forall (fun x => fst x = None) later
  | Some (Some e, c', rest) => called <> [] /\ exists before, later = before ++ (Some e, c') :: rest /\ List.length before = pred (List.length called) /\
      Forall (fun x => fst x = None) before
  | Some (None, c', rest) => exists before, later = before ++ rest /\ List.length before = List.length called /\ Forall (fun x => fst x = None) before /\
      nth_error (subscribers name c') (k + List.length called) = None /\ last (c :: map snd before) c = c'
  end.
Proof.
  induction later as [|[[e|] c0] later IH]; intros k c called ended H; rewrite handing_eq in H;
    destruct (nth_error (subscribers name c) k) as [s|] eqn:E; cbn [after_call] in H; try injection H as <- <-.
  - repeat split; [discriminate|constructor].
  - exists []. cbn. rewrite Nat.add_0_r. repeat split; [constructor|exact E].
  - split; [discriminate|]. exists []. repeat split. constructor.
  - exists []. cbn. rewrite Nat.add_0_r. repeat split; [constructor|exact E].
  - destruct (handing name (S k) c0 later) as [cl en] eqn:R. injection H as <- <-. specialize (IH _ _ _ _ R).
    destruct en as [[[[e|] c'] rest]|].
    + destruct IH as (N & before & A & B & C). split; [discriminate|]. exists ((None, c0) :: before). rewrite A. repeat split.
      * destruct cl; [congruence|]. cbn in *. lia.
      * constructor; [reflexivity|exact C].
    + destruct IH as (before & A & B & C & D & L). exists ((None, c0) :: before). rewrite A. repeat split.
      * cbn. now rewrite B.
      * constructor; [reflexivity|exact C].
      * cbn [List.length]. now rewrite Nat.add_succ_r.
      * rewrite <- L. cbn [map snd]. change (last (c :: c0 :: map snd before) c) with (last (c0 :: map snd before) c).
        clear. generalize (map snd before) as l. intros l. revert c0. induction l as [|a l IH]; intros c0; [reflexivity|].
        change (last (c0 :: a :: l) c) with (last (a :: l) c). change (last (c0 :: a :: l) c0) with (last (a :: l) c0).
        clear IH. revert a. induction l as [|b l IH]; intros a; [reflexivity|]. apply (IH b).
    + destruct IH as (A & B & C). repeat split; [|discriminate|constructor; [reflexivity|exact C]].
      destruct cl; [congruence|]. cbn in *. lia.
  - exists []. cbn. rewrite Nat.add_0_r. repeat split; [constructor|exact E].
Qed.
