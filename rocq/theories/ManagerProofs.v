From Coq Require Import Permutation Sorting.Sorted.
From Verif Require Import Lib SpecManager DispatchProofs DispatchMore.

Lemma mrun_cons env m o ops : mrun env m (o :: ops) =
  (fst (mrun env (fst (mstep env m o)) ops), snd (mstep env m o) ++ snd (mrun env (fst (mstep env m o)) ops)).
Proof. cbn. destruct (mstep env m o) as [m1 e]. cbn. destruct (mrun env m1 ops). reflexivity. Qed.
Lemma mrun_app env ops1 : forall ops2 m, mrun env m (ops1 ++ ops2) =
  (fst (mrun env (fst (mrun env m ops1)) ops2), snd (mrun env m ops1) ++ snd (mrun env (fst (mrun env m ops1)) ops2)).
Proof.
  induction ops1 as [|o ops1 IH]; intros ops2 m.
  - cbn. now destruct (mrun env m ops2).
  - cbn [app]. rewrite !mrun_cons, IH. cbn [fst snd]. now rewrite app_assoc.
Qed.
Lemma history_app env ops1 : forall ops2 m, history env m (ops1 ++ ops2) =
  history env m ops1 ++ history env (fst (mrun env m ops1)) ops2.
Proof.
  induction ops1 as [|o ops1 IH]; intros ops2 m; [reflexivity|].
  cbn [app history]. rewrite IH, mrun_cons, app_assoc. reflexivity.
Qed.
Lemma calls_app a b : calls (a ++ b) = calls a ++ calls b.
Proof. apply flat_map_app. Qed.
Lemma enqueues_app a b : enqueues (a ++ b) = enqueues a ++ enqueues b.
Proof. apply flat_map_app. Qed.
Lemma sends_app a b : sends_of (a ++ b) = sends_of a ++ sends_of b.
Proof. apply flat_map_app. Qed.
Lemma calls_did es : calls (map Did es) = es.
Proof. induction es as [|e es IH]; [reflexivity|]. cbn. now rewrite <- IH at 2. Qed.
Lemma calls_observed o es : calls (observed o es) = es.
Proof. unfold observed. rewrite calls_app, calls_did. destruct o; reflexivity. Qed.
Lemma enqueues_did es : enqueues (map Did es) = [].
Proof. induction es as [|e es IH]; [reflexivity|]. exact IH. Qed.
Lemma calls_history env ops : forall m, calls (history env m ops) = snd (mrun env m ops).
Proof.
  induction ops as [|o ops IH]; intros m; [reflexivity|].
  cbn [history]. rewrite calls_app, calls_observed, IH, mrun_cons. reflexivity.
Qed.

(** ** One step of the loop *)
Lemma queue_set m d q p : mm_queue (mm_set m d q p) = q. Proof. reflexivity. Qed.

Lemma loop_receive_spec env m r order sock m' es : loop_receive env m r order sock = (m', es) ->
  mm_queue m' = mm_queue m /\ mm_running m' = mm_running m /\ mm_eq m' = mm_eq m /\ mm_host m' = mm_host m /\ mm_sender m' = mm_sender m /\
  exists ro acks, es = ERecv ro :: acks /\ (acks = [] \/ exists o, acks = [EAcks o]) /\
    (mm_pc m' = PDrain /\ Forall (fun e => raised e = None) es \/
     exists e es' x, mm_pc m' = PEnd (Some e) /\ es = es' ++ [x] /\ raised x = Some e /\ Forall (fun e => raised e = None) es').
Proof.
  unfold loop_receive. destruct (receive_packet m r) as [[d buf] size].
  destruct (receive_check env d (mm_sender m) buf size) as [d1 ro].
  destruct (r_res ro) eqn:RR.
  - destruct (has_unacked d1).
    + destruct (process_acks env d1 order sock) as [d2 o]. destruct (o_res o) eqn:OR; intros E; injection E as <- <-;
        cbn -[raised]; repeat split; exists ro, [EAcks o]; (split; [reflexivity|]); (split; [eauto|]).
      * left. split; [reflexivity|]. repeat constructor; cbn; now rewrite ?RR, ?OR.
      * right. exists e, [ERecv ro], (EAcks o). cbn. rewrite OR. repeat split; auto. repeat constructor. cbn. now rewrite RR.
    + intros E; injection E as <- <-. cbn -[raised]. repeat split. exists ro, []. split; [reflexivity|]. split; [auto|].
      left. split; [reflexivity|]. repeat constructor; cbn; now rewrite RR.
  - intros E'; injection E' as <- <-. cbn -[raised]. repeat split. exists ro, []. split; [reflexivity|]. split; [auto|].
    right. exists e, [], (ERecv ro). cbn. rewrite RR. repeat split; auto.
Qed.

(** ** The dispatcher of a manager is a dispatcher *)
Lemma receive_packet_reach env m r d buf size : reachable env (mm_disp m) -> receive_packet m r = (d, buf, size) -> reachable env d.
Proof.
  intros R. destruct r as [|a data]; cbn; intros E; injection E as <- _ _; [exact R|].
  exact (reachable_step env (mm_disp m) (SetHost (mm_sender m) a) R).
Qed.
Lemma receive_reach env d h buf size : reachable env d -> reachable env (fst (receive_check env d h buf size)).
Proof.
  intros R. pose proof (reachable_step env d (Receive h buf size) R) as H. cbn in H. now destruct (receive_check env d h buf size).
Qed.
Lemma process_reach env d order sock : reachable env d -> reachable env (fst (process_acks env d order sock)).
Proof.
  intros R. pose proof (reachable_step env d (ProcessAcks order sock) R) as H. cbn in H. now destruct (process_acks env d order sock).
Qed.
Lemma send_reach env d msg h md sock : reachable env d -> reachable env (fst (send_message env d msg h md sock)).
Proof.
  intros R. pose proof (reachable_step env d (Send msg h md sock) R) as H. cbn in H. now destruct (send_message env d msg h md sock).
Qed.
Lemma mstep_reach env m o : reachable env (mm_disp m) -> reachable env (mm_disp (fst (mstep env m o))).
Proof.
  intros R. destruct o as [msg rel now| |o|r order sock]; cbn.
  - exact R.
  - unfold stop_monitors. destruct (mm_eq m); exact R.
  - apply reachable_step. exact R.
  - unfold loop_step. destruct (mm_pc m) eqn:P; cbn.
    + exact R.
    + exact R.
    + unfold loop_receive. destruct (receive_packet m r) as [[d buf] size] eqn:RP.
      pose proof (receive_packet_reach env m r d buf size R RP) as R1.
      pose proof (receive_reach env d (mm_sender m) buf size R1) as R2.
      destruct (receive_check env d (mm_sender m) buf size) as [d1 ro]. cbn in R2.
      destruct (r_res ro); [|exact R2]. destruct (has_unacked d1); [|exact R2].
      pose proof (process_reach env d1 order sock R2) as R3.
      destruct (process_acks env d1 order sock) as [d2 o]. destruct (o_res o); exact R3.
    + destruct (mm_queue m) as [|[msg rel] q]; [exact R|].
      unfold send_udp_message.
      pose proof (send_reach env (mm_disp m) msg (mm_host m) (if rel then Reliable 0 else Plain) sock R) as R1.
      destruct (send_message _ _ _ _ _ _) as [d o]. exact R1.
    + exact R.
Qed.
Lemma mm_init_reach env host eq : reachable env (mm_disp (mm_init host eq)).
Proof. exists [NewHost host; NewHost (HNone, HNone)]. reflexivity. Qed.
Lemma mrun_reach env ops : forall m, reachable env (mm_disp m) -> reachable env (mm_disp (fst (mrun env m ops))).
Proof.
  induction ops as [|o ops IH]; intros m R; [exact R|]. rewrite mrun_cons. apply IH, mstep_reach, R.
Qed.
Lemma m_reachable_disp env m : m_reachable env m -> reachable env (mm_disp m).
Proof. intros (host & eq & ops & ->). apply mrun_reach, mm_init_reach. Qed.

(** ** The queue *)
Definition entry (e : nat * bool * bool) : nat * bool := fst e.
Lemma mstep_queue env m o : 
  match o with
  | MEnqueue msg rel now => snd (mstep env m o) = [] /\
      mm_queue (fst (mstep env m o)) = (if now then (msg, rel) :: mm_queue m else mm_queue m ++ [(msg, rel)])
  | _ => mm_queue m = sends_of (snd (mstep env m o)) ++ mm_queue (fst (mstep env m o)) /\
         (sends_of (snd (mstep env m o)) <> [] -> exists msg rel out, snd (mstep env m o) = [ESend msg rel out])
  end.
Proof.
  destruct o as [msg rel now| |o|r order sock]; cbn.
  - split; reflexivity.
  - unfold stop_monitors. destruct (mm_eq m); cbn; split; auto; congruence.
  - split; auto; congruence.
  - unfold loop_step. destruct (mm_pc m); cbn; try (split; [reflexivity|congruence]).
    + destruct (loop_receive env m r order sock) as [m' es] eqn:L.
      destruct (loop_receive_spec _ _ _ _ _ _ _ L) as (Q & _ & _ & _ & _ & ro & acks & -> & A & _). cbn. rewrite Q.
      destruct A as [->|(o & ->)]; cbn; (split; [reflexivity|congruence]).
    + destruct (mm_queue m) as [|[msg rel] q] eqn:MQ; cbn; [split; [now rewrite MQ|congruence]|].
      unfold send_udp_message. destruct (send_message _ _ _ _ _ _) as [d o]. cbn. split; [reflexivity|eauto].
Qed.

(** Ghost state: which of the enqueued messages are in the queue. *)
Definition idx_first (es : list (nat * bool * bool)) (i j : nat) : Prop :=
  forall x y, nth_error es i = Some x -> nth_error es j = Some y -> leaves_first i (snd x) j (snd y).
Record ghost (h : list mobs) (served waiting : list nat) (q : list (nat * bool)) : Prop := {
  g_perm : Permutation (served ++ waiting) (seq 0 (List.length (enqueues h)));
  g_len : List.length served = List.length (sends_of (calls h));
  g_queue : map (fun i => option_map entry (nth_error (enqueues h) i)) waiting = map Some q;
  g_sorted : StronglySorted (idx_first (enqueues h)) waiting;
  g_served : forall t1 msg rel o t2, h = t1 ++ Did (ESend msg rel o) :: t2 ->
    exists i now, nth_error served (List.length (sends_of (calls t1))) = Some i /\
      nth_error (enqueues t1) i = Some (msg, rel, now) /\
      forall j msg' rel' now', nth_error (enqueues t1) j = Some (msg', rel', now') ->
        ~ In j (firstn (List.length (sends_of (calls t1))) served) -> j <> i -> leaves_first i now j now' }.

Lemma ghost_init : ghost [] [] [] [].
Proof. constructor; cbn; auto. constructor. intros. now destruct t1. Qed.

Lemma ghost_in_range h s w q i : ghost h s w q -> In i (s ++ w) <-> (i < List.length (enqueues h))%nat.
Proof.
  intros G. rewrite (Permutation_in' eq_refl (g_perm _ _ _ _ G)), in_seq. lia.
Qed.
Lemma ghost_nodup h s w q : ghost h s w q -> NoDup (s ++ w).
Proof. intros G. eapply Permutation_NoDup; [symmetry; apply (g_perm _ _ _ _ G)|apply seq_NoDup]. Qed.

Lemma split_snoc {A} (h : list A) x t1 y t2 : h ++ [x] = t1 ++ y :: t2 ->
  (t2 = [] /\ h = t1 /\ x = y) \/ exists t2', t2 = t2' ++ [x] /\ h = t1 ++ y :: t2'.
Proof.
  intros E. destruct t2 as [|z t2] using rev_ind.
  - apply app_inj_tail in E as [-> ->]. auto.
  - right. exists t2. change (t1 ++ y :: t2 ++ [z]) with (t1 ++ (y :: t2) ++ [z]) in E. rewrite app_assoc in E.
    apply app_inj_tail in E as [-> ->]. auto.
Qed.

Lemma ghost_other h s w q x : ghost h s w q ->
  match x with Enqueued _ _ _ | Did (ESend _ _ _) => False | _ => True end -> ghost (h ++ [x]) s w q.
Proof.
  intros [P L Q S V] X.
  assert (enqueues (h ++ [x]) = enqueues h) as E.
  { rewrite enqueues_app. destruct x as [| |[]]; try contradiction; cbn; apply app_nil_r. }
  assert (sends_of (calls (h ++ [x])) = sends_of (calls h)) as E2.
  { rewrite calls_app, sends_app. destruct x as [| |[]]; try contradiction; cbn; apply app_nil_r. }
  constructor; rewrite ?E, ?E2; auto.
  intros t1 msg rel o t2 H. apply split_snoc in H as [(-> & -> & ->)|(t2' & -> & ->)]; [contradiction|].
  now apply (V t1 msg rel o t2').
Qed.
Lemma seq_snoc n : seq 0 (n + 1) = seq 0 n ++ [n].
Proof. rewrite seq_app. reflexivity. Qed.
Lemma idx_first_ext es x i j : (i < List.length es)%nat -> (j < List.length es)%nat -> idx_first es i j -> idx_first (es ++ [x]) i j.
Proof. intros Li Lj H a b. rewrite !nth_error_app1 by assumption. apply H. Qed.
Lemma sorted_ext es x w : (forall i, In i w -> (i < List.length es)%nat) -> StronglySorted (idx_first es) w -> StronglySorted (idx_first (es ++ [x])) w.
Proof.
  induction w as [|i w IH]; intros R S; [constructor|]. inversion S as [|? ? S1 F]; subst. constructor.
  - apply IH; [intros; apply R; now right|exact S1].
  - rewrite Forall_forall in *. intros j Hj. apply idx_first_ext; [apply R; now left|apply R; now right|auto].
Qed.
Lemma sorted_snoc {A} (R : A -> A -> Prop) l x : StronglySorted R l -> Forall (fun y => R y x) l -> StronglySorted R (l ++ [x]).
Proof.
  induction l as [|y l IH]; intros S F; cbn; [repeat constructor|].
  inversion S; subst. inversion F; subst. constructor; [auto|]. apply Forall_app. auto.
Qed.
Lemma ghost_enqueue h s w q msg rel now : ghost h s w q ->
  let n := List.length (enqueues h) in
  ghost (h ++ [Enqueued msg rel now]) s (if now then n :: w else w ++ [n]) (if now then (msg, rel) :: q else q ++ [(msg, rel)]).
Proof.
  intros G n. pose proof (ghost_in_range _ _ _ _ 0%nat G) as _. pose proof G as [P L Q S V].
  assert (enqueues (h ++ [Enqueued msg rel now]) = enqueues h ++ [(msg, rel, now)]) as E by (rewrite enqueues_app; reflexivity).
  assert (sends_of (calls (h ++ [Enqueued msg rel now])) = sends_of (calls h)) as E2.
  { rewrite calls_app, sends_app. cbn. apply app_nil_r. }
  assert (forall i, In i w -> (i < n)%nat) as R.
  { intros i Hi. apply (ghost_in_range _ _ _ _ i G). apply in_or_app. now right. }
  assert (map (fun i => option_map entry (nth_error (enqueues h ++ [(msg, rel, now)]) i)) w = map Some q) as Q'.
  { rewrite <- Q. apply map_ext_in. intros i Hi. rewrite nth_error_app1 by now apply R. reflexivity. }
  assert (nth_error (enqueues h ++ [(msg, rel, now)]) n = Some (msg, rel, now)) as NN.
  { rewrite nth_error_app2 by (unfold n; lia). unfold n. now rewrite Nat.sub_diag. }
  constructor; rewrite ?E, ?E2; auto.
  - rewrite app_length. cbn [List.length]. rewrite seq_snoc. fold n. destruct now.
    + rewrite <- Permutation_middle, Permutation_cons_append. now apply Permutation_app_tail.
    + rewrite app_assoc. now apply Permutation_app_tail.
  - destruct now.
    + cbn [map]. rewrite NN, Q'. reflexivity.
    + rewrite !map_app, Q'. cbn [map]. rewrite NN. reflexivity.
  - destruct now.
    + constructor; [now apply sorted_ext|]. apply Forall_forall. intros j Hj x y HX HY.
      rewrite NN in HX. injection HX as <-. cbn. destruct (snd y); [apply R, Hj|exact I].
    + apply sorted_snoc; [now apply sorted_ext|]. apply Forall_forall. intros j Hj x y HX HY.
      rewrite NN in HY. injection HY as <-. cbn. destruct (snd x); [exact I|apply R, Hj].
  - intros t1 m1 r1 o t2 H. apply split_snoc in H as [(-> & -> & X)|(t2' & -> & ->)]; [discriminate|].
    now apply (V t1 m1 r1 o t2').
Qed.
Lemma firstn_snoc {A} (l : list A) x n : (n <= List.length l)%nat -> firstn n (l ++ [x]) = firstn n l.
Proof. intros H. rewrite firstn_app. replace (n - List.length l)%nat with 0%nat by lia. cbn. apply app_nil_r. Qed.
Lemma ghost_send h s w q msg rel o : ghost h s w ((msg, rel) :: q) ->
  exists i w', w = i :: w' /\ ghost (h ++ [Did (ESend msg rel o)]) (s ++ [i]) w' q.
Proof.
  intros G. pose proof (ghost_nodup _ _ _ _ G) as ND. pose proof G as [P L Q S V].
  destruct w as [|i w]; [discriminate|]. cbn [map] in Q. injection Q as Q1 Q2. exists i, w. split; [reflexivity|].
  assert (enqueues (h ++ [Did (ESend msg rel o)]) = enqueues h) as E by (rewrite enqueues_app; apply app_nil_r).
  assert (sends_of (calls (h ++ [Did (ESend msg rel o)])) = sends_of (calls h) ++ [(msg, rel)]) as E2.
  { rewrite calls_app, sends_app. reflexivity. }
  inversion S as [|? ? S1 F]; subst.
  constructor; rewrite ?E, ?E2; auto.
  - rewrite <- app_assoc. exact P.
  - rewrite !app_length, L. reflexivity.
  - intros t1 m1 r1 o1 t2 H. apply split_snoc in H as [(-> & <- & X)|(t2' & -> & H)].
    + injection X as <- <- <-. destruct (nth_error (enqueues h) i) as [[e now]|] eqn:N; [|discriminate]. cbn in Q1. injection Q1 as ->.
      exists i, now. rewrite <- L. split; [rewrite nth_error_app2, Nat.sub_diag by lia; reflexivity|]. split; [exact N|].
      intros j m' r' now' NJ NI JI. rewrite firstn_snoc in NI by lia. rewrite firstn_all in NI.
      assert (In j (s ++ i :: w)) as IJ.
      { apply (ghost_in_range _ _ _ _ j G). apply nth_error_Some. congruence. }
      apply in_app_or in IJ as [?|[?|IJ]]; [contradiction|congruence|].
      rewrite Forall_forall in F. exact (F j IJ _ _ N NJ).
    + destruct (V t1 m1 r1 o1 t2' H) as (i1 & now1 & A & B & C). exists i1, now1.
      assert (List.length (sends_of (calls t1)) < List.length s)%nat as LT by (apply nth_error_Some; congruence).
      split; [now rewrite nth_error_app1|]. split; [exact B|]. rewrite firstn_snoc by lia. exact C.
Qed.
Lemma ghost_dids es : forall h s w q, ghost h s w q -> sends_of es = [] -> ghost (h ++ map Did es) s w q.
Proof.
  induction es as [|e es IH]; intros h s w q G S; cbn [map]; [now rewrite app_nil_r|].
  change (h ++ Did e :: map Did es) with (h ++ [Did e] ++ map Did es). rewrite app_assoc. apply IH.
  - apply ghost_other; [exact G|]. destruct e; try exact I. discriminate.
  - destruct e; try exact S. discriminate.
Qed.
Lemma ghost_step env m o h s w : ghost h s w (mm_queue m) ->
  exists s' w', ghost (h ++ observed o (snd (mstep env m o))) s' w' (mm_queue (fst (mstep env m o))).
Proof.
  intros G. pose proof (mstep_queue env m o) as H.
  assert (match o with MEnqueue _ _ _ => False | _ => True end ->
    exists s' w', ghost (h ++ observed o (snd (mstep env m o))) s' w' (mm_queue (fst (mstep env m o)))) as GEN.
  { intros NE. assert (exists pre, Forall (fun x => match x with Enqueued _ _ _ | Did _ => False | _ => True end) pre /\
      observed o (snd (mstep env m o)) = pre ++ map Did (snd (mstep env m o))) as (pre & FP & ->).
    { unfold observed. destruct o; try contradiction; eexists; (split; [|reflexivity]); repeat constructor. }
    assert (exists s w, ghost (h ++ pre) s w (mm_queue m)) as (s1 & w1 & G1).
    { clear H NE. revert h s w G. induction pre as [|x pre IH]; intros h s w G; [rewrite app_nil_r; eauto|].
      inversion FP; subst. change (h ++ x :: pre) with (h ++ [x] ++ pre). rewrite app_assoc. apply (IH H2 (h ++ [x]) s w).
      apply ghost_other; [exact G|]. destruct x; auto; contradiction. }
    rewrite app_assoc.
    assert (mm_queue m = sends_of (snd (mstep env m o)) ++ mm_queue (fst (mstep env m o)) /\
      (sends_of (snd (mstep env m o)) <> [] -> exists msg rel out, snd (mstep env m o) = [ESend msg rel out])) as (Q & SE)
      by (destruct o; try contradiction; exact H).
    destruct (sends_of (snd (mstep env m o))) as [|x l] eqn:ES.
    - exists s1, w1. cbn in Q. rewrite <- Q. apply ghost_dids; auto.
    - destruct SE as (msg & rel & out & SE); [discriminate|]. rewrite SE in *. cbn in ES. injection ES as <- <-.
      rewrite Q in G1. destruct (ghost_send _ _ _ _ _ _ out G1) as (i & w' & -> & G2). exists (s1 ++ [i]), w'. exact G2. }
  destruct o as [msg rel now| | |]; try (apply GEN; exact I).
  destruct H as [H1 H2]. rewrite H1, H2. unfold observed. cbn [map app].
  eexists s, _. apply (ghost_enqueue h s w (mm_queue m) msg rel now G).
Qed.
Lemma ghost_run env ops : forall m h s w, ghost h s w (mm_queue m) ->
  exists s' w', ghost (h ++ history env m ops) s' w' (mm_queue (fst (mrun env m ops))).
Proof.
  induction ops as [|o ops IH]; intros m h s w G.
  - cbn. rewrite app_nil_r. eauto.
  - cbn [history]. rewrite app_assoc, mrun_cons. cbn [fst].
    destruct (ghost_step env m o h s w G) as (s1 & w1 & G1). eapply IH; exact G1.
Qed.
Lemma ghost_history env host eq ops :
  exists s w, ghost (history env (mm_init host eq) ops) s w (mm_queue (fst (mrun env (mm_init host eq) ops))).
Proof. exact (ghost_run env ops (mm_init host eq) [] [] [] ghost_init). Qed.

Lemma map_some_inj {A} (l1 l2 : list A) : map Some l1 = map Some l2 -> l1 = l2.
Proof.
  revert l2. induction l1 as [|a l1 IH]; intros [|b l2]; cbn; try discriminate; auto.
  intros E. injection E as -> E. f_equal. auto.
Qed.
(** Everything that was enqueued has been sent, once, or is still in the queue. *)
Lemma map_perm_nth {A B} (f : A -> B) (l : list A) :
  map (fun i => option_map f (nth_error l i)) (seq 0 (List.length l)) = map Some (map f l).
Proof.
  induction l as [|a l IH] using rev_ind; [reflexivity|].
  rewrite app_length. cbn [List.length]. rewrite seq_snoc, !map_app, <- IH. f_equal.
  - apply map_ext_in. intros i Hi. apply in_seq in Hi. rewrite nth_error_app1 by lia. reflexivity.
  - cbn. rewrite nth_error_app2, Nat.sub_diag by lia. reflexivity.
Qed.
Lemma perm_map_some {A} (l1 l2 : list A) : Permutation (map Some l1) (map Some l2) -> Permutation l1 l2.
Proof.
  intros P. apply (Permutation_map (fun o => match o with Some x => [x] | None => [] end)) in P.
  rewrite !map_map in P.
  assert (forall l : list A, List.concat (map (fun x => [x]) l) = l) as C.
  { induction l as [|x l IH]; [reflexivity|]. cbn. now rewrite IH. }
  rewrite <- (C l1), <- (C l2). clear C. induction P; cbn; auto.
  - now apply Permutation_app_head.
  - rewrite !app_assoc. apply Permutation_app_tail, Permutation_app_comm.
  - etransitivity; eassumption.
Qed.
Lemma exactly_once env host eq ops : let h := history env (mm_init host eq) ops in
  Permutation (map entry (enqueues h)) (sends_of (calls h) ++ mm_queue (fst (mrun env (mm_init host eq) ops))).
Proof.
  assert (forall ops m acc, Permutation (map entry (enqueues acc)) (sends_of (calls acc) ++ mm_queue m) ->
    Permutation (map entry (enqueues (acc ++ history env m ops)))
                (sends_of (calls (acc ++ history env m ops)) ++ mm_queue (fst (mrun env m ops)))) as H.
  { clear. induction ops as [|o ops IH]; intros m acc P; cbn [history]; [rewrite app_nil_r; exact P|].
    rewrite app_assoc, mrun_cons. cbn [fst]. apply IH.
    rewrite enqueues_app, calls_app, calls_observed, sends_app, map_app.
    pose proof (mstep_queue env m o) as H. unfold observed. rewrite enqueues_app, enqueues_did.
    destruct o as [msg rel now| | |].
    - destruct H as [-> ->]. cbn. rewrite app_nil_r.
      rewrite <- Permutation_cons_append, P. destruct now; [now rewrite Permutation_middle|].
      rewrite app_assoc. apply Permutation_cons_append.
    - destruct H as [Q _]. cbn [enqueues flat_map app map]. rewrite app_nil_r, <- app_assoc, <- Q. exact P.
    - destruct H as [Q _]. cbn [enqueues flat_map app map]. rewrite app_nil_r, <- app_assoc, <- Q. exact P.
    - destruct H as [Q _]. cbn [enqueues flat_map app map]. rewrite app_nil_r, <- app_assoc, <- Q. exact P. }
  intros h. exact (H ops (mm_init host eq) [] (Permutation_refl _)).
Qed.

(** A burst: messages enqueued while nothing is sent. *)
Definition urgent (es : list (nat * bool * bool)) : list (nat * bool) := map entry (filter snd es).
Definition ordinary (es : list (nat * bool * bool)) : list (nat * bool) := map entry (filter (fun e => negb (snd e)) es).
Lemma burst env ops : forall m, sends_of (snd (mrun env m ops)) = [] ->
  mm_queue (fst (mrun env m ops)) =
  rev (urgent (enqueues (history env m ops))) ++ mm_queue m ++ ordinary (enqueues (history env m ops)).
Proof.
  induction ops as [|o ops IH]; intros m S.
  - cbn. now rewrite app_nil_r.
  - rewrite mrun_cons in *. cbn [fst snd history] in *. rewrite sends_app in S. apply app_eq_nil in S as [S1 S2].
    rewrite (IH _ S2). pose proof (mstep_queue env m o) as H. unfold observed. rewrite !enqueues_app, enqueues_did, app_nil_r.
    destruct o as [msg rel now| | |].
    + destruct H as [_ ->]. cbn [enqueues flat_map app]. unfold urgent, ordinary. destruct now; cbn [filter snd negb map entry fst rev].
      * rewrite <- app_assoc. reflexivity.
      * rewrite <- !app_assoc. reflexivity.
    + destruct H as [Q _]. rewrite S1 in Q. cbn [app] in Q. cbn [enqueues flat_map app]. now rewrite <- Q.
    + destruct H as [Q _]. rewrite S1 in Q. cbn [app] in Q. cbn [enqueues flat_map app]. now rewrite <- Q.
    + destruct H as [Q _]. rewrite S1 in Q. cbn [app] in Q. cbn [enqueues flat_map app]. now rewrite <- Q.
Qed.
(** A drain: whatever is sent while nothing is enqueued leaves from the front. *)
Lemma drain env ops : forall m, enqueues (history env m ops) = [] ->
  mm_queue m = sends_of (snd (mrun env m ops)) ++ mm_queue (fst (mrun env m ops)).
Proof.
  induction ops as [|o ops IH]; intros m S; [reflexivity|].
  rewrite mrun_cons in *. cbn [fst snd history] in *. rewrite enqueues_app in S. apply app_eq_nil in S as [S1 S2].
  rewrite sends_app, <- app_assoc, <- (IH _ S2). pose proof (mstep_queue env m o) as H.
  unfold observed in S1. rewrite enqueues_app, enqueues_did, app_nil_r in S1. destruct o; try discriminate; apply H.
Qed.

(** ** The loop *)
Definition quiet_call (e : mevent) : Prop := raised e = None.
Definition shape (p : pc) (es : list mevent) : Prop :=
  exists its cur, es = List.concat its ++ cur /\ Forall (fun it => an_iteration it /\ Forall quiet_call it) its /\
    match p with
    | PStart => es = []
    | PSleep | PRecv | PEnd None => cur = []
    | PDrain => an_iteration cur /\ Forall quiet_call cur
    | PEnd (Some e) => an_iteration cur /\ exists cur' x, cur = cur' ++ [x] /\ raised x = Some e /\ Forall quiet_call cur'
    end.
Lemma shape_close its cur p (es : list mevent) : es = List.concat its ++ cur ->
  Forall (fun it => an_iteration it /\ Forall quiet_call it) its -> an_iteration cur /\ Forall quiet_call cur ->
  (p = PSleep \/ p = PEnd None) -> shape p es.
Proof.
  intros -> F C P. exists (its ++ [cur]), []. rewrite concat_app. cbn [List.concat]. rewrite !app_nil_r. split; [reflexivity|].
  split; [apply Forall_app; split; [exact F|constructor; [exact C|constructor]]|]. destruct P as [->| ->]; reflexivity.
Qed.
Lemma shape_step env m o es : shape (mm_pc m) es -> shape (mm_pc (fst (mstep env m o))) (es ++ snd (mstep env m o)).
Proof.
  intros SH. destruct o as [msg rel now| |o|r order sock]; cbn [mstep fst snd].
  - rewrite app_nil_r. exact SH.
  - rewrite app_nil_r. unfold stop_monitors. destruct (mm_eq m); exact SH.
  - rewrite app_nil_r. exact SH.
  - unfold loop_step. destruct (mm_pc m) as [| | | |e] eqn:P.
    + destruct SH as (its & cur & _ & _ & ->). cbn [fst snd loop_top mm_set mm_pc app]. exists [], []. repeat split; auto.
      destruct (mm_running m); reflexivity.
    + rewrite app_nil_r. exact SH.
    + destruct (loop_receive env m r order sock) as [m' es'] eqn:L. cbn [fst snd].
      destruct SH as (its & cur & E & F & C). rewrite C, app_nil_r in E.
      destruct (loop_receive_spec _ _ _ _ _ _ _ L) as (_ & _ & _ & _ & _ & ro & acks & E' & A & [[PC Q]|(e & es1 & x & PC & ES & RX & Q)]);
        rewrite PC; exists its, es'; (split; [now rewrite E|]); (split; [exact F|]).
      * split; [|exact Q]. exists ro, acks, []. rewrite app_nil_r. auto.
      * split; [exists ro, acks, []; rewrite app_nil_r; auto|]. exists es1, x. auto.
    + destruct SH as (its & cur & E & F & C & Q). destruct (mm_queue m) as [|[msg rel] q].
      * cbn [fst snd loop_top mm_set mm_pc]. rewrite app_nil_r. apply (shape_close its cur); auto. destruct (mm_running m); auto.
      * destruct (send_udp_message env m msg rel sock) as [d o]. cbn [fst snd mm_set mm_pc].
        assert (an_iteration (cur ++ [ESend msg rel o])) as C'.
        { destruct C as (ro & acks & sends & -> & A & S). exists ro, acks, (sends ++ [ESend msg rel o]).
          cbn [app]. rewrite <- app_assoc. split; [reflexivity|]. split; [exact A|]. apply Forall_app. split; [exact S|]. repeat constructor. }
        destruct (o_res o) eqn:OR; exists its, (cur ++ [ESend msg rel o]); (split; [now rewrite E, app_assoc|]); (split; [exact F|]); (split; [exact C'|]).
        -- apply Forall_app. split; [exact Q|]. repeat constructor. unfold quiet_call. cbn. now rewrite OR.
        -- exists cur, (ESend msg rel o). cbn. rewrite OR. auto.
    + cbn [fst snd]. rewrite app_nil_r, P. exact SH.
Qed.
Lemma shape_run env ops : forall m es, shape (mm_pc m) es -> shape (mm_pc (fst (mrun env m ops))) (es ++ snd (mrun env m ops)).
Proof.
  induction ops as [|o ops IH]; intros m es S; [cbn; now rewrite app_nil_r|].
  rewrite mrun_cons. cbn [fst snd]. rewrite app_assoc. apply IH, shape_step, S.
Qed.
Lemma shape_init : shape PStart [].
Proof. exists [], []. repeat split; constructor. Qed.
Lemma shape_history env host eq ops :
  shape (mm_pc (fst (mrun env (mm_init host eq) ops))) (snd (mrun env (mm_init host eq) ops)).
Proof. exact (shape_run env ops (mm_init host eq) [] shape_init). Qed.

Lemma ended_forever env ops : forall m, ended m -> snd (mrun env m ops) = [] /\ mm_pc (fst (mrun env m ops)) = mm_pc m.
Proof.
  induction ops as [|o ops IH]; intros m (e & P); [auto|]. rewrite mrun_cons. cbn [fst snd].
  assert (snd (mstep env m o) = [] /\ mm_pc (fst (mstep env m o)) = mm_pc m) as (E & P').
  { destruct o as [msg rel now| |o|r order sock]; cbn [mstep]; auto.
    - unfold stop_monitors. destruct (mm_eq m); auto.
    - unfold loop_step. rewrite P. auto. }
  rewrite E. destruct (IH (fst (mstep env m o))) as (A & B); [exists e; congruence|]. rewrite A, B. auto.
Qed.

(** *** stop *)
Lemma mstep_running env m o : mm_running (fst (mstep env m o)) = match o with MStop => false | _ => mm_running m end.
Proof.
  destruct o as [msg rel now| |o|r order sock]; cbn [mstep]; auto.
  - unfold stop_monitors. destruct (mm_eq m); auto.
  - unfold loop_step. destruct (mm_pc m); auto.
    + destruct (loop_receive env m r order sock) as [m' es] eqn:L. now destruct (loop_receive_spec _ _ _ _ _ _ _ L) as (_ & R & _).
    + destruct (mm_queue m) as [|[msg rel] q]; auto. destruct (send_udp_message env m msg rel sock). auto.
Qed.
Definition budget (p : pc) : nat := match p with PSleep | PRecv => 1 | _ => 0 end.
Lemma receives_app a b : receives_of (a ++ b) = receives_of a ++ receives_of b.
Proof. apply flat_map_app. Qed.
Lemma stop_budget env ops : forall m, mm_running m = false ->
  (List.length (receives_of (snd (mrun env m ops))) + budget (mm_pc (fst (mrun env m ops))) <= budget (mm_pc m))%nat.
Proof.
  induction ops as [|o ops IH]; intros m R; [cbn; lia|]. rewrite mrun_cons. cbn [fst snd].
  rewrite receives_app, app_length. specialize (IH (fst (mstep env m o))). rewrite mstep_running in IH.
  assert (List.length (receives_of (snd (mstep env m o))) + budget (mm_pc (fst (mstep env m o))) <= budget (mm_pc m))%nat as H.
  { destruct o as [msg rel now| |o|r order sock]; cbn [mstep fst snd]; cbn [receives_of flat_map List.length]; try (cbn; lia).
    - unfold stop_monitors. destruct (mm_eq m); cbn; lia.
    - unfold loop_step. destruct (mm_pc m) eqn:P; cbn [fst snd receives_of flat_map List.length mm_pc mm_set budget]; try lia.
      + unfold loop_top. rewrite R. cbn. lia.
      + destruct (loop_receive env m r order sock) as [m' es] eqn:L.
        destruct (loop_receive_spec _ _ _ _ _ _ _ L) as (_ & _ & _ & _ & _ & ro & acks & -> & A & PC). cbn [fst snd].
        assert (budget (mm_pc m') = 0%nat) as -> by (destruct PC as [[-> _]|(e & _ & _ & -> & _)]; reflexivity).
        destruct A as [->|(o & ->)]; cbn; lia.
      + destruct (mm_queue m) as [|[msg rel] q]; cbn.
        * rewrite R. cbn. lia.
        * destruct (send_udp_message env m msg rel sock) as [d o]. cbn. destruct (o_res o); cbn; lia.
      + rewrite P. cbn. lia. }
  assert (match o with MStop => false | _ => mm_running m end = false) as R' by (destruct o; auto). specialize (IH R'). lia.
Qed.
Definition is_loop (o : mop) : Prop := match o with MLoop _ _ _ => True | _ => False end.
Definition distance (m : mstate) : nat :=
  match mm_pc m with
  | PEnd _ => 0
  | PStart => 1
  | PDrain => S (List.length (mm_queue m))
  | PRecv => 2 + List.length (mm_queue m)
  | PSleep => 3 + List.length (mm_queue m)
  end.
Lemma stop_ends env ops : forall m, mm_running m = false -> Forall is_loop ops -> (distance m <= List.length ops)%nat ->
  ended (fst (mrun env m ops)).
Proof.
  induction ops as [|o ops IH]; intros m R F D.
  - unfold distance in D. destruct (mm_pc m) eqn:P; cbn in D; try lia. exists e. exact P.
  - rewrite mrun_cons. cbn [fst]. inversion F as [|? ? FL FO]; subst. apply IH; [|exact FO|].
    + rewrite mstep_running. destruct o; auto. 
    + destruct o as [| | |r order sock]; try contradiction. cbn [List.length mstep] in *. unfold loop_step, distance in *.
      destruct (mm_pc m) eqn:P; cbn [fst mm_pc mm_set mm_queue].
      * unfold loop_top. rewrite R. cbn. lia.
      * lia.
      * destruct (loop_receive env m r order sock) as [m' es] eqn:L.
        destruct (loop_receive_spec _ _ _ _ _ _ _ L) as (Q & _ & _ & _ & _ & ro & acks & _ & _ & PC). cbn [fst].
        destruct PC as [[-> _]|(e & _ & _ & -> & _)]; rewrite ?Q; lia.
      * destruct (mm_queue m) as [|[msg rel] q]; cbn [List.length] in D; cbn.
        -- rewrite R. lia.
        -- destruct (send_udp_message env m msg rel sock) as [d o]. cbn. destruct (o_res o); lia.
      * rewrite P. lia.
Qed.
Lemma ends_only_stopped env ops : forall m, (mm_pc m = PEnd None -> mm_running m = false) ->
  mm_pc (fst (mrun env m ops)) = PEnd None -> mm_running (fst (mrun env m ops)) = false.
Proof.
  induction ops as [|o ops IH]; intros m H; [exact H|]. rewrite mrun_cons. cbn [fst]. apply IH.
  rewrite mstep_running. destruct o as [msg rel now| |o|r order sock]; auto.
  cbn [mstep]. unfold loop_step. destruct (mm_pc m) eqn:P; cbn; auto; try discriminate.
  - destruct (mm_running m); [discriminate|auto].
  - destruct (loop_receive env m r order sock) as [m' es] eqn:L.
    destruct (loop_receive_spec _ _ _ _ _ _ _ L) as (_ & _ & _ & _ & _ & ro & acks & _ & _ & PC). cbn [fst].
    destruct PC as [[-> _]|(e & _ & _ & -> & _)]; discriminate.
  - destruct (mm_queue m) as [|[msg rel] q]; cbn.
    + destruct (mm_running m); [discriminate|auto].
    + destruct (send_udp_message env m msg rel sock) as [d o]. cbn. destruct (o_res o); discriminate.
  - rewrite P. auto.
Qed.
Lemma running_kept env ops : forall m, ~ In MStop ops -> mm_running (fst (mrun env m ops)) = mm_running m.
Proof.
  induction ops as [|o ops IH]; intros m N; [reflexivity|]. rewrite mrun_cons. cbn [fst].
  rewrite IH by (intros H; apply N; now right). rewrite mstep_running. destruct o; auto. destruct N. now left.
Qed.

(** *** draining to the end *)
Lemma drained env ops : forall m, mm_pc m = PDrain -> Forall is_loop ops -> List.length ops = S (List.length (mm_queue m)) ->
  (exists e, mm_pc (fst (mrun env m ops)) = PEnd (Some e)) \/
  (sends_of (snd (mrun env m ops)) = mm_queue m /\ mm_queue (fst (mrun env m ops)) = [] /\
   mm_pc (fst (mrun env m ops)) = if mm_running m then PSleep else PEnd None).
Proof.
  induction ops as [|o ops IH]; intros m P F D; [discriminate|]. rewrite mrun_cons. cbn [fst snd].
  inversion F as [|? ? FL FO]; subst. destruct o as [| | |r order sock]; try contradiction.
  cbn [mstep]. unfold loop_step. rewrite P. cbn [List.length] in D. destruct (mm_queue m) as [|[msg rel] q] eqn:MQ.
  - destruct ops; [|discriminate]. right. cbn. rewrite MQ. auto.
  - destruct (send_udp_message env m msg rel sock) as [d o]. cbn [fst snd]. destruct (o_res o) as [v|e] eqn:OR.
    + specialize (IH (mm_set m d q PDrain) eq_refl FO). cbn [mm_queue mm_set mm_running] in IH.
      destruct IH as [E|(A & B & C)]; [cbn [List.length] in D; lia|now left|]. right.
      rewrite sends_app. cbn [sends_of flat_map app]. fold (sends_of (snd (mrun env (mm_set m d q PDrain) ops))). rewrite A, B, C. auto.
    + left. exists e. destruct (ended_forever env ops (mm_set m d q (PEnd (Some e)))) as (_ & ->); [now exists (Some e)|]. reflexivity.
Qed.

(** *** objects of the manager *)
Lemma upd_length {A} n (x : A) l : List.length (update_nth n x l) = List.length l.
Proof. revert n. induction l as [|y l IH]; intros [|n]; cbn; auto. Qed.
Lemma step_hosts env st o : reachable env st -> (List.length (s_hosts st) <= List.length (s_hosts (fst (step env st o))))%nat.
Proof.
  intros R. destruct (reachable_good _ _ R) as [I V].
  destruct o as [b|h b|m|r m|r|b t|mref href md sock|mref href|href buf size|order sock|b]; cbn [step fst]; try (cbn; lia).
  - cbn. rewrite app_length. lia.
  - cbn. rewrite upd_length. lia.
  - destruct (get_circuit (s_circuits st) b); cbn; lia.
  - destruct (send_message env st mref href md sock) as [s1 o1] eqn:E. cbn [fst].
    rewrite (ef_hosts _ _ _ (send_effect _ _ _ _ _ _ _ _ I E)). lia.
  - destruct (host_address st href) as [a|] eqn:NH.
    + destruct (Z_lt_le_dec 0 size) as [S|S].
      * destruct (receive_spec env st href buf size a I NH S) as (st1 & r & c' & -> & _ & _ & _ & H & _). cbn. rewrite H. lia.
      * destruct (receive_nothing env st href buf size (or_intror S)) as (r & -> & _). cbn. lia.
    + destruct (receive_nothing env st href buf size (or_introl NH)) as (r & -> & _). cbn. lia.
  - destruct (process_acks env st order sock) as [s1 o1] eqn:E. cbn [fst].
    destruct (process_spec _ _ _ _ _ _ I V E) as (FL & _). rewrite (fl_hosts _ _ _ _ FL). lia.
Qed.
Record m_good (env : denv) (m : mstate) : Prop := {
  mg_reach : reachable env (mm_disp m);
  mg_host : mm_host m = 0%nat;
  mg_sender : mm_sender m = 1%nat;
  mg_hosts : (2 <= List.length (s_hosts (mm_disp m)))%nat }.
Lemma m_good_step env m o : m_good env m -> m_good env (fst (mstep env m o)).
Proof.
  intros [R H S L]. constructor.
  - now apply mstep_reach.
  - destruct o as [msg rel now| |o|r order sock]; cbn [mstep]; auto.
    + unfold stop_monitors. destruct (mm_eq m); auto.
    + unfold loop_step. destruct (mm_pc m); auto.
      * destruct (loop_receive env m r order sock) as [m' es] eqn:LR. destruct (loop_receive_spec _ _ _ _ _ _ _ LR) as (_ & _ & _ & A & _). cbn. congruence.
      * destruct (mm_queue m) as [|[msg rel] q]; auto. destruct (send_udp_message env m msg rel sock). auto.
  - destruct o as [msg rel now| |o|r order sock]; cbn [mstep]; auto.
    + unfold stop_monitors. destruct (mm_eq m); auto.
    + unfold loop_step. destruct (mm_pc m); auto.
      * destruct (loop_receive env m r order sock) as [m' es] eqn:LR. destruct (loop_receive_spec _ _ _ _ _ _ _ LR) as (_ & _ & _ & _ & A & _). cbn. congruence.
      * destruct (mm_queue m) as [|[msg rel] q]; auto. destruct (send_udp_message env m msg rel sock). auto.
  - destruct o as [msg rel now| |o|r order sock]; cbn [mstep fst].
    + exact L.
    + unfold stop_monitors. destruct (mm_eq m); exact L.
    + cbn. pose proof (step_hosts env (mm_disp m) o R). lia.
    + unfold loop_step. destruct (mm_pc m); auto.
      * unfold loop_receive. destruct (receive_packet m r) as [[d buf] size] eqn:RP.
        pose proof (receive_packet_reach env m r d buf size R RP) as R1.
        assert (2 <= List.length (s_hosts d))%nat as L1.
        { destruct r; cbn in RP; injection RP as <- _ _; cbn; rewrite ?upd_length; exact L. }
        pose proof (step_hosts env d (Receive (mm_sender m) buf size) R1) as L2. cbn [step] in L2.
        pose proof (receive_reach env d (mm_sender m) buf size R1) as R2.
        destruct (receive_check env d (mm_sender m) buf size) as [d1 ro]. cbn in R2, L2.
        destruct (r_res ro); [|cbn; lia]. destruct (has_unacked d1); [|cbn; lia].
        pose proof (step_hosts env d1 (ProcessAcks order sock) R2) as L3. cbn [step] in L3.
        destruct (process_acks env d1 order sock) as [d2 o]. cbn in L3. destruct (o_res o); cbn; lia.
      * destruct (mm_queue m) as [|[msg rel] q]; [exact L|].
        pose proof (step_hosts env (mm_disp m) (Send msg (mm_host m) (if rel then Reliable 0 else Plain) sock) R) as L1. cbn [step] in L1.
        unfold send_udp_message. destruct (send_message _ _ _ _ _ _) as [d o]. cbn in *. lia.
Qed.
Lemma m_good_run env ops : forall m, m_good env m -> m_good env (fst (mrun env m ops)).
Proof. induction ops as [|o ops IH]; intros m G; [exact G|]. rewrite mrun_cons. apply IH, m_good_step, G. Qed.
Lemma m_reachable_good env m : m_reachable env m -> m_good env m.
Proof.
  intros (host & eq & ops & ->). apply m_good_run. constructor; [apply mm_init_reach|reflexivity|reflexivity|cbn; lia].
Qed.
Lemma m_reachable_step env m o : m_reachable env m -> m_reachable env (fst (mstep env m o)).
Proof. intros (host & eq & ops & ->). exists host, eq, (ops ++ [o]). rewrite mrun_app. cbn. now destruct (mstep _ _ o). Qed.

Lemma sends_reliably env st msg h md sock st' o x : reachable env st -> send_message env st msg h md sock = (st', o) ->
  In x (o_sends o) -> sent_reliably x = is_reliable md /\ host_address st h = Some (at_addr x) /\
    exists m, nth_error (s_msgs st) msg = Some m /\ m_name (at_msg x) = m_name m /\ m_blocks (at_msg x) = m_blocks m.
Proof.
  intros R H X. destruct (reachable_good _ _ R) as [I _]. destruct (send_total env st msg h) as [T|(a & m & NH & NM & HO & OE)].
  - destruct (send_nothing env st msg h md sock T) as (o' & E & S & _). rewrite E in H. injection H as _ <-. rewrite S in X. contradiction.
  - destruct (send_detail env st msg h md sock a m I NH NM HO OE)
      as (st2 & y & c' & E & AA & _ & N & B & ID & FL & _).
    rewrite E in H. injection H as _ <-. cbn in X. destruct X as [<-|[]]. unfold sent_reliably. rewrite FL, reliable_flag, AA.
    split; [reflexivity|]. split; [exact NH|]. eauto.
Qed.
Lemma step_send env m o msg rel out : In (ESend msg rel out) (snd (mstep env m o)) ->
  exists r order sock m', o = MLoop r order sock /\ mm_pc m = PDrain /\ mstep env m o = (m', [ESend msg rel out]) /\
    mm_queue m = (msg, rel) :: mm_queue m' /\
    send_message env (mm_disp m) msg (mm_host m) (if rel then Reliable 0 else Plain) sock = (mm_disp m', out).
Proof.
  destruct o as [msg' rel' now| |o|r order sock]; cbn [mstep snd]; try contradiction.
  unfold loop_step. destruct (mm_pc m) eqn:P; cbn [snd]; try contradiction.
  - destruct (loop_receive env m r order sock) as [m' es] eqn:L.
    destruct (loop_receive_spec _ _ _ _ _ _ _ L) as (_ & _ & _ & _ & _ & ro & acks & -> & A & _). cbn [snd].
    intros [H|H]; [discriminate|]. destruct A as [->|(o & ->)]; [contradiction|]. destruct H as [H|[]]. discriminate.
  - destruct (mm_queue m) as [|[msg' rel'] q]; cbn [snd]; [contradiction|]. unfold send_udp_message.
    destruct (send_message _ _ _ _ _ _) as [d o] eqn:E. cbn [snd]. intros [H|[]]. injection H as -> -> ->.
    eexists r, order, sock, _. split; [reflexivity|]. split; [reflexivity|]. split; [reflexivity|]. cbn. auto.
Qed.
Lemma run_send env ops : forall m msg rel out, m_reachable env m -> In (ESend msg rel out) (snd (mrun env m ops)) ->
  Forall (fun x => sent_reliably x = rel) (o_sends out).
Proof.
  induction ops as [|o ops IH]; intros m msg rel out R H; [contradiction|].
  rewrite mrun_cons in H. cbn [snd] in H. apply in_app_or in H as [H|H].
  - destruct (step_send _ _ _ _ _ _ H) as (r & order & sock & m' & _ & _ & _ & _ & E). apply Forall_forall. intros x X.
    destruct (sends_reliably _ _ _ _ _ _ _ _ x (m_reachable_disp _ _ R) E X) as (-> & _). now destruct rel.
  - eapply IH; [|exact H]. now apply m_reachable_step.
Qed.

(** *** receiving *)
Lemma loop_received env m a data order sock m' es : m_reachable env m -> mm_pc m = PRecv -> data <> [] ->
  mstep env m (MLoop (RData a data) order sock) = (m', es) ->
  exists d d1 ro, reachable env d /\ host_address d 1 = Some a /\ s_handler d = s_handler (mm_disp m) /\ s_circuits d = s_circuits (mm_disp m) /\
    receive_check env d 1 data (zlen data) = (d1, ro) /\ reachable env d1 /\ hd_error es = Some (ERecv ro).
Proof.
  intros R P N. destruct (m_reachable_good _ _ R) as [RD H S L]. cbn [mstep]. unfold loop_step. rewrite P. unfold loop_receive. cbn [receive_packet].
  rewrite S. set (d := set_hosts _ _). intros E.
  assert (reachable env d) as R1 by exact (reachable_step env (mm_disp m) (SetHost 1 a) RD).
  assert (host_address d 1 = Some a) as HA.
  { unfold host_address, d. cbn [s_hosts set_hosts].
    destruct (nth_error (s_hosts (mm_disp m)) 1) as [y|] eqn:NE; [exact (nth_update 1 a _ y NE)|].
    apply nth_error_None in NE. lia. }
  pose proof (receive_reach env d 1 data (zlen data) R1) as R2.
  destruct (receive_check env d 1 data (zlen data)) as [d1 ro] eqn:RC. exists d, d1, ro. repeat split; auto.
  destruct (r_res ro); [destruct (has_unacked d1); [destruct (process_acks env d1 order sock) as [d2 o]; destruct (o_res o)|]|];
    injection E as <- <-; reflexivity.
Qed.
