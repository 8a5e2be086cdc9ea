(** A lemma for C106: an exception that ends a coroutine's call ends the coroutine. *)
From Verif Require Import Lib SpecManager ManagerProofs DispatchProofs SpecLiveManager LiveManagerProofs LiveManagerMore MeshFinal.

Lemma ended_one v b x y : call_ended v b x -> call_ended v b y -> x = y.
Proof.
  unfold call_ended. destruct (nth_error _ _) as [[[|r|r]| | | |]|]; try contradiction.
  - congruence.
  - destruct (o_res r); congruence.
  - destruct (r_res r); congruence.
Qed.
Lemma ended_returned v i t c e : call_ended v (mk i t c) (Some e) -> returned (lv_cf v) t = Some (Err e).
Proof.
  unfold call_ended, returned. cbn [bg_thread mk]. destruct (nth_error _ _) as [[[|r|r]| | | |]|]; try contradiction; try discriminate.
  - destruct (o_res r); congruence.
  - destruct (r_res r); congruence.
Qed.
Lemma fine_last v l before b e : Forall (fine v) l -> l = before ++ [b] -> call_ended v b (Some e) -> False.
Proof.
  intros F -> C. apply Forall_app in F as [_ F]. inversion F as [|? ? H]; subst. discriminate (ended_one _ _ _ _ C H).
Qed.
Lemma coroutine_dies env host ops i before b e r order ops' :
  calls_of i (vlife env host ops) = before ++ [b] -> call_ended (vafter env host ops) b (Some e) ->
  nth_error (lv_udp (vafter env host (ops ++ VRun i r order :: ops'))) i = Some (VEnd (Some e)).
Proof.
  intros E C. unfold vafter. rewrite vrun_app. cbn [vrun]. apply vrun_ended.
  change (vrun env (v_init env host) ops) with (vafter env host ops). set (v := vafter env host ops) in *.
  pose proof (vshape_life env host ops i) as H. fold v in H. unfold vshape in H.
  destruct (nth_error (lv_udp v) i) as [p|] eqn:N; [|rewrite H in E; now destruct before].
  destruct H as (its & cur & EE & _ & F & _ & W). rewrite EE in E.
  assert (snd (udp_step v i p r order) = VEnd (Some e)) as U.
  { destruct p as [| | |t|t| |t|[x|]]; cbn [where_at] in W;
      try (subst cur; rewrite app_nil_r in E; destruct (fine_last _ _ _ _ _ F E C)).
    - destruct W as (data & ->). apply app_inj_tail in E as [_ <-]. apply ended_returned in C. cbn. now rewrite C.
    - destruct W as (r0 & data & -> & _). change [r0; mk i t CAcks] with ([r0] ++ [mk i t CAcks]) in E. rewrite app_assoc in E.
      apply app_inj_tail in E as [_ <-]. apply ended_returned in C. cbn. now rewrite C.
    - destruct W as [_ W]. destruct (fine_last v (List.concat its ++ cur) before b e); auto. apply Forall_app. auto.
    - destruct W as (c & msg & rel & -> & _). rewrite app_assoc in E. apply app_inj_tail in E as [_ <-].
      apply ended_returned in C. cbn. now rewrite C.
    - destruct W as (c & y & -> & _ & _ & W). rewrite app_assoc in E. apply app_inj_tail in E as [_ <-].
      pose proof (ended_one _ _ _ _ C W) as X. injection X as ->. reflexivity. }
  cbn [vstep]. rewrite N. destruct (udp_step v i p r order) as [[[xs bs] q] p'] eqn:US. cbn in U. subst p'. cbn [lv_udp].
  apply nth_upd_eq, nth_error_Some. congruence.
Qed.
