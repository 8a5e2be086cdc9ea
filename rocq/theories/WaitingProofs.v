From Coq Require Import Reals Lra.
From Flocq Require Import Core BinarySingleNaN Sterbenz.
From Verif Require Import Lib SpecFloats FloatProofs FloatRound ObjectProofs Waiting SpecWaiting.
Open Scope Z_scope.

Lemma rv_fin s m e : rv (S754_finite s m e) = (IZR (if s then Z.neg m else Z.pos m) * bpow radix2 e)%R.
Proof. destruct s; reflexivity. Qed.

Lemma lt_int f n : finite_float f -> float_lt_int f n = true <-> (rv f < IZR n)%R.
Proof.
  destruct f as [s|s| |s m e]; try easy; intros _.
  - cbn. rewrite Z.ltb_lt. unfold rv, SF2R. split; [apply IZR_lt|apply lt_IZR].
  - rewrite rv_fin. cbn [float_lt_int]. set (a := if s then Z.neg m else Z.pos m).
    destruct (Z.ltb_spec e 0) as [E|E]; rewrite Z.ltb_lt.
    + assert (0 < bpow radix2 (- e))%R as P by apply bpow_gt_0.
      assert (bpow radix2 (- e) = IZR (2 ^ (- e))) as Q by (rewrite <- (IZR_Zpower radix2) by lia; reflexivity).
      assert (bpow radix2 e * bpow radix2 (- e) = 1)%R as I.
      { rewrite <- bpow_plus, Z.add_opp_diag_r. reflexivity. }
      split; intros H.
      * apply (Rmult_lt_reg_r _ _ _ P). rewrite Rmult_assoc, I, Rmult_1_r, Q, <- mult_IZR. now apply IZR_lt.
      * apply lt_IZR. rewrite mult_IZR, <- Q. apply (Rmult_lt_compat_r _ _ _ P) in H.
        rewrite Rmult_assoc, I, Rmult_1_r in H. exact H.
    + assert (bpow radix2 e = IZR (2 ^ e)) as Q by (rewrite <- (IZR_Zpower radix2) by lia; reflexivity).
      rewrite Q, <- mult_IZR. split; [apply IZR_lt|apply lt_IZR].
Qed.

Lemma fin_format f : valid64 f = true -> finite_float f -> generic_format radix2 (FLT_exp (-1074) 53) (rv f).
Proof.
  intros V F. destruct f as [s|s| |s m e]; try easy.
  - apply generic_format_0.
  - rewrite valid64_binary in V.
    pose proof (generic_format_B2R 53 1024 (SF2B _ V)) as G. rewrite B2R_SF2B in G. exact G.
Qed.

Lemma fin_abs f : valid64 f = true -> finite_float f -> (Rabs (rv f) < bpow radix2 1024)%R.
Proof.
  intros V F. rewrite valid64_binary in V. 
  pose proof (abs_B2R_lt_emax 53 1024 (SF2B _ V)) as G. rewrite B2R_SF2B in G. exact G.
Qed.

(** Sterbenz: trusted clock readings subtract exactly. *)
Lemma elapsed start now : valid64 start = true -> finite_float start -> (0 <= rv start)%R ->
  clock_ok start now -> finite_float (fsub now start) /\ rv (fsub now start) = (rv now - rv start)%R.
Proof.
  intros Vs Fs P (Vn & Fn & L & U).
  assert (rn64 (rv now - rv start) = rv now - rv start)%R as X.
  { apply round_generic; [apply valid_rnd_N|].
    apply sterbenz; [apply FLT_exp_valid; reflexivity|apply FLT_exp_monotone|now apply fin_format..|lra]. }
  pose proof (fin_fin64 _ Vn Fn) as (Vn' & _).
  destruct (fin64_b now (fin_fin64 _ Vn Fn)) as (bn & En & Bn & Rn).
  destruct (fin64_b start (fin_fin64 _ Vs Fs)) as (bs & Es & Bs & Rs).
  pose proof (Bminus_correct 53 1024 _ _ mode_NE bn bs Bn Bs) as C.
  pose proof (fin_abs _ Vn Fn) as A. rewrite Rabs_pos_eq in A by lra.
  rewrite Rn, Rs in C. change (round radix2 (SpecFloat.fexp 53 1024) (round_mode mode_NE)) with rn64 in C.
  rewrite X in C. rewrite Rlt_bool_true in C by (rewrite Rabs_pos_eq by lra; lra).
  destruct C as (C1 & C2 & _). rewrite <- En, <- Es, sfsub_b.
  split.
  - destruct (Bminus mode_NE bn bs); try easy; discriminate.
  - rewrite rv_b, C1, En, Es. reflexivity.
Qed.

Lemma elapsed_lt d start now : valid64 start = true -> finite_float start -> (0 <= rv start)%R ->
  clock_ok start now -> float_lt_int (fsub now start) d = true <-> too_soon d start now.
Proof.
  intros V F P C. destruct (elapsed _ _ V F P C) as (E & R). rewrite lt_int by exact E. rewrite R. reflexivity.
Qed.

(** ** The loop *)
Lemma wait_loop_stopped d start now ticks : wait_loop d start now false ticks = (O, Some (Ok true)).
Proof. now destruct ticks. Qed.

Lemma loop_says start d ticks now : good_clock start ticks -> 
  float_lt_int (fsub now start) d = true ->
  (Forall (quiet d start) ticks /\ wait_loop d start now true ticks = (List.length ticks, None)) \/
  (exists before t rest, ticks = before ++ t :: rest /\ Forall (quiet d start) before /\ ~ quiet d start t /\
     wait_loop d start now true ticks = (S (List.length before), Some (pass_ends t))).
Proof.
  intros (V & F & P & G). revert now. induction ticks as [|t ticks IH]; intros now L.
  - left. split; [constructor|]. cbn. now rewrite L.
  - assert (forall t0 now0, In t0 ticks -> t_pass t0 = Slept now0 -> clock_ok start now0) as G'
      by (intros; eapply G; [right|]; eassumption).
    specialize (IH G'). cbn [wait_loop]. rewrite L. cbn [andb].
    destruct t as [p stop]; cbn [t_pass t_stop] in *.
    assert (forall r n, (~ quiet d start {| t_pass := p; t_stop := stop |}) ->
              r = pass_ends {| t_pass := p; t_stop := stop |} -> n = 1%nat ->
              exists before t rest, {| t_pass := p; t_stop := stop |} :: ticks = before ++ t :: rest /\
                Forall (quiet d start) before /\ ~ quiet d start t /\
                (n, Some r) = (S (List.length before), Some (pass_ends t))) as HERE.
    { intros r n NQ -> ->. exists [], {| t_pass := p; t_stop := stop |}, ticks. repeat split; auto. }
    assert (forall now', quiet d start {| t_pass := p; t_stop := stop |} ->
      float_lt_int (fsub now' start) d = true ->
      (Forall (quiet d start) ({| t_pass := p; t_stop := stop |} :: ticks) /\
       (let '(n, r) := wait_loop d start now' true ticks in (S n, r)) = (S (List.length ticks), None)) \/
      (exists before t rest, {| t_pass := p; t_stop := stop |} :: ticks = before ++ t :: rest /\
         Forall (quiet d start) before /\ ~ quiet d start t /\
         (let '(n, r) := wait_loop d start now' true ticks in (S n, r)) = (S (List.length before), Some (pass_ends t)))) as ON.
    { intros now' Q L'. destruct (IH now' L') as [(A & B)|(b & t & rest & -> & A & N & B)]; rewrite B.
      - left. split; [now constructor|reflexivity].
      - right. exists ({| t_pass := p; t_stop := stop |} :: b), t, rest. repeat split; auto. }
    destruct p as [now'|e].
    + destruct stop; cbn [negb].
      * right. rewrite wait_loop_stopped. apply HERE; auto. intros (X & _). discriminate.
      * pose proof (elapsed_lt d start now' V F P (G _ _ (or_introl eq_refl) eq_refl)) as E.
        destruct (float_lt_int (fsub now' start) d) eqn:L'.
        -- apply ON; auto. split; [reflexivity|]. now apply E.
        -- right. replace (wait_loop d start now' true ticks) with (O, Some (@Ok bool true))
             by (destruct ticks; cbn; now rewrite L').
           apply HERE; auto. intros (_ & X). apply E in X. discriminate.
    + destruct (match e with AssertionErr => true | _ => false end) eqn:AE.
      * destruct e; try discriminate. destruct stop; cbn [negb].
        -- right. rewrite wait_loop_stopped. apply HERE; auto. intros (X & _). discriminate.
        -- apply ON; auto. now split.
      * right. 
        assert (match e with
          | AssertionErr => let '(n, r) := wait_loop d start now (negb stop) ticks in (S n, r)
          | _ => (1%nat, Some (Err e)) end = (1%nat, Some (@Err bool e))) as -> by (destruct e; try reflexivity; discriminate).
        apply HERE; auto.
        -- intros (_ & X). cbn in X. subst e. discriminate.
        -- cbn. destruct e; try reflexivity; discriminate.
Qed.

Lemma fsub_start start : valid64 start = true -> finite_float start -> fsub start start = S754_zero false.
Proof. apply fsub_self. Qed.

Lemma run_nonpos d enabled start ticks : valid64 start = true -> finite_float start -> d <= 0 ->
  wait_run d enabled start ticks = (O, Some (Ok true)).
Proof.
  intros V F D. unfold wait_run. assert (float_lt_int (fsub start start) d = false) as L.
  { rewrite fsub_start by assumption. cbn. apply Z.ltb_ge. lia. }
  destruct ticks; cbn; now rewrite L.
Qed.

Lemma run_says d enabled start ticks : good_clock start ticks -> 0 < d ->
  (Forall (quiet d start) ticks /\ wait_run d enabled start ticks = (List.length ticks, None)) \/
  (exists before t rest, ticks = before ++ t :: rest /\ Forall (quiet d start) before /\ ~ quiet d start t /\
     wait_run d enabled start ticks = (S (List.length before), Some (pass_ends t))).
Proof.
  intros G D. apply loop_says; [exact G|]. destruct G as (V & F & _).
  rewrite fsub_start by assumption. cbn. apply Z.ltb_lt. lia.
Qed.

Lemma split_first {A} (P : A -> Prop) l1 x1 r1 l2 x2 r2 : l1 ++ x1 :: r1 = l2 ++ x2 :: r2 ->
  Forall P l1 -> Forall P l2 -> ~ P x1 -> ~ P x2 -> l1 = l2 /\ x1 = x2 /\ r1 = r2.
Proof.
  revert l2. induction l1 as [|a l1 IH]; intros [|b l2] E F1 F2 N1 N2; cbn in E.
  - injection E as <- <-. auto.
  - injection E as -> _. inversion F2. contradiction.
  - injection E as <- _. inversion F1. contradiction.
  - injection E as -> E. inversion F1. inversion F2. subst. destruct (IH _ E) as (-> & -> & ->); auto.
Qed.

Lemma run_ends d enabled start ticks n r : good_clock start ticks -> 0 < d ->
  wait_run d enabled start ticks = (n, Some r) <->
  exists before t rest, ticks = before ++ t :: rest /\ n = S (List.length before) /\
    Forall (quiet d start) before /\ ~ quiet d start t /\ r = pass_ends t.
Proof.
  intros G D. destruct (run_says d enabled start ticks G D) as [(Q & ->)|(b & t & rest & E & Q & N & ->)].
  - split; [discriminate|]. intros (b & t & rest & -> & _ & _ & N & _). exfalso. apply N.
    rewrite Forall_forall in Q. apply Q. apply in_or_app. right. now left.
  - split.
    + intros [= <- <-]. exists b, t, rest. auto.
    + intros (b' & t' & rest' & E' & -> & Q' & N' & ->). rewrite E in E'.
      destruct (split_first _ _ _ _ _ _ _ E' Q Q' N N') as (-> & -> & ->). reflexivity.
Qed.
Lemma run_waits d enabled start ticks n : good_clock start ticks -> 0 < d ->
  wait_run d enabled start ticks = (n, None) <-> Forall (quiet d start) ticks /\ n = List.length ticks.
Proof.
  intros G D. destruct (run_says d enabled start ticks G D) as [(Q & ->)|(b & t & rest & E & Q & N & ->)].
  - split; [now intros [= <-]|now intros (_ & ->)].
  - split; [discriminate|]. intros (F & _). exfalso. apply N. rewrite Forall_forall in F. apply F.
    rewrite E. apply in_or_app. right. now left.
Qed.

(** ** The duration *)
Lemma trunc_int f : finite_float f -> int_of_float f = Ok (Ztrunc (rv f)).
Proof.
  destruct f as [s|s| |s m e]; try easy; intros _.
  - cbn. unfold rv, SF2R. now rewrite Ztrunc_IZR.
  - cbn [int_of_float]. f_equal.
    assert (forall a, 0 <= a -> (if e <? 0 then a / 2 ^ (- e) else a * 2 ^ e) = Ztrunc (IZR a * bpow radix2 e)) as K.
    { intros a A. assert (0 <= IZR a * bpow radix2 e)%R as NN.
      { apply Rmult_le_pos; [now apply IZR_le|apply bpow_ge_0]. }
      rewrite Ztrunc_floor by exact NN. destruct (Z.ltb_spec e 0) as [E|E].
      - assert (bpow radix2 e = / IZR (2 ^ (- e)))%R as ->.
        { replace e with (- (- e)) at 1 by lia. rewrite bpow_opp. f_equal. rewrite <- (IZR_Zpower radix2) by lia. reflexivity. }
        rewrite <- (Zfloor_div a (2 ^ (- e))); [reflexivity|]. pose proof (Z.pow_pos_nonneg 2 (- e)). lia.
      - rewrite <- (IZR_Zpower radix2), <- mult_IZR, Zfloor_IZR by lia. reflexivity. }
    rewrite rv_fin. destruct s.
    + change (Z.neg m) with (- Z.pos m). rewrite opp_IZR, Ropp_mult_distr_l_reverse, Ztrunc_opp, <- K by lia. reflexivity.
    + rewrite <- K by lia. reflexivity.
Qed.

(** ** The watcher *)
Lemma monitor_from running interval times : forall i,
  (exists k, (k < times)%nat /\ running (i + k)%nat = false /\ (forall j, (j < k)%nat -> running (i + j)%nat = true) /\
     stop_monitor_from running interval i times = WStopped (interval * Z.of_nat (S (i + k)))) \/
  ((forall j, (j < times)%nat -> running (i + j)%nat = true) /\
     stop_monitor_from running interval i times = WFailed (interval * Z.of_nat (i + times))).
Proof.
  induction times as [|times IH]; intros i; cbn [stop_monitor_from].
  - right. rewrite Nat.add_0_r. split; [lia|reflexivity].
  - destruct (running i) eqn:R.
    + assert (forall j, (j <= times)%nat -> (i + S j = S i + j)%nat) as S1 by lia.
      destruct (IH (S i)) as [(k & K & F & B & ->)|(B & ->)].
      * left. exists (S k). rewrite S1 by lia. repeat split; auto; [lia|].
        intros [|j] J; [now rewrite Nat.add_0_r|]. rewrite S1 by lia. apply B. lia.
      * right. rewrite S1 by lia. split; [|reflexivity].
        intros [|j] J; [now rewrite Nat.add_0_r|]. rewrite S1 by lia. apply B. lia.
    + left. exists O. rewrite Nat.add_0_r. repeat split; auto; lia.
Qed.
Lemma monitor running interval times :
  (forall s, stop_monitor running interval times = WStopped s ->
     exists k, (k < times)%nat /\ running k = false /\ (forall j, (j < k)%nat -> running j = true) /\
       s = interval * Z.of_nat (S k)) /\
  (forall s, stop_monitor running interval times = WFailed s ->
     (forall j, (j < times)%nat -> running j = true) /\ s = interval * Z.of_nat times).
Proof.
  unfold stop_monitor. destruct (monitor_from running interval times 0) as [(k & K & F & B & ->)|(B & ->)]; split; intros s [= <-].
  - exists k. auto.
  - auto.
Qed.
