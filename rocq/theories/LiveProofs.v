(** Proofs for C78. *)
From Verif Require Import Lib SpecEvents EventsProofs SpecLive.

Lemma picked_refl {A} (l : list A) : picked l l.
Proof. induction l; constructor; auto. Qed.
Lemma picked_nil {A} (l : list A) : picked [] l.
Proof. induction l; constructor; auto. Qed.
Lemma picked_trans {A} (b c : list A) : picked b c -> forall a, picked a b -> picked a c.
Proof.
  induction 1 as [|x b c H IH|x b c H IH]; intros a Ha; [exact Ha| |constructor; auto].
  inversion Ha; subst; constructor; auto.
Qed.
Lemma picked_skipn {A} (a l : list A) : picked a l -> forall n, picked (skipn n a) (skipn n l).
Proof.
  induction 1 as [|x a l H IH|x a l H IH]; intros n.
  - rewrite skipn_nil. constructor.
  - destruct n; cbn; [now constructor|apply IH].
  - destruct n as [|n]; cbn [skipn]; [now constructor|].
    refine (picked_trans (skipn (S n) l) (skipn n l) _ _ (IH (S n))).
    clear. revert n. induction l as [|z l IHl]; intros n; [rewrite !skipn_nil; constructor|].
    destruct n; cbn; [constructor; apply picked_refl|apply IHl].
Qed.
Lemma picked_length {A} (a l : list A) : picked a l -> (List.length a <= List.length l)%nat.
Proof. induction 1; cbn; lia. Qed.
Lemma drop_one_picked s l : picked (drop_one s l) l.
Proof. induction l as [|a l IH]; cbn; [constructor|]. destruct (sub_dec a s); constructor; [apply picked_refl|exact IH]. Qed.

(** What a list of operations does to the subscriptions under [name]. *)
Lemma subs_step r o name : subs_of (fst (hstep r o)) name =
  if String.eqb (about o) name then
    match o with HRegister _ => subs_of r name | HSubscribe _ s => subs_of r name ++ [s] | HUnsubscribe _ s => drop_one s (subs_of r name) end
  else subs_of r name.
Proof. unfold subs_of at 1. rewrite hstep_get. change known_subs with subs_of. destruct (String.eqb (about o) name); reflexivity. Qed.
Lemma hrun_cons r o ops : hrun r (o :: ops) = hrun (fst (hstep r o)) ops.
Proof. reflexivity. Qed.
Lemma run_no_joins name ops : ~ joins name ops -> forall r, picked (subs_of (hrun r ops) name) (subs_of r name).
Proof.
  induction ops as [|o ops IH]; intros N r; [apply picked_refl|]. rewrite hrun_cons.
  eapply picked_trans; [|apply IH; intros [s H]; apply N; exists s; now right].
  rewrite subs_step. destruct (String.eqb_spec (about o) name) as [E|]; [|apply picked_refl].
  destruct o as [n|n s|n s]; cbn in E; subst n; [apply picked_refl|exfalso; apply N; exists s; now left|apply drop_one_picked].
Qed.
Lemma run_no_leaves name ops : ~ leaves name ops -> forall r, exists new, subs_of (hrun r ops) name = subs_of r name ++ new /\ (joins name ops -> new <> []).
Proof.
  induction ops as [|o ops IH]; intros N r.
  - exists []. rewrite app_nil_r. split; [reflexivity|]. intros [s []].
  - destruct (IH ltac:(intros [s H]; apply N; exists s; now right) (fst (hstep r o))) as (new & E & J). rewrite hrun_cons, E, subs_step.
    destruct (String.eqb_spec (about o) name) as [E'|E'].
    + destruct o as [n|n s|n s]; cbn in E'; subst n.
      * exists new. split; [reflexivity|]. intros [s [H|H]]; [discriminate|]. apply J. now exists s.
      * exists ([s] ++ new). split; [now rewrite <- app_assoc|]. intros _. discriminate.
      * exfalso. apply N. exists s. now left.
    + exists new. split; [reflexivity|]. intros [s [H|H]]; [subst o; cbn in E'; congruence|]. apply J. now exists s.
Qed.
Lemma hrun_known name ops : forall r, sget name r <> None -> sget name (hrun r ops) <> None.
Proof.
  induction ops as [|o ops IH]; intros r H; [exact H|]. rewrite hrun_cons. apply IH. rewrite hstep_get.
  destruct (String.eqb (about o) name); [discriminate|exact H].
Qed.
Lemma sget_subs r name : sget name r <> None -> sget name r = Some (subs_of r name).
Proof. unfold subs_of. destruct (sget name r); congruence. Qed.

(** One unfolding of the loop, in terms of [subs_of]. *)
Lemma live_step cb m name fuel i r : notify_live cb m name (S fuel) i r =
  match nth_error (subs_of r name) i with
  | None => Some ([], r, None)
  | Some s => match snd (cb s m r) with
              | Some e => Some ([s], hrun r (fst (cb s m r)), Some e)
              | None => match notify_live cb m name fuel (S i) (hrun r (fst (cb s m r))) with
                        | None => None | Some (calls, r'', e) => Some (s :: calls, r'', e) end
              end
  end.
Proof.
  cbn [notify_live]. unfold subs_of. destruct (sget name r) as [l|]; [|now destruct i].
  destruct (nth_error l i) as [s|]; [|reflexivity]. now destruct (cb s m r) as [ops [e|]].
Qed.
Lemma live_more cb m name : forall f g i r x, (f <= g)%nat -> notify_live cb m name f i r = Some x -> notify_live cb m name g i r = Some x.
Proof.
  induction f as [|f IH]; intros g i r x H E; [discriminate|]. destruct g as [|g]; [lia|]. rewrite live_step in *.
  destruct (nth_error (subs_of r name) i) as [s|]; [|exact E]. destruct (snd (cb s m r)); [exact E|].
  destruct (notify_live cb m name f (S i) _) as [[[c r'] e]|] eqn:N; [|discriminate].
  rewrite (IH g _ _ _ ltac:(lia) N). exact E.
Qed.
Lemma handle_live_eq cb fuel r m : handle_live cb fuel r m =
  match subs_of r (m_name m) with
  | [] => Some ([], r, None)
  | _ => match notify_live cb m (m_name m) fuel 0 r with
         | None => None | Some (c, r', e) => Some (c, r', swallow_keyerror e) end
  end.
Proof.
  unfold handle_live, subs_of. destruct (sget (m_name m) r) as [[|s l]|]; try reflexivity.
Qed.
Lemma delivers_fun cb r m c1 r1 e1 c2 r2 e2 : delivers cb r m c1 r1 e1 -> delivers cb r m c2 r2 e2 -> c1 = c2 /\ r1 = r2 /\ e1 = e2.
Proof.
  intros [f F] [g G]. rewrite handle_live_eq in F, G. destruct (subs_of r (m_name m)).
  { rewrite F in G. injection G as -> -> ->. auto. }
  destruct (notify_live cb m (m_name m) f 0 r) as [[[c r'] e]|] eqn:F'; [|discriminate].
  destruct (notify_live cb m (m_name m) g 0 r) as [[[c' r''] e']|] eqn:G'; [|discriminate].
  apply (live_more cb m _ f (max f g)) in F'; [|lia]. apply (live_more cb m _ g (max f g)) in G'; [|lia].
  rewrite F' in G'. injection G' as -> -> ->. rewrite F in G. injection G as -> -> ->. auto.
Qed.
Lemma delivers_not_endless cb r m c r' e : delivers cb r m c r' e -> ~ endless cb r m.
Proof. intros [f F] H. rewrite H in F. discriminate. Qed.

(** Nobody joins: at most those subscribed at the start, in their order. *)
Lemma live_no_joins cb m name : (forall s r, ~ joins name (fst (cb s m r))) -> forall n i r,
  (List.length (subs_of r name) <= i + n)%nat ->
  exists calls r' e, notify_live cb m name (S n) i r = Some (calls, r', e) /\ picked calls (skipn i (subs_of r name)).
Proof.
  intros J. induction n as [|n IH]; intros i r L; rewrite live_step.
  - rewrite (proj2 (nth_error_None _ _)) by lia. do 3 eexists. split; [reflexivity|]. apply picked_nil.
  - destruct (nth_error (subs_of r name) i) as [s|] eqn:E; [|do 3 eexists; split; [reflexivity|apply picked_nil]].
    assert (Sk : skipn i (subs_of r name) = s :: skipn (S i) (subs_of r name)).
    { clear - E. revert i E. induction (subs_of r name) as [|a l IHl]; intros [|i] E; try discriminate; cbn in *; [congruence|]. now apply IHl. }
    rewrite Sk. destruct (snd (cb s m r)) as [e|]; [do 3 eexists; split; [reflexivity|constructor; apply picked_nil]|].
    pose proof (run_no_joins name _ (J s r) r) as P.
    destruct (IH (S i) (hrun r (fst (cb s m r)))) as (calls & r' & e & -> & Q); [apply picked_length in P; lia|].
    do 3 eexists. split; [reflexivity|]. constructor. eapply picked_trans; [|exact Q]. now apply picked_skipn.
Qed.
Lemma no_joins cb r m : nobody_joins cb m -> exists calls r' e, delivers cb r m calls r' e /\ picked calls (subs_of r (m_name m)).
Proof.
  intros J. destruct (live_no_joins cb m (m_name m) J (List.length (subs_of r (m_name m))) 0 r ltac:(lia)) as (calls & r' & e & E & P).
  destruct (subs_of r (m_name m)) as [|s l] eqn:Es.
  - exists [], r, None. split; [exists 0%nat; now rewrite handle_live_eq, Es|constructor].
  - exists calls, r', (swallow_keyerror e). split; [|exact P]. eexists. rewrite handle_live_eq, Es, E. reflexivity.
Qed.
(** Nobody leaves: the calls are the final subscriptions, up to the first exception. *)
Lemma live_no_leaves cb m name : (forall s r, ~ leaves name (fst (cb s m r))) -> forall n i r calls r' e,
  notify_live cb m name n i r = Some (calls, r', e) -> (i <= List.length (subs_of r name))%nat ->
  exists new rest, subs_of r' name = subs_of r name ++ new /\ skipn i (subs_of r' name) = calls ++ rest /\ (e = None -> rest = []).
Proof.
  intros J. induction n as [|n IH]; intros i r calls r' e E L; [discriminate|]. rewrite live_step in E.
  destruct (nth_error (subs_of r name) i) as [s|] eqn:En.
  2:{ injection E as <- <- <-. exists [], []. rewrite app_nil_r. split; [reflexivity|]. apply nth_error_None in En. rewrite skipn_all2 by lia. auto. }
  assert (Sk : forall tl, skipn i (subs_of r name ++ tl) = s :: skipn (S i) (subs_of r name ++ tl)).
  { clear - En. revert i En. induction (subs_of r name) as [|a l IHl]; intros [|i] En tl; try discriminate; cbn in *; [congruence|]. now apply IHl. }
  assert (L' : (S i <= List.length (subs_of r name))%nat) by (apply nth_error_Some; congruence).
  destruct (run_no_leaves name _ (J s r) r) as (new & Er & _).
  destruct (snd (cb s m r)) as [e0|].
  { injection E as <- <- <-. exists new, (skipn (S i) (subs_of r name ++ new)). rewrite Er, Sk. split; [reflexivity|]. split; [reflexivity|discriminate]. }
  destruct (notify_live cb m name n (S i) _) as [[[c r1] e1]|] eqn:N; [|discriminate]. injection E as <- <- <-.
  destruct (IH _ _ _ _ _ N) as (new' & rest & E1 & E2 & E3); [rewrite Er, app_length; lia|].
  exists (new ++ new'), rest. rewrite E1, Er, <- app_assoc. split; [reflexivity|]. split; [|exact E3].
  rewrite Sk. rewrite E1, Er, <- app_assoc in E2. rewrite E2. reflexivity.
Qed.
Lemma no_leaves cb r m calls r' e : nobody_leaves cb m -> nobody_raises cb m -> delivers cb r m calls r' e ->
  e = None /\ calls = subs_of r' (m_name m) /\ exists new, calls = subs_of r (m_name m) ++ new.
Proof.
  intros J R [f F]. rewrite handle_live_eq in F. destruct (subs_of r (m_name m)) as [|s l] eqn:Es.
  { injection F as <- <- <-. rewrite Es. split; [reflexivity|]. split; [reflexivity|]. now exists []. }
  destruct (notify_live cb m (m_name m) f 0 r) as [[[c r1] e1]|] eqn:N; [|discriminate]. injection F as <- <- <-.
  destruct (live_no_leaves cb m _ J _ _ _ _ _ _ N ltac:(lia)) as (new & rest & E1 & E2 & E3). cbn [skipn] in E2.
  assert (e1 = None).
  { clear - R N. revert r c r1 e1 N. generalize 0%nat as i. induction f as [|f IH]; intros i r c r1 e1 N; [discriminate|]. rewrite live_step in N.
    destruct (nth_error _ i) as [s|]; [|congruence]. rewrite (R s r) in N.
    destruct (notify_live cb m (m_name m) f (S i) _) as [[[c' r'] e']|] eqn:N'; [|discriminate]. injection N as _ _ <-. eapply IH; eauto. }
  subst e1. rewrite (E3 eq_refl), app_nil_r in E2. split; [reflexivity|]. split; [congruence|]. exists new. congruence.
Qed.
Lemma no_leaves_raising cb r m calls r' e : nobody_leaves cb m -> delivers cb r m calls r' e ->
  exists rest, subs_of r' (m_name m) = calls ++ rest.
Proof.
  intros J [f F]. rewrite handle_live_eq in F. destruct (subs_of r (m_name m)) as [|s l] eqn:Es.
  { injection F as <- <- <-. rewrite Es. now exists []. }
  destruct (notify_live cb m (m_name m) f 0 r) as [[[c r1] e1]|] eqn:N; [|discriminate]. injection F as <- <- <-.
  destruct (live_no_leaves cb m _ J _ _ _ _ _ _ N ltac:(lia)) as (new & rest & E1 & E2 & E3). cbn [skipn] in E2. eauto.
Qed.
(** Nobody touches the subscriptions: exactly those at the start. *)
Lemma bystanders cb r m : nobody_joins cb m -> nobody_leaves cb m -> nobody_raises cb m ->
  exists r', delivers cb r m (subs_of r (m_name m)) r' None /\ subs_of r' (m_name m) = subs_of r (m_name m).
Proof.
  intros J L R. destruct (no_joins cb r m J) as (calls & r' & e & D & P).
  destruct (no_leaves cb r m calls r' e L R D) as (-> & E & new & E').
  assert (new = []) by (apply picked_length in P; rewrite E', app_length in P; destruct new; [reflexivity|cbn in P; lia]).
  subst new. rewrite app_nil_r in E'. rewrite E' in *. exists r'. split; [exact D|congruence].
Qed.
(** Everybody who is called brings a new subscriber: handle never returns. *)
Lemma live_endless cb m name : (forall s r, ~ leaves name (fst (cb s m r)) /\ joins name (fst (cb s m r)) /\ snd (cb s m r) = None) ->
  forall n i r, (i < List.length (subs_of r name))%nat -> notify_live cb m name n i r = None.
Proof.
  intros H. induction n as [|n IH]; intros i r L; [reflexivity|]. rewrite live_step.
  destruct (nth_error (subs_of r name) i) as [s|] eqn:E; [|apply nth_error_None in E; lia].
  destruct (H s r) as (H1 & H2 & H3). rewrite H3. destruct (run_no_leaves name _ H1 r) as (new & Er & J). specialize (J H2).
  rewrite IH; [reflexivity|]. rewrite Er, app_length. destruct new; [congruence|]. cbn. lia.
Qed.
Lemma breeding cb r m : nobody_leaves cb m -> nobody_raises cb m -> (forall s r, joins (m_name m) (fst (cb s m r))) ->
  subs_of r (m_name m) <> [] -> endless cb r m.
Proof.
  intros L R J N f. rewrite handle_live_eq. destruct (subs_of r (m_name m)) as [|s l] eqn:E; [congruence|].
  rewrite (live_endless cb m (m_name m)); [reflexivity| |rewrite E; cbn; lia]. intros s0 r0. repeat split; [apply L|apply J|apply R].
Qed.
(** KeyErrors never escape; other exceptions are those of the last one called. *)
Lemma live_exn cb m name : forall n i r calls r' e, notify_live cb m name n i r = Some (calls, r', Some e) ->
  exists before s r0, calls = before ++ [s] /\ snd (cb s m r0) = Some e.
Proof.
  induction n as [|n IH]; intros i r calls r' e E; [discriminate|]. rewrite live_step in E.
  destruct (nth_error _ i) as [s|]; [|discriminate]. destruct (snd (cb s m r)) as [e0|] eqn:C.
  - injection E as <- _ <-. exists [], s, r. auto.
  - destruct (notify_live cb m name n (S i) _) as [[[c r1] e1]|] eqn:N; [|discriminate]. injection E as <- _ ->.
    destruct (IH _ _ _ _ _ N) as (b & s' & r0 & -> & C'). exists (s :: b), s', r0. auto.
Qed.
Lemma exn_escapes cb r m calls r' e : delivers cb r m calls r' (Some e) ->
  e <> KeyErr /\ exists before s r0, calls = before ++ [s] /\ snd (cb s m r0) = Some e.
Proof.
  intros [f F]. rewrite handle_live_eq in F. destruct (subs_of r (m_name m)); [discriminate|].
  destruct (notify_live cb m (m_name m) f 0 r) as [[[c r1] [e1|]]|] eqn:N; [|discriminate|discriminate]. cbn in F. injection F as <- <- F.
  destruct (live_exn cb m _ _ _ _ _ _ _ N) as (b & s' & r0 & -> & C').
  assert (e1 = e /\ e <> KeyErr) as [-> Ne] by (destruct e1; cbn in F; try discriminate F; injection F as <-; split; congruence).
  split; [exact Ne|]. eauto.
Qed.
(** With subscribers that do nothing to the handler this is [handle]. *)
Lemma live_plain cb m name : forall l a r, sget name r = Some (a ++ l) -> forall n, (List.length l < n)%nat ->
  notify_live (fun s m _ => ([], cb s m)) m name n (List.length a) r = Some (fst (call_all cb m l), r, snd (call_all cb m l)).
Proof.
  induction l as [|s l IH]; intros a r E n L; (destruct n as [|n]; [cbn in L; lia|]); rewrite live_step; unfold subs_of; rewrite E.
  - rewrite (proj2 (nth_error_None _ _)) by (rewrite app_nil_r; lia). reflexivity.
  - rewrite nth_error_mid. cbn [fst snd call_all]. destruct (cb s m) as [e|]; [reflexivity|]. change (hrun r []) with r.
    replace (S (List.length a)) with (List.length (a ++ [s])) by (rewrite app_length; cbn; lia).
    rewrite (IH (a ++ [s]) r); [|rewrite <- app_assoc; exact E|cbn in L; lia]. destruct (call_all cb m l); reflexivity.
Qed.
Lemma plain_is_handle cb r m : delivers (fun s m _ => ([], cb s m)) r m (fst (handle cb r m)) r (snd (handle cb r m)).
Proof.
  exists (S (List.length (subs_of r (m_name m)))). rewrite handle_live_eq. unfold handle, subs_of. destruct (sget (m_name m) r) as [[|s l]|] eqn:E; try reflexivity.
  rewrite (live_plain cb m (m_name m) (s :: l) [] r E) by lia.
  replace (0 <? subscriber_count (s :: l)) with true.
  - now destruct (call_all cb m (s :: l)).
  - unfold subscriber_count. rewrite zlen_cons. pose proof (zlen_nonneg l). symmetry. apply Z.ltb_lt. lia.
Qed.
