(** Proofs about events.py and message_handler.py *)
From Verif Require Import Lib SpecEvents.

Lemma notify_more {D} (cb : behaviour D) data : forall f g i l r,
  (f <= g)%nat -> notify cb data f i l = Some r -> notify cb data g i l = Some r.
Proof.
  induction f as [|f IH]; intros g i l r H E; [discriminate|].
  destruct g as [|g]; [lia|]. cbn in *.
  destruct (nth_error l i) as [s|]; [|exact E].
  destruct (cb (sb_handler s) data (sb_args s) l) as [l' [e|]]; [exact E|].
  destruct (notify cb data f (S i) l') as [[[c l''] r']|] eqn:N; [|discriminate].
  rewrite (IH g _ _ _ ltac:(lia) N). exact E.
Qed.

Lemma notifies_fun {D} (cb : behaviour D) data l c1 l1 e1 c2 l2 e2 :
  notifies cb data l c1 l1 e1 -> notifies cb data l c2 l2 e2 -> c1 = c2 /\ l1 = l2 /\ e1 = e2.
Proof.
  intros [f F] [g G].
  apply (notify_more cb data f (max f g)) in F; [|lia].
  apply (notify_more cb data g (max f g)) in G; [|lia].
  rewrite F in G. injection G as -> -> ->. auto.
Qed.

(** Where the loop has got to, as a relation without fuel. *)
Definition notifies_from {D} (cb : behaviour D) (data : D) (i : nat) l c l' e :=
  exists fuel, notify cb data fuel i l = Some (c, l', e).

Lemma nf_end {D} (cb : behaviour D) data i l : nth_error l i = None -> notifies_from cb data i l [] l None.
Proof. intros H. exists 1%nat. cbn. now rewrite H. Qed.

Lemma nf_raise {D} (cb : behaviour D) data i l s l' e : nth_error l i = Some s ->
  cb (sb_handler s) data (sb_args s) l = (l', Some e) ->
  notifies_from cb data i l [call_of data s] l' (Some e).
Proof. intros H C. exists 1%nat. cbn. now rewrite H, C. Qed.

Lemma nf_step {D} (cb : behaviour D) data i l s l1 c l' e : nth_error l i = Some s ->
  cb (sb_handler s) data (sb_args s) l = (l1, None) -> notifies_from cb data (S i) l1 c l' e ->
  notifies_from cb data i l (call_of data s :: c) l' e.
Proof. intros H C [f F]. exists (S f). cbn. now rewrite H, C, F. Qed.

Lemma nth_error_mid {A} (a b : list A) x : nth_error (a ++ x :: b) (List.length a) = Some x.
Proof. rewrite nth_error_app2, Nat.sub_diag by lia. reflexivity. Qed.

(** Quiet subscribers from position [length a] on. *)
Lemma nf_quiet {D} (cb : behaviour D) data : forall q a b c l' e, (forall s, In s q -> quiet cb data s) ->
  notifies_from cb data (List.length (a ++ q)) (a ++ q ++ b) c l' e ->
  notifies_from cb data (List.length a) (a ++ q ++ b) (map (call_of data) q ++ c) l' e.
Proof.
  induction q as [|s q IH]; intros a b c l' e Q N; cbn in *.
  - now rewrite app_nil_r in N.
  - eapply nf_step.
    + apply nth_error_mid.
    + apply Q. now left.
    + replace (S (List.length a)) with (List.length (a ++ [s])) by (rewrite app_length; cbn; lia).
      replace (a ++ s :: q ++ b) with ((a ++ [s]) ++ q ++ b) by now rewrite <- app_assoc.
      apply IH; [intros; apply Q; now right|].
      rewrite <- !app_assoc. cbn. exact N.
Qed.

Lemma nth_error_past {A} (l : list A) i : (List.length l <= i)%nat -> nth_error l i = None.
Proof. apply nth_error_None. Qed.

Lemma notify_all {D} (cb : behaviour D) data l : (forall s, In s l -> quiet cb data s) ->
  notifies cb data l (map (call_of data) l) l None.
Proof.
  intros Q. pose proof (nf_quiet cb data l [] [] [] l None Q) as H. cbn in H.
  rewrite !app_nil_r in H. apply H. apply nf_end, nth_error_past. lia.
Qed.

Lemma notify_raising {D} (cb : behaviour D) data a s b e :
  (forall x, In x a -> quiet cb data x) -> raising cb data s e ->
  notifies cb data (a ++ s :: b) (map (call_of data) (a ++ [s])) (a ++ s :: b) (Some e).
Proof.
  intros Q R. pose proof (nf_quiet cb data a [] (s :: b) [call_of data s] (a ++ s :: b) (Some e) Q) as H.
  cbn in H. rewrite map_app. apply H. eapply nf_raise; [apply nth_error_mid|apply R].
Qed.

Lemma notify_self_removing {D} (cb : behaviour D) data a s b :
  (forall x, In x (a ++ b) -> quiet cb data x) -> self_removing cb data s -> ~ In s a ->
  notifies cb data (a ++ s :: b) (map (call_of data) (a ++ s :: tl b)) (a ++ b) None.
Proof.
  intros Q R N.
  pose proof (nf_quiet cb data a [] (s :: b) (call_of data s :: map (call_of data) (tl b)) (a ++ b) None
                (fun x H => Q x (in_or_app _ _ _ (or_introl H)))) as H.
  cbn in H. rewrite map_app. cbn. apply H.
  eapply nf_step; [apply nth_error_mid|apply R; exact N|].
  destruct b as [|x b]; cbn.
  - apply nf_end, nth_error_past. rewrite app_nil_r. lia.
  - replace (S (List.length a)) with (List.length (a ++ [x])) by (rewrite app_length; cbn; lia).
    replace (a ++ x :: b) with ((a ++ [x]) ++ b ++ []) by (rewrite <- app_assoc; cbn; now rewrite app_nil_r).
    replace (map (call_of data) b) with (map (call_of data) b ++ []) by now rewrite app_nil_r.
    apply nf_quiet; [intros y Hy; apply Q, in_or_app; right; now right|].
    apply nf_end, nth_error_past. rewrite app_nil_r. lia.
Qed.

Lemma notify_subscribing {D} (cb : behaviour D) data a s b new :
  (forall x, In x (a ++ b ++ new) -> quiet cb data x) -> subscribing cb data s new ->
  notifies cb data (a ++ s :: b) (map (call_of data) (a ++ s :: b ++ new)) (a ++ s :: b ++ new) None.
Proof.
  intros Q R.
  pose proof (nf_quiet cb data a [] (s :: b) (call_of data s :: map (call_of data) (b ++ new))
                (a ++ s :: b ++ new) None
                (fun x H => Q x (in_or_app _ _ _ (or_introl H)))) as H.
  cbn in H. rewrite map_app. cbn. apply H.
  eapply nf_step; [apply nth_error_mid|apply R|].
  replace (S (List.length a)) with (List.length (a ++ [s])) by (rewrite app_length; cbn; lia).
  replace ((a ++ s :: b) ++ new) with ((a ++ [s]) ++ (b ++ new) ++ [])
    by (rewrite <- !app_assoc; cbn; now rewrite app_nil_r).
  replace (map (call_of data) (b ++ new)) with (map (call_of data) (b ++ new) ++ []) by now rewrite app_nil_r.
  replace (a ++ s :: b ++ new) with ((a ++ [s]) ++ (b ++ new) ++ [])
    by (rewrite <- !app_assoc; cbn; now rewrite app_nil_r).
  apply nf_quiet; [intros y Hy; apply Q, in_or_app; now right|].
  apply nf_end, nth_error_past. rewrite app_nil_r. lia.
Qed.

(** unsubscribe *)
Lemma sub_eqb_spec a b : sub_eqb a b = true <-> a = b.
Proof.
  destruct a as [h x], b as [h' x']. unfold sub_eqb. cbn.
  rewrite andb_true_iff, !Nat.eqb_eq. split; [intros [-> ->]; reflexivity|intros [= -> ->]; auto].
Qed.

Lemma remove_first_some l s : forall l', remove_first l s = Some l' <->
  exists a b, l = a ++ s :: b /\ l' = a ++ b /\ ~ In s a.
Proof.
  induction l as [|x l IH]; intros l'; cbn.
  - split; [discriminate|]. intros (a & b & H & _). destruct a; discriminate.
  - destruct (sub_eqb x s) eqn:E.
    + apply sub_eqb_spec in E as ->. split.
      * intros [= ->]. exists [], l'. cbn. tauto.
      * intros (a & b & H & -> & N). destruct a as [|y a]; [now injection H as ->|].
        injection H as -> _. exfalso. apply N. now left.
    + assert (x <> s) as X by (intros X; apply sub_eqb_spec in X; congruence).
      split.
      * destruct (remove_first l s) as [r|] eqn:R; [|discriminate]. intros [= <-].
        destruct (proj1 (IH r) eq_refl) as (a & b & -> & -> & N).
        exists (x :: a), b. cbn. repeat split. intros [H|H]; [congruence|auto].
      * intros (a & b & H & -> & N). destruct a as [|y a].
        -- injection H as -> _. congruence.
        -- injection H as -> ->.
           rewrite (proj2 (IH (a ++ b))); [reflexivity|].
           exists a, b. repeat split. intros H. apply N. now right.
Qed.

Lemma remove_first_none l s : remove_first l s = None <-> ~ In s l.
Proof.
  induction l as [|x l IH]; cbn; [tauto|].
  destruct (sub_eqb x s) eqn:E.
  - apply sub_eqb_spec in E. split; [discriminate|]. intros N. exfalso. apply N. now left.
  - assert (x <> s) as X by (intros X; apply sub_eqb_spec in X; congruence).
    destruct (remove_first l s) as [r|].
    + split; [discriminate|]. intros N. exfalso. assert (~ In s l) as M by tauto. apply IH in M. discriminate.
    + split; [|reflexivity]. intros _ [H|H]; [auto|]. destruct IH as [IH _]. now apply IH.
Qed.

Lemma unsubscribe_ok l s l' : unsubscribe l s = Ok l' <->
  exists a b, l = a ++ s :: b /\ l' = a ++ b /\ ~ In s a.
Proof.
  unfold unsubscribe. rewrite <- remove_first_some.
  destruct (remove_first l s); split; congruence.
Qed.

Lemma unsubscribe_err l s e : unsubscribe l s = Err e <-> ~ In s l /\ e = NameErr.
Proof.
  unfold unsubscribe. rewrite <- remove_first_none.
  destruct (remove_first l s); split.
  - discriminate.
  - intros [H _]. discriminate.
  - intros [= <-]. auto.
  - intros [_ ->]. reflexivity.
Qed.

Lemma resubscribe_new l s : ~ In s l -> unsubscribe (subscribe l s) s = Ok l.
Proof.
  intros N. apply unsubscribe_ok. exists l, []. rewrite app_nil_r. auto.
Qed.

Lemma resubscribe_old a s b : ~ In s a ->
  unsubscribe (subscribe (a ++ s :: b) s) s = Ok (a ++ b ++ [s]).
Proof.
  intros N. apply unsubscribe_ok. exists a, (b ++ [s]). unfold subscribe.
  rewrite <- app_assoc. auto.
Qed.

Lemma drop_one_unsubscribe l s : drop_one s l =
  match unsubscribe l s with Ok l' => l' | Err _ => l end.
Proof.
  unfold unsubscribe. induction l as [|x l IH]; cbn; [reflexivity|].
  destruct (sub_dec x s) as [->|N].
  - replace (sub_eqb s s) with true by (symmetry; now apply sub_eqb_spec). reflexivity.
  - replace (sub_eqb x s) with false
      by (symmetry; apply not_true_is_false; intros H; now apply sub_eqb_spec in H).
    rewrite IH. now destruct (remove_first l s).
Qed.

(** The registry *)
Definition known_subs (r : registry) (n : string) : list sub :=
  match sget n r with Some l => l | None => [] end.

Lemma sset_eq {V} k (v : V) d : sget k (sset k v d) = Some v.
Proof. apply (dget_dset_eq _ string_eqb_spec). Qed.
Lemma sset_neq {V} k k' (v : V) d : k <> k' -> sget k (sset k' v d) = sget k d.
Proof. apply (dget_dset_neq _ string_eqb_spec). Qed.

Lemma register_get r n k : sget k (register r n) =
  if String.eqb n k then Some (known_subs r n) else sget k r.
Proof.
  unfold register, known_subs. destruct (String.eqb_spec n k) as [->|N].
  - destruct (sget k r) eqn:E; [exact E|apply sset_eq].
  - destruct (sget n r); [reflexivity|]. apply sset_neq. congruence.
Qed.

Lemma hstep_get r o k : sget k (fst (hstep r o)) =
  if String.eqb (about o) k
  then Some (match o with
             | HRegister _ => known_subs r k
             | HSubscribe _ s => known_subs r k ++ [s]
             | HUnsubscribe _ s => drop_one s (known_subs r k)
             end)
  else sget k r.
Proof.
  destruct o as [n|n s|n s]; cbn.
  - rewrite register_get. now destruct (String.eqb_spec n k) as [->|].
  - unfold reg_subscribe. rewrite register_get, String.eqb_refl.
    destruct (String.eqb_spec n k) as [->|N].
    + now rewrite sset_eq.
    + rewrite sset_neq by congruence. rewrite register_get.
      now destruct (String.eqb_spec n k).
  - unfold reg_unsubscribe. rewrite register_get, String.eqb_refl.
    destruct (String.eqb_spec n k) as [->|N].
    + rewrite drop_one_unsubscribe. destruct (unsubscribe (known_subs r k) s) as [l|e]; cbn.
      * apply sset_eq.
      * rewrite register_get, String.eqb_refl. reflexivity.
    + destruct (unsubscribe (known_subs r n) s) as [l|e]; cbn.
      * rewrite sset_neq by congruence. rewrite register_get. now destruct (String.eqb_spec n k).
      * rewrite register_get. now destruct (String.eqb_spec n k).
Qed.

Lemma hrun_get ops : forall r k,
  sget k (hrun r ops) =
  if existsb (fun o => String.eqb (about o) k) ops
  then Some (subscriptions k (known_subs r k) ops) else sget k r.
Proof.
  induction ops as [|o ops IH]; intros r k; [reflexivity|].
  change (hrun r (o :: ops)) with (hrun (fst (hstep r o)) ops).
  rewrite IH. cbn [existsb subscriptions].
  assert (known_subs (fst (hstep r o)) k =
    match o with
    | HRegister _ => known_subs r k
    | HSubscribe n s => if String.eqb n k then known_subs r k ++ [s] else known_subs r k
    | HUnsubscribe n s => if String.eqb n k then drop_one s (known_subs r k) else known_subs r k
    end) as K.
  { unfold known_subs at 1. rewrite hstep_get. destruct o as [n|n s|n s]; cbn [about];
      destruct (String.eqb n k); reflexivity. }
  rewrite K. destruct (existsb _ ops) eqn:X.
  - rewrite orb_true_r. reflexivity.
  - rewrite orb_false_r, hstep_get.
    assert (forall l, subscriptions k l ops = l) as U.
    { clear -X. induction ops as [|o ops IH]; intros l; [reflexivity|].
      cbn in X. apply orb_false_elim in X as [X Y]. cbn.
      rewrite IH by exact Y. destruct o; cbn in X; now rewrite ?X. }
    rewrite U. destruct o as [n|n s|n s]; cbn [about]; destruct (String.eqb n k); reflexivity.
Qed.

Lemma subscriptions_none name ops : forall l, (forall o, In o ops -> about o <> name) ->
  subscriptions name l ops = l.
Proof.
  induction ops as [|o ops IH]; intros l H; [reflexivity|]. cbn.
  rewrite IH by (intros; apply H; now right).
  assert (about o <> name) as N by (apply H; now left).
  destruct o as [n|n s|n s]; cbn in N; [reflexivity| |];
    destruct (String.eqb_spec n name); congruence.
Qed.

Lemma handled_iff ops name : is_message_handled (hrun [] ops) name = true <->
  exists o, In o ops /\ about o = name.
Proof.
  unfold is_message_handled. rewrite hrun_get. cbn.
  destruct (existsb _ ops) eqn:E.
  - split; [|reflexivity]. intros _. apply existsb_exists in E as (o & I & H).
    exists o. split; [exact I|]. now apply String.eqb_eq.
  - split; [discriminate|]. intros (o & I & H). exfalso.
    rewrite <- not_true_iff_false in E. apply E. apply existsb_exists.
    exists o. split; [exact I|]. now apply String.eqb_eq.
Qed.

Lemma registered_subs ops name : known_subs (hrun [] ops) name = subscriptions name [] ops.
Proof.
  unfold known_subs at 1. rewrite hrun_get. cbn.
  destruct (existsb _ ops) eqn:E; [reflexivity|].
  symmetry. apply subscriptions_none. intros o I H. rewrite <- not_true_iff_false in E. apply E.
  apply existsb_exists. exists o. split; [exact I|]. now apply String.eqb_eq.
Qed.
Lemma hstep_error ops o e : snd (hstep (hrun [] ops) o) = Err e <->
  e = NameErr /\ exists name s, o = HUnsubscribe name s /\ ~ In s (subscriptions name [] ops).
Proof.
  destruct o as [n|n s|n s]; cbn [hstep snd].
  - split; [discriminate|]. intros (_ & ? & ? & [=] & _).
  - split; [discriminate|]. intros (_ & ? & ? & [=] & _).
  - unfold reg_unsubscribe. rewrite register_get, String.eqb_refl.
    destruct (unsubscribe (known_subs (hrun [] ops) n) s) as [l|e'] eqn:U; cbn [bind snd].
    + split; [discriminate|]. intros (_ & n' & s' & [= <- <-] & N). rewrite <- registered_subs in N.
      assert (unsubscribe (known_subs (hrun [] ops) n) s = Err NameErr) as X by (apply unsubscribe_err; auto). congruence.
    + apply unsubscribe_err in U as [N ->]. split.
      * intros [= <-]. split; [reflexivity|]. exists n, s. rewrite <- registered_subs. auto.
      * intros (-> & _). reflexivity.
Qed.

(** handle *)
Lemma call_all_quiet cb m l : (forall s, In s l -> cb s m = None) -> call_all cb m l = (l, None).
Proof.
  induction l as [|s l IH]; intros Q; cbn; [reflexivity|].
  rewrite (Q s (or_introl eq_refl)), IH by (intros; apply Q; now right). reflexivity.
Qed.

Lemma call_all_raise cb m a s b e : (forall x, In x a -> cb x m = None) -> cb s m = Some e ->
  call_all cb m (a ++ s :: b) = (a ++ [s], Some e).
Proof.
  intros Q C. induction a as [|x a IH]; cbn; [now rewrite C|].
  rewrite (Q x (or_introl eq_refl)), IH by (intros; apply Q; now right). reflexivity.
Qed.

Lemma handle_known cb r m : handle cb r m =
  let '(c, e) := call_all cb m (known_subs r (m_name m)) in (c, swallow_keyerror e).
Proof.
  unfold handle, known_subs, subscriber_count. destruct (sget (m_name m) r) as [l|]; [|reflexivity].
  destruct l as [|s l]; [reflexivity|]. rewrite zlen_cons.
  replace (0 <? 1 + zlen l) with true by (symmetry; apply Z.ltb_lt; unfold zlen; lia). reflexivity.
Qed.

Lemma handle_quiet cb r m : (forall s, In s (known_subs r (m_name m)) -> cb s m = None) ->
  handle cb r m = (known_subs r (m_name m), None).
Proof. intros Q. rewrite handle_known, call_all_quiet by exact Q. reflexivity. Qed.

Lemma handle_raise cb r m a s b e : known_subs r (m_name m) = a ++ s :: b ->
  (forall x, In x a -> cb x m = None) -> cb s m = Some e ->
  handle cb r m = (a ++ [s], match e with KeyErr => None | _ => Some e end).
Proof.
  intros K Q C. rewrite handle_known, K, (call_all_raise cb m a s b e Q C).
  now destruct e.
Qed.

(** handle is notify on subscribers that leave the subscriptions alone. *)
Definition as_behaviour (cb : sub -> message -> option exn) : behaviour message :=
  fun h d a l => (l, cb {| sb_handler := h; sb_args := a |} d).

Lemma call_all_notifies cb m l : forall c e, call_all cb m l = (c, e) ->
  notifies (as_behaviour cb) m l (map (call_of m) c) l e.
Proof.
  intros c e H.
  assert (forall p q c e, call_all cb m q = (c, e) ->
    notifies_from (as_behaviour cb) m (List.length p) (p ++ q) (map (call_of m) c) (p ++ q) e) as G.
  { clear. intros p q. revert p. induction q as [|s q IH]; intros p c e H; cbn in H.
    - injection H as <- <-. rewrite app_nil_r. apply nf_end, nth_error_past. lia.
    - assert (as_behaviour cb (sb_handler s) m (sb_args s) (p ++ s :: q) = (p ++ s :: q, cb s m)) as A
        by (destruct s; reflexivity).
      destruct (cb s m) as [x|] eqn:C.
      + injection H as <- <-. cbn [map]. eapply nf_raise; [apply nth_error_mid|exact A].
      + destruct (call_all cb m q) as [c' e'] eqn:Q. injection H as <- <-. cbn [map].
        eapply nf_step; [apply nth_error_mid|exact A|].
        replace (S (List.length p)) with (List.length (p ++ [s])) by (rewrite app_length; cbn; lia).
        replace (p ++ s :: q) with ((p ++ [s]) ++ q) by now rewrite <- app_assoc.
        now apply IH. }
  exact (G [] l c e H).
Qed.

(** Histories of an event. *)
Lemma subscribe_all ss : forall l, fold_left subscribe ss l = l ++ ss.
Proof.
  induction ss as [|s ss IH]; intros l; cbn [fold_left]; [now rewrite app_nil_r|]. rewrite IH. unfold subscribe. now rewrite <- app_assoc.
Qed.
Lemma drop_one_in s l x : In x (drop_one s l) -> In x l.
Proof. induction l as [|a l IH]; cbn; [auto|]. destruct (sub_dec a s); cbn; tauto. Qed.
Lemma notify_history {D} (cb : behaviour D) data (ops : list (bool * sub)) :
  (forall s, In s (map snd ops) -> quiet cb data s) ->
  let after := fold_left (fun (l : list sub) (o : bool * sub) => if fst o then subscribe l (snd o)
                                     else match unsubscribe l (snd o) with Ok l' => l' | Err _ => l end) ops [] in
  let kept := fold_left (fun (l : list sub) (o : bool * sub) => if fst o then l ++ [snd o] else drop_one (snd o) l) ops [] in
  notifies cb data after (map (call_of data) kept) kept None.
Proof.
  intros Q.
  assert (K : forall (ops : list (bool * sub)) l, fold_left (fun (l : list sub) (o : bool * sub) => if fst o then subscribe l (snd o)
      else match unsubscribe l (snd o) with Ok l' => l' | Err _ => l end) ops l =
      fold_left (fun (l : list sub) (o : bool * sub) => if fst o then l ++ [snd o] else drop_one (snd o) l) ops l).
  { clear. induction ops as [|[[] s] ops IH]; intros l; cbn [fold_left fst snd]; [reflexivity|apply IH|].
    rewrite IH. f_equal. rewrite drop_one_unsubscribe. reflexivity. }
  cbv zeta. rewrite K. apply notify_all. intros s Hs. apply Q.
  assert (I : forall (ops : list (bool * sub)) l, In s (fold_left (fun (l : list sub) (o : bool * sub) => if fst o then l ++ [snd o] else drop_one (snd o) l) ops l) ->
      In s l \/ In s (map snd ops)).
  { clear. induction ops as [|[[] x] ops IH]; intros l H; cbn [fold_left fst snd map] in *; [auto| |].
    - apply IH in H as [H|H]; [|cbn; tauto]. apply in_app_or in H as [H|[<-|[]]]; cbn; tauto.
    - apply IH in H as [H|H]; [|cbn; tauto]. apply drop_one_in in H. auto. }
  apply I in Hs as [[]|Hs]. exact Hs.
Qed.
