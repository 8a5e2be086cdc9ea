(** Proofs for C93: deliveries of an interrupted event queue. *)
From Verif Require HeaderProofs EventsProofs.
From Verif Require Import Lib SpecLiveQueue.

(** ** Histories *)
Definition did (i : nat) (ev : list nevent) : list nobs := map (NDid i) ev.
Definition nnews (e : qenv) (l : lqueue) (o : nop) : list nobs :=
  nobserved l o ++ map (fun '(i, ev) => NDid i ev) (snd (nstep e l o)).
Lemma nhistory_cons e l o ops : nhistory e l (o :: ops) = nnews e l o ++ nhistory e (fst (nstep e l o)) ops.
Proof. cbn [nhistory]. unfold nnews. now rewrite app_assoc. Qed.
Lemma nrun_app e l a b : nrun e l (a ++ b) = nrun e (nrun e l a) b.
Proof. revert l. induction a as [|o a IH]; intros l; [reflexivity|]. cbn. apply IH. Qed.
Lemma nhistory_app e l a b : nhistory e l (a ++ b) = nhistory e l a ++ nhistory e (nrun e l a) b.
Proof.
  revert l. induction a as [|o a IH]; intros l; [reflexivity|]. cbn [app nrun]. rewrite !nhistory_cons, IH.
  now rewrite app_assoc.
Qed.
Lemma nlife_snoc e ops o : nlife e (ops ++ [o]) = nlife e ops ++ nnews e (nafter e ops) o.
Proof. unfold nlife, nafter. rewrite nhistory_app, nhistory_cons. cbn [nhistory]. now rewrite app_nil_r. Qed.
Lemma nafter_snoc e ops o : nafter e (ops ++ [o]) = fst (nstep e (nafter e ops) o).
Proof. unfold nafter. now rewrite nrun_app. Qed.

(** Something about every observation and what came before it. *)
Fixpoint all_at (P : list nobs -> nobs -> Prop) (past h : list nobs) : Prop :=
  match h with [] => True | x :: h' => P past x /\ all_at P (past ++ [x]) h' end.
Lemma all_at_app P h1 : forall past h2, all_at P past (h1 ++ h2) <-> all_at P past h1 /\ all_at P (past ++ h1) h2.
Proof.
  induction h1 as [|x h1 IH]; intros past h2; cbn [app all_at].
  - rewrite app_nil_r. tauto.
  - rewrite IH, <- app_assoc. cbn [app]. tauto.
Qed.
Lemma all_at_split P h past x future : all_at P [] h -> h = past ++ x :: future -> P past x.
Proof. intros A ->. apply all_at_app in A as [_ A]. now destruct A. Qed.

(** ** Projections *)
Lemma uses_app a b : uses (a ++ b) = uses a ++ uses b.
Proof. apply flat_map_app. Qed.
Lemma n_calls_app i a b : n_calls i (a ++ b) = n_calls i a ++ n_calls i b.
Proof. apply flat_map_app. Qed.
Lemma subscriptions_app name a : forall l b, subscriptions name l (a ++ b) = subscriptions name (subscriptions name l a) b.
Proof. induction a as [|o a IH]; intros l b; [reflexivity|]. cbn [app subscriptions]. apply IH. Qed.
(** Observations of coroutine [i] that matter to its delivery. *)
Definition foreign (i : nat) (x : nobs) : Prop :=
  match x with
  | NDid j (NPosted _) => True
  | NDid j _ => i <> j
  | NReturned j _ _ _ => i <> j
  | _ => True
  end.
Lemma foreign_calls i x : Forall (foreign i) x -> n_calls i x = [].
Proof.
  induction 1 as [|y x F _ IH]; [reflexivity|]. unfold n_calls in *. cbn [flat_map]. rewrite IH, app_nil_r.
  destruct y as [j [d|ms|n k s m]| | | | | | |]; try reflexivity. cbn in F. apply Nat.eqb_neq in F. now rewrite F.
Qed.
Lemma same_app i a b : same_response i (a ++ b) <-> same_response i a /\ same_response i b.
Proof.
  unfold same_response. split.
  - intros H. split; intros ms M; apply (H ms), in_or_app; auto.
  - intros [A B] ms M. apply in_app_or in M as [M|M]; [now apply (A ms)|now apply (B ms)].
Qed.
Lemma foreign_same i x : Forall (foreign i) x -> same_response i x.
Proof. intros F ms M. rewrite Forall_forall in F. apply F in M. cbn in M. congruence. Qed.

(** ** Being handed over *)
Lemma left_app m a b : nobody_left m (a ++ b) -> nobody_left m a.
Proof. intros H name s N M. apply (H name s N), in_or_app. auto. Qed.
Lemma joined_app m a b : nobody_joined m (a ++ b) -> nobody_joined m a.
Proof. intros H name s N M. apply (H name s N), in_or_app. auto. Qed.
Lemma untouched_app i ms a b : untouched i ms (a ++ b) -> untouched i ms a.
Proof.
  intros [A B]. split.
  - intros m M. destruct (A m M) as [C D]. eauto using left_app, joined_app.
  - intros n k x M. apply (B n k x), in_or_app. auto.
Qed.
Lemma handed_app i past a b n m : handed i past a n m -> handed i past (a ++ b) n m.
Proof.
  intros [[k K]|H].
  - left. exists k. apply in_or_app. auto.
  - right. intros L k s E. rewrite n_calls_app. apply in_or_app. left. eauto using left_app.
Qed.
Lemma broken_app i a b : broken_off i (a ++ b) <-> broken_off i a \/ broken_off i b.
Proof.
  split.
  - intros (n & k & x & M & D). apply in_app_or in M as [M|M]; [left|right]; exists n, k, x; auto.
  - intros [(n & k & x & M & D)|(n & k & x & M & D)]; exists n, k, x; split; auto; apply in_or_app; auto.
Qed.
Lemma foreign_broken i x : Forall (foreign i) x -> ~ broken_off i x.
Proof. intros F (n & k & y & M & _). rewrite Forall_forall in F. apply F in M. cbn in M. congruence. Qed.

(** Subscribers that stay keep their positions. *)
Lemma subs_prefix name ops : (forall s, ~ In (HUnsubscribe name s) ops) -> forall l, exists new, subscriptions name l ops = l ++ new.
Proof.
  induction ops as [|o ops IH]; intros H l; [exists []; now rewrite app_nil_r|].
  assert (forall s, ~ In (HUnsubscribe name s) ops) as H' by (intros s M; apply (H s); now right).
  cbn [subscriptions]. destruct o as [n|n s|n s].
  - apply IH, H'.
  - destruct (String.eqb n name).
    + destruct (IH H' (l ++ [s])) as [new ->]. exists (s :: new). now rewrite <- app_assoc.
    + apply IH, H'.
  - destruct (String.eqb n name) eqn:E; [|apply IH, H'].
    apply String.eqb_eq in E. subst n. exfalso. apply (H s). now left.
Qed.
Lemma subs_same name ops : (forall s, ~ In (HUnsubscribe name s) ops) -> (forall s, ~ In (HSubscribe name s) ops) ->
  forall l, subscriptions name l ops = l.
Proof.
  induction ops as [|o ops IH]; intros H G l; [reflexivity|].
  assert (forall s, ~ In (HUnsubscribe name s) ops) as H' by (intros s M; apply (H s); now right).
  assert (forall s, ~ In (HSubscribe name s) ops) as G' by (intros s M; apply (G s); now right).
  cbn [subscriptions]. rewrite IH by assumption. destruct o as [n|n s|n s]; [reflexivity| |];
    destruct (String.eqb n name) eqn:E; try reflexivity; apply String.eqb_eq in E; subst n; exfalso;
    [apply (G s)|apply (H s)]; now left.
Qed.
Lemma uses_in h o : In o (uses h) -> In (NUsed o) h.
Proof.
  intros M. apply in_flat_map in M as (x & I & J). destruct x; try contradiction. destruct J as [->|[]]. exact I.
Qed.
Lemma subscribed_prefix past mid m : nobody_left m mid -> exists new, subscribed (past ++ mid) m = subscribed past m ++ new.
Proof.
  intros H. unfold subscribed. destruct (q_name m) as [| | | |name| | | |] eqn:N; try (exists []; reflexivity).
  rewrite uses_app, subscriptions_app. apply subs_prefix. intros s M. apply (H name s N). now apply uses_in.
Qed.
Lemma subscribed_same past mid m : nobody_left m mid -> nobody_joined m mid -> subscribed (past ++ mid) m = subscribed past m.
Proof.
  intros H G. unfold subscribed. destruct (q_name m) as [| | | |name| | | |] eqn:N; try reflexivity.
  rewrite uses_app, subscriptions_app. apply subs_same; intros s M; [apply (H name s N)|apply (G name s N)]; now apply uses_in.
Qed.
Lemma prefix_nth {A} (a b : list A) k s : nth_error a k = Some s -> nth_error (a ++ b) k = Some s.
Proof. intros H. rewrite nth_error_app1; [exact H|]. apply nth_error_Some. congruence. Qed.

(** ** In turn *)
Definition last_is (calls : list (nat * nat * sub * eqmessage)) (n k : nat) (m : eqmessage) : Prop :=
  exists before s, calls = before ++ [(n, k, s, m)].
Definition before_n (n : nat) (calls : list (nat * nat * sub * eqmessage)) : Prop :=
  forall n' k s m, In (n', k, s, m) calls -> (n' < n)%nat.
Lemma in_turn_snoc calls n k s m : in_turn calls ->
  (calls = [] \/ exists before n' k' s' m', calls = before ++ [(n', k', s', m')] /\ ((n = n' /\ k = S k') \/ ((n' < n)%nat /\ k = 0%nat))) ->
  in_turn (calls ++ [(n, k, s, m)]).
Proof.
  induction calls as [|[[[a b] c] d] calls IH]; intros T H; [exact I|]. destruct H as [H|H]; [discriminate|].
  destruct calls as [|[[[a' b'] c'] d'] calls].
  - cbn. split; [|exact I]. destruct H as (before & n' & k' & s' & m' & E & D).
    destruct before as [|x [|y before]]; cbn in E; try discriminate E. injection E as <- <- <- <-. exact D.
  - destruct T as [T1 T2]. split; [exact T1|]. apply IH; [exact T2|].
    right. destruct H as (before & n' & k' & s' & m' & E & D). destruct before as [|x before]; [discriminate E|].
    injection E as _ E. exists before, n', k', s', m'. auto.
Qed.
Lemma in_turn_snoc0 calls n s m : in_turn calls -> before_n n calls -> in_turn (calls ++ [(n, 0%nat, s, m)]).
Proof.
  intros T B. apply in_turn_snoc; [exact T|]. destruct calls as [|c calls] using rev_ind; [now left|]. clear IHcalls.
  right. destruct c as [[[a b] c] d]. exists calls, a, b, c, d. split; [reflexivity|]. right. split; [|reflexivity].
  apply (B a b c d), in_or_app. right. now left.
Qed.

(** ** The state of a delivery *)
Record upto (i : nat) (past : list nobs) (ms : list eqmessage) (mid : list nobs) (n : nat) : Prop := {
  up_same : same_response i mid;
  up_handed : forall n' m, (n' < n)%nat -> nth_error ms n' = Some m -> handed i past mid n' m;
  up_turn : in_turn (n_calls i mid);
  up_before : before_n n (n_calls i mid);
  up_fine : ~ broken_off i mid;
  up_calm : untouched i ms mid -> n_calls i mid = full_delivery (subscribed past) 0 (firstn n ms);
  up_nokey : forall n', (n <= n')%nat -> ~ key_error i n' mid }.
Record during (i : nat) (past : list nobs) (ms : list eqmessage) (mid : list nobs) (n : nat) (m : eqmessage) (k : nat) : Prop := {
  du_same : same_response i mid;
  du_msg : nth_error ms n = Some m;
  du_handed : forall n' m, (n' < n)%nat -> nth_error ms n' = Some m -> handed i past mid n' m;
  du_part : nobody_left m mid -> forall k' s, (k' <= k)%nat -> nth_error (subscribed past m) k' = Some s -> In (n, k', s, m) (n_calls i mid);
  du_turn : in_turn (n_calls i mid);
  du_last : last_is (n_calls i mid) n k m;
  du_before : before_n (S n) (n_calls i mid);
  du_fine : ~ broken_off i mid;
  du_calm : untouched i ms mid ->
    n_calls i mid = full_delivery (subscribed past) 0 (firstn n ms) ++ positions n 0 m (firstn (S k) (subscribed past m));
  du_nokey : forall n', (n <= n')%nat -> ~ key_error i n' mid }.
(** The delivery of the latest response to coroutine [i] is over. *)
Definition finished (i : nat) (h : list nobs) : Prop :=
  forall past ms mid, h = past ++ NDid i (NDecoded ms) :: mid -> same_response i mid ->
    in_turn (n_calls i mid) /\
    (broken_off i mid \/
     (forall n m, nth_error ms n = Some m -> handed i past mid n m) /\
     (untouched i ms mid -> n_calls i mid = full_delivery (subscribed past) 0 ms)).
Definition cinv (i : nat) (h : list nobs) (p : npc) : Prop :=
  match p with
  | NCall n m k rest => exists past ms mid, h = past ++ NDid i (NDecoded ms) :: mid /\ during i past ms mid n m k /\ rest = skipn (S n) ms
  | _ => finished i h
  end.

Lemma split_unique i past ms mid past' ms' mid' : past ++ NDid i (NDecoded ms) :: mid = past' ++ NDid i (NDecoded ms') :: mid' ->
  same_response i mid -> same_response i mid' -> past = past' /\ ms = ms' /\ mid = mid'.
Proof.
  revert past'. induction past as [|x past IH]; intros [|y past'] E S S'; cbn in E.
  - injection E as -> ->. auto.
  - injection E as <- ->. exfalso. apply (S ms'), in_or_app. right. now left.
  - injection E as -> <-. exfalso. apply (S' ms), in_or_app. right. now left.
  - injection E as <- E. destruct (IH _ E S S') as (-> & -> & ->). auto.
Qed.
Lemma split_of_app i h x past ms mid : (forall ms, ~ In (NDid i (NDecoded ms)) x) -> h ++ x = past ++ NDid i (NDecoded ms) :: mid ->
  exists mid', h = past ++ NDid i (NDecoded ms) :: mid' /\ mid = mid' ++ x.
Proof.
  revert past. induction h as [|y h IH]; intros past N E; cbn in E.
  - exfalso. apply (N ms). rewrite E. apply in_or_app. right. now left.
  - destruct past as [|z past]; cbn in E.
    + injection E as -> <-. exists h. auto.
    + injection E as <- E. destruct (IH _ N E) as (mid' & -> & ->). exists mid'. auto.
Qed.
Lemma finished_mono i h x : finished i h -> Forall (foreign i) x -> finished i (h ++ x).
Proof.
  intros F G past ms mid E S. destruct (split_of_app i h x past ms mid (foreign_same i x G) E) as (mid' & E' & ->).
  apply same_app in S as [S _]. destruct (F past ms mid' E' S) as (T & D). rewrite n_calls_app, (foreign_calls i x G), app_nil_r.
  split; [exact T|]. destruct D as [D|(D1 & D2)].
  - left. apply broken_app. auto.
  - right. split; [intros n m M; now apply handed_app, D1|]. intros U. apply D2. now apply untouched_app in U.
Qed.
Lemma foreign_key i n x : Forall (foreign i) x -> ~ key_error i n x.
Proof. intros F (k & X). rewrite Forall_forall in F. apply F in X. cbn in X. congruence. Qed.
Lemma key_app i n a b : key_error i n (a ++ b) <-> key_error i n a \/ key_error i n b.
Proof.
  unfold key_error. split.
  - intros (k & X). apply in_app_or in X as [X|X]; [left|right]; eauto.
  - intros [(k & X)|(k & X)]; exists k; apply in_or_app; auto.
Qed.
Lemma key_one i n x : (forall k, x <> NReturned i n k (Some KeyErr)) -> ~ key_error i n [x].
Proof. intros H (k & [X|[]]). now apply (H k). Qed.
Lemma during_mono i past ms mid n m k x : during i past ms mid n m k -> Forall (foreign i) x -> during i past ms (mid ++ x) n m k.
Proof.
  intros [A B C D E F G H I NK] X. pose proof (foreign_calls i x X) as K. split.
  - apply same_app. split; [exact A|now apply foreign_same].
  - exact B.
  - intros n' m' L M. apply handed_app, C; assumption.
  - intros L k' s L' N. rewrite n_calls_app, K, app_nil_r. apply D; eauto using left_app.
  - now rewrite n_calls_app, K, app_nil_r.
  - now rewrite n_calls_app, K, app_nil_r.
  - now rewrite n_calls_app, K, app_nil_r.
  - intros J. apply broken_app in J as [J|J]; [auto|]. revert J. now apply foreign_broken.
  - intros U. rewrite n_calls_app, K, app_nil_r. apply I. now apply untouched_app in U.
  - intros n' L J. apply key_app in J as [J|J]; [now apply (NK n')|]. revert J. now apply foreign_key.
Qed.
Lemma cinv_mono i h p x : cinv i h p -> Forall (foreign i) x -> cinv i (h ++ x) p.
Proof.
  intros C F. destruct p; cbn [cinv] in *; try (now apply finished_mono).
  destruct C as (past & ms & mid & -> & D & E). exists past, ms, (mid ++ x). split; [now rewrite <- app_assoc|].
  split; [now apply during_mono|exact E].
Qed.

(** ** Steps *)
Lemma full_app subs n ms1 ms2 : full_delivery subs n (ms1 ++ ms2) = full_delivery subs n ms1 ++ full_delivery subs (n + List.length ms1) ms2.
Proof.
  revert n. induction ms1 as [|m ms1 IH]; intros n; cbn [app full_delivery List.length].
  - now rewrite Nat.add_0_r.
  - rewrite IH, <- app_assoc. now replace (S n + List.length ms1)%nat with (n + S (List.length ms1))%nat by lia.
Qed.
Lemma positions_app n m l1 : forall k l2, positions n k m (l1 ++ l2) = positions n k m l1 ++ positions n (k + List.length l1) m l2.
Proof.
  induction l1 as [|s l1 IH]; intros k l2; cbn [app positions List.length].
  - now rewrite Nat.add_0_r.
  - rewrite IH. now replace (S k + List.length l1)%nat with (k + S (List.length l1))%nat by lia.
Qed.
Lemma firstn_snoc {A} (l : list A) n x : nth_error l n = Some x -> firstn (S n) l = firstn n l ++ [x].
Proof.
  revert n. induction l as [|y l IH]; intros [|n] H; cbn in H; try discriminate H.
  - injection H as ->. reflexivity.
  - cbn [firstn app]. f_equal. now apply IH.
Qed.
Lemma skipn_cons {A} (l : list A) n x r : skipn n l = x :: r -> nth_error l n = Some x /\ r = skipn (S n) l.
Proof.
  revert n. induction l as [|y l IH]; intros [|n] H; cbn in H; try discriminate H.
  - injection H as -> ->. auto.
  - destruct (IH n H) as (A1 & A2). split; [exact A1|]. exact A2.
Qed.

(** No subscribers: nothing to hand over. *)
Lemma upto_skip i past ms mid n m : upto i past ms mid n -> nth_error ms n = Some m ->
  subscribed (past ++ NDid i (NDecoded ms) :: mid) m = [] -> upto i past ms mid (S n).
Proof.
  intros [A B C D E F NK] M S. split; auto.
  - intros n' m' L N'. destruct (Nat.eq_dec n' n) as [->|NE]; [|apply B; [lia|exact N']].
    rewrite M in N'. injection N' as <-. right. intros NL k s K.
    destruct (subscribed_prefix past (NDid i (NDecoded ms) :: mid) m) as [new N].
    { intros name x Q [X|X]; [discriminate|]. now apply (NL name x Q). }
    rewrite S in N. symmetry in N. apply app_eq_nil in N as [N _]. rewrite N in K. now destruct k.
  - intros n' k s x X. apply D in X. lia.
  - intros U. rewrite (firstn_snoc _ _ _ M), full_app. cbn [full_delivery]. rewrite app_nil_r, F by exact U.
    destruct U as [U _]. destruct (U m (nth_error_In _ _ M)) as [U1 U2].
    assert (subscribed past m = []) as ->; [|now rewrite app_nil_r].
    rewrite <- S. symmetry. change (NDid i (NDecoded ms) :: mid) with ([NDid i (NDecoded ms)] ++ mid).
    rewrite app_assoc. rewrite subscribed_same by assumption. unfold subscribed. rewrite uses_app. cbn. now rewrite app_nil_r.
  - intros n' L. apply NK. lia.
Qed.
Lemma n_calls_one i n k s m : n_calls i [NDid i (NCalled n k s m)] = [(n, k, s, m)].
Proof. unfold n_calls. cbn. now rewrite Nat.eqb_refl. Qed.
Lemma subscribed_quiet past x m : uses x = [] -> subscribed (past ++ x) m = subscribed past m.
Proof. intros H. unfold subscribed. now rewrite uses_app, H, app_nil_r. Qed.
Lemma left_cons m x mid : (forall h, x <> NUsed h) -> nobody_left m mid -> nobody_left m (x :: mid).
Proof. intros D H name s N [E|E]; [apply (D _ E)|now apply (H name s N)]. Qed.
Lemma joined_cons m x mid : (forall h, x <> NUsed h) -> nobody_joined m mid -> nobody_joined m (x :: mid).
Proof. intros D H name s N [E|E]; [apply (D _ E)|now apply (H name s N)]. Qed.

(** The first subscriber is called. *)
Lemma upto_call i past ms mid n m s l : upto i past ms mid n -> nth_error ms n = Some m ->
  subscribed (past ++ NDid i (NDecoded ms) :: mid) m = s :: l -> during i past ms (mid ++ [NDid i (NCalled n 0 s m)]) n m 0.
Proof.
  intros [A B C D E F NK] M S. pose proof (n_calls_one i n 0 s m) as K. split.
  - apply same_app. split; [exact A|]. intros x [X|[]]. discriminate.
  - exact M.
  - intros n' m' L N'. apply handed_app, B; assumption.
  - intros NL k' s' L N'. assert (k' = 0%nat) as -> by lia. rewrite n_calls_app, K. apply in_or_app. right.
    apply left_app in NL. destruct (subscribed_prefix past (NDid i (NDecoded ms) :: mid) m) as [new N].
    { now apply left_cons. }
    rewrite S in N. apply (prefix_nth _ new) in N'. rewrite <- N in N'. injection N' as <-. now left.
  - rewrite n_calls_app, K. now apply in_turn_snoc0.
  - rewrite n_calls_app, K. exists (n_calls i mid), s. reflexivity.
  - rewrite n_calls_app, K. intros n' k' s' m' X. apply in_app_or in X as [X|[X|[]]]; [apply D in X; lia|].
    injection X as <- <- <- <-. lia.
  - intros X. apply broken_app in X as [X|(a & b & c & [X|[]] & _)]; [auto|discriminate].
  - intros U. apply untouched_app in U. rewrite n_calls_app, K, F by exact U. f_equal.
    destruct U as [U _]. destruct (U m (nth_error_In _ _ M)) as [U1 U2].
    assert (subscribed past m = s :: l) as ->; [|reflexivity].
    rewrite <- S. symmetry. change (NDid i (NDecoded ms) :: mid) with ([NDid i (NDecoded ms)] ++ mid).
    rewrite app_assoc. rewrite subscribed_same by assumption. now apply subscribed_quiet.
  - intros n' L X. apply key_app in X as [X|X]; [now apply (NK n')|]. revert X. apply key_one. discriminate.
Qed.
(** The next subscriber is called. *)
Lemma during_call i past ms mid n m k s : during i past ms mid n m k ->
  nth_error (subscribed (past ++ NDid i (NDecoded ms) :: mid) m) (S k) = Some s ->
  during i past ms ((mid ++ [NReturned i n k None]) ++ [NDid i (NCalled n (S k) s m)]) n m (S k).
Proof.
  intros [A B C D E F G H J NK] S. pose proof (n_calls_one i n (Datatypes.S k) s m) as K.
  assert (n_calls i ((mid ++ [NReturned i n k None]) ++ [NDid i (NCalled n (Datatypes.S k) s m)]) =
          n_calls i mid ++ [(n, Datatypes.S k, s, m)]) as KK.
  { rewrite !n_calls_app, K. cbn. now rewrite app_nil_r. }
  split.
  - apply same_app. split; [apply same_app; split; [exact A|]|]; intros x [X|[]]; discriminate.
  - exact B.
  - intros n' m' L N'. apply handed_app, handed_app, C; assumption.
  - intros NL k' s' L N'. rewrite KK. apply in_or_app. apply left_app, left_app in NL.
    destruct (Nat.eq_dec k' (Datatypes.S k)) as [->|NE]; [right|left; apply D; [exact NL|lia|exact N']].
    destruct (subscribed_prefix past (NDid i (NDecoded ms) :: mid) m) as [new N]; [now apply left_cons|].
    apply (prefix_nth _ new) in N'. rewrite <- N, S in N'. injection N' as <-. now left.
  - rewrite KK. apply in_turn_snoc; [exact E|]. right. destruct F as (before & s' & F). exists before, n, k, s', m. split; [exact F|auto].
  - rewrite KK. exists (n_calls i mid), s. reflexivity.
  - rewrite KK. intros n' k' s' m' X. apply in_app_or in X as [X|[X|[]]]; [now apply G in X|]. injection X as <- <- <- <-. lia.
  - intros X. apply broken_app in X as [X|(a & b & c & [X|[]] & _)]; [|discriminate].
    apply broken_app in X as [X|(a & b & c & [X|[]] & _)]; [auto|discriminate].
  - intros U. apply untouched_app, untouched_app in U. rewrite KK, J by exact U. rewrite <- app_assoc. f_equal.
    destruct U as [U _]. destruct (U m (nth_error_In _ _ B)) as [U1 U2].
    assert (nth_error (subscribed past m) (Datatypes.S k) = Some s) as N.
    { rewrite <- S. f_equal. symmetry. change (NDid i (NDecoded ms) :: mid) with ([NDid i (NDecoded ms)] ++ mid).
      rewrite app_assoc. rewrite subscribed_same by assumption. now apply subscribed_quiet. }
    rewrite (firstn_snoc _ _ _ N), positions_app. f_equal. cbn [positions]. rewrite firstn_length_le; [reflexivity|].
    assert (Datatypes.S k < List.length (subscribed past m))%nat; [|lia]. apply nth_error_Some. congruence.
  - intros n' L X. apply key_app in X as [X|X]; [apply key_app in X as [X|X]; [now apply (NK n')|]|]; revert X; apply key_one; discriminate.
Qed.
(** Nobody is left, or one of them raised KeyError. *)
Lemma during_over i past ms mid n m k : during i past ms mid n m k ->
  nth_error (subscribed (past ++ NDid i (NDecoded ms) :: mid) m) (S k) = None -> upto i past ms (mid ++ [NReturned i n k None]) (S n).
Proof.
  intros [A B C D E F G H J NK] S.
  assert (n_calls i (mid ++ [NReturned i n k None]) = n_calls i mid) as KK by (rewrite n_calls_app; cbn; now rewrite app_nil_r).
  split; rewrite ?KK; auto.
  - apply same_app. split; [exact A|]. intros x [X|[]]; discriminate.
  - intros n' m' L N'. apply handed_app. destruct (Nat.eq_dec n' n) as [->|NE]; [|apply C; [lia|exact N']].
    rewrite B in N'. injection N' as <-. right. intros NL k' s N'. apply D; [exact NL| |exact N'].
    destruct (subscribed_prefix past (NDid i (NDecoded ms) :: mid) m) as [new N]; [now apply left_cons|].
    apply (prefix_nth _ new) in N'. rewrite <- N in N'.
    assert (k' < List.length (subscribed (past ++ NDid i (NDecoded ms) :: mid) m))%nat by (apply nth_error_Some; congruence).
    apply nth_error_None in S. lia.
  - intros X. apply broken_app in X as [X|(a & b & c & [X|[]] & _)]; [auto|discriminate].
  - intros U. apply untouched_app in U. rewrite J by exact U. rewrite (firstn_snoc _ _ _ B), full_app. f_equal.
    cbn [full_delivery]. rewrite app_nil_r. rewrite firstn_length_le by (apply Nat.lt_le_incl, nth_error_Some; congruence).
    cbn [Nat.add]. f_equal. destruct U as [U _]. destruct (U m (nth_error_In _ _ B)) as [U1 U2].
    apply firstn_all2. apply nth_error_None in S. etransitivity; [|exact S]. apply Nat.eq_le_incl. f_equal. symmetry.
    change (NDid i (NDecoded ms) :: mid) with ([NDid i (NDecoded ms)] ++ mid).
    rewrite app_assoc. rewrite subscribed_same by assumption. now apply subscribed_quiet.
  - intros n' L X. apply key_app in X as [X|X]; [apply (NK n'); [lia|exact X]|]. revert X. apply key_one. discriminate.
Qed.
Lemma during_key i past ms mid n m k : during i past ms mid n m k -> upto i past ms (mid ++ [NReturned i n k (Some KeyErr)]) (S n).
Proof.
  intros [A B C D E F G H J NK].
  assert (n_calls i (mid ++ [NReturned i n k (Some KeyErr)]) = n_calls i mid) as KK by (rewrite n_calls_app; cbn; now rewrite app_nil_r).
  split; rewrite ?KK; auto.
  - apply same_app. split; [exact A|]. intros x [X|[]]; discriminate.
  - intros n' m' L N'. destruct (Nat.eq_dec n' n) as [->|NE]; [|apply handed_app, C; [lia|exact N']].
    left. exists k. apply in_or_app. right. now left.
  - intros X. apply broken_app in X as [X|(a & b & c & [X|[]] & Y)]; [auto|]. injection X as <- <- <-. congruence.
  - intros [_ U]. exfalso. apply (U n k KeyErr), in_or_app. right. now left.
  - intros n' L X. apply key_app in X as [X|X]; [apply (NK n'); [lia|exact X]|]. revert X. apply key_one. intros k0 X. injection X as <- <-. lia.
Qed.
Lemma finished_at i past ms mid : same_response i mid ->
  in_turn (n_calls i mid) /\
  (broken_off i mid \/
   (forall n m, nth_error ms n = Some m -> handed i past mid n m) /\
   (untouched i ms mid -> n_calls i mid = full_delivery (subscribed past) 0 ms)) ->
  finished i (past ++ NDid i (NDecoded ms) :: mid).
Proof.
  intros S H past' ms' mid' E S'. destruct (split_unique i _ _ _ _ _ _ E S S') as (<- & <- & <-). exact H.
Qed.
Lemma during_broken i past ms mid n m k x : during i past ms mid n m k -> x <> KeyErr ->
  finished i (past ++ NDid i (NDecoded ms) :: mid ++ [NReturned i n k (Some x)]).
Proof.
  intros [A B C D E F G H J NK] N. apply finished_at.
  - apply same_app. split; [exact A|]. intros y [X|[]]; discriminate.
  - rewrite n_calls_app. cbn. rewrite app_nil_r. split; [exact E|]. left. exists n, k, x. split; [|exact N]. apply in_or_app. right. now left.
Qed.
Lemma upto_finished i past ms mid n : upto i past ms mid n -> skipn n ms = [] -> finished i (past ++ NDid i (NDecoded ms) :: mid).
Proof.
  intros [A B C D E F NK] S. assert (List.length ms <= n)%nat as L.
  { pose proof (skipn_length n ms) as X. rewrite S in X. cbn in X. lia. }
  apply finished_at; [exact A|]. split; [exact C|]. right. split.
  - intros n' m M. apply B; [|exact M]. assert (n' < List.length ms)%nat by (apply nth_error_Some; congruence). lia.
  - intros U. rewrite F by exact U. now rewrite firstn_all2.
Qed.

(** What an event of coroutine [i], after [past], is. *)
Definition who (past : list nobs) (x : nobs) : Prop :=
  match x with
  | NDid i (NCalled n k s m) =>
      nth_error (subscribed past m) k = Some s /\
      exists past0 ms mid, past = past0 ++ NDid i (NDecoded ms) :: mid /\ same_response i mid /\ nth_error ms n = Some m /\
        ~ broken_off i mid /\ ~ key_error i n mid /\
        forall n' m', (n' < n)%nat -> nth_error ms n' = Some m' -> handed i past0 mid n' m'
  | NDid i (NPosted _) => finished i past
  | _ => True
  end.
Lemma top_events q : exists q' ev p, nq_top q = (q', ev, p) /\ (ev = [] \/ exists d, ev = [NPosted d]) /\
  (forall n m k rest, p <> NCall n m k rest).
Proof.
  unfold nq_top. destruct (eq_stopped q); [destruct (equals_minus1 (eq_last q))|]; do 3 eexists; (split; [reflexivity|]);
    (split; [eauto|discriminate]).
Qed.
Lemma finished_cinv i h p : (forall n m k rest, p <> NCall n m k rest) -> finished i h -> cinv i h p.
Proof. intros N F. destruct p; auto. exfalso. now apply (N n m k rest). Qed.
Lemma top_ok i h q : finished i h ->
  let '(q', ev, p) := nq_top q in cinv i (h ++ did i ev) p /\ all_at who h (did i ev).
Proof.
  intros F. destruct (top_events q) as (q' & ev & p & -> & E & N). destruct E as [->|(d & ->)]; cbn.
  - rewrite app_nil_r. split; [now apply finished_cinv|exact I].
  - split; [|auto]. apply finished_cinv; [exact N|]. apply finished_mono; [exact F|]. repeat constructor.
Qed.
Lemma hand_over_ok i past ms q r : forall rest mid n, upto i past ms mid n -> rest = skipn n ms ->
  (forall m, eq_subs r m = subscribed (past ++ NDid i (NDecoded ms) :: mid) m) ->
  let h := past ++ NDid i (NDecoded ms) :: mid in
  let '(q', ev, p) := hand_over q r n rest in cinv i (h ++ did i ev) p /\ all_at who h (did i ev).
Proof.
  induction rest as [|m rest IH]; intros mid n U E R h; cbn [hand_over].
  - apply top_ok. apply (upto_finished _ _ _ _ n); auto.
  - symmetry in E. apply skipn_cons in E as [M E]. rewrite R. fold h. destruct (subscribed h m) as [|s l] eqn:S.
    + unfold h. apply IH; [|exact E|exact R]. now apply (upto_skip _ _ _ _ _ m).
    + cbn [did map all_at who cinv]. split.
      * exists past, ms, (mid ++ [NDid i (NCalled n 0 s m)]). unfold h. rewrite <- app_assoc. cbn [app].
        split; [reflexivity|]. split; [now apply (upto_call _ _ _ _ _ _ _ l)|exact E].
      * split; [|exact I]. rewrite S. split; [reflexivity|]. exists past, ms, mid. split; [reflexivity|].
        destruct U as [A B C D F G NK]. split; [exact A|]. split; [exact M|]. split; [exact F|]. split; [now apply NK|exact B].
Qed.
Lemma upto_0 i past ms : upto i past ms [] 0.
Proof.
  split.
  - intros ms' [].
  - intros n' m L. lia.
  - exact I.
  - intros n' k s m [].
  - intros (n & k & x & [] & _).
  - reflexivity.
  - intros n' _ (k & []).
Qed.

(** ** The whole *)
Record ninv (h : list nobs) (l : lqueue) : Prop := {
  ni_reg : nq_reg l = hrun [] (uses h);
  ni_own : forall i p, nth_error (nq_pool l) i = Some p -> cinv i h p;
  ni_none : forall i, nth_error (nq_pool l) i = None -> Forall (foreign i) h;
  ni_who : all_at who [] h }.
Lemma reg_subs h l m : nq_reg l = hrun [] (uses h) -> eq_subs (nq_reg l) m = subscribed h m.
Proof.
  intros R. unfold eq_subs, subscribed. destruct (q_name m) as [| | | |name| | | |]; try reflexivity.
  rewrite R, <- EventsProofs.registered_subs. reflexivity.
Qed.
Lemma hrun_app r a b : hrun r (a ++ b) = hrun (hrun r a) b.
Proof. unfold hrun. now rewrite fold_left_app. Qed.
Lemma none_finished i h : Forall (foreign i) h -> finished i h.
Proof.
  intros F past ms mid E _. exfalso. rewrite Forall_forall in F. assert (In (NDid i (NDecoded ms)) h) as M.
  { rewrite E. apply in_or_app. right. now left. }
  apply F in M. cbn in M. congruence.
Qed.
Lemma uses_did i ev : uses (did i ev) = [].
Proof. unfold uses, did. induction ev as [|x ev IH]; auto. Qed.
Lemma foreign_did i j ev : i <> j -> Forall (foreign i) (did j ev).
Proof. intros D. apply Forall_forall. intros x X. apply in_map_iff in X as (y & <- & _). destruct y; cbn; auto. Qed.
Lemma key_dec (x : exn) : x = KeyErr \/ x <> KeyErr.
Proof. destruct x; try (right; discriminate). now left. Qed.
(** One coroutine's step. *)
Definition seen_first (p : npc) (i : nat) (o : post_outcome) (x : option exn) : list nobs :=
  match p with
  | NPost => [NAnswered i o]
  | NClosing => [NClosed i o]
  | NCall n m k rest => [NReturned i n k x]
  | _ => []
  end.
Lemma run_step e h l i p o x : ninv h l -> nth_error (nq_pool l) i = Some p ->
  let '(q', ev, p') := nq_step e (nq_q l) (nq_reg l) p o x in
  let h' := h ++ seen_first p i o x in cinv i (h' ++ did i ev) p' /\ all_at who h' (did i ev).
Proof.
  intros [R O N W] P. pose proof (O i p P) as C. pose proof (fun m => reg_subs h l m R) as RS.
  destruct p as [| | |n m k rest| |b]; cbn [nq_step seen_first].
  - rewrite app_nil_r. destruct (String.eqb (qe_cap e) "event_queue").
    + destruct (eq_stopped _); cbn; rewrite app_nil_r; split; auto.
    + destruct (String.eqb (qe_cap e) "EventQueueGet"); [now apply top_ok|]. cbn. rewrite app_nil_r. auto.
  - cbn. rewrite app_nil_r. split; [|auto]. apply (finished_mono i h [_]); [exact C|]. repeat constructor.
  - destruct (eq_after (qe_known e) (fun _ => false) (nq_q l) o) as [q ms].
    pose proof (hand_over_ok i (h ++ [NAnswered i o]) ms q (nq_reg l) ms [] 0 (upto_0 _ _ _) eq_refl) as H.
    assert (forall m, eq_subs (nq_reg l) m = subscribed ((h ++ [NAnswered i o]) ++ NDid i (NDecoded ms) :: []) m) as RS'.
    { intros m. rewrite RS, !subscribed_quiet by reflexivity. reflexivity. }
    specialize (H RS'). cbv zeta in H. destruct (hand_over q (nq_reg l) 0 ms) as [[q' ev] p'].
    cbn [did map all_at who] in *. destruct H as [H1 H2]. split; [|split; [exact I|exact H2]].
    now rewrite <- app_assoc in H1.
  - destruct C as (past & ms & mid & -> & D & RE). destruct x as [x|].
    + cbn [swallow_keyerror]. destruct (key_dec x) as [->|NE].
      * pose proof (hand_over_ok i past ms (nq_q l) (nq_reg l) rest (mid ++ [NReturned i n k (Some KeyErr)]) (S n)
                      (during_key _ _ _ _ _ _ _ D) RE) as H.
        assert (forall m, eq_subs (nq_reg l) m = subscribed (past ++ NDid i (NDecoded ms) :: (mid ++ [NReturned i n k (Some KeyErr)])) m) as RS'.
        { intros m'. rewrite RS. rewrite (app_comm_cons mid), app_assoc. symmetry. now apply subscribed_quiet. }
        specialize (H RS'). cbv zeta in H. rewrite <- app_assoc. exact H.
      * assert (forall A (a b : A), match swallow_keyerror (Some x) with Some _ => a | None => b end = a) as SK.
        { intros A a b. destruct x; try reflexivity. congruence. }
        cbn [swallow_keyerror] in SK. rewrite SK. rewrite <- app_assoc. cbn [app]. apply top_ok. now apply (during_broken _ _ _ _ _ m).
    + rewrite RS. destruct (nth_error (subscribed (past ++ NDid i (NDecoded ms) :: mid) m) (S k)) as [s|] eqn:S.
      * cbn [did map all_at who cinv]. split.
        -- exists past, ms, ((mid ++ [NReturned i n k None]) ++ [NDid i (NCalled n (Datatypes.S k) s m)]). split.
           { rewrite <- !app_assoc. reflexivity. }
           split; [now apply during_call|exact RE].
        -- split; [|exact I]. rewrite (subscribed_quiet _ [NReturned i n k None]) by reflexivity. split; [exact S|].
           exists past, ms, (mid ++ [NReturned i n k None]). split; [now rewrite <- app_assoc|].
           destruct D as [A B C D E F G H J NK]. split; [|split; [exact B|split; [|split]]].
           ++ apply same_app. split; [assumption|]. intros y [Y|[]]; discriminate.
           ++ intros X. apply broken_app in X as [X|(a & b & c & [X|[]] & _)]; [auto|discriminate].
           ++ intros X. apply key_app in X as [X|X]; [now apply (NK n)|]. revert X. apply key_one. discriminate.
           ++ intros n' m' L M. now apply handed_app, C.
      * pose proof (hand_over_ok i past ms (nq_q l) (nq_reg l) rest (mid ++ [NReturned i n k None]) (Datatypes.S n)
                      (during_over _ _ _ _ _ _ _ D S) RE) as H.
        assert (forall m, eq_subs (nq_reg l) m = subscribed (past ++ NDid i (NDecoded ms) :: (mid ++ [NReturned i n k None])) m) as RS'.
        { intros m'. rewrite RS. rewrite (app_comm_cons mid), app_assoc. symmetry. now apply subscribed_quiet. }
        specialize (H RS'). cbv zeta in H. rewrite <- app_assoc. exact H.
  - destruct o; cbn; rewrite app_nil_r; (split; [|exact I]); (apply finished_mono; [exact C|repeat constructor]).
  - cbn. rewrite !app_nil_r. auto.
Qed.
