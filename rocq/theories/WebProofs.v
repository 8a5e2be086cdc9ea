(** Proofs about capabilities and the event queue. *)
From Coq Require Import Ascii.
From Verif Require Import Lib SpecWeb EventsProofs.

(** ** Regular expressions: what a pattern can consume *)
Inductive consumes : re -> bytes -> bytes -> Prop :=
| c_eps s : consumes Eps s s
| c_cls (c : byte -> bool) a s : c a = true -> consumes (Cls c) (a :: s) s
| c_star (c : byte -> bool) p s : Forall (fun a => c a = true) p -> consumes (Star c) (p ++ s) s
| c_lstar (c : byte -> bool) p s : Forall (fun a => c a = true) p -> consumes (LStar c) (p ++ s) s
| c_seq a b s s' s'' : consumes a s s' -> consumes b s' s'' -> consumes (Seq a b) s s''
| c_grp n a s s' : consumes a s s' -> consumes (Grp n a) s s'
| c_opt_some a s s' : consumes a s s' -> consumes (Opt a) s s'
| c_opt_none a s : consumes (Opt a) s s
| c_eol s : s = [] \/ s = [x0a] -> consumes Eol s s.

Lemma star_some {A} c (k : bytes -> option A) s : star c k s <> None <->
  exists p s', s = p ++ s' /\ Forall (fun a => c a = true) p /\ k s' <> None.
Proof.
  induction s as [|a s IH]; cbn.
  - split.
    + intros H. exists [], []. auto.
    + intros (p & s' & E & _ & H). symmetry in E. apply app_eq_nil in E as [-> ->]. exact H.
  - destruct (c a) eqn:C.
    + split.
      * destruct (star c k s) eqn:S.
        -- intros _. destruct (proj1 IH) as (p & s' & -> & F & H); [discriminate|].
           exists (a :: p), s'. auto.
        -- intros H. exists [], (a :: s). auto.
      * intros (p & s' & E & F & H). destruct (star c k s) eqn:S; [discriminate|].
        destruct p as [|b p]; cbn in E; [now subst s'|]. injection E as -> ->.
        exfalso. inversion F; subst. apply (proj2 IH); [eauto|reflexivity].
    + split.
      * intros H. exists [], (a :: s). auto.
      * intros (p & s' & E & F & H). destruct p as [|b p]; cbn in E; [now subst s'|].
        injection E as -> ->. inversion F; subst. congruence.
Qed.

Lemma lstar_some {A} c (k : bytes -> option A) s : lstar c k s <> None <->
  exists p s', s = p ++ s' /\ Forall (fun a => c a = true) p /\ k s' <> None.
Proof.
  induction s as [|a s IH]; cbn.
  - split.
    + intros H. exists [], []. repeat split; auto. now destruct (k []).
    + intros (p & s' & E & _ & H). symmetry in E. apply app_eq_nil in E as [-> ->]. now destruct (k []).
  - destruct (k (a :: s)) eqn:K.
    + split; [|discriminate]. intros _. exists [], (a :: s). repeat split; auto. congruence.
    + destruct (c a) eqn:C.
      * rewrite IH. split.
        -- intros (p & s' & -> & F & H). exists (a :: p), s'. auto.
        -- intros (p & s' & E & F & H). destruct p as [|b p]; cbn in E; [subst s'; congruence|].
           injection E as -> ->. inversion F; subst. eauto.
      * split; [congruence|]. intros (p & s' & E & F & H).
        destruct p as [|b p]; cbn in E; [subst s'; congruence|].
        injection E as -> ->. inversion F; subst. congruence.
Qed.

Lemma rmatch_some r : forall cs s k, rmatch r cs s k <> None ->
  exists cs' s', consumes r s s' /\ k cs' s' <> None.
Proof.
  induction r as [|c|c|c|a IHa b IHb|n a IHa|a IHa|]; intros cs s k H; cbn in H.
  - exists cs, s. split; [constructor|exact H].
  - destruct s as [|a s]; [congruence|]. destruct (c a) eqn:C; [|congruence].
    exists cs, s. split; [now constructor|exact H].
  - apply star_some in H as (p & s' & -> & F & H). exists cs, s'. split; [now constructor|exact H].
  - apply lstar_some in H as (p & s' & -> & F & H). exists cs, s'. split; [now constructor|exact H].
  - apply IHa in H as (cs' & s' & C & H). apply IHb in H as (cs'' & s'' & C' & H).
    exists cs'', s''. split; [econstructor; eassumption|exact H].
  - apply IHa in H as (cs' & s' & C & H). eexists. exists s'. split; [now constructor|exact H].
  - destruct (rmatch a cs s k) eqn:R.
    + destruct (IHa cs s k) as (cs' & s' & C & K); [congruence|]. exists cs', s'. split; [now apply c_opt_some|exact K].
    + exists cs, s. split; [apply c_opt_none|exact H].
  - exists cs, s. destruct s as [|b [|b' s]]; [| |destruct b; congruence].
    + split; [constructor; auto|exact H].
    + assert (b = x0a) as -> by (destruct b; congruence). split; [constructor; auto|exact H].
Qed.

Lemma rmatch_finds r s s' : consumes r s s' -> forall cs k, (forall cs', k cs' s' <> None) ->
  rmatch r cs s k <> None.
Proof.
  induction 1 as [s|c a s C|c p s F|c p s F|a b s s' s'' _ IHa _ IHb|n a s s' _ IH|a s s' _ IH|a s|s E];
    intros cs k K; cbn.
  - apply K.
  - rewrite C. apply K.
  - apply star_some. eauto.
  - apply lstar_some. eauto.
  - apply IHa. intros cs'. apply IHb. exact K.
  - apply IH. intros cs'. apply K.
  - destruct (rmatch a cs s k) eqn:R; [discriminate|]. intros _. now apply (IH cs k K).
  - destruct (rmatch a cs s k) eqn:R; [discriminate|apply K].
  - destruct E as [->| ->]; apply K.
Qed.

Lemma re_match_some r s : re_match r s <> None <-> exists s', consumes r s s'.
Proof.
  unfold re_match. split.
  - intros H. apply rmatch_some in H as (cs & s' & C & _). eauto.
  - intros [s' C]. apply (rmatch_finds r s s' C). discriminate.
Qed.

Lemma consumes_seqs l r s s'' : l <> [] -> consumes (seqs (r :: l)) s s'' <->
  exists s', consumes r s s' /\ consumes (seqs l) s' s''.
Proof.
  intros N. destruct l as [|r' l]; [congruence|]. cbn [seqs]. split.
  - intros H. inversion H; subst. eauto.
  - intros (s' & A & B). econstructor; eauto.
Qed.

Lemma consumes_cls c s s' : consumes (Cls c) s s' <-> exists a, s = a :: s' /\ c a = true.
Proof. split; [intros H; inversion H; subst; eauto|intros (a & -> & C); now constructor]. Qed.

Lemma consumes_lit l : forall s s', consumes (seqs (map (fun c => Cls (is_chr c)) l)) s s' <-> s = l ++ s'.
Proof.
  induction l as [|a l IH]; intros s s'.
  - cbn. split; [intros H; inversion H; now subst|intros ->; constructor].
  - destruct l as [|b l].
    + cbn [map seqs app]. rewrite consumes_cls. split.
      * intros (x & -> & C). unfold is_chr in C. apply byte_eqb_true in C as ->. reflexivity.
      * intros ->. exists a. split; [reflexivity|]. apply byte_eqb_refl.
    + cbn [map]. rewrite consumes_seqs by discriminate. setoid_rewrite consumes_cls.
      cbn [map] in IH. setoid_rewrite IH. split.
      * intros (t & (x & -> & C) & ->). unfold is_chr in C. apply byte_eqb_true in C as ->. reflexivity.
      * intros ->. exists ((b :: l) ++ s'). split; [|reflexivity]. exists a. split; [reflexivity|]. apply byte_eqb_refl.
Qed.

Lemma is_dot_spec a : is_dot a = true <-> a <> x0a.
Proof. unfold is_dot. rewrite negb_true_iff. apply byte_eqb_false. Qed.

Lemma llsd_looking s : re_match llsd_re s <> None <-> looks_like_llsd s.
Proof.
  rewrite re_match_some. unfold llsd_re, lit, looks_like_llsd. split.
  - intros [s' H].
    repeat match goal with
    | H : consumes (seqs (_ :: _ :: _)) _ _ |- _ =>
        apply consumes_seqs in H as (? & ? & ?); [|discriminate]
    end.
    repeat match goal with
    | H : consumes (seqs (map _ (bytes_of_string _))) _ _ |- _ => apply consumes_lit in H
    | H : consumes (Cls _) _ _ |- _ => apply consumes_cls in H as (? & ? & ?)
    | H : consumes (LStar _) _ _ |- _ => inversion H; clear H
    end. subst.
    repeat match goal with H : is_dot _ = true |- _ => apply is_dot_spec in H end.
    do 5 eexists. split; [reflexivity|]. repeat split; try assumption.
    intros I. match goal with H : Forall _ _ |- _ => rewrite Forall_forall in H; apply H in I end. discriminate.
  - intros (w1 & d & w2 & inside & rest & -> & W1 & W2 & D & N). exists rest.
    repeat match goal with
    | |- consumes (seqs (_ :: _ :: _)) _ _ => apply consumes_seqs; [discriminate|]; eexists; split
    | |- consumes (seqs (map _ (bytes_of_string _))) _ _ => apply consumes_lit; reflexivity
    | |- consumes (Cls _) _ _ => apply consumes_cls; eexists; split; [reflexivity|]
    | |- consumes (LStar _) _ _ => apply c_lstar; apply Forall_forall; intros; apply is_dot_spec; intros ->; contradiction
    end; try assumption.
    + now apply is_dot_spec.
    + cbn [seqs]. apply (c_star is_dot [] rest). constructor.
Qed.

(** ** Content types *)
Lemma before_semi_spec s : up_to_semicolon s (before_semi s).
Proof.
  unfold up_to_semicolon. induction s as [|c s IH]; cbn.
  - split; [tauto|now left].
  - destruct (Ascii.eqb_spec c ";") as [->|N].
    + split; [cbn; tauto|]. right. now exists s.
    + destruct IH as [IN IE]. split.
      * cbn. intros [H|H]; [congruence|contradiction].
      * destruct IE as [E|(r & E)]; [left; cbn; congruence|]. right. exists r. cbn. congruence.
Qed.
Lemma up_to_semicolon_fun s t t' : up_to_semicolon s t -> up_to_semicolon s t' -> t = t'.
Proof.
  assert (forall a b r, append a (String ";" r) = b -> ~ In ";"%char (list_ascii_of_string b) -> False) as X.
  { intros a b r <- H. apply H. clear. induction a; cbn; auto. }
  revert t t'. induction s as [|c s IH]; intros t t' [N E] [N' E'].
  - destruct E as [<-|(r & E)]; [|destruct t; discriminate].
    destruct E' as [<-|(r & E')]; [reflexivity|destruct t'; discriminate].
  - destruct t as [|a t], t' as [|a' t'].
    + reflexivity.
    + destruct E as [E|(r & E)]; [discriminate|]. cbn in E. injection E as -> ->.
      exfalso. apply N'. left. destruct E' as [E'|(r' & E')]; cbn in E'; congruence.
    + destruct E' as [E'|(r & E')]; [discriminate|]. cbn in E'. injection E' as -> ->.
      exfalso. apply N. left. destruct E as [E|(r' & E)]; cbn in E; congruence.
    + assert (a = c /\ a' = c) as [-> ->].
      { destruct E as [E|(r & E)]; destruct E' as [E'|(r' & E')]; cbn in *; injection E; injection E'; intros; subst; auto. }
      f_equal. apply IH; (split; [intros H; first [solve [apply N; now right] | solve [apply N'; now right]]|]).
      * destruct E as [E|(r & E)]; cbn in E; injection E; intros; [left; congruence|right; exists r; congruence].
      * destruct E' as [E'|(r & E')]; cbn in E'; injection E'; intros; [left; congruence|right; exists r; congruence].
Qed.
Lemma up_to_semicolon_iff s t : up_to_semicolon s t <-> before_semi s = t.
Proof.
  split; [|intros <-; apply before_semi_spec]. intros H.
  exact (up_to_semicolon_fun s _ _ (before_semi_spec s) H).
Qed.

(** ** Deserialization *)
Lemma llsd_deserialize_ok parse b v : llsd_deserialize parse b = Ok v <-> body_value parse b v.
Proof.
  destruct b as [s|]; cbn; [|split; congruence]. unfold deserialize_string.
  destruct (parse s) as [r| |e]; [|split; [discriminate|intros [? _]; discriminate]..].
  destruct (equals_false r) eqn:E.
  - split; [discriminate|]. intros [[= <-] H]. congruence.
  - split; [intros [= <-]; auto|]. intros [[= <-] _]. reflexivity.
Qed.

Lemma deserialize_string_cases parse s : deserialize_string parse s =
  match parse s with
  | ParseOk (LBool false) | ParseOk (LInt 0) | ParseOk (LReal (S754_zero _)) => Err DeserializationFailedErr
  | ParseOk v => Ok v
  | ParseError => Err DeserializationFailedErr
  | ParseRaises e => Err e
  end.
Proof.
  unfold deserialize_string. destruct (parse s) as [v| |e]; try reflexivity.
  destruct v as [|b|z|f|x|u|y|l|m]; try reflexivity; cbn.
  - now destruct b.
  - now destruct z.
  - now destruct f.
Qed.

(** ** GET and POST *)
Lemma GET_ok parse net c h v : cap_GET parse net c h = Ok v <->
  exists ct b, net (ReqGet (cap_url c)) = Response (Some ct) b /\
    up_to_semicolon ct "application/llsd+xml" /\ body_value parse b v.
Proof.
  unfold cap_GET. setoid_rewrite up_to_semicolon_iff.
  destruct (net (ReqGet (cap_url c))) as [[ct|] b|code|e].
  - destruct (String.eqb_spec (before_semi ct) "application/llsd+xml") as [E|N].
    + rewrite llsd_deserialize_ok. split.
      * intros H. exists ct, b. auto.
      * intros (ct' & b' & [= <- <-] & _ & H). exact H.
    + split; [discriminate|]. intros (ct' & b' & [= <- <-] & H & _). contradiction.
  - split; [discriminate|]. intros (ct' & b' & H & _). discriminate.
  - split; [discriminate|]. intros (ct' & b' & H & _). discriminate.
  - split; [discriminate|]. intros (ct' & b' & H & _). discriminate.
Qed.

Lemma response_ok parse ct b v : response_handler parse ct b = Ok v <->
  exists c, ct = Some c /\ post_acceptable c b /\ body_value parse b v.
Proof.
  unfold response_handler, post_acceptable. setoid_rewrite up_to_semicolon_iff.
  destruct ct as [ct|]; [|split; [discriminate|intros (c & H & _); discriminate]].
  destruct (String.eqb_spec (before_semi ct) "application/llsd+xml") as [E1|N1]; cbn [orb].
  { cbn [bind]. rewrite llsd_deserialize_ok. split; [intros H; exists ct; auto|].
    intros (c & _ & _ & H). exact H. }
  destruct (String.eqb_spec (before_semi ct) "application/xml") as [E2|N2].
  { cbn [bind]. rewrite llsd_deserialize_ok. split; [intros H; exists ct; auto|].
    intros (c & _ & _ & H). exact H. }
  destruct (String.eqb_spec (before_semi ct) "text/html") as [E3|N3].
  - destruct b as [s|].
    + pose proof (llsd_looking s) as L. destruct (re_match llsd_re s); cbn [bind].
      * rewrite llsd_deserialize_ok. split.
        -- intros H. exists ct. split; [reflexivity|]. split; [|exact H]. right. right.
           split; [exact E3|]. exists s. split; [reflexivity|]. apply L. discriminate.
        -- intros (c & _ & _ & H). exact H.
      * split; [discriminate|]. intros (c & [= <-] & [H|[H|[_ (s' & [= <-] & H)]]] & _); try contradiction.
        apply L in H. congruence.
    + split; [discriminate|]. intros (c & [= <-] & [H|[H|[_ (s' & H & _)]]] & _); try contradiction; discriminate.
  - cbn [bind]. split; [discriminate|]. intros (c & [= <-] & [H|[H|[H _]]] & _); contradiction.
Qed.

(** ** The seed capability *)
Lemma seed_fold client m names : forall acc,
  fold_left (fun acc name =>
               do caps <- acc;
               do u <- getitem (LMap m) (LStr name);
               Ok (sset name {| nc_name := name; nc_url := u; nc_client := client |} caps))
            names (Err acc) = Err acc.
Proof. induction names as [|n names IH]; intros acc; [reflexivity|]. cbn. apply IH. Qed.

Lemma seed_all client m names : (forall n, In n names -> sget n m <> None) -> forall acc, NoDup (map fst acc) ->
  exists out, fold_left (fun acc name =>
               do caps <- acc;
               do u <- getitem (LMap m) (LStr name);
               Ok (sset name {| nc_name := name; nc_url := u; nc_client := client |} caps))
            names (Ok acc) = Ok out /\ NoDup (map fst out) /\
  forall n, sget n out =
    if in_dec string_dec n names
    then option_map (fun u => {| nc_name := n; nc_url := u; nc_client := client |}) (sget n m)
    else sget n acc.
Proof.
  induction names as [|x names IH]; intros H acc N.
  - exists acc. cbn. auto.
  - cbn [fold_left bind getitem]. destruct (sget x m) as [u|] eqn:U; [|exfalso; apply (H x); [now left|exact U]].
    cbn [bind]. destruct (IH (fun n I => H n (or_intror I))
                            (sset x {| nc_name := x; nc_url := u; nc_client := client |} acc)) as (out & E & NO & G).
    + now apply (dset_nodup _ string_eqb_spec).
    + exists out. split; [exact E|]. split; [exact NO|]. intros n. rewrite G.
      destruct (in_dec string_dec n (x :: names)) as [I|I].
      * destruct (in_dec string_dec n names) as [J|J]; [reflexivity|].
        destruct I as [->|I]; [|contradiction]. rewrite sset_eq, U. reflexivity.
      * destruct (in_dec string_dec n names) as [J|J]; [exfalso; apply I; now right|].
        apply sset_neq. intros ->. apply I. now left.
Qed.

Lemma seed_missing client m names : (exists n, In n names /\ sget n m = None) -> forall acc,
  fold_left (fun acc name =>
               do caps <- acc;
               do u <- getitem (LMap m) (LStr name);
               Ok (sset name {| nc_name := name; nc_url := u; nc_client := client |} caps))
            names (Ok acc) = Err KeyErr.
Proof.
  induction names as [|x names IH]; intros (n & I & H) acc; [destruct I|].
  cbn [fold_left bind getitem]. destruct (sget x m) as [u|] eqn:U.
  - cbn [bind]. apply IH. destruct I as [->|I]; [congruence|]. eauto.
  - cbn [bind]. apply seed_fold.
Qed.

(** ** Event queue: the state after some polls *)
Lemma getitem_id v : getitem v (LStr "id") = match v with
  | LMap m => match sget "id"%string m with Some x => Ok x | None => Err KeyErr end
  | _ => Err TypeErr end.
Proof. now destruct v. Qed.

Lemma latest_snoc outs o : latest (outs ++ [o]) =
  match o with PostOk v => Some v | PostErr _ => latest outs end.
Proof.
  induction outs as [|x outs IH]; cbn; [now destruct o|]. rewrite IH. destruct o; [reflexivity|].
  now destruct (latest outs).
Qed.

Lemma deliver_until raises l : deliver raises l = until_raise raises l.
Proof. induction l as [|m l IH]; cbn; [reflexivity|]. destruct (raises m); [reflexivity|now rewrite IH]. Qed.
(** [st] is the state of a queue after the outcomes [outs]. *)
Definition after (outs : list post_outcome) (st : eqstate) : Prop :=
  ack_id outs (eq_last st) /\
  eq_result st = match latest outs with Some v => v | None => LUndef end.

Lemma after_step known raises outs st o : after outs st ->
  let '(st', del) := eq_after known raises st o in
  after (outs ++ [o]) st' /\ eq_running st' = eq_running st /\ eq_stopped st' = eq_stopped st /\
  del = match latest (outs ++ [o]) with Some v => messages_of known raises v | None => [] end.
Proof.
  intros [A R]. unfold eq_after.
  set (result := match o with PostOk v => v | PostErr _ => eq_result st end).
  assert (result = match latest (outs ++ [o]) with Some v => v | None => LUndef end) as E.
  { unfold result. rewrite latest_snoc. destruct o; [reflexivity|exact R]. }
  clearbody result.
  destruct (is_none result) eqn:NN.
  - assert (result = LUndef) as U by (destruct result; (reflexivity || discriminate)).
    cbn. split; [split|].
    + cbn. apply ack_nothing. unfold nothing_received. revert E. destruct (latest (outs ++ [o])) as [v|]; intros E; [right; congruence|now left].
    + cbn. exact E.
    + repeat split. revert E. destruct (latest (outs ++ [o])) as [v|]; intros E; [|reflexivity]. rewrite <- E, U. reflexivity.
  - destruct (latest (outs ++ [o])) as [v|] eqn:L; [|rewrite E in NN; discriminate].
    subst v. rewrite getitem_id. destruct result as [|b|z|f|s|u|y|l|m] eqn:RR; try discriminate.
    all: try (split; [split; [|cbn; rewrite L; reflexivity]|repeat split];
              cbn; eapply ack_no_id; [exact L|discriminate|intros (i & m & H & _); discriminate|exact A]).
    destruct (sget "id"%string m) as [id|] eqn:I.
    + split; [split; [|cbn; rewrite L; reflexivity]|repeat split].
      * cbn. eapply ack_response; [exact L|]. exists m. auto.
      * cbn [messages_of]. rewrite I. unfold parse_result_eq. cbn [is_none]. destruct (decode_eq_result known id (LMap m)); [apply deliver_until|reflexivity].
    + split; [split; [|cbn; rewrite L; reflexivity]|repeat split].
      * cbn. eapply ack_no_id; [exact L|discriminate|intros (i & m' & [= <-] & H); congruence|exact A].
      * cbn [messages_of]. rewrite I. reflexivity.
Qed.

Lemma snoc_inj {A} (l l' : list A) a a' : l ++ [a] = l' ++ [a'] -> l = l' /\ a = a'.
Proof. apply app_inj_tail. Qed.

Lemma ack_id_fun outs : forall i j, ack_id outs i -> ack_id outs j -> i = j.
Proof.
  induction outs as [|o outs IH] using rev_ind; intros i j H K.
  - inversion H as [|os ? ? X|os ? ? ? X|os ? ? ? X ? ? ?]; subst; try (destruct os; discriminate).
    inversion K as [|os ? ? X|os ? ? ? X|os ? ? ? X ? ? ?]; subst; try (destruct os; discriminate). reflexivity.
  - assert (forall i, ack_id (outs ++ [o]) i ->
      (nothing_received (outs ++ [o]) /\ i = LInt (-1)) \/
      (exists v, latest (outs ++ [o]) = Some v /\ id_of v i) \/
      (exists v, latest (outs ++ [o]) = Some v /\ v <> LUndef /\ (~ exists x, id_of v x) /\ ack_id outs i)) as INV.
    { clear. intros i H. inversion H as [X|os a N X|os a v id L I X|os a v id L U N A X].
      - destruct outs; discriminate.
      - apply snoc_inj in X as [-> ->]. left. auto.
      - apply snoc_inj in X as [-> ->]. right. left. eauto.
      - apply snoc_inj in X as [-> ->]. right. right. exists v. auto. }
    apply INV in H. apply INV in K. clear INV.
    destruct H as [[N ->]|[(v & L & m & -> & I)|(v & L & U & X & A)]];
      destruct K as [[N' ->]|[(v' & L' & m' & -> & I')|(v' & L' & U' & X' & A')]].
    + reflexivity.
    + exfalso. destruct N as [N|N]; congruence.
    + exfalso. destruct N as [N|N]; congruence.
    + exfalso. destruct N' as [N'|N']; congruence.
    + congruence.
    + exfalso. rewrite L in L'. injection L' as <-. apply X'. exists i, m. auto.
    + exfalso. destruct N' as [N'|N']; congruence.
    + exfalso. rewrite L in L'. injection L' as ->. apply X. exists j, m'. auto.
    + now apply IH.
Qed.

Lemma begun_app_not polls : existsb p_stop polls = false -> begun polls = polls.
Proof.
  induction polls as [|p polls IH]; cbn; [reflexivity|]. intros H. apply orb_false_elim in H as [H H'].
  rewrite H. f_equal. auto.
Qed.

(** Prefixes of a list of outcomes, and what each asks to be posted/delivered. *)
Fixpoint posts_for (payload : list post_outcome -> llsd) (done : list post_outcome) (outs : list post_outcome) : list llsd :=
  match outs with
  | [] => []
  | o :: rest => payload done :: posts_for payload (done ++ [o]) rest
  end.

Lemma posts_for_map payload outs : forall done,
  posts_for payload done outs = map (fun k => payload (done ++ firstn k outs)) (seq 0 (List.length outs)).
Proof.
  induction outs as [|o outs IH]; intros done; [reflexivity|].
  cbn [posts_for List.length seq map firstn]. rewrite app_nil_r. f_equal.
  rewrite IH, <- seq_shift, map_map. apply map_ext. intros k. cbn [firstn]. now rewrite <- app_assoc.
Qed.

Definition step_messages known raises (prefix : list post_outcome) : list eqmessage :=
  match latest prefix with Some v => messages_of known raises v | None => [] end.

(** The loop, from a state reached by the outcomes [done]. *)
Lemma loop_from known raises polls : forall done st, after done st -> eq_stopped st = false ->
  let '(st', log) := eq_loop known raises polls st in
  let outs := map p_out (begun polls) in
  after (done ++ outs) st' /\ eq_running st' = eq_running st /\ eq_stopped st' = is_stopped polls /\
  List.length (l_posts log) = List.length outs /\
  (forall k p, nth_error (l_posts log) k = Some p ->
     exists id, ack_id (done ++ firstn k outs) id /\ p = poll_payload id) /\
  l_delivered log =
    List.concat (map (fun k => step_messages known raises (done ++ firstn (S k) outs)) (seq 0 (List.length outs))).
Proof.
  induction polls as [|p polls IH]; intros done st A S.
  - cbn. rewrite S. cbn. rewrite app_nil_r. repeat split; try (exact (proj1 A) || exact (proj2 A)).
    + exact S.
    + intros k q H. destruct k; discriminate.
  - cbn [eq_loop]. rewrite S. pose proof (after_step known raises done st (p_out p) A) as AS.
    destruct (eq_after known raises st (p_out p)) as [st1 del]. destruct AS as (A1 & R1 & S1 & D1).
    destruct (p_stop p) eqn:PS.
    + cbn [begun is_stopped existsb map]. rewrite PS. cbn [orb map].
      assert (eq_loop known raises polls (set_stopped st1 true) =
              (set_stopped st1 true, {| l_posts := []; l_delivered := [] |})) as ->
        by (destruct polls; reflexivity).
      cbn. repeat split.
      * exact (proj1 A1).
      * exact (proj2 A1).
      * exact R1.
      * intros k q H. destruct k as [|k]; [|destruct k; discriminate]. injection H as <-.
        exists (eq_last st). rewrite app_nil_r. split; [exact (proj1 A)|reflexivity].
      * unfold step_messages. now rewrite D1.
    + specialize (IH (done ++ [p_out p]) st1 A1 (eq_trans S1 S)).
      destruct (eq_loop known raises polls st1) as [st2 log].
      destruct IH as (A2 & R2 & S2 & L2 & P2 & D2).
      cbn [begun is_stopped existsb map]. rewrite PS. cbn [orb map].
      rewrite <- app_assoc in A2. cbn [app] in A2.
      split; [exact A2|]. split; [congruence|]. split; [exact S2|].
      cbn [l_posts l_delivered List.length]. split; [now f_equal|]. split.
      * intros [|k] q H; cbn [nth_error] in H.
        -- injection H as <-. exists (eq_last st). cbn [firstn]. rewrite app_nil_r.
           split; [exact (proj1 A)|reflexivity].
        -- destruct (P2 k q H) as (id & I & E). exists id. rewrite <- app_assoc in I. split; [exact I|exact E].
      * cbn [seq map List.concat]. rewrite <- seq_shift, map_map. rewrite D2, D1. unfold step_messages at 2.
        cbn [firstn]. f_equal. f_equal. apply map_ext. intros k. unfold step_messages.
        cbn [firstn]. now rewrite <- app_assoc.
Qed.

Lemma after_init : after [] eq_init.
Proof. split; [constructor|reflexivity]. Qed.

(** ** Delivery counts *)
Lemma delivered_snoc known raises outs o : delivered known raises (outs ++ [o]) =
  delivered known raises outs ++ step_messages known raises (outs ++ [o]).
Proof.
  unfold delivered, step_messages. rewrite app_length. cbn [List.length]. rewrite seq_app. cbn [seq plus].
  rewrite map_app, concat_app. f_equal.
  - f_equal. apply map_ext_in. intros k I. apply in_seq in I.
    rewrite firstn_app. replace (S k - List.length outs)%nat with 0%nat by lia. cbn [firstn]. now rewrite app_nil_r.
  - cbn [map List.concat]. rewrite app_nil_r, firstn_all2 by (rewrite app_length; cbn; lia). reflexivity.
Qed.

Lemma all_messages_snoc known raises outs o : all_messages known raises (outs ++ [o]) =
  all_messages known raises outs ++ match o with PostOk v => messages_of known raises v | PostErr _ => [] end.
Proof. unfold all_messages. rewrite map_app, concat_app. cbn. now rewrite app_nil_r. Qed.

Lemma delivered_longer known raises outs :
  (List.length (all_messages known raises outs) <= List.length (delivered known raises outs))%nat /\
  (List.length (delivered known raises outs) = List.length (all_messages known raises outs) <-> no_redelivery known raises outs) /\
  (no_redelivery known raises outs -> delivered known raises outs = all_messages known raises outs).
Proof.
  induction outs as [|o outs (L & I & E)] using rev_ind.
  - cbn. split; [lia|]. split; [|reflexivity]. split; [|reflexivity].
    intros _ before e rest H. destruct before; discriminate.
  - rewrite delivered_snoc, all_messages_snoc, !app_length. unfold step_messages. rewrite latest_snoc.
    assert (no_redelivery known raises (outs ++ [o]) <->
      no_redelivery known raises outs /\
      match o with PostOk _ => True
                 | PostErr _ => match latest outs with Some v => messages_of known raises v = [] | None => True end
      end) as NR.
    { split.
      - intros H. split.
        + intros before e rest ->. apply (H before e (rest ++ [o])). now rewrite <- app_assoc.
        + destruct o as [v|e]; [trivial|apply (H outs e []); reflexivity].
      - intros [H K] before e rest X.
        destruct (exists_last (l := PostErr e :: rest)) as (l & a & Y); [discriminate|].
        rewrite Y, app_assoc in X. apply app_inj_tail in X as [X ->].
        destruct l as [|b l].
        + cbn in Y. injection Y as <- _. rewrite app_nil_r in X. subst before. exact K.
        + cbn in Y. injection Y as <- ->. apply (H before e l X). }
    rewrite NR. destruct o as [v|e].
    + rewrite <- I. split; [lia|]. split; [split; [intros; split; [lia|trivial]|intros [? _]; lia]|].
      intros [H _]. f_equal. now apply E, I.
    + destruct (latest outs) as [v|].
      * rewrite <- I. cbn [List.length]. split; [lia|]. split.
        -- split.
           ++ intros H. split; [lia|]. destruct (messages_of known raises v); [reflexivity|]. cbn in H. lia.
           ++ intros [H ->]. cbn. lia.
        -- intros [H ->]. rewrite !app_nil_r. now apply E, I.
      * cbn [List.length]. rewrite <- I. split; [lia|]. split; [split; [intros; split; [lia|trivial]|intros [? _]; lia]|].
        intros [H _]. rewrite !app_nil_r. now apply E, I.
Qed.

(** ** Decoding events *)
Lemma eq_vars_map m : forall part, NoDup (map fst m) -> incl part m ->
  eq_vars (LMap m) (map (fun p => LStr (fst p)) part) = Ok (map (fun '(k, v) => (LStr k, v)) part).
Proof.
  induction part as [|[k v] part IH]; intros N I; [reflexivity|]. cbn [map eq_vars getitem fst].
  rewrite (dget_In_nodup _ string_eqb_spec k v m N (I _ (or_introl eq_refl))). cbn [bind].
  rewrite IH by (auto; intros x X; apply I; now right). reflexivity.
Qed.

Lemma proper_nodup m : proper (LMap m) -> NoDup (map fst m).
Proof.
  intros H. inversion H as [m' N F E|l F E|v NM NL E]; subst; [exact N|]. exfalso. now apply (NM m).
Qed.
Lemma proper_entry m k v : proper (LMap m) -> In (k, v) m -> proper v.
Proof.
  intros H I. inversion H as [m' N F E|l F E|v' NM NL E]; subst; [|exfalso; now apply (NM m)].
  rewrite Forall_forall in F. exact (F (k, v) I).
Qed.
Lemma proper_elem l v : proper (LArr l) -> In v l -> proper v.
Proof.
  intros H I. inversion H as [m' N F E|l' F E|v' NM NL E]; subst; [|exfalso; now apply (NL l)].
  rewrite Forall_forall in F. exact (F v I).
Qed.
Lemma proper_str s : proper (LStr s).
Proof. apply proper_atom; discriminate. Qed.
Lemma proper_iterate v l x : proper v -> iterate v = Ok l -> In x l -> proper x.
Proof.
  intros P H I. destruct v; cbn in H; try discriminate; injection H as <-.
  - clear P. induction s as [|c s IH]; [destruct I|]. destruct I as [<-|I]; [apply proper_str|auto].
  - apply in_map_iff in I as (c & <- & _). apply proper_str.
  - eapply proper_elem; eassumption.
  - apply in_map_iff in I as (c & <- & _). apply proper_str.
Qed.

Lemma eq_block_iff name v b : proper v ->
  (eq_block name v = Ok b <-> exists es, entries v es /\ b = as_block name es).
Proof.
  intros P. unfold eq_block, entries. split.
  - destruct v as [|x|z|f|s|u|y|l|m]; cbn [iterate bind]; try discriminate.
    + destruct s as [|c s]; cbn [chars eq_vars getitem bind]; [|discriminate].
      intros [= <-]. exists []. split; [auto|reflexivity].
    + destruct y as [|c y]; cbn [map eq_vars getitem bind]; [|discriminate].
      intros [= <-]. exists []. split; [auto 6|reflexivity].
    + destruct l as [|c l]; cbn [eq_vars getitem bind]; [|discriminate].
      intros [= <-]. exists []. split; [auto 6|reflexivity].
    + rewrite (eq_vars_map m m (proper_nodup _ P) (incl_refl _)). cbn [bind]. intros [= <-].
      exists m. split; [auto|reflexivity].
  - intros (es & [->|(-> & [->|[->| ->]])] & ->); try reflexivity. cbn [iterate bind].
    rewrite (eq_vars_map es es (proper_nodup _ P) (incl_refl _)). reflexivity.
Qed.

Lemma eq_instances_iff name l : forall d d', Forall proper l ->
  (eq_instances name l d = Ok d' <->
   exists is, Forall2 entries l is /\ d' = fold_left eq_add_block (map (as_block name) is) d).
Proof.
  induction l as [|v l IH]; intros d d' F; cbn [eq_instances].
  - split.
    + intros [= <-]. exists []. split; [constructor|reflexivity].
    + intros (is & H & ->). inversion H. reflexivity.
  - inversion F as [|? ? PV PL]; subst. pose proof (eq_block_iff name v) as B.
    destruct (eq_block name v) as [b|e]; cbn [bind].
    + rewrite IH by exact PL. destruct (proj1 (B b PV) eq_refl) as (es & E & ->). split.
      * intros (is & H & ->). exists (es :: is). split; [now constructor|reflexivity].
      * intros (is & H & ->). inversion H as [|? es' ? is' E' H']; subst. exists is'. split; [exact H'|].
        cbn [map fold_left]. f_equal. f_equal.
        assert (Ok (as_block name es) = Ok (as_block name es')) as [= K]; [|unfold as_block; now rewrite K].
        apply B; [exact PV|]. eauto.
    + split; [discriminate|]. intros (is & H & ->). inversion H as [|? es' ? is' E' H']; subst.
      assert (Err e = Ok (as_block name es')); [apply B; eauto|discriminate].
Qed.

Lemma eq_add_blocks_new name insts d : ~ In name (map fst d) -> insts <> [] ->
  fold_left eq_add_block (map (as_block name) insts) d = d ++ [(name, map (as_block name) insts)].
Proof.
  intros N NE. destruct insts as [|i insts]; [congruence|]. cbn [map fold_left].
  assert (forall rest done, done <> [] -> fold_left eq_add_block (map (as_block name) rest) (d ++ [(name, done)]) =
            d ++ [(name, done ++ map (as_block name) rest)]) as G.
  { assert (forall u v, sset name v (d ++ [(name, u)]) = d ++ [(name, v)]) as SS.
    { clear -N. induction d as [|[k x] d IH]; intros u v; cbn.
      - now rewrite String.eqb_refl.
      - destruct (String.eqb_spec name k) as [->|]; [exfalso; apply N; now left|].
        rewrite IH; [reflexivity|]. intros H. apply N. now right. }
    assert (forall u, sget name (d ++ [(name, u)]) = Some u) as GG.
    { clear -N. induction d as [|[k x] d IH]; intros u; cbn.
      - now rewrite String.eqb_refl.
      - destruct (String.eqb_spec name k) as [->|]; [exfalso; apply N; now left|].
        apply IH. intros H. apply N. now right. }
    induction rest as [|r rest IH]; intros done DN; cbn [map fold_left].
    - now rewrite app_nil_r.
    - unfold eq_add_block at 2. cbn [qb_name as_block]. rewrite GG, SS.
      rewrite IH by (destruct done; discriminate). now rewrite <- app_assoc. }
  unfold eq_add_block at 2. cbn [qb_name as_block].
  assert (sget name d = None) as -> by (apply (dget_None _ string_eqb_spec); exact N).
  rewrite (dset_app_new _ name).
  - rewrite G by discriminate. reflexivity.
  - unfold dmem. assert (sget name d = None) as -> by (apply (dget_None _ string_eqb_spec); exact N). reflexivity.
Qed.

Lemma eq_blocks_iff m : proper (LMap m) -> forall part d d', incl part m -> NoDup (map fst part) ->
  (forall k, In k (map fst part) -> ~ In k (map fst d)) ->
  (eq_blocks (LMap m) (map (fun p => LStr (fst p)) part) d = Ok d' <->
   exists b, Forall2 block_of part b /\ d' = d ++ body_blocks b).
Proof.
  intros P. induction part as [|[n v] part IH]; intros d d' I NP K.
  - cbn. split.
    + intros [= <-]. exists []. split; [constructor|]. cbn. now rewrite app_nil_r.
    + intros (b & H & ->). inversion H. cbn. now rewrite app_nil_r.
  - inversion NP as [|? ? X NP']; subst. cbn [map eq_blocks fst].
    assert (getitem (LMap m) (LStr n) = Ok v) as ->.
    { cbn [getitem]. rewrite (dget_In_nodup _ string_eqb_spec n v m (proper_nodup _ P)); [reflexivity|].
      apply I. now left. }
    cbn [bind].
    assert (proper v) as PV by (apply (proper_entry m n); [exact P|apply I; now left]).
    assert (incl part m) as I' by (intros x Hx; apply I; now right).
    destruct (iterate v) as [l|e] eqn:IT; cbn [bind].
    + assert (Forall proper l) as PL by (apply Forall_forall; intros x Hx; eapply proper_iterate; eassumption).
      pose proof (fun d' => eq_instances_iff n l d d' PL) as B.
      assert (forall is, let d1 := fold_left eq_add_block (map (as_block n) is) d in
        (forall k, In k (map fst part) -> ~ In k (map fst d1)) /\
        (forall b, d1 ++ body_blocks b = d ++ body_blocks ((n, is) :: b))) as STEP.
      { intros is. destruct is as [|i0 is0].
        - cbn. split; [|reflexivity]. intros k Hk. apply K. now right.
        - cbn zeta. rewrite eq_add_blocks_new; [|apply K; now left|discriminate]. split.
          + intros k Hk. rewrite map_app, in_app_iff. intros [H|H].
            * apply (K k); [now right|exact H].
            * cbn in H. destruct H as [<-|[]]. contradiction.
          + intros b. rewrite <- app_assoc. reflexivity. }
      destruct (eq_instances n l d) as [d1|e]; cbn [bind].
      * destruct (proj1 (B d1) eq_refl) as (is & F & ->). destruct (STEP is) as [K1 A1].
        rewrite IH by assumption. split.
        -- intros (b & H & ->). exists ((n, is) :: b). split; [|apply A1].
           constructor; [|exact H]. split; [reflexivity|]. exists l. auto.
        -- intros (b & H & ->). inversion H as [|? [n' is'] ? b' [EN (l' & EL & F')] H']; subst. cbn in EN, EL, F'.
           subst n'. unfold elements in EL. rewrite IT in EL. injection EL as <-.
           exists b'. split; [exact H'|].
           assert (Ok (fold_left eq_add_block (map (as_block n) is) d) =
                   Ok (fold_left eq_add_block (map (as_block n) is') d)) as [= Q] by (apply B; eauto).
           rewrite Q. symmetry. apply STEP.
      * split; [discriminate|]. intros (b & H & ->).
        inversion H as [|? [n' is'] ? b' [EN (l' & EL & F')] H']; subst. cbn in EN, EL, F'.
        unfold elements in EL. rewrite IT in EL. injection EL as <-.
        assert (Err e = Ok (fold_left eq_add_block (map (as_block n) is') d)) by (apply B; eauto). discriminate.
    + split; [discriminate|]. intros (b & H & ->).
      inversion H as [|? [n' is'] ? b' [EN (l' & EL & F')] H']; subst. cbn in EL.
      unfold elements in EL. congruence.
Qed.

Lemma eq_body_iff body blocks : proper body ->
  ((do keys <- iterate body; eq_blocks body keys []) = Ok blocks <->
   exists b, body_of body b /\ blocks = body_blocks b).
Proof.
  intros P. unfold body_of, entries. split.
  - destruct body as [|x|z|f|s|u|y|l|m]; cbn [iterate bind]; try discriminate.
    + destruct s as [|c s]; cbn [chars eq_blocks getitem bind]; [|discriminate].
      intros [= <-]. exists []. split; [exists []; auto 8|reflexivity].
    + destruct y as [|c y]; cbn [map eq_blocks getitem bind]; [|discriminate].
      intros [= <-]. exists []. split; [exists []; auto 8|reflexivity].
    + destruct l as [|c l]; cbn [eq_blocks getitem bind]; [|discriminate].
      intros [= <-]. exists []. split; [exists []; auto 8|reflexivity].
    + rewrite (eq_blocks_iff m P m [] _ (incl_refl _) (proper_nodup _ P)) by (intros k _ []).
      intros (b & H & ->). exists b. split; [exists m; auto|reflexivity].
  - intros (b & (es & [->|(-> & E)] & F) & ->).
    + cbn [iterate bind].
      apply (eq_blocks_iff es P es [] _ (incl_refl _) (proper_nodup _ P)); [intros k _ []|]. eauto.
    + inversion F; subst. destruct E as [->|[->| ->]]; reflexivity.
Qed.

Lemma eq_message_iff known id ev m : proper ev ->
  (eq_message known id ev = Ok m <-> event_message known id ev m).
Proof.
  intros P. unfold eq_message. split.
  - destruct ev as [|x|z|f|s|u|y|l|em]; cbn [getitem bind]; try discriminate.
    destruct (sget "message"%string em) as [name|] eqn:M; cbn [bind]; [|discriminate].
    assert (forall body, sget "body"%string em = Some body -> proper body) as PB.
    { intros body H. eapply proper_entry; [exact P|]. eapply (dget_In _ string_eqb_spec). exact H. }
    assert (forall body, sget "body"%string em = Some body -> event_with (LMap em) name body) as EW.
    { intros body H. exists em. auto. }
    assert (forall body blocks, sget "body"%string em = Some body -> unknown_name known name ->
      (do b <- eq_block "Message_Data" body; Ok (eq_add_block [] b)) = Ok blocks ->
      event_message known id (LMap em) {| q_name := name; q_id := id; q_blocks := blocks |}) as UN.
    { intros body blocks B U H. destruct (eq_block "Message_Data" body) as [b|] eqn:EB; [|discriminate].
      cbn [bind] in H. injection H as <-.
      apply eq_block_iff in EB as (es & EE & ->); [|auto].
      eapply event_unknown; [exact (EW _ B)|exact U|exact EE|reflexivity]. }
    destruct name as [|x|z|f|s|u|y|l|nm]; cbn [bind]; try discriminate.
    5: destruct (known s) eqn:KN; cbn [bind].
    all: (destruct (sget "body"%string em) as [body|] eqn:B; cbn [bind]; [|discriminate]).
    5: { pose proof (eq_body_iff body) as EB.
         destruct (do keys <- iterate body; eq_blocks body keys []) as [blocks|]; cbn [bind]; [|discriminate].
         intros [= <-]. destruct (proj1 (EB blocks (PB _ eq_refl)) eq_refl) as (b & BO & ->).
         eapply event_known; [exact (EW _ eq_refl)|exact KN|exact BO|reflexivity]. }
    all: specialize (UN body).
    all: destruct (do b <- eq_block "Message_Data" body; Ok (eq_add_block [] b)) as [blocks|]; cbn [bind]; [|discriminate].
    all: intros [= <-]; apply UN; [reflexivity|try exact I; try exact KN|reflexivity].
  - assert (forall em body, ev = LMap em -> sget "body"%string em = Some body -> proper body) as PB.
    { intros em body -> H. eapply proper_entry; [exact P|]. eapply (dget_In _ string_eqb_spec). exact H. }
    intros [name body b (e & -> & M & B) KN BO ->|name body vars (e & -> & M & B) UN EE ->].
    + cbn [getitem]. rewrite M. cbn [bind]. rewrite KN, B. cbn [bind].
      assert ((do keys <- iterate body; eq_blocks body keys []) = Ok (body_blocks b)) as ->; [|reflexivity].
      apply eq_body_iff; [exact (PB e body eq_refl B)|exists b; auto].
    + cbn [getitem]. rewrite M. cbn [bind]. rewrite B. cbn [bind].
      assert (eq_block "Message_Data" body = Ok (as_block "Message_Data" vars)) as ->.
      { apply eq_block_iff; [exact (PB e body eq_refl B)|exists vars; auto]. }
      destruct name; cbn in UN; try contradiction; try reflexivity. now rewrite UN.
Qed.

Lemma eq_events_iff known id evs : forall ms, Forall proper evs ->
  (eq_events known id evs = Ok ms <-> Forall2 (event_message known id) evs ms).
Proof.
  induction evs as [|ev evs IH]; intros ms F; cbn [eq_events].
  - split; [intros [= <-]; constructor|intros H; inversion H; reflexivity].
  - inversion F as [|? ? PE PL]; subst. pose proof (eq_message_iff known id ev) as B.
    destruct (eq_message known id ev) as [m|e]; cbn [bind].
    + destruct (eq_events known id evs) as [r|e]; cbn [bind].
      * split.
        -- intros [= <-]. constructor; [now apply B|]. now apply IH.
        -- intros H. inversion H as [|? m' ? ms' E' H']; subst. apply B in E'; [|exact PE].
           apply IH in H'; [|exact PL]. congruence.
      * split; [discriminate|]. intros H. inversion H as [|? m' ? ms' E' H']; subst.
        apply IH in H'; [discriminate|exact PL].
    + split; [discriminate|]. intros H. inversion H as [|? m' ? ms' E' H']; subst.
      apply B in E'; [discriminate|exact PE].
Qed.

Lemma eq_entries_iff known id m : forall ms, Forall (fun p => proper (snd p)) m ->
  (eq_entries known id m = Ok ms <-> entries_messages known id m ms).
Proof.
  induction m as [|[k v] m IH]; intros ms F; cbn [eq_entries].
  - split; [intros [= <-]; constructor|intros H; inversion H; reflexivity].
  - inversion F as [|? ? PV PL]; subst. cbn in PV. destruct (String.eqb_spec k "id") as [->|N]; cbn [bind].
    + destruct (eq_entries known id m) as [b|e]; cbn [bind app].
      * split.
        -- intros [= <-]. constructor. now apply IH.
        -- intros H. inversion H as [|? ? ? H'|? ? ? ? ? ? N']; subst; [|congruence].
           apply IH in H'; [exact H'|exact PL].
      * split; [discriminate|]. intros H. inversion H as [|? ? ? H'|? ? ? ? ? ? N']; subst; [|congruence].
        apply IH in H'; [discriminate|exact PL].
    + assert (forall ms, entries_messages known id ((k, v) :: m) ms <->
        exists evs a b, iterate v = Ok evs /\ Forall2 (event_message known id) evs a /\
          entries_messages known id m b /\ ms = a ++ b) as INV.
      { intros ms'. split.
        - intros H. inversion H as [| |? ? evs ? a b N' EL FE ER]; subst; [congruence|]. exists evs, a, b. auto.
        - intros (evs & a & b & EL & FE & ER & ->). econstructor; eassumption. }
      rewrite INV. destruct (iterate v) as [evs|e] eqn:IT; cbn [bind].
      * assert (Forall proper evs) as PE by (apply Forall_forall; intros x Hx; eapply proper_iterate; eassumption).
        pose proof (fun ms => eq_events_iff known id evs ms PE) as B.
        destruct (eq_events known id evs) as [a|e]; cbn [bind].
        -- destruct (eq_entries known id m) as [b|e]; cbn [bind].
           ++ split.
              ** intros [= <-]. exists evs, a, b. repeat split; [now apply B|now apply IH].
              ** intros (evs' & a' & b' & [= <-] & FE & ER & ->). apply B in FE. apply IH in ER; [|exact PL]. congruence.
           ++ split; [discriminate|]. intros (evs' & a' & b' & [= <-] & FE & ER & ->).
              apply IH in ER; [discriminate|exact PL].
        -- split; [discriminate|]. intros (evs' & a' & b' & [= <-] & FE & ER & ->). apply B in FE. discriminate.
      * split; [discriminate|]. intros (evs' & a' & b' & H & _). discriminate.
Qed.

Lemma decode_iff known id data ms : proper data ->
  (decode_eq_result known id data = Ok ms <->
   exists m, data = LMap m /\
     if in_dec string_dec "events"%string (map fst m) then entries_messages known id m ms else ms = []).
Proof.
  intros P. unfold decode_eq_result. destruct data as [|x|z|f|s|u|y|l|m];
    try (split; [discriminate|intros (m & H & _); discriminate]).
  assert (Forall (fun p => proper (snd p)) m) as F.
  { apply Forall_forall. intros [k v] I. eapply proper_entry; eassumption. }
  assert (dmem String.eqb "events"%string m = if in_dec string_dec "events"%string (map fst m) then true else false) as ->.
  { unfold dmem. destruct (in_dec string_dec "events"%string (map fst m)) as [I|I].
    - destruct (sget "events"%string m) eqn:G; [reflexivity|].
      apply (dget_None _ string_eqb_spec) in G. contradiction.
    - apply (dget_None _ string_eqb_spec) in I. now rewrite I. }
  destruct (in_dec string_dec "events"%string (map fst m)) as [I|I].
  - rewrite eq_entries_iff by exact F. split; [intros H; exists m; split; [reflexivity|]|intros (m' & [= <-] & H)].
    + now destruct (in_dec string_dec "events"%string (map fst m)).
    + now destruct (in_dec string_dec "events"%string (map fst m)).
  - split; [intros [= <-]; exists m; split; [reflexivity|]|intros (m' & [= <-] & H)].
    + now destruct (in_dec string_dec "events"%string (map fst m)).
    + destruct (in_dec string_dec "events"%string (map fst m)); [contradiction|now subst].
Qed.

(** ** start() on a region queue *)
Lemma start_region known raises polls closing st log r :
  eq_start known raises "EventQueueGet" polls closing eq_init = (st, log, r) ->
  let outs := map p_out (begun polls) in
  exists ids id, List.length ids = List.length outs /\
    (forall k i, nth_error ids k = Some i -> ack_id (firstn k outs) i) /\
    ack_id outs id /\
    l_posts log = map poll_payload ids ++
      (if is_stopped polls && negb (equals_minus1 id) then [closing_payload id] else []) /\
    l_delivered log = delivered known raises outs /\
    eq_stopped st = is_stopped polls /\
    eq_running st = negb (is_stopped polls && (equals_minus1 id || match closing with PostOk _ => true | PostErr _ => false end)) /\
    r = (if is_stopped polls
         then Some (equals_minus1 id || match closing with PostOk _ => true | PostErr _ => false end)
         else None).
Proof.
  intros H outs. unfold eq_start in H.
  change (String.eqb "EventQueueGet" "event_queue") with false in H.
  change (String.eqb "EventQueueGet" "EventQueueGet") with true in H. cbn iota in H.
  assert (after [] (set_running eq_init true)) as A0 by (split; [constructor|reflexivity]).
  pose proof (loop_from known raises polls [] (set_running eq_init true) A0 eq_refl) as L.
  destruct (eq_loop known raises polls (set_running eq_init true)) as [st1 log1].
  cbn [app] in L. fold outs in L. destruct L as (A & R & S & LP & PP & DD).
  cbn [eq_running set_running] in R.
  assert (exists ids, List.length ids = List.length outs /\
    (forall k i, nth_error ids k = Some i -> ack_id (firstn k outs) i) /\ l_posts log1 = map poll_payload ids)
    as (ids & LI & II & PI).
  { clear -LP PP. revert PP. generalize (l_posts log1) LP. clear.
    assert (forall n (posts : list llsd), List.length posts = n -> 
       (forall k p, nth_error posts k = Some p -> exists id, ack_id (firstn k outs) id /\ p = poll_payload id) ->
       exists ids, List.length ids = n /\ (forall k i, nth_error ids k = Some i -> ack_id (firstn k outs) i) /\
         posts = map poll_payload ids) as G; [|intros posts LP PP; exact (G _ posts LP PP)].
    intros n posts. revert n. induction posts as [|p posts IH] using rev_ind; intros n LP PP.
    - exists []. split; [exact LP|]. split; [|reflexivity]. intros [|k] i H; discriminate.
    - rewrite app_length in LP. cbn in LP.
      destruct (IH (List.length posts) eq_refl) as (ids & LI & II & ->).
      { intros k q H. apply PP. rewrite nth_error_app1; [exact H|]. apply nth_error_Some. congruence. }
      rewrite map_length in *. destruct (PP (List.length ids) p) as (id & AI & ->).
      { rewrite nth_error_app2 by (rewrite map_length; lia). rewrite map_length, Nat.sub_diag. reflexivity. }
      exists (ids ++ [id]). split; [rewrite app_length; cbn; lia|]. split; [|now rewrite map_app].
      intros k i H. destruct (Nat.lt_ge_cases k (List.length ids)) as [C|C].
      + rewrite nth_error_app1 in H by exact C. now apply II.
      + rewrite nth_error_app2 in H by exact C. destruct (k - List.length ids)%nat as [|j] eqn:J; [|destruct j; discriminate].
        cbn in H. injection H as <-. now replace k with (List.length ids) by lia. }
  exists ids, (eq_last st1). split; [exact LI|]. split; [exact II|]. split; [exact (proj1 A)|].
  rewrite S in H. destruct (is_stopped polls); cbn [andb negb].
  - destruct (equals_minus1 (eq_last st1)); cbn [orb negb].
    + injection H as <- <- <-. cbn. rewrite app_nil_r. repeat split; try assumption.
    + destruct closing; injection H as <- <- <-; cbn; rewrite PI; repeat split; try assumption.
  - injection H as <- <- <-. rewrite app_nil_r. repeat split; try assumption.
Qed.

Lemma loop_stops known raises before p rest : p_stop p = true -> forall st,
  eq_loop known raises (before ++ p :: rest) st = eq_loop known raises (before ++ [p]) st.
Proof.
  intros PS. induction before as [|q before IH]; intros st; cbn [app eq_loop].
  - destruct (eq_stopped st); [reflexivity|]. destruct (eq_after known raises st (p_out p)) as [st1 del].
    rewrite PS. destruct rest; reflexivity.
  - destruct (eq_stopped st); [reflexivity|]. destruct (eq_after known raises st (p_out q)) as [st1 del].
    rewrite IH. reflexivity.
Qed.

(** ** Requests *)
Lemma update_headers_get custom : NoDup (map fst custom) -> forall h k,
  sget k (update_headers h custom) = match sget k custom with Some v => Some v | None => sget k h end.
Proof.
  unfold update_headers. induction custom as [|[k0 v0] custom IH]; intros N h k; [reflexivity|].
  inversion N as [|? ? X N']; subst. cbn [fold_left sget map fst]. rewrite IH by exact N'.
  unfold sget at 3. cbn [dget]. fold (sget k custom).
  destruct (String.eqb_spec k k0) as [->|NE].
  - assert (sget k0 custom = None) as -> by (apply (dget_None _ string_eqb_spec); exact X).
    apply sset_eq.
  - destruct (sget k custom); [reflexivity|]. now apply sset_neq.
Qed.

Lemma fresh_headers custom : NoDup (map fst custom) -> forall h,
  (forall k, In k (map fst custom) -> ~ In k (map fst h)) -> update_headers h custom = h ++ custom.
Proof.
  unfold update_headers. induction custom as [|[k v] custom IH]; intros N h F; cbn [fold_left]; [now rewrite app_nil_r|].
  inversion N as [|? ? X N']; subst.
  assert (sset k v h = h ++ [(k, v)]) as ->.
  { assert (~ In k (map fst h)) as K by (apply F; now left). clear - K. induction h as [|[k' v'] h IH]; [reflexivity|]. cbn.
    destruct (String.eqb_spec k k') as [->|NE]; [exfalso; apply K; now left|]. f_equal. apply IH. intros I. apply K. now right. }
  rewrite IH; [now rewrite <- app_assoc|exact N'|]. intros k' I J. rewrite map_app in J. apply in_app_or in J as [J|[<-|[]]].
  - revert J. apply F. now right.
  - contradiction.
Qed.
Lemma posted_headers_is custom : NoDup (map fst custom) ->
  update_headers [("Content-type", "application/llsd+xml")%string] custom = posted_headers custom.
Proof.
  intros N. unfold posted_headers. set (c := "Content-type"%string). generalize "application/llsd+xml"%string as v.
  induction custom as [|[k x] custom IH]; intros v; [reflexivity|]. inversion N as [|? ? X N']; subst.
  unfold update_headers. cbn [fold_left]. cbn [sset dset dget filter].
  rewrite (String.eqb_sym c k). destruct (String.eqb_spec k c) as [->|NE]; cbn [negb].
  - fold (update_headers [(c, x)] custom). rewrite fresh_headers; [|exact N'|].
    + cbn [app]. f_equal. symmetry. clear - X. induction custom as [|[k v] custom IH]; [reflexivity|]. cbn [filter].
      destruct (String.eqb_spec k c) as [->|NE]; [exfalso; apply X; now left|]. cbn [negb]. f_equal. apply IH. intros I. apply X. now right.
    + intros k I [<-|[]]. contradiction.
  - fold (update_headers [(c, v); (k, x)] custom).
    assert (forall h, ~ In k (map fst custom) -> k <> c -> update_headers [(c, h); (k, x)] custom =
      match update_headers [(c, h)] custom with y :: l => y :: (k, x) :: l | [] => [] end) as K.
    { intros h NI NC. clear IH N N' X. unfold update_headers. enough (forall l h l', (forall z, In z l' -> ~ In (fst z) (map fst l) \/ True) ->
        (~ In k (map fst l)) -> exists y l'', fold_left (fun h '(k, v) => sset k v h) l ((c, h) :: l') = (c, y) :: l'' /\
        fold_left (fun h '(k, v) => sset k v h) l ((c, h) :: (k, x) :: l') = (c, y) :: (k, x) :: l'') as G.
      { destruct (G custom h [] ltac:(intros z []) NI) as (y & l'' & -> & ->). reflexivity. }
      induction l as [|[k' v'] l IH]; intros h' l' F NI'; cbn [fold_left]; [eauto|].
      cbn [sset dset]. destruct (String.eqb_spec k' c) as [->|NE'].
      - apply IH; [auto|]. intros I. apply NI'. now right.
      - destruct (String.eqb_spec k' k) as [->|NE2]; [exfalso; apply NI'; now left|].
        apply IH; [auto|]. intros I. apply NI'. now right. }
    rewrite K by assumption. rewrite IH by exact N'. reflexivity.
Qed.

Lemma POST_ok parse format net c payload custom v : cap_POST parse format net c payload custom = Ok v <->
  ((exists l, payload = LArr l) \/ (exists m, payload = LMap m)) /\
  exists data ct b, format payload = Ok data /\
    net (ReqPost (cap_url c) data (update_headers [("Content-type", "application/llsd+xml")%string] custom))
      = Response (Some ct) b /\
    post_acceptable ct b /\ body_value parse b v.
Proof.
  assert (forall d, (do data <- format d;
      post_raw parse net c (update_headers [("Content-type", "application/llsd+xml")%string] custom) data) = Ok v <->
    exists data ct b, format d = Ok data /\
    net (ReqPost (cap_url c) data (update_headers [("Content-type", "application/llsd+xml")%string] custom))
      = Response (Some ct) b /\ post_acceptable ct b /\ body_value parse b v) as G.
  { intros d. destruct (format d) as [data|e]; cbn [bind].
    - unfold post_raw. destruct (net _) as [ct b|code|e] eqn:NET.
      + rewrite response_ok. split.
        * intros (ct' & -> & PA & BV). exists data, ct', b. rewrite NET. auto.
        * intros (data' & ct' & b' & [= <-] & NET' & PA & BV). rewrite NET in NET'. injection NET' as -> ->. eauto.
      + split; [discriminate|]. intros (data' & ct' & b' & [= <-] & NET' & _). congruence.
      + split; [discriminate|]. intros (data' & ct' & b' & [= <-] & NET' & _). congruence.
    - split; [discriminate|]. intros (data' & ct' & b' & H & _). discriminate. }
  unfold cap_POST. destruct payload as [|x|z|f|s|u|y|l|m];
    try (split; [discriminate|intros [[(? & H)|(? & H)] _]; discriminate]).
  - rewrite G. split; [intros H; split; [eauto|exact H]|intros [_ H]; exact H].
  - rewrite G. split; [intros H; split; [eauto|exact H]|intros [_ H]; exact H].
Qed.

Lemma seed_fold_iff client parsed names out :
  fold_left (fun acc name =>
               do caps <- acc;
               do u <- getitem parsed (LStr name);
               Ok (sset name {| nc_name := name; nc_url := u; nc_client := client |} caps))
            names (Ok []) = Ok out ->
  NoDup (map fst out) /\
  forall n, (In n names -> exists m u, parsed = LMap m /\ sget n m = Some u /\
               sget n out = Some {| nc_name := n; nc_url := u; nc_client := client |}) /\
            (~ In n names -> sget n out = None).
Proof.
  intros H. destruct names as [|n0 names].
  - injection H as <-. split; [constructor|]. intros n. split; [intros []|reflexivity].
  - destruct parsed as [|x|z|f|s|u|y|l|m].
    all: try (exfalso; cbn [fold_left bind getitem] in H;
              assert (forall e names, fold_left (fun acc name => do caps <- acc;
                        do u0 <- (Err TypeErr : res llsd); Ok (sset name {| nc_name := name; nc_url := u0; nc_client := client |} caps))
                        names (Err e) = Err e) as G
                by (clear; intros e names; induction names as [|k names IH]; [reflexivity|exact IH]);
              cbn [getitem] in *; rewrite G in H; discriminate).
    assert (forall n, In n (n0 :: names) -> sget n m <> None) as ALL.
    { intros n I E. rewrite (seed_missing client m (n0 :: names)) in H; [discriminate|eauto]. }
    destruct (seed_all client m (n0 :: names) ALL [] (NoDup_nil _)) as (out' & E & N & G).
    rewrite E in H. injection H as <-. split; [exact N|]. intros n. rewrite (G n). split.
    + intros I. destruct (sget n m) as [u|] eqn:U; [|exfalso; now apply (ALL n)].
      exists m, u. split; [reflexivity|]. split; [exact U|].
      destruct (in_dec string_dec n (n0 :: names)); [reflexivity|contradiction].
    + intros I. now destruct (in_dec string_dec n (n0 :: names)).
Qed.
