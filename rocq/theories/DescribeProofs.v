From Coq Require Import Sorting.Sorted.
From Verif Require Import Lib SpecDescribe IntTextProofs TextProofs HeaderProofs TemplateParser.
Open Scope Z_scope.

(** ** Hexadecimal numbers *)
Lemma spelled h : spelled_hex (flat_map hex2 h) h.
Proof.
  exists (map hex2 h). split.
  - induction h; constructor; auto using hex2_pair.
  - now rewrite flat_map_concat_map.
Qed.
Lemma upper_char_fun c x y : upper_char c x -> upper_char c y -> x = y.
Proof.
  intros ((B & B') & H) ((C & C') & H').
  assert (NoDup upper_digits) as N.
  { assert (List.nodup Byte.byte_eq_dec upper_digits = upper_digits) as <- by reflexivity. apply NoDup_nodup. }
  assert (Z.to_nat x = Z.to_nat y) as E; [|lia].
  eapply NoDup_nth_error; [exact N| |congruence].
  apply nth_error_Some. congruence.
Qed.
Lemma pair_fun p a b : hex_pair p a -> hex_pair p b -> a = b.
Proof.
  intros (h & l & hi & lo & -> & H & L & E) (h' & l' & hi' & lo' & [= <- <-] & H' & L' & E').
  rewrite (upper_char_fun _ _ _ H H'), (upper_char_fun _ _ _ L L') in E.
  apply ord_inj. change ord with byte_value. lia.
Qed.
Lemma pair_len p a : hex_pair p a -> List.length p = 2%nat.
Proof. now intros (? & ? & ? & ? & -> & _). Qed.
Lemma spelled_fun s h h' : spelled_hex s h -> spelled_hex s h' -> h = h'.
Proof.
  intros (p & F & ->) (p' & F' & E). revert p' h' F' E.
  induction F as [|x b p h X F IH]; intros p' h' F' E; destruct F' as [|x' b' p' h' X' F'].
  - reflexivity.
  - destruct X' as (? & ? & ? & ? & -> & _). discriminate.
  - destruct X as (? & ? & ? & ? & -> & _). discriminate.
  - cbn in E. assert (x = x' /\ List.concat p = List.concat p') as (-> & E').
    { destruct X as (? & ? & ? & ? & -> & _), X' as (? & ? & ? & ? & -> & _). now injection E as -> -> ->. }
    f_equal; [eapply pair_fun; eauto|eapply IH; eauto].
Qed.

(** ** Lookups *)
Lemma map_last {A} (f : A -> string) (l : list A) name : forall m0,
  let m := fold_left (fun m x => sset (f x) x m) l m0 in
  (Forall (fun x => f x <> name) l -> sget name m = sget name m0) /\
  (forall x, last_such (fun x => f x = name) l x -> sget name m = Some x).
Proof.
  induction l as [|a l IH]; intros m0; cbn [fold_left].
  - split; [reflexivity|]. intros x (l1 & l2 & E & _). now destruct l1.
  - destruct (IH (sset (f a) a m0)) as (I1 & I2). split.
    + intros F. inversion F; subst. rewrite I1 by assumption.
      unfold sset, sget. apply (dget_dset_neq _ string_eqb_spec); congruence.
    + intros x (l1 & l2 & E & N & F). destruct l1 as [|y l1]; cbn in E; injection E as -> E.
      * subst l. rewrite I1 by assumption. rewrite <- N. unfold sset, sget. apply (dget_dset_eq _ string_eqb_spec).
      * apply I2. exists l1, l2. auto.
Qed.
Lemma last_exists {A} (f : A -> string) (l : list A) name :
  Forall (fun x => f x <> name) l \/ exists x, last_such (fun x => f x = name) l x.
Proof.
  induction l as [|a l [F|(x & l1 & l2 & -> & N & F)]].
  - left. constructor.
  - destruct (string_dec (f a) name) as [E|E].
    + right. exists a, [], l. auto.
    + left. now constructor.
  - right. exists x, (a :: l1), l2. auto.
Qed.
Lemma lookup_iff {A} (f : A -> string) (l : list A) name :
  (forall x, sget name (fold_left (fun m x => sset (f x) x m) l []) = Some x <-> last_such (fun x => f x = name) l x) /\
  (sget name (fold_left (fun m x => sset (f x) x m) l []) = None <-> Forall (fun x => f x <> name) l).
Proof.
  destruct (map_last f l name []) as (M1 & M2).
  destruct (last_exists f l name) as [F|(x & X)].
  - rewrite M1 by exact F. cbn. split.
    + intros x. split; [discriminate|]. intros (l1 & l2 & -> & N & _). rewrite Forall_forall in F.
      exfalso. apply (F x); [|exact N]. apply in_or_app. right. now left.
    + tauto.
  - rewrite (M2 x X). split.
    + intros y. split; [now intros [= <-]|]. intros Y. apply M2 in Y. rewrite (M2 x X) in Y. exact Y.
    + split; [discriminate|]. intros F. destruct X as (l1 & l2 & -> & N & _). rewrite Forall_forall in F.
      exfalso. apply (F x); [|exact N]. apply in_or_app. right. now left.
Qed.

(** ** get_all_types *)
Lemma acmp_refl x : Ascii.compare x x = Eq.
Proof. unfold Ascii.compare. apply N.compare_refl. Qed.
Lemma cmp_eq a b : String.compare a b = Eq <-> a = b.
Proof.
  split; [apply String.compare_eq_iff|]. intros ->. induction b as [|x b IH]; [reflexivity|]. cbn. now rewrite acmp_refl.
Qed.
Lemma leb_cmp a b : String.leb a b = match String.compare a b with Gt => false | _ => true end.
Proof. reflexivity. Qed.
Lemma before_trans a b c : before a b -> before b c -> before a c.
Proof.
  unfold before. revert b c. induction a as [|x a IH]; intros [|y b] [|z c]; cbn; try congruence; try easy.
  destruct (Ascii.compare x y) eqn:XY, (Ascii.compare y z) eqn:YZ; try easy; intros H1 H2.
  - apply Ascii.compare_eq_iff in XY, YZ. subst.
    rewrite acmp_refl. eapply IH; eauto.
  - apply Ascii.compare_eq_iff in XY. subst. now rewrite YZ.
  - apply Ascii.compare_eq_iff in YZ. subst. now rewrite XY.
  - assert (Ascii.compare x z = Lt) as ->; [|reflexivity].
    unfold Ascii.compare in *. rewrite N.compare_lt_iff in *. lia.
Qed.
Lemma set_add_in s l x : In x (set_add s l) <-> x = s \/ In x l.
Proof.
  unfold set_add. destruct (existsb (String.eqb s) l) eqn:E.
  - apply existsb_exists in E as (y & I & Y). apply String.eqb_eq in Y. subst y. intuition congruence.
  - rewrite in_app_iff. cbn. intuition congruence.
Qed.
Lemma set_add_nodup s l : NoDup l -> NoDup (set_add s l).
Proof.
  intros N. unfold set_add. destruct (existsb (String.eqb s) l) eqn:E; [exact N|].
  assert (~ In s l) as NI.
  { intros X. assert (existsb (String.eqb s) l = true); [|congruence].
    apply existsb_exists. exists s. split; [exact X|apply String.eqb_refl]. }
  clear E. induction N as [|a l A N IH]; cbn.
  - constructor; [easy|constructor].
  - constructor.
    + rewrite in_app_iff. cbn. intros [I|[I|[]]]; [contradiction|]. subst. apply NI. now left.
    + apply IH. intros I. apply NI. now right.
Qed.
Lemma insert_in s l x : In x (insert_sorted s l) <-> x = s \/ In x l.
Proof.
  induction l as [|a l IH]; cbn; [intuition congruence|]. destruct (String.leb s a); cbn; [|rewrite IH]; intuition congruence.
Qed.
Lemma insert_sorted_ok s l : ~ In s l -> StronglySorted before l -> StronglySorted before (insert_sorted s l).
Proof.
  intros N S. induction S as [|a l S IH F]; cbn.
  - constructor; constructor.
  - rewrite leb_cmp. destruct (String.compare s a) eqn:C.
    + apply cmp_eq in C. subst. exfalso. apply N. now left.
    + constructor; [now constructor|]. constructor; [exact C|].
      rewrite Forall_forall in *. intros y Y. eapply before_trans; [exact C|]. now apply F.
    + constructor.
      * apply IH. intros I. apply N. now right.
      * rewrite Forall_forall in *. intros y Y. apply insert_in in Y as [->|Y]; [|now apply F].
        unfold before. rewrite String.compare_antisym, C. reflexivity.
Qed.
Lemma sort_ok l : NoDup l -> StronglySorted before (sort_strings l) /\ forall x, In x (sort_strings l) <-> In x l.
Proof.
  induction 1 as [|a l N D (S & I)]; cbn.
  - split; [constructor|tauto].
  - split.
    + apply insert_sorted_ok; [now rewrite I|exact S].
    + intros x. rewrite insert_in, I. intuition congruence.
Qed.
Lemma type_set_ok vs : forall acc, NoDup acc ->
  (forall v, In v vs -> tv_type v <> None) ->
  exists l, type_set vs acc = Ok l /\ NoDup l /\
    forall s, In s l <-> In s acc \/ exists v x, In v vs /\ tv_type v = Some x /\ s = mvt_name x.
Proof.
  induction vs as [|v vs IH]; intros acc N T; cbn [type_set].
  - exists acc. repeat split; auto. intros [H|(v & _ & [] & _)]. exact H.
  - unfold type_as_string, MVT_as_string, name_of. destruct (tv_type v) as [x|] eqn:E.
    + cbn [bind]. destruct (IH (set_add (mvt_name x) acc)) as (l & -> & D & I).
      * now apply set_add_nodup.
      * intros w W. apply T. now right.
      * exists l. repeat split; auto.
        -- intros S. apply I in S as [S|(w & y & W & Y & ->)].
           ++ apply set_add_in in S as [->|S]; [right; exists v, x; repeat split; auto; now left|now left].
           ++ right. exists w, y. repeat split; auto. now right.
        -- intros S. apply I. rewrite set_add_in. destruct S as [S|(w & y & [<-|W] & Y & ->)]; eauto 7.
           left. left. congruence.
    + exfalso. apply (T v); [now left|exact E].
Qed.
Lemma type_set_err vs : forall acc, (exists v, In v vs /\ tv_type v = None) -> type_set vs acc = Err TypeErr.
Proof.
  induction vs as [|v vs IH]; intros acc (w & W & E); [contradiction|]. cbn [type_set].
  unfold type_as_string, MVT_as_string, name_of. destruct (tv_type v) as [x|] eqn:X; [|reflexivity].
  cbn [bind]. apply IH. exists w. destruct W as [->|W]; [congruence|auto].
Qed.
Lemma all_variables_in ts v : In v (all_variables ts) <-> variable_of ts v.
Proof.
  unfold all_variables, variable_of. rewrite in_flat_map. setoid_rewrite in_flat_map. split.
  - intros (t & T & b & B & V). eauto 6.
  - intros (t & b & T & B & V). eauto 6.
Qed.
Lemma typed_dec vs : (forall v, In v vs -> tv_type v <> None) \/ exists v, In v vs /\ tv_type v = None.
Proof.
  induction vs as [|a vs [H|(v & V & E)]].
  - left. intros v [].
  - destruct (tv_type a) as [x|] eqn:E.
    + left. intros v [<-|V]; [congruence|now apply H].
    + right. exists a. split; [now left|exact E].
  - right. exists v. split; [now right|exact E].
Qed.

Lemma sorted_unique l l' : StronglySorted before l -> StronglySorted before l' ->
  (forall x, In x l <-> In x l') -> l = l'.
Proof.
  intros S. revert l'. induction S as [|a l S IH F]; intros l' S' E.
  - destruct l' as [|b l']; [reflexivity|]. exfalso. apply (E b). now left.
  - destruct S' as [|b l' S' F']; [exfalso; apply (E a); now left|].
    rewrite Forall_forall in F, F'.
    assert (forall x, ~ before x x) as IR.
    { intros x X. unfold before in X. assert (String.compare x x = Eq) by now apply cmp_eq. congruence. }
    assert (a = b) as <-.
    { assert (In a (b :: l')) as A by (apply E; now left). assert (In b (a :: l)) as B by (apply E; now left).
      destruct A as [A|A]; [congruence|]. destruct B as [B|B]; [congruence|].
      exfalso. apply (IR a). exact (before_trans a b a (F _ B) (F' _ A)). }
    f_equal. apply IH; [exact S'|]. intros x. split; intros X.
    + assert (In x (a :: l')) as [<-|Y] by (apply E; now right); [|exact Y]. exfalso. exact (IR a (F _ X)).
    + assert (In x (a :: l)) as [<-|Y] by (apply E; now right); [|exact Y]. exfalso. exact (IR a (F' _ X)).
Qed.

Lemma all_types_iff ts l : get_all_types ts = Ok l <->
  (forall v, variable_of ts v -> tv_type v <> None) /\ StronglySorted before l /\
  forall s, In s l <-> exists v x, variable_of ts v /\ tv_type v = Some x /\ s = mvt_name x.
Proof.
  unfold get_all_types. destruct (typed_dec (all_variables ts)) as [T|E].
  - destruct (type_set_ok (all_variables ts) [] (NoDup_nil _) T) as (l0 & -> & D & I). cbn [bind].
    destruct (sort_ok l0 D) as (S & J).
    assert (forall s, In s (sort_strings l0) <-> exists v x, variable_of ts v /\ tv_type v = Some x /\ s = mvt_name x) as K.
    { intros s. rewrite J, I. cbn. split.
      - intros [[]|(v & x & V & X & E)]. exists v, x. now rewrite <- all_variables_in.
      - intros (v & x & V & X & E). right. exists v, x. now rewrite all_variables_in. }
    split.
    + intros [= <-]. split; [|split]; auto. intros v V. apply T. now rewrite all_variables_in.
    + intros (_ & S' & K'). f_equal. apply sorted_unique; auto. intros x. now rewrite K, K'.
  - rewrite type_set_err by exact E. cbn. split; [discriminate|]. intros (T & _). destruct E as (v & V & E).
    exfalso. apply (T v); [now apply all_variables_in|exact E].
Qed.
Lemma all_types_err ts : get_all_types ts = Err TypeErr <-> exists v, variable_of ts v /\ tv_type v = None.
Proof.
  unfold get_all_types. setoid_rewrite <- all_variables_in. destruct (typed_dec (all_variables ts)) as [T|E].
  - destruct (type_set_ok (all_variables ts) [] (NoDup_nil _) T) as (l0 & -> & D & I). cbn.
    split; [discriminate|]. intros (v & V & E). exfalso. now apply (T v).
  - rewrite type_set_err by exact E. cbn. tauto.
Qed.

(** ** The printed form *)
Lemma short_is a b : to_signed 2 (le_val [a; b]) = short_value a b.
Proof.
  unfold to_signed, short_value. cbn [le_val]. change byte_value with ord.
  pose proof (ord_range a). pose proof (ord_range b).
  replace (ord a + 256 * (ord b + 256 * 0)) with (ord a + 256 * ord b) by lia.
  change (2 ^ (8 * Z.of_nat 2 - 1)) with 32768. change (2 ^ (8 * Z.of_nat 2)) with 65536. reflexivity.
Qed.
Lemma shorts_iff s l : shorts_of s l <-> Nat.even (List.length s) = true /\ l = shorts s.
Proof.
  split.
  - induction 1 as [|a b s l H (E & ->)]; [now split|]. split; [exact E|]. cbn [shorts]. now rewrite short_is.
  - intros (E & ->). revert E. 
    enough (forall n s, (List.length s <= n)%nat -> Nat.even (List.length s) = true -> shorts_of s (shorts s)) as K
      by (apply (K _ _ (le_n _))).
    induction n as [|n IH]; intros [|a [|b s']] L E; cbn in L, E; try lia; try discriminate; try constructor.
    cbn [shorts]. rewrite short_is. constructor. apply IH; [lia|exact E].
Qed.
Lemma ascii_iff u : is_ascii u = true <-> ascii_codes u.
Proof.
  unfold is_ascii, ascii_codes. rewrite forallb_forall, Forall_forall. setoid_rewrite Z.ltb_lt. reflexivity.
Qed.
Lemma not_ascii_iff u : is_ascii u = false <-> ~ ascii_codes u.
Proof. rewrite <- ascii_iff. destruct (is_ascii u); split; congruence. Qed.
Lemma codes_value s : codes s = map byte_value s.
Proof. reflexivity. Qed.

(** *** Putting texts together *)
Lemma clash_app l l' : clash (l ++ l') <-> clash l \/ clash l' \/
  (Exists is_unicode l /\ Exists (fun t => exists s, t = TStr s /\ ~ ascii_codes (map byte_value s)) l') \/
  (Exists is_unicode l' /\ Exists (fun t => exists s, t = TStr s /\ ~ ascii_codes (map byte_value s)) l).
Proof. unfold clash. rewrite !Exists_app. tauto. Qed.
Lemma together_fun l t t' : together l t -> together l t' -> t = t'.
Proof.
  intros (A & B) (A' & B').
  assert (is_unicode t <-> is_unicode t') as U by tauto. rewrite <- B' in B. clear A A' B'. unfold is_unicode in U.
  destruct t as [s|u], t' as [s'|u']; cbn in B.
  - f_equal. clear U. revert s' B. induction s as [|c s IH]; intros [|c' s']; try discriminate; [reflexivity|]. cbn.
    intros [= E B]. f_equal; [now apply ord_inj|now apply IH].
  - destruct (proj2 U (ex_intro _ u' eq_refl)) as (? & ?). discriminate.
  - destruct (proj1 U (ex_intro _ u eq_refl)) as (? & ?). discriminate.
  - now rewrite B.
Qed.
Lemma str_not_unicode s : ~ is_unicode (TStr s).
Proof. intros (u & E). discriminate. Qed.
Lemma uni_unicode u : is_unicode (TUni u).
Proof. now exists u. Qed.
Lemma together_one t : together [t] t.
Proof.
  split; [|cbn; now rewrite app_nil_r]. split; [now constructor|]. intros E. inversion E as [? ? X|? ? X]; [exact X|inversion X].
Qed.
Lemma one_clash t : ~ clash [t].
Proof.
  intros (A & B). inversion A as [? ? (u & ->)|? ? X]; [|inversion X]. inversion B as [? ? (s & E & _)|? ? X]; [discriminate|inversion X].
Qed.
Definition odd_bytes (t : ptext) : Prop := exists s, t = TStr s /\ ~ ascii_codes (map byte_value s).
(** a text has a byte that is not ASCII, if it is not unicode: one of its parts has *)
Lemma ascii_concat ls : ascii_codes (List.concat ls) <-> Forall ascii_codes ls.
Proof.
  induction ls as [|l ls IH]; cbn; [split; constructor|]. unfold ascii_codes in *. rewrite Forall_app, IH. split; [intros (A & B); now constructor|now inversion 1].
Qed.
Lemma odd_parts l s : ~ Exists is_unicode l -> together l (TStr s) -> (~ ascii_codes (map byte_value s) <-> Exists odd_bytes l).
Proof.
  intros N (_ & E). cbn [code_points] in E. rewrite E, ascii_concat. clear E s. induction l as [|t l IH].
  - split; [intros H; destruct H; constructor|inversion 1].
  - assert (~ is_unicode t) as Nt by (intros X; apply N; now constructor).
    assert (~ Exists is_unicode l) as Nl by (intros X; apply N; now constructor 2).
    destruct t as [s|u]; [|destruct Nt; apply uni_unicode]. cbn [map code_points].
    split.
    + intros H. destruct (is_ascii (map byte_value s)) eqn:A.
      * constructor 2. apply IH; [exact Nl|]. intros F. apply H. constructor; [now apply ascii_iff|exact F].
      * constructor. exists s. split; [reflexivity|]. now apply not_ascii_iff.
    + intros H F. inversion F as [|? ? F1 F2]; subst. inversion H as [? ? (s' & E' & B)|? ? X]; subst; [injection E' as ->; now apply B|].
      apply IH in X; [now apply X|exact Nl].
Qed.
Lemma join_ok la lb a b : together la a -> together lb b -> ~ clash la -> ~ clash lb ->
  match join a b with
  | Ok t => together (la ++ lb) t /\ ~ clash (la ++ lb)
  | Err e => e = ValueErr /\ clash (la ++ lb)
  end.
Proof.
  intros A B Na Nb. pose proof A as (UA & CA). pose proof B as (UB & CB).
  assert (forall x, together (la ++ lb) x <-> (is_unicode x <-> is_unicode a \/ is_unicode b) /\ code_points x = code_points a ++ code_points b) as T.
  { intros x. unfold together. rewrite Exists_app, map_app, concat_app, <- CA, <- CB, UA, UB. reflexivity. }
  destruct a as [s|u], b as [s'|u']; cbn [join].
  - assert (~ Exists is_unicode la) as NA by (intros X; apply UA in X; now apply str_not_unicode in X).
    assert (~ Exists is_unicode lb) as NB by (intros X; apply UB in X; now apply str_not_unicode in X).
    split.
    + apply T. cbn [code_points]. rewrite map_app. split; [|reflexivity]. split; [intros X; now apply str_not_unicode in X|].
      intros [X|X]; now apply str_not_unicode in X.
    + intros (X & _). apply Exists_app in X. tauto.
  - assert (~ Exists is_unicode la) as NA by (intros X; apply UA in X; now apply str_not_unicode in X).
    assert (Exists is_unicode lb) as UB' by (apply UB, uni_unicode).
    rewrite codes_value. pose proof (odd_parts la s NA A) as O. destruct (is_ascii (map byte_value s)) eqn:I.
    + apply ascii_iff in I. split.
      * apply T. cbn [code_points]. split; [|reflexivity]. split; [intros _; right; apply uni_unicode|intros _; apply uni_unicode].
      * rewrite clash_app. intros [X|[X|[(X & _)|(_ & X)]]]; [tauto|tauto|tauto|]. apply O in X. tauto.
    + apply not_ascii_iff in I. split; [reflexivity|]. rewrite clash_app. right. right. right. split; [exact UB'|now apply O].
  - assert (~ Exists is_unicode lb) as NB by (intros X; apply UB in X; now apply str_not_unicode in X).
    assert (Exists is_unicode la) as UA' by (apply UA, uni_unicode).
    rewrite codes_value. pose proof (odd_parts lb s' NB B) as O. destruct (is_ascii (map byte_value s')) eqn:I.
    + apply ascii_iff in I. split.
      * apply T. cbn [code_points]. split; [|reflexivity]. split; [intros _; left; apply uni_unicode|intros _; apply uni_unicode].
      * rewrite clash_app. intros [X|[X|[(_ & X)|(X & _)]]]; [tauto|tauto| |tauto]. apply O in X. tauto.
    + apply not_ascii_iff in I. split; [reflexivity|]. rewrite clash_app. right. right. left. split; [exact UA'|now apply O].
  - split.
    + apply T. cbn [code_points]. split; [|reflexivity]. split; [intros _; left; apply uni_unicode|intros _; apply uni_unicode].
    + assert (forall l u, together l (TUni u) -> ~ clash l -> ~ Exists odd_bytes l) as K.
      { intros l v (X & _) N Y. apply N. split; [apply X, uni_unicode|exact Y]. }
      rewrite clash_app. intros [X|[X|[(_ & X)|(_ & X)]]]; [tauto|tauto|exact (K _ _ B Nb X)|exact (K _ _ A Na X)].
Qed.

(** *** Variables *)
Lemma fixed_iff s t : fixed_text s = Ok t <-> exists l u, shorts_of s l /\ tuple_shown l u /\ t = TStr u.
Proof.
  unfold fixed_text. split.
  - destruct (Nat.even (List.length s)) eqn:E; [|discriminate]. intros [= <-]. exists (shorts s), (tuple_text (shorts s)). split; [now apply shorts_iff|]. split; [now apply tuple_iff|reflexivity].
  - intros (l & u & SH & T & ->). apply tuple_iff in T as ->. apply shorts_iff in SH as (E & ->). now rewrite E.
Qed.
Lemma fixed_fails s e : fixed_text s = Err e <-> Nat.Odd (List.length s) /\ e = StructError.
Proof.
  unfold fixed_text. rewrite <- Nat.odd_spec. unfold Nat.odd. destruct (Nat.even (List.length s)); cbn; split.
  - discriminate. - intros (X & _). discriminate. - intros [= <-]. auto. - intros (_ & ->). reflexivity.
Qed.
Lemma type_cases (t : option mvt) : (t = Some MVT_VARIABLE \/ t = Some MVT_FIXED) \/ (t <> Some MVT_VARIABLE /\ t <> Some MVT_FIXED).
Proof. destruct t as [[]|]; auto; right; split; discriminate. Qed.
Lemma var_text_other show d t : t <> Some MVT_VARIABLE -> t <> Some MVT_FIXED ->
  var_text show {| v_data := d; v_type := t |} =
  match d with
  | VStr s => Ok (TStr s)
  | VUni u => if is_ascii u then Ok (TStr (utf8 u)) else Err ValueErr
  | d => Ok (TStr (show d))
  end.
Proof. intros A B. unfold var_text. cbn [v_type v_data]. destruct t as [[]|]; try congruence; now destruct d. Qed.
Lemma var_text_iff show v s : var_text show v = Ok s <-> shown show v s.
Proof.
  destruct v as [d t]. split.
  - intros H. destruct (type_cases t) as [ [ -> | -> ] | (N1 & N2) ].
    + unfold var_text in H; cbn in H. destruct d; try discriminate; injection H as <-; constructor.
    + unfold var_text in H; cbn in H. destruct d as [| | |s0|u| | | | | |]; try discriminate.
      * apply fixed_iff in H as (l & v & SH & T & ->). now apply (shown_fixed show s0 l).
      * destruct (is_ascii u) eqn:E; [|discriminate]. apply fixed_iff in H as (l & v & SH & T & ->). apply (shown_fixed_text show u l); [now apply ascii_iff|exact SH|exact T].
    + rewrite var_text_other in H by assumption.
      destruct d as [| | |s0|u| | | | | |]; try (injection H as <-; constructor; (assumption || discriminate)).
      destruct (is_ascii u) eqn:E; [|discriminate]. injection H as <-. constructor; auto. now apply ascii_iff.
  - inversion 1 as [s0|u|s0 l w SH T|u l w L SH T|s0 t0 N1 N2|u t0 N1 N2 L|d0 t0 N1 N2 A B]; subst.
    + reflexivity.
    + reflexivity.
    + apply fixed_iff. eauto 6.
    + unfold var_text; cbn [v_type v_data]. apply ascii_iff in L. rewrite L. apply fixed_iff. eauto 6.
    + now rewrite var_text_other.
    + rewrite var_text_other by assumption. apply ascii_iff in L. now rewrite L.
    + rewrite var_text_other by assumption. destruct d as [| | |s0|u| | | | | |]; try reflexivity; [now destruct (A s0)|now destruct (B u)].
Qed.
Lemma not_text d : (forall s, d <> VStr s) -> (forall u, d <> VUni u) -> ~ a_text d.
Proof. intros A B [(s & ->)|(u & ->)]; [now apply (A s)|now apply (B u)]. Qed.
Lemma var_fails_iff show v e : var_text show v = Err e <-> print_fails (Some v) e.
Proof.
  destruct v as [d t]. split.
  - intros H. destruct (type_cases t) as [ [ -> | -> ] | (N1 & N2) ].
    + unfold var_text in H; cbn in H. destruct d; try discriminate; injection H as <-; constructor; apply not_text; discriminate.
    + unfold var_text in H; cbn in H.
      destruct d as [| | |s0|u| |l0| | | |];
        try (injection H as <-; apply fails_fixed; intros [X|(l' & X)]; [revert X; apply not_text|]; discriminate).
      * apply fixed_fails in H as (O & ->). now constructor.
      * destruct (is_ascii u) eqn:E.
        -- apply fixed_fails in H as (O & ->). constructor. auto.
        -- injection H as <-. constructor. left. now apply not_ascii_iff.
      * injection H as <-. constructor.
    + rewrite var_text_other in H by assumption. destruct d as [| | |s0|u| | | | | |]; try discriminate.
      destruct (is_ascii u) eqn:E; [discriminate|]. injection H as <-. constructor; auto. now apply not_ascii_iff.
  - inversion 1 as [|d0 N|s O|u L|l0|d0 N|u t0 N1 N2 X]; subst.
    + unfold var_text; cbn. destruct d; try reflexivity; exfalso; apply N; [left|right]; eauto.
    + unfold var_text; cbn. now apply fixed_fails.
    + unfold var_text; cbn. destruct (is_ascii u) eqn:E; [|reflexivity]. destruct L as [L|O]; [apply ascii_iff in E; tauto|]. now apply fixed_fails.
    + reflexivity.
    + unfold var_text; cbn. destruct d as [| | |s0|u| |l0| | | |]; try reflexivity; exfalso; apply N; [left; left|left; right|right]; eauto.
    + rewrite var_text_other by assumption. apply not_ascii_iff in X. now rewrite X.
Qed.

(** *** All lines *)
(** what the statement for one line does to the string so far *)
Definition add_line (show : pyval -> bytes) (l : sline) (string : ptext) : res ptext :=
  match l with
  | Fixed t => join string (TStr t)
  | Entry n x =>
      match x with
      | None => Err KeyErr
      | Some v => do s <- var_text show v;
                  do line <- join (TStr (delim ++ delim ++ bytes_of_string n ++ [x3a] ++ delim)) s;
                  do line <- join line (TStr [x0a]);
                  join string line
      end
  end.
Fixpoint add_lines (show : pyval -> bytes) (l : list sline) (string : ptext) : res ptext :=
  match l with [] => Ok string | x :: l' => do string <- add_line show x string; add_lines show l' string end.
Lemma add_lines_app show l l' : forall s, add_lines show (l ++ l') s = do x <- add_lines show l s; add_lines show l' x.
Proof. induction l as [|x l IH]; intros s; [reflexivity|]. cbn. destruct (add_line show x s); cbn; [apply IH|reflexivity]. Qed.
Lemma bind_assoc' {A B C} (x : res A) (f : A -> res B) (g : B -> res C) : (do y <- (do a <- x; f a); g y) = do a <- x; do y <- f a; g y.
Proof. now destruct x. Qed.
Lemma add_vars_lines show b names : forall s, add_vars show b names s = add_lines show (map (fun n => Entry n (sget n (b_vars b))) names) s.
Proof.
  induction names as [|n names IH]; intros s; [reflexivity|]. cbn [add_vars map add_lines add_line]. unfold get_variable.
  destruct (sget n (b_vars b)) as [v|]; cbn [bind]; [|reflexivity]. rewrite !bind_assoc'.
  destruct (var_text show v) as [x|]; cbn [bind]; [|reflexivity]. rewrite !bind_assoc'.
  destruct (join _ x) as [y|]; cbn [bind]; [|reflexivity]. rewrite !bind_assoc'.
  destruct (join y _) as [z|]; cbn [bind]; [|reflexivity]. destruct (join s z) as [w|]; cbn [bind]; [apply IH|reflexivity].
Qed.
Lemma add_instances_lines show l : forall s, add_instances show l s =
  add_lines show (flat_map (fun b => map (fun n => Entry n (sget n (b_vars b))) (b_list b)) l) s.
Proof.
  induction l as [|b l IH]; intros s; [reflexivity|]. cbn [add_instances flat_map]. rewrite add_lines_app, add_vars_lines.
  destruct (add_lines show _ s); cbn [bind]; [apply IH|reflexivity].
Qed.
Lemma add_blocks_lines show d : forall s, add_blocks show d s = add_lines show (block_lines d) s.
Proof.
  induction d as [|[name l] d IH]; intros s; [reflexivity|]. unfold block_lines. cbn [add_blocks flat_map app add_lines add_line].
  change (delim ++ bytes_of_string "Block Name:" ++ delim ++ bytes_of_string name ++ [x0a]) with (block_line name).
  destruct (join s (TStr (block_line name))) as [t|]; cbn [bind]; [|reflexivity]. rewrite add_lines_app, add_instances_lines.
  destruct (add_lines show _ t); cbn [bind]; [apply IH|reflexivity].
Qed.
Lemma data_lines show nf m : data_text show nf m = add_lines show (message_lines nf m) (TStr []).
Proof.
  unfold data_text, message_lines. destruct nf.
  - cbn [app add_lines add_line]. destruct (join (TStr []) _); cbn [bind]; [apply add_blocks_lines|reflexivity].
  - rewrite add_lines_app, add_blocks_lines. destruct (add_lines show (block_lines (m_blocks m)) (TStr [])); cbn [bind]; [|reflexivity].
    cbn [add_lines add_line]. now destruct (join _ _).
Qed.
(** [s] is the string after lines with the texts [l] *)
Lemma add_line_spec show x l s : together l s -> ~ clash l ->
  match add_line show x s with
  | Ok t => exists p, line_texts show x p /\ together (l ++ p) t /\ ~ clash (l ++ p)
  | Err e => line_fails x e \/ exists p, line_texts show x p /\ clash (l ++ p) /\ e = ValueErr
  end.
Proof.
  intros T N. destruct x as [t|n x]; cbn [add_line].
  - pose proof (join_ok l [TStr t] s (TStr t) T (together_one _) N (one_clash _)) as J. destruct (join s (TStr t)) as [y|e].
    + exists [TStr t]. split; [constructor|exact J].
    + right. exists [TStr t]. destruct J as (-> & J). split; [constructor|auto].
  - destruct x as [v|]; [|left; constructor; constructor].
    destruct (var_text show v) as [y|e] eqn:V; cbn [bind]; [|left; constructor; now apply var_fails_iff in V].
    apply var_text_iff in V.
    set (pre := spaces4 ++ spaces4 ++ bytes_of_string n ++ bytes_of_string ":" ++ spaces4).
    change (delim ++ delim ++ bytes_of_string n ++ [x3a] ++ delim) with pre.
    pose proof (entry_line show n v y V) as L. fold pre in L.
    pose proof (join_ok [TStr pre] [y] _ _ (together_one _) (together_one _) (one_clash _) (one_clash _)) as J1.
    destruct (join (TStr pre) y) as [z|e]; cbn [bind].
    + destruct J1 as (T1 & N1). pose proof (join_ok _ [TStr [x0a]] z _ T1 (together_one _) N1 (one_clash _)) as J2.
      destruct (join z (TStr [x0a])) as [w|e]; cbn [bind].
      * destruct J2 as (T2 & N2). pose proof (join_ok _ _ s w T T2 N N2) as J3.
        destruct (join s w) as [t|e].
        -- exists [TStr pre; y; TStr [x0a]]. auto.
        -- right. exists [TStr pre; y; TStr [x0a]]. destruct J3 as (-> & J3). auto.
      * destruct J2 as (-> & J2). right. exists [TStr pre; y; TStr [x0a]]. split; [exact L|]. split; [|reflexivity].
        apply clash_app. right. left. exact J2.
    + destruct J1 as (-> & J1). right. exists [TStr pre; y; TStr [x0a]]. split; [exact L|]. split; [|reflexivity].
      apply clash_app. right. left. apply (clash_app [TStr pre; y] [TStr [x0a]]). now left.
Qed.
Lemma shown_fun show v s s' : shown show v s -> shown show v s' -> s = s'.
Proof. rewrite <- !var_text_iff. congruence. Qed.
Lemma line_texts_fun show x p p' : line_texts show x p -> line_texts show x p' -> p = p'.
Proof.
  inversion 1 as [t|n v s S]; subst; inversion 1 as [t'|n' v' s' S']; subst; [reflexivity|]. now rewrite (shown_fun _ _ _ _ S S').
Qed.
Lemma line_not_both show x p e : line_texts show x p -> line_fails x e -> False.
Proof.
  intros L F. inversion F as [n y e' P]; subst. inversion L as [|n' v s S]; subst.
  apply var_text_iff in S. apply (var_fails_iff show) in P. congruence.
Qed.
Lemma texts_fun show l ps ps' : Forall2 (line_texts show) l ps -> Forall2 (line_texts show) l ps' -> ps = ps'.
Proof.
  intros F. revert ps'. induction F as [|x p l ps H F IH]; intros ps' F'; inversion F' as [|? p' ? q H' F'']; subst; [reflexivity|].
  f_equal; [exact (line_texts_fun _ _ _ _ H H')|now apply IH].
Qed.
Lemma add_lines_ok show ls t : forall l s, together l s -> ~ clash l ->
  (add_lines show ls s = Ok t <->
   exists ps, Forall2 (line_texts show) ls ps /\ ~ clash (l ++ List.concat ps) /\ together (l ++ List.concat ps) t).
Proof.
  induction ls as [|x ls IH]; intros l s T N; cbn [add_lines].
  - split.
    + intros [= <-]. exists []. cbn [List.concat]. rewrite app_nil_r. auto.
    + intros (ps & F & C & U). inversion F; subst. cbn [List.concat] in *. rewrite app_nil_r in *.
      now rewrite (together_fun _ _ _ T U).
  - pose proof (add_line_spec show x l s T N) as A. destruct (add_line show x s) as [y|e]; cbn [bind].
    + destruct A as (p & L & T1 & N1). rewrite (IH _ _ T1 N1). split.
      * intros (ps & F & C & U). exists (p :: ps). cbn [List.concat]. rewrite <- app_assoc in *. repeat split; auto; apply U.
      * intros (ps' & F & C & U). inversion F as [|? p' ? ps H' F']; subst. pose proof (line_texts_fun _ _ _ _ L H') as <-.
        exists ps. cbn [List.concat] in *. rewrite <- app_assoc. auto.
    + split; [discriminate|]. intros (ps' & F & C & U). inversion F as [|? p ? ps H' F']; subst. exfalso. destruct A as [A|(p' & L & B & _)].
      * exact (line_not_both _ _ _ _ H' A).
      * pose proof (line_texts_fun _ _ _ _ L H') as <-. apply C. cbn [List.concat]. rewrite app_assoc. apply clash_app. now left.
Qed.
Lemma add_lines_err show ls e : forall l s, together l s -> ~ clash l ->
  (add_lines show ls s = Err e <->
   exists l1 x l2 ps, ls = l1 ++ x :: l2 /\ Forall2 (line_texts show) l1 ps /\ ~ clash (l ++ List.concat ps) /\
     (line_fails x e \/ exists p, line_texts show x p /\ clash (l ++ List.concat (ps ++ [p])) /\ e = ValueErr)).
Proof.
  induction ls as [|x ls IH]; intros l s T N; cbn [add_lines].
  - split; [discriminate|]. intros ([|] & ? & ? & ? & E & _); discriminate.
  - pose proof (add_line_spec show x l s T N) as A. destruct (add_line show x s) as [y|e1] eqn:AL; cbn [bind].
    + destruct A as (p & L & T1 & N1). rewrite (IH _ _ T1 N1). split.
      * intros (l1 & z & l2 & ps & -> & F & C & H). exists (x :: l1), z, l2, (p :: ps). split; [reflexivity|].
        split; [now constructor|]. cbn [List.concat app]. rewrite app_assoc. split; [exact C|].
        destruct H as [H|(q & H1 & H2 & H3)]; [now left|right; exists q]. rewrite app_assoc. auto.
      * intros (l1 & z & l2 & ps & E & F & C & H). destruct l1 as [|x' l1]; cbn in E; injection E as <- ->.
        -- exfalso. inversion F; subst. cbn [List.concat app] in H. destruct H as [H|(q & H1 & H2 & _)].
           ++ exact (line_not_both _ _ _ _ L H).
           ++ pose proof (line_texts_fun _ _ _ _ L H1) as <-. rewrite app_nil_r in H2. tauto.
        -- inversion F as [|? p' ? ps' H' F']; subst. pose proof (line_texts_fun _ _ _ _ L H') as <-.
           exists l1, z, l2, ps'. cbn [List.concat app] in *. rewrite app_assoc in C. split; [reflexivity|]. split; [exact F'|]. split; [exact C|].
           destruct H as [H|(q & H1 & H2 & H3)]; [now left|right; exists q]. rewrite app_assoc in H2. auto.
    + split.
      * intros [= <-]. exists [], x, ls, []. cbn [List.concat app]. rewrite !app_nil_r. split; [reflexivity|]. split; [constructor|]. split; [exact N|].
        destruct A as [A|(p & A1 & A2 & A3)]; [now left|right]. exists p. cbn [List.concat]. rewrite app_nil_r. auto.
      * intros (l1 & z & l2 & ps & E & F & C & H). destruct l1 as [|x' l1]; cbn in E; injection E as <- ->.
        -- inversion F; subst. cbn [List.concat app] in H. destruct A as [A|(p & A1 & A2 & ->)].
           ++ destruct H as [H|(q & H1 & _)]; [|destruct (line_not_both _ _ _ _ H1 A)].
              inversion A as [n1 x1 e0 P1]; subst. inversion H as [n2 x2 e2 P2]; subst.
              destruct x1 as [v|]; [apply (var_fails_iff show) in P1, P2; congruence|inversion P1; inversion P2; congruence].
           ++ destruct H as [H|(q & _ & _ & ->)]; [destruct (line_not_both _ _ _ _ A1 H)|reflexivity].
        -- exfalso. inversion F as [|? p' ? ps' H' F']; subst. destruct A as [A|(p & A1 & A2 & _)].
           ++ exact (line_not_both _ _ _ _ H' A).
           ++ pose proof (line_texts_fun _ _ _ _ A1 H') as <-. apply C. cbn [List.concat]. rewrite app_assoc. apply clash_app. now left.
Qed.
Lemma empty_together : together [] (TStr []) /\ ~ clash [].
Proof.
  split; [split; [|reflexivity]|].
  - split; [intros X; now apply str_not_unicode in X|intros X; inversion X].
  - intros (X & _). inversion X.
Qed.
Lemma data_ok show nf m t : data_text show nf m = Ok t <->
  exists ps, Forall2 (line_texts show) (message_lines nf m) ps /\ ~ clash (List.concat ps) /\ together (List.concat ps) t.
Proof. rewrite data_lines. destruct empty_together. rewrite (add_lines_ok show _ t [] (TStr [])); [reflexivity|assumption..]. Qed.
Lemma data_fails show nf m e : data_text show nf m = Err e <->
  exists l1 x l2 ps, message_lines nf m = l1 ++ x :: l2 /\ Forall2 (line_texts show) l1 ps /\ ~ clash (List.concat ps) /\
    (line_fails x e \/ exists p, line_texts show x p /\ clash (List.concat (ps ++ [p])) /\ e = ValueErr).
Proof. rewrite data_lines. destruct empty_together. rewrite (add_lines_err show _ e [] (TStr [])); [reflexivity|assumption..]. Qed.

(** *** Without unicode texts; printing of values *)
Lemma no_unicode_lines show nf m : no_unicode m ->
  forall ls ps, (forall x, In x ls -> In x (message_lines nf m)) -> Forall2 (line_texts show) ls ps -> ~ Exists is_unicode (List.concat ps).
Proof.
  intros N. induction ls as [|x ls IH]; intros ps S F; inversion F as [|? p ? qs L F']; subst; cbn [List.concat]; [intros X; inversion X|].
  rewrite Exists_app. intros [X|X]; [|exact (IH qs (fun y I => S y (or_intror I)) F' X)].
  inversion L as [t|n v s SH]; subst.
  - inversion X as [? ? (u & E)|? ? Y]; [discriminate|inversion Y].
  - inversion X as [? ? (u & E)|? ? Y]; [discriminate|]. inversion Y as [? ? (u & ->)|? ? Z]; subst.
    + assert (In (Entry n (Some v)) (block_lines (m_blocks m))) as I.
      { specialize (S _ (or_introl eq_refl)). unfold message_lines in S. destruct nf; apply in_app_or in S as [S|S]; try exact S; destruct S as [S|[]]; discriminate. }
      inversion SH; subst. exact (N _ _ I eq_refl u eq_refl).
    + inversion Z as [? ? (u & E)|? ? W]; [discriminate|inversion W].
Qed.
Lemma no_clash l : ~ Exists is_unicode l -> ~ clash l.
Proof. intros N (X & _). tauto. Qed.
Lemma bytes_text show nf m t : no_unicode m -> data_text show nf m = Ok t -> exists s, t = TStr s.
Proof.
  intros N H. apply data_ok in H as (ps & F & _ & U & _). pose proof (no_unicode_lines show nf m N _ ps (fun x I => I) F) as X.
  destruct t as [s|u]; [eauto|]. destruct X. apply U, uni_unicode.
Qed.
Lemma bytes_fails show nf m e : no_unicode m -> (data_text show nf m = Err e <->
  exists l1 x l2, message_lines nf m = l1 ++ x :: l2 /\ line_fails x e /\ forall y, In y l1 -> forall e', ~ line_fails y e').
Proof.
  intros N. rewrite data_fails. split.
  - intros (l1 & x & l2 & ps & E & F & C & [H|(p & H & K & _)]).
    + exists l1, x, l2. split; [exact E|]. split; [exact H|]. intros y I e' B. clear - F I B.
      induction F as [|z p l1 ps L F IH]; [destruct I|]. destruct I as [->|I]; [exact (line_not_both _ _ _ _ L B)|now apply IH].
    + exfalso. revert K. apply no_clash. apply (no_unicode_lines show nf m N (l1 ++ [x])).
      * intros y I. rewrite E. apply in_app_or in I as [I|[<-|[]]]; apply in_or_app; [now left|right; now left].
      * apply Forall2_app; [exact F|constructor; [exact H|constructor]].
  - intros (l1 & x & l2 & E & H & B).
    assert (exists ps, Forall2 (line_texts show) l1 ps) as (ps & F).
    { clear E. induction l1 as [|y l1 IH]; [exists []; constructor|]. destruct IH as (ps & F); [intros z I; apply B; now right|].
      assert (exists p, line_texts show y p) as (p & L); [|exists (p :: ps); now constructor].
      destruct y as [t|n x0]; [eexists; constructor|]. destruct x0 as [v|]; [|destruct (B _ (or_introl eq_refl) KeyErr); constructor; constructor].
      destruct (var_text show v) as [s|e'] eqn:V.
      - eexists. apply (entry_line show n v s). apply var_text_iff, V.
      - destruct (B _ (or_introl eq_refl) e'). constructor. now apply var_fails_iff in V. }
    exists l1, x, l2, ps. split; [exact E|]. split; [exact F|]. split; [|now left].
    apply no_clash. apply (no_unicode_lines show nf m N l1); [|exact F]. intros y I. rewrite E. apply in_or_app. now left.
Qed.
(** However values that are no text print, as long as it is ASCII: it fails alike. *)
Definition alike (t t' : ptext) : Prop :=
  match t, t' with
  | TStr s, TStr s' => ascii_codes (map byte_value s) <-> ascii_codes (map byte_value s')
  | TUni _, TUni _ => True
  | _, _ => False
  end.
Lemma shown_alike show show' v : prints_ascii show -> prints_ascii show' ->
  match var_text show v, var_text show' v with Ok t, Ok t' => alike t t' | Err e, Err e' => e = e' | _, _ => False end.
Proof.
  intros A A'. unfold var_text. destruct v as [d t]; cbn [v_type v_data].
  assert (forall t, alike t t) as R by (intros []; cbn; tauto).
  destruct (type_cases t) as [ [ -> | -> ] | (N1 & N2) ].
  { destruct d; cbn; try reflexivity; tauto. }
  { destruct d as [| | |s0|u| | | | | |]; try reflexivity; [destruct (fixed_text s0); [apply R|reflexivity]|destruct (is_ascii u); [destruct (fixed_text (utf8 u)); [apply R|reflexivity]|reflexivity]]. }
  pose proof (var_text_other show d t N1 N2) as E. pose proof (var_text_other show' d t N1 N2) as E'. unfold var_text in E, E'. cbn [v_type v_data] in E, E'.
  rewrite E, E'. destruct d as [| | |s0|u| | | | | |]; try (cbn; split; intros _; [apply A'|apply A]).
  - apply R.
  - destruct (is_ascii u); auto.
Qed.
Lemma join_alike a a' b b' : alike a a' -> alike b b' ->
  match join a b, join a' b' with Ok t, Ok t' => alike t t' | Err e, Err e' => e = e' | _, _ => False end.
Proof.
  intros A B. destruct a as [s|u], a' as [s'|u'], b as [t|v], b' as [t'|v']; cbn [alike] in A, B; try contradiction; cbn [join]; unfold codes; change ord with byte_value.
  - cbn. rewrite !map_app. unfold ascii_codes in *. rewrite !Forall_app. tauto.
  - destruct (is_ascii (map byte_value s)) eqn:I, (is_ascii (map byte_value s')) eqn:I'; cbn; auto;
      (apply ascii_iff in I || apply not_ascii_iff in I); (apply ascii_iff in I' || apply not_ascii_iff in I'); tauto.
  - destruct (is_ascii (map byte_value t)) eqn:I, (is_ascii (map byte_value t')) eqn:I'; cbn; auto;
      (apply ascii_iff in I || apply not_ascii_iff in I); (apply ascii_iff in I' || apply not_ascii_iff in I'); tauto.
  - exact I.
Qed.
Lemma add_line_alike show show' x s s' : prints_ascii show -> prints_ascii show' -> alike s s' ->
  match add_line show x s, add_line show' x s' with Ok t, Ok t' => alike t t' | Err e, Err e' => e = e' | _, _ => False end.
Proof.
  intros A A' S. assert (forall b, alike (TStr b) (TStr b)) as R by (intros; cbn; tauto).
  destruct x as [t|n [v|]]; cbn [add_line]; [exact (join_alike _ _ _ _ S (R t))| |reflexivity].
  pose proof (shown_alike show show' v A A') as V. destruct (var_text show v) as [y|], (var_text show' v) as [y'|]; try contradiction; cbn [bind]; [|exact V].
  match goal with |- context [join (TStr ?p) y] => pose proof (join_alike _ _ _ _ (R p) V) as J; destruct (join (TStr p) y) as [z|], (join (TStr p) y') as [z'|] end;
    try contradiction; cbn [bind]; [|exact J].
  pose proof (join_alike _ _ _ _ J (R [x0a])) as K. destruct (join z (TStr [x0a])), (join z' (TStr [x0a])); try contradiction; cbn [bind]; [|exact K].
  now apply join_alike.
Qed.
Lemma data_alike show show' nf m e : prints_ascii show -> prints_ascii show' -> data_text show nf m = Err e -> data_text show' nf m = Err e.
Proof.
  intros A A'. rewrite !data_lines. assert (alike (TStr []) (TStr [])) as S by (cbn; tauto). revert S.
  generalize (TStr []) at 1 3. generalize (TStr []). induction (message_lines nf m) as [|x l IH]; intros s' s S; cbn [add_lines]; [discriminate|].
  pose proof (add_line_alike show show' x s s' A A' S) as J.
  destruct (add_line show x s) as [t|], (add_line show' x s') as [t'|]; try contradiction; cbn [bind]; [now apply IH|].
  intros [= <-]. now rewrite J.
Qed.
Lemma str_error_iff show m e : prints_ascii show -> (msg_str_error m = Some e <-> data_text show true m = Err e).
Proof.
  intros A. assert (prints_ascii (fun _ => [])) as A0 by (intros d; constructor).
  unfold msg_str_error. split.
  - destruct (data_text (fun _ => []) true m) as [t|e'] eqn:D; [discriminate|]. intros [= ->]. exact (data_alike _ _ _ _ _ A0 A D).
  - intros D. now rewrite (data_alike _ _ _ _ _ A A0 D).
Qed.
