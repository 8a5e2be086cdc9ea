(** Proofs about messages and the LLSD builder. *)
From Verif Require Import Lib SpecMessages PacketRules EventsProofs.

Lemma parse_blocks_flat args : forall d, parse_blocks d args = fold_left add_block (flat_args args) d.
Proof.
  induction args as [|a args IH]; intros d; [reflexivity|].
  cbn [flat_args flat_map]. rewrite fold_left_app. fold (flat_args args). rewrite <- IH.
  destruct a; reflexivity.
Qed.

Lemma message_getitem name args k : get_block (m_blocks (mk_message name args)) k =
  match filter (of_name k) (flat_args args) with [] => Err KeyErr | l => Ok l end.
Proof.
  unfold get_block. cbn [m_blocks mk_message]. rewrite parse_blocks_flat, blocks_get. cbn [dget].
  change (named k) with (of_name k). now destruct (filter (of_name k) (flat_args args)).
Qed.

Lemma last_given_app {V} k (a b : list (string * V)) :
  last_given k (a ++ b) = match last_given k b with Some v => Some v | None => last_given k a end.
Proof.
  induction a as [|[k' v] a IH]; cbn; [now destruct (last_given k b)|].
  rewrite IH. now destruct (last_given k b).
Qed.

Lemma given_vars given : forall b,
  let b' := fold_left (fun b '(n, v) => add_variable b n v) given b in
  b_name b' = b_name b /\ b_list b' = b_list b ++ map fst given /\
  (forall k, sget k (b_vars b') = match last_given k given with Some v => Some v | None => sget k (b_vars b) end) /\
  (NoDup (map fst (b_vars b)) -> NoDup (map fst (b_vars b'))).
Proof.
  induction given as [|[n v] given IH]; intros b; cbn [fold_left].
  - cbn. rewrite app_nil_r. auto.
  - destruct (IH (add_variable b n v)) as (A & B & C & D). split; [exact A|]. split.
    { rewrite B. cbn. now rewrite <- app_assoc. }
    split.
    + intros k. rewrite C. cbn. destruct (last_given k given); [reflexivity|].
      destruct (String.eqb_spec k n) as [->|N]; [apply sset_eq|now apply sset_neq].
    + intros H. apply D. cbn. apply (dset_nodup _ string_eqb_spec). exact H.
Qed.

Lemma block_given_vars b name given : block_given b name given ->
  b_name b = name /\ b_list b = map fst given /\ is_map_of given (b_vars b).
Proof.
  intros [n ->].
  pose proof (given_vars given {| b_name := name; b_vars := []; b_list := []; b_number := n |}) as (A & B & C & D).
  split; [exact A|]. split; [exact B|]. split; [apply D; constructor|].
  intros k. rewrite C. cbn. now destruct (last_given k given).
Qed.

Lemma mk_block_given name kwargs :
  block_given (mk_block name kwargs) name (map (fun '(n, d) => (n, {| v_data := d; v_type := None |})) kwargs).
Proof.
  exists 0. unfold mk_block, new_block.
  generalize {| b_name := name; b_vars := []; b_list := []; b_number := 0 |}.
  induction kwargs as [|[n d] kw IH]; intros b; [reflexivity|]. cbn. apply IH.
Qed.

Lemma last_given_values k (given : list (string * var)) :
  last_given k (values given) = option_map v_data (last_given k given).
Proof.
  induction given as [|[n v] g IH]; [reflexivity|]. cbn. unfold values in *. rewrite IH.
  destruct (last_given k g); cbn; [reflexivity|]. now destruct (String.eqb k n).
Qed.

Lemma block_item b name given k : block_given b name given ->
  block_getitem b k = match last_given k (values given) with Some d => Ok d | None => Err KeyErr end.
Proof.
  intros H. apply block_given_vars in H as (_ & _ & _ & G). unfold block_getitem, get_variable.
  rewrite G, last_given_values. now destruct (last_given k given).
Qed.

(** ** to_dict *)
Lemma block_dict_ok b name given : block_given b name given ->
  exists m, block_dict b = Ok m /\ is_map_of (values given) m.
Proof.
  intros H. pose proof (block_given_vars _ _ _ H) as (_ & L & _ & G). unfold block_dict. rewrite L. clear L H.
  assert (forall (part : list (string * var)) d, (forall k, In k (map fst part) -> last_given k given <> None) ->
    NoDup (map fst d) ->
    exists m, fold_left (fun acc n => do d <- acc; do v <- get_variable b n; Ok (sset n (v_data v) d))
      (map fst part) (Ok d) = Ok m /\ NoDup (map fst m) /\
      forall k, sget k m = if in_dec string_dec k (map fst part)
                           then option_map v_data (last_given k given) else sget k d) as F.
  { induction part as [|[n v] part IH]; intros d P N.
    - exists d. cbn. auto.
    - cbn [map fold_left].
      assert (get_variable b n = match last_given n given with Some v => Ok v | None => Err KeyErr end) as V.
      { unfold get_variable. now rewrite G. }
      cbn [bind fst]. rewrite V.
      destruct (last_given n given) as [w|] eqn:W; [|exfalso; apply (P n); [now left|exact W]].
      cbn [bind].
      destruct (IH (sset n (v_data w) d)) as (m & E & Nm & Gm).
      + intros k I. apply P. now right.
      + apply (dset_nodup _ string_eqb_spec). exact N.
      + exists m. split; [exact E|]. split; [exact Nm|]. intros k. rewrite Gm.
        destruct (in_dec string_dec k (n :: map fst part)) as [I|I].
        * destruct (in_dec string_dec k (map fst part)) as [J|J]; [reflexivity|].
          destruct I as [->|I]; [|contradiction]. rewrite sset_eq, W. reflexivity.
        * destruct (in_dec string_dec k (map fst part)) as [J|J]; [exfalso; apply I; now right|].
          apply sset_neq. intros ->. apply I. now left. }
  assert (forall k, In k (map fst given) <-> last_given k given <> None) as K.
  { intros k. clear. induction given as [|[n v] g IH]; cbn; [tauto|].
    destruct (last_given k g) as [w|] eqn:E.
    - split; [discriminate|]. intros _. right. apply IH. discriminate.
    - destruct (String.eqb_spec k n) as [->|N].
      + split; [discriminate|]. intros _. now left.
      + split; [|tauto]. intros [->|I]; [contradiction|]. now apply IH. }
  destruct (F given [] (fun k I => proj1 (K k) I) (NoDup_nil _)) as (m & E & N & Gm).
  exists m. split; [exact E|]. split; [exact N|]. intros k. rewrite Gm, last_given_values.
  destruct (in_dec string_dec k (map fst given)) as [I|I]; [reflexivity|].
  destruct (last_given k given) eqn:X; [|reflexivity]. exfalso. apply I, K. congruence.
Qed.

Definition good_blocks (bs : list block) := Forall (fun b => exists name given, block_given b name given) bs.

Lemma last_block_dict_ok l b : forall prev, good_blocks (l ++ [b]) ->
  exists m, last_block_dict prev (l ++ [b]) = Ok (Some m) /\ block_dict b = Ok m.
Proof.
  induction l as [|x l IH]; intros prev G; cbn in *.
  - inversion G as [|? ? (n & g & H) _]; subst. destruct (block_dict_ok b n g H) as (m & E & _).
    exists m. rewrite E. auto.
  - inversion G as [|? ? (n & g & H) G']; subst. destruct (block_dict_ok x n g H) as (m & E & _).
    rewrite E. cbn. apply IH. exact G'.
Qed.

Lemma to_dict_body_ok d : forall prev body,
  Forall (fun '(_, l) => l <> [] /\ good_blocks l) d -> NoDup (map fst d) ->
  (forall k, In k (map fst d) -> sget k body = None) -> NoDup (map fst body) ->
  exists body', to_dict_body prev d body = Ok body' /\ NoDup (map fst body') /\
    forall k, match sget k d with
              | Some l => exists l' b m, l = l' ++ [b] /\ block_dict b = Ok m /\ sget k body' = Some [m]
              | None => sget k body' = sget k body
              end.
Proof.
  induction d as [|[name l] d IH]; intros prev body F N K NB.
  - exists body. cbn. auto.
  - inversion F as [|? ? LG F']; subst. cbn in LG. destruct LG as [L G]. inversion N as [|? ? Nn N']; subst. cbn [to_dict_body].
    destruct (exists_last L) as (l' & b & ->).
    destruct (last_block_dict_ok l' b prev G) as (m & E & B). rewrite E. cbn [bind].
    rewrite (K name) by now left.
    destruct (IH (Some m) (sset name [m] body) F' N') as (body' & E' & NB' & R).
    + intros k I. rewrite sset_neq; [apply K; now right|]. intros ->. contradiction.
    + apply (dset_nodup _ string_eqb_spec). exact NB.
    + exists body'. split; [exact E'|]. split; [exact NB'|]. intros k. cbn [dget].
      destruct (String.eqb_spec k name) as [->|X].
      * exists l', b, m. split; [reflexivity|]. split; [exact B|].
        specialize (R name).
        assert (sget name d = None) as Z by (apply (dget_None _ string_eqb_spec); exact Nn).
        rewrite Z in R. rewrite R. apply sset_eq.
      * specialize (R k). destruct (sget k d); [exact R|]. rewrite R. now apply sset_neq.
Qed.

Lemma add_block_inv d b : NoDup (map fst d) -> Forall (fun '(_, l) => l <> [] /\ good_blocks l) d ->
  good_blocks [b] ->
  NoDup (map fst (add_block d b)) /\ Forall (fun '(_, l) => l <> [] /\ good_blocks l) (add_block d b).
Proof.
  intros N F B.
  assert (forall v, v <> [] /\ good_blocks v ->
    NoDup (map fst (sset (b_name b) v d)) /\ Forall (fun '(_, l) => l <> [] /\ good_blocks l) (sset (b_name b) v d)) as S.
  { intros v V. split; [now apply (dset_nodup _ string_eqb_spec)|].
    clear N. induction d as [|[k l] d IH]; cbn; [constructor; [exact V|constructor]|].
    inversion F; subst. destruct (String.eqb (b_name b) k); constructor; auto. }
  unfold add_block. destruct (sget (b_name b) d) as [l|] eqn:E.
  - apply S. split; [now destruct l|]. unfold good_blocks. apply Forall_app. split; [|exact B].
    apply (dget_In _ string_eqb_spec) in E. rewrite Forall_forall in F. apply (F _ E).
  - apply S. split; [discriminate|exact B].
Qed.

Lemma blocks_inv bs : forall d, NoDup (map fst d) -> Forall (fun '(_, l) => l <> [] /\ good_blocks l) d ->
  good_blocks bs ->
  NoDup (map fst (fold_left add_block bs d)) /\
  Forall (fun '(_, l) => l <> [] /\ good_blocks l) (fold_left add_block bs d).
Proof.
  induction bs as [|b bs IH]; intros d N F G; [auto|]. inversion G; subst. cbn.
  destruct (add_block_inv d b N F) as [N' F']; [repeat constructor; assumption|]. now apply IH.
Qed.

Lemma to_dict_last name args : good_blocks (flat_args args) ->
  exists body, to_dict (mk_message name args) = Ok (name, body) /\ NoDup (map fst body) /\
    forall k, match filter (of_name k) (flat_args args) with
              | [] => sget k body = None
              | l => exists l' b m, l = l' ++ [b] /\ block_dict b = Ok m /\ sget k body = Some [m]
              end.
Proof.
  intros G. unfold to_dict. cbn [m_blocks mk_message m_name]. rewrite parse_blocks_flat.
  destruct (blocks_inv (flat_args args) [] (NoDup_nil _) (Forall_nil _) G) as [N F].
  destruct (to_dict_body_ok (fold_left add_block (flat_args args) []) None [] F N) as (body & E & NB & R).
  { reflexivity. } { constructor. }
  exists body. rewrite E. split; [reflexivity|]. split; [exact NB|]. intros k. specialize (R k).
  rewrite blocks_get in R. cbn [dget] in R. change (named k) with (of_name k) in R.
  destruct (filter (of_name k) (flat_args args)); exact R.
Qed.

(** ** The builder *)
Lemma upd_heap_other n f l : forall i, i <> n -> nth_error (upd_heap n f l) i = nth_error l i.
Proof.
  revert l. induction n as [|n IH]; intros [|a l] [|i] N; cbn; try reflexivity; try congruence.
  apply IH. congruence.
Qed.
Lemma upd_heap_same n f l a : nth_error l n = Some a -> nth_error (upd_heap n f l) n = Some (f a).
Proof.
  revert l. induction n as [|n IH]; intros [|x l] E; cbn in *; try discriminate.
  - now injection E as ->.
  - now apply IH.
Qed.
Lemma upd_heap_length n f l : List.length (upd_heap n f l) = List.length l.
Proof. revert l. induction n; intros [|a l]; cbn; auto. Qed.

Definition untyped (given : list (string * pyval)) : list (string * var) :=
  map (fun '(k, d) => (k, {| v_data := d; v_type := None |})) given.
Lemma values_untyped given : values (untyped given) = given.
Proof. unfold values, untyped. induction given as [|[k d] g IH]; cbn; congruence. Qed.

Definition holds (heap : list block) (r : nat) (e : string * list (string * pyval)) : Prop :=
  exists b, nth_error heap r = Some b /\ block_given b (fst e) (untyped (snd e)).

(** References of the blocks of a name, in order. *)
Definition refs_of (name : string) (rs : list nat) (l : list (string * list (string * pyval))) : list nat :=
  map fst (filter (fun '(_, (n, _)) => String.eqb n name) (combine rs l)).

Record inv (b : builder) (w : option (list (string * list (string * pyval)))) : Prop := {
  inv_msg : match w, bd_msg b with
            | None, None => bd_block b = None
            | Some l, Some d => exists rs,
                Forall2 (holds (bd_heap b)) rs l /\ NoDup rs /\ NoDup (map fst d) /\
                (forall name, sget name d = match refs_of name rs l with [] => None | x => Some x end) /\
                match l with
                | [] => True
                | _ => exists rs' r, rs = rs' ++ [r] /\ bd_block b = Some r
                end
            | _, _ => False
            end }.

Lemma Forall2_impl' {A B} (R S : A -> B -> Prop) l l' : (forall a b, R a b -> S a b) ->
  Forall2 R l l' -> Forall2 S l l'.
Proof. intros H. induction 1; constructor; auto. Qed.

Lemma holds_lt heap r e : holds heap r e -> (r < List.length heap)%nat.
Proof. intros (b & E & _). apply nth_error_Some. congruence. Qed.

Lemma Forall2_app_inv_snoc {A B} (R : A -> B -> Prop) l x l' : Forall2 R (l ++ [x]) l' ->
  exists l1 y, l' = l1 ++ [y] /\ Forall2 R l l1 /\ R x y.
Proof.
  intros H. apply Forall2_app_inv_l in H as (l1 & l2 & H1 & H2 & ->).
  inversion H2 as [|? y ? ? H3 H4]; subst. inversion H4; subst. eauto.
Qed.

Lemma add_to_last_snoc {A} (x : A) l n d : add_to_last x (l ++ [(n, d)]) = l ++ [(n, d ++ [x])].
Proof.
  induction l as [|e l IH]; [reflexivity|]. cbn. rewrite IH.
  destruct e as [k f]. destruct l as [|e' l']; reflexivity.
Qed.

Lemma combine_snoc {A B} (l : list A) (l' : list B) a b : List.length l = List.length l' ->
  combine (l ++ [a]) (l' ++ [b]) = combine l l' ++ [(a, b)].
Proof. revert l'. induction l; intros [|y l'] H; cbn in *; try discriminate; [reflexivity|]. f_equal. auto. Qed.

Lemma refs_of_snoc name rs l r e : List.length rs = List.length l ->
  refs_of name (rs ++ [r]) (l ++ [e]) = refs_of name rs l ++ (if String.eqb (fst e) name then [r] else []).
Proof.
  intros L. unfold refs_of. rewrite combine_snoc by exact L. rewrite filter_app, map_app. f_equal.
  destruct e as [n d]. cbn. now destruct (String.eqb n name).
Qed.

Lemma given_snoc b name given n d : block_given b name (untyped given) ->
  block_given (add_variable b n {| v_data := d; v_type := None |}) name (untyped (given ++ [(n, d)])).
Proof.
  intros [i ->]. exists i. unfold untyped. rewrite map_app, fold_left_app. reflexivity.
Qed.

Lemma inv_step b w o : inv b w -> inv (fst (bstep b o)) (written_step w o).
Proof.
  intros [I]. destruct o as [|n|n d|]; cbn [bstep].
  - (* new_message *)
    constructor. cbn. exists []. repeat split; try constructor.
  - (* next_block *)
    unfold bd_next_block. destruct w as [l|], (bd_msg b) as [m|] eqn:M; try contradiction.
    + destruct I as (rs & F & ND & NK & K & _). constructor. cbn.
      exists (rs ++ [List.length (bd_heap b)]).
      pose proof (Forall2_len _ _ _ F) as L.
      assert (NoDup (rs ++ [List.length (bd_heap b)])) as ND'.
      { assert (~ In (List.length (bd_heap b)) rs) as X.
        { intros X. destruct (Forall2_in _ _ _ _ F X) as (e & _ & H). apply holds_lt in H. lia. }
        clear -ND X. induction rs as [|a rs IH]; cbn; [repeat constructor; auto|].
        inversion ND; subst. constructor.
        - rewrite in_app_iff. cbn in *. intros [H|[H|[]]]; [auto|]. apply X. now left.
        - apply IH; [assumption|]. intros H. apply X. now right. }
      assert (Forall2 (holds (bd_heap b ++ [new_block n])) (rs ++ [List.length (bd_heap b)]) (l ++ [(n, [])])) as F'.
      { apply Forall2_app.
        - eapply Forall2_impl'; [|exact F]. intros r e (bl & E & H). exists bl. split; [|exact H].
          rewrite nth_error_app1; [exact E|]. apply nth_error_Some. congruence.
        - constructor; [|constructor]. exists (new_block n). split.
          + rewrite nth_error_app2, Nat.sub_diag by lia. reflexivity.
          + exists 0. reflexivity. }
      split; [exact F'|]. split; [exact ND'|].
      assert (forall x, (forall name, sget name (sset n (x ++ [List.length (bd_heap b)]) m) =
                if String.eqb n name then Some (x ++ [List.length (bd_heap b)]) else sget name m)) as SG.
      { intros x name. destruct (String.eqb_spec n name) as [->|X]; [apply sset_eq|apply sset_neq; congruence]. }
      split; [|split].
      * destruct (sget n m); now apply (dset_nodup _ string_eqb_spec).
      * intros name. rewrite refs_of_snoc by exact L. cbn [fst].
        destruct (sget n m) as [x|] eqn:X.
        -- rewrite SG. rewrite K in X. destruct (String.eqb_spec n name) as [->|Y].
           ++ destruct (refs_of name rs l); [discriminate|]. injection X as <-. reflexivity.
           ++ rewrite app_nil_r. apply K.
        -- change (sset n [List.length (bd_heap b)] m) with (sset n ([] ++ [List.length (bd_heap b)]) m).
           rewrite SG. rewrite K in X. destruct (String.eqb_spec n name) as [->|Y].
           ++ destruct (refs_of name rs l); [|discriminate]. reflexivity.
           ++ rewrite app_nil_r. apply K.
      * destruct l; cbn; eauto.
    + constructor. cbn. exact I.
  - (* add_data *)
    unfold bd_add_data. destruct w as [l|], (bd_msg b) as [m|] eqn:M; try contradiction.
    + destruct I as (rs & F & ND & NK & K & LB).
      destruct (bd_block b) as [r|] eqn:B.
      * constructor. cbn. rewrite ?M. destruct l as [|e0 l0] eqn:EL.
        -- inversion F; subst. exists []. cbn. repeat split; auto; constructor.
        -- destruct LB as (rs' & r' & -> & [= <-]).
           destruct (Forall2_app_inv_snoc _ _ _ _ F) as (l1 & [n' g] & E & F1 & H).
           rewrite E in *. exists (rs' ++ [r]). rewrite add_to_last_snoc.
           assert (~ In r rs') as NI.
           { apply NoDup_remove_2 in ND. rewrite app_nil_r in ND. exact ND. }
           split; [|split; [exact ND|split; [exact NK|split]]].
           ++ apply Forall2_app.
              ** assert (Forall (fun x => x <> r) rs') as NR.
                 { apply Forall_forall. intros x I ->. contradiction. }
                 clear -F1 NR. induction F1 as [|x e rs' l1 (bl & E & H) F1 IH]; [constructor|].
                 inversion NR; subst. constructor; [|now apply IH].
                 exists bl. split; [|exact H]. rewrite upd_heap_other by assumption. exact E.
              ** constructor; [|constructor]. destruct H as (bl & EB & GB).
                 eexists. split; [apply upd_heap_same; exact EB|]. cbn [fst snd] in *. now apply given_snoc.
           ++ intros name. rewrite K. pose proof (Forall2_len _ _ _ F1) as L.
              rewrite !refs_of_snoc by exact L. reflexivity.
           ++ destruct (l1 ++ [(n', g ++ [(n, d)])]) eqn:Z; [destruct l1; discriminate|]. eauto.
      * constructor. cbn. rewrite ?M. destruct l as [|e0 l0].
        -- exists rs. inversion F; subst. cbn. repeat split; auto; constructor.
        -- destruct LB as (rs' & r' & _ & X). discriminate.
    + rewrite I. constructor. cbn. rewrite ?M. reflexivity.
  - (* build *)
    unfold bd_build. destruct w as [l|], (bd_msg b) as [m|] eqn:M; try contradiction.
    + constructor. cbn. rewrite ?M. exact I.
    + constructor. cbn. rewrite M. exact I.
Qed.

Lemma inv_init : inv bd_init None.
Proof. constructor. reflexivity. Qed.

Lemma inv_run ops : forall b w, inv b w -> inv (brun b ops) (fold_left written_step ops w).
Proof. induction ops as [|o ops IH]; intros b w I; [exact I|]. cbn. apply IH. now apply inv_step. Qed.

Lemma written_state ops : inv (brun bd_init ops) (written ops).
Proof. apply inv_run, inv_init. Qed.

Lemma block_map_given b name given : block_given b name (untyped given) -> is_map_of given (block_map b).
Proof.
  intros H. apply block_given_vars in H as (_ & _ & N & G). unfold block_map. split.
  - rewrite map_map. erewrite map_ext; [exact N|]. intros [k v]. reflexivity.
  - intros k. rewrite <- (values_untyped given), last_given_values.
    rewrite <- G. clear. induction (b_vars b) as [|[n v] l IH]; [reflexivity|]. cbn.
    destruct (String.eqb k n); [reflexivity|]. exact IH.
Qed.

(** build_list over references whose blocks all have the name [k]. *)
Lemma build_list_get heap k refs : forall es msg,
  Forall2 (fun r ds => holds heap r (k, ds)) refs es ->
  NoDup (map fst msg) ->
  NoDup (map fst (build_list heap refs msg)) /\
  exists ms, Forall2 is_map_of es ms /\
  forall name, sget name (build_list heap refs msg) =
    if String.eqb name k then
      match ms with
      | [] => sget name msg
      | _ => Some (match sget name msg with Some x => x | None => [] end ++ ms)
      end
    else sget name msg.
Proof.
  induction refs as [|r refs IH]; intros es msg F N; inversion F as [|? ds ? es' (b & E & G) F']; subst.
  - cbn. split; [exact N|]. exists []. split; [constructor|]. intros name. now destruct (String.eqb name k).
  - cbn [build_list]. rewrite E. pose proof (block_given_vars _ _ _ G) as (B & _ & _). cbn [fst snd] in *.
    rewrite B. set (old := match sget k msg with Some x => x | None => [] end).
    destruct (IH es' (sset k (old ++ [block_map b]) msg) F') as (N' & ms & FM & R).
    { now apply (dset_nodup _ string_eqb_spec). }
    split; [exact N'|]. exists (block_map b :: ms). split.
    + constructor; [now apply (block_map_given b k)|exact FM].
    + intros name. rewrite R. destruct (String.eqb_spec name k) as [->|X].
      * rewrite sset_eq. unfold old. destruct ms; [reflexivity|]. now rewrite <- app_assoc.
      * now apply sset_neq.
Qed.

Lemma refs_of_data heap name rs l : Forall2 (holds heap) rs l ->
  Forall2 (fun r ds => holds heap r (name, ds)) (refs_of name rs l) (data_of_name name l).
Proof.
  unfold refs_of, data_of_name. induction 1 as [|r [n ds] rs l H F IH]; [constructor|].
  cbn. destruct (String.eqb_spec n name) as [->|]; cbn; [|exact IH]. constructor; [exact H|exact IH].
Qed.

Lemma build_fold heap d : forall msg,
  (forall k refs, In (k, refs) d -> exists es, Forall2 (fun r ds => holds heap r (k, ds)) refs es) ->
  NoDup (map fst d) -> NoDup (map fst msg) -> (forall k, In k (map fst d) -> sget k msg = None) ->
  let out := fold_left (fun msg '(_, refs) => build_list heap refs msg) d msg in
  NoDup (map fst out) /\
  forall k, match sget k d with
            | None => sget k out = sget k msg
            | Some refs => forall es, Forall2 (fun r ds => holds heap r (k, ds)) refs es -> es <> [] ->
                exists ms, sget k out = Some ms /\ Forall2 is_map_of es ms
            end.
Proof.
  induction d as [|[k refs] d IH]; intros msg H ND NM K; cbn [fold_left].
  - split; [exact NM|]. reflexivity.
  - inversion ND as [|? ? X ND']; subst.
    destruct (H k refs (or_introl eq_refl)) as (es0 & F0).
    destruct (build_list_get heap k refs es0 msg F0 NM) as (N0 & ms0 & _ & R0).
    destruct (IH (build_list heap refs msg)) as (N1 & R1).
    + intros; apply H; now right.
    + exact ND'.
    + exact N0.
    + intros k' I. rewrite R0. destruct (String.eqb_spec k' k) as [->|]; [contradiction|].
      apply K. now right.
    + cbn zeta in *. split; [exact N1|]. intros k'. cbn [dget]. specialize (R1 k').
      destruct (String.eqb_spec k' k) as [->|Y].
      * intros es F NE.
        assert (sget k d = None) as Z by (apply (dget_None _ string_eqb_spec); exact X).
        rewrite Z in R1. rewrite R1.
        destruct (build_list_get heap k refs es msg F NM) as (_ & ms & FM & R). rewrite R, String.eqb_refl.
        rewrite (K k) by now left. inversion FM; subst; [contradiction|]. eexists. split; [reflexivity|].
        constructor; assumption.
      * destruct (sget k' d); [exact R1|]. rewrite R1, R0. destruct (String.eqb_spec k' k); [contradiction|reflexivity].
Qed.

Lemma same_elements_count (l l' : list string) : NoDup l -> (forall k, In k l <-> In k l') ->
  zlen l = distinct_count l'.
Proof.
  intros N H. unfold distinct_count, zlen. f_equal.
  apply Nat.le_antisymm.
  - apply NoDup_incl_length; [exact N|]. intros k I. apply nodup_In. now apply H.
  - apply NoDup_incl_length; [apply NoDup_nodup|]. intros k I. apply nodup_In in I. now apply H.
Qed.

Lemma data_of_name_in name (l : list (string * list (string * pyval))) :
  data_of_name name l <> [] <-> In name (map fst l).
Proof.
  unfold data_of_name. induction l as [|[n d] l IH]; cbn; [tauto|].
  destruct (String.eqb_spec n name) as [->|N]; cbn.
  - split; [now left|discriminate].
  - rewrite IH. split; [now right|]. intros [->|H]; [contradiction|exact H].
Qed.

Lemma build_ok ops l : written ops = Some l -> exists m,
  bd_build (brun bd_init ops) =
    ({| bd_heap := bd_heap (brun bd_init ops); bd_msg := bd_msg (brun bd_init ops);
        bd_block := bd_block (brun bd_init ops); bd_built := true |},
     Ok (m, distinct_count (map fst l))) /\ is_built_from l m.
Proof.
  intros W. destruct (written_state ops) as [I]. rewrite W in I. unfold bd_build.
  destruct (bd_msg (brun bd_init ops)) as [d|] eqn:M; [|contradiction].
  destruct I as (rs & F & _ & NK & K & _).
  set (heap := bd_heap (brun bd_init ops)) in *.
  destruct (build_fold heap d []) as (N & R).
  - intros k refs I. exists (data_of_name k l).
    apply (dget_In_nodup _ string_eqb_spec k refs d NK) in I. rewrite K in I.
    destruct (refs_of k rs l) eqn:X; [discriminate|]. injection I as <-. rewrite <- X.
    now apply refs_of_data.
  - exact NK.
  - constructor.
  - reflexivity.
  - cbn zeta in *. set (m := fold_left _ d []) in *.
    assert (is_built_from l m) as BF.
    { split; [exact N|]. intros name. specialize (R name). rewrite K in R.
      pose proof (refs_of_data heap name rs l F) as RD.
      destruct (refs_of name rs l) as [|r0 rr] eqn:X.
      - inversion RD; subst. exact R.
      - destruct (data_of_name name l) as [|d0 dd] eqn:Y; [inversion RD|].
        destruct (R _ RD) as (ms & E & FM); [discriminate|]. eauto. }
    exists m. split; [|exact BF].
    assert (zlen m = distinct_count (map fst l)) as Z.
    { unfold zlen. rewrite <- (map_length fst m). change (Z.of_nat (List.length (map fst m))) with (zlen (map fst m)).
      apply same_elements_count; [exact N|]. intros k. destruct BF as [_ BF]. specialize (BF k).
      rewrite <- data_of_name_in. destruct (data_of_name k l) as [|d0 dd].
      - split; [|congruence]. intros I. exfalso. apply (dget_None _ string_eqb_spec) in BF. contradiction.
      - split; [discriminate|]. intros _. destruct BF as (ms & E & _).
        apply (dget_In _ string_eqb_spec) in E. apply in_map_iff. now exists (k, ms). }
    rewrite Z. reflexivity.
Qed.

Lemma build_none ops : written ops = None -> bd_build (brun bd_init ops) = (brun bd_init ops, Err AttributeErr).
Proof.
  intros W. destruct (written_state ops) as [I]. rewrite W in I. unfold bd_build.
  destruct (bd_msg (brun bd_init ops)); [contradiction|reflexivity].
Qed.

Lemma next_block_result ops n : snd (bd_next_block (brun bd_init ops) n) =
  match written ops with Some _ => Ok tt | None => Err AttributeErr end.
Proof.
  destruct (written_state ops) as [I]. unfold bd_next_block.
  destruct (written ops), (bd_msg (brun bd_init ops)); try contradiction; reflexivity.
Qed.

Lemma brun_app ops ops' : forall b, brun b (ops ++ ops') = brun (brun b ops) ops'.
Proof. induction ops as [|o ops IH]; intros b; [reflexivity|]. cbn. apply IH. Qed.

Lemma built_iff ops : is_built (brun bd_init ops) = true <->
  exists before, ops = before ++ [BBuild] /\ written before <> None.
Proof.
  destruct ops as [|o0 ops0] using rev_ind.
  - cbn. split; [discriminate|]. intros (a & E & _). destruct a; discriminate.
  - clear IHops0. rewrite brun_app. cbn [brun].
    destruct o0 as [|n|n d|].
    + cbn. split; [discriminate|]. intros (a & E & _). apply app_inj_tail in E as [_ E]. discriminate.
    + split.
      * cbn [bstep]. unfold bd_next_block. destruct (bd_msg (brun bd_init ops0)); discriminate.
      * intros (a & E & _). apply app_inj_tail in E as [_ E]. discriminate.
    + split.
      * cbn [bstep]. unfold bd_add_data. destruct (bd_block (brun bd_init ops0)); discriminate.
      * intros (a & E & _). apply app_inj_tail in E as [_ E]. discriminate.
    + cbn [bstep]. destruct (written ops0) as [l|] eqn:W.
      * destruct (build_ok ops0 l W) as (m & E & _). rewrite E. cbn. split; [|reflexivity].
        intros _. exists ops0. split; [reflexivity|congruence].
      * rewrite (build_none ops0 W). cbn. split.
        -- intros H. exfalso. revert H. unfold is_built.
           assert (forall ops, written ops = None -> bd_built (brun bd_init ops) = false) as U.
           { clear. intros ops. induction ops as [|o ops IH] using rev_ind; [reflexivity|].
             unfold written. rewrite fold_left_app, brun_app. cbn [fold_left brun]. fold (written ops).
             intros H. destruct o as [|n|n d|]; cbn in H.
             - discriminate.
             - cbn [bstep]. unfold bd_next_block. destruct (bd_msg _); reflexivity.
             - cbn [bstep]. unfold bd_add_data. destruct (bd_block _); reflexivity.
             - destruct (written ops) eqn:W; [discriminate|]. cbn [bstep].
               rewrite (build_none ops W). apply IH. reflexivity. }
           rewrite U by exact W. discriminate.
        -- intros (a & E & H). apply app_inj_tail in E as [<- _]. contradiction.
Qed.

Lemma msg_some ops : bd_msg (brun bd_init ops) <> None <-> In BNew ops.
Proof.
  induction ops as [|o ops IH] using rev_ind; [cbn; split; [congruence|contradiction]|].
  rewrite brun_app, in_app_iff. cbn [brun]. rewrite <- IH. clear IH. set (b := brun bd_init ops).
  destruct o as [|n|n d|]; cbn [bstep fst In].
  - cbn. split; [auto|discriminate].
  - unfold bd_next_block. destruct (bd_msg b); cbn; intuition congruence.
  - unfold bd_add_data. destruct (bd_block b); cbn; intuition congruence.
  - unfold bd_build. destruct (bd_msg b) eqn:M; cbn; rewrite ?M; intuition congruence.
Qed.
Lemma block_some ops : bd_block (brun bd_init ops) <> None <->
  exists before name later, ops = before ++ BBlock name :: later /\ In BNew before.
Proof.
  assert (forall ops o, (exists before name later, ops ++ [o] = before ++ BBlock name :: later /\ In BNew before) <->
            (exists before name later, ops = before ++ BBlock name :: later /\ In BNew before) \/
            (In BNew ops /\ exists name, o = BBlock name)) as SNOC.
  { clear. intros ops o. split.
    - intros (b & n & l & E & I). destruct l as [|x l _] using rev_ind.
      + apply app_inj_tail in E. destruct E as [-> ->]. eauto.
      + change (b ++ BBlock n :: l ++ [x]) with (b ++ (BBlock n :: l) ++ [x]) in E. rewrite app_assoc in E.
        apply app_inj_tail in E. destruct E as [-> ->]. left. eauto.
    - intros [(b & n & l & -> & I)|(I & n & ->)].
      + exists b, n, (l ++ [o]). split; [now rewrite <- app_assoc|exact I].
      + exists ops, n, []. auto. }
  induction ops as [|o ops IH] using rev_ind.
  { cbn. split; [congruence|]. intros ([|bb bl] & nn & ll & E & _); discriminate. }
  rewrite SNOC, <- IH, brun_app. clear IH SNOC. cbn [brun]. pose proof (msg_some ops) as MS. set (b := brun bd_init ops) in *.
  destruct o as [|n|n d|]; cbn [bstep fst].
  - cbn. split; [auto|]. intros [H|(_ & n & H)]; [exact H|discriminate].
  - unfold bd_next_block. destruct (bd_msg b) eqn:M; cbn.
    + split; [|discriminate]. intros _. right. split; [apply MS; discriminate|eauto].
    + split; [auto|]. intros [H|(H & _)]; [exact H|]. apply MS in H. congruence.
  - unfold bd_add_data. destruct (bd_block b) eqn:B; cbn; (split; [left; congruence|]); intros [H|(_ & x & H)]; congruence.
  - unfold bd_build. destruct (bd_msg b); cbn; (split; [auto|]); intros [H|(_ & x & H)]; auto; discriminate.
Qed.
Lemma add_data_result ops n d : snd (bd_add_data (brun bd_init ops) n d) = Ok tt <->
  exists before name later, ops = before ++ BBlock name :: later /\ In BNew before.
Proof. rewrite <- block_some. unfold bd_add_data. destruct (bd_block _); cbn; split; congruence. Qed.
Lemma add_data_error ops n d e : snd (bd_add_data (brun bd_init ops) n d) = Err e -> e = AttributeErr.
Proof. unfold bd_add_data. destruct (bd_block _); cbn; congruence. Qed.
