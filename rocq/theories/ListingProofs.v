(** C99: the listing of templates. *)
From Verif Require Import Lib SpecListing DescribeProofs IntTextProofs TextProofs.
Open Scope Z_scope.
Open Scope list_scope.

(** ** Printing *)
Lemma text_app a b : text_of (a ++ b) = text_of a ++ text_of b.
Proof. unfold text_of. now rewrite map_app, concat_app. Qed.
Lemma text_cons l ls : text_of (l :: ls) = (l ++ [x0a]) ++ text_of ls.
Proof. reflexivity. Qed.
Lemma then_ok a b s : then_print a b = (s, None) <-> exists x y, a = (x, None) /\ b = (y, None) /\ s = x ++ y.
Proof.
  destruct a as [x [e|]], b as [y [e'|]]; unfold then_print; cbn; split; try discriminate; try (intros (? & ? & ? & ? & _); discriminate).
  - intros [= <-]. eauto.
  - intros (? & ? & [= <-] & [= <-] & ->). reflexivity.
Qed.
Lemma prints_ok l s : prints l = (s, None) <-> s = l ++ [x0a].
Proof. unfold prints. split; [intros [= <-]|intros ->]; reflexivity. Qed.
Lemma print_res_ok r s : print_res r = (s, None) <-> exists l, r = Ok l /\ s = l ++ [x0a].
Proof.
  destruct r as [l|e]; unfold print_res, prints, raises; split; try discriminate.
  - intros [= <-]. eauto.
  - intros (? & [= <-] & ->). reflexivity.
  - intros (? & ? & _). discriminate.
Qed.
Lemma for_each_ok {A} (body : A -> printed) (R : A -> list bytes -> Prop) :
  (forall x s, body x = (s, None) <-> exists ls, R x ls /\ s = text_of ls) ->
  forall l s, for_each body l = (s, None) <-> exists lss, Forall2 R l lss /\ s = text_of (List.concat lss).
Proof.
  intros H. induction l as [|x l IH]; intros s; cbn [for_each].
  - split; [intros [= <-]; exists []; split; [constructor|reflexivity]|]. intros (lss & F & ->). inversion F; subst. reflexivity.
  - rewrite then_ok. split.
    + intros (a & b & A1 & B1 & ->). apply H in A1 as (ls & R1 & ->). apply IH in B1 as (lss & F & ->).
      exists (ls :: lss). split; [now constructor|]. cbn [List.concat]. now rewrite text_app.
    + intros (lss & F & ->). inversion F as [|? ls ? lss' R1 F']; subst. cbn [List.concat]. exists (text_of ls), (text_of (List.concat lss')).
      split; [apply H; eauto|]. split; [apply IH; eauto|apply text_app].
Qed.
Lemma for_each_ok1 {A} (body : A -> printed) (R : A -> bytes -> Prop) :
  (forall x s, body x = (s, None) <-> exists l, R x l /\ s = l ++ [x0a]) ->
  forall l s, for_each body l = (s, None) <-> exists ls, Forall2 R l ls /\ s = text_of ls.
Proof.
  intros H l s. rewrite (for_each_ok body (fun x ls => exists y, R x y /\ ls = [y])).
  - split.
    + intros (lss & F & ->). revert lss F. induction l as [|x l IH]; intros lss F; inversion F as [|? ? ? lss' (y & R1 & ->) F']; subst; [exists []; split; [constructor|reflexivity]|].
      destruct (IH _ F') as (ls & F2 & E). exists (y :: ls). split; [now constructor|]. cbn [List.concat app]. rewrite !text_cons. now rewrite E.
    + intros (ls & F & ->). exists (map (fun y => [y]) ls). split.
      * induction F; cbn; constructor; eauto.
      * f_equal. clear F. induction ls as [|y ls IH]; [reflexivity|]. cbn. now rewrite <- IH.
  - intros x s0. rewrite H. split.
    + intros (y & R1 & ->). exists [y]. split; [eauto|]. unfold text_of. cbn. now rewrite app_nil_r.
    + intros (ls & (y & R1 & ->) & ->). exists y. split; [exact R1|]. unfold text_of. cbn. now rewrite app_nil_r.
Qed.
Lemma ljust_shape n s : exists fill, spaces fill /\ ljust n s = s ++ fill /\ zlen (s ++ fill) = Z.max n (zlen s).
Proof.
  exists (repeat x20 (Z.to_nat (n - zlen s))). split; [apply Forall_forall; intros c H; now apply repeat_spec in H|].
  split; [reflexivity|]. rewrite zlen_app. unfold zlen at 2. rewrite repeat_length. lia.
Qed.
Lemma spaces_same a b : spaces a -> spaces b -> zlen a = zlen b -> a = b.
Proof.
  intros A. revert b. induction A as [|c a C A IH]; intros b B L.
  - destruct b as [|c b]; [reflexivity|]. rewrite zlen_cons in L. pose proof (zlen_nonneg b). change (zlen (@nil byte)) with 0 in L. lia.
  - destruct B as [|d b D B]; [rewrite zlen_cons in L; pose proof (zlen_nonneg a); change (zlen (@nil byte)) with 0 in L; lia|].
    rewrite !zlen_cons in L. rewrite C, D. f_equal. apply IH; [exact B|lia].
Qed.
Lemma variable_printed v s : print_variable v = (s, None) <-> exists l, variable_line v l /\ s = l ++ [x0a].
Proof.
  unfold print_variable. rewrite print_res_ok. destruct (ljust_shape 20 (txt (tv_name v))) as (fill & SF & LJ & LF). split.
  - intros (l & E & ->). exists l. split; [|reflexivity]. unfold type_as_string, MVT_as_string, name_of in E.
    destruct (tv_type v) as [ty|] eqn:T; [|discriminate]. cbn [bind] in E. injection E as <-. exists ty, fill.
    split; [exact T|]. split; [exact SF|]. split; [exact LF|]. now rewrite LJ.
  - intros (l & (ty & fill' & T & SF' & LF' & ->) & ->). eexists. split; [|reflexivity].
    unfold type_as_string, MVT_as_string, name_of. rewrite T. cbn [bind]. rewrite LJ.
    replace fill' with fill; [reflexivity|]. apply spaces_same; auto. rewrite zlen_app in LF, LF'. lia.
Qed.
Lemma kind_said b : block_type_as_string b = kind_word (tb_type b).
Proof. unfold block_type_as_string. now destruct (tb_type b) as [[]|]. Qed.
Lemma block_printed b s : print_block b = (s, None) <-> exists ls, block_lines b ls /\ s = text_of ls.
Proof.
  unfold print_block. rewrite then_ok. pose proof (for_each_ok1 print_variable variable_line variable_printed (tb_vars b)) as FV. split.
  - intros (x & y & X & Y & ->). apply prints_ok in X as ->. apply FV in Y as (vls & F & ->).
    eexists. split; [exists (dec_text (tb_number b)), vls; split; [apply dec_int|]; split; [exact F|reflexivity]|].
    rewrite text_cons, kind_said. reflexivity.
  - intros (ls & (n & vls & N & F & ->) & ->). apply int_iff in N as ->. eexists _, (text_of vls).
    split; [apply prints_ok; reflexivity|]. split; [apply FV; eauto|]. rewrite text_cons, kind_said. reflexivity.
Qed.
Lemma rate_said t s : frequency_as_string t = Ok s <-> exists f, t_freq t = Some f /\ s = rate_word f.
Proof. unfold frequency_as_string. destruct (t_freq t) as [[]|]; split; try discriminate; try (intros [= <-]; eexists; split; reflexivity); intros (f & [= <-] & ->); reflexivity. Qed.
Lemma pair_text p q b : hex_pair p b -> hex_pair q b -> p = q.
Proof.
  intros (h & l & hi & lo & -> & ((H1 & H2) & H3) & ((L1 & L2) & L3) & E) (h' & l' & hi' & lo' & -> & ((H1' & H2') & H3') & ((L1' & L2') & L3') & E').
  assert (hi = hi') by lia. assert (lo = lo') by lia. subst. congruence.
Qed.
Lemma packet_printed t s : print_packet t = (s, None) <-> exists ls, template_lines t ls /\ s = text_of ls.
Proof.
  unfold print_packet. rewrite then_ok. pose proof (for_each_ok print_block block_lines block_printed (t_blocks t)) as FB. split.
  - intros (x & y & X & Y & ->). apply prints_ok in X as ->. apply then_ok in Y as (z & u & Z & U & ->).
    apply print_res_ok in Z as (l & E & ->). apply FB in U as (bls & F & ->).
    destruct (frequency_as_string t) as [fs|] eqn:EF; [|discriminate]. apply rate_said in EF as (f & F1 & ->). cbn [bind] in E.
    unfold message_hex_num in E. destruct (t_hex t) as [h|] eqn:H; [|discriminate]. cbn [bind] in E.
    unfold trust_as_string, encoding_as_string, deprecation_as_string, name_of in E.
    destruct (t_trust t) as [tr|] eqn:T; [|discriminate]. destruct (t_enc t) as [en|] eqn:EN; [|discriminate].
    destruct (t_dep t) as [de|] eqn:DE; [|discriminate]. cbn [bind] in E. injection E as <-.
    eexists. split.
    + exists f, (dec_text (t_num t)), h, (flat_map hex2 h), tr, en, de, bls. repeat (split; [first [assumption|apply dec_int|apply spelled]|]). reflexivity.
    + rewrite !text_cons. cbn [spaced]. destruct tr, en, de; reflexivity.
  - intros (ls & (f & n & h & hs & tr & en & de & bls & F1 & N & H & HS & T & EN & DE & F & ->) & ->).
    apply int_iff in N as ->. assert (hs = flat_map hex2 h) as ->.
    { destruct HS as (p & FP & ->). clear -FP. induction FP as [|x b p h X FP IH]; [reflexivity|]. cbn [List.concat flat_map]. rewrite IH. f_equal.
      eapply pair_text; [exact X|apply hex2_pair]. }
    eexists _, (text_of (_ :: List.concat bls)). split; [apply prints_ok; reflexivity|]. split; [|apply text_cons].
    apply then_ok. eexists _, (text_of (List.concat bls)). split; [|split; [apply FB; eauto|apply text_cons]].
    apply print_res_ok. eexists. split; [|reflexivity].
    assert (frequency_as_string t = Ok (rate_word f)) as -> by (apply rate_said; eauto).
    unfold message_hex_num, trust_as_string, encoding_as_string, deprecation_as_string, name_of. rewrite H, T, EN, DE.
    cbn [bind spaced]. destruct tr, en, de; reflexivity.
Qed.
Lemma listing_iff ts s : print_packet_list ts = (s, None) <-> listing ts s.
Proof. exact (for_each_ok print_packet template_lines packet_printed ts s). Qed.

(** ** Reading the listing back *)
Lemma txt_inj a b : txt a = txt b -> a = b.
Proof. unfold bytes_of_string. intros H. rewrite <- (string_of_list_byte_of_string a), <- (string_of_list_byte_of_string b). now rewrite H. Qed.
Definition solid (c : byte) : Prop := c <> x20 /\ c <> x09 /\ c <> x0a.
Definition stops (P : byte -> Prop) (r : bytes) : Prop := match r with [] => True | c :: _ => ~ P c end.
Lemma token P a : forall b r q, Forall P a -> Forall P b -> stops P r -> stops P q -> a ++ r = b ++ q -> a = b /\ r = q.
Proof.
  induction a as [|c a IH]; intros b r q A B R Q E.
  - destruct b as [|d b]; [auto|]. cbn in E. subst r. cbn in R. inversion B; subst. contradiction.
  - destruct b as [|d b]; cbn in E; [subst q; cbn in Q; inversion A; subst; contradiction|]. injection E as <- E.
    inversion A; subst. inversion B; subst. destruct (IH b r q) as [-> ->]; auto.
Qed.
Lemma word_solid s : word s -> Forall solid s.
Proof.
  intros [F _]. eapply Forall_impl; [|exact F]. intros c [[H|H]|[H|H]]; repeat split; intros ->; unfold figure, ord in H; cbn in H; try lia; discriminate.
Qed.
Definition solidb (c : byte) : bool := negb (Byte.eqb c x20 || Byte.eqb c x09 || Byte.eqb c x0a).
Lemma solidb_ok s : forallb solidb s = true -> Forall solid s.
Proof. rewrite forallb_forall. intros H. apply Forall_forall. intros c C. specialize (H c C). repeat split; intros ->; discriminate. Qed.
Lemma mvt_solid ty : Forall solid (txt (mvt_name ty)).
Proof. apply solidb_ok. destruct ty; reflexivity. Qed.
Lemma kind_solid k : Forall solid (txt (kind_word k)).
Proof. apply solidb_ok. destruct k as [[]|]; reflexivity. Qed.
Lemma rate_solid k : Forall solid (txt (rate_word k)).
Proof. apply solidb_ok. destruct k; reflexivity. Qed.
Lemma trust_solid k : Forall solid (txt (trust_word k)).
Proof. apply solidb_ok. destruct k; reflexivity. Qed.
Lemma enc_solid k : Forall solid (txt (enc_word k)).
Proof. apply solidb_ok. destruct k; reflexivity. Qed.
Lemma dep_solid k : Forall solid (txt (dep_word k)).
Proof. apply solidb_ok. destruct k; reflexivity. Qed.
Lemma figure_solid s : Forall figure s -> Forall solid s.
Proof. intros F. eapply Forall_impl; [|exact F]. intros c H; repeat split; intros ->; unfold figure, ord in H; cbn in H; lia. Qed.
Lemma int_solid z s : int_text z s -> Forall solid s.
Proof.
  intros [(_ & (F & _) & _)|(_ & r & -> & (F & _) & _)]; [now apply figure_solid|].
  constructor; [repeat split; discriminate|now apply figure_solid].
Qed.
Lemma int_value_unique z y s : int_text z s -> int_text y s -> z = y.
Proof.
  intros [(P & (F & N & V) & L)|(P & r & -> & (F & N & V) & L)] [(P' & (F' & N' & V') & L')|(P' & r' & E & (F' & N' & V') & L')].
  - congruence.
  - subst s. inversion F; subst. unfold figure, ord in *. cbn in *. lia.
  - inversion F'; subst. unfold figure, ord in *. cbn in *. lia.
  - injection E as <-. lia.
Qed.
Lemma spelled_solid s h : spelled_hex s h -> Forall solid s.
Proof.
  intros (p & F & ->). induction F as [|x b p h (u & l & hi & lo & -> & ((H1 & H2) & H3) & ((L1 & L2) & L3) & _) F IH]; [constructor|].
  assert (forall d c, 0 <= d < 16 -> nth_error upper_digits (Z.to_nat d) = Some c -> solid c) as K.
  { intros d c R E. apply nth_error_In in E. assert (forallb solidb upper_digits = true) as S by reflexivity. apply solidb_ok in S.
    rewrite Forall_forall in S. now apply S. }
  cbn [List.concat app]. constructor; [eapply K; [|exact H3]; lia|]. constructor; [eapply K; [|exact L3]; lia|exact IH].
Qed.
Lemma mvt_inj a b : txt (mvt_name a) = txt (mvt_name b) -> a = b.
Proof. intros H. apply txt_inj in H. destruct a, b; try reflexivity; discriminate. Qed.
Lemma kind_inj a b : txt (kind_word a) = txt (kind_word b) -> a = b.
Proof. intros H. apply txt_inj in H. destruct a as [[]|], b as [[]|]; try reflexivity; discriminate. Qed.

Lemma variables_back r r' : (forall q, r <> x09 :: x09 :: q) -> (forall q, r' <> x09 :: x09 :: q) ->
  forall vs vs' ls ls', Forall2 variable_line vs ls -> Forall2 variable_line vs' ls' ->
  Forall (fun v => a_word (tv_name v)) vs -> Forall (fun v => a_word (tv_name v)) vs' ->
  text_of ls ++ r = text_of ls' ++ r' -> Forall2 same_variable vs vs' /\ r = r'.
Proof.
  intros R R'. induction vs as [|v vs IH]; intros vs' ls ls' F F' W W' E.
  - inversion F; subst. destruct F' as [|v' l' vs' ls' (ty & fill & _ & _ & _ & ->) F']; [auto|]. exfalso.
    rewrite text_cons in E. cbn in E. eapply R. exact E.
  - inversion F as [|? l ? ls0 (ty & fill & T & SF & _ & ->) F0]; subst.
    destruct F' as [|v' l' vs' ls' (ty' & fill' & T' & SF' & _ & ->) F'].
    { exfalso. rewrite text_cons in E. cbn in E. eapply R'. symmetry. exact E. }
    inversion W as [|? ? W1 W2]; subst. inversion W' as [|? ? W1' W2']; subst.
    rewrite !text_cons in E. repeat rewrite <- app_assoc in E. cbn [app] in E. injection E as E.
    assert (forall f q, spaces f -> stops solid (f ++ x09 :: q)) as ST.
    { intros f q S. destruct S as [|c f -> S]; cbn; intros (A & B & _); congruence. }
    apply (token solid) in E as [N E]; auto using word_solid.
    apply (token (fun c => c = x20)) in E as [_ E]; auto; try discriminate. injection E as E.
    apply (token solid) in E as [M E]; auto using mvt_solid; try (intros (_ & _ & C); congruence). injection E as E.
    destruct (IH vs' ls0 ls' F0 F' W2 W2' E) as [G ->]. split; [|reflexivity]. constructor; [|exact G].
    split; [now apply txt_inj|]. apply mvt_inj in M. congruence.
Qed.
Lemma block_start b ls q : block_lines b ls -> a_word (tb_name b) -> exists c r, text_of ls ++ q = x09 :: c :: r /\ c <> x09.
Proof.
  intros (n & vls & _ & _ & ->) W. destruct W as [F NE]. destruct (txt (tb_name b)) as [|c s] eqn:E; [congruence|].
  exists c. eexists. split; [rewrite text_cons; cbn; reflexivity|].
  assert (Forall solid (c :: s)) as SD by (apply word_solid; split; [exact F|discriminate]). inversion SD as [|? ? [_ [C _]] _]; subst. exact C.
Qed.
Lemma blocks_no_tt q : (forall r, q <> x09 :: r) -> forall bs bls, Forall2 block_lines bs bls -> Forall (fun b => a_word (tb_name b)) bs ->
  forall r, text_of (List.concat bls) ++ q <> x09 :: x09 :: r.
Proof.
  intros Q bs bls F W r E. destruct F as [|b ls bs bls B F]; [cbn in E; now apply Q in E|]. inversion W; subst.
  cbn [List.concat] in E. rewrite text_app, <- app_assoc in E. destruct (block_start b ls (text_of (List.concat bls) ++ q) B) as (c & s & E2 & N); [assumption|].
  rewrite E2 in E. injection E as E _. congruence.
Qed.
Lemma blocks_back r r' : (forall q, r <> x09 :: q) -> (forall q, r' <> x09 :: q) ->
  forall bs bs' bls bls', Forall2 block_lines bs bls -> Forall2 block_lines bs' bls' ->
  Forall (fun b => a_word (tb_name b) /\ Forall (fun v => a_word (tv_name v)) (tb_vars b)) bs ->
  Forall (fun b => a_word (tb_name b) /\ Forall (fun v => a_word (tv_name v)) (tb_vars b)) bs' ->
  text_of (List.concat bls) ++ r = text_of (List.concat bls') ++ r' -> Forall2 same_block bs bs' /\ r = r'.
Proof.
  intros R R'. induction bs as [|b bs IH]; intros bs' bls bls' F F' W W' E.
  - inversion F; subst. destruct F' as [|b' ls' bs' bls' B' F']; [auto|]. exfalso. inversion W' as [|? ? [W1 _] _]; subst.
    cbn [List.concat] in E. rewrite text_app, <- app_assoc in E.
    destruct (block_start b' ls' (text_of (List.concat bls') ++ r') B' W1) as (c & s & E2 & _). rewrite E2 in E. now apply R in E.
  - inversion F as [|? ls ? bls0 B F0]; subst. inversion W as [|? ? [W1 WV] W2]; subst.
    destruct F' as [|b' ls' bs' bls' B' F'].
    { exfalso. cbn [List.concat] in E. rewrite text_app, <- app_assoc in E.
      destruct (block_start b ls (text_of (List.concat bls0) ++ r) B W1) as (c & s & E2 & _). rewrite E2 in E. symmetry in E. now apply R' in E. }
    inversion W' as [|? ? [W1' WV'] W2']; subst.
    assert (forall q, text_of (List.concat bls0) ++ r <> x09 :: x09 :: q) as T0.
    { apply (blocks_no_tt r R bs bls0 F0). eapply Forall_impl; [|exact W2]. intros x X. exact (proj1 X). }
    assert (forall q, text_of (List.concat bls') ++ r' <> x09 :: x09 :: q) as T1.
    { apply (blocks_no_tt r' R' bs' bls' F'). eapply Forall_impl; [|exact W2']. intros x X. exact (proj1 X). }
    destruct B as (n & vls & N & FV & ->). destruct B' as (n' & vls' & N' & FV' & ->).
    cbn [List.concat] in E. rewrite !text_app, !text_cons in E. cbn [spaced] in E. repeat rewrite <- app_assoc in E. cbn [app] in E. injection E as E.
    assert (forall q, stops solid (x20 :: q)) as S1 by (intros q (A & _); congruence).
    assert (forall q, stops solid (x0a :: q)) as S2 by (intros q (_ & _ & A); congruence).
    apply (token solid) in E as [M1 E]; auto using word_solid. injection E as E.
    apply (token solid) in E as [M2 E]; auto using kind_solid. injection E as E.
    apply (token solid) in E as [M3 E]; eauto using int_solid. injection E as E.
    destruct (variables_back _ _ T0 T1 _ _ _ _ FV FV' WV WV' E) as [G E2].
    destruct (IH bs' bls0 bls' F0 F' W2 W2' E2) as [G2 ->]. split; [|reflexivity]. constructor; [|exact G2].
    split; [now apply txt_inj|]. split; [now apply kind_inj|]. split; [|exact G]. subst n'. eapply int_value_unique; eauto.
Qed.
Lemma listing_no_tab ts lss : Forall2 template_lines ts lss -> forall q, text_of (List.concat lss) <> x09 :: q.
Proof.
  intros F q E. destruct F as [|t ls ts lss (f & n & h & hs & tr & en & de & bls & _ & _ & _ & _ & _ & _ & _ & _ & ->) F]; [discriminate|].
  cbn [List.concat] in E. rewrite text_app, text_cons in E. unfold rule in E. cbn in E. discriminate.
Qed.
Lemma listing_back : forall ts ts' lss lss', Forall2 template_lines ts lss -> Forall2 template_lines ts' lss' ->
  Forall word_names ts -> Forall word_names ts' -> text_of (List.concat lss) = text_of (List.concat lss') -> Forall2 same_but_sizes ts ts'.
Proof.
  induction ts as [|t ts IH]; intros ts' lss lss' F F' W W' E.
  - inversion F; subst. destruct F' as [|t' ls' ts' lss' (f & n & h & hs & tr & en & de & bls & _ & _ & _ & _ & _ & _ & _ & _ & ->) F']; [constructor|].
    exfalso. cbn [List.concat] in E. rewrite text_app, text_cons in E. unfold rule in E. cbn in E. discriminate.
  - inversion F as [|? ls ? lss0 B F0]; subst. inversion W as [|? ? [W1 WB] W2]; subst.
    destruct B as (f & n & h & hs & tr & en & de & bls & F1 & N & H & HS & T & EN & DE & FB & ->).
    destruct F' as [|t' ls' ts' lss' (f' & n' & h' & hs' & tr' & en' & de' & bls' & F1' & N' & H' & HS' & T' & EN' & DE' & FB' & ->) F'].
    { exfalso. cbn [List.concat] in E. rewrite text_app, text_cons in E. unfold rule in E. cbn in E. discriminate. }
    inversion W' as [|? ? [W1' WB'] W2']; subst.
    cbn [List.concat] in E. rewrite !text_app, !text_cons in E. cbn [spaced] in E. repeat rewrite <- app_assoc in E.
    apply app_inv_head in E. cbn [app] in E. injection E as E.
    assert (forall q, stops solid (x20 :: q)) as S1 by (intros q (A & _); congruence).
    assert (forall q, stops solid (x0a :: q)) as S2 by (intros q (_ & _ & A); congruence).
    apply (token solid) in E as [M1 E]; auto using word_solid. injection E as E.
    apply (token solid) in E as [M2 E]; auto using rate_solid. injection E as E.
    apply (token solid) in E as [M3 E]; eauto using int_solid. injection E as E.
    apply (token solid) in E as [M4 E]; eauto using spelled_solid. injection E as E.
    apply (token solid) in E as [M5 E]; auto using trust_solid. injection E as E.
    apply (token solid) in E as [M6 E]; auto using enc_solid. injection E as E.
    apply (token solid) in E as [M7 E]; auto using dep_solid. injection E as E.
    destruct (blocks_back _ _ (listing_no_tab _ _ F0) (listing_no_tab _ _ F') _ _ _ _ FB FB' WB WB' E) as [G E2].
    constructor; [|eapply IH; eauto]. subst n' hs'.
    apply txt_inj in M1. apply txt_inj in M2. apply txt_inj in M5. apply txt_inj in M6. apply txt_inj in M7.
    split; [exact M1|]. split; [rewrite F1, F1'; f_equal; destruct f, f'; try reflexivity; discriminate|].
    split; [eapply int_value_unique; eauto|]. split; [rewrite H, H'; f_equal; eapply spelled_fun; eauto|].
    split; [rewrite T, T'; f_equal; destruct tr, tr'; try reflexivity; discriminate|].
    split; [rewrite EN, EN'; f_equal; destruct en, en'; try reflexivity; discriminate|].
    split; [rewrite DE, DE'; f_equal; destruct de, de'; try reflexivity; discriminate|exact G].
Qed.

(** Nothing but the sizes is left out. *)
Lemma same_listed : forall ts ts' s, Forall2 same_but_sizes ts ts' -> listing ts s -> listing ts' s.
Proof.
  assert (forall vs vs' ls, Forall2 same_variable vs vs' -> Forall2 variable_line vs ls -> Forall2 variable_line vs' ls) as KV.
  { intros vs vs' ls S. revert ls. induction S as [|v v' vs vs' (N & T) S IH]; intros ls F; inversion F as [|? l ? ls' V F']; subst; constructor; auto.
    destruct V as (ty & fill & V). rewrite N, T in V. exists ty, fill. exact V. }
  assert (forall bs bs' bls, Forall2 same_block bs bs' -> Forall2 block_lines bs bls -> Forall2 block_lines bs' bls) as KB.
  { intros bs bs' bls S. revert bls. induction S as [|b b' bs bs' (N & T & K & SV) S IH]; intros bls F; inversion F as [|? l ? ls' V F']; subst; constructor; auto.
    destruct V as (n & vls & V1 & V2 & V3). rewrite K in V1. rewrite N, T in V3. exists n, vls. eauto. }
  intros ts ts' s S (lss & F & ->). exists lss. split; [|reflexivity]. revert lss F.
  induction S as [|t t' ts ts' (A1 & A2 & A3 & A4 & A5 & A6 & A7 & SB) S IH]; intros lss F; inversion F as [|? l ? ls' V F']; subst; constructor; auto.
  destruct V as (f & n & h & hs & tr & en & de & bls & V). rewrite A1, A2, A3, A4, A5, A6, A7 in V.
  destruct V as (V1 & V2 & V3 & V4 & V5 & V6 & V7 & V8 & V9). exists f, n, h, hs, tr, en, de, bls. repeat (split; [assumption|]). split; [eapply KB; eauto|exact V9].
Qed.
Lemma listing_same ts ts' s s' : listing ts s -> listing ts' s' -> Forall word_names ts -> Forall word_names ts' ->
  (s = s' <-> Forall2 same_but_sizes ts ts').
Proof.
  intros L L' W W'. split.
  - intros <-. destruct L as (lss & F & ->), L' as (lss' & F' & E). eapply listing_back; eauto.
  - intros S. apply (same_listed _ _ _ S) in L. apply listing_iff in L, L'. congruence.
Qed.

(** ** Failing *)
Lemma then_err a b s e : then_print a b = (s, Some e) <-> a = (s, Some e) \/ exists x y, a = (x, None) /\ b = (y, Some e) /\ s = x ++ y.
Proof.
  destruct a as [x [e0|]], b as [y [e'|]]; unfold then_print; cbn; split.
  - auto.
  - intros [E|(? & ? & ? & _)]; [exact E|discriminate].
  - auto.
  - intros [E|(? & ? & ? & _)]; [exact E|discriminate].
  - intros [= <- <-]. right. eauto.
  - intros [E|(? & ? & [= <-] & [= <- <-] & ->)]; [discriminate|reflexivity].
  - discriminate.
  - intros [E|(? & ? & _ & ? & _)]; discriminate.
Qed.
Lemma for_each_err {A} (body : A -> printed) l s e : for_each body l = (s, Some e) ->
  exists before x after p q, l = before ++ x :: after /\ for_each body before = (p, None) /\ body x = (q, Some e) /\ s = p ++ q.
Proof.
  revert s. induction l as [|x l IH]; intros s E; cbn [for_each] in E; [discriminate|]. apply then_err in E as [E|(a & b & X & B & ->)].
  - exists [], x, l, [], s. auto.
  - destruct (IH b B) as (before & y & after & p & q & -> & P & Y & ->). exists (x :: before), y, after, (a ++ p), q.
    split; [reflexivity|]. split; [cbn [for_each]; apply then_ok; eauto|]. split; [exact Y|apply app_assoc].
Qed.
Lemma variable_err v s e : print_variable v = (s, Some e) -> e = TypeErr /\ tv_type v = None.
Proof.
  unfold print_variable, type_as_string, MVT_as_string, name_of. destruct (tv_type v); cbn; unfold prints, raises; [discriminate|]. intros [= _ <-]. auto.
Qed.
Lemma packet_err t s e : print_packet t = (s, Some e) -> lacking t e /\ exists more, s = rule ++ [x0a] ++ more.
Proof.
  unfold print_packet. intros E. apply then_err in E as [E|(x & y & X & Y & ->)]; [discriminate|]. apply prints_ok in X as ->.
  split; [|exists y; now rewrite <- app_assoc]. unfold lacking. apply then_err in Y as [Y|(a & b & A & B & ->)].
  - unfold print_res in Y. unfold frequency_as_string, message_hex_num, trust_as_string, encoding_as_string, deprecation_as_string, name_of in Y.
    destruct (t_freq t) as [f|]; [|cbn in Y; injection Y as _ <-; reflexivity].
    assert (match f with FIXED => Ok "fixed"%string | LOW => Ok "low"%string | MEDIUM => Ok "medium"%string | HIGH => Ok "high"%string end = Ok (rate_word f)) as FE by now destruct f.
    destruct (t_hex t) as [h|] eqn:H; [|destruct f; cbn in Y; injection Y as _ <-; auto].
    destruct (t_trust t) as [tr|] eqn:T; [|destruct f; cbn in Y; injection Y as _ <-; auto].
    destruct (t_enc t) as [en|] eqn:EN; [|destruct f; cbn in Y; injection Y as _ <-; auto].
    destruct (t_dep t) as [de|] eqn:DE; [|destruct f; cbn in Y; injection Y as _ <-; auto 6].
    destruct f; discriminate Y.
  - apply print_res_ok in A as (l & A & ->). destruct (frequency_as_string t) as [fs|] eqn:EF; [|discriminate].
    apply rate_said in EF as (f & F1 & ->). rewrite F1. apply for_each_err in B as (before & bk & after & p & q & BE & _ & BB & _).
    unfold print_block in BB. apply then_err in BB as [BB|(x & y & _ & Y & _)]; [discriminate|].
    apply for_each_err in Y as (vb & v & va & p1 & q1 & VE & _ & VV & _). apply variable_err in VV as [-> VT]. split; [reflexivity|].
    do 4 right. exists bk, v. rewrite BE, VE. split; [apply in_elt|]. split; [apply in_elt|exact VT].
Qed.
Lemma lacking_not_listed t e ls : lacking t e -> ~ template_lines t ls.
Proof.
  intros L (f & n & h & hs & tr & en & de & bls & F1 & _ & H & _ & T & EN & DE & FB & _). unfold lacking in L. rewrite F1 in L.
  destruct L as (_ & [L|[L|[L|[L|(b & v & B & V & TV)]]]]); try congruence.
  clear -FB B V TV. induction FB as [|b' l bs bls (n & vls & _ & FV & _) FB IH]; [contradiction|]. destruct B as [->|B]; [|auto].
  clear -FV V TV. induction FV as [|v' l vs ls (ty & fill & T & _) FV IH]; [contradiction|]. destruct V as [->|V]; [congruence|auto].
Qed.
Lemma listing_fails ts s e : print_packet_list ts = (s, Some e) ->
  exists before t after sb more, ts = before ++ t :: after /\ listing before sb /\ lacking t e /\ s = sb ++ rule ++ [x0a] ++ more.
Proof.
  intros E. apply for_each_err in E as (before & t & after & p & q & -> & P & Q & ->). apply packet_err in Q as (L & more & ->).
  exists before, t, after, p, more. split; [reflexivity|]. split; [now apply listing_iff|]. auto.
Qed.
Lemma listing_complete ts : (exists s, listing ts s) <-> forall t e, In t ts -> ~ lacking t e.
Proof.
  split.
  - intros (s & lss & F & _) t e I L. induction F as [|t' l ts lss T F IH]; [contradiction|]. destruct I as [->|I]; [|auto].
    eapply lacking_not_listed; eauto.
  - intros H. destruct (print_packet_list ts) as [s [e|]] eqn:E; [|exists s; now apply listing_iff].
    apply listing_fails in E as (before & t & after & sb & more & -> & _ & L & _). exfalso. eapply H; [|exact L]. apply in_elt.
Qed.

(** ** The names *)
Definition counting (c : freq -> Z) (counts : list (string * Z)) : Prop := forall f, sget (rate_word f) counts = Some (c f).
Lemma freq_dec (f g : freq) : {f = g} + {f <> g}.
Proof. decide equality. Qed.
Lemma counting_step c counts f : counting c counts ->
  counting (fun g => if freq_dec g f then c g + 1 else c g) (sset (rate_word f) (c f + 1) counts).
Proof.
  intros C g. destruct (freq_dec g f) as [->|N].
  - apply (dget_dset_eq _ string_eqb_spec).
  - etransitivity; [apply (dget_dset_neq _ string_eqb_spec)|apply C]. destruct f, g; try congruence; discriminate.
Qed.
Lemma names_loop_spec ts : forall i counts c, counting c counts ->
  match names_loop i counts ts with
  | ((s, None), counts') => (exists ls, name_lines i ts ls /\ s = text_of ls) /\ counting (fun f => c f + how_many f ts) counts'
  | ((s, Some e), _) => e = KeyErr /\ exists before t after ls, ts = before ++ t :: after /\ t_freq t = None /\
                        name_lines i before ls /\ s = text_of (ls ++ [rule])
  end.
Proof.
  induction ts as [|t ts IH]; intros i counts c C; cbn [names_loop].
  - split; [exists []; split; [constructor|reflexivity]|]. intros f. unfold how_many. cbn [filter]. change (zlen (@nil template)) with 0. rewrite Z.add_0_r. apply C.
  - destruct (frequency_as_string t) as [fs|e] eqn:EF.
    + apply rate_said in EF as (f & F1 & ->). rewrite (C f). specialize (IH (i + 1) _ _ (counting_step c counts f C)).
      destruct (names_loop (i + 1) (sset (rate_word f) (c f + 1) counts) ts) as [[s [e|]] counts'].
      * unfold then_print, prints. cbn [fst snd]. destruct IH as (-> & before & t' & after & ls & -> & N & NL & ->). split; [reflexivity|].
        exists (t :: before), t', after. eexists. split; [reflexivity|]. split; [exact N|].
        split; [eapply name_next; [exact F1|apply dec_int|exact NL]|]. cbn [app]. rewrite !text_cons. cbn [spaced app]. repeat (rewrite <- app_assoc; cbn [app]). reflexivity.
      * unfold then_print, prints. cbn [fst snd]. destruct IH as [(ls & NL & ->) CC]. split.
        -- eexists. split; [eapply name_next; [exact F1|apply dec_int|exact NL]|]. rewrite !text_cons. cbn [spaced app]. repeat (rewrite <- app_assoc; cbn [app]). reflexivity.
        -- intros g. rewrite (CC g). f_equal. unfold how_many. cbn [filter]. unfold of_rate at 2. rewrite F1.
           destruct (freq_dec g f) as [->|N]; destruct f; try destruct g; try congruence; rewrite ?zlen_cons; lia.
    + unfold frequency_as_string in EF. destruct (t_freq t) as [[]|] eqn:F1; try discriminate. injection EF as <-.
      unfold then_print, prints, raises. cbn [fst snd]. split; [reflexivity|]. exists [], t, ts, []. split; [reflexivity|]. split; [exact F1|].
      split; [constructor|]. unfold text_of. cbn [app map List.concat]. now rewrite !app_nil_r.
Qed.
Lemma names_iff ts fs : forall s, print_packet_names (map rate_word fs) ts = (s, None) <->
  exists nls cls, name_lines 0 ts nls /\ Forall2 (count_line ts) fs cls /\ s = text_of (nls ++ [[]] ++ cls ++ [[]]).
Proof.
  intros s. unfold print_packet_names.
  assert (counting (fun _ => 0) [("low"%string, 0); ("medium"%string, 0); ("high"%string, 0); ("fixed"%string, 0)]) as C0 by (intros []; reflexivity).
  pose proof (names_loop_spec ts 0 _ _ C0) as NL.
  destruct (names_loop 0 _ ts) as [[p [e|]] counts].
  - destruct NL as (-> & before & t & after & ls & -> & N & _). split.
    + intros H. apply then_ok in H as (x & y & H & _). discriminate.
    + intros (nls & cls & L & _). exfalso. clear -L N. revert nls L. generalize 0. induction before as [|u before IH]; intros i nls L; inversion L; subst; [congruence|eauto].
  - destruct NL as [(ls & L & ->) CC].
    assert (forall q, for_each (fun k => print_res (match sget k counts with Some n => Ok (txt k ++ [x20] ++ dec_text n) | None => Err KeyErr end)) (map rate_word fs) = (q, None) <->
      exists cls, Forall2 (count_line ts) fs cls /\ q = text_of cls) as FC.
    { induction fs as [|f fs IH]; intros q; cbn [map for_each].
      - split; [intros [= <-]; exists []; split; [constructor|reflexivity]|]. intros (cls & F & ->). inversion F; subst. reflexivity.
      - rewrite (CC f). cbn [print_res]. rewrite then_ok. split.
        + intros (x & y & X & Y & ->). apply prints_ok in X as ->. apply IH in Y as (cls & F & ->). eexists (_ :: cls).
          split; [constructor; [exists (dec_text (how_many f ts)); split; [apply dec_int|reflexivity]|exact F]|]. rewrite text_cons. reflexivity.
        + intros (cls & F & ->). inversion F as [|? l ? cls' (n & N & ->) F']; subst. apply int_iff in N as ->. eexists _, (text_of cls').
          split; [apply prints_ok; reflexivity|]. split; [apply IH; eauto|]. rewrite text_cons. reflexivity. }
    assert (forall nls, name_lines 0 ts nls -> nls = ls) as LU.
    { clear -L. revert ls L. generalize 0. induction ts as [|t ts IH]; intros i ls L nls L'; [inversion L; inversion L'; reflexivity|].
      inversion L as [|? ? ? f n l1 F1 N1 L1]; subst. inversion L' as [|? ? ? f2 n2 l2 F2 N2 L2]; subst.
      apply int_iff in N1 as ->. apply int_iff in N2 as ->. rewrite F1 in F2. injection F2 as <-. now rewrite (IH _ _ L1 _ L2). }
    rewrite then_ok. split.
    + intros (x & y & [= <-] & Y & ->). apply then_ok in Y as (a & b & A & B & ->). apply prints_ok in A as ->.
      apply then_ok in B as (c & d & CE & D & ->). apply prints_ok in D as ->. apply FC in CE as (cls & F & ->).
      exists ls, cls. split; [exact L|]. split; [exact F|]. rewrite !text_app. reflexivity.
    + intros (nls & cls & L' & F & ->). apply LU in L' as ->. eexists _, _. split; [reflexivity|]. split; [|rewrite text_app; reflexivity].
      apply then_ok. eexists _, _. split; [reflexivity|]. split; [|rewrite text_app; reflexivity].
      apply then_ok. eexists _, _. split; [apply FC; eauto|]. split; [reflexivity|]. rewrite text_app. reflexivity.
Qed.
Lemma names_fail ts fs s e : print_packet_names (map rate_word fs) ts = (s, Some e) ->
  e = KeyErr /\ exists before t after ls, ts = before ++ t :: after /\ t_freq t = None /\ name_lines 0 before ls /\ s = text_of (ls ++ [rule]).
Proof.
  unfold print_packet_names.
  assert (counting (fun _ => 0) [("low"%string, 0); ("medium"%string, 0); ("high"%string, 0); ("fixed"%string, 0)]) as C0 by (intros []; reflexivity).
  pose proof (names_loop_spec ts 0 _ _ C0) as NL.
  destruct (names_loop 0 _ ts) as [[p [e'|]] counts].
  - intros E. apply then_err in E as [E|(x & y & X & _)]; [|discriminate]. injection E as <- <-. exact NL.
  - destruct NL as [_ CC]. intros E. exfalso. apply then_err in E as [E|(x & y & _ & E & _)]; [discriminate|].
    apply then_err in E as [E|(x1 & y1 & _ & E & _)]; [discriminate|]. apply then_err in E as [E|(x2 & y2 & _ & E & _)]; [|discriminate].
    apply for_each_err in E as (b & k & a & p1 & q1 & K & _ & E & _). assert (In k (map rate_word fs)) as I by (rewrite K; apply in_elt).
    apply in_map_iff in I as (f & <- & _). rewrite (CC f) in E. discriminate.
Qed.
