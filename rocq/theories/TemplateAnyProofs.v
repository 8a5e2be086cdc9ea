(** Invariants of the template parser over arbitrary texts: C97. *)
From Verif Require Import Lib SpecTemplateAny TemplateParser TemplateTextProofs FloatText CodecProofs.
Open Scope Z_scope.
Open Scope list_scope.

(** ** Matches and their groups *)
Lemma star_runs {A} c (k : bytes -> option A) s x : star c k s = Some x ->
  exists p s', s = p ++ s' /\ Forall (fun a => c a = true) p /\ k s' = Some x.
Proof.
  induction s as [|a s IH]; cbn; intros H.
  - exists [], []. auto.
  - destruct (c a) eqn:C; [|exists [], (a :: s); auto].
    destruct (star c k s) as [r|].
    + injection H as ->. destruct (IH eq_refl) as (p & s' & -> & F & K). exists (a :: p), s'. auto.
    + exists [], (a :: s). auto.
Qed.
Lemma lstar_runs {A} c (k : bytes -> option A) s x : lstar c k s = Some x ->
  exists p s', s = p ++ s' /\ Forall (fun a => c a = true) p /\ k s' = Some x.
Proof.
  induction s as [|a s IH]; cbn; intros H.
  - destruct (k []) as [r|] eqn:K; [|discriminate]. injection H as <-. exists [], []. auto.
  - destruct (k (a :: s)) as [r|] eqn:K; [injection H as <-; exists [], (a :: s); auto|].
    destruct (c a) eqn:C; [|discriminate]. destruct (IH H) as (p & s' & -> & F & K'). exists (a :: p), s'. auto.
Qed.
Lemma plus_runs c cs s k x : rmatch (Plus c) cs s k = Some x ->
  exists p s', s = p ++ s' /\ Forall (fun a => c a = true) p /\ p <> [] /\ k cs s' = Some x.
Proof.
  cbn. destruct s as [|a s]; [discriminate|]. destruct (c a) eqn:C; [|discriminate]. intros H.
  apply star_runs in H as (p & s' & -> & F & K). exists (a :: p), s'. repeat split; auto. discriminate.
Qed.
Lemma grp_plus_runs n c cs s k x : rmatch (Grp n (Plus c)) cs s k = Some x ->
  exists p s', s = p ++ s' /\ Forall (fun a => c a = true) p /\ p <> [] /\ k ((n, p) :: cs) s' = Some x.
Proof.
  change (rmatch (Grp n (Plus c)) cs s k) with (rmatch (Plus c) cs s (fun cs' s' => k ((n, consumed s s') :: cs') s')).
  intros H. apply plus_runs in H as (p & s' & -> & F & N & K). exists p, s'. rewrite consumed_app in K. auto.
Qed.
Lemma seq_runs a b cs s k : rmatch (Seq a b) cs s k = rmatch a cs s (fun cs' s' => rmatch b cs' s' k).
Proof. reflexivity. Qed.

Lemma words w : Forall (fun a => is_word a = true) w -> w <> [] -> word w.
Proof. intros F N. split; [|exact N]. revert F. apply Forall_impl. intros a. apply is_word_true. Qed.
Lemma a_word_of w : word w -> a_word (string_of_list_byte w).
Proof. unfold a_word, bytes_of_string. now rewrite list_byte_of_string_of_list_byte. Qed.

Lemma opt_runs n m c cs s k x : rmatch (Opt (Grp n (Seq (Plus is_space) (Grp m (Plus c))))) cs s k = Some x ->
  k cs s = Some x \/ exists g w s', Forall (fun a => c a = true) w /\ w <> [] /\ k ((n, g) :: (m, w) :: cs) s' = Some x.
Proof.
  change (rmatch (Opt (Grp n (Seq (Plus is_space) (Grp m (Plus c))))) cs s k) with
    (match rmatch (Plus is_space) cs s (fun cs1 s1 => rmatch (Grp m (Plus c)) cs1 s1
                (fun cs' s' => k ((n, consumed s s') :: cs') s')) with Some y => Some y | None => k cs s end).
  match goal with |- context [match ?x with _ => _ end] => destruct x as [y|] eqn:O end; [|auto].
  intros [= ->]. apply plus_runs in O as (g2 & s4 & -> & _ & _ & O).
  apply grp_plus_runs in O as (w4 & s5 & -> & F4 & N4 & O). right. eauto 7.
Qed.
Lemma figures w : Forall (fun a => is_digit a = true) w -> Forall figure w.
Proof. apply Forall_impl. intros a. apply is_digit_true. Qed.
Lemma end_star c cs s x : rmatch (Star c) cs s (fun c _ => Some c) = Some x -> x = cs.
Proof. cbn. intros H. apply star_runs in H as (p & s6 & _ & _ & H). now injection H. Qed.

(** A line that is read as a block or a variable: two words and perhaps a number. *)
Lemma data_caps line cs : re_match block_data_re line = Some cs ->
  word (grp 1 cs) /\ word (grp 2 cs) /\ forall g, group 4 cs = Some g -> Forall figure g /\ g <> [].
Proof.
  unfold re_match, block_data_re. cbn [seqs]. rewrite !seq_runs. intros H.
  apply (lstar_runs is_dot) in H as (p0 & s0 & -> & _ & H). rewrite seq_runs in H.
  apply grp_plus_runs in H as (w1 & s1 & -> & F1 & N1 & H). rewrite seq_runs in H.
  apply plus_runs in H as (g1 & s2 & -> & _ & _ & H). rewrite seq_runs in H.
  apply grp_plus_runs in H as (w2 & s3 & -> & F2 & N2 & H). rewrite seq_runs in H.
  apply opt_runs in H as [H|(g & w & s' & F & N & H)]; apply end_star in H as ->;
    (split; [now apply words|]; split; [now apply words|]); cbn.
  - discriminate.
  - intros ? [= <-]. split; [now apply figures|exact N].
Qed.
(** A line that is read as a message header: five words and perhaps a sixth. *)
Lemma header_caps line cs : re_match message_header_re line = Some cs ->
  word (grp 1 cs) /\ word (grp 2 cs) /\ word (grp 3 cs) /\ word (grp 4 cs) /\ word (grp 5 cs) /\
  forall g, group 7 cs = Some g -> word g.
Proof.
  unfold re_match, message_header_re. cbn [seqs]. rewrite !seq_runs. intros H.
  apply (lstar_runs is_dot) in H as (p0 & s0 & -> & _ & H). rewrite seq_runs in H.
  apply grp_plus_runs in H as (w1 & s1 & -> & F1 & N1 & H). rewrite seq_runs in H.
  apply plus_runs in H as (g1 & s2 & -> & _ & _ & H). rewrite seq_runs in H.
  apply grp_plus_runs in H as (w2 & s3 & -> & F2 & N2 & H). rewrite seq_runs in H.
  apply plus_runs in H as (g2 & s4 & -> & _ & _ & H). rewrite seq_runs in H.
  apply grp_plus_runs in H as (w3 & s5 & -> & F3 & N3 & H). rewrite seq_runs in H.
  apply plus_runs in H as (g3 & s6 & -> & _ & _ & H). rewrite seq_runs in H.
  apply grp_plus_runs in H as (w4 & s7 & -> & F4 & N4 & H). rewrite seq_runs in H.
  apply plus_runs in H as (g4 & s8 & -> & _ & _ & H). rewrite seq_runs in H.
  apply grp_plus_runs in H as (w5 & s9 & -> & F5 & N5 & H). rewrite seq_runs in H.
  apply opt_runs in H as [H|(g & w & s' & F & N & H)]; apply end_star in H as ->;
    (do 5 (split; [now apply words|])); cbn.
  - discriminate.
  - intros ? [= <-]. now apply words.
Qed.

(** ** Numbers *)
Lemma digit_val_nonneg base b d : digit_val base b = Some d -> 0 <= d.
Proof.
  unfold digit_val, is_digit. intros H.
  match type of H with (if ?x <? base then _ else _) = _ => assert (0 <= x) as P; [|destruct (x <? base); [|discriminate]; injection H as <-; exact P] end.
  destruct ((48 <=? ord b) && (ord b <=? 57)) eqn:A; [rewrite andb_true_iff, !Z.leb_le in A; lia|].
  destruct ((97 <=? ord b) && (ord b <=? 122)) eqn:B; [rewrite andb_true_iff, !Z.leb_le in B; lia|].
  destruct ((65 <=? ord b) && (ord b <=? 90)) eqn:C; [rewrite andb_true_iff, !Z.leb_le in C; lia|]. lia.
Qed.
Lemma digits_nonneg base s : 0 <= base -> forall a n, 0 <= a -> digits base a s = Some n -> 0 <= n.
Proof.
  intros B. induction s as [|b s IH]; cbn; intros a n A H; [injection H as <-; exact A|].
  destruct (digit_val base b) as [d|] eqn:D; [|discriminate]. apply digit_val_nonneg in D. apply IH in H; [exact H|nia].
Qed.
Lemma parse_base_nonneg base s n : 0 <= base -> parse_base base s = Ok n -> 0 <= n.
Proof.
  unfold parse_base. intros B. destruct s as [|b s]; [discriminate|]. destruct (digits base 0 (b :: s)) as [z|] eqn:D; [|discriminate].
  intros [= <-]. now apply digits_nonneg in D.
Qed.
Lemma atoi0_nonneg s n : atoi0 s = Ok n -> 0 <= n.
Proof.
  unfold atoi0. intros H.
  repeat match type of H with
    match ?x with _ => _ end = _ => destruct x
  | parse_base _ _ = _ => apply parse_base_nonneg in H; lia
  | Ok _ = Ok _ => injection H as <-; lia
  end.
Qed.

(** ** The three readers *)
Lemma parse_base_error base s e : parse_base base s = Err e -> e = ValueErr.
Proof. unfold parse_base. destruct s; [congruence|]. destruct (digits _ _ _); congruence. Qed.
Lemma atoi0_error s e : atoi0 s = Err e -> e = ValueErr.
Proof.
  unfold atoi0. intros H.
  repeat match type of H with
    match ?x with _ => _ end = _ => destruct x
  | parse_base _ _ = _ => now apply parse_base_error in H
  | Ok _ = Err _ => discriminate H
  end.
Qed.
Lemma pack_cases pv n v : 0 <= v -> (n < 8)%nat ->
  pack_int pv BE false n v = Ok (be_bytes n v) /\ (pv = Py27 -> v < 2 ^ (8 * Z.of_nat n)) \/
  pack_int pv BE false n v = Err StructError /\ pv = Py27.
Proof.
  intros P N. unfold pack_int, in_range. destruct (Z.leb_spec 0 v); [|lia].
  destruct (Z.ltb_spec v (2 ^ (8 * Z.of_nat n))); [left; auto|].
  destruct pv; [|auto]. left. destruct (Nat.ltb_spec n 8); [|lia]. split; [reflexivity|discriminate].
Qed.
Lemma byte_value_chr v : byte_value (chr v) = v mod 256. Proof. apply ord_chr. Qed.
Lemma parse_num_cases pv f s :
  match parse_num pv f s with
  | Ok (n, hex) => 0 <= n /\
      exists h d, Some hex = Some (h ++ [d]) /\ byte_value d = n mod 256 /\
        (pv = Py27 \/ f = Some FIXED -> n < 256) /\
        match f with
        | Some FIXED => zlen h = 3
        | Some LOW => h = [xff; xff]
        | Some MEDIUM => h = [xff]
        | Some HIGH => h = []
        | None => False
        end
  | Err e => a_parse_error pv e
  end.
Proof.
  unfold parse_num. destruct (atoi0 s) as [v|e] eqn:A; cbn [bind].
  2:{ apply atoi0_error in A as ->. unfold a_parse_error. auto. }
  apply atoi0_nonneg in A.
  assert (S1 : forall pre f', f = Some f' -> f' <> FIXED ->
    match (do b <- pack_int pv BE false 1 v; Ok (v, pre ++ b)) with
    | Ok (n, hex) => 0 <= n /\ exists h d, Some hex = Some (h ++ [d]) /\ byte_value d = n mod 256 /\
        (pv = Py27 \/ f = Some FIXED -> n < 256) /\ h = pre
    | Err e => a_parse_error pv e end).
  { intros pre f' -> Nf. destruct (pack_cases pv 1 v A) as [[-> L]|[-> E]]; [lia| |]; cbn [bind].
    - split; [exact A|]. exists pre, (chr v). split; [reflexivity|]. split; [apply byte_value_chr|]. split; [|reflexivity].
      intros [E|E]; [exact (L E)|congruence].
    - unfold a_parse_error. tauto. }
  destruct f as [[]|].
  - destruct (pack_cases pv 4 v A) as [[-> L]|[-> E]]; [lia| |]; cbn [bind].
    + rewrite be_bytes_4.
      change (pyindex [chr (v / 16777216); chr (v / 65536); chr (v / 256); chr v] 3) with (Ok (chr v)).
      cbn [bind]. rewrite unpack_low. cbn [bind]. pose proof (Z.mod_pos_bound v 256 ltac:(lia)). split; [lia|].
      exists [chr (v / 16777216); chr (v / 65536); chr (v / 256)], (chr v). split; [reflexivity|].
      split; [rewrite Z.mod_mod by lia; apply byte_value_chr|]. split; [lia|reflexivity].
    + unfold a_parse_error. tauto.
  - exact (S1 [xff; xff] LOW eq_refl ltac:(discriminate)).
  - exact (S1 [xff] MEDIUM eq_refl ltac:(discriminate)).
  - exact (S1 [] HIGH eq_refl ltac:(discriminate)).
  - unfold a_parse_error. auto.
Qed.

Lemma new_template_cases pv cs line : re_match message_header_re line = Some cs ->
  match start_new_template pv cs with
  | Ok t => numbered_template pv t
  | Err e => a_parse_error pv e
  end.
Proof.
  intros M. apply header_caps in M as (W1 & _). unfold start_new_template.
  pose proof (parse_num_cases pv (parse_freq (grp 2 cs)) (grp 3 cs)) as P.
  destruct (parse_num pv (parse_freq (grp 2 cs)) (grp 3 cs)) as [[n hex]|e]; cbn [bind]; [|exact P].
  destruct P as [N H]. split; [now apply a_word_of|]. split; [exact N|]. split; [exact H|constructor].
Qed.
Lemma int_group_cases pv cs : match int_group4 cs with Ok n => 0 <= n | Err e => a_parse_error pv e end.
Proof.
  unfold int_group4. destruct (group 4 cs) as [g|]; [|unfold a_parse_error; auto].
  destruct (parse_base 10 g) as [n|e] eqn:E; [now apply parse_base_nonneg in E|].
  apply parse_base_error in E as ->. unfold a_parse_error. auto.
Qed.
Lemma new_block_cases pv cs line : re_match block_header_re line = Some cs ->
  match start_new_block cs with
  | Ok b => counted_block b
  | Err e => a_parse_error pv e
  end.
Proof.
  intros M. apply data_caps in M as (W1 & _). unfold start_new_block. pose proof (int_group_cases pv cs) as P.
  destruct (str_eq (grp 2 cs) "Single");
    [|destruct (str_eq (grp 2 cs) "Multiple"); [destruct (int_group4 cs); [|exact P]|destruct (str_eq (grp 2 cs) "Variable")]];
    cbn [bind]; (split; [now apply a_word_of|]); cbn; repeat split; auto; try lia; congruence.
Qed.
Lemma new_var_cases pv cs line : re_match block_data_re line = Some cs ->
  match start_new_var cs with
  | Ok v => sized_var v
  | Err e => a_parse_error pv e
  end.
Proof.
  intros M. apply data_caps in M as (W1 & _). unfold start_new_var. pose proof (int_group_cases pv cs) as P.
  destruct (parse_mvt (grp 2 cs)) as [ty|]; [|split; [now apply a_word_of|reflexivity]].
  assert (K : forall n k, type_bytes ty = Some k -> n = k -> 0 < k ->
    sized_var {| tv_name := string_of_list_byte (grp 1 cs); tv_type := Some ty; tv_size := Some n |}).
  { intros n k E -> L. split; [now apply a_word_of|]. exists k. split; [reflexivity|]. split; [exact L|]. intros k'. rewrite E. congruence. }
  destruct ty; try (cbn [bind sizeof option_map sizeof_mvt]; eapply K; [reflexivity|reflexivity|lia]).
  all: destruct (int_group4 cs) as [n|e]; cbn [bind]; [|exact P]; destruct (Z.leb_spec n 0); cbn [bind];
    [unfold a_parse_error; tauto|]; (split; [now apply a_word_of|]); exists n; repeat split; [lia|discriminate].
Qed.

(** ** Growth *)
Lemma grown_refl {A} (R : A -> A -> Prop) l : (forall a, R a a) -> grown R l l.
Proof. intros H. induction l; constructor; auto. Qed.
Lemma grown_trans {A} (R : A -> A -> Prop) : (forall a b c, R a b -> R b c -> R a c) ->
  forall l1 l2 l3, grown R l1 l2 -> grown R l2 l3 -> grown R l1 l3.
Proof.
  intros T l1 l2 l3 G. revert l3. induction G; intros l3 G'; [constructor|]. inversion G'; subst. constructor; eauto.
Qed.
Lemma grown_app {A} (R : A -> A -> Prop) l m : (forall a, R a a) -> grown R l (l ++ m).
Proof. intros H. induction l; cbn; constructor; auto. Qed.
Lemma grown_upd {A} (R : A -> A -> Prop) n f l : (forall a, R a a) -> (forall a, R a (f a)) -> grown R l (upd n f l).
Proof.
  intros H F. revert n. induction l as [|a l IH]; intros n; destruct n; cbn; constructor; auto. now apply grown_refl.
Qed.
Lemma block_grows_refl b : block_grows b b.
Proof. repeat split. now apply grown_refl. Qed.
Lemma block_grows_trans a b c : block_grows a b -> block_grows b c -> block_grows a c.
Proof.
  intros (A1 & A2 & A3 & A4) (B1 & B2 & B3 & B4). repeat split; try congruence.
  eapply grown_trans; [|exact A4|exact B4]. congruence.
Qed.
Lemma template_grows_refl t : template_grows t t.
Proof. repeat split. apply grown_refl, block_grows_refl. Qed.
Lemma template_grows_trans a b c : template_grows a b -> template_grows b c -> template_grows a c.
Proof.
  intros (A1 & A2 & A3 & A4 & A5 & A6 & A7 & A8) (B1 & B2 & B3 & B4 & B5 & B6 & B7 & B8).
  repeat split; try congruence. eapply grown_trans; [apply block_grows_trans|exact A8|exact B8].
Qed.
Lemma Forall_upd {A} (P : A -> Prop) n f l : (forall a, P a -> P (f a)) -> Forall P l -> Forall P (upd n f l).
Proof.
  intros F H. revert n. induction H as [|a l Pa Pl IH]; intros n; destruct n; cbn; constructor; auto.
Qed.

(** ** One line *)
Definition good_step (pv : pyver) (st : pstate) (r : res pstate) : Prop :=
  match r with
  | Ok st' => Forall (numbered_template pv) (ps_templates st') /\
              grown template_grows (ps_templates st) (ps_templates st')
  | Err e => a_parse_error pv e
  end.
Definition good (pv : pyver) (st : pstate) : Prop := Forall (numbered_template pv) (ps_templates st).
Lemma good_stay pv st st' : good pv st -> ps_templates st' = ps_templates st -> good_step pv st (Ok st').
Proof. intros G E. cbn. rewrite E. split; [exact G|]. apply grown_refl, template_grows_refl. Qed.
Lemma good_bind pv st r f : good_step pv st r ->
  (forall st', r = Ok st' -> good pv st' -> good_step pv st' (f st')) -> good_step pv st (bind r f).
Proof.
  destruct r as [st1|e]; cbn [bind]; [|auto]. intros [G W] H. specialize (H st1 eq_refl G).
  destruct (f st1) as [st2|e]; [|exact H]. destruct H as [G2 W2]. split; [exact G2|].
  eapply grown_trans; [apply template_grows_trans|exact W|exact W2].
Qed.
Lemma float_error w e : float_of_text w = Err e -> e = ValueErr.
Proof.
  unfold float_of_text. destruct (take_sign _) as [neg s1]. destruct (_ || _); [discriminate|].
  destruct (same_word _ s1); [discriminate|]. destruct (take_digits s1) as [ip s2].
  match goal with |- context [let '(_, _) := ?x in _] => destruct x as [fp s3] end.
  destruct (ip ++ fp); [congruence|]. destruct (read_exponent s3); [discriminate|congruence].
Qed.
Lemma version_good pv st l : good pv st -> good_step pv st (parse_version st l).
Proof.
  intros G. unfold parse_version. destruct (ps_version st); [now apply good_stay|].
  destruct (re_match version_re l) as [cs|]; [|now apply good_stay].
  destruct (take_word (skip_space (grp 1 cs))) as [|b w]; [unfold good_step, a_parse_error; auto|].
  destruct (float_of_text (b :: w)) as [f|e] eqn:E; cbn [bind]; [now apply good_stay|].
  apply float_error in E as ->. unfold good_step, a_parse_error. auto.
Qed.
Lemma message_good pv st l : good pv st -> good_step pv st (parse_message_line pv st l).
Proof.
  intros G. unfold parse_message_line. destruct (re_match message_header_re l) as [cs|] eqn:M; [|now apply good_stay].
  pose proof (new_template_cases pv cs l M) as N. destruct (start_new_template pv cs) as [t|e]; cbn [bind]; [|exact N].
  split; cbn; [apply Forall_app; split; [exact G|now constructor]|]. apply grown_app, template_grows_refl.
Qed.
Lemma block_good pv st l : good pv st -> good_step pv st (parse_block_line st l).
Proof.
  intros G. unfold parse_block_line. destruct (re_match block_header_re l) as [cs|] eqn:M; [|now apply good_stay].
  pose proof (new_block_cases pv cs l M) as N. destruct (start_new_block cs) as [b|e]; cbn [bind]; [|exact N].
  destruct (ps_templates st) as [|t ts] eqn:E; [unfold good_step, a_parse_error; tauto|]. rewrite <- E.
  split; cbn [ps_templates].
  - apply Forall_upd; [|exact G]. intros t' (A & B & C & D). split; [exact A|]. split; [exact B|]. split; [exact C|].
    cbn. apply Forall_app. split; [exact D|now constructor].
  - apply grown_upd; [apply template_grows_refl|]. intros t'. repeat split. cbn. apply grown_app, block_grows_refl.
Qed.
Lemma data_good pv st l : good pv st -> good_step pv st (parse_data_line st l).
Proof.
  intros G. unfold parse_data_line. destruct (re_match block_data_re l) as [cs|] eqn:M; [|now apply good_stay].
  destruct (ps_block st) as [[i j]|]; [|unfold good_step, a_parse_error; tauto].
  pose proof (new_var_cases pv cs l M) as N. destruct (start_new_var cs) as [v|e]; cbn [bind]; [|exact N].
  split; cbn [ps_templates].
  - apply Forall_upd; [|exact G]. intros t' (A & B & C & D). split; [exact A|]. split; [exact B|]. split; [exact C|].
    cbn. apply Forall_upd; [|exact D]. intros b (A1 & B1 & C1 & D1). split; [exact A1|]. split; [exact B1|]. split; [exact C1|].
    cbn. apply Forall_app. split; [exact D1|now constructor].
  - apply grown_upd; [apply template_grows_refl|]. intros t'. repeat split. cbn.
    apply grown_upd; [apply block_grows_refl|]. intros b. repeat split. cbn. now apply grown_app.
Qed.
Lemma line_good pv st l : good pv st -> good_step pv st (parse_line pv st l).
Proof.
  intros G. unfold parse_line. destruct (isSome (re_match comment_re l)); [now apply good_stay|].
  apply good_bind; [now apply version_good|]. intros st1 _ G1.
  set (st2 := if isSome (re_match start_re l) then bump st1 1 else st1).
  assert (E : ps_templates st2 = ps_templates st1) by (unfold st2; destruct (isSome _); reflexivity).
  assert (G2 : good pv st2) by (unfold good; rewrite E; exact G1).
  unfold good_step. rewrite <- E. change (good_step pv st2
    (do st <- (if ps_state st2 =? 1 then parse_message_line pv st2 l else Ok st2);
     do st <- (if ps_state st =? 2 then parse_block_line st l else Ok st);
     do st <- (if ps_state st =? 3 then parse_data_line st l else Ok st);
     Ok (if isSome (re_match end_re l) then bump st (-1) else st))).
  apply good_bind; [destruct (_ =? 1); [now apply message_good|now apply good_stay]|]. intros st3 _ G3.
  apply good_bind; [destruct (_ =? 2); [now apply block_good|now apply good_stay]|]. intros st4 _ G4.
  apply good_bind; [destruct (_ =? 3); [now apply data_good|now apply good_stay]|]. intros st5 _ G5.
  apply good_stay; [exact G5|]. destruct (isSome (re_match end_re l)); reflexivity.
Qed.
Lemma lines_good pv ls : forall st, good pv st -> good_step pv st (parse_lines pv st ls).
Proof.
  induction ls as [|l ls IH]; intros st G; cbn [parse_lines]; [now apply good_stay|].
  apply good_bind; [now apply line_good|]. intros st' _ G'. now apply IH.
Qed.

(** ** Whole files *)
Lemma parse_lines_app pv l1 l2 : forall st, parse_lines pv st (l1 ++ l2) = do st <- parse_lines pv st l1; parse_lines pv st l2.
Proof.
  induction l1 as [|l l1 IH]; intros st; cbn; [reflexivity|]. destruct (parse_line pv st l); cbn [bind]; [apply IH|reflexivity].
Qed.
Lemma split_newline a : forall cur b, split_lines cur (a ++ x0a :: b) = split_lines cur (a ++ [x0a]) ++ split_lines [] b.
Proof.
  induction a as [|c a IH]; intros cur b; cbn; [reflexivity|]. destruct (Byte.eqb c x0a); cbn; now rewrite IH.
Qed.
Lemma accepted pv text ts : parse_template_file pv text = Ok ts -> Forall (numbered_template pv) ts.
Proof.
  unfold parse_template_file. pose proof (lines_good pv (split_lines [] text) ps_init ltac:(constructor)) as H.
  destruct (parse_lines _ _ _) as [st|e]; [|discriminate]. cbn. intros [= <-]. apply H.
Qed.
Lemma refused pv text e : parse_template_file pv text = Err e -> a_parse_error pv e.
Proof.
  unfold parse_template_file. pose proof (lines_good pv (split_lines [] text) ps_init ltac:(constructor)) as H.
  destruct (parse_lines _ _ _) as [st|e']; [discriminate|]. cbn. intros [= <-]. exact H.
Qed.
Lemma prefix_error pv a b e : parse_template_file pv (a ++ [x0a]) = Err e -> parse_template_file pv (a ++ [x0a] ++ b) = Err e.
Proof.
  unfold parse_template_file. cbn [app]. rewrite (split_newline a [] b), parse_lines_app.
  destruct (parse_lines _ _ _) as [st|e']; [discriminate|]. cbn. auto.
Qed.
Lemma prefix_grows pv a b ts : parse_template_file pv (a ++ [x0a] ++ b) = Ok ts ->
  exists ts0, parse_template_file pv (a ++ [x0a]) = Ok ts0 /\ grown template_grows ts0 ts.
Proof.
  unfold parse_template_file. cbn [app]. rewrite (split_newline a [] b), parse_lines_app.
  pose proof (lines_good pv (split_lines [] (a ++ [x0a])) ps_init ltac:(constructor)) as H.
  destruct (parse_lines _ _ _) as [st|e']; [|discriminate]. cbn [bind]. destruct H as [G _].
  pose proof (lines_good pv (split_lines [] b) st G) as H. destruct (parse_lines pv st _) as [st2|e]; [|discriminate].
  cbn. intros [= <-]. exists (ps_templates st). split; [reflexivity|]. apply H.
Qed.
