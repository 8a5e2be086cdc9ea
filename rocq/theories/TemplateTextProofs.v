(** Proofs about reading template files (C54). *)
From Verif Require Import Lib TemplateParser SpecTemplateText WebProofs.
From Verif Require FloatText SpecObjects SpecFloatText ObjectTextProofs FloatReadProofs.

(** ** Character classes *)
Ltac byte_cases b := destruct b; try reflexivity; try discriminate.
Lemma is_word_true b : is_word b = true <-> word_char b.
Proof.
  unfold is_word, is_alpha, is_digit, word_char, letter, figure.
  rewrite !orb_true_iff, !andb_true_iff, !Z.leb_le, byte_eqb_true. tauto.
Qed.
Lemma is_digit_true b : is_digit b = true <-> figure b.
Proof. unfold is_digit, figure. rewrite andb_true_iff, !Z.leb_le. tauto. Qed.
Lemma blank_space b : blank b -> is_space b = true.
Proof. intros [->|[->| ->]]; reflexivity. Qed.
Lemma blank_word b : blank b -> is_word b = false.
Proof. intros [->|[->| ->]]; reflexivity. Qed.
Lemma blank_dot b : blank b -> is_dot b = true.
Proof. intros [->|[->| ->]]; reflexivity. Qed.
Lemma space_word b : is_space b = true -> is_word b = false.
Proof. byte_cases b. Qed.
Lemma word_space b : is_word b = true -> is_space b = false.
Proof. byte_cases b. Qed.
Lemma word_dot b : is_word b = true -> is_dot b = true.
Proof. byte_cases b. Qed.
Lemma digit_word b : is_digit b = true -> is_word b = true.
Proof. byte_cases b. Qed.

Notation allc c := (Forall (fun a : byte => c a = true)).
Lemma pad_space s : pad s -> allc is_space s.
Proof. apply Forall_impl. exact blank_space. Qed.
Lemma pad_dot s : pad s -> allc is_dot s.
Proof. apply Forall_impl. exact blank_dot. Qed.
Lemma word_all s : word s -> allc is_word s /\ s <> [].
Proof. intros [H N]. split; [|exact N]. revert H. apply Forall_impl. intros b. apply is_word_true. Qed.
Lemma figures_all s : Forall figure s -> allc is_digit s.
Proof. apply Forall_impl. intros b. apply is_digit_true. Qed.

(** ** The matcher on greedy classes *)
Definition stops (c : byte -> bool) (s : bytes) : Prop :=
  match s with [] => True | a :: _ => c a = false end.

Lemma star_greedy {A} c (k : bytes -> option A) p s r :
  allc c p -> stops c s -> k s = Some r -> star c k (p ++ s) = Some r.
Proof.
  induction p as [|a p IH]; intros F S K; cbn [app].
  - destruct s as [|a s]; cbn; [exact K|]. cbn in S. now rewrite S.
  - inversion F; subst. cbn. now rewrite H1, (IH H2 S K).
Qed.
Lemma star_any {A} c (k : bytes -> option A) (s : bytes) (r : A) :
  (forall s', k s' = Some r) -> star c k s = Some r.
Proof.
  intros K. induction s as [|a s IH]; cbn; [apply K|]. destruct (c a); [now rewrite IH|apply K].
Qed.
Lemma plus_greedy c p s cs k r :
  allc c p -> p <> [] -> stops c s -> k cs s = Some r -> rmatch (Plus c) cs (p ++ s) k = Some r.
Proof.
  intros F N S K. destruct p as [|a p]; [congruence|]. inversion F; subst. cbn. rewrite H1.
  now apply star_greedy.
Qed.
Lemma consumed_app (p s : bytes) : consumed (p ++ s) s = p.
Proof.
  unfold consumed. rewrite app_length.
  replace (List.length p + List.length s - List.length s)%nat with (List.length p + 0)%nat by lia.
  rewrite firstn_app_2. cbn. apply app_nil_r.
Qed.
Lemma grp_greedy n c p s cs k r :
  allc c p -> p <> [] -> stops c s -> k ((n, p) :: cs) s = Some r ->
  rmatch (Grp n (Plus c)) cs (p ++ s) k = Some r.
Proof.
  intros F N S K. cbn [rmatch]. apply plus_greedy; try assumption. now rewrite consumed_app.
Qed.

(** Leading characters that begin no word. *)
Lemma lstar_lead {A} c (k : bytes -> option A) p s r :
  allc c p -> Forall (fun a => is_word a = false) p ->
  (forall a s', is_word a = false -> k (a :: s') = None) ->
  k s = Some r -> lstar c k (p ++ s) = Some r.
Proof.
  intros F W N K. induction p as [|a p IH]; cbn [app].
  - destruct s; cbn; now rewrite K.
  - inversion F; inversion W; subst. cbn. rewrite (N a _ H5), H1. now apply IH.
Qed.

(** No word character can follow the spaces at the start of [s]. *)
Fixpoint nas (s : bytes) : Prop :=
  match s with [] => True | a :: s' => is_word a = false /\ (is_space a = true -> nas s') end.
Lemma nas_app p s : allc is_space p -> nas s -> nas (p ++ s).
Proof.
  induction p as [|a p IH]; intros F N; [exact N|]. inversion F; subst. cbn.
  split; [now apply space_word|]. intros _. now apply IH.
Qed.
Lemma nas_no s : nas s -> forall p a s', s = p ++ a :: s' -> allc is_space p -> is_word a = false.
Proof.
  intros N p. revert s N. induction p as [|b p IH]; intros s N a s' E F; subst s; cbn in N.
  - apply N.
  - inversion F; subst. eapply IH; [apply N; assumption|reflexivity|assumption].
Qed.
Lemma nas_stops c s : (forall b, c b = true -> is_word b = true) -> nas s -> stops c s.
Proof.
  intros C. destruct s as [|a s]; cbn; [auto|]. intros [N _].
  destruct (c a) eqn:E; [|reflexivity]. apply C in E. congruence.
Qed.
Lemma opt_none n m c s cs k : (forall b, c b = true -> is_word b = true) -> nas s ->
  rmatch (Opt (Grp n (Seq (Plus is_space) (Grp m (Plus c))))) cs s k = k cs s.
Proof.
  intros C N. remember (Grp n _) as g. cbn.
  destruct (rmatch g cs s k) as [x|] eqn:E; [|reflexivity]. exfalso. subst g.
  destruct (rmatch_some (Grp n (Seq (Plus is_space) (Grp m (Plus c)))) cs s k) as (cs' & s' & X & _);
    [congruence|].
  unfold Plus in X.
  repeat match goal with H : consumes (_ _) _ _ |- _ => inversion H; subst; clear H
                       | H : consumes (_ _ _) _ _ |- _ => inversion H; subst; clear H end.
  match goal with H : c ?a = true |- _ => assert (is_word a = false); [|apply C in H; congruence] end.
  match goal with N : nas (?a :: ?p ++ ?b :: ?q) |- _ =>
    apply (nas_no _ N (a :: p) b q); [reflexivity|constructor; assumption] end.
Qed.
Lemma opt_some n m c g w s cs k r :
  allc is_space g -> g <> [] -> allc c w -> w <> [] -> stops c s ->
  (forall b, c b = true -> is_word b = true) ->
  k ((n, g ++ w) :: (m, w) :: cs) s = Some r ->
  rmatch (Opt (Grp n (Seq (Plus is_space) (Grp m (Plus c))))) cs (g ++ w ++ s) k = Some r.
Proof.
  intros G GN W WN S C K.
  assert (E : rmatch (Grp n (Seq (Plus is_space) (Grp m (Plus c)))) cs (g ++ w ++ s) k = Some r).
  { cbn [rmatch]. apply (plus_greedy is_space); try assumption.
    - destruct w as [|a w]; [congruence|]. inversion W; subst. cbn. apply word_space. now apply C.
    - apply (plus_greedy c); try assumption. rewrite consumed_app, (app_assoc g w s), consumed_app. exact K. }
  remember (Grp n _) as gg. cbn. now rewrite E.
Qed.
Lemma stops_space_word w s : allc is_word w -> w <> [] -> stops is_space (w ++ s).
Proof. intros F N. destruct w; [congruence|]. inversion F; subst. cbn. now apply word_space. Qed.
Lemma stops_word_gap c g s : (forall b, c b = true -> is_word b = true) ->
  allc is_space g -> g <> [] -> stops c (g ++ s).
Proof.
  intros C F N. destruct g; [congruence|]. inversion F; subst. cbn.
  destruct (c b) eqn:E; [|reflexivity]. apply C in E. apply space_word in H1. congruence.
Qed.

(** ** The patterns for one line *)
Lemma words_word s : word s -> allc is_word s. Proof. intros H. apply word_all, H. Qed.

(** A block header or a variable. *)
Lemma block_data_match p w1 g1 w2 tail :
  allc is_dot p -> Forall (fun a => is_word a = false) p ->
  word w1 -> gap g1 -> word w2 -> nas tail ->
  re_match block_data_re (p ++ w1 ++ g1 ++ w2 ++ tail) = Some [(2%nat, w2); (1%nat, w1)].
Proof.
  intros P PW [W1 N1]%word_all [G1 NG1] [W2 N2]%word_all T. apply pad_space in G1.
  unfold re_match, block_data_re. cbn [seqs].
  set (rest := Opt _). cbn [rmatch]. apply lstar_lead; try assumption.
  { intros a s' N. cbn. now rewrite N. }
  apply (plus_greedy is_word); try assumption; [now apply (stops_word_gap is_word)|].
  rewrite consumed_app. apply (plus_greedy is_space); try assumption; [now apply stops_space_word|].
  apply (plus_greedy is_word); try assumption; [now apply (nas_stops is_word)|].
  rewrite consumed_app. subst rest. rewrite opt_none by (auto using digit_word).
  cbn. now apply star_any.
Qed.
Lemma block_data_match_num p w1 g1 w2 g2 num tail :
  allc is_dot p -> Forall (fun a => is_word a = false) p ->
  word w1 -> gap g1 -> word w2 -> gap g2 -> Forall figure num -> num <> [] -> nas tail ->
  re_match block_data_re (p ++ w1 ++ g1 ++ w2 ++ g2 ++ num ++ tail) =
  Some [(3%nat, g2 ++ num); (4%nat, num); (2%nat, w2); (1%nat, w1)].
Proof.
  intros P PW [W1 N1]%word_all [G1 NG1] [W2 N2]%word_all [G2 NG2] D DN T.
  apply pad_space in G1. apply pad_space in G2. apply figures_all in D.
  unfold re_match, block_data_re. cbn [seqs].
  set (rest := Opt _). cbn [rmatch]. apply lstar_lead; try assumption.
  { intros a s' N. cbn. now rewrite N. }
  apply (plus_greedy is_word); try assumption; [now apply (stops_word_gap is_word)|].
  rewrite consumed_app. apply (plus_greedy is_space); try assumption; [now apply stops_space_word|].
  apply (plus_greedy is_word); try assumption; [now apply (stops_word_gap is_word)|].
  rewrite consumed_app. subst rest. apply opt_some; try assumption.
  - now apply (nas_stops is_digit); [apply digit_word|].
  - exact digit_word.
  - cbn. now apply star_any.
Qed.
(** A message header. *)
Lemma header_match p w1 g1 w2 g2 w3 g3 w4 g4 w5 tail :
  allc is_dot p -> Forall (fun a => is_word a = false) p ->
  word w1 -> gap g1 -> word w2 -> gap g2 -> word w3 -> gap g3 -> word w4 -> gap g4 -> word w5 -> nas tail ->
  re_match message_header_re (p ++ w1 ++ g1 ++ w2 ++ g2 ++ w3 ++ g3 ++ w4 ++ g4 ++ w5 ++ tail) =
  Some [(5%nat, w5); (4%nat, w4); (3%nat, w3); (2%nat, w2); (1%nat, w1)].
Proof.
  intros P PW [W1 N1]%word_all [G1 NG1] [W2 N2]%word_all [G2 NG2] [W3 N3]%word_all [G3 NG3]
    [W4 N4]%word_all [G4 NG4] [W5 N5]%word_all T.
  apply pad_space in G1. apply pad_space in G2. apply pad_space in G3. apply pad_space in G4.
  unfold re_match, message_header_re. cbn [seqs].
  set (rest := Opt _). cbn [rmatch]. apply lstar_lead; try assumption.
  { intros a s' N. cbn. now rewrite N. }
  do 4 (apply (plus_greedy is_word); try assumption; [now apply (stops_word_gap is_word)|];
        rewrite consumed_app; apply (plus_greedy is_space); try assumption; [now apply stops_space_word|]).
  apply (plus_greedy is_word); try assumption; [now apply (nas_stops is_word)|].
  rewrite consumed_app. subst rest. rewrite opt_none by auto.
  cbn. now apply star_any.
Qed.
Lemma header_match_dep p w1 g1 w2 g2 w3 g3 w4 g4 w5 g5 w6 tail :
  allc is_dot p -> Forall (fun a => is_word a = false) p ->
  word w1 -> gap g1 -> word w2 -> gap g2 -> word w3 -> gap g3 -> word w4 -> gap g4 -> word w5 ->
  gap g5 -> word w6 -> nas tail ->
  re_match message_header_re (p ++ w1 ++ g1 ++ w2 ++ g2 ++ w3 ++ g3 ++ w4 ++ g4 ++ w5 ++ g5 ++ w6 ++ tail) =
  Some [(6%nat, g5 ++ w6); (7%nat, w6); (5%nat, w5); (4%nat, w4); (3%nat, w3); (2%nat, w2); (1%nat, w1)].
Proof.
  intros P PW [W1 N1]%word_all [G1 NG1] [W2 N2]%word_all [G2 NG2] [W3 N3]%word_all [G3 NG3]
    [W4 N4]%word_all [G4 NG4] [W5 N5]%word_all [G5 NG5] [W6 N6]%word_all T.
  apply pad_space in G1. apply pad_space in G2. apply pad_space in G3. apply pad_space in G4.
  apply pad_space in G5.
  unfold re_match, message_header_re. cbn [seqs].
  set (rest := Opt _). cbn [rmatch]. apply lstar_lead; try assumption.
  { intros a s' N. cbn. now rewrite N. }
  do 4 (apply (plus_greedy is_word); try assumption; [now apply (stops_word_gap is_word)|];
        rewrite consumed_app; apply (plus_greedy is_space); try assumption; [now apply stops_space_word|]).
  apply (plus_greedy is_word); try assumption; [now apply (stops_word_gap is_word)|].
  rewrite consumed_app. subst rest. apply opt_some; try assumption.
  - now apply (nas_stops is_word).
  - auto.
  - cbn. now apply star_any.
Qed.
(** A line without word characters matches neither. *)
Lemma no_words r s : Forall (fun a => is_word a = false) s ->
  re_match (Seq (LStar is_dot) (Seq (Grp 1 (Plus is_word)) r)) s = None.
Proof.
  intros F. unfold re_match. cbn [rmatch].
  match goal with |- lstar _ ?k _ = None => destruct (lstar is_dot k s) eqn:E; [|reflexivity];
    destruct (proj1 (lstar_some is_dot k s)) as (p & s' & -> & _ & K); [congruence|] end.
  exfalso. apply K. apply Forall_app in F as [_ F]. destruct s' as [|a s']; [reflexivity|].
  inversion F; subst. cbn. now rewrite H1.
Qed.

(** ** Braces and comments *)
Lemma has_chr c x : c <> x0a -> one_line x ->
  isSome (re_match (seqs [Star is_dot; Cls (is_chr c); Star is_dot]) (x ++ [x0a])) = true <-> In c x.
Proof.
  intros NC O.
  transitivity (re_match (seqs [Star is_dot; Cls (is_chr c); Star is_dot]) (x ++ [x0a]) <> None).
  { destruct (re_match _ _); cbn; split; congruence. }
  rewrite re_match_some. cbn [seqs]. split.
  - intros [s' C]. inversion C as [| | | |a1 b1 s1 s2 s3 C1 C2| | | |]; subst. inversion C1; subst.
    inversion C2 as [| | | |a2 b2 s4 s5 s6 C3 C4| | | |]; subst. inversion C3 as [|c0 a3 s7 CC| | | | | | |]; subst.
    unfold is_chr in CC. apply byte_eqb_true in CC as ->.
    assert (I : In c (x ++ [x0a])).
    { match goal with E : _ = x ++ [x0a] |- _ => rewrite <- E end. apply in_app_iff. right. now left. }
    apply in_app_iff in I as [I|[E|[]]]; [exact I|congruence].
  - intros I. apply in_split in I as (a & b & ->). exists [x0a].
    assert (OA : allc is_dot a /\ allc is_dot b).
    { unfold one_line in O. rewrite in_app_iff in O. cbn in O.
      split; apply Forall_forall; intros y Y; apply is_dot_spec; intros ->; tauto. }
    rewrite <- app_assoc. cbn [app].
    eapply c_seq; [apply c_star, OA|].
    eapply c_seq; [apply c_cls; unfold is_chr; apply byte_eqb_refl|].
    apply c_star, OA.
Qed.
Lemma has_chr_false c x : c <> x0a -> one_line x -> ~ In c x ->
  isSome (re_match (seqs [Star is_dot; Cls (is_chr c); Star is_dot]) (x ++ [x0a])) = false.
Proof.
  intros NC O N. destruct (isSome _) eqn:E; [|reflexivity]. now apply has_chr in E.
Qed.

Lemma comment_consumes s : re_match comment_re s <> None ->
  exists p r, s = p ++ x2f :: x2f :: r /\ allc is_space p.
Proof.
  rewrite re_match_some. intros [s' C]. unfold comment_re in C.
  apply consumes_seqs in C as (s1 & C1 & C); [|discriminate].
  apply consumes_seqs in C as (s2 & C2 & C); [|discriminate].
  inversion C1; subst. unfold lit in C2. apply consumes_lit in C2. subst s1.
  do 2 eexists. split; [reflexivity|assumption].
Qed.
Lemma isSome_true {A} (x : option A) : isSome x = true <-> x <> None.
Proof. destruct x; cbn; split; congruence. Qed.
Lemma not_comment p a s : allc is_space p -> is_space a = false -> a <> x2f ->
  isSome (re_match comment_re (p ++ a :: s)) = false.
Proof.
  intros P A NA. destruct (isSome _) eqn:E; [|reflexivity]. exfalso.
  apply isSome_true, comment_consumes in E as (p' & r & E & P'). revert p' P' E.
  induction p as [|b p IH]; intros [|b' p'] P' E; cbn in E; injection E as -> E.
  - congruence.
  - inversion P'; subst. congruence.
  - inversion P; subst. discriminate.
  - inversion P; inversion P'; subst. eapply IH; eassumption.
Qed.
Lemma not_comment_blank s : allc is_space s -> isSome (re_match comment_re s) = false.
Proof.
  intros P. destruct (isSome _) eqn:E; [|reflexivity]. exfalso.
  apply isSome_true, comment_consumes in E as (p' & r & -> & P').
  apply Forall_app in P as [_ P]. inversion P; subst. discriminate.
Qed.
Lemma is_comment s : comment_line s -> isSome (re_match comment_re s) = true.
Proof.
  intros (p & r & -> & P & O). apply isSome_true, re_match_some. exists [x0a].
  unfold comment_re. apply pad_space in P.
  assert (R : allc is_dot r).
  { apply Forall_forall. intros y Y. apply is_dot_spec. intros ->. contradiction. }
  change ([x2f; x2f] ++ r ++ [x0a]) with (bytes_of_string "//" ++ r ++ [x0a]).
  apply consumes_seqs; [discriminate|]. eexists; split; [apply c_star, P|].
  apply consumes_seqs; [discriminate|]. eexists; split; [unfold lit; apply consumes_lit; reflexivity|].
  apply consumes_seqs; [discriminate|]. eexists; split; [apply c_star, R|].
  apply c_eol. now right.
Qed.

(** ** What each kind of line does *)
Lemma pad_one_line p : pad p -> one_line p.
Proof. intros P I. unfold pad in P. rewrite Forall_forall in P. apply P in I. now destruct I as [|[|]]. Qed.
Lemma pad_no c p : c = x7b \/ c = x7d -> pad p -> ~ In c p.
Proof.
  intros C P I. unfold pad in P. rewrite Forall_forall in P. apply P in I.
  destruct C as [->| ->]; now destruct I as [|[|]].
Qed.
Lemma one_line_app a b : one_line a -> one_line b -> one_line (a ++ b).
Proof. unfold one_line. rewrite in_app_iff. tauto. Qed.

Lemma word_clean w : word w -> one_line w /\ no_braces w.
Proof.
  intros [H _]. rewrite Forall_forall in H.
  assert (forall b, word_char b -> b <> x0a /\ b <> x7b /\ b <> x7d).
  { intros b W. apply is_word_true in W. repeat split; intros ->; discriminate. }
  unfold one_line, no_braces. repeat split; intros I; apply H, H0 in I; tauto.
Qed.

(** The lines this file format has, version already known. *)
Definition versioned (st : pstate) : Prop := ps_version st <> None.
Lemma parse_version_known st l : versioned st -> parse_version st l = Ok st.
Proof. unfold versioned, parse_version. destruct (ps_version st); congruence. Qed.

Lemma no_match_lines pv st l : Forall (fun a => is_word a = false) l ->
  parse_message_line pv st l = Ok st /\ parse_block_line st l = Ok st /\ parse_data_line st l = Ok st.
Proof.
  intros F. unfold parse_message_line, parse_block_line, parse_data_line.
  unfold message_header_re, block_header_re, block_data_re. cbn [seqs].
  rewrite !no_words by exact F. auto.
Qed.

Lemma wordless_line pv st x : parse_version st (x ++ [x0a]) = Ok st -> one_line x -> Forall (fun a => is_word a = false) x ->
  isSome (re_match comment_re (x ++ [x0a])) = false ->
  forall (o c : bool), (o = true <-> In x7b x) -> (c = true <-> In x7d x) ->
  parse_line pv st (x ++ [x0a]) =
  Ok (let st := if o then bump st 1 else st in if c then bump st (-1) else st).
Proof.
  intros V O W NC o c HO HC. unfold parse_line. rewrite NC.
  unfold start_re, end_re.
  assert (EO : isSome (re_match (seqs [Star is_dot; Cls (is_chr x7b); Star is_dot]) (x ++ [x0a])) = o).
  { apply eq_true_iff_eq. rewrite HO. now apply has_chr. }
  assert (EC : isSome (re_match (seqs [Star is_dot; Cls (is_chr x7d); Star is_dot]) (x ++ [x0a])) = c).
  { apply eq_true_iff_eq. rewrite HC. now apply has_chr. }
  rewrite EO, EC, V. cbn [bind].
  set (st1 := if o then bump st 1 else st). clearbody st1.
  assert (WL : Forall (fun a => is_word a = false) (x ++ [x0a])).
  { apply Forall_app. split; [exact W|]. repeat constructor. }
  destruct (no_match_lines pv st1 _ WL) as (M1 & M2 & M3).
  destruct (ps_state st1 =? 1); rewrite ?M1; cbn [bind];
    destruct (ps_state st1 =? 2); rewrite ?M2; cbn [bind];
    destruct (ps_state st1 =? 3); rewrite ?M3; reflexivity.
Qed.

Lemma pad_wordless p : pad p -> Forall (fun a => is_word a = false) p.
Proof. apply Forall_impl. exact blank_word. Qed.

Lemma blank_version st p : pad p -> parse_version st (p ++ [x0a]) = Ok st.
Proof.
  intros P. unfold parse_version. destruct (ps_version st); [reflexivity|].
  destruct p as [|b p]; [reflexivity|]. inversion P; subst. now destruct H1 as [->|[->| ->]].
Qed.
Lemma noise_step pv st l : noise l -> parse_line pv st l = Ok st.
Proof.
  intros [C|(p & -> & P)].
  - unfold parse_line. now rewrite is_comment.
  - rewrite wordless_line with (o := false) (c := false); auto using pad_one_line, pad_wordless, blank_version.
    + apply not_comment_blank. apply Forall_app. split; [now apply pad_space|]. repeat constructor.
    + split; [discriminate|]. intros I. exfalso. revert I. apply pad_no; auto.
    + split; [discriminate|]. intros I. exfalso. revert I. apply pad_no; auto.
Qed.
Lemma comment_step pv st l : comment_line l -> parse_line pv st l = Ok st.
Proof. intros C. unfold parse_line. now rewrite is_comment. Qed.

Lemma open_step pv st l : versioned st -> open_line l -> parse_line pv st l = Ok (bump st 1).
Proof.
  intros V (p & q & -> & P & Q).
  replace (p ++ [x7b] ++ q ++ [x0a]) with ((p ++ [x7b] ++ q) ++ [x0a]) by now rewrite <- !app_assoc.
  rewrite wordless_line with (o := true) (c := false); auto using parse_version_known.
  - apply one_line_app; [now apply pad_one_line|]. intros [|I]; [discriminate|]. now apply pad_one_line in I.
  - apply Forall_app. split; [now apply pad_wordless|]. constructor; [reflexivity|now apply pad_wordless].
  - rewrite <- app_assoc. cbn [app]. apply not_comment; [now apply pad_space|reflexivity|discriminate].
  - rewrite in_app_iff. cbn. tauto.
  - split; [discriminate|]. rewrite in_app_iff. intros [I|[I|I]]; [|discriminate|];
      exfalso; revert I; apply pad_no; auto.
Qed.
Lemma close_step pv st l : versioned st -> close_line l -> parse_line pv st l = Ok (bump st (-1)).
Proof.
  intros V (p & q & -> & P & Q).
  replace (p ++ [x7d] ++ q ++ [x0a]) with ((p ++ [x7d] ++ q) ++ [x0a]) by now rewrite <- !app_assoc.
  rewrite wordless_line with (o := false) (c := true); auto using parse_version_known.
  - apply one_line_app; [now apply pad_one_line|]. intros [|I]; [discriminate|]. now apply pad_one_line in I.
  - apply Forall_app. split; [now apply pad_wordless|]. constructor; [reflexivity|now apply pad_wordless].
  - rewrite <- app_assoc. cbn [app]. apply not_comment; [now apply pad_space|reflexivity|discriminate].
  - split; [discriminate|]. rewrite in_app_iff. intros [I|[I|I]]; [|discriminate|];
      exfalso; revert I; apply pad_no; auto.
  - rewrite in_app_iff. cbn. tauto.
Qed.

(** ** Numbers *)
Lemma digit_val_dec b : figure b -> digit_val 10 b = Some (ord b - 48).
Proof.
  intros F. unfold digit_val. rewrite (proj2 (is_digit_true b) F). unfold figure in F.
  destruct (Z.ltb_spec (ord b - 48) 10); [reflexivity|lia].
Qed.
Lemma digit_val_hex b : hex_figure b -> digit_val 16 b = Some (hex_digit_value b).
Proof.
  intros F. unfold digit_val, hex_digit_value, is_digit. unfold hex_figure, figure in F.
  repeat match goal with |- context [?a <=? ?b] => destruct (Z.leb_spec a b); try lia end; cbn [andb];
    match goal with |- context [?a <? ?b] => destruct (Z.ltb_spec a b); [reflexivity|lia] end.
Qed.
Lemma digits_dec s : Forall figure s -> forall a,
  digits 10 a s = Some (fold_left (fun a b => 10 * a + (ord b - 48)) s a).
Proof.
  induction s as [|b s IH]; intros F a; [reflexivity|]. inversion F; subst. cbn [digits fold_left].
  rewrite digit_val_dec by assumption. now apply IH.
Qed.
Lemma digits_hex s : Forall hex_figure s -> forall a,
  digits 16 a s = Some (fold_left (fun a b => 16 * a + hex_digit_value b) s a).
Proof.
  induction s as [|b s IH]; intros F a; [reflexivity|]. inversion F; subst. cbn [digits fold_left].
  rewrite digit_val_hex by assumption. now apply IH.
Qed.
Lemma decimal_parse s n : decimal s n -> parse_base 10 s = Ok n.
Proof.
  intros (F & N & ->). unfold parse_base. destruct s; [congruence|]. now rewrite digits_dec.
Qed.
Lemma atoi0_decimal s n : decimal s n -> (s = [x30] \/ forall r, s <> x30 :: r) -> atoi0 s = Ok n.
Proof.
  intros D [->|H].
  - destruct D as (_ & _ & ->). reflexivity.
  - rewrite <- (decimal_parse s n D). destruct s as [|b s]; [now destruct D as (_ & N & _)|].
    assert (b <> x30) by (intros ->; now apply (H s)).
    destruct b; try reflexivity; congruence.
Qed.
Lemma numeral_parse s n : numeral s n -> atoi0 s = Ok n.
Proof.
  intros [[D H]|(r & -> & F & N & ->)]; [now apply atoi0_decimal|].
  cbn [app atoi0]. unfold parse_base. destruct r; [congruence|]. now rewrite digits_hex.
Qed.
Lemma hex_figure_word b : hex_figure b -> word_char b.
Proof. unfold hex_figure, word_char, letter. intros [H|H]; [tauto|]. left. lia. Qed.
Lemma decimal_word s n : decimal s n -> word s.
Proof.
  intros (F & N & _). split; [|exact N]. revert F. apply Forall_impl. unfold word_char. tauto.
Qed.
Lemma numeral_word s n : numeral s n -> word s.
Proof.
  intros [[D H]|(r & -> & F & N & ->)]; [now apply (decimal_word s n)|].
  split; [|discriminate]. constructor; [right; left; unfold figure; cbn; lia|].
  constructor; [left; right; cbn; lia|]. revert F. apply Forall_impl. apply hex_figure_word.
Qed.

Lemma be_bytes_4 v : be_bytes 4 v = [chr (v / 16777216); chr (v / 65536); chr (v / 256); chr v].
Proof.
  unfold be_bytes. cbn [le_bytes rev app]. rewrite !Z.div_div by lia. reflexivity.
Qed.
Lemma pack1 pv v : 0 <= v -> (pv = Py27 -> v < 256) -> pack_int pv BE false 1 v = Ok [chr v].
Proof.
  intros H L. unfold pack_int, in_range. change (2 ^ (8 * Z.of_nat 1)) with 256.
  destruct (Z.leb_spec 0 v); [|lia]. destruct (Z.ltb_spec v 256); [reflexivity|].
  destruct pv; [reflexivity|]. specialize (L eq_refl). lia.
Qed.
Lemma pack1_bad v : 256 <= v -> pack_int Py27 BE false 1 v = Err StructError.
Proof.
  intros H. unfold pack_int, in_range. change (2 ^ (8 * Z.of_nat 1)) with 256.
  destruct (Z.leb_spec 0 v); [|lia]. destruct (Z.ltb_spec v 256); [lia|reflexivity].
Qed.

Lemma unpack_low v : unpack_int BE true 2 [x00; chr v] = Ok (v mod 256).
Proof.
  unfold unpack_int. cbn [List.length Nat.eqb dec]. unfold be_val. cbn [rev app le_val].
  rewrite ord_chr. change (ord x00) with 0. unfold to_signed. change (2 ^ (8 * Z.of_nat 2 - 1)) with 32768.
  assert (0 <= v mod 256 < 256) by (apply Z.mod_pos_bound; lia).
  match goal with |- context [?a <? ?b] => destruct (Z.ltb_spec a b) end; [f_equal; lia|lia].
Qed.
Lemma parse_num_ok pv f s v : numeral s v -> 0 <= v ->
  match pv, f with Py26, _ => True | Py27, FIXED => v < 2 ^ 32 | Py27, _ => v < 256 end ->
  parse_num pv (Some f) s = Ok (number_of f v, hex_of f v).
Proof.
  intros N P B. unfold parse_num. rewrite (numeral_parse _ _ N). cbn [bind].
  destruct f.
  - assert (E : pack_int pv BE false 4 v = Ok (be_bytes 4 v)).
    { unfold pack_int, in_range. change (2 ^ (8 * Z.of_nat 4)) with (2 ^ 32).
      destruct (Z.leb_spec 0 v); [|lia]. destruct (Z.ltb_spec v (2 ^ 32)); [reflexivity|].
      destruct pv; [reflexivity|lia]. }
    rewrite E, be_bytes_4. cbn [bind].
    change (pyindex [chr (v / 16777216); chr (v / 65536); chr (v / 256); chr v] 3) with (Ok (chr v)).
    cbn [bind]. now rewrite unpack_low.
  - rewrite pack1 by (auto; intros ->; exact B). reflexivity.
  - rewrite pack1 by (auto; intros ->; exact B). reflexivity.
  - rewrite pack1 by (auto; intros ->; exact B). reflexivity.
Qed.
Lemma parse_num_bad f s v : numeral s v -> 0 <= v ->
  ~ (match f with FIXED => v < 2 ^ 32 | _ => v < 256 end) ->
  parse_num Py27 (Some f) s = Err StructError.
Proof.
  intros N P B. unfold parse_num. rewrite (numeral_parse _ _ N). cbn [bind].
  destruct f; try (rewrite pack1_bad by lia; reflexivity).
  unfold pack_int, in_range. change (2 ^ (8 * Z.of_nat 4)) with (2 ^ 32).
  destruct (Z.leb_spec 0 v); [|lia]. destruct (Z.ltb_spec v (2 ^ 32)); [lia|reflexivity].
Qed.

(** ** Header, block and variable lines *)
Definition clean (s : bytes) : Prop := one_line s /\ no_braces s.
Lemma clean_app a b : clean a -> clean b -> clean (a ++ b).
Proof. unfold clean, one_line, no_braces. rewrite !in_app_iff. tauto. Qed.
Lemma clean_nil : clean []. Proof. unfold clean, one_line, no_braces. cbn. tauto. Qed.
Lemma clean_pad p : pad p -> clean p.
Proof. intros P. split; [now apply pad_one_line|]. split; apply pad_no; auto. Qed.
Lemma clean_gap p : gap p -> clean p. Proof. intros [P _]. now apply clean_pad. Qed.
Lemma clean_word w : word w -> clean w. Proof. apply word_clean. Qed.
Lemma trailer_split s : trailer s -> exists y, s = y ++ [x0a] /\ clean y /\ nas s.
Proof.
  intros (p & c & -> & P & C). exists (p ++ c). rewrite <- app_assoc. split; [reflexivity|]. split.
  - apply clean_app; [now apply clean_pad|]. destruct C as [->|(r & -> & O & B)]; [exact clean_nil|].
    apply clean_app; [|now split]. unfold clean, one_line, no_braces. cbn.
    repeat split; intros [H|[H|H]]; (discriminate || exact H).
  - apply nas_app; [now apply pad_space|]. destruct C as [->|(r & -> & O & B)]; cbn.
    + split; [reflexivity|auto].
    + split; [reflexivity|discriminate].
Qed.
Lemma kw_word s : forallb is_word (bytes_of_string s) = true -> bytes_of_string s <> [] -> word (bytes_of_string s).
Proof.
  intros F N. split; [|exact N]. apply Forall_forall. intros b I. apply is_word_true.
  rewrite forallb_forall in F. now apply F.
Qed.
Lemma freq_word_word f : word (bytes_of_string (freq_word f)).
Proof. apply kw_word; destruct f; (reflexivity || discriminate). Qed.
Lemma trust_word_word f : word (bytes_of_string (trust_word f)).
Proof. apply kw_word; destruct f; (reflexivity || discriminate). Qed.
Lemma enc_word_word f : word (bytes_of_string (enc_word f)).
Proof. apply kw_word; destruct f; (reflexivity || discriminate). Qed.
Lemma dep_word_word f : word (bytes_of_string (dep_word f)).
Proof. apply kw_word; destruct f; (reflexivity || discriminate). Qed.
Lemma btype_word_word f : word (bytes_of_string (btype_word f)).
Proof. apply kw_word; destruct f; (reflexivity || discriminate). Qed.
Lemma type_word_word f : word (bytes_of_string (type_word f)).
Proof. apply kw_word; destruct f; (reflexivity || discriminate). Qed.

Lemma word_not_comment p w s : pad p -> word w -> isSome (re_match comment_re (p ++ w ++ s)) = false.
Proof.
  intros P [W N]%word_all. destruct w as [|a w]; [congruence|]. inversion W; subst. cbn [app].
  apply not_comment; [now apply pad_space|now apply word_space|]. intros ->. discriminate.
Qed.

(** A line without braces, in state [n]. *)
Lemma plain_line pv st x : versioned st -> clean x ->
  isSome (re_match comment_re (x ++ [x0a])) = false ->
  parse_line pv st (x ++ [x0a]) =
  (do st <- (if ps_state st =? 1 then parse_message_line pv st (x ++ [x0a]) else Ok st);
   do st <- (if ps_state st =? 2 then parse_block_line st (x ++ [x0a]) else Ok st);
   do st <- (if ps_state st =? 3 then parse_data_line st (x ++ [x0a]) else Ok st);
   Ok st).
Proof.
  intros V (O & B1 & B2) NC. unfold parse_line. rewrite NC. unfold start_re, end_re.
  rewrite !has_chr_false by (assumption || discriminate). rewrite parse_version_known by exact V.
  reflexivity.
Qed.

Definition add_template (st : pstate) (t : template) : pstate :=
  {| ps_templates := ps_templates st ++ [t]; ps_version := ps_version st;
     ps_state := ps_state st; ps_block := ps_block st |}.

Lemma bytes_of_string_back s : string_of_list_byte (bytes_of_string s) = s.
Proof. apply string_of_list_byte_of_string. Qed.

Lemma header_groups t v l : a_word (t_name t) -> header_line t v l ->
  exists f tr en dp num x cs, l = x ++ [x0a] /\ clean x /\
    t_freq t = Some f /\ t_trust t = Some tr /\ t_enc t = Some en /\ t_dep t = Some dp /\
    numeral num v /\ isSome (re_match comment_re l) = false /\
    re_match message_header_re l = Some cs /\
    grp 1 cs = bytes_of_string (t_name t) /\ grp 2 cs = bytes_of_string (freq_word f) /\ grp 3 cs = num /\
    grp 4 cs = bytes_of_string (trust_word tr) /\ grp 5 cs = bytes_of_string (enc_word en) /\
    parse_dep (group 7 cs) = Some dp.
Proof.
  intros W (f & tr & en & dp & num & p & g1 & g2 & g3 & g4 & last & tail &
            Hf & Htr & Hen & Hdp & Num & P & G1 & G2 & G3 & G4 & T & L & ->).
  destruct (trailer_split _ T) as (y & Ey & Cy & Ny).
  pose proof (numeral_word _ _ Num) as WN.
  assert (CL : clean last).
  { destruct L as [[-> _]|(g5 & G5 & ->)]; [exact clean_nil|].
    apply clean_app; [now apply clean_gap|apply clean_word, dep_word_word]. }
  exists f, tr, en, dp, num.
  exists (p ++ bytes_of_string (t_name t) ++ g1 ++ bytes_of_string (freq_word f) ++ g2 ++ num ++ g3
          ++ bytes_of_string (trust_word tr) ++ g4 ++ bytes_of_string (enc_word en) ++ last ++ y).
  assert (CX : clean (p ++ bytes_of_string (t_name t) ++ g1 ++ bytes_of_string (freq_word f) ++ g2 ++ num ++ g3
          ++ bytes_of_string (trust_word tr) ++ g4 ++ bytes_of_string (enc_word en) ++ last ++ y)).
  { repeat apply clean_app; auto using clean_pad, clean_gap, clean_word, freq_word_word, trust_word_word, enc_word_word. }
  assert (EX : p ++ bytes_of_string (t_name t) ++ g1 ++ bytes_of_string (freq_word f) ++ g2 ++ num ++ g3
          ++ bytes_of_string (trust_word tr) ++ g4 ++ bytes_of_string (enc_word en) ++ last ++ tail =
          (p ++ bytes_of_string (t_name t) ++ g1 ++ bytes_of_string (freq_word f) ++ g2 ++ num ++ g3
          ++ bytes_of_string (trust_word tr) ++ g4 ++ bytes_of_string (enc_word en) ++ last ++ y) ++ [x0a]).
  { rewrite Ey, <- !app_assoc. reflexivity. }
  assert (NC : isSome (re_match comment_re (p ++ bytes_of_string (t_name t) ++ g1 ++ bytes_of_string (freq_word f) ++ g2 ++ num ++ g3
          ++ bytes_of_string (trust_word tr) ++ g4 ++ bytes_of_string (enc_word en) ++ last ++ tail)) = false).
  { now apply word_not_comment. }
  destruct L as [[-> ->]|(g5 & G5 & ->)].
  - eexists. split; [exact EX|]. split; [exact CX|]. do 5 (split; [assumption|]). split; [exact NC|].
    split.
    { cbn [app]. apply header_match; auto using pad_dot, pad_wordless, freq_word_word, trust_word_word, enc_word_word. }
    repeat split.
  - eexists. split; [exact EX|]. split; [exact CX|]. do 5 (split; [assumption|]). split; [exact NC|].
    split.
    { rewrite <- (app_assoc g5). apply header_match_dep;
        auto using pad_dot, pad_wordless, freq_word_word, trust_word_word, enc_word_word, dep_word_word. }
    repeat split. cbn. destruct dp; reflexivity.
Qed.

Lemma parse_words f tr en :
  parse_freq (bytes_of_string (freq_word f)) = Some f /\
  parse_trust (bytes_of_string (trust_word tr)) = Some tr /\
  parse_enc (bytes_of_string (enc_word en)) = Some en.
Proof. destruct f, tr, en; repeat split. Qed.

Lemma header_step pv st t v l : versioned st -> ps_state st = 1 -> writable t v -> number_fits pv t v ->
  header_line t v l -> parse_line pv st l = Ok (add_template st (set_tblocks t [])).
Proof.
  intros V S (W & _ & _ & _ & _ & f0 & F0 & P0 & N0 & H0) FIT HL.
  destruct (header_groups t v l W HL) as (f & tr & en & dp & num & x & cs & -> & C & Hf & Htr & Hen & Hdp & Num & NC & M & G1 & G2 & G3 & G4 & G5 & G7).
  assert (f0 = f) as -> by congruence.
  rewrite plain_line by assumption. rewrite S. cbn [Z.eqb Pos.eqb].
  unfold parse_message_line. rewrite M. unfold start_new_template. rewrite G1, G2, G3, G4, G5, G7.
  destruct (parse_words f tr en) as (-> & -> & ->).
  rewrite (parse_num_ok pv f num v Num P0); [|unfold number_fits in FIT; rewrite Hf in FIT; exact FIT].
  cbn [bind]. rewrite bytes_of_string_back. cbn [ps_state]. rewrite S. cbn.
  unfold add_template, set_tblocks. rewrite Hf, N0, H0, Htr, Hen, Hdp, S. reflexivity.
Qed.
Lemma header_bad st t v l : versioned st -> ps_state st = 1 -> writable t v -> ~ number_fits Py27 t v ->
  header_line t v l -> parse_line Py27 st l = Err StructError.
Proof.
  intros V S (W & _ & _ & _ & _ & f0 & F0 & P0 & N0 & H0) FIT HL.
  destruct (header_groups t v l W HL) as (f & tr & en & dp & num & x & cs & -> & C & Hf & Htr & Hen & Hdp & Num & NC & M & G1 & G2 & G3 & G4 & G5 & G7).
  assert (f0 = f) as -> by congruence.
  rewrite plain_line by assumption. rewrite S. cbn [Z.eqb Pos.eqb].
  unfold parse_message_line. rewrite M. unfold start_new_template. rewrite G1, G2, G3, G4, G5, G7.
  destruct (parse_words f tr en) as (-> & -> & ->).
  rewrite (parse_num_bad f num v Num P0); [reflexivity|].
  unfold number_fits in FIT. rewrite Hf in FIT. destruct f; exact FIT.
Qed.

Lemma upd_last {A} (f : A -> A) l x : upd (List.length l) f (l ++ [x]) = l ++ [f x].
Proof. induction l as [|a l IH]; cbn; [reflexivity|now rewrite IH]. Qed.
Lemma nth_last {A} (l : list A) x : nth_error (l ++ [x]) (List.length l) = Some x.
Proof. rewrite nth_error_app2 by lia. now rewrite Nat.sub_diag. Qed.

Notation mkst ts ver n blk :=
  {| ps_templates := ts; ps_version := Some ver; ps_state := n; ps_block := blk |}.

Lemma sized_word b : writable_block b -> exists ty, tb_type b = Some ty /\
  match ty with MBT_MULTIPLE => 0 <= tb_number b | _ => tb_number b = 0 end.
Proof. intros (_ & _ & H). exact H. Qed.

Lemma start_block_plain cs name ty : grp 1 cs = bytes_of_string name ->
  grp 2 cs = bytes_of_string (btype_word ty) -> match ty with MBT_MULTIPLE => False | _ => True end ->
  start_new_block cs = Ok {| tb_name := name; tb_type := Some ty; tb_number := 0; tb_vars := [] |}.
Proof.
  intros G1 G2 T. unfold start_new_block. rewrite G1, G2, bytes_of_string_back.
  destruct ty; [reflexivity|contradiction|reflexivity].
Qed.
Lemma start_block_multiple cs name num n : grp 1 cs = bytes_of_string name ->
  grp 2 cs = bytes_of_string (btype_word MBT_MULTIPLE) -> group 4 cs = Some num -> decimal num n ->
  start_new_block cs = Ok {| tb_name := name; tb_type := Some MBT_MULTIPLE; tb_number := n; tb_vars := [] |}.
Proof.
  intros G1 G2 G4 D. unfold start_new_block, int_group4.
  rewrite G1, G2, G4, bytes_of_string_back, (decimal_parse _ _ D). reflexivity.
Qed.

Lemma bheader_step pv done t ver blk b l : writable_block b -> bheader_line b l ->
  parse_line pv (mkst (done ++ [t]) ver 2 blk) l =
  Ok (mkst (done ++ [set_tblocks t (t_blocks t ++ [set_tvars b []])]) ver 2
           (Some (List.length done, List.length (t_blocks t)))).
Proof.
  intros (W & _ & ty0 & Ty0 & Num0) (ty & p & g1 & last & tail & Ty & P & G1 & T & L & ->).
  assert (ty0 = ty) as -> by congruence. clear Ty0.
  destruct (trailer_split _ T) as (y & Ey & Cy & Ny).
  assert (CL : clean last).
  { destruct ty; [subst last; exact clean_nil| |subst last; exact clean_nil].
    destruct L as (g2 & num & G2 & D & ->).
    apply clean_app; [now apply clean_gap|eapply clean_word, decimal_word, D]. }
  set (st := mkst _ _ _ _).
  assert (V : versioned st) by discriminate.
  assert (EX : p ++ bytes_of_string (tb_name b) ++ g1 ++ bytes_of_string (btype_word ty) ++ last ++ tail =
    (p ++ bytes_of_string (tb_name b) ++ g1 ++ bytes_of_string (btype_word ty) ++ last ++ y) ++ [x0a]).
  { rewrite Ey, <- !app_assoc. reflexivity. }
  assert (PB : parse_block_line st (p ++ bytes_of_string (tb_name b) ++ g1 ++ bytes_of_string (btype_word ty) ++ last ++ tail) =
     Ok (mkst (done ++ [set_tblocks t (t_blocks t ++ [set_tvars b []])]) ver 2
           (Some (List.length done, List.length (t_blocks t))))).
  { unfold parse_block_line, block_header_re.
    assert (exists cs, re_match block_data_re (p ++ bytes_of_string (tb_name b) ++ g1 ++ bytes_of_string (btype_word ty) ++ last ++ tail) = Some cs /\
            start_new_block cs = Ok (set_tvars b [])) as (cs & -> & ->).
    { destruct ty.
      - subst last. eexists. split.
        + cbn [app]. apply block_data_match; auto using pad_dot, pad_wordless, btype_word_word.
        + erewrite start_block_plain; [|reflexivity|reflexivity|exact I]. unfold set_tvars. now rewrite Ty, Num0.
      - destruct L as (g2 & num & G2 & D & ->). eexists. split.
        + rewrite <- (app_assoc g2). destruct D as (D1 & D2 & D3).
          apply block_data_match_num; auto using pad_dot, pad_wordless, btype_word_word.
        + erewrite start_block_multiple; [|reflexivity|reflexivity|reflexivity|exact D]. unfold set_tvars. now rewrite Ty.
      - subst last. eexists. split.
        + cbn [app]. apply block_data_match; auto using pad_dot, pad_wordless, btype_word_word.
        + erewrite start_block_plain; [|reflexivity|reflexivity|exact I]. unfold set_tvars. now rewrite Ty, Num0. }
    cbn [bind]. subst st. cbn [ps_templates ps_version ps_state ps_block].
    destruct (done ++ [t]) eqn:E; [now destruct done|]. rewrite <- E. clear E.
    rewrite app_length. cbn [List.length]. rewrite Nat.add_1_r. cbn [Nat.pred].
    rewrite nth_last, upd_last. reflexivity. }
  rewrite EX in PB |- *. rewrite plain_line; [|exact V| |].
  - subst st. cbn [ps_state Z.eqb Pos.eqb bind]. rewrite PB. reflexivity.
  - repeat apply clean_app; auto using clean_pad, clean_gap, clean_word, btype_word_word.
  - rewrite <- EX. now apply word_not_comment.
Qed.

Lemma decimal_1 n : decimal [] n -> False. Proof. intros (_ & H & _). congruence. Qed.

Lemma parse_mvt_word ty : parse_mvt (bytes_of_string (type_word ty)) = Some ty.
Proof. destruct ty; reflexivity. Qed.

Lemma start_var_plain cs name ty : grp 1 cs = bytes_of_string name ->
  grp 2 cs = bytes_of_string (type_word ty) -> ty <> MVT_FIXED -> ty <> MVT_VARIABLE ->
  start_new_var cs = Ok {| tv_name := name; tv_type := Some ty; tv_size := Some (sizeof_mvt ty) |}.
Proof.
  intros G1 G2 T1 T2. unfold start_new_var. rewrite G1, G2, bytes_of_string_back, parse_mvt_word.
  destruct ty; try reflexivity; congruence.
Qed.
Lemma start_var_sized cs name ty num n : grp 1 cs = bytes_of_string name ->
  grp 2 cs = bytes_of_string (type_word ty) -> group 4 cs = Some num -> decimal num n ->
  ty = MVT_FIXED \/ ty = MVT_VARIABLE -> 1 <= n ->
  start_new_var cs = Ok {| tv_name := name; tv_type := Some ty; tv_size := Some n |}.
Proof.
  intros G1 G2 G4 D T P. unfold start_new_var, int_group4.
  rewrite G1, G2, G4, bytes_of_string_back, parse_mvt_word, (decimal_parse _ _ D). cbn [bind].
  destruct (Z.leb_spec n 0); [lia|]. destruct T as [-> | ->]; reflexivity.
Qed.

Lemma var_step pv done t bs b0 ver v l : writable_var v -> var_line v l -> t_blocks t = bs ++ [b0] ->
  parse_line pv (mkst (done ++ [t]) ver 2 (Some (List.length done, List.length bs))) l =
  Ok (mkst (done ++ [set_tblocks t (bs ++ [set_tvars b0 (tb_vars b0 ++ [v])])]) ver 2
           (Some (List.length done, List.length bs))).
Proof.
  intros (W & ty0 & Ty0 & Sz) (ty & p & q & g1 & last & r & tail & Ty & P & Q & G1 & R & T & L & ->) TB.
  assert (ty0 = ty) as -> by congruence. clear Ty0.
  destruct (trailer_split _ T) as (y & Ey & Cy & Ny).
  assert (CL : clean last).
  { destruct ty; try (subst last; exact clean_nil); destruct L as (g2 & num & n & G2 & _ & D & ->);
      (apply clean_app; [now apply clean_gap|eapply clean_word, decimal_word, D]). }
  assert (NR : nas (r ++ [x7d] ++ tail)).
  { apply nas_app; [now apply pad_space|]. cbn. split; [reflexivity|discriminate]. }
  set (st := mkst _ _ _ _).
  set (line := p ++ [x7b] ++ q ++ bytes_of_string (tv_name v) ++ g1 ++ bytes_of_string (type_word ty) ++ last ++ r ++ [x7d] ++ tail).
  set (x := p ++ [x7b] ++ q ++ bytes_of_string (tv_name v) ++ g1 ++ bytes_of_string (type_word ty) ++ last ++ r ++ [x7d] ++ y).
  assert (EX : line = x ++ [x0a]).
  { subst line x. rewrite Ey, <- !app_assoc. reflexivity. }
  assert (OX : one_line x).
  { assert (OB : forall c, c <> x0a -> one_line [c]) by (intros c N [H|[]]; congruence).
    subst x. repeat apply one_line_app;
      first [ apply OB; discriminate | apply (proj1 (clean_pad _ P)) | apply (proj1 (clean_pad _ Q))
            | apply (proj1 (clean_pad _ R)) | apply (proj1 (clean_gap _ G1)) | apply (proj1 CL) | apply (proj1 Cy)
            | apply (proj1 (clean_word _ W)) | apply (proj1 (clean_word _ (type_word_word ty))) ]. }
  assert (V : versioned (bump st 1)) by discriminate.
  assert (PD : parse_data_line (bump st 1) line =
     Ok (mkst (done ++ [set_tblocks t (bs ++ [set_tvars b0 (tb_vars b0 ++ [v])])]) ver 3
           (Some (List.length done, List.length bs)))).
  { unfold parse_data_line.
    assert (exists cs, re_match block_data_re line = Some cs /\ start_new_var cs = Ok v) as (cs & -> & ->).
    { subst line.
      assert (D0 : allc is_dot (p ++ [x7b] ++ q)).
      { rewrite !Forall_app. repeat split; auto using pad_dot. }
      assert (W0 : Forall (fun a => is_word a = false) (p ++ [x7b] ++ q)).
      { rewrite !Forall_app. repeat split; auto using pad_wordless. }
      assert (EP : forall z : bytes, p ++ [x7b] ++ q ++ z = (p ++ [x7b] ++ q) ++ z).
      { intros z. now rewrite <- !app_assoc. }
      rewrite EP.
      assert (FV : (ty = MVT_FIXED \/ ty = MVT_VARIABLE) \/ (ty <> MVT_FIXED /\ ty <> MVT_VARIABLE))
        by (destruct ty; auto; right; split; discriminate).
      destruct FV as [FV|FV].
      - assert (L' : exists g2 num n, gap g2 /\ tv_size v = Some n /\ decimal num n /\ last = g2 ++ num)
          by (destruct FV as [-> | ->]; exact L).
        assert (Sz' : exists n, tv_size v = Some n /\ 1 <= n) by (destruct FV as [-> | ->]; exact Sz).
        destruct L' as (g2 & num & n & G2 & Sn & D & ->). destruct Sz' as (n' & Sn' & Pos).
        assert (n' = n) as -> by congruence.
        eexists. split.
        + rewrite <- (app_assoc g2). destruct D as (D1 & D2 & D3).
          apply block_data_match_num; auto using type_word_word.
        + erewrite start_var_sized; [|reflexivity|reflexivity|reflexivity|exact D|exact FV|exact Pos].
          rewrite <- Ty, <- Sn. now destruct v.
      - assert (last = []) as -> by (destruct FV, ty; congruence).
        assert (Sz' : tv_size v = Some (sizeof_mvt ty)) by (destruct FV, ty; congruence).
        eexists. split.
        + apply block_data_match; auto using type_word_word.
        + erewrite start_var_plain; [|reflexivity|reflexivity|apply FV|apply FV].
          rewrite <- Ty, <- Sz'. now destruct v. }
    subst st. cbn [bump ps_templates ps_version ps_state ps_block bind].
    rewrite upd_last, TB, upd_last. reflexivity. }
  unfold parse_line.
  replace (isSome (re_match comment_re line)) with false.
  2:{ symmetry. subst line. cbn [app]. apply not_comment; [now apply pad_space|reflexivity|discriminate]. }
  rewrite EX. unfold start_re, end_re.
  rewrite (proj2 (has_chr x7b x ltac:(discriminate) OX)).
  2:{ subst x. rewrite !in_app_iff. right. left. now left. }
  rewrite (proj2 (has_chr x7d x ltac:(discriminate) OX)).
  2:{ subst x. rewrite !in_app_iff. do 8 right. left. now left. }
  rewrite parse_version_known by discriminate. cbn [bind].
  rewrite <- EX. change (ps_state (bump st 1)) with 3. cbn [Z.eqb Pos.eqb bind].
  change (ps_state (bump st 1)) with 3. cbn [Z.eqb Pos.eqb bind].
  rewrite PD. reflexivity.
Qed.

(** ** Whole files *)
Lemma parse_lines_app pv st a b :
  parse_lines pv st (a ++ b) = (do st' <- parse_lines pv st a; parse_lines pv st' b).
Proof.
  revert st. induction a as [|l a IH]; intros st; [reflexivity|]. cbn.
  destruct (parse_line pv st l); [apply IH|reflexivity].
Qed.
Lemma parse_woven pv ls ms : woven ls ms -> forall st, parse_lines pv st ls = parse_lines pv st ms.
Proof.
  induction 1 as [|l ls ms _ IH|l ls ms N _ IH]; intros st; [reflexivity| |].
  - cbn. destruct (parse_line pv st l); [apply IH|reflexivity].
  - cbn. rewrite noise_step by exact N. apply IH.
Qed.

Definition a_line (l : bytes) : Prop := exists x, l = x ++ [x0a] /\ one_line x.
Lemma split_line_cur x s cur : one_line x -> split_lines cur (x ++ x0a :: s) = (rev cur ++ x ++ [x0a]) :: split_lines [] s.
Proof.
  revert cur. induction x as [|b x IH]; intros cur O; cbn [app split_lines].
  - cbn. reflexivity.
  - destruct (Byte.eqb b x0a) eqn:E.
    + apply byte_eqb_true in E. subst. exfalso. apply O. now left.
    + rewrite IH; [|intros I; apply O; now right]. cbn [rev]. now rewrite <- app_assoc.
Qed.
Lemma split_a_line l s : a_line l -> split_lines [] (l ++ s) = l :: split_lines [] s.
Proof. intros (x & -> & O). rewrite <- app_assoc. cbn [app]. now rewrite split_line_cur. Qed.
Lemma split_concat ls s : Forall a_line ls -> split_lines [] (List.concat ls ++ s) = ls ++ split_lines [] s.
Proof.
  induction ls as [|l ls IH]; intros F; [reflexivity|]. inversion F; subst. cbn [List.concat].
  rewrite <- app_assoc, split_a_line by assumption. cbn. now rewrite IH.
Qed.
Lemma split_concat_nil ls : Forall a_line ls -> split_lines [] (List.concat ls) = ls.
Proof. intros F. rewrite <- (app_nil_r (List.concat ls)), split_concat by exact F. apply app_nil_r. Qed.

(** complete lines *)
Lemma lines_of a : a = [] \/ (exists a', a = a' ++ [x0a]) -> exists ls, a = List.concat ls /\ Forall a_line ls.
Proof.
  assert (G : forall n a, (List.length a <= n)%nat -> a = [] \/ (exists a', a = a' ++ [x0a]) ->
     exists ls, a = List.concat ls /\ Forall a_line ls).
  { intros n. induction n as [|n IH]; intros b Lb H.
    - destruct b; [|cbn in Lb; lia]. exists []. auto.
    - destruct H as [->|[b' ->]]; [exists []; auto|].
      assert (S : exists x y, b' ++ [x0a] = x ++ [x0a] ++ y /\ one_line x /\ (y = [] \/ exists y', y = y' ++ [x0a])).
      { clear. induction b' as [|c b' IH].
        - exists [], []. repeat split; auto. intros [].
        - destruct (Byte.byte_eq_dec c x0a) as [->|N].
          + exists [], (b' ++ [x0a]). repeat split; eauto. intros [].
          + destruct IH as (x & y & E & O & Y). exists (c :: x), y. cbn [app]. rewrite E.
            repeat split; auto. intros [I|I]; [now apply N|now apply O]. }
      destruct S as (x & y & E & O & Y). destruct (IH y) as (ls & -> & F); [|exact Y|].
      { apply (f_equal (@List.length byte)) in E. rewrite !app_length in *. cbn in *. lia. }
      exists ((x ++ [x0a]) :: ls). split; [rewrite E; cbn; now rewrite <- app_assoc|].
      constructor; [exists x; auto|exact F]. }
  intros H. apply (G (List.length a) a); auto.
Qed.

Lemma noise_a_line l : noise l -> a_line l.
Proof.
  intros [(p & r & -> & P & O)|(p & -> & P)].
  - exists (p ++ [x2f; x2f] ++ r). split; [now rewrite <- !app_assoc|].
    repeat apply one_line_app; auto using pad_one_line. intros [H|[H|[]]]; discriminate.
  - exists p. auto using pad_one_line.
Qed.

(** Noise changes nothing, whatever else the file holds. *)
Lemma noise_ignored pv a l b : a = [] \/ (exists a', a = a' ++ [x0a]) -> noise l ->
  parse_template_file pv (a ++ l ++ b) = parse_template_file pv (a ++ b).
Proof.
  intros H N. destruct (lines_of a H) as (ls & -> & F). unfold parse_template_file.
  rewrite !split_concat by exact F. rewrite split_a_line by now apply noise_a_line.
  rewrite !parse_lines_app. destruct (parse_lines pv ps_init ls) as [st|e]; [|reflexivity].
  cbn. now rewrite noise_step.
Qed.

Lemma take_word_app w s : Forall (fun b => is_space b = false) w -> (s = [] \/ exists a s', s = a :: s' /\ is_space a = true) ->
  take_word (w ++ s) = w.
Proof.
  intros F S. induction w as [|b w IH]; cbn [app].
  - destruct S as [->|(a & s' & -> & E)]; [reflexivity|]. cbn. now rewrite E.
  - inversion F; subst. cbn. rewrite H1. now rewrite IH.
Qed.
Lemma figure_cipher l : Forall figure l -> Forall SpecFloatText.cipher l.
Proof. apply Forall_impl. intros c C. exact C. Qed.
Lemma version_float a b : Forall figure a -> Forall figure b -> b <> [] ->
  exists f, FloatText.float_of_text (a ++ [x2e] ++ b) = Ok f.
Proof.
  intros A B NB. rewrite FloatReadProofs.float_of_text_body.
  assert (W : forall c, figure c -> ~ SpecObjects.white c).
  { intros c C H. unfold figure in C. cbn in H. decompose [or] H; subst; cbn in C; try lia; contradiction. }
  assert (W2 : ~ SpecObjects.white x2e) by (intros H; cbn in H; decompose [or] H; try discriminate; contradiction).
  rewrite (ObjectTextProofs.strip_trimmed _ (a ++ [x2e] ++ b)).
  2:{ exists [], []. rewrite app_nil_r. repeat split; auto.
      - intros c t E. destruct A as [|c' a C A]; injection E as <- _; auto.
      - intros c t E. destruct (exists_last NB) as (b' & c' & ->). rewrite !app_assoc in E. apply app_inj_tail in E as [_ <-].
        apply Forall_app in B as [_ B]. inversion B; subst. auto. }
  change (a ++ [x2e] ++ b) with ([] ++ a ++ [x2e] ++ b) at 1.   rewrite (FloatReadProofs.take_sign_app [] false (a ++ [x2e] ++ b)).
  - rewrite <- (app_nil_r (a ++ [x2e] ++ b)).
    rewrite (FloatReadProofs.body_decimal false (a ++ [x2e] ++ b) [] a b 0); eauto using figure_cipher.
    + constructor.
    + intros H. apply app_eq_nil in H as [_ H]. contradiction.
    + constructor.
  - constructor.
  - intros r. destruct A as [|c a C A]; cbn [app]; split; intros [= -> _]; unfold figure in C; cbn in C; lia.
Qed.

Lemma version_step pv l : version_line l -> exists ver, parse_line pv ps_init l = Ok (mkst [] ver 0 None).
Proof.
  intros (a & b & q & -> & A & NA & B & NB & Q).
  destruct (version_float a b A B NB) as (ver & EV). exists ver.
  assert (DA : forall w, Forall figure w -> clean w).
  { intros w F. destruct w as [|c w]; [exact clean_nil|]. apply clean_word. split; [|discriminate].
    revert F. apply Forall_impl. unfold word_char. tauto. }
  assert (SA : forall w, Forall figure w -> Forall (fun b => is_space b = false) w).
  { intros w. apply Forall_impl. intros c C. apply word_space, digit_word, is_digit_true, C. }
  set (x := bytes_of_string "version" ++ [x20] ++ a ++ [x2e] ++ b ++ q).
  assert (EX : bytes_of_string "version" ++ [x20] ++ a ++ [x2e] ++ b ++ q ++ [x0a] = x ++ [x0a]).
  { subst x. now rewrite <- !app_assoc. }
  assert (CX : clean x).
  { subst x. repeat apply clean_app; auto using clean_pad.
    - apply clean_word. apply kw_word; [reflexivity|discriminate].
    - apply clean_pad. repeat constructor.
    - unfold clean, one_line, no_braces. cbn. repeat split; intros [H|[]]; discriminate. }
  assert (M : re_match version_re (x ++ [x0a]) = Some [(1%nat, a ++ [x2e] ++ b ++ q)]).
  { subst x. unfold re_match, version_re. rewrite <- !app_assoc. cbn [seqs lit bytes_of_string].
    set (rest := a ++ [x2e] ++ b ++ q ++ [x0a]).
    assert (ER : rest = (a ++ [x2e] ++ b ++ q) ++ [x0a]) by (subst rest; now rewrite <- !app_assoc).
    clearbody rest. subst rest.
    set (w := a ++ [x2e] ++ b ++ q) in *.
    assert (DW : allc is_dot w /\ w <> []).
    { split; [|subst w; destruct a; [congruence|discriminate]].
      apply Forall_forall. intros y Y. apply is_dot_spec. intros ->.
      assert (CW : clean w). { subst w. repeat apply clean_app; auto using clean_pad.
        unfold clean, one_line, no_braces. cbn. repeat split; intros [H|[]]; discriminate. }
      exact (proj1 CW Y). }
    clearbody w. cbn [rmatch map list_byte_of_string string_of_list_byte].
    change (rmatch (seqs (map (fun c => Cls (is_chr c)) (bytes_of_string "version"))) [] (bytes_of_string "version" ++ [x20] ++ w ++ [x0a])
      (fun cs' s' => match s' with [] => None | a0 :: s'0 => if is_dot a0 then rmatch (Plus is_dot) cs' s'0
          (fun cs'0 s'1 => Some ((1%nat, consumed s'0 s'1) :: cs'0)) else None end) = Some [(1%nat, w)]).
    cbn [bytes_of_string list_byte_of_string map seqs app rmatch].
    cbn - [Plus consumed rmatch]. apply plus_greedy; try apply DW; [reflexivity|].
    now rewrite consumed_app. }
  rewrite EX. unfold parse_line.
  replace (isSome (re_match comment_re (x ++ [x0a]))) with false.
  2:{ symmetry. subst x. rewrite <- !app_assoc. apply (word_not_comment [] (bytes_of_string "version")); [constructor|].
      apply kw_word; [reflexivity|discriminate]. }
  unfold start_re, end_re. rewrite !has_chr_false by (apply CX || discriminate).
  unfold parse_version. cbn [ps_version ps_init]. rewrite M. cbn [grp group dget Nat.eqb].
  assert (SK : skip_space (a ++ [x2e] ++ b ++ q) = (a ++ [x2e] ++ b) ++ q).
  { rewrite <- !app_assoc. destruct a as [|c a]; [congruence|]. pose proof (SA _ A) as H. inversion H; subst.
    cbn [app skip_space]. now rewrite H2. }
  rewrite SK, take_word_app.
  - destruct (a ++ [x2e] ++ b) eqn:E; [destruct a; discriminate|].
    rewrite EV. reflexivity.
  - rewrite !Forall_app. repeat split; auto.
  - destruct q as [|c q]; [now left|]. right. exists c, q. split; [reflexivity|]. inversion Q; subst.
    now apply blank_space.
Qed.

Lemma versioned_mk ts ver n blk : versioned (mkst ts ver n blk).
Proof. unfold versioned. cbn. congruence. Qed.

Lemma set_tvars_same b : set_tvars b (tb_vars b) = b. Proof. now destruct b. Qed.
Lemma set_tblocks_same t : set_tblocks t (t_blocks t) = t. Proof. now destruct t. Qed.

Lemma vars_step pv done bs ver : forall vs ls, Forall2 var_line vs ls -> Forall writable_var vs ->
  forall t b0, t_blocks t = bs ++ [b0] ->
  parse_lines pv (mkst (done ++ [t]) ver 2 (Some (List.length done, List.length bs))) ls =
  Ok (mkst (done ++ [set_tblocks t (bs ++ [set_tvars b0 (tb_vars b0 ++ vs)])]) ver 2
           (Some (List.length done, List.length bs))).
Proof.
  induction 1 as [|v l vs ls VL F IH]; intros W t b0 TB; cbn [parse_lines].
  - rewrite app_nil_r, set_tvars_same, <- TB, set_tblocks_same. reflexivity.
  - inversion W; subst. erewrite var_step by eassumption. cbn [bind].
    rewrite IH with (b0 := set_tvars b0 (tb_vars b0 ++ [v])); [|assumption|reflexivity].
    unfold set_tblocks, set_tvars. cbn. now rewrite <- app_assoc.
Qed.

Lemma block_step pv done t ver blk b ls : writable_block b -> block_lines b ls ->
  exists blk', parse_lines pv (mkst (done ++ [t]) ver 1 blk) ls =
    Ok (mkst (done ++ [set_tblocks t (t_blocks t ++ [b])]) ver 1 blk').
Proof.
  intros W (o & h & vs & c & -> & O & H & V & C). eexists.
  cbn [app parse_lines]. rewrite open_step by (auto using versioned_mk). cbn [bind].
  unfold bump at 1. cbn [ps_templates ps_version ps_state ps_block].
  change (1 + 1) with 2. rewrite (bheader_step pv done t ver blk b h W H). cbn [bind].
  rewrite parse_lines_app.
  erewrite (vars_step pv done (t_blocks t) ver (tb_vars b) vs V (proj1 (proj2 W))
            (set_tblocks t (t_blocks t ++ [set_tvars b []])) (set_tvars b [])) by reflexivity.
  cbn [bind parse_lines]. rewrite close_step by (auto using versioned_mk). cbn [bind].
  unfold bump. cbn [ps_templates ps_version ps_state ps_block]. change (2 + -1) with 1.
  f_equal. unfold set_tblocks, set_tvars; cbn. now destruct b.
Qed.

Lemma blocks_step pv done ver : forall bs lss, Forall2 block_lines bs lss -> Forall writable_block bs ->
  forall t blk, exists blk',
  parse_lines pv (mkst (done ++ [t]) ver 1 blk) (List.concat lss) =
    Ok (mkst (done ++ [set_tblocks t (t_blocks t ++ bs)]) ver 1 blk').
Proof.
  induction 1 as [|b ls bs lss B F IH]; intros W t blk.
  - exists blk. cbn. now rewrite app_nil_r, set_tblocks_same.
  - inversion W; subst. destruct (block_step pv done t ver blk b ls) as [blk1 E1]; auto.
    destruct (IH H2 (set_tblocks t (t_blocks t ++ [b])) blk1) as [blk2 E2].
    exists blk2. cbn [List.concat]. rewrite parse_lines_app, E1. cbn [bind]. rewrite E2.
    unfold set_tblocks; cbn. now rewrite <- app_assoc.
Qed.

Lemma template_step pv done ver blk t v ls : writable t v -> number_fits pv t v -> template_lines t v ls ->
  exists blk', parse_lines pv (mkst done ver 0 blk) ls = Ok (mkst (done ++ [t]) ver 0 blk').
Proof.
  intros W N (o & h & bs & c & -> & O & H & B & C).
  destruct (blocks_step pv done ver (t_blocks t) bs B (proj1 (proj2 W)) (set_tblocks t []) blk) as [blk' E].
  exists blk'. cbn [app parse_lines]. rewrite open_step by (auto using versioned_mk). cbn [bind].
  unfold bump at 1. cbn [ps_templates ps_version ps_state ps_block].
  rewrite (header_step pv _ t v h) by (auto using versioned_mk). cbn [bind].
  unfold add_template. cbn [ps_templates ps_version ps_state ps_block].
  rewrite parse_lines_app. change (0 + 1) with 1. rewrite E. cbn [bind parse_lines].
  rewrite close_step by (auto using versioned_mk). cbn [bind].
  unfold bump. cbn [ps_templates ps_version ps_state ps_block]. change (1 + -1) with 0.
  f_equal. unfold set_tblocks. cbn. now destruct t.
Qed.

Lemma template_bad done ver blk t v ls : writable t v -> ~ number_fits Py27 t v -> template_lines t v ls ->
  parse_lines Py27 (mkst done ver 0 blk) ls = Err StructError.
Proof.
  intros W N (o & h & bs & c & -> & O & H & B & C).
  cbn [app parse_lines]. rewrite open_step by (auto using versioned_mk). cbn [bind].
  unfold bump at 1. cbn [ps_templates ps_version ps_state ps_block].
  rewrite (header_bad _ t v h) by (auto using versioned_mk). reflexivity.
Qed.

Lemma body_step pv ver : forall ts vs ls, body_lines ts vs ls -> Forall2 writable ts vs ->
  Forall2 (number_fits pv) ts vs -> forall done blk,
  exists blk', parse_lines pv (mkst done ver 0 blk) ls = Ok (mkst (done ++ ts) ver 0 blk').
Proof.
  induction 1 as [|t v ls ts vs ls' T B IH]; intros W N done blk.
  - exists blk. cbn. now rewrite app_nil_r.
  - inversion W as [|? ? ? ? W1 W2]; subst. inversion N as [|? ? ? ? N1 N2]; subst.
    destruct (template_step pv done ver blk t v ls) as [b1 E1]; auto.
    destruct (IH W2 N2 (done ++ [t]) b1) as [b2 E2]. exists b2.
    rewrite parse_lines_app, E1. cbn [bind]. rewrite E2. now rewrite <- app_assoc.
Qed.

Lemma number_fits_dec pv t v : {number_fits pv t v} + {~ number_fits pv t v}.
Proof.
  unfold number_fits. destruct pv; [now left|].
  destruct (t_freq t) as [[]|]; apply Z_lt_dec.
Qed.

Lemma body_bad ver : forall ts vs ls, body_lines ts vs ls -> Forall2 writable ts vs ->
  ~ Forall2 (number_fits Py27) ts vs -> forall done blk,
  parse_lines Py27 (mkst done ver 0 blk) ls = Err StructError.
Proof.
  induction 1 as [|t v ls ts vs ls' T B IH]; intros W N done blk.
  - exfalso. now apply N.
  - inversion W; subst. rewrite parse_lines_app. destruct (number_fits_dec Py27 t v) as [F|F].
    + destruct (template_step Py27 done ver blk t v ls) as [b1 E1]; auto. rewrite E1. cbn [bind].
      apply IH; auto.
    + now rewrite (template_bad done ver blk t v).
Qed.

(** Every line of a written file is one line. *)
Lemma a_line_of x : one_line x -> a_line (x ++ [x0a]). Proof. intros O. now exists x. Qed.
Lemma trailer_a_line x s : one_line x -> trailer s -> a_line (x ++ s).
Proof.
  intros O T. destruct (trailer_split _ T) as (y & -> & C & _). rewrite app_assoc.
  apply a_line_of. apply one_line_app; [exact O|apply C].
Qed.
Lemma clean_brace b : b = x7b \/ b = x7d -> one_line [b].
Proof. intros [->| ->] [H|[]]; discriminate. Qed.
Lemma open_a_line l : open_line l -> a_line l.
Proof.
  intros (p & q & -> & P & Q). exists (p ++ [x7b] ++ q). split; [now rewrite <- !app_assoc|].
  repeat apply one_line_app; auto using pad_one_line, clean_brace.
Qed.
Lemma close_a_line l : close_line l -> a_line l.
Proof.
  intros (p & q & -> & P & Q). exists (p ++ [x7d] ++ q). split; [now rewrite <- !app_assoc|].
  repeat apply one_line_app; auto using pad_one_line, clean_brace.
Qed.
Lemma word_one_line w : word w -> one_line w. Proof. intros W. apply (clean_word _ W). Qed.
Lemma gap_one_line w : gap w -> one_line w. Proof. intros W. apply (clean_gap _ W). Qed.
Lemma figures_one_line w : Forall figure w -> one_line w.
Proof.
  intros F. destruct w as [|c w]; [intros []|]. apply word_one_line. split; [|discriminate].
  revert F. apply Forall_impl. unfold word_char. tauto.
Qed.
Lemma decimal_one_line s n : decimal s n -> one_line s. Proof. intros (F & _). now apply figures_one_line. Qed.
Lemma kw_one_line s : forallb is_word (bytes_of_string s) = true -> bytes_of_string s <> [] -> one_line (bytes_of_string s).
Proof. intros A B. apply word_one_line. now apply kw_word. Qed.
Lemma numeral_one_line s n : numeral s n -> one_line s.
Proof.
  intros [[D _]|(r & -> & F & N & _)]; [now apply decimal_one_line in D|].
  apply one_line_app; [intros [H|[H|[]]]; discriminate|].
  intros I. rewrite Forall_forall in F. apply F in I. unfold hex_figure, figure in I. cbn in I. lia.
Qed.

Lemma header_a_line t v l : writable t v -> header_line t v l -> a_line l.
Proof.
  intros (W & _) (f & tr & en & dp & num & p & g1 & g2 & g3 & g4 & last & tail & _ & _ & _ & _ & N & P & G1 & G2 & G3 & G4 & T & L & ->).
  rewrite !app_assoc. apply trailer_a_line; [|exact T].
  repeat apply one_line_app; auto using pad_one_line, gap_one_line, word_one_line.
  - destruct f; apply kw_one_line; (reflexivity || discriminate).
  - now apply numeral_one_line in N.
  - destruct tr; apply kw_one_line; (reflexivity || discriminate).
  - destruct en; apply kw_one_line; (reflexivity || discriminate).
  - destruct L as [[-> _]|(g5 & G5 & ->)]; [intros []|].
    apply one_line_app; auto using gap_one_line. destruct dp; apply kw_one_line; (reflexivity || discriminate).
Qed.
Lemma bheader_a_line b l : writable_block b -> bheader_line b l -> a_line l.
Proof.
  intros (W & _) (ty & p & g1 & last & tail & _ & P & G1 & T & L & ->).
  rewrite !app_assoc. apply trailer_a_line; [|exact T].
  repeat apply one_line_app; auto using pad_one_line, gap_one_line, word_one_line.
  - destruct ty; apply kw_one_line; (reflexivity || discriminate).
  - destruct ty; try (subst; intros []; fail). destruct L as (g2 & num & G2 & D & ->).
    apply one_line_app; eauto using gap_one_line, decimal_one_line.
Qed.
Lemma var_a_line v l : writable_var v -> var_line v l -> a_line l.
Proof.
  intros (W & _) (ty & p & q & g1 & last & r & tail & _ & P & Q & G1 & R & T & L & ->).
  rewrite !app_assoc. apply trailer_a_line; [|exact T].
  repeat apply one_line_app; auto using pad_one_line, gap_one_line, word_one_line, clean_brace.
  - destruct ty; apply kw_one_line; (reflexivity || discriminate).
  - destruct ty; try (subst; intros []; fail); destruct L as (g2 & num & n & G2 & _ & D & ->);
    apply one_line_app; eauto using gap_one_line, decimal_one_line.
Qed.
Lemma version_a_line l : version_line l -> a_line l.
Proof.
  intros (a & b & q & -> & A & NA & B & NB & Q).
  exists (bytes_of_string "version" ++ [x20] ++ a ++ [x2e] ++ b ++ q). split; [now rewrite <- !app_assoc|].
  repeat apply one_line_app; auto using figures_one_line, pad_one_line.
  - apply kw_one_line; [reflexivity|discriminate].
  - intros [H|[]]; discriminate.
  - intros [H|[]]; discriminate.
Qed.

Lemma vars_a_line : forall vs ls, Forall2 var_line vs ls -> Forall writable_var vs -> Forall a_line ls.
Proof.
  induction 1 as [|v l vs ls V F IH]; intros W; [constructor|]. inversion W; subst.
  constructor; eauto using var_a_line.
Qed.
Lemma block_a_line b ls : writable_block b -> block_lines b ls -> Forall a_line ls.
Proof.
  intros W (o & h & vs & c & -> & O & H & V & C). cbn [app].
  constructor; [now apply open_a_line|]. constructor; [now apply (bheader_a_line b)|].
  apply Forall_app. split; [apply (vars_a_line _ _ V), W|]. constructor; [now apply close_a_line|constructor].
Qed.
Lemma blocks_a_line : forall bs lss, Forall2 block_lines bs lss -> Forall writable_block bs -> Forall a_line (List.concat lss).
Proof.
  induction 1 as [|b ls bs lss B F IH]; intros W; [constructor|]. inversion W; subst.
  cbn. apply Forall_app. eauto using block_a_line.
Qed.
Lemma template_a_line t v ls : writable t v -> template_lines t v ls -> Forall a_line ls.
Proof.
  intros W (o & h & bs & c & -> & O & H & B & C). cbn [app].
  constructor; [now apply open_a_line|]. constructor; [now apply (header_a_line t v)|].
  apply Forall_app. split; [apply (blocks_a_line _ _ B), W|]. constructor; [now apply close_a_line|constructor].
Qed.
Lemma body_a_line : forall ts vs ls, body_lines ts vs ls -> Forall2 writable ts vs -> Forall a_line ls.
Proof.
  induction 1 as [|t v ls ts vs ls' T B IH]; intros W; [constructor|]. inversion W; subst.
  apply Forall_app. eauto using template_a_line.
Qed.
Lemma woven_a_line ls ms : woven ls ms -> Forall a_line ms -> Forall a_line ls.
Proof.
  induction 1 as [|l ls ms _ IH|l ls ms N _ IH]; intros F; [constructor| |].
  - inversion F; subst. constructor; auto.
  - constructor; auto using noise_a_line.
Qed.

Lemma written_parse pv ts vs text : written_as ts vs text -> Forall2 writable ts vs ->
  exists ver ls, parse_template_file pv text = res_map ps_templates (parse_lines pv (mkst [] ver 0 None) ls) /\
    body_lines ts vs ls.
Proof.
  intros (vl & ls & lines & V & B & Wv & ->) W.
  assert (A : Forall a_line lines).
  { apply (woven_a_line _ _ Wv). constructor; [now apply version_a_line|now apply (body_a_line ts vs)]. }
  destruct (version_step pv vl V) as [ver E]. exists ver, ls. split; [|exact B].
  unfold parse_template_file. rewrite split_concat_nil by exact A.
  rewrite (parse_woven pv _ _ Wv). cbn [parse_lines]. now rewrite E.
Qed.

(** The whole file. *)
Lemma text_round_trip pv ts vs text : Forall2 writable ts vs -> Forall2 (number_fits pv) ts vs ->
  written_as ts vs text -> parse_template_file pv text = Ok ts.
Proof.
  intros W N H. destruct (written_parse pv ts vs text H W) as (ver & ls & -> & B).
  destruct (body_step pv ver ts vs ls B W N [] None) as [blk E]. now rewrite E.
Qed.
Lemma text_refused ts vs text : Forall2 writable ts vs -> ~ Forall2 (number_fits Py27) ts vs ->
  written_as ts vs text -> parse_template_file Py27 text = Err StructError.
Proof.
  intros W N H. destruct (written_parse Py27 ts vs text H W) as (ver & ls & -> & B).
  now rewrite (body_bad ver ts vs ls B W N [] None).
Qed.

(** Every writable list of templates has a text. *)
Lemma decimal_snoc s b : decimal_value (s ++ [b]) = 10 * decimal_value s + (ord b - 48).
Proof. unfold decimal_value. now rewrite fold_left_app. Qed.
Lemma decimal_exists n : 0 <= n -> exists s, decimal s n /\ (s = [x30] \/ forall r, s <> x30 :: r).
Proof.
  revert n. apply Zlt_0_ind. intros n IH H.
  assert (D : forall d, 0 <= d < 10 -> exists b, figure b /\ ord b - 48 = d /\ (d = 0 -> b = x30) /\ (d <> 0 -> b <> x30)).
  { intros d R. exists (chr (48 + d)). unfold figure. rewrite ord_chr by lia.
    repeat split; try lia. - intros ->. reflexivity.
    - intros N E. apply (f_equal ord) in E. rewrite ord_chr in E by lia. change (ord x30) with 48 in E. lia. }
  destruct (Z_lt_dec n 10) as [L|L].
  - destruct (D n) as (b & F & E & B0 & B1); [lia|]. exists [b]. split.
    + repeat split; [constructor; [exact F|constructor]|discriminate|]. unfold decimal_value. cbn [fold_left]. lia.
    + destruct (Z.eq_dec n 0) as [->|N]; [left; now rewrite B0|]. right. intros r [= X]. now apply B1 in N.
  - assert (R : 0 <= n / 10 < n). { split; [apply Z.div_pos; lia|apply Z.div_lt; lia]. }
    destruct (IH (n / 10) R) as (s & (F & N & V) & Z0).
    destruct (D (n mod 10)) as (b & Fb & Eb & _); [apply Z.mod_pos_bound; lia|].
    exists (s ++ [b]). split.
    + repeat split; [apply Forall_app; auto|destruct s; discriminate|].
      rewrite decimal_snoc, <- V, Eb. apply Z.div_mod. lia.
    + right. destruct Z0 as [->|Z0].
      * exfalso. cbn in V. assert (1 <= n / 10) by (apply Z.div_le_lower_bound; lia). unfold decimal_value in V. cbn in V. lia.
      * intros r E. destruct s as [|c s]; [congruence|]. injection E as -> _. now apply (Z0 s).
Qed.

Lemma gap_sp : gap [x20]. Proof. split; [|discriminate]. constructor; [now left|constructor]. Qed.
Lemma pad_nil : pad []. Proof. constructor. Qed.
Lemma trailer_nl : trailer [x0a]. Proof. exists [], []. repeat split; auto using pad_nil. Qed.
Lemma open_exists : open_line [x7b; x0a]. Proof. exists [], []. auto using pad_nil. Qed.
Lemma close_exists : close_line [x7d; x0a]. Proof. exists [], []. auto using pad_nil. Qed.

Lemma var_exists v : writable_var v -> exists l, var_line v l.
Proof.
  intros (_ & ty & T & S). unfold var_line.
  assert (D : exists last, match ty with
    | MVT_FIXED | MVT_VARIABLE =>
        exists g2 num n, gap g2 /\ tv_size v = Some n /\ decimal num n /\ last = g2 ++ num
    | _ => last = [] end).
  { destruct ty; try (now eexists); destruct S as (n & Sn & P); destruct (decimal_exists n) as (s & Ds & _); try lia;
    exists ([x20] ++ s), [x20], s, n; auto using gap_sp. }
  destruct D as [last D]. eexists. exists ty, [], [], [x20], last, [], [x0a].
  repeat split; eauto using pad_nil, trailer_nl; try apply gap_sp.
Qed.
Lemma vars_exist : forall vs, Forall writable_var vs -> exists ls, Forall2 var_line vs ls.
Proof.
  induction 1 as [|v vs W _ [ls IH]]; [exists []; constructor|]. destruct (var_exists v W) as [l L].
  exists (l :: ls). now constructor.
Qed.
Lemma block_exists b : writable_block b -> exists ls, block_lines b ls.
Proof.
  intros (_ & V & ty & T & N). destruct (vars_exist _ V) as [vs Vs].
  assert (D : exists last, match ty with
    | MBT_MULTIPLE => exists g2 num, gap g2 /\ decimal num (tb_number b) /\ last = g2 ++ num
    | _ => last = [] end).
  { destruct ty; try (now eexists). destruct (decimal_exists _ N) as (s & Ds & _).
    exists ([x20] ++ s), [x20], s. auto using gap_sp. }
  destruct D as [last D]. eexists. eexists _, _, vs, _. split; [reflexivity|].
  split; [apply open_exists|]. split; [|split; [exact Vs|apply close_exists]].
  exists ty, [], [x20], last, [x0a]. repeat split; eauto using pad_nil, trailer_nl; apply gap_sp.
Qed.
Lemma blocks_exist : forall bs, Forall writable_block bs -> exists lss, Forall2 block_lines bs lss.
Proof.
  induction 1 as [|b bs W _ [ls IH]]; [exists []; constructor|]. destruct (block_exists b W) as [l L].
  exists (l :: ls). now constructor.
Qed.
Lemma template_exists t v : writable t v -> exists ls, template_lines t v ls.
Proof.
  intros (_ & B & TR & EN & DP & f & F & P & _). destruct (blocks_exist _ B) as [bs Bs].
  destruct (t_trust t) as [tr|] eqn:ETR; [|congruence]. destruct (t_enc t) as [en|] eqn:EEN; [|congruence].
  destruct (t_dep t) as [dp|] eqn:EDP; [|congruence].
  destruct (decimal_exists v P) as (s & Ds & Z0).
  eexists. eexists _, _, bs, _. split; [reflexivity|].
  split; [apply open_exists|]. split; [|split; [exact Bs|apply close_exists]].
  exists f, tr, en, dp, s, [], [x20], [x20], [x20], [x20], ([x20] ++ bytes_of_string (dep_word dp)), [x0a].
  repeat split; eauto using pad_nil, trailer_nl; try apply gap_sp.
  - left. split; assumption.
  - right. exists [x20]. split; [apply gap_sp|reflexivity].
Qed.
Lemma text_exists ts vs : Forall2 writable ts vs -> exists text, written_as ts vs text.
Proof.
  intros W. assert (B : exists ls, body_lines ts vs ls).
  { induction W as [|t v ts vs W _ [ls' IH]]; [exists []; constructor|].
    destruct (template_exists t v W) as [ls L]. exists (ls ++ ls'). now constructor. }
  destruct B as [ls B].
  set (ver := bytes_of_string "version" ++ [x20] ++ [x32] ++ [x2e] ++ [x30] ++ [] ++ [x0a]).
  exists (List.concat (ver :: ls)), ver, ls, (ver :: ls). split; [|split; [exact B|split; [|reflexivity]]].
  - exists [x32], [x30], []. repeat split; try discriminate; auto using pad_nil; repeat constructor; cbn; lia.
  - generalize (ver :: ls). clear. induction l; constructor; auto.
Qed.
