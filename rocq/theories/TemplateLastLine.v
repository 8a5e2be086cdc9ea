(** The last line of a template file counts whether or not it ends in a newline
    (C97). *)
From Verif Require Import Lib TemplateParser SpecTemplateText TemplateTextProofs TemplateAnyProofs.
Open Scope Z_scope.
Open Scope list_scope.

Notation nl := x0a.
Definition nonl (s : bytes) : Prop := ~ In nl s.
Lemma nonl_tail a s : nonl (a :: s) -> nonl s. Proof. unfold nonl. cbn. tauto. Qed.

(** A continuation and its counterpart on texts with the newline added. *)
Definition sim {A} (k k' : bytes -> option A) : Prop := forall s, nonl s -> k' (s ++ [nl]) = k s.
Lemma star_sim {A} c (k k' : bytes -> option A) : sim k k' -> (c nl = false \/ k' [] = None \/ k' [] = k []) -> sim (star c k) (star c k').
Proof.
  intros K E s. induction s as [|a s IH]; intros N; cbn.
  - specialize (K [] ltac:(unfold nonl; cbn; tauto)). cbn in K. rewrite K.
    destruct (c nl); [|reflexivity]. destruct E as [E|[-> | ->]]; [discriminate|reflexivity|destruct (k []); reflexivity].
  - rewrite (IH (nonl_tail _ _ N)). destruct (c a); [destruct (star c k s); [reflexivity|]|]; exact (K (a :: s) N).
Qed.
Lemma lstar_sim {A} c (k k' : bytes -> option A) : sim k k' -> c nl = false -> sim (lstar c k) (lstar c k').
Proof.
  intros K E s. induction s as [|a s IH]; intros N; cbn.
  - specialize (K [] ltac:(unfold nonl; cbn; tauto)). cbn in K. rewrite K, E. reflexivity.
  - rewrite (IH (nonl_tail _ _ N)). pose proof (K (a :: s) N) as Ka. cbn in Ka. rewrite Ka. reflexivity.
Qed.
Notation simk k k' := (forall cs, sim (k cs) (k' cs)).
Definition at_end (k : caps -> bytes -> option caps) : Prop := forall cs, k cs [] = None.
Lemma cls_sim c k k' : simk k k' -> (c nl = false \/ at_end k') -> simk (fun cs s => rmatch (Cls c) cs s k) (fun cs s => rmatch (Cls c) cs s k').
Proof.
  intros K E cs s N. destruct s as [|a s]; cbn.
  - destruct (c nl); [|reflexivity]. destruct E as [E|E]; [discriminate|apply E].
  - destruct (c a); [|reflexivity]. exact (K cs s (nonl_tail _ _ N)).
Qed.
Lemma starr_sim c k k' : simk k k' -> (c nl = false \/ at_end k' \/ forall cs, k' cs [] = k cs []) -> simk (fun cs s => rmatch (Star c) cs s k) (fun cs s => rmatch (Star c) cs s k').
Proof. intros K E cs. apply star_sim; [apply K|]. destruct E as [E|[E|E]]; auto. Qed.
Lemma plus_sim c k k' : simk k k' -> (c nl = false \/ at_end k') -> simk (fun cs s => rmatch (Plus c) cs s k) (fun cs s => rmatch (Plus c) cs s k').
Proof.
  intros K E. unfold Plus. apply (cls_sim c (fun cs s => rmatch (Star c) cs s k) (fun cs s => rmatch (Star c) cs s k')).
  - apply starr_sim; tauto.
  - destruct E as [E|E]; [auto|]. right. intros cs. apply E.
Qed.
Lemma plus_end c k : at_end (fun cs s => rmatch (Plus c) cs s k). Proof. intros cs. reflexivity. Qed.
Lemma grp_end n c k : at_end (fun cs s => rmatch (Grp n (Plus c)) cs s k). Proof. intros cs. reflexivity. Qed.
Lemma consumed_nl s s' : consumed (s ++ [nl]) (s' ++ [nl]) = firstn (List.length s - List.length s') (s ++ [nl]).
Proof. unfold consumed. rewrite !app_length. cbn. f_equal. lia. Qed.
Lemma consumed_sim s s' : consumed (s ++ [nl]) (s' ++ [nl]) = consumed s s'.
Proof.
  rewrite consumed_nl. unfold consumed. rewrite firstn_app.
  replace (List.length s - List.length s' - List.length s)%nat with 0%nat by lia. cbn. apply app_nil_r.
Qed.
Lemma grp_sim n c k k' : simk k k' -> c nl = false -> simk (fun cs s => rmatch (Grp n (Plus c)) cs s k) (fun cs s => rmatch (Grp n (Plus c)) cs s k').
Proof.
  intros K E cs s N.
  change (rmatch (Plus c) cs (s ++ [nl]) (fun cs' s' => k' ((n, consumed (s ++ [nl]) s') :: cs') s') =
          rmatch (Plus c) cs s (fun cs' s' => k ((n, consumed s s') :: cs') s')).
  apply (plus_sim c (fun cs' s' => k ((n, consumed s s') :: cs') s') (fun cs' s' => k' ((n, consumed (s ++ [nl]) s') :: cs') s'));
    [|auto|exact N]. intros cs1 s1 N1. rewrite consumed_sim. apply K, N1.
Qed.
Lemma opt_sim n m c k k' : simk k k' -> c nl = false ->
  simk (fun cs s => rmatch (Opt (Grp n (Seq (Plus is_space) (Grp m (Plus c))))) cs s k)
       (fun cs s => rmatch (Opt (Grp n (Seq (Plus is_space) (Grp m (Plus c))))) cs s k').
Proof.
  intros K E cs s N.
  set (f := fun (k : caps -> bytes -> option caps) t cs1 s1 => rmatch (Grp m (Plus c)) cs1 s1 (fun cs' s' => k ((n, consumed t s') :: cs') s')).
  change (match rmatch (Plus is_space) cs (s ++ [nl]) (f k' (s ++ [nl])) with Some y => Some y | None => k' cs (s ++ [nl]) end =
          match rmatch (Plus is_space) cs s (f k s) with Some y => Some y | None => k cs s end).
  rewrite (K cs s N).
  assert (rmatch (Plus is_space) cs (s ++ [nl]) (f k' (s ++ [nl])) = rmatch (Plus is_space) cs s (f k s)) as ->; [|reflexivity].
  apply (plus_sim is_space (f k s) (f k' (s ++ [nl]))); [|right; intros ?; reflexivity|exact N].
  unfold f. apply (grp_sim m c (fun cs' s' => k ((n, consumed s s') :: cs') s') (fun cs' s' => k' ((n, consumed (s ++ [nl]) s') :: cs') s')); [|exact E].
  intros cs1 s1 N1. rewrite consumed_sim. apply K, N1.
Qed.

Definition fin : caps -> bytes -> option caps := fun cs _ => Some cs.
Lemma fin_sim : simk fin fin. Proof. intros cs s _. reflexivity. Qed.
Lemma dots_sim : simk (fun cs s => rmatch (Star is_dot) cs s fin) (fun cs s => rmatch (Star is_dot) cs s fin).
Proof. apply starr_sim; [apply fin_sim|]. now left. Qed.

Definition rsim (r : re) : Prop := simk (fun cs s => rmatch r cs s fin) (fun cs s => rmatch r cs s fin).
Lemma rsim_grp n c b : rsim b -> c nl = false -> rsim (Seq (Grp n (Plus c)) b).
Proof. exact (grp_sim n c (fun cs s => rmatch b cs s fin) (fun cs s => rmatch b cs s fin)). Qed.
Lemma rsim_plus c n d b : rsim (Seq (Grp n (Plus d)) b) -> rsim (Seq (Plus c) (Seq (Grp n (Plus d)) b)).
Proof.
  intros H.
  exact (plus_sim c (fun cs s => rmatch (Seq (Grp n (Plus d)) b) cs s fin) (fun cs s => rmatch (Seq (Grp n (Plus d)) b) cs s fin) H (or_intror (fun _ => eq_refl))).
Qed.
Lemma rsim_opt n m c b : rsim b -> c nl = false -> rsim (Seq (Opt (Grp n (Seq (Plus is_space) (Grp m (Plus c))))) b).
Proof. exact (opt_sim n m c (fun cs s => rmatch b cs s fin) (fun cs s => rmatch b cs s fin)). Qed.
Lemma lazy_sim r : rsim r ->
  forall s, nonl s -> re_match (Seq (LStar is_dot) r) (s ++ [nl]) = re_match (Seq (LStar is_dot) r) s.
Proof.
  intros H. exact (lstar_sim is_dot (fun s => rmatch r [] s fin) (fun s => rmatch r [] s fin) (H []) eq_refl).
Qed.
Lemma data_sim s : nonl s -> re_match block_data_re (s ++ [nl]) = re_match block_data_re s.
Proof.
  revert s. apply lazy_sim. repeat first [apply rsim_grp; [|reflexivity]|apply rsim_plus|apply rsim_opt; [|reflexivity]]. exact dots_sim.
Qed.
Lemma header_sim s : nonl s -> re_match message_header_re (s ++ [nl]) = re_match message_header_re s.
Proof.
  revert s. apply lazy_sim. repeat first [apply rsim_grp; [|reflexivity]|apply rsim_plus|apply rsim_opt; [|reflexivity]]. exact dots_sim.
Qed.
Lemma brace_sim c s : c <> nl -> nonl s -> 
  re_match (seqs [Star is_dot; Cls (is_chr c); Star is_dot]) (s ++ [nl]) = re_match (seqs [Star is_dot; Cls (is_chr c); Star is_dot]) s.
Proof.
  intros C. revert s.
  assert (E : is_chr c nl = false).
  { unfold is_chr. destruct (Byte.eqb nl c) eqn:Q; [|reflexivity]. apply byte_eqb_true in Q as <-. congruence. }
  apply (starr_sim is_dot (fun cs s => rmatch (Seq (Cls (is_chr c)) (Star is_dot)) cs s fin) (fun cs s => rmatch (Seq (Cls (is_chr c)) (Star is_dot)) cs s fin)); [|now left].
  apply (cls_sim (is_chr c) (fun cs s => rmatch (Star is_dot) cs s fin) (fun cs s => rmatch (Star is_dot) cs s fin)); [|now left].
  apply dots_sim.
Qed.
Lemma lit_sim w k k' : simk k k' -> ~ In nl (bytes_of_string w) -> bytes_of_string w <> [] ->
  simk (fun cs s => rmatch (lit w) cs s k) (fun cs s => rmatch (lit w) cs s k').
Proof.
  unfold lit. generalize (bytes_of_string w). intros l K. induction l as [|c l IH]; intros N E; [congruence|].
  assert (C : is_chr c nl = false).
  { unfold is_chr. destruct (Byte.eqb nl c) eqn:Q; [|reflexivity]. apply byte_eqb_true in Q as <-. exfalso. apply N. now left. }
  destruct l as [|d l]; [apply (cls_sim (is_chr c) k k'); auto|].
  change (map (fun c => Cls (is_chr c)) (c :: d :: l)) with (Cls (is_chr c) :: map (fun c => Cls (is_chr c)) (d :: l)).
  set (r := seqs (map (fun c => Cls (is_chr c)) (d :: l))) in *.
  apply (cls_sim (is_chr c) (fun cs s => rmatch r cs s k) (fun cs s => rmatch r cs s k')); [|now left].
  apply IH; [cbn in *; tauto|discriminate].
Qed.
Lemma version_sim s : nonl s -> re_match version_re (s ++ [nl]) = re_match version_re s.
Proof.
  revert s. apply (lit_sim "version" (fun cs s => rmatch (Seq (Cls is_dot) (Grp 1 (Plus is_dot))) cs s fin)
    (fun cs s => rmatch (Seq (Cls is_dot) (Grp 1 (Plus is_dot))) cs s fin)); [|vm_compute; intuition discriminate|discriminate].
  apply (cls_sim is_dot (fun cs s => rmatch (Grp 1 (Plus is_dot)) cs s fin) (fun cs s => rmatch (Grp 1 (Plus is_dot)) cs s fin)); [|now left].
  apply grp_sim; [apply fin_sim|reflexivity].
Qed.
Lemma comment_sim s : nonl s -> re_match comment_re (s ++ [nl]) = re_match comment_re s.
Proof.
  revert s. set (r := Seq (Star is_dot) Eol).
  apply (starr_sim is_space (fun cs s => rmatch (lit "//") cs s (fun cs s => rmatch r cs s fin)) (fun cs s => rmatch (lit "//") cs s (fun cs s => rmatch r cs s fin)));
    [|right; left; intros ?; reflexivity].
  apply lit_sim; [|vm_compute; intuition discriminate|discriminate].
  apply (starr_sim is_dot (fun cs s => rmatch Eol cs s fin) (fun cs s => rmatch Eol cs s fin)); [|now left].
  intros cs s N. destruct s as [|a [|b s]]; [reflexivity| |].
  - cbn. destruct a; try reflexivity. exfalso. apply N. now left.
  - cbn. destruct a; reflexivity.
Qed.
Lemma line_sim pv st s : nonl s -> parse_line pv st (s ++ [nl]) = parse_line pv st s.
Proof.
  intros N. unfold parse_line. rewrite (comment_sim s N).
  assert (re_match start_re (s ++ [nl]) = re_match start_re s) as -> by (apply brace_sim; [discriminate|exact N]).
  assert (re_match end_re (s ++ [nl]) = re_match end_re s) as -> by (apply brace_sim; [discriminate|exact N]).
  unfold parse_version, parse_message_line, parse_block_line, parse_data_line, block_header_re.
  rewrite (version_sim s N), (header_sim s N), (data_sim s N). reflexivity.
Qed.

Lemma split_last text : forall cur, nonl cur ->
  exists ls l, nonl l /\ split_lines cur (text ++ [nl]) = ls ++ [l ++ [nl]] /\
    split_lines cur text = ls ++ (match l with [] => [] | _ => [l] end).
Proof.
  induction text as [|b text IH]; intros cur C.
  - exists [], (rev cur). split; [intros I; apply C; now apply in_rev|]. split; [reflexivity|]. cbn.
    destruct cur as [|c cur]; [reflexivity|]. destruct (rev (c :: cur)) eqn:E; [|reflexivity].
    apply (f_equal (@List.length byte)) in E. rewrite rev_length in E. discriminate.
  - cbn [app split_lines]. destruct (Byte.eqb b nl) eqn:B.
    + destruct (IH [] ltac:(unfold nonl; cbn; tauto)) as (ls & l & N & -> & ->). exists (rev (b :: cur) :: ls), l. auto.
    + destruct (IH (b :: cur)) as (ls & l & N & -> & ->).
      { intros [->|I]; [discriminate|]. exact (C I). }
      exists ls, l. auto.
Qed.
Lemma last_newline pv text : parse_template_file pv (text ++ [nl]) = parse_template_file pv text.
Proof.
  unfold parse_template_file. destruct (split_last text [] ltac:(unfold nonl; cbn; tauto)) as (ls & l & N & -> & ->).
  rewrite !parse_lines_app. destruct (parse_lines pv ps_init ls) as [st|e]; [|reflexivity]. cbn [bind].
  destruct l as [|c l].
  - cbn [parse_lines app]. rewrite (noise_step pv st [nl]); [reflexivity|]. right. exists []. split; [reflexivity|constructor].
  - cbn [parse_lines]. now rewrite (line_sim pv st (c :: l) N).
Qed.
