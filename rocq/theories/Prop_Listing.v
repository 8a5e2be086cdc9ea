(** C99: the listing of message templates that template_parser.py prints. *)
From Coq Require Import Sorting.Permutation.
From Verif Require Import Lib SpecTemplateAny ListingProofs DescribeProofs TemplateParser Prop_Template Prop_TemplateAny Prop_Describe ShippedTemplates TemplateFile.
From Verif Require Export SpecListing.
Open Scope Z_scope.
Open Scope list_scope.

(** What print_packet_list prints, when it prints everything. *)
Theorem C99_listing ts text : print_packet_list ts = (text, None) <-> listing ts text.
Proof. exact (listing_iff ts text). Qed.
Print Assumptions C99_listing.
(** It does so exactly if no template lacks anything; ... *)
Theorem C99_complete ts : (exists text, print_packet_list ts = (text, None)) <-> forall t e, In t ts -> ~ lacking t e.
Proof. rewrite <- listing_complete. split; intros (s & H); exists s; now apply listing_iff. Qed.
Print Assumptions C99_complete.
(** ... else it stops in the first one that does, having listed those before. *)
Theorem C99_stops ts text e : print_packet_list ts = (text, Some e) ->
  exists before t after listed more, ts = before ++ t :: after /\ listing before listed /\ lacking t e /\
    text = listed ++ rule ++ [x0a] ++ more.
Proof. exact (listing_fails ts text e). Qed.
Print Assumptions C99_stops.
(** Two lists of templates have the same listing exactly if they are the same but
    for the sizes of variables. *)
Theorem C99_faithful ts ts' text text' : print_packet_list ts = (text, None) -> print_packet_list ts' = (text', None) ->
  Forall word_names ts -> Forall word_names ts' -> (text = text' <-> Forall2 same_but_sizes ts ts').
Proof. intros L L'. apply listing_iff in L, L'. exact (listing_same ts ts' text text' L L'). Qed.
Print Assumptions C99_faithful.

(** print_packet_names, in whatever order the counters come: the templates, each
    with its position, and how many there are of each frequency. *)
Theorem C99_names ts fs text : print_packet_names (map rate_word fs) ts = (text, None) <->
  exists nls cls, name_lines 0 ts nls /\ Forall2 (count_line ts) fs cls /\ text = text_of (nls ++ [[]] ++ cls ++ [[]]).
Proof. exact (names_iff ts fs text). Qed.
Print Assumptions C99_names.
Theorem C99_names_stops ts fs text e : print_packet_names (map rate_word fs) ts = (text, Some e) ->
  e = KeyErr /\ exists before t after ls, ts = before ++ t :: after /\ t_freq t = None /\ name_lines 0 before ls /\ text = text_of (ls ++ [rule]).
Proof. exact (names_fail ts fs text e). Qed.
Print Assumptions C99_names_stops.
(** The counts add up. *)
Theorem C99_counts ts : Forall (fun t => t_freq t <> None) ts ->
  how_many FIXED ts + how_many LOW ts + how_many MEDIUM ts + how_many HIGH ts = zlen ts.
Proof.
  unfold how_many. induction 1 as [|t ts N F IH]; [reflexivity|]. 
  assert (forall f, zlen (filter (of_rate f) (t :: ts)) = (if of_rate f t then 1 else 0) + zlen (filter (of_rate f) ts)) as K.
  { intros f. cbn [filter]. destruct (of_rate f t); [apply zlen_cons|reflexivity]. }
  rewrite !K, zlen_cons, <- IH. unfold of_rate at 1 3 5 7. destruct (t_freq t) as [[]|]; [..|congruence]; lia.
Qed.
Print Assumptions C99_counts.

(** ** Template files *)
Lemma parsed_words pv text ts : parse_template_file pv text = Ok ts -> Forall word_names ts /\ Forall (fun t => t_freq t <> None /\ t_hex t <> None) ts.
Proof.
  intros P. apply C97_accepted in P. split; eapply Forall_impl; [|exact P| |exact P]; clear P; intros t (N & _ & (h & d & H & _ & _ & FR) & B).
  - split; [exact N|]. eapply Forall_impl; [|exact B]. intros b (BN & _ & _ & V). split; [exact BN|]. eapply Forall_impl; [|exact V]. intros v [VN _]. exact VN.
  - split; [destruct (t_freq t); [discriminate|contradiction]|congruence].
Qed.
(** Whatever template file was accepted: its names can be printed, its listing
    fails at most with TypeError, for a word that stands for nothing, and two files
    with the same listing have the same templates but for sizes. *)
Theorem C99_files pv text ts : parse_template_file pv text = Ok ts ->
  (forall fs, exists s, print_packet_names (map rate_word fs) ts = (s, None)) /\
  (forall s e, print_packet_list ts = (s, Some e) -> e = TypeErr /\ exists t, In t ts /\
     (t_trust t = None \/ t_enc t = None \/ t_dep t = None \/ exists b v, In b (t_blocks t) /\ In v (tb_vars b) /\ tv_type v = None)) /\
  (forall pv' text' ts' s, parse_template_file pv' text' = Ok ts' -> print_packet_list ts = (s, None) -> print_packet_list ts' = (s, None) ->
     Forall2 same_but_sizes ts ts').
Proof.
  intros P. pose proof (parsed_words pv text ts P) as [W F]. clear P. rewrite Forall_forall in F. split; [|split].
  - intros fs. destruct (print_packet_names (map rate_word fs) ts) as [s [e|]] eqn:E; [|eauto]. exfalso.
    apply C99_names_stops in E as (_ & before & t & after & ls & -> & N & _). destruct (F t); [apply in_elt|contradiction].
  - intros s e E. apply C99_stops in E as (before & t & after & ls & more & -> & _ & L & _). destruct (F t) as [N H]; [apply in_elt|].
    unfold lacking in L. destruct (t_freq t); [|contradiction]. destruct L as (-> & [L|L]); [contradiction|]. split; [reflexivity|].
    exists t. split; [apply in_elt|exact L].
  - intros pv' text' ts' s P'. pose proof (parsed_words pv' text' ts' P') as [W' _]. clear P'. intros L L'.
    now apply (C99_faithful ts ts' s s).
Qed.
Print Assumptions C99_files.
(** The program: it comes to its end exactly if nothing is lacking, and prints the
    names, the listing and the types. *)
Theorem C99_program pv text fs ts : parse_template_file pv text = Ok ts ->
  ((exists s, main pv text (map rate_word fs) = (s, None)) <-> forall t e, In t ts -> ~ lacking t e) /\
  forall s, main pv text (map rate_word fs) = (s, None) <-> exists a b c l,
    print_packet_names (map rate_word fs) ts = (a, None) /\ print_packet_list ts = (b, None) /\
    get_all_types ts = Ok l /\ pprint_strings l = (c, None) /\ s = a ++ b ++ c.
Proof.
  intros P. pose proof (C99_files pv text ts P) as (NF & _). unfold main. rewrite P. clear P.
  assert (forall s, then_print (print_packet_names (map rate_word fs) ts)
        (then_print (print_packet_list ts) (match get_all_types ts with Ok l => pprint_strings l | Err e => raises e end)) = (s, None) <->
    exists a b c l, print_packet_names (map rate_word fs) ts = (a, None) /\ print_packet_list ts = (b, None) /\
      get_all_types ts = Ok l /\ pprint_strings l = (c, None) /\ s = a ++ b ++ c) as K.
  { intros s. rewrite then_ok. split.
    - intros (a & y & A & Y & ->). apply then_ok in Y as (b & c & B & C & ->). destruct (get_all_types ts) as [l|]; [|discriminate].
      exists a, b, c, l. auto.
    - intros (a & b & c & l & A & B & G & C & ->). exists a, (b ++ c). split; [exact A|]. split; [|reflexivity]. apply then_ok. rewrite G. eauto. }
  split; [|exact K]. rewrite <- C99_complete. split.
  - intros (s & H). apply K in H as (a & b & c & l & _ & B & _). eauto.
  - intros (b & B). destruct (NF fs) as (a & A). destruct (get_all_types ts) as [l|e] eqn:G.
    + eexists. apply K. exists a, b. eexists. exists l. split; [exact A|]. split; [exact B|]. split; [reflexivity|]. split; reflexivity.
    + exfalso. assert (e = TypeErr) as ->.
      { unfold get_all_types in G. destruct (type_set (all_variables ts) []) as [x|x] eqn:TS; [discriminate|]. injection G as <-. revert TS. generalize (@nil string).
        induction (all_variables ts) as [|v vs IH]; intros acc; cbn [type_set]; [discriminate|].
        destruct (type_as_string v) as [k|k] eqn:TA; cbn [bind]; [apply IH|]. unfold type_as_string, MVT_as_string, name_of in TA.
        destruct (tv_type v); [discriminate|]. congruence. }
      apply C71_all_types in G as (v & (t & bk & IT & IB & IV) & TN).
      assert (forall t e, In t ts -> ~ lacking t e) as NL by (apply C99_complete; eauto).
      destruct (t_freq t) as [f|] eqn:FT.
      * apply (NL t TypeErr IT). unfold lacking. rewrite FT. split; [reflexivity|]. do 4 right. eauto.
      * apply (NL t KeyErr IT). unfold lacking. now rewrite FT.
Qed.
Print Assumptions C99_program.
(** The list of types: on one line if that takes less than eighty characters, else
    one type a line, indented by one. *)
Theorem C99_types l text : pprint_strings l = (text, None) <->
  let items := map quoted l in
  let one := [x5b] ++ joined_by [x2c; x20] items ++ [x5d] in
  (zlen one < 80 -> text = one ++ [x0a]) /\ (80 <= zlen one -> text = [x5b] ++ joined_by [x2c; x0a; x20] items ++ [x5d; x0a]).
Proof.
  unfold pprint_strings, prints. cbv zeta. set (items := map quoted l). destruct (Z.ltb_spec 79 (zlen ([x5b] ++ joined_by [x2c; x20] items ++ [x5d]))) as [H|H].
  - split; [intros [= <-]|intros [_ ->]]; try lia; repeat rewrite <- app_assoc; [split; [lia|reflexivity]|reflexivity].
  - split; [intros [= <-]|intros [-> _]]; try lia; [split; [reflexivity|lia]|reflexivity].
Qed.
Print Assumptions C99_types.
(** With the shipped template file: everything is listed, on Python 2.6; on Python
    2.7 nothing. *)
Definition nothing_lacking (t : template) : bool :=
  match t_freq t, t_hex t, t_trust t, t_enc t, t_dep t with
  | Some _, Some _, Some _, Some _, Some _ => forallb (fun b => forallb (fun v => match tv_type v with Some _ => true | None => false end) (tb_vars b)) (t_blocks t)
  | _, _, _, _, _ => false
  end.
Lemma shipped_nothing_lacking : forallb nothing_lacking shipped_templates = true.
Proof. vm_compute. reflexivity. Qed.
Theorem C99_shipped fs : (exists text, main Py26 template_text (map rate_word fs) = (text, None)) /\
  main Py27 template_text (map rate_word fs) = ([], Some StructError).
Proof.
  split.
  - apply (proj1 (C99_program Py26 template_text fs shipped_templates C53_parsed)). intros t e I L.
    pose proof shipped_nothing_lacking as A. rewrite forallb_forall in A. specialize (A t I). unfold nothing_lacking in A. unfold lacking in L.
    destruct (t_freq t); [|discriminate]. destruct (t_hex t); [|discriminate]. destruct (t_trust t); [|discriminate].
    destruct (t_enc t); [|discriminate]. destruct (t_dep t); [|discriminate].
    destruct L as (_ & [L|[L|[L|[L|(b & v & B & V & TV)]]]]); try discriminate.
    rewrite forallb_forall in A. specialize (A b B). rewrite forallb_forall in A. specialize (A v V). rewrite TV in A. discriminate.
  - unfold main. rewrite C53_python27. reflexivity.
Qed.
Print Assumptions C99_shipped.

(** ** Cases *)
Definition ls_t : template :=
  {| t_name := "PacketAck"; t_freq := Some FIXED; t_num := 251; t_hex := Some [xff; xff; xff; xfb]; t_trust := Some LL_NOTRUST;
     t_enc := Some LL_UNENCODED; t_dep := Some LL_NOTDEPRECATED;
     t_blocks := [{| tb_name := "Packets"; tb_type := Some MBT_VARIABLE; tb_number := 0;
                     tb_vars := [{| tv_name := "ID"; tv_type := Some MVT_U32; tv_size := Some 4 |}] |}] |}.
Definition ls_bad : template := {| t_name := "Odd"; t_freq := Some LOW; t_num := 1; t_hex := Some [xff; xff; x00; x01]; t_trust := None;
     t_enc := Some LL_UNENCODED; t_dep := Some LL_NOTDEPRECATED; t_blocks := [] |}.
Example C99_ex : print_packet_list [ls_t] = (rule ++ txt "
PacketAck fixed 251 FFFFFFFB NotTrusted Unencoded NotDeprecated
	Packets Variable 0
		ID                  	MVT_U32
", None) /\ word_names ls_t /\
  print_packet_list [ls_t; ls_bad; ls_t] = (fst (print_packet_list [ls_t]) ++ rule ++ [x0a], Some TypeErr) /\
  print_packet_names (map rate_word [HIGH; LOW; FIXED; MEDIUM]) [ls_t; ls_bad] = (rule ++ txt "
1 PacketAck fixed
" ++ rule ++ [x0a] ++ rule ++ txt "
2 Odd low
" ++ rule ++ txt "

high 0
low 1
fixed 1
medium 0

", None) /\ pprint_strings ["MVT_U32"%string; "MVT_U8"%string] = (txt "['MVT_U32', 'MVT_U8']
", None).
Proof.
  split; [vm_compute; reflexivity|]. split; [|split; [vm_compute; reflexivity|split; vm_compute; reflexivity]].
  assert (forall s, (forallb (fun b => ((65 <=? ord b) && (ord b <=? 90)) || ((97 <=? ord b) && (ord b <=? 122)) || ((48 <=? ord b) && (ord b <=? 57)))%bool (txt s) && negb (match txt s with [] => true | _ => false end))%bool = true -> a_word s) as K.
  { intros s H. apply andb_prop in H as [H N]. split; [|destruct (txt s); discriminate]. apply Forall_forall. intros c C.
    rewrite forallb_forall in H. specialize (H c C). unfold word_char, letter, figure. lia. }
  split; [apply K; reflexivity|]. constructor; [|constructor]. split; [apply K; reflexivity|]. constructor; [apply K; reflexivity|constructor].
Qed.
(** How many of each frequency there are in the shipped file. *)
Example C99_shipped_counts : (how_many FIXED shipped_templates, how_many LOW shipped_templates, how_many MEDIUM shipped_templates, how_many HIGH shipped_templates)
  = (3, 426, 17, 29).
Proof. vm_compute. reflexivity. Qed.
