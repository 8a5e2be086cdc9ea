(** C71: what templates say about themselves; C72: MessageFactory; C73: the
    printed form of a message. *)
From Coq Require Import Sorting.Sorted.
From Verif Require Import Lib SpecDescribe DescribeProofs HeaderProofs TemplateParser Prop_Template ShippedTemplates TemplateFile.
Open Scope list_scope.
Open Scope Z_scope.

(** ** C71 *)

(** The words a template describes itself with are those of the template
    language, ... *)
Theorem C71_words : forall t,
  (forall s, trust_as_string t = Ok s <-> exists x, t_trust t = Some x /\ s = trust_word x) /\
  (forall s, encoding_as_string t = Ok s <-> exists x, t_enc t = Some x /\ s = enc_word x) /\
  (forall s, deprecation_as_string t = Ok s <-> exists x, t_dep t = Some x /\ s = dep_word x) /\
  (trust_as_string t = Err TypeErr <-> t_trust t = None) /\
  (encoding_as_string t = Err TypeErr <-> t_enc t = None) /\
  (deprecation_as_string t = Err TypeErr <-> t_dep t = None).
Proof.
  intros t. unfold trust_as_string, encoding_as_string, deprecation_as_string, name_of.
  repeat split; intros H;
    repeat match goal with
    | H : context [match ?x with Some _ => _ | None => _ end] |- _ => destruct x as [[]|] eqn:?
    | |- context [match ?x with Some _ => _ | None => _ end] => destruct x as [[]|] eqn:?
    end; try discriminate; try reflexivity;
    try (injection H as <-; eexists; split; [reflexivity|reflexivity]);
    try (destruct H as (x & [= <-] & ->); reflexivity);
    destruct H as (x & ? & _); discriminate.
Qed.
Print Assumptions C71_words.

(** ... so that the parser reads each of them back as the value described. *)
Theorem C71_words_read_back : forall t s,
  (trust_as_string t = Ok s -> parse_trust (bytes_of_string s) = t_trust t) /\
  (encoding_as_string t = Ok s -> parse_enc (bytes_of_string s) = t_enc t) /\
  (deprecation_as_string t = Ok s -> parse_dep (Some (bytes_of_string s)) = t_dep t).
Proof.
  intros t s. unfold trust_as_string, encoding_as_string, deprecation_as_string, name_of.
  repeat split; intros H;
    match goal with |- _ = ?x => destruct x as [[]|] end; try discriminate; injection H as <-; reflexivity.
Qed.
Print Assumptions C71_words_read_back.

(** Frequencies are the exception: lower case, which the parser does not take;
    and an unknown one is a KeyError, not a TypeError. *)
Definition lower_word (f : freq) : string :=
  match f with FIXED => "fixed" | LOW => "low" | MEDIUM => "medium" | HIGH => "high" end.
Theorem C71_frequency : forall t,
  (forall s, frequency_as_string t = Ok s <-> exists f, t_freq t = Some f /\ s = lower_word f) /\
  (frequency_as_string t = Err KeyErr <-> t_freq t = None) /\
  (forall s, frequency_as_string t = Ok s -> parse_freq (bytes_of_string s) = None).
Proof.
  intros t. unfold frequency_as_string. destruct (t_freq t) as [[]|]; repeat split; try discriminate;
    try (intros [= <-]; eexists; split; reflexivity); try (intros (f & [= <-] & ->); reflexivity);
    try (intros s [= <-]; reflexivity); intros (f & H & _); discriminate.
Qed.
Print Assumptions C71_frequency.

(** Block types: the word of the language, or "None". *)
Theorem C71_block_type : forall b,
  block_type_as_string b = match tb_type b with Some x => btype_word x | None => "None"%string end.
Proof. intros b. unfold block_type_as_string. now destruct (tb_type b) as [[]|]. Qed.
Print Assumptions C71_block_type.

(** Variable types: a name that says which one it is; MVT_ and the word of the
    language but for five types. *)
Theorem C71_variable_type : forall v s,
  (type_as_string v = Ok s <-> exists x, tv_type v = Some x /\ s = mvt_name x) /\
  (type_as_string v = Err TypeErr <-> tv_type v = None) /\
  (forall x y, mvt_name x = mvt_name y -> x = y) /\
  (forall x, mvt_name x = ("MVT_" ++ type_word x)%string <->
     x <> MVT_FIXED /\ x <> MVT_VARIABLE /\ x <> MVT_IP_ADDR /\ x <> MVT_IP_PORT).
Proof.
  intros v s. unfold type_as_string, MVT_as_string, name_of. repeat split.
  - destruct (tv_type v); [intros [= <-]; eauto|discriminate].
  - intros (x & -> & ->). reflexivity.
  - now destruct (tv_type v).
  - intros ->. reflexivity.
  - intros x y. destruct x, y; try discriminate; reflexivity.
  - intros ->. discriminate.
  - intros ->. discriminate.
  - intros ->. discriminate.
  - intros ->. discriminate.
  - intros (A & B & C & D). destruct x; try reflexivity; congruence.
Qed.
Print Assumptions C71_variable_type.

(** The hexadecimal number of a template in a dictionary spells the bytes its
    messages carry on the wire ... *)
Theorem C71_hex_number : forall pv ts d name t f, build_dict pv ts = Ok d ->
  get_template d name = Some t -> t_freq t = Some f -> 0 <= t_num t < number_space f ->
  exists s h, message_hex_num t = Ok s /\ spelled_hex s h /\ wire_number f (t_num t) h.
Proof.
  intros pv ts d name t f D G F R. destruct (build_dict_sound pv ts d D) as (S & _).
  destruct (S name t G) as (t0 & _ & _ & _ & H). specialize (H f F).
  unfold message_hex_num. rewrite H. exists (flat_map hex2 (number_bytes f (t_num t))), (number_bytes f (t_num t)).
  split; [reflexivity|]. split; [apply spelled|].
  pose proof (number_bytes_wire f (t_num t)) as W. now rewrite Z.mod_small in W.
Qed.
Print Assumptions C71_hex_number.
(** A template that was never given one (a number that fits no byte) has none to
    show. *)
Theorem C71_hex_number_missing : forall t e, message_hex_num t = Err e <-> t_hex t = None /\ e = TypeErr.
Proof. intros t e. unfold message_hex_num. destruct (t_hex t) as [h|]; split; [discriminate|intros [? _]; discriminate|intros [= <-]; auto|intros [_ ->]; reflexivity]. Qed.
Print Assumptions C71_hex_number_missing.
Example C71_hex_number_missing_ex : exists t, t_hex t = None /\ message_hex_num t = Err TypeErr.
Proof. exists {| t_name := "T"; t_freq := None; t_num := 0; t_hex := None; t_trust := None; t_enc := None; t_dep := None; t_blocks := [] |}. auto. Qed.

(** ... and tells it from every other one. *)
Theorem C71_hex_number_identifies : forall s h h' f f' n n', spelled_hex s h -> spelled_hex s h' ->
  wire_number f n h -> wire_number f' n' h' -> codable f n -> codable f' n' -> f = f' /\ n = n'.
Proof.
  intros s h h' f f' n n' S S' W W' C C'. pose proof (spelled_fun s h h' S S') as <-.
  eapply (prefix_free f n h f' n' h [] []); eauto.
Qed.
Print Assumptions C71_hex_number_identifies.

(** Looking up a block of a template, a variable of a block: the last of that
    name; KeyError if there is none. *)
Theorem C71_get_block : forall t name,
  (forall b, template_get_block t name = Ok b <-> last_such (fun b => tb_name b = name) (t_blocks t) b) /\
  (template_get_block t name = Err KeyErr <-> Forall (fun b => tb_name b <> name) (t_blocks t)).
Proof.
  intros t name. destruct (lookup_iff tb_name (t_blocks t) name) as (A & B).
  unfold template_get_block, block_map.
  destruct (sget name (fold_left (fun m b => sset (tb_name b) b m) (t_blocks t) [])) as [x|].
  - split.
    + intros b. rewrite <- (A b). split; congruence.
    + rewrite <- B. split; discriminate.
  - split.
    + intros b. rewrite <- (A b). split; discriminate.
    + rewrite <- B. tauto.
Qed.
Print Assumptions C71_get_block.
Theorem C71_get_variable : forall b name,
  (forall v, block_get_variable b name = Ok v <-> last_such (fun v => tv_name v = name) (tb_vars b) v) /\
  (block_get_variable b name = Err KeyErr <-> Forall (fun v => tv_name v <> name) (tb_vars b)).
Proof.
  intros t name. destruct (lookup_iff tv_name (tb_vars t) name) as (A & B).
  unfold block_get_variable, variable_map.
  destruct (sget name (fold_left (fun m b => sset (tv_name b) b m) (tb_vars t) [])) as [x|].
  - split.
    + intros b. rewrite <- (A b). split; congruence.
    + rewrite <- B. split; discriminate.
  - split.
    + intros b. rewrite <- (A b). split; discriminate.
    + rewrite <- B. tauto.
Qed.
Print Assumptions C71_get_variable.

(** get_all_types: each type occurring in the templates, once, in alphabetical
    order; TypeError if a variable has no type. *)
Theorem C71_all_types : forall ts,
  (forall l, get_all_types ts = Ok l <->
     (forall v, variable_of ts v -> tv_type v <> None) /\ StronglySorted before l /\
     forall s, In s l <-> exists v x, variable_of ts v /\ tv_type v = Some x /\ s = mvt_name x) /\
  (get_all_types ts = Err TypeErr <-> exists v, variable_of ts v /\ tv_type v = None).
Proof. intros ts. split; [exact (all_types_iff ts)|exact (all_types_err ts)]. Qed.
Print Assumptions C71_all_types.

(** get_template_list works only on a dictionary that parsed its own templates. *)
Theorem C71_template_list : forall given ts,
  get_template_list given ts = if given then Err AttributeErr else Ok (map t_name ts).
Proof. reflexivity. Qed.
Print Assumptions C71_template_list.

(** The shipped templates: nothing of all this fails. *)
Definition described (t : template) : bool :=
  match trust_as_string t, encoding_as_string t, deprecation_as_string t, frequency_as_string t, message_hex_num t with
  | Ok _, Ok _, Ok _, Ok _, Ok _ => true
  | _, _, _, _, _ => false
  end.
Lemma shipped_described : forallb described shipped_templates = true.
Proof. vm_compute. reflexivity. Qed.
Theorem C71_shipped : forall ts, parse_template_file Py26 template_text = Ok ts ->
  forall t, In t ts -> exists a b c d e, trust_as_string t = Ok a /\ encoding_as_string t = Ok b /\
    deprecation_as_string t = Ok c /\ frequency_as_string t = Ok d /\ message_hex_num t = Ok e.
Proof.
  intros ts P t I. rewrite (parsed_is ts P) in I. clear P. pose proof shipped_described as D.
  rewrite forallb_forall in D. specialize (D t I). unfold described in D.
  destruct (trust_as_string t), (encoding_as_string t), (deprecation_as_string t), (frequency_as_string t), (message_hex_num t);
    try discriminate. eauto 12.
Qed.
Print Assumptions C71_shipped.
Example C71_shipped_types : get_all_types shipped_templates = Ok
  ["MVT_BOOL"; "MVT_F32"; "MVT_F64"; "MVT_FIXED"; "MVT_IP_ADDR"; "MVT_IP_PORT"; "MVT_LLQuaternion"; "MVT_LLUUID";
   "MVT_LLVector3"; "MVT_LLVector3d"; "MVT_LLVector4"; "MVT_S16"; "MVT_S32"; "MVT_S8"; "MVT_U16"; "MVT_U32"; "MVT_U64";
   "MVT_U8"; "MVT_VARIABLE"]%string.
Proof. vm_compute. reflexivity. Qed.

(** ** C72 *)

(** A MessageFactory as it is constructed can do nothing. *)
Theorem C72_unusable : forall cs,
  factory_run (new_factory None) cs = map (fun _ => Err AttributeErr) cs.
Proof. induction cs as [|c cs IH]; [reflexivity|]. destruct c; cbn; f_equal; exact IH. Qed.
Print Assumptions C72_unusable.

(** Given a template list, no call ever builds anything: at every moment of
    every history, a call returns without an exception only if it does nothing,
    namely new_message of a name mapped to None, or next_block of a block the
    current template does not have. *)
Definition current_after (l : string -> res (option template)) (cs : list factory_call) : option (option template) :=
  fold_left (fun cur c => match c with FNew n => match l n with Ok t => Some t | Err _ => cur end | _ => cur end) cs None.
Lemma current_run l cs : forall cur,
  fold_left (fun f c => fst (factory_step f c)) cs {| f_list := Some l; f_current := cur |} =
  {| f_list := Some l;
     f_current := fold_left (fun cur c => match c with FNew n => match l n with Ok t => Some t | Err _ => cur end | _ => cur end) cs cur |}.
Proof.
  induction cs as [|c cs IH]; intros cur; [reflexivity|]. cbn [fold_left].
  destruct c as [n|n|v d t]; cbn [factory_step fst]; try apply IH.
  unfold factory_new_message. cbn [f_list]. destruct (l n); cbn [fst]; apply IH.
Qed.
Lemma run_nth f cs : forall k c, nth_error cs k = Some c ->
  nth_error (factory_run f cs) k = Some (snd (factory_step (fold_left (fun f c => fst (factory_step f c)) (firstn k cs) f) c)).
Proof.
  revert f. induction cs as [|c0 cs IH]; intros f [|k] c H; try discriminate; cbn [nth_error] in H; cbn [factory_run firstn fold_left].
  - injection H as ->. destruct (factory_step f c); reflexivity.
  - destruct (factory_step f c0) as [f' r] eqn:E. cbn [nth_error fst]. now apply IH.
Qed.
Theorem C72_builds_nothing : forall l cs k c, nth_error cs k = Some c ->
  exists r, nth_error (factory_run (new_factory (Some l)) cs) k = Some r /\
  let cur := current_after l (firstn k cs) in
  (r = Ok tt <-> (exists n, c = FNew n /\ l n = Ok None) \/
                 (exists n t, c = FNext n /\ cur = Some (Some t) /\ Forall (fun b => tb_name b <> n) (t_blocks t))) /\
  (forall n t, c = FNew n -> l n = Ok (Some t) -> r = Err NameErr) /\
  (forall n e, c = FNew n -> l n = Err e -> r = Err e) /\
  (forall v d ty, c = FAdd v d ty -> r = Err AttributeErr \/ (cur = Some None /\ r = Err (MessageBuildingErr "data" "invalid context"))).
Proof.
  intros l cs k c H. rewrite (run_nth _ _ _ _ H). eexists. split; [reflexivity|].
  unfold new_factory. rewrite current_run. fold (current_after l (firstn k cs)).
  set (cur := current_after l (firstn k cs)). cbn zeta. clearbody cur. clear H.
  destruct c as [n|n|v d ty]; cbn [factory_step snd].
  - unfold factory_new_message. cbn [f_list]. destruct (l n) as [[t|]|e] eqn:L; cbn [snd].
    + split; [|split; [|split]].
      * split; [discriminate|]. intros [(m & [= <-] & M)|(m & t' & M & _)]; congruence.
      * reflexivity.
      * intros m e [= <-] M. congruence.
      * discriminate.
    + split; [|split; [|split]].
      * split; [intros _; left; eauto|reflexivity].
      * intros m t [= <-] M. congruence.
      * intros m e [= <-] M. congruence.
      * discriminate.
    + split; [|split; [|split]].
      * split; [discriminate|]. intros [(m & [= <-] & M)|(m & t' & M & _)]; congruence.
      * intros m t [= <-] M. congruence.
      * intros m e' [= <-] M. congruence.
      * discriminate.
  - split; [|repeat split; discriminate]. unfold factory_next_block. cbn [f_current].
    destruct cur as [[t|]|].
    + destruct (lookup_iff tb_name (t_blocks t) n) as (_ & B). unfold dmem, block_map.
      destruct (sget n (fold_left (fun m b => sset (tb_name b) b m) (t_blocks t) [])) as [x|].
      * split; [discriminate|]. intros [(m & M & _)|(m & t' & [= <-] & [= <-] & F)]; [discriminate|].
        apply B in F. discriminate.
      * split; [|reflexivity]. intros _. right. exists n, t. repeat split; auto. now apply B.
    + split; [discriminate|]. intros [(m & M & _)|(m & t' & _ & M & _)]; discriminate.
    + split; [discriminate|]. intros [(m & M & _)|(m & t' & _ & M & _)]; discriminate.
  - unfold factory_add_data. cbn [f_current]. split; [|split; [|split]]; try discriminate.
    + split.
      * destruct cur as [[t|]|]; discriminate.
      * intros [(m & M & _)|(m & t' & M & _)]; discriminate.
    + intros v' d' ty' _. destruct cur as [[t|]|]; auto.
Qed.
Print Assumptions C72_builds_nothing.
Example C72_ex :
  factory_run (new_factory (Some (fun n => if String.eqb n "TestMessage" then Ok (Some (List.hd (
       {| t_name := ""; t_freq := None; t_num := 0; t_hex := None; t_trust := None; t_enc := None; t_dep := None; t_blocks := [] |}) shipped_templates))
     else if String.eqb n "none" then Ok None else Err KeyErr)))
    [FAdd "x" VNone None; FNew "TestMessage"; FNext "TestBlock1"; FNext "NoSuchBlock"; FAdd "Test1" (VInt 1) (Some MVT_U32);
     FNew "other"; FNew "none"; FAdd "Test1" (VInt 1) (Some MVT_U32); FNext "TestBlock1"] =
    [Err AttributeErr; Err NameErr; Err AttributeErr; Ok tt; Err AttributeErr; Err KeyErr; Ok tt;
     Err (MessageBuildingErr "data" "invalid context"); Err AttributeErr].
Proof. vm_compute. reflexivity. Qed.

(** ** C73 *)

(** Message.data(): the name, and for each block name the lines of its instances,
    in the order of the block and variable lists, put together; name and blocks in
    the order Python happens to keep them. *)
Theorem C73_text : forall show name_first m text,
  data_text show name_first m = Ok text <->
  exists parts, Forall2 (line_texts show) (message_lines name_first m) parts /\
    ~ clash (List.concat parts) /\ together (List.concat parts) text.
Proof. exact data_ok. Qed.
Print Assumptions C73_text.

(** It fails at the first line that cannot be printed, or that makes a byte
    string which is not ASCII meet a unicode text (UnicodeDecodeError). *)
Theorem C73_fails : forall show name_first m e,
  data_text show name_first m = Err e <->
  exists before x after parts, message_lines name_first m = before ++ x :: after /\
    Forall2 (line_texts show) before parts /\ ~ clash (List.concat parts) /\
    (line_fails x e \/
     exists p, line_texts show x p /\ clash (List.concat (parts ++ [p])) /\ e = ValueErr).
Proof. exact data_fails. Qed.
Print Assumptions C73_fails.

(** Without unicode data of the type MVT_VARIABLE the text is a byte string and
    only entries that cannot be printed make it fail. *)
Theorem C73_byte_strings : forall show name_first m, no_unicode m ->
  (forall t, data_text show name_first m = Ok t -> exists s, t = TStr s) /\
  (forall e, data_text show name_first m = Err e <->
     exists before x after, message_lines name_first m = before ++ x :: after /\ line_fails x e /\
       forall y, In y before -> forall e', ~ line_fails y e').
Proof. intros show nf m N. split; [intros t; now apply bytes_text|intros e; now apply bytes_fails]. Qed.
Print Assumptions C73_byte_strings.

(** str() and repr(): the text, if it is a byte string or ASCII; otherwise
    UnicodeEncodeError. *)
Theorem C73_repr : forall show name_first m,
  (forall s, repr_text show name_first m = Ok s <-> exists t, data_text show name_first m = Ok t /\
     (t = TStr s \/ exists u, t = TUni u /\ ascii_codes u /\ s = utf8 u)) /\
  (forall e, repr_text show name_first m = Err e <-> data_text show name_first m = Err e \/
     exists u, data_text show name_first m = Ok (TUni u) /\ ~ ascii_codes u /\ e = ValueErr).
Proof.
  intros show nf m. unfold repr_text. destruct (data_text show nf m) as [[s|u]|e]; cbn [bind].
  - split; intros x; split.
    + intros [= <-]. eauto.
    + intros (t & [= <-] & [ [= <-] | (u & [=] & _) ]). reflexivity.
    + discriminate.
    + intros [ [=] | (u & [=] & _) ].
  - destruct (is_ascii u) eqn:A.
    + apply ascii_iff in A. split; intros x; split.
      * intros [= <-]. eauto 8.
      * intros (t & [= <-] & [ [=] | (u' & [= <-] & _ & ->) ]). reflexivity.
      * discriminate.
      * intros [ [=] | (u' & [= <-] & N & _) ]. tauto.
    + apply not_ascii_iff in A. split; intros x; split.
      * discriminate.
      * intros (t & [= <-] & [ [=] | (u' & [= <-] & N & _) ]). tauto.
      * intros [= <-]. right. eauto.
      * intros [ [=] | (u' & _ & _ & ->) ]. reflexivity.
  - split; intros x; split.
    + discriminate.
    + intros (t & [=] & _).
    + intros [= <-]. now left.
    + intros [ [= <-] | (u & [=] & _) ]. reflexivity.
Qed.
Print Assumptions C73_repr.

(** When the dispatcher logs a message it could not send ("%s"), formatting it
    raises exactly if data() does, however values print. *)
Theorem C73_logged : forall show m e, prints_ascii show ->
  (msg_str_error m = Some e <-> data_text show true m = Err e).
Proof. exact str_error_iff. Qed.
Print Assumptions C73_logged.

Definition decimal_show (v : pyval) : bytes := match v with VInt z => dec_text z | _ => [] end.
Definition a_u32 (z : Z) : var := {| v_data := VInt z; v_type := Some MVT_U32 |}.
Definition msg_of (d : blockdict) : message :=
  {| m_name := "M"; m_blocks := d; m_flags := 0; m_id := 0; m_eqid := 0; m_acks := []; m_num_acks := 0;
     m_trusted := false; m_reliable := false; m_retries := 0 |}.
Example C73_ex :
  data_text decimal_show true (msg_of [("B", [add_variable (new_block "B") "N" (a_u32 (-7))]);
    ("C", [add_variable (add_variable (new_block "C") "S" {| v_data := VStr [x68; x69]; v_type := Some MVT_VARIABLE |})
             "F" {| v_data := VStr [x01; x00; xff; xff]; v_type := Some MVT_FIXED |}])]) =
  Ok (TStr (bytes_of_string "
Name: M
    Block Name:    B
        N:    -7
    Block Name:    C
        S:    hi
        F:    (1, -1)
")).
Proof. vm_compute. reflexivity. Qed.
Example C73_odd_fixed :
  data_text decimal_show true (msg_of [("C", [add_variable (new_block "C") "F" {| v_data := VStr [x01]; v_type := Some MVT_FIXED |}])]) =
  Err StructError.
Proof. vm_compute. reflexivity. Qed.

(** A unicode text and, elsewhere, a byte that is not ASCII: data() fails; with
    the unicode text alone data() succeeds and str() fails. *)
Definition uni_line : var := {| v_data := VUni [233]; v_type := Some MVT_VARIABLE |}.
Definition byte_line : var := {| v_data := VStr [xe9]; v_type := Some MVT_VARIABLE |}.
Example C73_mixed :
  data_text decimal_show true (msg_of [("B", [add_variable (add_variable (new_block "B") "X" uni_line) "Y" byte_line])]) = Err ValueErr /\
  (exists u, data_text decimal_show true (msg_of [("B", [add_variable (new_block "B") "X" uni_line])]) = Ok (TUni u)) /\
  repr_text decimal_show true (msg_of [("B", [add_variable (new_block "B") "X" uni_line])]) = Err ValueErr /\
  no_unicode (msg_of [("B", [add_variable (new_block "B") "Y" byte_line])]).
Proof.
  split; [vm_compute; reflexivity|]. split; [eexists; vm_compute; reflexivity|]. split; [vm_compute; reflexivity|].
  intros n v [H|[H|[]]]; [discriminate|]. injection H as <- <-. discriminate.
Qed.

(** The printed form does not show where one instance of a block ends and the
    next begins, nor the flags, the number, the acks: different messages print
    alike. *)
Theorem C73_instances_merge : exists show m m', m_blocks m <> m_blocks m' /\
  (forall nf, data_text show nf m = data_text show nf m') /\ exists text, data_text show true m = Ok text.
Proof.
  exists decimal_show,
    (msg_of [("B", [add_variable (add_variable (new_block "B") "X" (a_u32 1)) "Y" (a_u32 2)])]),
    (msg_of [("B", [add_variable (new_block "B") "X" (a_u32 1); add_variable (new_block "B") "Y" (a_u32 2)])]).
  split; [discriminate|]. split; [intros []; vm_compute; reflexivity|]. eexists. vm_compute. reflexivity.
Qed.
Print Assumptions C73_instances_merge.
Theorem C73_only_name_and_blocks : forall show nf m m', m_name m = m_name m' -> m_blocks m = m_blocks m' ->
  data_text show nf m = data_text show nf m'.
Proof. intros show nf m m' N B. unfold data_text. now rewrite N, B. Qed.
Print Assumptions C73_only_name_and_blocks.
