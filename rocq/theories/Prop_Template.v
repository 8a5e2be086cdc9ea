(** The shipped template: C53.  Vocabulary: SpecTemplate.v. *)
From Verif Require Import Lib SpecTemplate TemplateCheck ShippedTemplates HeaderProofs TemplateParser TemplateFile Deserializer.

(** What the parser makes of the shipped file is what Python's own [re] extracts
    from it (ShippedTemplates.v, generated by tools/gen_shipped.py). *)
Theorem C53_parsed : parse_template_file Py26 template_text = Ok shipped_templates.
Proof. vm_compute. reflexivity. Qed.
Print Assumptions C53_parsed.
Lemma ok_inj {A} (x : res A) a b : x = Ok a -> x = Ok b -> b = a.
Proof. congruence. Qed.
Lemma parsed_is ts : parse_template_file Py26 template_text = Ok ts -> ts = shipped_templates.
Proof. exact (ok_inj _ _ _ C53_parsed). Qed.
Lemma shipped_unambiguous : unambiguousb shipped_templates = true.
Proof. vm_compute. reflexivity. Qed.
Lemma shipped_ok : forallb template_ok shipped_templates = true.
Proof. vm_compute. reflexivity. Qed.
Theorem C53_unambiguous ts : parse_template_file Py26 template_text = Ok ts -> unambiguous ts.
Proof. intros P. rewrite (parsed_is ts P). exact (unambiguousb_spec _ shipped_unambiguous). Qed.
Print Assumptions C53_unambiguous.
Theorem C53_proper ts : parse_template_file Py26 template_text = Ok ts -> Forall proper_template ts.
Proof.
  intros P. rewrite (parsed_is ts P). exact (forallb_Forall template_ok _ _ template_ok_spec shipped_ok).
Qed.
Print Assumptions C53_proper.
(** The dictionary built from it knows every message, and finds it again from its
    own number on the wire, whatever follows. *)
Theorem C53_found_again ts : parse_template_file Py26 template_text = Ok ts ->
  exists d, build_dict Py26 ts = Ok d /\
  forall t, In t ts -> exists t' h, get_template d (t_name t) = Some t' /\ same_template t t' /\ t_hex t' = Some h /\
    (exists f, t_freq t = Some f /\ wire_number f (t_num t) h) /\
    forall six rest, zlen six = 6 -> decode_template d (six ++ h ++ rest) = Ok (Some t').
Proof.
  intros P. destruct (C53_unambiguous ts P) as [N1 N2]. pose proof (C53_proper ts P) as PR. clear P.
  destruct (build_dict_ok Py26 ts) as (d & D); [auto|]. exists d. split; [exact D|]. intros t IN.
  destruct (build_dict_both' Py26 ts d t D N1 N2 IN) as (t' & A & B & S & NB).
  rewrite Forall_forall in PR. destruct (PR t IN) as ((f & F & C) & _).
  destruct (NB f) as (h & H & W); [destruct S as (_ & E & _); congruence|].
  assert (t_num t' mod number_space f = t_num t) as E.
  { destruct S as (_ & _ & <- & _). apply Z.mod_small. destruct f; cbn in *; lia. }
  rewrite E in W. exists t', h. split; [exact A|]. split; [exact S|]. split; [exact H|]. split; [eauto|].
  intros six rest L. rewrite (decode_template_number d six f (t_num t) h rest L W C), <- F, B. reflexivity.
Qed.
Print Assumptions C53_found_again.
(** Two shipped messages cannot be confused on the wire. *)
Theorem C53_no_confusion ts t1 t2 f1 f2 h1 h2 r1 r2 : parse_template_file Py26 template_text = Ok ts ->
  In t1 ts -> In t2 ts -> t_freq t1 = Some f1 -> t_freq t2 = Some f2 ->
  wire_number f1 (t_num t1) h1 -> wire_number f2 (t_num t2) h2 -> h1 ++ r1 = h2 ++ r2 -> t1 = t2.
Proof.
  intros P I1 I2 F1 F2 W1 W2 E. pose proof (C53_proper ts P) as PR. rewrite Forall_forall in PR.
  destruct (C53_unambiguous ts P) as [_ N2]. clear P.
  destruct (PR t1 I1) as ((g1 & G1 & C1) & _). destruct (PR t2 I2) as ((g2 & G2 & C2) & _).
  assert (g1 = f1) as -> by congruence. assert (g2 = f2) as -> by congruence.
  destruct (prefix_free f1 _ h1 f2 _ h2 r1 r2 W1 C1 W2 C2 E) as [EF EN].
  revert I1 I2 N2. clear -F1 F2 EF EN. intros I1 I2 N.
  induction ts as [|x ts IH]; [contradiction|]. cbn in N. inversion N as [|? ? NI NN]; subst.
  destruct I1 as [->|I1], I2 as [->|I2]; auto.
  - exfalso. apply NI. apply in_map_iff. exists t2. split; [congruence|exact I2].
  - exfalso. apply NI. apply in_map_iff. exists t1. split; [congruence|exact I1].
Qed.
Print Assumptions C53_no_confusion.
(** Python 2.7 cannot load the shipped file: a Low message number above 255 is
    packed into one byte. *)
Theorem C53_python27 : parse_template_file Py27 template_text = Err StructError.
Proof. vm_compute. reflexivity. Qed.
Print Assumptions C53_python27.
Example C53_ex : zlen shipped_templates = 475 /\
  existsb (fun t => String.eqb (t_name t) "ChatFromViewer") shipped_templates = true /\
  existsb (fun t => String.eqb (t_name t) "PacketAck" && (t_num t =? 251)) shipped_templates = true.
Proof. vm_compute. repeat split; reflexivity. Qed.
