(** C97: what any template file gives, whatever is in it. *)
From Verif Require Import Lib TemplateParser SpecTemplateAny TemplateAnyProofs TemplateLastLine.
Open Scope Z_scope.
Open Scope list_scope.

(** Everything a template file gives is named; every template has one of the four
    frequencies and the bytes that start its messages; every variable of a known
    type has the size of the type, or the one it is given, always positive. *)
Theorem C97_accepted pv text ts :
  parse_template_file pv text = Ok ts -> Forall (numbered_template pv) ts.
Proof. exact (accepted pv text ts). Qed.
Print Assumptions C97_accepted.

(** No other exception comes out of the parser; struct.error only from Python 2.7 on. *)
Theorem C97_errors pv text e : parse_template_file pv text = Err e -> a_parse_error pv e.
Proof. exact (refused pv text e). Qed.
Print Assumptions C97_errors.

(** Reading on never mends an error and never takes back what was read: lines
    added to a file only add templates, blocks and variables. *)
Theorem C97_error_stays pv a b e :
  parse_template_file pv (a ++ [x0a]) = Err e -> parse_template_file pv (a ++ [x0a] ++ b) = Err e.
Proof. exact (prefix_error pv a b e). Qed.
Print Assumptions C97_error_stays.
Theorem C97_grows pv a b ts :
  parse_template_file pv (a ++ [x0a] ++ b) = Ok ts ->
  exists ts0, parse_template_file pv (a ++ [x0a]) = Ok ts0 /\ grown template_grows ts0 ts.
Proof. exact (prefix_grows pv a b ts). Qed.
Print Assumptions C97_grows.

(** The last line counts, ended or not. *)
Theorem C97_last_line pv text : parse_template_file pv (text ++ [x0a]) = parse_template_file pv text.
Proof. exact (last_newline pv text). Qed.
Print Assumptions C97_last_line.

(** ** Witnesses *)
Notation b := bytes_of_string.
(** Words nobody knows are taken, and stand for nothing: *)
Definition ex_unknown : bytes := b "version 2.0
{
	Ping High 0x1 Mistrusted Encoded Depreciated
	{
		Data Several
		{ Value U24 }
		{ Size Fixed 7 }
	}
".
Example C97_unknown : exists t, parse_template_file Py27 ex_unknown = Ok [t] /\
  t_name t = "Ping"%string /\ t_num t = 1 /\ t_hex t = Some [x01] /\
  t_trust t = None /\ t_enc t = None /\ t_dep t = None /\
  t_blocks t = [{| tb_name := "Data"; tb_type := None; tb_number := 0;
     tb_vars := [{| tv_name := "Value"; tv_type := None; tv_size := None |};
                 {| tv_name := "Size"; tv_type := Some MVT_FIXED; tv_size := Some 7 |}] |}].
Proof. eexists. vm_compute. repeat split. Qed.
Example C97_unknown_template : exists t, parse_template_file Py27 ex_unknown = Ok [t] /\ numbered_template Py27 t.
Proof.
  destruct C97_unknown as (t & E & _). exists t. split; [exact E|]. apply C97_accepted in E. now inversion E.
Qed.
(** Python 2.6 keeps the last byte of a number that is too large. *)
Example C97_wraps : exists t, parse_template_file Py26 (b "{
Ping Low 258 Trusted Unencoded
") = Ok [t] /\ t_num t = 258 /\ t_hex t = Some [xff; xff; x02].
Proof. eexists. vm_compute. repeat split. Qed.
(** Every one of the exceptions is raised. *)
Example C97_IndexError : parse_template_file Py27 (b "version  
") = Err IndexErr.
Proof. vm_compute. reflexivity. Qed.
Example C97_ValueError : parse_template_file Py27 (b "version two
") = Err ValueErr /\ parse_template_file Py27 (b "{ Ping Low 08 Trusted Unencoded
") = Err ValueErr.
Proof. vm_compute. auto. Qed.
Example C97_UnboundLocalError : parse_template_file Py27 (b "{ Ping Lowest 8 Trusted Unencoded
") = Err UnboundLocalErr.
Proof. vm_compute. reflexivity. Qed.
Example C97_TypeError : parse_template_file Py27 (b "{ Ping Low 8 Trusted Unencoded
{ Data Multiple
") = Err TypeErr.
Proof. vm_compute. reflexivity. Qed.
Example C97_NameError : parse_template_file Py27 (b "{ Ping Low 8 Trusted Unencoded
{ Data Single
{ Size Fixed 0
") = Err NameErr.
Proof. vm_compute. reflexivity. Qed.
Example C97_AttributeError : parse_template_file Py27 (b "{
{ Data Single
") = Err AttributeErr.
Proof. vm_compute. reflexivity. Qed.
Example C97_StructError : parse_template_file Py27 (b "{ Ping Low 256 Trusted Unencoded
") = Err StructError.
Proof. vm_compute. reflexivity. Qed.
(** A second variable on the line of the first is not read, so that a file can
    grow inside a template: *)
Example C97_growing : exists t0 t1,
  parse_template_file Py27 (b "{ Ping Low 8 Trusted Unencoded
{ Data Single
{ A U8 }
") = Ok [t0] /\
  parse_template_file Py27 (b "{ Ping Low 8 Trusted Unencoded
{ Data Single
{ A U8 }
{ B U8 }
") = Ok [t1] /\ template_grows t0 t1 /\ t0 <> t1.
Proof.
  eexists _, _. split; [vm_compute; reflexivity|]. split; [vm_compute; reflexivity|].
  split; [|discriminate]. repeat split. cbn. constructor; [|constructor]. repeat split. cbn. repeat constructor.
Qed.
Example C97_unended : exists t, parse_template_file Py27 (b "{ Ping Low 8 Trusted Unencoded") = Ok [t] /\ t_num t = 8.
Proof. eexists. vm_compute. split; reflexivity. Qed.
