(** Template files: C54.  Vocabulary (how a template file is written):
    SpecTemplateText.v. *)
From Verif Require Import Lib TemplateParser SpecTemplateText TemplateTextProofs.

(** Parsing a text written for the templates [ts] gives back [ts], exactly and in
    order, whatever the spacing, the trailing comments and the comment and empty
    lines in between. *)
Theorem C54_round_trip pv ts vs text : Forall2 writable ts vs -> Forall2 (number_fits pv) ts vs ->
  written_as ts vs text -> parse_template_file pv text = Ok ts.
Proof. exact (text_round_trip pv ts vs text). Qed.
Print Assumptions C54_round_trip.

(** Every writable list of templates has such a text, so that it can be stored and
    read back. *)
Theorem C54_every_list pv ts vs : Forall2 writable ts vs -> Forall2 (number_fits pv) ts vs ->
  exists text, written_as ts vs text /\ parse_template_file pv text = Ok ts.
Proof.
  intros W N. destruct (text_exists ts vs W) as [text T]. exists text. split; [exact T|].
  exact (text_round_trip pv ts vs text W N T).
Qed.
Print Assumptions C54_every_list.

(** Two lists of templates never share a text. *)
Theorem C54_unambiguous ts vs ts' vs' text : Forall2 writable ts vs -> Forall2 writable ts' vs' ->
  written_as ts vs text -> written_as ts' vs' text -> ts = ts'.
Proof.
  intros W W' T T'.
  assert (F : forall l k, Forall2 writable l k -> Forall2 (number_fits Py26) l k).
  { clear. induction 1; constructor; auto. exact I. }
  assert (E := text_round_trip Py26 _ _ _ W (F _ _ W) T).
  rewrite (text_round_trip Py26 _ _ _ W' (F _ _ W') T') in E. now injection E.
Qed.
Print Assumptions C54_unambiguous.

(** Under Python 2.7 a number that does not fit its field refuses the whole file. *)
Theorem C54_refused ts vs text : Forall2 writable ts vs -> ~ Forall2 (number_fits Py27) ts vs ->
  written_as ts vs text -> parse_template_file Py27 text = Err StructError.
Proof. exact (text_refused ts vs text). Qed.
Print Assumptions C54_refused.

(** A comment line or an empty line between two lines of any file, well formed or
    not, changes nothing. *)
Theorem C54_noise pv a l b : a = [] \/ (exists a', a = a' ++ [x0a]) -> noise l ->
  parse_template_file pv (a ++ l ++ b) = parse_template_file pv (a ++ b).
Proof. exact (noise_ignored pv a l b). Qed.
Print Assumptions C54_noise.

(** *** A file *)
Definition ex_file : bytes := bytes_of_string "// a template file
version 2.0

{
	Ping High 1 NotTrusted Unencoded // to and fro
	{
		PingID Single
		{ PingID U8 }
		{ Name Variable 2 } // two length bytes
	}
	{
		Neighbours Multiple 4
		{ Handle U64 }
	}
}
// the last one
{
	Ack Fixed 0xFFFFFFFB NotTrusted Unencoded UDPDeprecated
	{
		Packets Variable
		{ ID U32 }
	}
}
".
Definition ex_templates : list template :=
  [{| t_name := "Ping"; t_freq := Some HIGH; t_num := 1; t_hex := Some [x01];
      t_trust := Some LL_NOTRUST; t_enc := Some LL_UNENCODED; t_dep := Some LL_NOTDEPRECATED;
      t_blocks :=
        [{| tb_name := "PingID"; tb_type := Some MBT_SINGLE; tb_number := 0;
            tb_vars := [{| tv_name := "PingID"; tv_type := Some MVT_U8; tv_size := Some 1 |};
                        {| tv_name := "Name"; tv_type := Some MVT_VARIABLE; tv_size := Some 2 |}] |};
         {| tb_name := "Neighbours"; tb_type := Some MBT_MULTIPLE; tb_number := 4;
            tb_vars := [{| tv_name := "Handle"; tv_type := Some MVT_U64; tv_size := Some 8 |}] |}] |};
   {| t_name := "Ack"; t_freq := Some FIXED; t_num := 251; t_hex := Some [xff; xff; xff; xfb];
      t_trust := Some LL_NOTRUST; t_enc := Some LL_UNENCODED; t_dep := Some LL_UDPDEPRECATED;
      t_blocks :=
        [{| tb_name := "Packets"; tb_type := Some MBT_VARIABLE; tb_number := 0;
            tb_vars := [{| tv_name := "ID"; tv_type := Some MVT_U32; tv_size := Some 4 |}] |}] |}].


(** tactics that only unfold the vocabulary *)
Ltac chr_ok := unfold word_char, letter, figure, hex_figure, figure, blank; cbn; intuition (lia || discriminate).
Ltac all_chr := repeat (constructor; [chr_ok|]); constructor.
Ltac wd := split; [all_chr|discriminate].
Ltac sz := eexists; split; [reflexivity|]; cbn; (reflexivity || (eexists; split; [reflexivity|lia])).
Ltac wvar := split; [wd|sz].
Ltac wblock := split; [wd|split; [repeat (constructor; [wvar|]); constructor|eexists; split; [reflexivity|cbn; (reflexivity || lia)]]].
Ltac wtemplate := split; [wd|split; [repeat (constructor; [wblock|]); constructor|
  repeat (split; [discriminate|]); eexists; repeat (split; [(reflexivity || lia)|]); reflexivity]].
Example C54_writable : Forall2 writable ex_templates [1; 4294967291].
Proof. repeat (constructor; [wtemplate|]). constructor. Qed.
Example C54_fits : Forall2 (number_fits Py27) ex_templates [1; 4294967291].
Proof. repeat constructor; cbn; lia. Qed.
Local Notation b s := (bytes_of_string s%string).
Definition tb2 : bytes := [x09; x09].
Example C54_written : written_as ex_templates [1; 4294967291] ex_file.
Proof.
  set (T := [x09]). set (nl := [x0a]).
  pose (l3 := T ++ b "Ping" ++ [x20] ++ b "High" ++ [x20] ++ [x31] ++ [x20] ++ b "NotTrusted" ++ [x20] ++ b "Unencoded" ++ [] ++ b " // to and fro" ++ nl).
  pose (l4 := T ++ [x7b] ++ [] ++ nl).
  pose (l5 := tb2 ++ b "PingID" ++ [x20] ++ b "Single" ++ [] ++ nl).
  pose (l6 := tb2 ++ [x7b] ++ [x20] ++ b "PingID" ++ [x20] ++ b "U8" ++ [] ++ [x20] ++ [x7d] ++ nl).
  pose (l7 := tb2 ++ [x7b] ++ [x20] ++ b "Name" ++ [x20] ++ b "Variable" ++ ([x20] ++ [x32]) ++ [x20] ++ [x7d] ++ b " // two length bytes" ++ nl).
  pose (l8 := T ++ [x7d] ++ [] ++ nl).
  pose (l10 := tb2 ++ b "Neighbours" ++ [x20] ++ b "Multiple" ++ ([x20] ++ [x34]) ++ nl).
  pose (l11 := tb2 ++ [x7b] ++ [x20] ++ b "Handle" ++ [x20] ++ b "U64" ++ [] ++ [x20] ++ [x7d] ++ nl).
  pose (o := [x7b; x0a]). pose (c := [x7d; x0a]).
  pose (m3 := T ++ b "Ack" ++ [x20] ++ b "Fixed" ++ [x20] ++ b "0xFFFFFFFB" ++ [x20] ++ b "NotTrusted" ++ [x20] ++ b "Unencoded" ++ ([x20] ++ b "UDPDeprecated") ++ nl).
  pose (m5 := tb2 ++ b "Packets" ++ [x20] ++ b "Variable" ++ [] ++ nl).
  pose (m6 := tb2 ++ [x7b] ++ [x20] ++ b "ID" ++ [x20] ++ b "U32" ++ [] ++ [x20] ++ [x7d] ++ nl).
  pose (v := b "version" ++ [x20] ++ [x32] ++ [x2e] ++ [x30] ++ [] ++ nl).
  assert (TN : trailer nl) by (exists [], []; split; [reflexivity|split; [constructor|now left]]).
  assert (PT : pad T) by all_chr. assert (PT2 : pad tb2) by all_chr. assert (P0 : pad []) by constructor.
  assert (P1 : pad [x20]) by all_chr. assert (G1 : gap [x20]) by (split; [exact P1|discriminate]).
  assert (O : open_line l4) by (exists T, []; auto).
  assert (C : close_line l8) by (exists T, []; auto).
  exists v, ([o; l3] ++ List.concat [[l4; l5] ++ [l6; l7] ++ [l8]; [l4; l10] ++ [l11] ++ [l8]] ++ [c]
             ++ [o; m3] ++ List.concat [[l4; m5] ++ [m6] ++ [l8]] ++ [c]),
    ([b "// a template file" ++ nl; v; nl; o; l3; l4; l5; l6; l7; l8; l4; l10; l11; l8; c; b "// the last one" ++ nl;
      o; m3; l4; m5; m6; l8; c]).
  split; [|split; [|split]].
  - exists [x32], [x30], []. repeat split; try discriminate; try all_chr.
  - change ([o; l3] ++ List.concat [[l4; l5] ++ [l6; l7] ++ [l8]; [l4; l10] ++ [l11] ++ [l8]] ++ [c]
             ++ [o; m3] ++ List.concat [[l4; m5] ++ [m6] ++ [l8]] ++ [c])
     with (([o; l3] ++ List.concat [[l4; l5] ++ [l6; l7] ++ [l8]; [l4; l10] ++ [l11] ++ [l8]] ++ [c])
             ++ ([o; m3] ++ List.concat [[l4; m5] ++ [m6] ++ [l8]] ++ [c]) ++ []).
    constructor; [|constructor; [|constructor]].
    + eexists o, l3, _, c. split; [reflexivity|]. split; [exists [], []; auto|]. split; [|split; [|exists [], []; auto]].
      * exists HIGH, LL_NOTRUST, LL_UNENCODED, LL_NOTDEPRECATED, [x31], T, [x20], [x20], [x20], [x20], [], (b " // to and fro" ++ nl).
        repeat (split; [(reflexivity || assumption ||
           (left; split; [repeat split; [all_chr|discriminate]|right; discriminate]) ||
           (left; split; reflexivity) || idtac)|]); [|reflexivity].
        exists [x20], (b "// to and fro"). split; [reflexivity|]. split; [exact P1|]. right.
        exists (b " to and fro"). split; [reflexivity|]. unfold one_line, no_braces. cbn. intuition discriminate.
      * constructor; [|constructor; [|constructor]].
        -- exists l4, l5, [l6; l7], l8. split; [reflexivity|]. split; [exact O|]. split; [|split; [|exact C]].
           ++ exists MBT_SINGLE, tb2, [x20], [], nl. auto 8.
           ++ constructor; [|constructor; [|constructor]].
              ** exists MVT_U8, tb2, [x20], [x20], [], [x20], nl. auto 10.
              ** exists MVT_VARIABLE, tb2, [x20], [x20], ([x20] ++ [x32]), [x20], (b " // two length bytes" ++ nl).
                 repeat (split; [(reflexivity || assumption || idtac)|]); [| |reflexivity].
                 --- exists [x20], (b "// two length bytes"). split; [reflexivity|]. split; [exact P1|]. right.
                     exists (b " two length bytes"). split; [reflexivity|]. unfold one_line, no_braces. cbn. intuition discriminate.
                 --- exists [x20], [x32], 2. split; [exact G1|]. split; [reflexivity|]. split; [|reflexivity].
                     split; [all_chr|split; [discriminate|reflexivity]].
        -- exists l4, l10, [l11], l8. split; [reflexivity|]. split; [exact O|]. split; [|split; [|exact C]].
           ++ exists MBT_MULTIPLE, tb2, [x20], ([x20] ++ [x34]), nl.
              repeat (split; [(reflexivity || assumption || idtac)|]); [|reflexivity].
              exists [x20], [x34]. split; [exact G1|]. split; [|reflexivity]. split; [all_chr|split; [discriminate|reflexivity]].
           ++ constructor; [|constructor]. exists MVT_U64, tb2, [x20], [x20], [], [x20], nl. auto 10.
    + eexists o, m3, _, c. split; [reflexivity|]. split; [exists [], []; auto|]. split; [|split; [|exists [], []; auto]].
      * exists FIXED, LL_NOTRUST, LL_UNENCODED, LL_UDPDEPRECATED, (b "0xFFFFFFFB"), T, [x20], [x20], [x20], [x20],
          ([x20] ++ b "UDPDeprecated"), nl.
        repeat (split; [(reflexivity || assumption || idtac)|]); [| |reflexivity].
        -- right. exists (b "FFFFFFFB"). split; [reflexivity|]. split; [all_chr|]. split; [discriminate|reflexivity].
        -- right. exists [x20]. auto.
      * constructor; [|constructor]. exists l4, m5, [m6], l8. split; [reflexivity|]. split; [exact O|]. split; [|split; [|exact C]].
        -- exists MBT_VARIABLE, tb2, [x20], [], nl. auto 8.
        -- constructor; [|constructor]. exists MVT_U32, tb2, [x20], [x20], [], [x20], nl. auto 10.
  - apply wv_noise; [left; exists [], (b " a template file"); repeat split; [constructor|unfold one_line; cbn; intuition discriminate]|].
    apply wv_line, wv_noise; [right; exists []; auto|]. do 12 apply wv_line.
    apply wv_noise; [left; exists [], (b " the last one"); repeat split; [constructor|unfold one_line; cbn; intuition discriminate]|].
    do 7 apply wv_line. apply wv_nil.
  - reflexivity.
Qed.
Example C54_file_parsed : parse_template_file Py27 ex_file = Ok ex_templates.
Proof. exact (C54_round_trip Py27 _ _ _ C54_writable C54_fits C54_written). Qed.

(** The limits of the language: a comment behind a closing brace is not skipped;
    two words of it are taken for a block of its own. *)
Definition ex_close_comment : bytes := bytes_of_string "version 2.0
{
	Ping High 1 NotTrusted Unencoded
	{
		PingID Single
		{ PingID U8 }
	} // no more
}
".
Example C54_close_comment_adds_block : exists t b1 b2,
  parse_template_file Py27 ex_close_comment = Ok [t] /\ t_blocks t = [b1; b2] /\
  tb_name b1 = "PingID"%string /\ tb_name b2 = "no"%string /\ tb_type b2 = None.
Proof. eexists _, _, _. vm_compute. repeat split. Qed.
(** and a Low number above 255 cannot be read under Python 2.7 *)
Definition ex_low_256 : bytes := bytes_of_string "version 2.0
{
	Ping Low 256 NotTrusted Unencoded
}
".
Example C54_low_256 : parse_template_file Py27 ex_low_256 = Err StructError.
Proof. vm_compute. reflexivity. Qed.
