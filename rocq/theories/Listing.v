(** The listing that message/template_parser.py prints when run as a program.
    What is printed is collected as bytes; next to it, the exception that ended
    the printing, if any. *)
From Verif Require Export Describe TemplateParser.
Open Scope Z_scope.
Open Scope list_scope.

Definition printed : Type := bytes * option exn.
Definition prints (s : bytes) : printed := (s ++ [x0a], None).
Definition raises (e : exn) : printed := ([], Some e).
Definition then_print (a : printed) (b : printed) : printed :=
  match snd a with None => (fst a ++ fst b, snd b) | Some e => a end.
(** Printing what an expression gives, if it gives something. *)
Definition print_res (r : res bytes) : printed := match r with Ok s => prints s | Err e => raises e end.
(** A for loop whose body prints. *)
Fixpoint for_each {A} (body : A -> printed) (l : list A) : printed :=
  match l with [] => ([], None) | x :: l' => then_print (body x) (for_each body l') end.
Notation txt := bytes_of_string.

(** template_parser.py:269, 274, 282: eighty-one equals signs *)
Definition rule : bytes := txt "=================================================================================".

(** template_parser.py:265-279, print_packet_names.  [order]: in which order the
    dict frequency_counter is iterated. *)
Fixpoint names_loop (counter : Z) (counts : list (string * Z)) (ts : list template) : printed * list (string * Z) :=
  match ts with
  | [] => (([], None), counts)
  | t :: ts' =>
      let counter := counter + 1 in
      match frequency_as_string t with
      | Err e => (then_print (prints rule) (raises e), counts)
      | Ok f =>
          match sget f counts with
          | None => (then_print (prints rule) (raises KeyErr), counts)
          | Some n =>
              let '(rest, counts') := names_loop counter (sset f (n + 1) counts) ts' in
              (then_print (prints rule)
                (then_print (prints (dec_text counter ++ [x20] ++ txt (t_name t) ++ [x20] ++ txt f))
                  (then_print (prints rule) rest)), counts')
          end
      end
  end.
Definition print_packet_names (order : list string) (ts : list template) : printed :=
  let '(p, counts) := names_loop 0 [("low"%string, 0); ("medium"%string, 0); ("high"%string, 0); ("fixed"%string, 0)] ts in
  then_print p (then_print (prints [])
    (then_print (for_each (fun k => print_res (match sget k counts with
                                               | Some n => Ok (txt k ++ [x20] ++ dec_text n)
                                               | None => Err KeyErr
                                               end)) order)
      (prints []))).

(** str.ljust *)
Definition ljust (n : Z) (s : bytes) : bytes := s ++ repeat x20 (Z.to_nat (n - zlen s)).
(** template_parser.py:281-294, print_packet_list *)
Definition print_variable (v : tvar) : printed :=
  print_res (do k <- type_as_string v; Ok ([x09; x09] ++ ljust 20 (txt (tv_name v)) ++ [x09] ++ txt k)).
Definition print_block (b : tblock) : printed :=
  then_print (prints ([x09] ++ txt (tb_name b) ++ [x20] ++ txt (block_type_as_string b) ++ [x20] ++ dec_text (tb_number b)))
    (for_each print_variable (tb_vars b)).
Definition print_packet (t : template) : printed :=
  then_print (prints rule)
    (then_print
      (print_res (do f <- frequency_as_string t; do h <- message_hex_num t; do tr <- trust_as_string t;
                  do en <- encoding_as_string t; do de <- deprecation_as_string t;
                  Ok (txt (t_name t) ++ [x20] ++ txt f ++ [x20] ++ dec_text (t_num t) ++ [x20] ++ h ++ [x20] ++ txt tr ++
                      [x20] ++ txt en ++ [x20] ++ txt de)))
      (for_each print_block (t_blocks t))).
Definition print_packet_list (ts : list template) : printed := for_each print_packet ts.

(** pprint.pprint of a list of strings (the standard library's; width 80): on one
    line if it fits, else one string a line.  The strings here are names of types,
    whose repr() is the name in single quotes. *)
Definition quoted (s : string) : bytes := [x27] ++ txt s ++ [x27].
Fixpoint joined_by (sep : bytes) (l : list bytes) : bytes :=
  match l with [] => [] | [x] => x | x :: l' => x ++ sep ++ joined_by sep l' end.
Definition pprint_strings (l : list string) : printed :=
  let rep sep := [x5b] ++ joined_by sep (map quoted l) ++ [x5d] in
  prints (if 79 <? zlen (rep [x2c; x20]) then rep [x2c; x0a; x20] else rep [x2c; x20]).

(** template_parser.py:307-317, main, run on the file contents [text] *)
Definition main (pv : pyver) (text : bytes) (order : list string) : printed :=
  match parse_template_file pv text with
  | Err e => raises e
  | Ok ts =>
      then_print (print_packet_names order ts)
        (then_print (print_packet_list ts)
          (match get_all_types ts with Ok l => pprint_strings l | Err e => raises e end))
  end.
