(** pyogp/lib/base/message/template_parser.py *)
From Verif Require Export Template PyRegex.
From Verif Require Import FloatText.

(** template_parser.py:61-67, the regular expressions *)
Definition start_re := seqs [Star is_dot; Cls (is_chr x7b); Star is_dot].
Definition end_re := seqs [Star is_dot; Cls (is_chr x7d); Star is_dot].
Definition block_data_re :=
  seqs [LStar is_dot; Grp 1 (Plus is_word); Plus is_space; Grp 2 (Plus is_word);
        Opt (Grp 3 (Seq (Plus is_space) (Grp 4 (Plus is_digit)))); Star is_dot].
Definition block_header_re := block_data_re.
Definition message_header_re :=
  seqs [LStar is_dot; Grp 1 (Plus is_word); Plus is_space; Grp 2 (Plus is_word);
        Plus is_space; Grp 3 (Plus is_word); Plus is_space; Grp 4 (Plus is_word);
        Plus is_space; Grp 5 (Plus is_word);
        Opt (Grp 6 (Seq (Plus is_space) (Grp 7 (Plus is_word)))); Star is_dot].
Definition version_re := seqs [lit "version"; Cls is_dot; Grp 1 (Plus is_dot)].
Definition comment_re := seqs [Star is_space; lit "//"; Star is_dot; Eol].

(** string.atoi(s, 0) / string.atol(s, 0): base from the prefix (0x, 0o, 0b, a
    leading 0 for octal, else decimal); ValueError on a bad digit. *)
Definition digit_val (base : Z) (b : byte) : option Z :=
  let z := ord b in
  let d := if is_digit b then z - 48
           else if (97 <=? z) && (z <=? 122) then z - 87
           else if (65 <=? z) && (z <=? 90) then z - 55
           else 99 in
  if d <? base then Some d else None.
Fixpoint digits (base acc : Z) (s : bytes) : option Z :=
  match s with
  | [] => Some acc
  | b :: s' => match digit_val base b with
               | Some d => digits base (base * acc + d) s'
               | None => None
               end
  end.
Definition parse_base (base : Z) (s : bytes) : res Z :=
  match s with
  | [] => Err ValueErr
  | _ => match digits base 0 s with Some z => Ok z | None => Err ValueErr end
  end.
Definition atoi0 (s : bytes) : res Z :=
  match s with
  | x30 :: x78 :: r | x30 :: x58 :: r => parse_base 16 r
  | x30 :: x6f :: r | x30 :: x4f :: r => parse_base 8 r
  | x30 :: x62 :: r | x30 :: x42 :: r => parse_base 2 r
  | x30 :: [] => Ok 0
  | x30 :: r => parse_base 8 r
  | _ => parse_base 10 s
  end.

Definition str_eq (s : bytes) (t : string) : bool :=
  String.eqb (string_of_list_byte s) t.

(** a group that always participates in the match *)
Definition grp (n : nat) (cs : caps) : bytes :=
  match group n cs with Some s => s | None => [] end.

(** template_parser.py:120-128 *)
Definition parse_freq (s : bytes) : option freq :=
  if str_eq s "Low" then Some LOW
  else if str_eq s "Medium" then Some MEDIUM
  else if str_eq s "High" then Some HIGH
  else if str_eq s "Fixed" then Some FIXED
  else None.

(** template_parser.py:132-146: the message number and msg_num_hex (unbound if
    the frequency is unknown). *)
Definition parse_num (pv : pyver) (f : option freq) (s : bytes) : res (Z * bytes) :=
  do n <- atoi0 s;
  match f with
  | Some FIXED =>
      do b <- pack_int pv BE false 4 n;
      do b3 <- pyindex b 3;
      do v <- unpack_int BE true 2 [x00; b3];
      Ok (v, b)
  | Some LOW => do b <- pack_int pv BE false 1 n; Ok (n, [xff; xff] ++ b)
  | Some MEDIUM => do b <- pack_int pv BE false 1 n; Ok (n, [xff] ++ b)
  | Some HIGH => do b <- pack_int pv BE false 1 n; Ok (n, b)
  | None => Err UnboundLocalErr
  end.

(** template_parser.py:148-152 *)
Definition parse_trust (s : bytes) : option trust :=
  if str_eq s "Trusted" then Some LL_TRUSTED
  else if str_eq s "NotTrusted" then Some LL_NOTRUST else None.
(** template_parser.py:156-160 *)
Definition parse_enc (s : bytes) : option encoding :=
  if str_eq s "Unencoded" then Some LL_UNENCODED
  else if str_eq s "Zerocoded" then Some LL_ZEROCODED else None.
(** template_parser.py:164-175 *)
Definition parse_dep (s : option bytes) : option deprecation :=
  match s with
  | None => Some LL_NOTDEPRECATED
  | Some s =>
      if str_eq s "Deprecated" then Some LL_DEPRECATED
      else if str_eq s "UDPDeprecated" then Some LL_UDPDEPRECATED
      else if str_eq s "UDPBlackListed" then Some LL_UDPBLACKLISTED
      else if str_eq s "NotDeprecated" then Some LL_NOTDEPRECATED
      else None
  end.

(** template_parser.py:116-180, _start_new_template *)
Definition start_new_template (pv : pyver) (cs : caps) : res template :=
  let f := parse_freq (grp 2 cs) in
  do (n, hex) <- parse_num pv f (grp 3 cs);
  Ok {| t_name := string_of_list_byte (grp 1 cs); t_freq := f; t_num := n; t_hex := Some hex;
        t_trust := parse_trust (grp 4 cs); t_enc := parse_enc (grp 5 cs);
        t_dep := parse_dep (group 7 cs); t_blocks := [] |}.

(** int(match.group(4)): TypeError when the group did not participate *)
Definition int_group4 (cs : caps) : res Z :=
  match group 4 cs with
  | None => Err TypeErr
  | Some s => parse_base 10 s
  end.

(** template_parser.py:182-201, _start_new_block *)
Definition start_new_block (cs : caps) : res tblock :=
  let ty := grp 2 cs in
  do (bt, n) <-
    (if str_eq ty "Single" then Ok (Some MBT_SINGLE, 0)
     else if str_eq ty "Multiple" then do n <- int_group4 cs; Ok (Some MBT_MULTIPLE, n)
     else if str_eq ty "Variable" then Ok (Some MBT_VARIABLE, 0)
     else Ok (None, 0));
  Ok {| tb_name := string_of_list_byte (grp 1 cs); tb_type := bt; tb_number := n; tb_vars := [] |}.

(** template_parser.py:208-248: the type names *)
Definition parse_mvt (s : bytes) : option mvt :=
  if str_eq s "U8" then Some MVT_U8
  else if str_eq s "U16" then Some MVT_U16
  else if str_eq s "U32" then Some MVT_U32
  else if str_eq s "U64" then Some MVT_U64
  else if str_eq s "S8" then Some MVT_S8
  else if str_eq s "S16" then Some MVT_S16
  else if str_eq s "S32" then Some MVT_S32
  else if str_eq s "S64" then Some MVT_S64
  else if str_eq s "F32" then Some MVT_F32
  else if str_eq s "F64" then Some MVT_F64
  else if str_eq s "LLVector3" then Some MVT_LLVector3
  else if str_eq s "LLVector3d" then Some MVT_LLVector3d
  else if str_eq s "LLVector4" then Some MVT_LLVector4
  else if str_eq s "LLQuaternion" then Some MVT_LLQuaternion
  else if str_eq s "LLUUID" then Some MVT_LLUUID
  else if str_eq s "BOOL" then Some MVT_BOOL
  else if str_eq s "IPADDR" then Some MVT_IP_ADDR
  else if str_eq s "IPPORT" then Some MVT_IP_PORT
  else if str_eq s "Fixed" then Some MVT_FIXED
  else if str_eq s "Variable" then Some MVT_VARIABLE
  else None.

(** template_parser.py:203-261, _start_new_var ([exc] is not imported: line 252
    is a NameError) *)
Definition start_new_var (cs : caps) : res tvar :=
  let ty := parse_mvt (grp 2 cs) in
  do size <-
    match ty with
    | Some MVT_FIXED | Some MVT_VARIABLE =>
        do n <- int_group4 cs;
        if n <=? 0 then Err NameErr else Ok (Some n)
    | _ => Ok (sizeof ty)
    end;
  Ok {| tv_name := string_of_list_byte (grp 1 cs); tv_type := ty; tv_size := size |}.

(** Parser state: [ps_block] is the position (template, block) of
    [current_block], which may belong to an earlier template; [current_template]
    is always the last one added. *)
Record pstate := {
  ps_templates : list template;
  ps_version : option pyfloat;      (* None is the initial '' *)
  ps_state : Z;
  ps_block : option (nat * nat) }.

Definition ps_init : pstate :=
  {| ps_templates := []; ps_version := None; ps_state := 0; ps_block := None |}.

Definition set_tblocks (t : template) (l : list tblock) : template :=
  {| t_name := t_name t; t_freq := t_freq t; t_num := t_num t; t_hex := t_hex t;
     t_trust := t_trust t; t_enc := t_enc t; t_dep := t_dep t; t_blocks := l |}.
Definition set_tvars (b : tblock) (l : list tvar) : tblock :=
  {| tb_name := tb_name b; tb_type := tb_type b; tb_number := tb_number b; tb_vars := l |}.
Fixpoint upd {A} (n : nat) (f : A -> A) (l : list A) : list A :=
  match l, n with
  | [], _ => []
  | a :: l', O => f a :: l'
  | a :: l', S n' => a :: upd n' f l'
  end.

(** s.split()[0] *)
Fixpoint take_word (s : bytes) : bytes :=
  match s with [] => [] | b :: s' => if is_space b then [] else b :: take_word s' end.
Fixpoint skip_space (s : bytes) : bytes :=
  match s with [] => [] | b :: s' => if is_space b then skip_space s' else s end.

(** template_parser.py:84-89 *)
Definition parse_version (st : pstate) (line : bytes) : res pstate :=
  match ps_version st with
  | Some _ => Ok st
  | None =>
      match re_match version_re line with
      | None => Ok st
      | Some cs =>
          match take_word (skip_space (grp 1 cs)) with
          | [] => Err IndexErr
          | w => do f <- float_of_text w;
                 Ok {| ps_templates := ps_templates st; ps_version := Some f;
                       ps_state := ps_state st; ps_block := ps_block st |}
          end
      end
  end.

Definition bump (st : pstate) (d : Z) : pstate :=
  {| ps_templates := ps_templates st; ps_version := ps_version st;
     ps_state := ps_state st + d; ps_block := ps_block st |}.

(** template_parser.py:95-99 *)
Definition parse_message_line (pv : pyver) (st : pstate) (line : bytes) : res pstate :=
  match re_match message_header_re line with
  | None => Ok st
  | Some cs =>
      do t <- start_new_template pv cs;
      Ok {| ps_templates := ps_templates st ++ [t]; ps_version := ps_version st;
            ps_state := ps_state st; ps_block := ps_block st |}
  end.

(** template_parser.py:101-105 (None has no method add_block) *)
Definition parse_block_line (st : pstate) (line : bytes) : res pstate :=
  match re_match block_header_re line with
  | None => Ok st
  | Some cs =>
      do b <- start_new_block cs;
      match ps_templates st with
      | [] => Err AttributeErr
      | _ =>
          let i := Nat.pred (List.length (ps_templates st)) in
          let j := match nth_error (ps_templates st) i with
                   | Some t => List.length (t_blocks t) | None => O end in
          Ok {| ps_templates := upd i (fun t => set_tblocks t (t_blocks t ++ [b])) (ps_templates st);
                ps_version := ps_version st; ps_state := ps_state st; ps_block := Some (i, j) |}
      end
  end.

(** template_parser.py:107-110: the argument is evaluated after
    [current_block.add_variable], so a missing block fails first. *)
Definition parse_data_line (st : pstate) (line : bytes) : res pstate :=
  match re_match block_data_re line with
  | None => Ok st
  | Some cs =>
      match ps_block st with
      | None => Err AttributeErr
      | Some (i, j) =>
          do v <- start_new_var cs;
          Ok {| ps_templates :=
                  upd i (fun t => set_tblocks t
                           (upd j (fun b => set_tvars b (tb_vars b ++ [v])) (t_blocks t)))
                      (ps_templates st);
                ps_version := ps_version st; ps_state := ps_state st; ps_block := ps_block st |}
      end
  end.

Definition isSome {A} (x : option A) : bool := match x with Some _ => true | None => false end.

(** template_parser.py:73-113, one line of the file. *)
Definition parse_line (pv : pyver) (st : pstate) (line : bytes) : res pstate :=
  if isSome (re_match comment_re line) then Ok st else
  let start := isSome (re_match start_re line) in
  let end_ := isSome (re_match end_re line) in
  do st <- parse_version st line;
  let st := if start then bump st 1 else st in
  do st <- (if ps_state st =? 1 then parse_message_line pv st line else Ok st);
  do st <- (if ps_state st =? 2 then parse_block_line st line else Ok st);
  do st <- (if ps_state st =? 3 then parse_data_line st line else Ok st);
  Ok (if end_ then bump st (-1) else st).

Fixpoint parse_lines (pv : pyver) (st : pstate) (lines : list bytes) : res pstate :=
  match lines with
  | [] => Ok st
  | l :: lines' => do st <- parse_line pv st l; parse_lines pv st lines'
  end.

(** Iterating over a file: its lines, each with its newline (the last one may
    lack it). *)
Fixpoint split_lines (cur : bytes) (s : bytes) : list bytes :=
  match s with
  | [] => match cur with [] => [] | _ => [rev cur] end
  | b :: s' => if Byte.eqb b x0a then rev (b :: cur) :: split_lines [] s'
               else split_lines (b :: cur) s'
  end.

(** template_parser.py:40-113, MessageTemplateParser(file).message_templates *)
Definition parse_template_file (pv : pyver) (text : bytes) : res (list template) :=
  res_map ps_templates (parse_lines pv ps_init (split_lines [] text)).
