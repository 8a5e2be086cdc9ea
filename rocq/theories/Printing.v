(** Printing a message: Message.data, str(), repr() and "%s" (message/message.py,
    MsgVariableData in message/template.py).
    Names of messages, blocks and variables are byte strings. *)
From Coq Require Import DecimalString.
From Verif Require Export Template.

(** ** Python 2 texts *)

(** A str or a unicode object (as code points). *)
Inductive ptext := TStr (s : bytes) | TUni (u : list Z).
Definition is_ascii (u : list Z) : bool := forallb (fun c => c <? 128) u.
Definition codes (s : bytes) : list Z := map ord s.

(** s + t: if one of them is unicode the other is decoded as ASCII;
    UnicodeDecodeError is a ValueError. *)
Definition join (a b : ptext) : res ptext :=
  match a, b with
  | TStr s, TStr t => Ok (TStr (s ++ t))
  | TUni u, TUni v => Ok (TUni (u ++ v))
  | TStr s, TUni v => if is_ascii (codes s) then Ok (TUni (codes s ++ v)) else Err ValueErr
  | TUni u, TStr t => if is_ascii (codes t) then Ok (TUni (u ++ codes t)) else Err ValueErr
  end.

(** ** Variables *)

(** str(n) for an int *)
Definition dec_text (z : Z) : bytes := bytes_of_string (NilZero.string_of_int (Z.to_int z)).

(** struct.unpack('h'*(len(data)/2), data): native order, that is little-endian
    on every platform the project ran on *)
Fixpoint shorts (s : bytes) : list Z :=
  match s with
  | a :: b :: s' => to_signed 2 (le_val [a; b]) :: shorts s'
  | _ => []
  end.
(** str() of a tuple of ints *)
Definition tuple_text (l : list Z) : bytes :=
  match l with
  | [z] => [x28] ++ dec_text z ++ [x2c; x29]
  | _ => [x28] ++ List.concat (match l with [] => [] | z :: l' => dec_text z :: map (fun z => [x2c; x20] ++ dec_text z) l' end)
         ++ [x29]
  end.
(** template.py:96: str(struct.unpack('h'*(len(data)/2), data)) *)
Definition fixed_text (s : bytes) : res ptext :=
  if Nat.even (List.length s) then Ok (TStr (tuple_text (shorts s))) else Err StructError.

(** template.py:92-107, get_data_as_string, __str__.  For MVT_VARIABLE the data
    itself, which must then be a string.  For MVT_FIXED len(), then
    struct.unpack, to which a unicode object is its ASCII encoding and anything
    but a string an error.  Otherwise str() (UnicodeEncodeError, a ValueError,
    on a unicode object that is not ASCII); [show] is str() of a value that is
    no text. *)
Definition var_text (show : pyval -> bytes) (v : var) : res ptext :=
  match v_type v with
  | Some MVT_VARIABLE =>
      match v_data v with VStr s => Ok (TStr s) | VUni u => Ok (TUni u) | _ => Err TypeErr end
  | Some MVT_FIXED =>
      match v_data v with
      | VStr s => fixed_text s
      | VUni u => if is_ascii u then fixed_text (utf8 u) else Err StructError
      | VTuple _ => Err StructError
      | _ => Err TypeErr
      end
  | _ =>
      match v_data v with
      | VStr s => Ok (TStr s)
      | VUni u => if is_ascii u then Ok (TStr (utf8 u)) else Err ValueErr
      | d => Ok (TStr (show d))
      end
  end.

(** ** Messages *)

Definition delim : bytes := bytes_of_string "    ".
(** message.py:191-198: string += "%s%s%s:%s%s\n" % (delim, delim, zvar.name,
    delim, zvar).  The arguments are turned into strings first, then put
    together, then added. *)
Fixpoint add_vars (show : pyval -> bytes) (b : block) (names : list string) (string : ptext) : res ptext :=
  match names with
  | [] => Ok string
  | n :: names' =>
      do v <- get_variable b n;
      do s <- var_text show v;
      do line <- join (TStr (delim ++ delim ++ bytes_of_string n ++ [x3a] ++ delim)) s;
      do line <- join line (TStr [x0a]);
      do string <- join string line;
      add_vars show b names' string
  end.
(** message.py:189-198 *)
Fixpoint add_instances (show : pyval -> bytes) (l : list block) (string : ptext) : res ptext :=
  match l with
  | [] => Ok string
  | b :: l' => do string <- add_vars show b (b_list b) string; add_instances show l' string
  end.
(** message.py:187-198 *)
Fixpoint add_blocks (show : pyval -> bytes) (d : blockdict) (string : ptext) : res ptext :=
  match d with
  | [] => Ok string
  | (name, l) :: d' =>
      do string <- join string (TStr (delim ++ bytes_of_string "Block Name:" ++ delim ++ bytes_of_string name ++ [x0a]));
      do string <- add_instances show l string;
      add_blocks show d' string
  end.
(** message.py:175-200, Message.data.  [name_first] tells in which order the two
    attributes come in the iteration of __dict__ (181). *)
Definition data_text (show : pyval -> bytes) (name_first : bool) (m : message) : res ptext :=
  let name := TStr ([x0a] ++ bytes_of_string "Name: " ++ bytes_of_string (m_name m) ++ [x0a]) in
  if name_first then do string <- join (TStr []) name; add_blocks show (m_blocks m) string
  else do string <- add_blocks show (m_blocks m) (TStr []); join string name.

(** message.py:202-205, __repr__, through repr() or str(): a unicode result is
    encoded as ASCII (UnicodeEncodeError is a ValueError). *)
Definition repr_text (show : pyval -> bytes) (name_first : bool) (m : message) : res bytes :=
  do t <- data_text show name_first m;
  match t with
  | TStr s => Ok s
  | TUni u => if is_ascii u then Ok (utf8 u) else Err ValueErr
  end.

(** Does "%s" % message raise?  There the unicode text is used as it is.  Values
    that are no text print as ASCII, so that it does not matter how (C73); in
    CPython's dictionaries (without -R) "name" comes before "blocks" in the
    attributes of a Message. *)
Definition msg_str_error (m : message) : option exn :=
  match data_text (fun _ => []) true m with Ok _ => None | Err e => Some e end.
