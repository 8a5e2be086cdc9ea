(** pyogp/lib/base/message/template_dict.py *)
From Verif Require Export Template.

(** The dictionary: template objects live in a store and the two maps hold
    references (indexes), as in Python, where build_message_ids mutates the
    objects that both maps share.  The frequency strings of lines 64-72
    ("Fixed", "Low", "Medium", "High", '') are [option freq]. *)
Record tdict := {
  td_store : list template;
  td_names : list (string * nat);            (* message_templates *)
  td_pairs : list ((option freq * Z) * nat)  (* message_dict *)
}.

Definition ofreq_eqb (a b : option freq) : bool :=
  match a, b with
  | None, None => true
  | Some x, Some y => freq_eqb x y
  | _, _ => false
  end.
Definition pair_eqb (a b : option freq * Z) : bool :=
  ofreq_eqb (fst a) (fst b) && (snd a =? snd b).

(** template_dict.py:59-75, build_dictionaries *)
Fixpoint build_dictionaries (i : nat) (ts : list template)
  (names : list (string * nat)) (pairs : list ((option freq * Z) * nat))
  : list (string * nat) * list ((option freq * Z) * nat) :=
  match ts with
  | [] => (names, pairs)
  | t :: ts' =>
      build_dictionaries (S i) ts' (sset (t_name t) i names)
                         (dset pair_eqb (t_freq t, t_num t) i pairs)
  end.

Definition set_hex (t : template) (h : bytes) : template :=
  {| t_name := t_name t; t_freq := t_freq t; t_num := t_num t; t_hex := Some h;
     t_trust := t_trust t; t_enc := t_enc t; t_dep := t_dep t; t_blocks := t_blocks t |}.

(** str + x where x may be None *)
Definition need (x : res (option bytes)) : res bytes :=
  match x with
  | Ok (Some b) => Ok b
  | Ok None => Err TypeErr
  | Err e => Err e
  end.

(** template_dict.py:80-99, the body of the loop of build_message_ids *)
Definition with_message_id (pv : pyver) (t : template) : res template :=
  match t_freq t with
  | Some FIXED =>
      do b <- need (pack_data pv (VInt (t_num t)) (Some MVT_U8) None);
      Ok (set_hex t ([xff; xff; xff] ++ b))
  | Some LOW =>
      do b <- need (pack_data pv (VInt (t_num t)) (Some MVT_U16) (Some BE));
      Ok (set_hex t ([xff; xff] ++ b))
  | Some MEDIUM =>
      do b <- need (pack_data pv (VInt (t_num t)) (Some MVT_U8) (Some BE));
      Ok (set_hex t ([xff] ++ b))
  | Some HIGH =>
      do b <- need (pack_data pv (VInt (t_num t)) (Some MVT_U8) (Some BE));
      Ok (set_hex t b)
  | None => Ok t
  end.

Fixpoint update_nth {A} (n : nat) (x : A) (l : list A) : list A :=
  match l, n with
  | [], _ => []
  | _ :: l', O => x :: l'
  | a :: l', S n' => a :: update_nth n' x l'
  end.

(** template_dict.py:77-99, build_message_ids: mutates the objects in
    [message_templates].  Simplification: visited in insertion order; every
    possible failure is the same exception, so the order is not observable. *)
Fixpoint build_message_ids (pv : pyver) (names : list (string * nat)) (store : list template)
  : res (list template) :=
  match names with
  | [] => Ok store
  | (_, i) :: names' =>
      match nth_error store i with
      | None => Err IndexErr    (* unreachable: indexes come from the store *)
      | Some t => do t' <- with_message_id pv t;
                  build_message_ids pv names' (update_nth i t' store)
      end
  end.

(** template_dict.py:30-51, TemplateDictionary(template_list) for a given list.
    (Without a list, the constructor parses a template file, builds a nested
    dictionary from the result, which mutates the same objects in the same way,
    and goes on as below; see [Wiring.v].) *)
Definition build_dict (pv : pyver) (ts : list template) : res tdict :=
  let '(names, pairs) := build_dictionaries 0 ts [] [] in
  do store <- build_message_ids pv names ts;
  Ok {| td_store := store; td_names := names; td_pairs := pairs |}.

(** template_dict.py:101-105, get_template *)
Definition get_template (d : tdict) (name : string) : option template :=
  match sget name (td_names d) with
  | Some i => nth_error (td_store d) i
  | None => None
  end.

(** template_dict.py:107-111, get_template_by_pair *)
Definition get_template_by_pair (d : tdict) (f : option freq) (n : Z) : option template :=
  match dget pair_eqb (f, n) (td_pairs d) with
  | Some i => nth_error (td_store d) i
  | None => None
  end.
