(** What templates and messages say about themselves: the getters and *_as_string
    methods of message/template.py and msgtypes.py, get_all_types of
    template_parser.py, get_template_list of template_dict.py; and
    message/factory.py.  For messages see Printing.v. *)
From Verif Require Export TemplateDict Helpers Printing.

(** ** Templates *)

(** List indexing with an enumeration value; indexing with None is a TypeError. *)
Definition name_of {A} (names : A -> string) (x : option A) : res string :=
  match x with Some a => Ok (names a) | None => Err TypeErr end.

(** msgtypes.py:112-118, MVT_as_string *)
Definition mvt_name (t : mvt) : string :=
  match t with
  | MVT_FIXED => "MVT_FIXED" | MVT_VARIABLE => "MVT_VARIABLE"
  | MVT_U8 => "MVT_U8" | MVT_U16 => "MVT_U16" | MVT_U32 => "MVT_U32" | MVT_U64 => "MVT_U64"
  | MVT_S8 => "MVT_S8" | MVT_S16 => "MVT_S16" | MVT_S32 => "MVT_S32" | MVT_S64 => "MVT_S64"
  | MVT_F32 => "MVT_F32" | MVT_F64 => "MVT_F64"
  | MVT_LLVector3 => "MVT_LLVector3" | MVT_LLVector3d => "MVT_LLVector3d"
  | MVT_LLVector4 => "MVT_LLVector4" | MVT_LLQuaternion => "MVT_LLQuaternion"
  | MVT_LLUUID => "MVT_LLUUID" | MVT_BOOL => "MVT_BOOL"
  | MVT_IP_ADDR => "MVT_IP_ADDR" | MVT_IP_PORT => "MVT_IP_PORT"
  end.
Definition MVT_as_string (t : option mvt) : res string := name_of mvt_name t.

(** msgtypes.py:42-47, MBT_as_string: None has a name too *)
Definition MBT_as_string (t : option mbt) : string :=
  match t with
  | None => "None"
  | Some MBT_SINGLE => "Single"
  | Some MBT_MULTIPLE => "Multiple"
  | Some MBT_VARIABLE => "Variable"
  end.

(** template.py:126-127 and 89-90, get_type_as_string, get_var_type_as_string *)
Definition type_as_string (v : tvar) : res string := MVT_as_string (tv_type v).
Definition var_type_as_string (v : var) : res string := MVT_as_string (v_type v).
(** template.py:156-157, get_block_type_as_string *)
Definition block_type_as_string (b : tblock) : string := MBT_as_string (tb_type b).

(** template.py:163 and 198-199, get_frequency_as_string: a dict *)
Definition frequency_as_string (t : template) : res string :=
  match t_freq t with
  | Some FIXED => Ok "fixed"%string
  | Some HIGH => Ok "high"%string
  | Some MEDIUM => Ok "medium"%string
  | Some LOW => Ok "low"%string
  | None => Err KeyErr
  end.

(** template.py:166 and 210-211, get_message_trust_as_string *)
Definition trust_as_string (t : template) : res string :=
  name_of (fun x => match x with LL_TRUSTED => "Trusted" | LL_NOTRUST => "NotTrusted" end)%string (t_trust t).
(** template.py:165 and 216-217, get_message_encoding_as_string *)
Definition encoding_as_string (t : template) : res string :=
  name_of (fun x => match x with LL_UNENCODED => "Unencoded" | LL_ZEROCODED => "Zerocoded" end)%string (t_enc t).
(** template.py:164 and 222-223, get_deprecation_as_string *)
Definition deprecation_as_string (t : template) : res string :=
  name_of (fun x => match x with
                    | LL_DEPRECATED => "Deprecated" | LL_UDPDEPRECATED => "UDPDeprecated"
                    | LL_UDPBLACKLISTED => "UDPBlackListed" | LL_NOTDEPRECATED => "NotDeprecated"
                    end)%string (t_dep t).

(** template.py:204-205, get_message_hex_num: iterating None is a TypeError *)
Definition message_hex_num (t : template) : res bytes :=
  match t_hex t with
  | Some h => Ok (flat_map hex2 h)
  | None => Err TypeErr
  end.

(** template.py:182-184 with 189-190: block_map, and get_block *)
Definition block_map (t : template) : list (string * tblock) :=
  fold_left (fun m b => sset (tb_name b) b m) (t_blocks t) [].
Definition template_get_block (t : template) (name : string) : res tblock :=
  match sget name (block_map t) with Some b => Ok b | None => Err KeyErr end.
(** template.py:140-142 with 147-148: variable_map, and get_variable *)
Definition variable_map (b : tblock) : list (string * tvar) :=
  fold_left (fun m v => sset (tv_name v) v m) (tb_vars b) [].
Definition block_get_variable (b : tblock) (name : string) : res tvar :=
  match sget name (variable_map b) with Some v => Ok v | None => Err KeyErr end.

(** set.add for strings, as a list without repetitions *)
Definition set_add (s : string) (l : list string) : list string :=
  if existsb (String.eqb s) l then l else l ++ [s].

Fixpoint insert_sorted (s : string) (l : list string) : list string :=
  match l with
  | [] => [s]
  | a :: l' => if String.leb s a then s :: l else a :: insert_sorted s l'
  end.
(** list.sort() on byte strings *)
Definition sort_strings (l : list string) : list string := fold_right insert_sorted [] l.

(** template_parser.py:296-305, get_all_types *)
Definition all_variables (ts : list template) : list tvar :=
  flat_map (fun t => flat_map tb_vars (t_blocks t)) ts.
Fixpoint type_set (vs : list tvar) (acc : list string) : res (list string) :=
  match vs with
  | [] => Ok acc
  | v :: vs' => do s <- type_as_string v; type_set vs' (set_add s acc)
  end.
Definition get_all_types (ts : list template) : res (list string) :=
  do l <- type_set (all_variables ts) [];
  Ok (sort_strings l).

(** template_dict.py:30-57, get_template_list: the attribute template_list is
    only set when the constructor was given no list ([given] = false). *)
Definition get_template_list (given : bool) (ts : list template) : res (list string) :=
  if given then Err AttributeErr else Ok (map t_name ts).

(** ** message/factory.py *)

(** A MessageFactory object: the attributes its methods read.  The class has no
    constructor, so none exists at first; [f_list], the attribute template_list,
    exists if the user set it ([Ok None] for a name it maps to None, [Err] for
    one it raises on); [f_current] is current_template (None: no such
    attribute).  The other attributes (current_msg, current_block, ...) are only
    set after a MsgData or MsgBlockData is made. *)
Record factory := { f_list : option (string -> res (option template)); f_current : option (option template) }.
Definition new_factory (l : option (string -> res (option template))) : factory :=
  {| f_list := l; f_current := None |}.

(** factory.py:26-40, new_message: MsgData is not imported (NameError, 35). *)
Definition factory_new_message (f : factory) (name : string) : factory * res unit :=
  match f_list f with
  | None => (f, Err AttributeErr)
  | Some l =>
      match l name with
      | Err e => (f, Err e)
      | Ok t => ({| f_list := f_list f; f_current := Some t |},
                 match t with None => Ok tt | Some _ => Err NameErr end)
      end
  end.

(** factory.py:42-83, next_block: no current_msg ever exists (49). *)
Definition factory_next_block (f : factory) (name : string) : res unit :=
  match f_current f with
  | None => Err AttributeErr
  | Some None => Err AttributeErr
  | Some (Some t) => if dmem String.eqb name (block_map t) then Err AttributeErr else Ok tt
  end.

(** factory.py:85-118, add_data: no current_block ever exists (92). *)
Definition factory_add_data (f : factory) (var_name : string) (data : pyval) (t : option mvt) : res unit :=
  match f_current f with
  | None => Err AttributeErr
  | Some None => Err (MessageBuildingErr "data" "invalid context")
  | Some (Some _) => Err AttributeErr
  end.

(** A call on the factory, and a history of calls with their results. *)
Inductive factory_call :=
| FNew (name : string) | FNext (name : string) | FAdd (var_name : string) (data : pyval) (t : option mvt).
Definition factory_step (f : factory) (c : factory_call) : factory * res unit :=
  match c with
  | FNew n => factory_new_message f n
  | FNext n => (f, factory_next_block f n)
  | FAdd v d t => (f, factory_add_data f v d t)
  end.
Fixpoint factory_run (f : factory) (cs : list factory_call) : list (res unit) :=
  match cs with
  | [] => []
  | c :: cs' => let '(f, r) := factory_step f c in r :: factory_run f cs'
  end.
