(** What can come out of a template file, whatever is in it (C97).  Words,
    characters: SpecTemplateText.v. *)
From Verif Require Export SpecTemplateText SpecCodec PyStruct.

(** How many bytes a value of a type takes on the wire. *)
Definition type_bytes (ty : mvt) : option Z :=
  match ty with
  | MVT_U8 | MVT_S8 | MVT_BOOL => Some 1
  | MVT_U16 | MVT_S16 | MVT_IP_PORT => Some 2
  | MVT_U32 | MVT_S32 | MVT_F32 | MVT_IP_ADDR => Some 4
  | MVT_U64 | MVT_S64 | MVT_F64 => Some 8
  | MVT_LLVector3 | MVT_LLQuaternion => Some (3 * 4)
  | MVT_LLVector4 | MVT_LLUUID => Some 16
  | MVT_LLVector3d => Some (3 * 8)
  | MVT_FIXED | MVT_VARIABLE => None
  end.
(** A named variable of a known type and its size, or of an unknown type and none. *)
Definition sized_var (v : tvar) : Prop :=
  a_word (tv_name v) /\
  match tv_type v with
  | None => tv_size v = None
  | Some ty => exists n, tv_size v = Some n /\ 0 < n /\ (forall k, type_bytes ty = Some k -> n = k)
  end.
(** Only blocks of type Multiple have a count. *)
Definition counted_block (b : tblock) : Prop :=
  a_word (tb_name b) /\ 0 <= tb_number b /\ (tb_type b <> Some MBT_MULTIPLE -> tb_number b = 0) /\
  Forall sized_var (tb_vars b).
(** A named template with a known frequency, and the number the file gives it on
    the wire: of Low, Medium and High numbers only the last byte is kept, which on
    Python 2.7 is the number. *)
Definition numbered_template (pv : pyver) (t : template) : Prop :=
  a_word (t_name t) /\ 0 <= t_num t /\
  (exists h d, t_hex t = Some (h ++ [d]) /\ byte_value d = t_num t mod 256 /\
     (pv = Py27 \/ t_freq t = Some FIXED -> t_num t < 256) /\
     match t_freq t with
     | Some FIXED => zlen h = 3
     | Some LOW => h = [xff; xff]
     | Some MEDIUM => h = [xff]
     | Some HIGH => h = []
     | None => False
     end) /\
  Forall counted_block (t_blocks t).

(** [l'] is [l], each element possibly grown, and possibly more. *)
Inductive grown {A} (grows : A -> A -> Prop) : list A -> list A -> Prop :=
| grown_end more : grown grows [] more
| grown_next a a' l l' : grows a a' -> grown grows l l' -> grown grows (a :: l) (a' :: l').
Definition block_grows (b b' : tblock) : Prop :=
  tb_name b' = tb_name b /\ tb_type b' = tb_type b /\ tb_number b' = tb_number b /\
  grown eq (tb_vars b) (tb_vars b').
Definition template_grows (t t' : template) : Prop :=
  t_name t' = t_name t /\ t_freq t' = t_freq t /\ t_num t' = t_num t /\ t_hex t' = t_hex t /\
  t_trust t' = t_trust t /\ t_enc t' = t_enc t /\ t_dep t' = t_dep t /\
  grown block_grows (t_blocks t) (t_blocks t').

(** The exceptions a template file can make the parser raise. *)
Definition a_parse_error (pv : pyver) (e : exn) : Prop :=
  e = IndexErr \/ e = ValueErr \/ e = UnboundLocalErr \/ e = TypeErr \/ e = NameErr \/ e = AttributeErr \/
  (e = StructError /\ pv = Py27).
