(** Vocabulary for the statements about template files (C53, C54). *)
From Verif Require Export Template SpecWire.

(** ** Unambiguous, codable templates *)
(** A variable of a known type: Variable with a length of 1 or 2 bytes, Fixed with
    a positive size, or a type with a size of its own. *)
Definition proper_variable (v : tvar) : Prop :=
  exists ty, tv_type v = Some ty /\
    match ty with
    | MVT_VARIABLE => tv_size v = Some 1 \/ tv_size v = Some 2
    | MVT_FIXED => exists n, tv_size v = Some n /\ 1 <= n
    | _ => tv_size v = Some (sizeof_mvt ty)
    end.
Definition proper_block (b : tblock) : Prop :=
  (tb_type b = Some MBT_SINGLE \/ (tb_type b = Some MBT_MULTIPLE /\ 1 <= tb_number b) \/ tb_type b = Some MBT_VARIABLE) /\
  Forall proper_variable (tb_vars b) /\ NoDup (map tv_name (tb_vars b)).
Definition proper_template (t : template) : Prop :=
  (exists f, t_freq t = Some f /\ codable f (t_num t)) /\
  t_trust t <> None /\ t_enc t <> None /\ t_dep t <> None /\
  Forall proper_block (t_blocks t) /\ NoDup (map tb_name (t_blocks t)).
Definition unambiguous (ts : list template) : Prop :=
  NoDup (map t_name ts) /\ NoDup (map (fun t => (t_freq t, t_num t)) ts).
