(** Vocabulary for C99: what the listing of templates looks like. *)
From Verif Require Export Listing SpecDescribe SpecTemplateText.
Open Scope Z_scope.
Open Scope list_scope.

(** A text of lines, each ended by a newline. *)
Definition text_of (lines : list bytes) : bytes := List.concat (map (fun l => l ++ [x0a]) lines).
Definition spaces (s : bytes) : Prop := Forall (fun c => c = x20) s.
(** Words with one space between them. *)
Fixpoint spaced (words : list bytes) : bytes :=
  match words with [] => [] | [w] => w | w :: ws => w ++ [x20] ++ spaced ws end.
(** The words for the four frequencies. *)
Definition rate_word (f : freq) : string :=
  match f with FIXED => "fixed" | LOW => "low" | MEDIUM => "medium" | HIGH => "high" end.
Definition kind_word (k : option mbt) : string := match k with Some x => btype_word x | None => "None" end.

(** Two tabs, the name filled up to twenty characters, a tab, the type. *)
Definition variable_line (v : tvar) (line : bytes) : Prop :=
  exists ty fill, tv_type v = Some ty /\ spaces fill /\
    zlen (txt (tv_name v) ++ fill) = Z.max 20 (zlen (txt (tv_name v))) /\
    line = [x09; x09] ++ (txt (tv_name v) ++ fill) ++ [x09] ++ txt (mvt_name ty).
(** A tab, name, type and count of the block; then its variables. *)
Definition block_lines (b : tblock) (lines : list bytes) : Prop :=
  exists n vls, int_text (tb_number b) n /\ Forall2 variable_line (tb_vars b) vls /\
    lines = ([x09] ++ spaced [txt (tb_name b); txt (kind_word (tb_type b)); n]) :: vls.
(** A rule; name, frequency, number, the bytes on the wire, trust, encoding and
    deprecation; then its blocks. *)
Definition template_lines (t : template) (lines : list bytes) : Prop :=
  exists f n h hs tr en de bls, t_freq t = Some f /\ int_text (t_num t) n /\ t_hex t = Some h /\ spelled_hex hs h /\
    t_trust t = Some tr /\ t_enc t = Some en /\ t_dep t = Some de /\ Forall2 block_lines (t_blocks t) bls /\
    lines = rule :: spaced [txt (t_name t); txt (rate_word f); n; hs; txt (trust_word tr); txt (enc_word en); txt (dep_word de)]
            :: List.concat bls.
Definition listing (ts : list template) (text : bytes) : Prop :=
  exists lss, Forall2 template_lines ts lss /\ text = text_of (List.concat lss).

(** Two templates that differ at most in the sizes of their variables. *)
Definition same_variable (v v' : tvar) : Prop := tv_name v = tv_name v' /\ tv_type v = tv_type v'.
Definition same_block (b b' : tblock) : Prop :=
  tb_name b = tb_name b' /\ tb_type b = tb_type b' /\ tb_number b = tb_number b' /\ Forall2 same_variable (tb_vars b) (tb_vars b').
Definition same_but_sizes (t t' : template) : Prop :=
  t_name t = t_name t' /\ t_freq t = t_freq t' /\ t_num t = t_num t' /\ t_hex t = t_hex t' /\ t_trust t = t_trust t' /\
  t_enc t = t_enc t' /\ t_dep t = t_dep t' /\ Forall2 same_block (t_blocks t) (t_blocks t').
(** The names are words. *)
Definition word_names (t : template) : Prop :=
  a_word (t_name t) /\ Forall (fun b => a_word (tb_name b) /\ Forall (fun v => a_word (tv_name v)) (tb_vars b)) (t_blocks t).

(** What a template lacks that the listing needs. *)
Definition lacking (t : template) (e : exn) : Prop :=
  if t_freq t then e = TypeErr /\ (t_hex t = None \/ t_trust t = None \/ t_enc t = None \/ t_dep t = None \/
                                   exists b v, In b (t_blocks t) /\ In v (tb_vars b) /\ tv_type v = None)
  else e = KeyErr.

(** The first part of the program's output: for the [i]-th template three lines. *)
Inductive name_lines : Z -> list template -> list bytes -> Prop :=
| name_none i : name_lines i [] []
| name_next i t ts f n ls : t_freq t = Some f -> int_text (i + 1) n -> name_lines (i + 1) ts ls ->
    name_lines i (t :: ts) (rule :: spaced [n; txt (t_name t); txt (rate_word f)] :: rule :: ls).
(** How many templates have a frequency. *)
Definition of_rate (f : freq) (t : template) : bool :=
  match t_freq t, f with
  | Some FIXED, FIXED | Some LOW, LOW | Some MEDIUM, MEDIUM | Some HIGH, HIGH => true
  | _, _ => false
  end.
Definition how_many (f : freq) (ts : list template) : Z := zlen (filter (of_rate f) ts).
Definition count_line (ts : list template) (f : freq) (line : bytes) : Prop :=
  exists n, int_text (how_many f ts) n /\ line = spaced [txt (rate_word f); n].
