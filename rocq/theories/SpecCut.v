(** Specification vocabulary for C77: datagrams that end too early.  Built on the
    reading relations of SpecLayout.v. *)
From Verif Require Import MsgTypes Template TemplateDict SpecCodec SpecWire SpecLayout.

(** The bytes [w] end before the field of [v] that starts with them. *)
Inductive field_cut (v : tvar) (w : bytes) : Prop :=
| fc_plain s : tv_type v <> Some MVT_VARIABLE -> tv_size v = Some s -> zlen w < s -> field_cut v w
| fc_prefix p : tv_type v = Some MVT_VARIABLE -> tv_size v = Some p -> zlen w < p -> field_cut v w
| fc_text p len d : tv_type v = Some MVT_VARIABLE -> tv_size v = Some p -> w = len ++ d -> zlen len = p ->
    zlen d < value_lsb_first len -> field_cut v w.
(** ... somewhere in these fields, *)
Inductive fields_cut : list tvar -> bytes -> Prop :=
| fsc_here v vs w : field_cut v w -> fields_cut (v :: vs) w
| fsc_later v vs w y w' : field_read v w y -> fields_cut vs w' -> fields_cut (v :: vs) (w ++ w').
(** ... in one of [n] instances of the block, *)
Inductive instances_cut (tb : tblock) : Z -> nat -> bytes -> Prop :=
| ic_here i n w : fields_cut (tb_vars tb) w -> instances_cut tb i (S n) w
| ic_later i n w b w' : instance_read tb i w b -> instances_cut tb (i + 1) n w' ->
    instances_cut tb i (S n) (w ++ w').
Inductive block_cut (tb : tblock) : bytes -> Prop :=
| bc_single w : tb_type tb = Some MBT_SINGLE -> instances_cut tb 0 1 w -> block_cut tb w
| bc_multiple w : tb_type tb = Some MBT_MULTIPLE -> instances_cut tb 0 (Z.to_nat (tb_number tb)) w -> block_cut tb w
| bc_variable c w : tb_type tb = Some MBT_VARIABLE -> instances_cut tb 0 (Z.to_nat (byte_value c)) w ->
    block_cut tb (c :: w).
(** ... in one of these blocks: the body ends inside a field. *)
Inductive blocks_cut : list tblock -> bytes -> Prop :=
| bsc_here tb tbs w : block_cut tb w -> blocks_cut (tb :: tbs) w
| bsc_later tb w bs tbs w' : block_read tb w bs -> blocks_cut tbs w' -> blocks_cut (tb :: tbs) (w ++ w').
(** The body ends exactly where the repeat count of a Variable block belongs. *)
Inductive count_missing : list tblock -> bytes -> Prop :=
| cm_here tb tbs : tb_type tb = Some MBT_VARIABLE -> count_missing (tb :: tbs) []
| cm_later tb w bs tbs w' : block_read tb w bs -> count_missing tbs w' -> count_missing (tb :: tbs) (w ++ w').

(** [body_of d buf t body]: the datagram carries the number of [t], and [body] is
    what follows the number and the extra header bytes (acks included). *)
Definition body_of (d : tdict) (buf : bytes) (t : template) (body : bytes) : Prop :=
  exists plain trailer ids six h rest f n flags id off after,
    unwrapped buf plain trailer ids /\ plain = six ++ h ++ rest /\ zlen six = 6 /\
    wire_number f n h /\ codable f n /\ get_template_by_pair d (Some f) n = Some t /\
    plain ++ trailer = flags :: id ++ off :: after /\ zlen id = 4 /\
    body = skipn (Z.to_nat (6 + number_width f + byte_value off)) (plain ++ trailer).

(** The datagrams that are dropped without an exception. *)
Inductive dropped (d : tdict) (allowed wanted : string -> Prop) (buf : bytes) : Prop :=
| dr_unknown plain trailer ids six h rest f n : unwrapped buf plain trailer ids ->
    plain = six ++ h ++ rest -> zlen six = 6 -> wire_number f n h -> codable f n ->
    get_template_by_pair d (Some f) n = None -> dropped d allowed wanted buf
| dr_banned t : carries d buf t -> ~ allowed (t_name t) -> dropped d allowed wanted buf
| dr_unwanted t : carries d buf t -> ~ wanted (t_name t) -> dropped d allowed wanted buf
| dr_cut t body : body_of d buf t body -> blocks_cut (t_blocks t) body -> dropped d allowed wanted buf.
(** The datagrams that are rejected with MessageDeserializationError. *)
Inductive rejected (d : tdict) (allowed wanted : string -> Prop) (buf : bytes) : Prop :=
| rj_short plain trailer ids : unwrapped buf plain trailer ids -> zlen plain <= 6 -> rejected d allowed wanted buf
| rj_count t body : body_of d buf t body -> allowed (t_name t) -> wanted (t_name t) ->
    count_missing (t_blocks t) body -> rejected d allowed wanted buf
| rj_nothing t body w rest : body_of d buf t body -> allowed (t_name t) -> wanted (t_name t) ->
    t_blocks t <> [] -> body = w ++ rest -> blocks_read (t_blocks t) w [] -> rejected d allowed wanted buf.
