(** Message numbers, zero-coding and the template dictionary: C11, C12, C15, C55.
    Vocabulary: SpecWire.v. *)
From Verif Require Import TemplateDict Deserializer SpecCodec SpecWire HeaderProofs ZeroProofs.

(** ** C11 *)
(** Every number in range has one encoding; the encodings of codable numbers are
    recognised whatever follows. *)
Theorem C11_number_encoding f n : 0 <= n < number_space f ->
  exists h, wire_number f n h /\ zlen h = number_width f /\ forall h', wire_number f n h' -> h' = h.
Proof.
  exact (fun H => let '(ex_intro _ h Hh) := wire_number_ex f n H in
    ex_intro _ h (conj Hh (conj (wire_number_len f n h Hh) (fun h' Hh' => wire_number_fun f n h' h Hh' Hh)))).
Qed.
Print Assumptions C11_number_encoding.
Theorem C11_decode_number f n h rest : wire_number f n h -> codable f n ->
  decode_frequency (h ++ rest) = Ok f /\ decode_num (h ++ rest) = Ok n.
Proof. exact (decode_number f n h rest). Qed.
Print Assumptions C11_decode_number.
(** The template the deserializer picks for a packet [six ++ h ++ rest]. *)
Theorem C11_decode_template d six f n h rest : zlen six = 6 -> wire_number f n h -> codable f n ->
  decode_template d (six ++ h ++ rest) = Ok (get_template_by_pair d (Some f) n).
Proof. exact (decode_template_number d six f n h rest). Qed.
Print Assumptions C11_decode_template.
Theorem C11_prefix_free f n h f' n' h' r r' : wire_number f n h -> codable f n ->
  wire_number f' n' h' -> codable f' n' -> h ++ r = h' ++ r' -> f = f' /\ n = n'.
Proof. exact (prefix_free f n h f' n' h' r r'). Qed.
Print Assumptions C11_prefix_free.
Theorem C11_not_codable f n h rest : wire_number f n h -> ~ codable f n ->
  decode_frequency (h ++ rest) <> Ok f.
Proof. exact (not_codable f n h rest). Qed.
Print Assumptions C11_not_codable.
Example C11_ex : wire_number LOW 300 [xff; xff; x01; x2c] /\ codable LOW 300 /\
  decode_frequency [xff; xff; x01; x2c; x00] = Ok LOW /\
  wire_number MEDIUM 255 [xff; xff] /\ ~ codable MEDIUM 255 /\ decode_frequency [xff; xff; x00] = Ok LOW.
Proof.
  repeat split; try exact (wn_low x01 x2c); try exact (wn_medium xff); cbn; lia.
Qed.

(** ** C12 *)
Theorem C12_expand_coded s p : zero_coded s p -> zero_code_expand false s = p.
Proof. exact (zero_coded_expand s p). Qed.
Print Assumptions C12_expand_coded.
Theorem C12_coding_exists p : exists s, zero_coded s p.
Proof. exact (zero_coded_ex p). Qed.
Print Assumptions C12_coding_exists.
Theorem C12_expand_app s p s' : zero_coded s p ->
  zero_code_expand false (s ++ s') = p ++ zero_code_expand false s'.
Proof. exact (zero_coded_app s p s'). Qed.
Print Assumptions C12_expand_app.
Theorem C12_no_zeros s : ~ In x00 s -> zero_code_expand false s = s.
Proof. exact (zero_free s). Qed.
Print Assumptions C12_no_zeros.
Theorem C12_expand_any s p : expansion s p <-> p = zero_code_expand false s.
Proof. exact (conj (expansion_fun s p) (fun E => eq_ind_r (expansion s) (expansion_ok s) E)). Qed.
Print Assumptions C12_expand_any.
Example C12_ex : zero_coded [x01; x00; x03; x02] [x01; x00; x00; x00; x02] /\
  zero_code_expand false [x01; x00; x03; x02] = [x01; x00; x00; x00; x02].
Proof.
  split; [|reflexivity]. apply zc_lit; [discriminate|].
  apply (zc_run 3 x03 [x02] [x02]); [lia|reflexivity|]. apply zc_lit; [discriminate|constructor].
Qed.

(** ** C15 *)
Theorem C15_expand_bounds s :
  2 * zlen (zero_code_expand false s) <= 255 * zlen s /\ zlen s <= 2 * zlen (zero_code_expand false s).
Proof. exact (expand_bound s). Qed.
Print Assumptions C15_expand_bounds.
Theorem C15_bound_attained n :
  zlen (zero_code_expand false (List.concat (repeat [x00; xff] n))) = 255 * Z.of_nat n.
Proof. exact (expand_bound_tight n). Qed.
Print Assumptions C15_bound_attained.
Example C15_ex : zero_code_expand false [x00; x01; x00; x01] = [x00; x00].
Proof. reflexivity. Qed.

(** ** C55 *)
Theorem C55_by_name pv ts d name : build_dict pv ts = Ok d ->
  (Forall (fun x => t_name x <> name) ts -> get_template d name = None) /\
  (forall t, last_such (fun x => t_name x = name) ts t ->
     exists t', get_template d name = Some t' /\ same_template t t' /\ numbered t').
Proof. exact (build_dict_name' pv ts d name). Qed.
Print Assumptions C55_by_name.
Theorem C55_by_pair pv ts d f n : build_dict pv ts = Ok d ->
  (Forall (fun x => (t_freq x, t_num x) <> (f, n)) ts -> get_template_by_pair d f n = None) /\
  (forall t, last_such (fun x => (t_freq x, t_num x) = (f, n)) ts t ->
     exists t', get_template_by_pair d f n = Some t' /\ same_template t t').
Proof. exact (build_dict_pair pv ts d f n). Qed.
Print Assumptions C55_by_pair.
(** With distinct names and distinct pairs both lookups return the same object. *)
Theorem C55_distinct pv ts d t : build_dict pv ts = Ok d ->
  NoDup (map t_name ts) -> NoDup (map (fun x => (t_freq x, t_num x)) ts) -> In t ts ->
  exists t', get_template d (t_name t) = Some t' /\ get_template_by_pair d (t_freq t) (t_num t) = Some t' /\
    same_template t t' /\ numbered t'.
Proof. exact (build_dict_both' pv ts d t). Qed.
Print Assumptions C55_distinct.
Theorem C55_build_ok pv ts :
  (forall t f, In t ts -> t_freq t = Some f -> pv = Py26 \/ 0 <= t_num t < number_space f) ->
  exists d, build_dict pv ts = Ok d.
Proof. exact (build_dict_ok pv ts). Qed.
Print Assumptions C55_build_ok.
(** Nothing is found that was not given. *)
Theorem C55_sound pv ts d : build_dict pv ts = Ok d ->
  (forall name t', get_template d name = Some t' ->
     exists t, In t ts /\ same_template t t' /\ t_name t' = name /\ numbered t') /\
  (forall f n t', get_template_by_pair d f n = Some t' ->
     exists t, In t ts /\ same_template t t' /\ t_freq t' = f /\ t_num t' = n).
Proof. exact (build_dict_sound' pv ts d). Qed.
Print Assumptions C55_sound.
Definition ex_t (name : string) (f : freq) (n : Z) : template :=
  {| t_name := name; t_freq := Some f; t_num := n; t_hex := None; t_trust := None; t_enc := None;
     t_dep := None; t_blocks := [] |}.
Example C55_ex : exists d, build_dict Py26 [ex_t "A" HIGH 1; ex_t "B" LOW 2; ex_t "A" LOW 2] = Ok d /\
  option_map t_hex (get_template d "A") = Some (Some [xff; xff; x00; x02]) /\
  option_map t_name (get_template_by_pair d (Some LOW) 2) = Some "A"%string /\
  option_map t_name (get_template_by_pair d (Some HIGH) 1) = Some "A"%string.
Proof. eexists. repeat split; reflexivity. Qed.
