(** Specification vocabulary for C71-C73: what templates and messages say about
    themselves.  The words of the template language are those of
    SpecTemplateText.v. *)
From Coq Require Import Sorting.Sorted.
From Verif Require Export Describe SpecTemplateText SpecWire SpecText.

(** [s] spells the bytes [h], two upper-case hexadecimal digits each. *)
Definition spelled_hex (s h : bytes) : Prop :=
  exists pairs, Forall2 hex_pair pairs h /\ s = List.concat pairs.

(** One string comes before another in the order of their characters. *)
Definition before (a b : string) : Prop := String.compare a b = Lt.

(** A variable of one of these templates. *)
Definition variable_of (ts : list template) (v : tvar) : Prop :=
  exists t b, In t ts /\ In b (t_blocks t) /\ In v (tb_vars b).

(** ** The printed form of a message *)

(** Two bytes as a little-endian signed number. *)
Definition short_value (a b : byte) : Z :=
  let u := byte_value a + 256 * byte_value b in if u <? 32768 then u else u - 65536.
Inductive shorts_of : bytes -> list Z -> Prop :=
| shorts_end : shorts_of [] []
| shorts_pair a b s l : shorts_of s l -> shorts_of (a :: b :: s) (short_value a b :: l).

(** The text of an integer: decimal digits without a leading zero, after a minus
    sign if it is negative. *)
Definition no_leading_zero (s : bytes) : Prop := s = [x30] \/ forall r, s <> x30 :: r.
Definition int_text (z : Z) (s : bytes) : Prop :=
  0 <= z /\ decimal s z /\ no_leading_zero s \/
  z < 0 /\ exists r, s = x2d :: r /\ decimal r (- z) /\ no_leading_zero r.
(** The text of a tuple of integers: (), (1,), (1, 2), (1, 2, 3), ... *)
Inductive listed : list Z -> bytes -> Prop :=
| listed_last z s : int_text z s -> listed [z] s
| listed_more z s l t : int_text z s -> listed l t -> listed (z :: l) (s ++ [x2c; x20] ++ t).
Inductive tuple_shown : list Z -> bytes -> Prop :=
| tuple_empty : tuple_shown [] [x28; x29]
| tuple_single z s : int_text z s -> tuple_shown [z] ([x28] ++ s ++ [x2c; x29])
| tuple_several z y l s : listed (z :: y :: l) s -> tuple_shown (z :: y :: l) ([x28] ++ s ++ [x29]).

(** A text is a byte string or a unicode text, which is a list of code points.
    ASCII: *)
Definition ascii_codes (u : list Z) : Prop := Forall (fun c => c < 128) u.
Definition code_points (t : ptext) : list Z := match t with TStr s => map byte_value s | TUni u => u end.
Definition is_unicode (t : ptext) : Prop := exists u, t = TUni u.
(** Texts that cannot be put together: a unicode text and a byte string that is
    not ASCII. *)
Definition clash (l : list ptext) : Prop :=
  Exists is_unicode l /\ Exists (fun t => exists s, t = TStr s /\ ~ ascii_codes (map byte_value s)) l.
(** [t] is the texts [l] put together: unicode iff one of them is. *)
Definition together (l : list ptext) (t : ptext) : Prop :=
  (is_unicode t <-> Exists is_unicode l) /\ code_points t = List.concat (map code_points l).

(** The printed form of a variable, where [show] prints values that are no text:
    variable-length data as it is, fixed-length data as a tuple of the 16-bit
    numbers it consists of, anything else as Python prints it. *)
Inductive shown (show : pyval -> bytes) : var -> ptext -> Prop :=
| shown_variable s : shown show {| v_data := VStr s; v_type := Some MVT_VARIABLE |} (TStr s)
| shown_variable_text u : shown show {| v_data := VUni u; v_type := Some MVT_VARIABLE |} (TUni u)
| shown_fixed s l t : shorts_of s l -> tuple_shown l t ->
    shown show {| v_data := VStr s; v_type := Some MVT_FIXED |} (TStr t)
| shown_fixed_text u l t : ascii_codes u -> shorts_of (utf8 u) l -> tuple_shown l t ->
    shown show {| v_data := VUni u; v_type := Some MVT_FIXED |} (TStr t)
| shown_other_string s t : t <> Some MVT_VARIABLE -> t <> Some MVT_FIXED ->
    shown show {| v_data := VStr s; v_type := t |} (TStr s)
| shown_other_text u t : t <> Some MVT_VARIABLE -> t <> Some MVT_FIXED -> ascii_codes u ->
    shown show {| v_data := VUni u; v_type := t |} (TStr (utf8 u))
| shown_other d t : t <> Some MVT_VARIABLE -> t <> Some MVT_FIXED -> (forall s, d <> VStr s) -> (forall u, d <> VUni u) ->
    shown show {| v_data := d; v_type := t |} (TStr (show d)).

Definition a_text (d : pyval) : Prop := (exists s, d = VStr s) \/ (exists u, d = VUni u).
Definition has_length (d : pyval) : Prop := a_text d \/ exists l, d = VTuple l.
(** Why an entry of a variable list cannot be printed: the block has no such
    variable; or it has no printed form. *)
Inductive print_fails : option var -> exn -> Prop :=
| fails_missing : print_fails None KeyErr
| fails_variable d : ~ a_text d -> print_fails (Some {| v_data := d; v_type := Some MVT_VARIABLE |}) TypeErr
| fails_odd s : Nat.Odd (List.length s) ->
    print_fails (Some {| v_data := VStr s; v_type := Some MVT_FIXED |}) StructError
| fails_fixed_text u : ~ ascii_codes u \/ Nat.Odd (List.length (utf8 u)) ->
    print_fails (Some {| v_data := VUni u; v_type := Some MVT_FIXED |}) StructError
| fails_fixed_tuple l : print_fails (Some {| v_data := VTuple l; v_type := Some MVT_FIXED |}) StructError
| fails_fixed d : ~ has_length d -> print_fails (Some {| v_data := d; v_type := Some MVT_FIXED |}) TypeErr
| fails_unicode u t : t <> Some MVT_VARIABLE -> t <> Some MVT_FIXED -> ~ ascii_codes u ->
    print_fails (Some {| v_data := VUni u; v_type := t |}) ValueErr.

(** The lines of the printed form: fixed ones and one for each entry of a
    variable list, with what the block has under that name. *)
Inductive sline := Fixed (text : bytes) | Entry (name : string) (x : option var).
Definition spaces4 : bytes := [x20; x20; x20; x20].
Definition block_line (name : string) : bytes :=
  spaces4 ++ bytes_of_string "Block Name:" ++ spaces4 ++ bytes_of_string name ++ [x0a].
Definition name_lines (name : string) : bytes := [x0a] ++ bytes_of_string "Name: " ++ bytes_of_string name ++ [x0a].
Definition block_lines (d : blockdict) : list sline :=
  flat_map (fun '(name, l) => Fixed (block_line name) ::
              flat_map (fun b => map (fun n => Entry n (sget n (b_vars b))) (b_list b)) l) d.
Definition message_lines (name_first : bool) (m : message) : list sline :=
  let name := [Fixed (name_lines (m_name m))] in
  if name_first then name ++ block_lines (m_blocks m) else block_lines (m_blocks m) ++ name.

(** The texts a line consists of. *)
Inductive line_texts (show : pyval -> bytes) : sline -> list ptext -> Prop :=
| fixed_line t : line_texts show (Fixed t) [TStr t]
| entry_line n v s : shown show v s ->
    line_texts show (Entry n (Some v))
      [TStr (spaces4 ++ spaces4 ++ bytes_of_string n ++ bytes_of_string ":" ++ spaces4); s; TStr [x0a]].
Inductive line_fails : sline -> exn -> Prop :=
| entry_fails n x e : print_fails x e -> line_fails (Entry n x) e.
(** A message without unicode text of the type MVT_VARIABLE. *)
Definition no_unicode (m : message) : Prop := forall n v, In (Entry n (Some v)) (block_lines (m_blocks m)) ->
  v_type v = Some MVT_VARIABLE -> forall u, v_data v <> VUni u.
(** Values that are no text print as ASCII. *)
Definition prints_ascii (show : pyval -> bytes) : Prop := forall d, ascii_codes (map byte_value (show d)).
