(** How templates are written in a template file (C54): the brace layout of
    message_template.msg, with any spacing, comment lines and empty lines.
    Nothing here mentions the parser. *)
From Verif Require Export Template.

(** ** Characters and words *)
Definition letter (b : byte) : Prop := 65 <= ord b <= 90 \/ 97 <= ord b <= 122.
Definition figure (b : byte) : Prop := 48 <= ord b <= 57.
Definition word_char (b : byte) : Prop := letter b \/ figure b \/ b = x5f.
(** space, tab, carriage return *)
Definition blank (b : byte) : Prop := b = x20 \/ b = x09 \/ b = x0d.
Definition pad (s : bytes) : Prop := Forall blank s.
Definition gap (s : bytes) : Prop := Forall blank s /\ s <> [].
Definition word (s : bytes) : Prop := Forall word_char s /\ s <> [].
Definition a_word (s : string) : Prop := word (bytes_of_string s).
Definition one_line (s : bytes) : Prop := ~ In x0a s.
Definition no_braces (s : bytes) : Prop := ~ In x7b s /\ ~ In x7d s.

(** ** Numbers *)
Definition decimal_value (s : bytes) : Z := fold_left (fun a b => 10 * a + (ord b - 48)) s 0.
Definition hex_digit_value (b : byte) : Z :=
  if ord b <=? 57 then ord b - 48 else if ord b <=? 70 then ord b - 55 else ord b - 87.
Definition hex_figure (b : byte) : Prop := figure b \/ 65 <= ord b <= 70 \/ 97 <= ord b <= 102.
Definition hexadecimal_value (s : bytes) : Z := fold_left (fun a b => 16 * a + hex_digit_value b) s 0.
Definition decimal (s : bytes) (n : Z) : Prop :=
  Forall figure s /\ s <> [] /\ n = decimal_value s.
(** A number as the frequency column has it: decimal without a leading zero, or
    0x and hexadecimal digits. *)
Definition numeral (s : bytes) (n : Z) : Prop :=
  (decimal s n /\ (s = [x30] \/ forall r, s <> x30 :: r)) \/
  (exists r, s = [x30; x78] ++ r /\ Forall hex_figure r /\ r <> [] /\ n = hexadecimal_value r).

(** ** The words of the language *)
Definition freq_word (f : freq) : string :=
  match f with FIXED => "Fixed" | LOW => "Low" | MEDIUM => "Medium" | HIGH => "High" end.
Definition trust_word (x : trust) : string :=
  match x with LL_TRUSTED => "Trusted" | LL_NOTRUST => "NotTrusted" end.
Definition enc_word (x : encoding) : string :=
  match x with LL_UNENCODED => "Unencoded" | LL_ZEROCODED => "Zerocoded" end.
Definition dep_word (x : deprecation) : string :=
  match x with
  | LL_DEPRECATED => "Deprecated" | LL_UDPDEPRECATED => "UDPDeprecated"
  | LL_UDPBLACKLISTED => "UDPBlackListed" | LL_NOTDEPRECATED => "NotDeprecated"
  end.
Definition btype_word (x : mbt) : string :=
  match x with MBT_SINGLE => "Single" | MBT_MULTIPLE => "Multiple" | MBT_VARIABLE => "Variable" end.
Definition type_word (x : mvt) : string :=
  match x with
  | MVT_FIXED => "Fixed" | MVT_VARIABLE => "Variable"
  | MVT_U8 => "U8" | MVT_U16 => "U16" | MVT_U32 => "U32" | MVT_U64 => "U64"
  | MVT_S8 => "S8" | MVT_S16 => "S16" | MVT_S32 => "S32" | MVT_S64 => "S64"
  | MVT_F32 => "F32" | MVT_F64 => "F64"
  | MVT_LLVector3 => "LLVector3" | MVT_LLVector3d => "LLVector3d" | MVT_LLVector4 => "LLVector4"
  | MVT_LLQuaternion => "LLQuaternion" | MVT_LLUUID => "LLUUID" | MVT_BOOL => "BOOL"
  | MVT_IP_ADDR => "IPADDR" | MVT_IP_PORT => "IPPORT"
  end.

(** ** Lines, each with its newline *)
(** A trailing comment: nothing, or // and anything without braces. *)
Definition trailer (s : bytes) : Prop :=
  exists p c, s = p ++ c ++ [x0a] /\ pad p /\
    (c = [] \/ exists r, c = [x2f; x2f] ++ r /\ one_line r /\ no_braces r).
Definition comment_line (s : bytes) : Prop :=
  exists p r, s = p ++ [x2f; x2f] ++ r ++ [x0a] /\ pad p /\ one_line r.
Definition empty_line (s : bytes) : Prop := exists p, s = p ++ [x0a] /\ pad p.
Definition noise (s : bytes) : Prop := comment_line s \/ empty_line s.
Definition open_line (s : bytes) : Prop := exists p q, s = p ++ [x7b] ++ q ++ [x0a] /\ pad p /\ pad q.
Definition close_line (s : bytes) : Prop := exists p q, s = p ++ [x7d] ++ q ++ [x0a] /\ pad p /\ pad q.
Definition version_line (s : bytes) : Prop :=
  exists a b q, s = bytes_of_string "version" ++ [x20] ++ a ++ [x2e] ++ b ++ q ++ [x0a] /\
    Forall figure a /\ a <> [] /\ Forall figure b /\ b <> [] /\ pad q.

(** name, frequency, number, trust, encoding and, unless it is NotDeprecated and
    left out, deprecation.  A Fixed number is written in full: [v] is the 32-bit
    number, of which the last byte is the message number. *)
Definition header_line (t : template) (v : Z) (s : bytes) : Prop :=
  exists f tr en dp num p g1 g2 g3 g4 last tail,
    t_freq t = Some f /\ t_trust t = Some tr /\ t_enc t = Some en /\ t_dep t = Some dp /\
    numeral num v /\ pad p /\ gap g1 /\ gap g2 /\ gap g3 /\ gap g4 /\ trailer tail /\
    (last = [] /\ dp = LL_NOTDEPRECATED \/
     exists g5, gap g5 /\ last = g5 ++ bytes_of_string (dep_word dp)) /\
    s = p ++ bytes_of_string (t_name t) ++ g1 ++ bytes_of_string (freq_word f) ++ g2 ++ num ++ g3
          ++ bytes_of_string (trust_word tr) ++ g4 ++ bytes_of_string (enc_word en) ++ last ++ tail.
Definition bheader_line (b : tblock) (s : bytes) : Prop :=
  exists ty p g1 last tail,
    tb_type b = Some ty /\ pad p /\ gap g1 /\ trailer tail /\
    match ty with
    | MBT_MULTIPLE => exists g2 num, gap g2 /\ decimal num (tb_number b) /\ last = g2 ++ num
    | _ => last = []
    end /\
    s = p ++ bytes_of_string (tb_name b) ++ g1 ++ bytes_of_string (btype_word ty) ++ last ++ tail.
Definition var_line (v : tvar) (s : bytes) : Prop :=
  exists ty p q g1 last r tail,
    tv_type v = Some ty /\ pad p /\ pad q /\ gap g1 /\ pad r /\ trailer tail /\
    match ty with
    | MVT_FIXED | MVT_VARIABLE =>
        exists g2 num n, gap g2 /\ tv_size v = Some n /\ decimal num n /\ last = g2 ++ num
    | _ => last = []
    end /\
    s = p ++ [x7b] ++ q ++ bytes_of_string (tv_name v) ++ g1 ++ bytes_of_string (type_word ty)
          ++ last ++ r ++ [x7d] ++ tail.

(** ** Files *)
(** [woven ls ms]: [ls] is [ms] with noise lines put in anywhere. *)
Inductive woven : list bytes -> list bytes -> Prop :=
| wv_nil : woven [] []
| wv_line l ls ms : woven ls ms -> woven (l :: ls) (l :: ms)
| wv_noise l ls ms : noise l -> woven ls ms -> woven (l :: ls) ms.

Definition block_lines (b : tblock) (ls : list bytes) : Prop :=
  exists o h vs c, ls = [o; h] ++ vs ++ [c] /\
    open_line o /\ bheader_line b h /\ Forall2 var_line (tb_vars b) vs /\ close_line c.
Definition template_lines (t : template) (v : Z) (ls : list bytes) : Prop :=
  exists o h bs c, ls = [o; h] ++ List.concat bs ++ [c] /\
    open_line o /\ header_line t v h /\ Forall2 block_lines (t_blocks t) bs /\ close_line c.

(** [vs] are the numbers as written. *)
Inductive body_lines : list template -> list Z -> list bytes -> Prop :=
| bl_nil : body_lines [] [] []
| bl_cons t v ls ts vs ls' :
    template_lines t v ls -> body_lines ts vs ls' -> body_lines (t :: ts) (v :: vs) (ls ++ ls').

(** [text] is a template file for [ts]. *)
Definition written_as (ts : list template) (vs : list Z) (text : bytes) : Prop :=
  exists ver ls lines, version_line ver /\ body_lines ts vs ls /\ woven lines (ver :: ls) /\
    text = List.concat lines.

(** ** Which templates can be written *)
Definition sized (v : tvar) : Prop :=
  exists ty, tv_type v = Some ty /\
    match ty with
    | MVT_FIXED | MVT_VARIABLE => exists n, tv_size v = Some n /\ 1 <= n
    | _ => tv_size v = Some (sizeof_mvt ty)
    end.
Definition writable_var (v : tvar) : Prop := a_word (tv_name v) /\ sized v.
Definition writable_block (b : tblock) : Prop :=
  a_word (tb_name b) /\ Forall writable_var (tb_vars b) /\
  exists ty, tb_type b = Some ty /\
    match ty with MBT_MULTIPLE => 0 <= tb_number b | _ => tb_number b = 0 end.
(** The message number and the bytes msg_num_hex the parser leaves for the number
    [v] as written: the frequency's 0xFF bytes and the low byte, or the four bytes
    of a Fixed number. *)
Definition number_of (f : freq) (v : Z) : Z := match f with FIXED => v mod 256 | _ => v end.
Definition hex_of (f : freq) (v : Z) : bytes :=
  match f with
  | FIXED => [chr (v / 16777216); chr (v / 65536); chr (v / 256); chr v]
  | LOW => [xff; xff; chr v]
  | MEDIUM => [xff; chr v]
  | HIGH => [chr v]
  end.
Definition writable (t : template) (v : Z) : Prop :=
  a_word (t_name t) /\ Forall writable_block (t_blocks t) /\
  t_trust t <> None /\ t_enc t <> None /\ t_dep t <> None /\
  exists f, t_freq t = Some f /\ 0 <= v /\ t_num t = number_of f v /\ t_hex t = Some (hex_of f v).
(** Which numbers as written each interpreter takes: a Fixed number that fits 32
    bits; any other that fits 8 under Python 2.7, any at all before. *)
Definition number_fits (pv : pyver) (t : template) (v : Z) : Prop :=
  match pv, t_freq t with
  | Py26, _ => True
  | Py27, Some FIXED => v < 2 ^ 32
  | Py27, _ => v < 256
  end.
