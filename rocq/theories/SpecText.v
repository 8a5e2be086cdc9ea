(** Vocabulary for the statements about UUIDs and helpers: hexadecimal text. *)
From Verif Require Export Helpers SpecCodec.

Definition lower_digits : bytes := bytes_of_string "0123456789abcdef".
Definition upper_digits : bytes := bytes_of_string "0123456789ABCDEF".
(** [c] is the hexadecimal digit of value [d], in either case. *)
Definition hex_char (c : byte) (d : Z) : Prop :=
  0 <= d < 16 /\ (nth_error lower_digits (Z.to_nat d) = Some c \/
                  nth_error upper_digits (Z.to_nat d) = Some c).
Definition lower_char (c : byte) (d : Z) : Prop :=
  0 <= d < 16 /\ nth_error lower_digits (Z.to_nat d) = Some c.
Definition upper_char (c : byte) (d : Z) : Prop :=
  0 <= d < 16 /\ nth_error upper_digits (Z.to_nat d) = Some c.

(** The number written with the digits [ds], most significant first. *)
Definition base16 (ds : list Z) : Z := fold_left (fun a d => 16 * a + d) ds 0.

(** [s] spells the digits [ds], with hyphens anywhere. *)
Inductive spells : bytes -> list Z -> Prop :=
| spells_end : spells [] []
| spells_hyphen s ds : spells s ds -> spells (x2d :: s) ds
| spells_digit c d s ds : hex_char c d -> spells s ds -> spells (c :: s) (d :: ds).

(** ** The texts a UUID can be made of *)
(** [t] is [s] with the occurrences of [p] removed, going from left to right. *)
Inductive removed (p : bytes) : bytes -> bytes -> Prop :=
| removed_end : removed p [] []
| removed_here s t : removed p s t -> removed p (p ++ s) t
| removed_keep c s t : (forall r, c :: s <> p ++ r) -> removed p s t -> removed p (c :: s) (c :: t).
(** [m] is [s] without the braces at its ends. *)
Definition brace (c : byte) : Prop := c = "{"%byte \/ c = "}"%byte.
Definition stripped (s m : bytes) : Prop :=
  exists a b, s = a ++ m ++ b /\ Forall brace a /\ Forall brace b /\
    (forall c r, m = c :: r -> ~ brace c) /\ (forall c r, m = r ++ [c] -> ~ brace c).
Definition without_hyphens (s : bytes) : bytes := filter (fun c => negb (Byte.eqb c "-")) s.
(** What Python 2 takes for a hexadecimal number: white space, a plus sign, white
    space, 0x, digits, L, white space; all optional but the digits. *)
Definition white (c : byte) : Prop := In c [" "; x09; x0a; x0b; x0c; x0d]%byte.
Definition hex_literal (s : bytes) (u : Z) : Prop :=
  exists w1 plus w2 pre digits ds suf w3, s = w1 ++ plus ++ w2 ++ pre ++ digits ++ suf ++ w3 /\
    Forall white w1 /\ Forall white w2 /\ Forall white w3 /\
    (plus = [] \/ plus = ["+"%byte]) /\
    (pre = [] \/ pre = ["0"; "x"]%byte \/ pre = ["0"; "X"]%byte) /\
    digits <> [] /\ Forall2 hex_char digits ds /\
    (suf = [] \/ suf = ["L"%byte] \/ suf = ["l"%byte]) /\ u = base16 ds.
Definition uuid_text_of (s : bytes) (u : Z) : Prop :=
  exists s1 s2 s3, removed (bytes_of_string "urn:") s s1 /\ removed (bytes_of_string "uuid:") s1 s2 /\
    stripped s2 s3 /\ zlen (without_hyphens s3) = 32 /\ hex_literal (without_hyphens s3) u.

(** The 8-4-4-4-12 grouping of 32 characters. *)
Definition grouped (a b c d e s : bytes) : Prop :=
  zlen a = 8 /\ zlen b = 4 /\ zlen c = 4 /\ zlen d = 4 /\ zlen e = 12 /\
  s = a ++ [x2d] ++ b ++ [x2d] ++ c ++ [x2d] ++ d ++ [x2d] ++ e.

Definition is_uuid (u : Z) : Prop := 0 <= u < 2 ^ 128.

(** [s] is the two-digit upper-case form of [b]. *)
Definition hex_pair (s : bytes) (b : byte) : Prop :=
  exists h l hi lo, s = [h; l] /\ upper_char h hi /\ upper_char l lo /\
    byte_value b = 16 * hi + lo.
(** Strings joined by single spaces. *)
Fixpoint joined (l : list bytes) : bytes :=
  match l with
  | [] => []
  | [s] => s
  | s :: l' => s ++ [x20] ++ joined l'
  end.
(** [s] is pairs of hexadecimal digits of either case spelling [d]. *)
Inductive hex_pairs : bytes -> bytes -> Prop :=
| hex_pairs_end : hex_pairs [] []
| hex_pairs_cons h l hi lo b s d : hex_char h hi -> hex_char l lo ->
    byte_value b = 16 * hi + lo -> hex_pairs s d -> hex_pairs (h :: l :: s) (b :: d).
Definition spaces_removed (s : bytes) : bytes := filter (fun c => negb (Byte.eqb c x20)) s.
