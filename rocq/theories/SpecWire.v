(** Specification vocabulary for packets: zero-coding, message numbers, lookup
    in lists (C11, C12, C15, C20, C55). *)
From Verif Require Import MsgTypes Template SpecCodec.

(** Zero-coding: every run of 1..255 zero bytes becomes a zero byte followed by
    the length of the run; other bytes stand for themselves.
    [zero_coded coded plain]. *)
Inductive zero_coded : bytes -> bytes -> Prop :=
| zc_nil : zero_coded [] []
| zc_lit c s p : c <> x00 -> zero_coded s p -> zero_coded (c :: s) (c :: p)
| zc_run n c s p : 1 <= n <= 255 -> byte_value c = n -> zero_coded s p ->
    zero_coded (x00 :: c :: s) (repeat x00 (Z.to_nat n) ++ p).

(** What any byte string, a proper code or not, expands to: [k] zeros followed
    by a non-zero byte [c] stand for [k - 1 + c] zeros; zeros at the very end
    stand for themselves. *)
Inductive expansion : bytes -> bytes -> Prop :=
| ex_nil : expansion [] []
| ex_lit c s p : c <> x00 -> expansion s p -> expansion (c :: s) (c :: p)
| ex_run k c s p : (1 <= k)%nat -> c <> x00 -> expansion s p ->
    expansion (repeat x00 k ++ c :: s) (repeat x00 (k + Z.to_nat (byte_value c) - 1) ++ p)
| ex_end k : (1 <= k)%nat -> expansion (repeat x00 k) (repeat x00 k).

(** The message number on the wire. *)
Inductive wire_number : freq -> Z -> bytes -> Prop :=
| wn_high b : wire_number HIGH (byte_value b) [b]
| wn_medium b : wire_number MEDIUM (byte_value b) [xff; b]
| wn_low b c : wire_number LOW (256 * byte_value b + byte_value c) [xff; xff; b; c]
| wn_fixed b : wire_number FIXED (byte_value b) [xff; xff; xff; b].
(** The numbers whose encodings are unambiguous. *)
Definition codable (f : freq) (n : Z) : Prop :=
  match f with
  | HIGH => 0 <= n < 255
  | MEDIUM => 0 <= n < 255
  | LOW => 0 <= n < 65280
  | FIXED => 0 <= n < 256
  end.
(** How many bytes the number takes, and how many values it can have. *)
Definition number_width (f : freq) : Z := match f with HIGH => 1 | MEDIUM => 2 | LOW => 4 | FIXED => 4 end.
Definition number_space (f : freq) : Z := match f with LOW => 65536 | _ => 256 end.

(** [t] is the last element of [l] satisfying [P]. *)
Definition last_such {A} (P : A -> Prop) (l : list A) (t : A) : Prop :=
  exists l1 l2, l = l1 ++ t :: l2 /\ P t /\ Forall (fun x => ~ P x) l2.

(** Same template, apart from the message-number bytes. *)
Definition same_template (a b : template) : Prop :=
  t_name a = t_name b /\ t_freq a = t_freq b /\ t_num a = t_num b /\ t_trust a = t_trust b /\
  t_enc a = t_enc b /\ t_dep a = t_dep b /\ t_blocks a = t_blocks b.
(** The template carries the message-number bytes of its frequency and number
    (reduced to the available width). *)
Definition numbered (t : template) : Prop :=
  forall f, t_freq t = Some f -> exists h, t_hex t = Some h /\ wire_number f (t_num t mod number_space f) h.
