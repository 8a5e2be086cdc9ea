(** Specification vocabulary for C76: what a Python value given for a field
    stands for. *)
From Coq Require Import ZArith Reals List.
From Flocq Require Import Core.
From Verif Require Import MsgTypes Values SpecFloats.
Import ListNotations.
Open Scope Z_scope.

(** The whole number a value stands for in an integer field: itself, 1 or 0 for
    a truth value, a finite float without its fraction. *)
Inductive whole_number : pyval -> Z -> Prop :=
| whole_int z : whole_number (VInt z) z
| whole_true : whole_number (VBool true) 1
| whole_false : whole_number (VBool false) 0
| whole_float f z : finite_float f ->
    (Rabs (IZR z) <= Rabs (rv f) < Rabs (IZR z) + 1)%R -> (0 <= IZR z * rv f)%R ->
    whole_number (VFloat f) z.

(** Values that are no number at all (a uuid.UUID is left out: it has an int). *)
Definition not_a_number_value (v : pyval) : Prop :=
  match v with VInt _ | VBool _ | VFloat _ | VStdUUID _ => False | _ => True end.

(** The element of a tuple as a value of its own. *)
Definition element (n : num) : pyval := match n with NI z => VInt z | NF f => VFloat f end.

(** The component type of the vector fields, and how many components the
    template promises: [vector_shape] of SpecFloats. *)

(** The first three elements, all negated when the fourth is not >= 0. *)
Definition opposite_num (n : num) : num :=
  match n with NI z => NI (- z) | NF f => NF (opposite f) end.
Definition fourth_nonneg (n : num) : Prop :=
  match n with NI z => 0 <= z | NF f => positive_or_zero f end.
Definition fourth_negative (n : num) : Prop :=
  match n with NI z => z < 0 | NF f => negative_or_nan f end.

(** Text: None, a byte string or a unicode string. *)
Definition is_text (v : pyval) : Prop :=
  match v with VNone | VStr _ | VUni _ => True | _ => False end.
(** Something with a length. *)
Definition is_sequence (v : pyval) : Prop :=
  match v with VStr _ | VUni _ | VTuple _ => True | _ => False end.
