(** Vocabulary for C105: managers with one UDP coroutine at a time. *)
From Verif Require Export SpecMesh.

(** No coroutine was ended by an exception. *)
Definition none_died (w : whole) : Prop := forall x, ~ In (VEnd (Some x)) (lv_udp (wh_udp w)).
(** Each manager of the network is started (again) only when its earlier coroutine
    has ended. *)
Definition in_turn (es : list wenv) (n : mesh) : Prop :=
  forall i e, nth_error es i = Some e -> w_started_in_turn e (w_init e) (of_manager i (me_done n)).
