(** Deciding the conditions of SpecTemplate.v. *)
From Verif Require Import Lib SpecTemplate TemplateDict.

Fixpoint nodupb {A} (eqb : A -> A -> bool) (l : list A) : bool :=
  match l with [] => true | a :: l' => negb (existsb (eqb a) l') && nodupb eqb l' end.
Lemma nodupb_spec {A} (eqb : A -> A -> bool) : (forall a, eqb a a = true) -> forall l, nodupb eqb l = true -> NoDup l.
Proof.
  intros R. induction l as [|a l IH]; intros H; [constructor|]. cbn in H. apply andb_prop in H as [H1 H2].
  constructor; [|auto]. intros IN. assert (existsb (eqb a) l = true) as E by (apply existsb_exists; exists a; auto). rewrite E in H1. discriminate.
Qed.
Definition variable_ok (v : tvar) : bool :=
  match tv_type v, tv_size v with
  | Some MVT_VARIABLE, Some s => (s =? 1) || (s =? 2)
  | Some MVT_FIXED, Some s => 1 <=? s
  | Some ty, Some s => s =? sizeof_mvt ty
  | _, _ => false
  end.
Lemma variable_ok_spec v : variable_ok v = true -> proper_variable v.
Proof.
  unfold variable_ok, proper_variable. destruct (tv_type v) as [ty|]; [|discriminate].
  destruct (tv_size v) as [s|]; [|destruct ty; discriminate]. intros H. exists ty. split; [reflexivity|].
  destruct ty; try (apply Z.eqb_eq in H; rewrite H; reflexivity).
  - exists s. split; [reflexivity|]. now apply Z.leb_le.
  - apply orb_prop in H as [H|H]; apply Z.eqb_eq in H; rewrite H; auto.
Qed.
Definition block_ok (b : tblock) : bool :=
  match tb_type b with
  | Some MBT_MULTIPLE => 1 <=? tb_number b
  | Some _ => true
  | None => false
  end && forallb variable_ok (tb_vars b) && nodupb String.eqb (map tv_name (tb_vars b)).
Lemma forallb_Forall {A} (f : A -> bool) (P : A -> Prop) l : (forall x, f x = true -> P x) -> forallb f l = true -> Forall P l.
Proof. intros K H. apply Forall_forall. intros x X. apply K. rewrite forallb_forall in H. auto. Qed.
Lemma block_ok_spec b : block_ok b = true -> proper_block b.
Proof.
  unfold block_ok, proper_block. intros H. apply andb_prop in H as [H H3]. apply andb_prop in H as [H1 H2].
  split; [|split; [exact (forallb_Forall _ _ _ variable_ok_spec H2)|exact (nodupb_spec _ String.eqb_refl _ H3)]].
  destruct (tb_type b) as [[]|]; try discriminate; auto. right; left. split; [reflexivity|now apply Z.leb_le].
Qed.
Definition codableb (f : freq) (n : Z) : bool :=
  (0 <=? n) && (n <? match f with HIGH | MEDIUM => 255 | LOW => 65280 | FIXED => 256 end).
Definition isSomeb {A} (o : option A) : bool := match o with Some _ => true | None => false end.
Definition template_ok (t : template) : bool :=
  match t_freq t with Some f => codableb f (t_num t) | None => false end &&
  isSomeb (t_trust t) && isSomeb (t_enc t) && isSomeb (t_dep t) &&
  forallb block_ok (t_blocks t) && nodupb String.eqb (map tb_name (t_blocks t)).
Lemma template_ok_spec t : template_ok t = true -> proper_template t.
Proof.
  unfold template_ok, proper_template. intros H.
  apply andb_prop in H as [H H6]. apply andb_prop in H as [H H5]. apply andb_prop in H as [H H4].
  apply andb_prop in H as [H H3]. apply andb_prop in H as [H1 H2].
  split; [|split; [|split; [|split; [|split]]]].
  - destruct (t_freq t) as [f|]; [|discriminate]. exists f. split; [reflexivity|].
    unfold codableb in H1. apply andb_prop in H1 as [A B]. apply Z.leb_le in A. apply Z.ltb_lt in B. destruct f; cbn; lia.
  - now destruct (t_trust t).
  - now destruct (t_enc t).
  - now destruct (t_dep t).
  - exact (forallb_Forall _ _ _ block_ok_spec H5).
  - exact (nodupb_spec _ String.eqb_refl _ H6).
Qed.
Lemma pair_eqb_refl p : pair_eqb p p = true.
Proof. destruct p as [[[]|] z]; unfold pair_eqb; cbn; now rewrite Z.eqb_refl. Qed.
Definition unambiguousb (ts : list template) : bool :=
  nodupb String.eqb (map t_name ts) && nodupb pair_eqb (map (fun t => (t_freq t, t_num t)) ts).
Lemma unambiguousb_spec ts : unambiguousb ts = true -> unambiguous ts.
Proof.
  intros H. apply andb_prop in H as [H1 H2].
  split; [exact (nodupb_spec _ String.eqb_refl _ H1)|exact (nodupb_spec _ pair_eqb_refl _ H2)].
Qed.
