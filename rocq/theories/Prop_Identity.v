(** Theorems about UUID, Vector3 and Quaternion objects as objects: C89. *)
From Verif Require Import Lib Identity SpecText TextProofs.
Open Scope Z_scope.
Open Scope list_scope.

(** ** Specification *)
Definition exists_in (h : heap) (a : nat) : Prop := (a < List.length h)%nat.
(** Both are UUID objects holding the same uuid. *)
Definition same_uuid (h : heap) (a b : nat) : Prop :=
  exists u, nth_error h a = Some (CUuid u) /\ nth_error h b = Some (CUuid u).
(** The value last stored under the object [k] itself. *)
Definition last_stored (l : list action) (k : nat) : option Z :=
  fold_left (fun r x => match x with Store a v => if Nat.eqb a k then Some v else r | _ => r end) l None.
(** The actions that change the contents of [a]. *)
Definition changes (x : action) (a : nat) : Prop :=
  (exists fresh, x = Random a fresh) \/ (exists c, x = Unpack a c).
(** UUID objects hold values of 128 bits. *)
Definition proper_content (c : content) : Prop := match c with CUuid u => is_uuid u | _ => True end.

(** ** Proofs *)
Lemma some_inj {A} (x y : A) : Some x = Some y -> x = y.
Proof. congruence. Qed.
Lemma found_same h k k' : found h k k' = Nat.eqb k k'.
Proof. unfold found, obj_hash. now destruct (Nat.eqb k k'). Qed.
Lemma odict_get_set {V} h h' k v (d : list (nat * V)) j :
  odict_get h j (odict_set h' k v d) = if Nat.eqb k j then Some v else odict_get h j d.
Proof.
  induction d as [|[k' v'] d IH]; cbn.
  - rewrite found_same, Nat.eqb_sym. reflexivity.
  - rewrite found_same. destruct (Nat.eqb_spec k k') as [->|N]; cbn; rewrite ?found_same.
    + rewrite (Nat.eqb_sym j k'). destruct (Nat.eqb_spec k' j) as [->|N']; reflexivity.
    + destruct (Nat.eqb_spec j k') as [->|N']; [destruct (Nat.eqb_spec k k'); [contradiction|reflexivity]|exact IH].
Qed.
Lemma odict_get_heap {V} h h' k (d : list (nat * V)) : odict_get h k d = odict_get h' k d.
Proof. induction d as [|[k' v'] d IH]; cbn; [reflexivity|]. rewrite !found_same, IH. reflexivity. Qed.
Lemma replace_nth_get {A} (l : list A) n x m : nth_error (replace_nth l n x) m =
  if Nat.eqb n m then match nth_error l m with Some _ => Some x | None => None end else nth_error l m.
Proof.
  revert n m. induction l as [|a l IH]; intros [|n] [|m]; cbn; try reflexivity; try apply IH.
  all: destruct (Nat.eqb _ _); reflexivity.
Qed.
Lemma replace_nth_length {A} (l : list A) n x : List.length (replace_nth l n x) = List.length l.
Proof. revert n. induction l as [|a l IH]; intros [|n]; cbn; congruence. Qed.

Local Opaque copy_of.
Lemma dict_history txt l : forall w w', acts txt w l = Some w' -> forall k,
  odict_get (w_heap w') k (w_dict w') =
  fold_left (fun r x => match x with Store a v => if Nat.eqb a k then Some v else r | _ => r end) l
    (odict_get (w_heap w) k (w_dict w)).
Proof.
  induction l as [|x l IH]; intros w w' E k; cbn in E.
  - injection E as <-. reflexivity.
  - destruct (act txt w x) as [w1|] eqn:A; [|discriminate]. rewrite (IH w1 w' E k). cbn [fold_left]. f_equal. clear E IH.
    destruct x as [c|a|a f|a c|a v|a v]; unfold act in A; cbv zeta in A.
    + apply some_inj in A as <-. apply odict_get_heap.
    + destruct (nth_error (w_heap w) a) as [c|]; [|discriminate]. destruct (copy_of txt c) as [c'|?]; [|discriminate A].
      apply some_inj in A as <-. apply odict_get_heap.
    + destruct (nth_error (w_heap w) a) as [[u|?|?]|]; [|discriminate A|discriminate A|discriminate A]. apply some_inj in A as <-. apply odict_get_heap.
    + destruct (nth_error (w_heap w) a) as [c0|]; [|discriminate]. destruct (same_class c0 c); [|discriminate].
      apply some_inj in A as <-. apply odict_get_heap.
    + destruct (nth_error (w_heap w) a) as [c0|]; [|discriminate]. apply some_inj in A as <-. apply odict_get_set.
    + destruct (nth_error (w_heap w) a) as [[u|?|?]|]; [|discriminate A|discriminate A|discriminate A]. apply some_inj in A as <-. reflexivity.
Qed.
Lemma dict_keys txt l : forall w w', acts txt w l = Some w' ->
  (forall k v, In (k, v) (w_dict w) -> (k < List.length (w_heap w))%nat) ->
  forall k v, In (k, v) (w_dict w') -> (k < List.length (w_heap w'))%nat.
Proof.
  induction l as [|x l IH]; intros w w' E I; cbn in E; [injection E as <-; exact I|].
  destruct (act txt w x) as [w1|] eqn:A; [|discriminate]. apply (IH w1 w' E). clear E IH.
  destruct x as [c|a|a f|a c|a v|a v]; unfold act in A; cbv zeta in A.
  + apply some_inj in A as <-. cbn. intros k v J. rewrite app_length. cbn. specialize (I k v J). lia.
  + destruct (nth_error (w_heap w) a) as [c|]; [|discriminate]. destruct (copy_of txt c) as [c'|?]; [|discriminate A].
    apply some_inj in A as <-. cbn. intros k v J. rewrite app_length. cbn. specialize (I k v J). lia.
  + destruct (nth_error (w_heap w) a) as [[u|?|?]|]; [|discriminate A|discriminate A|discriminate A]. apply some_inj in A as <-. cbn. now rewrite replace_nth_length.
  + destruct (nth_error (w_heap w) a) as [c0|]; [|discriminate]. destruct (same_class c0 c); [|discriminate].
    apply some_inj in A as <-. cbn. now rewrite replace_nth_length.
  + destruct (nth_error (w_heap w) a) as [c0|] eqn:N; [|discriminate]. apply some_inj in A as <-. cbn.
    assert (a < List.length (w_heap w))%nat as L by (apply nth_error_Some; congruence).
    intros k v' J. revert J I. generalize (w_dict w). intros d. induction d as [|[k' v''] d IHd]; cbn.
    * intros [[= <- <-]|[]] _. exact L.
    * rewrite found_same. destruct (Nat.eqb_spec a k') as [->|Nk].
      -- intros [[= <- <-]|J] I; [exact L|]. eapply I. right. exact J.
      -- intros [[= <- <-]|J] I; [eapply I; now left|]. apply IHd; [exact J|]. intros k0 v0 J0. eapply I. right. exact J0.
  + destruct (nth_error (w_heap w) a) as [[u|?|?]|]; [|discriminate A|discriminate A|discriminate A]. apply some_inj in A as <-. exact I.
Qed.
Lemma not_key {V} h k (d : list (nat * V)) : (forall v, ~ In (k, v) d) -> odict_get h k d = None.
Proof.
  induction d as [|[k' v'] d IH]; cbn; [reflexivity|]. intros N. rewrite found_same.
  destruct (Nat.eqb_spec k k') as [->|]; [exfalso; eapply N; now left|]. apply IH. intros v J. eapply N. right. exact J.
Qed.

(** ** C89 *)

(** Two objects are == iff they are the same object, or UUIDs of the same
    value. *)
Theorem C89_equal : forall h a b, exists_in h a -> exists_in h b ->
  (obj_eq h a b = true <-> a = b \/ same_uuid h a b).
Proof.
  intros h a b A B. unfold obj_eq, same_uuid. apply nth_error_Some in A, B.
  destruct (nth_error h a) as [[u|x|x]|] eqn:Ea; [| | |contradiction];
    (destruct (nth_error h b) as [[v|y|y]|] eqn:Eb; [| | |contradiction]); rewrite ?Z.eqb_eq, ?Nat.eqb_eq.
  all: try (split; [tauto|]; intros [->|(w & [=] & [=])]; reflexivity).
  all: try (split; [discriminate|]; intros [->|(w & [=] & [=])]; congruence).
  split; [intros ->; right; eauto|]. intros [->|(w & [= ->] & [= ->])]; congruence.
Qed.
Print Assumptions C89_equal.

(** They are != iff they are not the same object, whatever they hold: equal
    UUIDs that are two objects are both == and !=. *)
Theorem C89_unequal : forall h a b, exists_in h a -> exists_in h b ->
  (obj_ne a b = true <-> a <> b) /\
  (obj_eq h a b = true /\ obj_ne a b = true <-> a <> b /\ same_uuid h a b).
Proof.
  intros h a b A B.
  assert (obj_ne a b = true <-> a <> b) as N by (unfold obj_ne; rewrite negb_true_iff; apply Nat.eqb_neq).
  split; [exact N|]. rewrite N, C89_equal by assumption. tauto.
Qed.
Print Assumptions C89_unequal.

(** Membership in a list goes by ==. *)
Theorem C89_member : forall h x l, exists_in h x -> Forall (exists_in h) l ->
  (obj_in h x l = true <-> exists y, In y l /\ (y = x \/ same_uuid h x y)).
Proof.
  intros h x l X L. unfold obj_in. rewrite existsb_exists. rewrite Forall_forall in L. split.
  - intros (y & I & H). exists y. split; [exact I|]. apply orb_true_iff in H as [H|H].
    + apply Nat.eqb_eq in H. auto.
    + apply C89_equal in H as [H|H]; auto.
  - intros (y & I & H). exists y. split; [exact I|]. apply orb_true_iff. destruct H as [->|H].
    + left. apply Nat.eqb_refl.
    + right. apply C89_equal; auto.
Qed.
Print Assumptions C89_member.

(** A dictionary keyed by objects goes by identity: after any history of
    creating, copying, changing and storing, looking an object up gives what was
    last stored under that very object, however its contents changed since; an
    equal UUID that is another object is not found. *)
Theorem C89_dictionary : forall txt l w, acts txt empty_world l = Some w ->
  forall k, odict_get (w_heap w) k (w_dict w) = last_stored l k.
Proof. intros txt l w E k. rewrite (dict_history txt l _ _ E k). reflexivity. Qed.
Print Assumptions C89_dictionary.

(** A dictionary keyed by what UUID objects return when called goes by value,
    the value they had when the entry was stored. *)
Theorem C89_values : forall txt w x w', act txt w x = Some w' -> forall u,
  dget Z.eqb u (w_values w') =
  match x with
  | StoreValue a v => match nth_error (w_heap w) a with
                      | Some (CUuid u') => if u' =? u then Some v else dget Z.eqb u (w_values w)
                      | _ => dget Z.eqb u (w_values w)
                      end
  | _ => dget Z.eqb u (w_values w)
  end.
Proof.
  intros txt w x w' A u. destruct x as [c|a|a f|a c|a v|a v]; unfold act in A; cbv zeta in A.
  + apply some_inj in A as <-; reflexivity.
  + destruct (nth_error (w_heap w) a) as [c|]; [|discriminate]. destruct (copy_of txt c) as [c'|?]; [|discriminate A]. apply some_inj in A as <-; reflexivity.
  + destruct (nth_error (w_heap w) a) as [[t|?|?]|]; [|discriminate A|discriminate A|discriminate A]. apply some_inj in A as <-; reflexivity.
  + destruct (nth_error (w_heap w) a) as [c0|]; [|discriminate]. destruct (same_class c0 c); [|discriminate]. apply some_inj in A as <-; reflexivity.
  + destruct (nth_error (w_heap w) a) as [c0|]; [|discriminate]. apply some_inj in A as <-; reflexivity.
  + destruct (nth_error (w_heap w) a) as [[t|?|?]|]; [|discriminate A|discriminate A|discriminate A]. apply some_inj in A as <-. cbn.
    generalize (w_values w). intros d. induction d as [|[k' v'] d IH]; cbn.
    * destruct (Z.eqb_spec u t) as [->|N]; [now rewrite Z.eqb_refl|]. destruct (Z.eqb_spec t u); [congruence|reflexivity].
    * destruct (Z.eqb_spec t k') as [->|N]; cbn.
      -- destruct (Z.eqb_spec u k') as [->|N']; [now rewrite Z.eqb_refl|]. destruct (Z.eqb_spec k' u); [congruence|reflexivity].
      -- destruct (Z.eqb_spec u k') as [->|N']; [destruct (Z.eqb_spec t k'); [contradiction|reflexivity]|exact IH].
Qed.
Print Assumptions C89_values.

(** A copy is a new object with the same contents; it is == to the original iff
    that is a UUID, always != to it, and not found in any dictionary. *)
Theorem C89_copy : forall txt l w a c, acts txt empty_world l = Some w ->
  nth_error (w_heap w) a = Some c -> proper_content c ->
  exists w', act txt w (Copy a) = Some w' /\ let new := List.length (w_heap w) in
    (w_heap w' = w_heap w ++ [c] /\ nth_error (w_heap w') new = Some c) /\
    (obj_eq (w_heap w') a new = true <-> exists u, c = CUuid u) /\ obj_ne a new = true /\
    odict_get (w_heap w') new (w_dict w') = None.
Proof.
  intros txt l w a c E N P.
  assert (copy_of txt c = Ok c) as C.
  Local Transparent copy_of.
  { destruct c as [u|[[x y] z]|[[[x y] z] t]]; cbn; [|reflexivity|reflexivity].
    unfold uuid_copy. rewrite uuid_parse_str by exact P. reflexivity. }
  assert (a < List.length (w_heap w))%nat as L by (apply nth_error_Some; congruence).
  eexists. split; [cbn; rewrite N, C; reflexivity|]. cbv zeta. cbn [w_heap w_dict].
  assert (nth_error (w_heap w ++ [c]) (List.length (w_heap w)) = Some c) as New
    by (rewrite nth_error_app2, Nat.sub_diag by lia; reflexivity).
  split; [split; [reflexivity|exact New]|]. split.
  - rewrite C89_equal; [|unfold exists_in; rewrite app_length; cbn; lia|unfold exists_in; rewrite app_length; cbn; lia].
    unfold same_uuid. rewrite New, nth_error_app1, N by exact L. split.
    + intros [->|(u & [= ->] & _)]; [lia|eauto].
    + intros (u & ->). right. eauto.
  - split; [unfold obj_ne; apply negb_true_iff, Nat.eqb_neq; lia|].
    apply not_key. intros v J. enough (List.length (w_heap w) < List.length (w_heap w))%nat by lia.
    eapply (dict_keys txt l _ _ E); [intros k v' []|exact J].
Qed.
Print Assumptions C89_copy.

(** Changing an object changes no other one, its copies included. *)
Theorem C89_independent : forall txt w x w' a, act txt w x = Some w' -> exists_in (w_heap w) a -> ~ changes x a ->
  nth_error (w_heap w') a = nth_error (w_heap w) a.
Proof.
  intros txt w x w' a A L N. destruct x as [c|b|b f|b c|b v|b v]; unfold act in A; cbv zeta in A.
  + apply some_inj in A as <-. cbn. now apply nth_error_app1.
  + destruct (nth_error (w_heap w) b) as [c|]; [|discriminate]. destruct (copy_of txt c) as [c'|?]; [|discriminate A]. apply some_inj in A as <-.
    cbn. now apply nth_error_app1.
  + destruct (nth_error (w_heap w) b) as [[t|?|?]|]; [|discriminate A|discriminate A|discriminate A]. apply some_inj in A as <-. cbn. rewrite replace_nth_get.
    destruct (Nat.eqb_spec b a) as [->|]; [|reflexivity]. exfalso. apply N. left. eauto.
  + destruct (nth_error (w_heap w) b) as [c0|]; [|discriminate]. destruct (same_class c0 c); [|discriminate]. apply some_inj in A as <-.
    cbn. rewrite replace_nth_get. destruct (Nat.eqb_spec b a) as [->|]; [|reflexivity]. exfalso. apply N. right. eauto.
  + destruct (nth_error (w_heap w) b) as [c0|]; [|discriminate]. apply some_inj in A as <-; reflexivity.
  + destruct (nth_error (w_heap w) b) as [[t|?|?]|]; [|discriminate A|discriminate A|discriminate A]. apply some_inj in A as <-; reflexivity.
Qed.
Print Assumptions C89_independent.

(** An inventory keyed by UUID objects: the item read from a packet, 0, is
    stored; the same id given as a text, 1, or a copy, 2, does not find it,
    although it is in the list of keys.  Keyed by the uuid it is found. *)
Definition an_id : Z := 24197857203266734864793317670504947440.
Example C89_case : exists w,
  acts (fun _ => Err ValueErr) empty_world
    [New (CUuid an_id); Store 0 7; StoreValue 0 7; New (CUuid an_id); Copy 0] = Some w /\
  obj_eq (w_heap w) 0 1 = true /\ obj_ne 0 1 = true /\ obj_eq (w_heap w) 0 2 = true /\
  odict_get (w_heap w) 0 (w_dict w) = Some 7 /\ odict_get (w_heap w) 1 (w_dict w) = None /\
  odict_get (w_heap w) 2 (w_dict w) = None /\ obj_in (w_heap w) 1 (map fst (w_dict w)) = true /\
  dget Z.eqb an_id (w_values w) = Some 7.
Proof. eexists. split; [vm_compute; reflexivity|]. vm_compute. auto 10. Qed.
(** The nil UUID under which something was stored still finds it after
    random(). *)
Example C89_case_changed : exists w,
  acts (fun _ => Err ValueErr) empty_world [New (CUuid 0); Store 0 7; StoreValue 0 7; Random 0 an_id] = Some w /\
  nth_error (w_heap w) 0 = Some (CUuid an_id) /\
  odict_get (w_heap w) 0 (w_dict w) = Some 7 /\ dget Z.eqb an_id (w_values w) = None.
Proof. eexists. split; [vm_compute; reflexivity|]. vm_compute. auto. Qed.
(** Vectors are equal only to themselves. *)
Example C89_case_vectors :
  let v := CVec (S754_zero false, S754_zero false, S754_zero false) in
  obj_eq [v; v] 0 1 = false /\ obj_eq [v; v] 0 0 = true /\ ~ same_uuid [v; v] 0 1.
Proof. split; [reflexivity|]. split; [reflexivity|]. intros (u & [=] & _). Qed.
