(** Lemmas about the vocabulary of [Prelude] and [PyStruct]. *)
From Coq Require Import ZifyBool ZifyNat.
From Verif Require Import Prelude PyStruct.
Ltac Zify.zify_post_hook ::= Z.div_mod_to_equations.

(** ** Bytes *)
Lemma ord_range b : 0 <= ord b < 256.
Proof. unfold ord. pose proof (Byte.to_N_bounded b). lia. Qed.

Lemma ord_chr z : ord (chr z) = z mod 256.
Proof.
  unfold ord, chr.
  assert (H : (Z.to_N (z mod 256) <= 255)%N) by (pose proof (Z.mod_pos_bound z 256); lia).
  destruct (Byte.of_N (Z.to_N (z mod 256))) as [b|] eqn:E.
  - apply Byte.to_of_N in E. rewrite E.
    pose proof (Z.mod_pos_bound z 256). lia.
  - apply Byte.of_N_None_iff in E. lia.
Qed.

Lemma ord_inj a b : ord a = ord b -> a = b.
Proof.
  unfold ord. intros H. assert (E : Byte.to_N a = Byte.to_N b) by lia.
  pose proof (Byte.of_to_N a) as Ha. pose proof (Byte.of_to_N b) as Hb.
  rewrite E in Ha. congruence.
Qed.

Lemma chr_ord b : chr (ord b) = b.
Proof. apply ord_inj. rewrite ord_chr. apply Z.mod_small, ord_range. Qed.

Lemma chr_mod z : chr (z mod 256) = chr z.
Proof. apply ord_inj. rewrite !ord_chr, Z.mod_mod; lia. Qed.

Lemma byte_eqb_true a b : Byte.eqb a b = true <-> a = b.
Proof. destruct (Byte.eqb a b) eqn:E.
  - apply Byte.byte_dec_bl in E. tauto.
  - split; [discriminate|]. intros ->.
    rewrite (Byte.byte_dec_lb (eq_refl b)) in E. discriminate. Qed.
Lemma byte_eqb_false a b : Byte.eqb a b = false <-> a <> b.
Proof. rewrite <- byte_eqb_true. destruct (Byte.eqb a b); split; congruence. Qed.
Lemma byte_eqb_refl a : Byte.eqb a a = true.
Proof. now apply byte_eqb_true. Qed.

(** ** Lengths *)
Lemma zlen_nonneg {A} (l : list A) : 0 <= zlen l.
Proof. unfold zlen. lia. Qed.
Lemma zlen_app {A} (l l' : list A) : zlen (l ++ l') = zlen l + zlen l'.
Proof. unfold zlen. rewrite app_length. lia. Qed.
Lemma zlen_nil {A} : zlen (@nil A) = 0.
Proof. reflexivity. Qed.
Lemma zlen_cons {A} (a : A) l : zlen (a :: l) = 1 + zlen l.
Proof. unfold zlen. cbn [List.length]. lia. Qed.
Lemma zlen_rev {A} (l : list A) : zlen (rev l) = zlen l.
Proof. unfold zlen. now rewrite rev_length. Qed.
Lemma zlen_map {A B} (f : A -> B) l : zlen (map f l) = zlen l.
Proof. unfold zlen. now rewrite map_length. Qed.
Lemma zlen_repeat {A} (x : A) n : zlen (repeat x n) = Z.of_nat n.
Proof. unfold zlen. now rewrite repeat_length. Qed.
Lemma zlen_0 {A} (l : list A) : zlen l = 0 -> l = [].
Proof. destruct l; unfold zlen; cbn [List.length]; [auto|lia]. Qed.
Lemma zlen_to_nat {A} (l : list A) : Z.to_nat (zlen l) = List.length l.
Proof. unfold zlen. lia. Qed.

(** ** Slices *)
Lemma pyslice_mid {A} (pre b post : list A) i j :
  i = zlen pre -> j = zlen pre + zlen b ->
  pyslice (pre ++ b ++ post) i j = b.
Proof.
  intros -> ->. unfold pyslice, slice_bound. rewrite !zlen_app.
  pose proof (zlen_nonneg pre). pose proof (zlen_nonneg b). pose proof (zlen_nonneg post).
  destruct (zlen pre <? 0) eqn:E1; [lia|].
  destruct (zlen pre + zlen b <? 0) eqn:E2; [lia|].
  rewrite !Z.min_l by lia.
  replace (zlen pre + zlen b - zlen pre) with (zlen b) by lia.
  rewrite !zlen_to_nat.
  rewrite skipn_app, skipn_all, Nat.sub_diag. cbn [skipn app].
  rewrite firstn_app, firstn_all, Nat.sub_diag. cbn [firstn]. now rewrite app_nil_r.
Qed.

Lemma pyslice_pos {A} (s : list A) i j :
  0 <= i -> 0 <= j -> pyslice s i j = firstn (Z.to_nat (j - i)) (skipn (Z.to_nat i) s).
Proof.
  intros Hi Hj. unfold pyslice, slice_bound.
  destruct (i <? 0) eqn:E1; [lia|]. destruct (j <? 0) eqn:E2; [lia|].
  pose proof (zlen_nonneg s) as Hl.
  destruct (Z_le_gt_dec (zlen s) i) as [Hi'|Hi'].
  - rewrite (Z.min_r i) by lia.
    rewrite !skipn_all2, !firstn_nil; auto; unfold zlen in *; lia.
  - rewrite (Z.min_l i) by lia.
    destruct (Z_le_gt_dec (zlen s) j) as [Hj'|Hj'].
    + rewrite Z.min_r by lia.
      rewrite (firstn_all2 (n := Z.to_nat (zlen s - i))), (firstn_all2 (n := Z.to_nat (j - i)));
        auto; rewrite skipn_length; unfold zlen in *; lia.
    + now rewrite Z.min_l by lia.
Qed.

Lemma pyfrom_pos {A} (s : list A) i : 0 <= i -> pyfrom s i = skipn (Z.to_nat i) s.
Proof.
  intros Hi. unfold pyfrom. rewrite pyslice_pos by (auto using zlen_nonneg).
  apply firstn_all2. rewrite skipn_length. unfold zlen. lia.
Qed.
Lemma pyupto_pos {A} (s : list A) j : 0 <= j -> pyupto s j = firstn (Z.to_nat j) s.
Proof.
  intros Hj. unfold pyupto. rewrite pyslice_pos by lia. cbn [Z.to_nat skipn].
  now rewrite Z.sub_0_r.
Qed.
Lemma pyupto_neg {A} (s : list A) k :
  0 < k -> pyupto s (- k) = firstn (Z.to_nat (zlen s - k)) s.
Proof.
  intros Hk. unfold pyupto, pyslice, slice_bound. pose proof (zlen_nonneg s).
  destruct (0 <? 0) eqn:E; [lia|]. destruct (- k <? 0) eqn:E2; [|lia].
  rewrite Z.min_l by lia. cbn [Z.to_nat skipn].
  destruct (Z_le_gt_dec k (zlen s)).
  - rewrite Z.max_r by lia. f_equal. lia.
  - rewrite Z.max_l by lia. replace (Z.to_nat (zlen s - k)) with O by lia. reflexivity.
Qed.
Lemma pyfrom_neg {A} (s : list A) k :
  0 < k -> pyfrom s (- k) = skipn (Z.to_nat (zlen s - k)) s.
Proof.
  intros Hk. unfold pyfrom, pyslice, slice_bound. pose proof (zlen_nonneg s).
  destruct (- k <? 0) eqn:E2; [|lia]. destruct (zlen s <? 0) eqn:E; [lia|].
  rewrite Z.min_l by lia.
  destruct (Z_le_gt_dec k (zlen s)).
  - rewrite Z.max_r by lia. rewrite (firstn_all2 (n := _)).
    + f_equal. lia.
    + rewrite skipn_length. unfold zlen in *. lia.
  - rewrite Z.max_l by lia. replace (Z.to_nat (zlen s - k)) with O by lia. cbn [Z.to_nat skipn].
    apply firstn_all2. unfold zlen. lia.
Qed.
Lemma pyupto_app {A} (s t : list A) : pyupto (s ++ t) (zlen s) = s.
Proof.
  rewrite pyupto_pos by apply zlen_nonneg. rewrite zlen_to_nat.
  rewrite firstn_app, firstn_all, Nat.sub_diag. cbn [firstn]. now rewrite app_nil_r.
Qed.
Lemma pyfrom_app {A} (s t : list A) : pyfrom (s ++ t) (zlen s) = t.
Proof.
  rewrite pyfrom_pos by apply zlen_nonneg. rewrite zlen_to_nat.
  rewrite skipn_app, skipn_all, Nat.sub_diag. reflexivity.
Qed.

Lemma pyslice_length_le {A} (s : list A) i j :
  0 <= i -> 0 <= j -> zlen (pyslice s i j) <= Z.max 0 (j - i).
Proof.
  intros Hi Hj. rewrite pyslice_pos by auto. unfold zlen.
  rewrite firstn_length. lia.
Qed.
Lemma pyslice_length {A} (s : list A) i j :
  0 <= i <= j -> zlen (pyslice s i j) = Z.max 0 (Z.min (j - i) (zlen s - i)).
Proof.
  intros Hi. rewrite pyslice_pos by lia. unfold zlen.
  rewrite firstn_length, skipn_length. lia.
Qed.

Lemma pyindex_pos {A} (s : list A) i :
  0 <= i -> pyindex s i = match nth_error s (Z.to_nat i) with Some x => Ok x | None => Err IndexErr end.
Proof.
  intros Hi. unfold pyindex. destruct (i <? 0) eqn:E; [lia|]. now rewrite E.
Qed.
Lemma pyindex_ok {A} (s : list A) i : 0 <= i < zlen s -> exists x, pyindex s i = Ok x.
Proof.
  intros Hi. rewrite pyindex_pos by lia.
  destruct (nth_error s (Z.to_nat i)) as [x|] eqn:E; [eauto|].
  apply nth_error_None in E. unfold zlen in *. lia.
Qed.
Lemma pyindex_err {A} (s : list A) i : zlen s <= i -> pyindex s i = Err IndexErr.
Proof.
  intros Hi. pose proof (zlen_nonneg s). rewrite pyindex_pos by lia.
  destruct (nth_error s (Z.to_nat i)) as [x|] eqn:E; [|reflexivity].
  assert (nth_error s (Z.to_nat i) <> None) as H1 by congruence.
  apply nth_error_Some in H1. unfold zlen in *. lia.
Qed.
Lemma pyindex_inv {A} (s : list A) i x : pyindex s i = Ok x -> 0 <= i -> i < zlen s.
Proof.
  intros H Hi. destruct (Z_lt_ge_dec i (zlen s)); auto.
  rewrite pyindex_err in H by lia. discriminate.
Qed.
Lemma pyindex_only_index {A} (s : list A) i e : pyindex s i = Err e -> e = IndexErr.
Proof.
  unfold pyindex. destruct (_ <? 0); [congruence|].
  destruct (nth_error _ _); congruence.
Qed.
Lemma pyindex_app {A} (s t : list A) x i :
  i = zlen s -> pyindex (s ++ x :: t) i = Ok x.
Proof.
  intros ->. rewrite pyindex_pos by apply zlen_nonneg. rewrite zlen_to_nat.
  rewrite nth_error_app2, Nat.sub_diag by lia. reflexivity.
Qed.

(** ** Integers as bytes *)
Lemma le_bytes_length n z : List.length (le_bytes n z) = n.
Proof. revert z; induction n as [|n IH]; intros z; cbn; auto. Qed.
Lemma enc_length en n z : List.length (enc en n z) = n.
Proof. destruct en; cbn; unfold be_bytes; rewrite ?rev_length; apply le_bytes_length. Qed.
Lemma zlen_enc en n z : zlen (enc en n z) = Z.of_nat n.
Proof. unfold zlen. now rewrite enc_length. Qed.

Lemma pow2_S n : 2 ^ (8 * Z.of_nat (S n)) = 256 * 2 ^ (8 * Z.of_nat n).
Proof.
  replace (8 * Z.of_nat (S n)) with (8 + 8 * Z.of_nat n) by lia.
  rewrite Z.pow_add_r by lia. reflexivity.
Qed.
Lemma pow2_pos n : 0 < 2 ^ (8 * Z.of_nat n).
Proof. apply Z.pow_pos_nonneg; lia. Qed.

Lemma le_val_le_bytes n z : le_val (le_bytes n z) = z mod 2 ^ (8 * Z.of_nat n).
Proof.
  revert z; induction n as [|n IH]; intros z; cbn [le_bytes le_val].
  - now rewrite Z.mod_1_r.
  - rewrite IH, ord_chr, pow2_S. pose proof (pow2_pos n) as Hp.
    rewrite (Z.rem_mul_r z 256); lia.
Qed.
Lemma dec_enc en n z : dec en (enc en n z) = z mod 2 ^ (8 * Z.of_nat n).
Proof.
  destruct en; cbn; unfold be_val, be_bytes; rewrite ?rev_involutive; apply le_val_le_bytes.
Qed.

Lemma le_val_range s : 0 <= le_val s < 2 ^ (8 * zlen s).
Proof.
  unfold zlen. induction s as [|b s IH]; cbn [le_val List.length]; [cbn; lia|].
  rewrite pow2_S. pose proof (ord_range b). lia.
Qed.
Lemma dec_range en s : 0 <= dec en s < 2 ^ (8 * zlen s).
Proof.
  destruct en; cbn; [apply le_val_range|].
  unfold be_val. rewrite <- (zlen_rev s). apply le_val_range.
Qed.
Lemma le_bytes_le_val s : le_bytes (List.length s) (le_val s) = s.
Proof.
  induction s as [|b s IH]; cbn [le_val List.length le_bytes]; [reflexivity|].
  f_equal.
  - apply ord_inj. rewrite ord_chr. pose proof (ord_range b). lia.
  - replace ((ord b + 256 * le_val s) / 256) with (le_val s); [exact IH|].
    pose proof (ord_range b). lia.
Qed.
Lemma enc_dec en s n : List.length s = n -> enc en n (dec en s) = s.
Proof.
  intros <-. destruct en; cbn; unfold be_bytes, be_val.
  - apply le_bytes_le_val.
  - rewrite <- (rev_length s), le_bytes_le_val. apply rev_involutive.
Qed.
Lemma dec_inj en s s' : List.length s = List.length s' -> dec en s = dec en s' -> s = s'.
Proof.
  intros Hl Hd. rewrite <- (enc_dec en s (List.length s) eq_refl), Hd, Hl.
  now apply enc_dec.
Qed.
Lemma enc_mod en n z z' :
  z mod 2 ^ (8 * Z.of_nat n) = z' mod 2 ^ (8 * Z.of_nat n) -> enc en n z = enc en n z'.
Proof.
  intros H. apply (dec_inj en); [now rewrite !enc_length|]. now rewrite !dec_enc.
Qed.

Lemma to_signed_spec n u : (0 < n)%nat -> 0 <= u < 2 ^ (8 * Z.of_nat n) ->
  in_range true n (to_signed n u) = true /\
  to_signed n u mod 2 ^ (8 * Z.of_nat n) = u.
Proof.
  intros Hn Hu. unfold to_signed, in_range.
  assert (Hp : 2 ^ (8 * Z.of_nat n) = 2 * 2 ^ (8 * Z.of_nat n - 1)).
  { rewrite <- Z.pow_succ_r by lia. f_equal. lia. }
  rewrite Hp in *. clear Hp. revert Hu. generalize (2 ^ (8 * Z.of_nat n - 1)). intros p Hu.
  destruct (u <? p) eqn:E.
  - split; [lia|]. apply Z.mod_small. lia.
  - split; [lia|]. symmetry. apply (Z.mod_unique_pos (u - 2 * p) (2 * p) (-1) u); lia.
Qed.
Lemma to_signed_inv n z : (0 < n)%nat -> in_range true n z = true ->
  to_signed n (z mod 2 ^ (8 * Z.of_nat n)) = z.
Proof.
  intros Hn. unfold to_signed, in_range.
  assert (Hp : 2 ^ (8 * Z.of_nat n) = 2 * 2 ^ (8 * Z.of_nat n - 1)).
  { rewrite <- Z.pow_succ_r by lia. f_equal. lia. }
  rewrite Hp. clear Hp. generalize (2 ^ (8 * Z.of_nat n - 1)). intros p Hz.
  destruct (Z_lt_ge_dec z 0) as [H|H].
  - rewrite <- (Z.mod_unique_pos z (2 * p) (-1) (z + 2 * p)) by lia.
    destruct (z + 2 * p <? p) eqn:E; lia.
  - rewrite Z.mod_small by lia. destruct (z <? p) eqn:E; lia.
Qed.

(** ** Dictionaries *)
Section DictLemmas.
  Context {K V : Type} (eqb : K -> K -> bool)
          (eqb_spec : forall a b, eqb a b = true <-> a = b).
  Lemma deqb_refl a : eqb a a = true. Proof. now apply eqb_spec. Qed.
  Lemma deqb_neq a b : a <> b -> eqb a b = false.
  Proof. intros H. destruct (eqb a b) eqn:E; auto. apply eqb_spec in E. congruence. Qed.
  Lemma dget_dset_eq k (v : V) d : dget eqb k (dset eqb k v d) = Some v.
  Proof.
    induction d as [|[k' v'] d IH]; cbn; [now rewrite deqb_refl|].
    destruct (eqb k k') eqn:E; cbn; rewrite E; auto.
  Qed.
  Lemma dget_dset_neq k k' (v : V) d : k <> k' -> dget eqb k (dset eqb k' v d) = dget eqb k d.
  Proof.
    intros H. induction d as [|[k2 v2] d IH]; cbn; [now rewrite deqb_neq|].
    destruct (eqb k' k2) eqn:E; cbn.
    - apply eqb_spec in E. subst. now rewrite (deqb_neq k k2).
    - destruct (eqb k k2); auto.
  Qed.
  Lemma dget_In k (v : V) d : dget eqb k d = Some v -> In (k, v) d.
  Proof.
    induction d as [|[k' v'] d IH]; cbn; [discriminate|].
    destruct (eqb k k') eqn:E; [|auto]. apply eqb_spec in E. intros [= ->]. left. congruence.
  Qed.
  Lemma dget_None k (d : list (K * V)) : dget eqb k d = None <-> ~ In k (dkeys d).
  Proof.
    induction d as [|[k' v'] d IH]; cbn; [tauto|].
    destruct (eqb k k') eqn:E.
    - apply eqb_spec in E. split; [discriminate|]. intros H. exfalso. apply H. auto.
    - rewrite IH. split; [|tauto]. intros H [H1|H1]; [|auto]. subst.
      rewrite deqb_refl in E. discriminate.
  Qed.
  Lemma dmem_In k d : dmem eqb k d = true <-> In k (dkeys (V := V) d).
  Proof.
    unfold dmem. destruct (dget eqb k d) eqn:E.
    - split; auto. intros _. apply dget_In in E. apply (in_map fst) in E. exact E.
    - apply dget_None in E. split; [discriminate|tauto].
  Qed.
  Lemma dkeys_dset k (v : V) d : dkeys (dset eqb k v d) =
    if dmem eqb k d then dkeys (V := V) d else dkeys d ++ [k].
  Proof.
    unfold dmem. induction d as [|[k' v'] d IH]; cbn; [reflexivity|].
    destruct (eqb k k') eqn:E; cbn; [reflexivity|].
    unfold dkeys in *. rewrite IH. destruct (dget eqb k d); reflexivity.
  Qed.
  Lemma dset_nodup k (v : V) d : NoDup (dkeys (V := V) d) -> NoDup (dkeys (dset eqb k v d)).
  Proof.
    intros H. rewrite dkeys_dset. destruct (dmem eqb k d) eqn:E; auto.
    rewrite <- (rev_involutive (dkeys d ++ [k])), rev_app_distr.
    apply NoDup_rev. cbn [rev app]. constructor; [|now apply NoDup_rev].
    rewrite <- in_rev. intros Hin. apply dmem_In in Hin. congruence.
  Qed.
  Lemma dget_ddel_eq k d : NoDup (dkeys (V := V) d) -> dget eqb k (ddel eqb k d) = None.
  Proof.
    induction d as [|[k' v'] d IH]; cbn; [auto|]. intros H. inversion H; subst.
    destruct (eqb k k') eqn:E.
    - apply eqb_spec in E. subst. now apply dget_None.
    - cbn. rewrite E. auto.
  Qed.
  Lemma dget_ddel_neq k k' (d : list (K * V)) : k <> k' -> dget eqb k (ddel eqb k' d) = dget eqb k d.
  Proof.
    intros H. induction d as [|[k2 v2] d IH]; cbn; [auto|].
    destruct (eqb k' k2) eqn:E; cbn.
    - apply eqb_spec in E. subst. now rewrite deqb_neq.
    - destruct (eqb k k2); auto.
  Qed.
  Lemma ddel_nodup k d : NoDup (dkeys (V := V) d) -> NoDup (dkeys (ddel eqb k d)).
  Proof.
    induction d as [|[k' v'] d IH]; cbn; [auto|]. intros H. inversion H as [|? ? Hn Hd]; subst.
    destruct (eqb k k'); [auto|]. cbn. constructor; [|auto].
    intros Hin. apply Hn. clear - Hin. induction d as [|[k2 v2] d IH]; cbn in *; [auto|].
    destruct (eqb k k2); cbn in *; tauto.
  Qed.
  Lemma dget_In_nodup k (v : V) d : NoDup (dkeys (V := V) d) -> In (k, v) d -> dget eqb k d = Some v.
  Proof.
    induction d as [|[k' v'] d IH]; cbn; [tauto|]. intros Hn [H|H].
    - injection H as -> ->. now rewrite deqb_refl.
    - inversion Hn as [|? ? Hi Hd]; subst. rewrite deqb_neq; auto.
      intros ->. apply Hi. apply (in_map fst) in H. exact H.
  Qed.
  Lemma dset_same_len k (v : V) d : dmem eqb k d = true -> List.length (dset eqb k v d) = List.length (A := K * V) d.
  Proof.
    unfold dmem. induction d as [|[k' v'] d IH]; cbn; [discriminate|].
    destruct (eqb k k') eqn:E; cbn; auto.
  Qed.
  Lemma dset_app_new k (v : V) d : dmem eqb k d = false -> dset eqb k v d = d ++ [(k, v)].
  Proof.
    unfold dmem. induction d as [|[k' v'] d IH]; cbn; [auto|].
    destruct (eqb k k') eqn:E; cbn; [discriminate|]. intros H. now rewrite IH.
  Qed.
End DictLemmas.

Lemma string_eqb_spec a b : String.eqb a b = true <-> a = b.
Proof. apply String.eqb_eq. Qed.
Lemma zeqb_spec a b : (a =? b) = true <-> a = b.
Proof. apply Z.eqb_eq. Qed.
Lemma nateqb_spec a b : Nat.eqb a b = true <-> a = b.
Proof. apply Nat.eqb_eq. Qed.

(** ** rstrip *)
Lemma lstrip0_repeat n s : lstrip0 (repeat x00 n ++ s) = lstrip0 s.
Proof. induction n as [|n IH]; cbn; auto. Qed.
Lemma lstrip0_ex s : exists n, s = repeat x00 n ++ lstrip0 s.
Proof.
  induction s as [|b s [n IH]]; [exists O; reflexivity|].
  destruct b; try (exists O; reflexivity). exists (S n). cbn [lstrip0 repeat app]. congruence.
Qed.
Lemma lstrip0_hd s : lstrip0 s = [] \/ exists b t, lstrip0 s = b :: t /\ b <> x00.
Proof.
  induction s as [|b s IH]; [left; reflexivity|].
  destruct b; try (right; eexists _, _; split; [reflexivity|discriminate]). exact IH.
Qed.
Lemma repeat_snoc {A} (x : A) n : repeat x n ++ [x] = x :: repeat x n.
Proof. induction n as [|n IH]; cbn; [reflexivity|now rewrite IH]. Qed.
Lemma rev_repeat {A} (x : A) n : rev (repeat x n) = repeat x n.
Proof. induction n as [|n IH]; cbn; [reflexivity|]. rewrite IH. apply repeat_snoc. Qed.
Lemma rstrip0_spec s : exists n, s = rstrip0 s ++ repeat x00 n.
Proof.
  destruct (lstrip0_ex (rev s)) as [n Hn]. exists n. unfold rstrip0.
  apply (f_equal (@rev byte)) in Hn. rewrite rev_involutive, rev_app_distr, rev_repeat in Hn.
  exact Hn.
Qed.
Lemma rstrip0_last s t b : rstrip0 s = t ++ [b] -> b <> x00.
Proof.
  unfold rstrip0. intros H. destruct (lstrip0_hd (rev s)) as [E|(c & u & E & Hc)];
    rewrite E in H; cbn in H.
  - destruct t; discriminate.
  - apply app_inj_tail in H. destruct H. now subst.
Qed.
Lemma rstrip0_app0 s n : rstrip0 (s ++ repeat x00 n) = rstrip0 s.
Proof. unfold rstrip0. now rewrite rev_app_distr, rev_repeat, lstrip0_repeat. Qed.
Lemma rstrip0_id s : (s = [] \/ exists t b, s = t ++ [b] /\ b <> x00) -> rstrip0 s = s.
Proof.
  unfold rstrip0. intros [->|(t & b & -> & Hb)]; [reflexivity|].
  rewrite rev_app_distr. cbn [rev app]. replace (lstrip0 (b :: rev t)) with (b :: rev t).
  - cbn. now rewrite rev_involutive.
  - destruct b; try reflexivity. congruence.
Qed.

(** ** bind *)
Lemma bind_ok {A B} (x : res A) (f : A -> res B) b :
  bind x f = Ok b -> exists a, x = Ok a /\ f a = Ok b.
Proof. destruct x; cbn; [eauto|discriminate]. Qed.
Lemma bind_err {A B} (x : res A) (f : A -> res B) e :
  bind x f = Err e -> x = Err e \/ exists a, x = Ok a /\ f a = Err e.
Proof. destruct x; cbn; [eauto|]. intros [= ->]. auto. Qed.
Lemma res_map_ok {A B} (f : A -> B) x b : res_map f x = Ok b -> exists a, x = Ok a /\ b = f a.
Proof. destruct x; cbn; [|discriminate]. intros [= <-]. eauto. Qed.
Ltac inv_bind H :=
  let a := fresh "a" in let Ha := fresh "Ha" in
  apply bind_ok in H; destruct H as (a & Ha & H).

(** ** update_nth *)
Lemma nth_error_nil_none {A} n : @nth_error A [] n = None.
Proof. destruct n; reflexivity. Qed.
Lemma Forall2_len {A B} (R : A -> B -> Prop) l l' : Forall2 R l l' -> List.length l = List.length l'.
Proof. induction 1; cbn; congruence. Qed.
Lemma skipn_skipn {A} x y (l : list A) : skipn x (skipn y l) = skipn (x + y) l.
Proof.
  revert l. induction y as [|y IH]; intros l; [now rewrite Nat.add_0_r|].
  destruct l as [|a l]; [now rewrite !skipn_nil|]. rewrite Nat.add_succ_r. cbn [skipn]. apply IH.
Qed.
