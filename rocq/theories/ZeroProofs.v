(** zero_code_expand *)
From Coq Require Import ZifyBool ZifyNat.
From Verif Require Import Deserializer Lib SpecCodec SpecWire.
Ltac Zify.zify_post_hook ::= Z.div_mod_to_equations.

Lemma ord_zero c : c <> x00 -> 1 <= ord c <= 255.
Proof.
  intros H. pose proof (ord_range c). assert (ord c <> 0); [|lia].
  intros E. apply H. apply ord_inj. rewrite E. reflexivity.
Qed.
Lemma expand_zeros b k s : zero_code_expand b (repeat x00 k ++ s) =
  repeat x00 k ++ zero_code_expand (match k with O => b | S _ => true end) s.
Proof.
  revert b. induction k as [|k IH]; intros b; [reflexivity|]. cbn [repeat app zero_code_expand].
  rewrite byte_eqb_refl. f_equal. rewrite IH. destruct k; reflexivity.
Qed.
Lemma expand_lit c s : c <> x00 -> zero_code_expand false (c :: s) = c :: zero_code_expand false s.
Proof. intros H. cbn [zero_code_expand]. apply byte_eqb_false in H. now rewrite H. Qed.
Lemma expand_len c s : c <> x00 -> zero_code_expand true (c :: s) =
  repeat x00 (Z.to_nat (ord c - 1)) ++ zero_code_expand false s.
Proof. intros H. cbn [zero_code_expand]. apply byte_eqb_false in H. now rewrite H. Qed.
Lemma expand_run k c s : (1 <= k)%nat -> c <> x00 ->
  zero_code_expand false (repeat x00 k ++ c :: s) =
  repeat x00 (k + Z.to_nat (ord c) - 1) ++ zero_code_expand false s.
Proof.
  intros Hk Hc. rewrite expand_zeros. destruct k as [|k]; [lia|]. rewrite expand_len by exact Hc.
  rewrite app_assoc, <- repeat_app. do 2 f_equal. pose proof (ord_zero c Hc). lia.
Qed.

Lemma zero_coded_app s p s' : zero_coded s p ->
  zero_code_expand false (s ++ s') = p ++ zero_code_expand false s'.
Proof.
  induction 1 as [|c s p Hc H IH|n c s p Hn Hcn H IH]; [reflexivity| |].
  - cbn [app]. rewrite expand_lit by exact Hc. now rewrite IH.
  - assert (Hc : c <> x00) by (intros ->; change (byte_value x00) with 0 in Hcn; lia).
    change (x00 :: c :: s) with (repeat x00 1 ++ c :: s). rewrite <- app_assoc. cbn [app].
    change (x00 :: c :: s ++ s') with (repeat x00 1 ++ c :: s ++ s').
    rewrite expand_run by (auto; lia). rewrite IH, app_assoc. do 3 f_equal.
    change (byte_value c) with (ord c) in Hcn. lia.
Qed.
Lemma zero_coded_expand s p : zero_coded s p -> zero_code_expand false s = p.
Proof.
  intros H. pose proof (zero_coded_app s p [] H) as E. cbn in E. now rewrite !app_nil_r in E.
Qed.

(** Every byte string has a zero-coded form. *)
Lemma zero_coded_zeros k s p : zero_coded s p -> exists s', zero_coded s' (repeat x00 k ++ p).
Proof.
  intros H. induction k as [k IH] using (well_founded_induction lt_wf).
  destruct k as [|k]; [exists s; exact H|].
  destruct (le_lt_dec (S k) 255) as [Hk|Hk].
  - exists (x00 :: chr (Z.of_nat (S k)) :: s).
    replace (S k) with (Z.to_nat (Z.of_nat (S k))) at 2 by lia.
    apply zc_run; auto; [lia|]. change (byte_value ?c) with (ord c). rewrite ord_chr. lia.
  - destruct (IH (S k - 255)%nat) as (s' & H'); [lia|]. exists (x00 :: xff :: s').
    replace (S k) with (255 + (S k - 255))%nat at 1 by lia. rewrite repeat_app, <- app_assoc.
    change 255%nat with (Z.to_nat 255). apply zc_run; auto; lia.
Qed.
Lemma zero_coded_ex p : exists s, zero_coded s p.
Proof.
  induction p as [|c p (s & IH)]; [exists []; constructor|].
  destruct (Byte.byte_eq_dec c x00) as [->|Hc].
  - apply (zero_coded_zeros 1 s p IH).
  - exists (c :: s). now constructor.
Qed.
Lemma zero_free s : ~ In x00 s -> zero_code_expand false s = s.
Proof.
  induction s as [|c s IH]; intros H; [reflexivity|]. rewrite expand_lit by (intros ->; apply H; now left).
  f_equal. apply IH. intros Hi. apply H. now right.
Qed.

(** Arbitrary input *)
Lemma split_zeros s : exists k, s = repeat x00 k \/ exists c s', s = repeat x00 k ++ c :: s' /\ c <> x00.
Proof.
  induction s as [|c s (k & IH)]; [exists O; now left|].
  destruct (Byte.byte_eq_dec c x00) as [->|Hc].
  - exists (S k). destruct IH as [->|(c & s' & -> & Hc)]; [now left|right; exists c, s'; auto].
  - exists O. right. exists c, s. auto.
Qed.
Lemma expansion_ok s : expansion s (zero_code_expand false s).
Proof.
  induction s as [s IH] using (well_founded_induction (well_founded_ltof _ (@List.length byte))).
  unfold ltof in IH.
  destruct (split_zeros s) as ([|k] & [->|(c & s' & -> & Hc)]).
  - constructor.
  - cbn [repeat app] in *. rewrite expand_lit by exact Hc. constructor; auto.
  - pose proof (expand_zeros false (S k) []) as E. rewrite app_nil_r in E. rewrite E.
    cbn [zero_code_expand]. rewrite app_nil_r. apply ex_end. lia.
  - rewrite expand_run by (auto; lia). apply ex_run; auto; [lia|]. apply IH.
    rewrite app_length, repeat_length. cbn. lia.
Qed.
Lemma expansion_fun s p : expansion s p -> p = zero_code_expand false s.
Proof.
  induction 1 as [|c s p Hc H IH|k c s p Hk Hc H IH|k Hk]; [reflexivity| | |].
  - rewrite expand_lit by exact Hc. now rewrite <- IH.
  - rewrite expand_run by auto. now rewrite <- IH.
  - pose proof (expand_zeros false k []) as E. rewrite !app_nil_r in E. rewrite E.
    cbn [zero_code_expand]. reflexivity.
Qed.

Lemma expansion_bound s p : expansion s p ->
  2 * zlen p <= 255 * zlen s /\ zlen s <= 2 * zlen p.
Proof.
  induction 1 as [|c s p Hc H IH|k c s p Hk Hc H IH|k Hk].
  - cbn. lia.
  - rewrite !zlen_cons. lia.
  - rewrite !zlen_app, !zlen_cons, !zlen_repeat. change (byte_value c) with (ord c).
    pose proof (ord_zero c Hc). lia.
  - rewrite zlen_repeat. lia.
Qed.
Lemma expand_bound s : 2 * zlen (zero_code_expand false s) <= 255 * zlen s /\
  zlen s <= 2 * zlen (zero_code_expand false s).
Proof. apply expansion_bound, expansion_ok. Qed.
(** The bounds are attained by strings of every even length. *)
Lemma expand_bound_tight n : zlen (zero_code_expand false (List.concat (repeat [x00; xff] n))) = 255 * Z.of_nat n.
Proof.
  induction n as [|n IH]; [reflexivity|]. cbn [repeat List.concat].
  change ([x00; xff] ++ ?s) with (repeat x00 1 ++ xff :: s).
  rewrite expand_run by (try discriminate; lia). rewrite zlen_app, zlen_repeat, IH.
  change (Z.to_nat (ord xff)) with 255%nat. lia.
Qed.
