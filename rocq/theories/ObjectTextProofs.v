(** Proofs about the text of vectors, base64 and uuencoded text: C65, C66. *)
From Coq Require Import Reals.
From Verif Require Import Objects Packer Lib SpecCodec SpecFloats SpecObjects TextProofs CodecProofs.
Open Scope Z_scope.

(** ** Removing the brackets *)
Lemma remove_one c s : remove_all [c] 0 s = filter (fun b => negb (Byte.eqb c b)) s.
Proof.
  induction s as [|b s IH]; [reflexivity|]. cbn [remove_all prefix_of filter List.length Nat.pred].
  rewrite andb_true_r. destruct (Byte.eqb c b); cbn; [exact IH|]. now rewrite IH.
Qed.
Lemma no_brackets s : remove_all [x3e] 0 (remove_all [x3c] 0 s) = filter (fun c => negb (angle c)) s.
Proof.
  rewrite !remove_one. induction s as [|b s IH]; [reflexivity|]. cbn [filter]. unfold angle at 1.
  assert (E : Byte.eqb x3c b = Byte.eqb b x3c) by (destruct b; reflexivity).
  assert (F : Byte.eqb x3e b = Byte.eqb b x3e) by (destruct b; reflexivity).
  rewrite E. destruct (Byte.eqb b x3c); cbn [negb orb filter]; [exact IH|].
  rewrite F. destruct (Byte.eqb b x3e); cbn [negb]; [exact IH|]. now rewrite IH.
Qed.

(** ** Splitting *)
Lemma split_fresh f : ~ In x2c f -> split_commas f = [f].
Proof.
  induction f as [|b f IH]; intros H; [reflexivity|]. cbn [split_commas].
  rewrite IH by (intros C; apply H; now right).
  destruct (Byte.eqb b x2c) eqn:E; [|reflexivity].
  apply byte_eqb_true in E. subst. exfalso. apply H. now left.
Qed.
Lemma split_app f s : ~ In x2c f -> split_commas (f ++ [x2c] ++ s) = f :: split_commas s.
Proof.
  induction f as [|b f IH]; intros H; [reflexivity|]. cbn [List.app split_commas] in *.
  rewrite IH by (intros C; apply H; now right).
  destruct (Byte.eqb b x2c) eqn:E; [|reflexivity].
  apply byte_eqb_true in E. subst. exfalso. apply H. now left.
Qed.
Lemma split_joined fs : fs <> [] -> Forall (fun f => ~ In x2c f) fs -> split_commas (comma_joined fs) = fs.
Proof.
  induction fs as [|f fs IH]; intros Hn H; [easy|]. inversion H as [|? ? Hf Hfs]; subst.
  destruct fs as [|g fs]; [now apply split_fresh|].
  change (comma_joined (f :: g :: fs)) with (f ++ [x2c] ++ comma_joined (g :: fs)).
  rewrite split_app by exact Hf. f_equal. apply IH; [discriminate|exact Hfs].
Qed.
Lemma split_ok s : split_commas s <> [] /\ Forall (fun f => ~ In x2c f) (split_commas s) /\
  s = comma_joined (split_commas s).
Proof.
  induction s as [|b s (Hn & Hf & Hj)].
  - split; [discriminate|]. split; [repeat constructor; auto|reflexivity].
  - cbn [split_commas]. destruct (split_commas s) as [|p l] eqn:E; [easy|].
    destruct (Byte.eqb b x2c) eqn:Eb.
    + apply byte_eqb_true in Eb. subst b. split; [discriminate|]. split; [constructor; auto|].
      rewrite Hj at 1. reflexivity.
    + apply byte_eqb_false in Eb. split; [discriminate|]. inversion Hf as [|? ? Hp Hl]; subst. split.
      * constructor; auto. intros [C|C]; auto.
      * destruct l; reflexivity.
Qed.
Lemma fields_exist s : exists fs, has_fields s fs.
Proof.
  exists (split_commas (filter (fun c => negb (angle c)) s)).
  destruct (split_ok (filter (fun c => negb (angle c)) s)) as (A & B & C). repeat split; auto.
Qed.
Lemma fields_split s fs : has_fields s fs ->
  split_commas (remove_all [x3e] 0 (remove_all [x3c] 0 s)) = fs.
Proof. intros (A & B & C). rewrite no_brackets, C. now apply split_joined. Qed.
Lemma fields_unique s fs fs' : has_fields s fs -> has_fields s fs' -> fs = fs'.
Proof. intros H H'. rewrite <- (fields_split s fs H). now apply fields_split. Qed.

(** ** Stripping *)
Lemma ws_white b : is_ws b = true <-> white b.
Proof.
  unfold white. split.
  - destruct b; intros H; try discriminate H; cbn; auto 8.
  - intros H. cbn in H. decompose [or] H; subst; try reflexivity; try easy.
Qed.
Lemma not_ws_white b : is_ws b = false <-> ~ white b.
Proof. rewrite <- ws_white. destruct (is_ws b); split; easy. Qed.
Lemma lstrip_white l s : Forall white l -> (forall c t, s = c :: t -> ~ white c) -> lstrip_by is_ws (l ++ s) = s.
Proof.
  intros H Hs. induction H as [|b l Hb H IH]; cbn.
  - apply lstrip_by_id. intros c t E. apply not_ws_white. eapply Hs, E.
  - apply ws_white in Hb. now rewrite Hb.
Qed.
Lemma lstrip_split s : exists l, s = l ++ lstrip_by is_ws s /\ Forall white l /\
  forall c t, lstrip_by is_ws s = c :: t -> ~ white c.
Proof.
  induction s as [|b s (l & E & W & H)].
  - exists []. repeat split; auto. discriminate.
  - cbn. destruct (is_ws b) eqn:Eb.
    + exists (b :: l). split; [cbn; now rewrite <- E|]. split; [constructor; auto; now apply ws_white|exact H].
    + exists []. repeat split; auto. intros c t [= <- <-]. now apply not_ws_white.
Qed.
Lemma strip_trimmed s t : trimmed s t -> strip_by is_ws s = t.
Proof.
  intros (l & r & -> & Wl & Wr & Hh & Hl). unfold strip_by.
  destruct t as [|c t'].
  - cbn [List.app].
    assert (E : lstrip_by is_ws (l ++ r) = []).
    { rewrite <- (app_nil_r (l ++ r)). apply lstrip_white; [now apply Forall_app|discriminate]. }
    now rewrite E.
  - rewrite lstrip_white; [|exact Wl|].
    2:{ intros d u E. cbn in E. injection E as <- _. eapply Hh. reflexivity. }
    rewrite rev_app_distr. rewrite lstrip_white.
    + apply rev_involutive.
    + now apply Forall_rev.
    + intros d u E. apply (Hl d (rev u)). rewrite <- (rev_involutive (c :: t')), E. reflexivity.
Qed.
Lemma trimmed_exists s : exists t, trimmed s t.
Proof.
  destruct (lstrip_split s) as (l & E & Wl & Hh). set (u := lstrip_by is_ws s) in *.
  destruct (lstrip_split (rev u)) as (r & E' & Wr & Hl). set (v := lstrip_by is_ws (rev u)) in *.
  exists (rev v), l, (rev r). 
  assert (Eu : u = rev v ++ rev r) by (rewrite <- rev_app_distr, <- E'; now rewrite rev_involutive).
  split; [now rewrite <- Eu|]. split; [exact Wl|]. split; [now apply Forall_rev|].
  split.
  - intros c t' Ev. apply (Hh c (t' ++ rev r)). rewrite Eu, Ev. reflexivity.
  - intros c t' Ev. apply (Hl c (rev t')). rewrite <- (rev_involutive v), Ev, rev_app_distr. reflexivity.
Qed.
Lemma trimmed_unique s t t' : trimmed s t -> trimmed s t' -> t = t'.
Proof. intros H H'. rewrite <- (strip_trimmed s t H). now apply strip_trimmed. Qed.

Lemma parse_three txt s a b c a' b' c' : has_fields s [a; b; c] ->
  trimmed a a' -> trimmed b b' -> trimmed c c' ->
  vec3_parse txt s = (do x <- txt a'; do y <- txt b'; do z <- txt c'; Ok (x, y, z)).
Proof.
  intros H Ha Hb Hc. unfold vec3_parse. rewrite (fields_split _ _ H). cbn [List.length Nat.eqb for_all_in].
  rewrite (strip_trimmed _ _ Ha), (strip_trimmed _ _ Hb), (strip_trimmed _ _ Hc).
  destruct (txt a'); [|reflexivity]. cbn [bind]. destruct (txt b'); [|reflexivity]. cbn [bind].
  destruct (txt c'); reflexivity.
Qed.
Lemma parse_other txt s fs : has_fields s fs -> List.length fs <> 3%nat -> vec3_parse txt s = Err ValueErr.
Proof.
  intros H Hn. unfold vec3_parse. rewrite (fields_split _ _ H).
  destruct (Nat.eqb_spec (List.length fs) 3); [easy|reflexivity].
Qed.

Lemma filter_all {A} (f : A -> bool) l : Forall (fun x => f x = true) l -> filter f l = l.
Proof. induction 1 as [|x l H _ IH]; cbn; [reflexivity|]. rewrite H. now rewrite IH. Qed.
(** what a printed coordinate looks like *)
Definition plain_text (t : bytes) : Prop :=
  Forall (fun c => ~ In c [x3c; x3e; x2c] /\ ~ white c) t.
Lemma plain_filter t : plain_text t -> filter (fun c => negb (angle c)) t = t.
Proof.
  intros H. apply filter_all. eapply Forall_impl; [|exact H]. intros c [Hc _]. unfold angle.
  destruct (Byte.eqb c x3c) eqn:E; [apply byte_eqb_true in E; subst; exfalso; apply Hc; cbn; auto|].
  destruct (Byte.eqb c x3e) eqn:F; [apply byte_eqb_true in F; subst; exfalso; apply Hc; cbn; auto|].
  reflexivity.
Qed.
Lemma plain_trimmed t l : plain_text t -> Forall white l -> trimmed (l ++ t) t.
Proof.
  intros H Wl. exists l, []. rewrite app_nil_r. repeat split; auto.
  - intros c t' ->. inversion H as [|? ? [_ Hc] _]; auto.
  - intros c t' ->. apply Forall_app in H as [_ H]. inversion H as [|? ? [_ Hc] _]; auto.
Qed.
Lemma plain_comma t : plain_text t -> ~ In x2c t.
Proof. intros H C. unfold plain_text in H. rewrite Forall_forall in H. destruct (H _ C) as [A _]. apply A. cbn. auto. Qed.
Lemma parse_repr txt show x y z :
  plain_text (show x) -> plain_text (show y) -> plain_text (show z) ->
  vec3_parse txt (vec3_repr show (x, y, z)) =
  (do x <- txt (show x); do y <- txt (show y); do z <- txt (show z); Ok (x, y, z)).
Proof.
  intros Hx Hy Hz. apply (parse_three txt _ (show x) ([x20] ++ show y) ([x20] ++ show z)).
  - split; [discriminate|]. split.
    + constructor; [now apply plain_comma|]. constructor; [intros [C|C]; [easy|now apply (plain_comma _ Hy)]|].
      constructor; [intros [C|C]; [easy|now apply (plain_comma _ Hz)]|constructor].
    + unfold vec3_repr. rewrite !filter_app, (plain_filter (show x)), (plain_filter (show y)), (plain_filter (show z)) by assumption.
      cbn. now rewrite app_nil_r.
  - apply (plain_trimmed _ []); auto.
  - apply plain_trimmed; auto. repeat constructor.
  - apply plain_trimmed; auto. repeat constructor.
Qed.

(** ** Base 64 *)
Lemma in_base_app b ds ds' : in_base b (ds ++ ds') = in_base b ds * b ^ zlen ds' + in_base b ds'.
Proof.
  unfold in_base. rewrite fold_left_app. generalize (fold_left (fun a d => b * a + d) ds 0) as acc.
  assert (G : forall l acc, fold_left (fun a d => b * a + d) l acc =
                        acc * b ^ zlen l + fold_left (fun a d => b * a + d) l 0).
  { induction l as [|d l IH]; intros acc; cbn [fold_left].
    - rewrite zlen_nil, Z.pow_0_r. lia.
    - rewrite IH. rewrite (IH (b * 0 + d)). rewrite zlen_cons, Z.pow_add_r by (try lia; apply zlen_nonneg). nia. }
  intros acc. apply G.
Qed.
Lemma msb_in_base s : value_msb_first s = in_base 256 (map byte_value s).
Proof.
  unfold value_msb_first, in_base. generalize 0. induction s as [|b s IH]; intros acc; cbn; [reflexivity|apply IH].
Qed.
Lemma sixbit_app data ds data' ds' : sixbit data ds -> sixbit data' ds' ->
  8 * zlen data = 6 * zlen ds -> sixbit (data ++ data') (ds ++ ds').
Proof.
  unfold sixbit. rewrite !msb_in_base, map_app, !in_base_app, !zlen_app, zlen_map.
  intros (L & E) (L' & E') H. split; [lia|]. rewrite E, E'. rewrite H, Z.sub_diag.
  replace (6 * (zlen ds + zlen ds') - 8 * (zlen data + zlen data')) with (6 * zlen ds' - 8 * zlen data') by lia.
  change 64 with (2 ^ 6). change 256 with (2 ^ 8).
  rewrite <- !Z.pow_mul_r by (try lia; apply zlen_nonneg). rewrite Z.pow_0_r.
  replace (6 * zlen ds') with (8 * zlen data' + (6 * zlen ds' - 8 * zlen data')) at 1 by lia.
  rewrite Z.pow_add_r; [ring|pose proof (zlen_nonneg data'); lia|lia].
Qed.

Definition quad (n : Z) : list Z := [(n / 262144) mod 64; (n / 4096) mod 64; (n / 64) mod 64; n mod 64].
Lemma quad_value n : 0 <= n < 2 ^ 24 -> in_base 64 (quad n) = n.
Proof. intros H. unfold in_base, quad. cbn [fold_left]. change (2 ^ 24) with 16777216 in H.
  assert (E : (n / 262144) mod 64 = n / 262144).
  { apply Z.mod_small. split; [apply Z.div_pos; lia|apply Z.div_lt_upper_bound; lia]. }
  rewrite E.
  replace (n / 262144) with (n / 64 / 64 / 64) by (rewrite !Z.div_div; lia).
  replace (n / 4096) with (n / 64 / 64) by (rewrite Z.div_div; lia).
  pose proof (Z.div_mod n 64). pose proof (Z.div_mod (n / 64) 64). pose proof (Z.div_mod (n / 64 / 64) 64). lia.
Qed.
Lemma bv_range b : 0 <= byte_value b < 256. Proof. exact (ord_range b). Qed.
Lemma sixbit3 a b c : sixbit [a; b; c] (quad (ord a * 65536 + ord b * 256 + ord c)).
Proof.
  pose proof (bv_range a). pose proof (bv_range b). pose proof (bv_range c).
  split; [reflexivity|]. rewrite quad_value by (unfold ord in *; unfold byte_value in *; lia).
  change (value_msb_first [a; b; c]) with (256 * (256 * (256 * 0 + byte_value a) + byte_value b) + byte_value c).
  change (6 * zlen (quad (ord a * 65536 + ord b * 256 + ord c)) - 8 * zlen [a; b; c]) with 0.
  change ord with byte_value. rewrite Z.pow_0_r. lia.
Qed.
Lemma sixbit_cut n data k ds : quad n = ds ++ repeat 0 k -> 0 <= n < 2 ^ 24 -> 8 * zlen data <= 6 * zlen ds ->
  n = value_msb_first data * 2 ^ (24 - 8 * zlen data) -> sixbit data ds.
Proof.
  intros Hq Hn Hl Hv. split; [exact Hl|].
  pose proof (quad_value n Hn) as E. rewrite Hq, in_base_app in E.
  assert (Hz : in_base 64 (repeat 0 k) = 0).
  { unfold in_base. clear. induction k; cbn; auto. }
  rewrite Hz, zlen_repeat, Z.add_0_r in E.
  assert (Hlen : zlen ds + Z.of_nat k = 4).
  { rewrite <- (zlen_repeat 0 k), <- zlen_app, <- Hq. reflexivity. }
  apply (Z.mul_reg_r _ _ (64 ^ Z.of_nat k)); [apply Z.pow_nonzero; lia|].
  rewrite E, Hv, <- Z.mul_assoc. f_equal.
  change 64 with (2 ^ 6). rewrite <- Z.pow_mul_r by lia. rewrite <- Z.pow_add_r by lia. f_equal. lia.
Qed.
Lemma sixbit2 a b : let n := ord a * 65536 + ord b * 256 in
  sixbit [a; b] [(n / 262144) mod 64; (n / 4096) mod 64; (n / 64) mod 64] /\ sixbit [a; b] (quad n).
Proof.
  intros n. pose proof (bv_range a). pose proof (bv_range b).
  assert (Hr : 0 <= n < 2 ^ 24) by (unfold n, ord in *; unfold byte_value in *; lia).
  assert (Hv : n = value_msb_first [a; b] * 2 ^ (24 - 8 * zlen [a; b])).
  { change (value_msb_first [a; b]) with (256 * (256 * 0 + byte_value a) + byte_value b).
    change (2 ^ (24 - 8 * zlen [a; b])) with 256. unfold n. change ord with byte_value. lia. }
  split; [|apply (sixbit_cut n _ 0); [rewrite app_nil_r; reflexivity|exact Hr|unfold zlen, quad; cbn [List.length]; lia|exact Hv]].
  apply (sixbit_cut n _ 1); [|exact Hr|unfold zlen, quad; cbn [List.length]; lia|exact Hv].
  assert (E : n mod 64 = 0).
  { unfold n. replace (ord a * 65536 + ord b * 256) with ((ord a * 1024 + ord b * 4) * 64) by lia. apply Z.mod_mul. lia. }
  unfold quad. rewrite E. reflexivity.
Qed.
Lemma sixbit1 a : let n := ord a * 65536 in
  sixbit [a] [(n / 262144) mod 64; (n / 4096) mod 64] /\ sixbit [a] (quad n).
Proof.
  intros n. pose proof (bv_range a).
  assert (Hr : 0 <= n < 2 ^ 24) by (unfold n, ord in *; unfold byte_value in *; lia).
  assert (Hv : n = value_msb_first [a] * 2 ^ (24 - 8 * zlen [a])).
  { change (value_msb_first [a]) with (256 * 0 + byte_value a).
    change (2 ^ (24 - 8 * zlen [a])) with 65536. unfold n. change ord with byte_value. lia. }
  split; [|apply (sixbit_cut n _ 0); [rewrite app_nil_r; reflexivity|exact Hr|unfold zlen, quad; cbn [List.length]; lia|exact Hv]].
  apply (sixbit_cut n _ 2); [|exact Hr|unfold zlen, quad; cbn [List.length]; lia|exact Hv].
  assert (E : n = ord a * 1024 * 64) by (unfold n; lia).
  assert (E1 : n mod 64 = 0) by (rewrite E; apply Z.mod_mul; lia).
  assert (E2 : (n / 64) mod 64 = 0).
  { rewrite E, Z.div_mul by lia. replace (ord a * 1024) with (ord a * 16 * 64) by lia. apply Z.mod_mul. lia. }
  unfold quad. rewrite E1, E2. reflexivity.
Qed.

Lemma b64_char z : base64_char (b64 z) (z mod 64).
Proof.
  pose proof (Z.mod_pos_bound z 64 ltac:(lia)). split; [lia|]. unfold b64. change base64_alphabet with base64_chars.
  apply nth_error_nth'. change (List.length base64_chars) with 64%nat. lia.
Qed.
Lemma uu_ok z : uu_char (uu z) (z mod 64).
Proof.
  pose proof (Z.mod_pos_bound z 64 ltac:(lia)). split; [lia|]. unfold uu.
  change (ord (chr (32 + z mod 64)) = 32 + z mod 64). rewrite ord_chr. apply Z.mod_small. lia.
Qed.

Lemma three_step {A} (P : list A -> Prop) : P [] -> (forall a, P [a]) -> (forall a b, P [a; b]) ->
  (forall a b c l, P l -> P (a :: b :: c :: l)) -> forall l, P l.
Proof.
  intros H0 H1 H2 H3. fix IH 1. intros [|a [|b [|c l]]]; [exact H0|apply H1|apply H2|apply H3, IH].
Qed.
Lemma base64_groups data : exists ds pad, sixbit data ds /\ Forall2 base64_char
    (firstn (List.length ds) (b2a_base64_groups data)) ds /\
  skipn (List.length ds) (b2a_base64_groups data) = repeat x3d pad /\ (pad <= 2)%nat /\
  zlen ds + Z.of_nat pad = 4 * ((zlen data + 2) / 3) /\ 6 * zlen ds - 8 * zlen data < 6.
Proof.
  induction data as [|a|a b|a b c data IH] using three_step.
  - exists [], 0%nat. repeat split; auto; first [reflexivity|discriminate|now constructor|unfold zlen; cbn; lia].
  - exists [(ord a * 65536 / 262144) mod 64; (ord a * 65536 / 4096) mod 64], 2%nat.
    split; [apply sixbit1|]. split; [repeat constructor; try apply b64_char; apply b64_char|]. repeat split; first [reflexivity|discriminate|now constructor|unfold zlen; cbn; lia].
  - eexists [((ord a * 65536 + ord b * 256) / 262144) mod 64; ((ord a * 65536 + ord b * 256) / 4096) mod 64;
       ((ord a * 65536 + ord b * 256) / 64) mod 64], 1%nat.
    split; [apply sixbit2|]. split; [repeat constructor; try apply b64_char; apply b64_char|]. repeat split; first [reflexivity|discriminate|now constructor|unfold zlen; cbn; lia].
  - destruct IH as (ds & pad & S & F & K & Hp & L & T).
    exists (quad (ord a * 65536 + ord b * 256 + ord c) ++ ds), pad.
    split; [change (a :: b :: c :: data) with ([a; b; c] ++ data); apply sixbit_app; [apply sixbit3|exact S|reflexivity]|].
    split; [cbn; repeat constructor; try apply b64_char; exact F|]. 
    split; [cbn; exact K|]. split; [exact Hp|]. rewrite zlen_app, !zlen_cons. change (zlen (quad _)) with 4.
    split; [|lia].
    replace (1 + (1 + (1 + zlen data)) + 2) with (zlen data + 2 + 1 * 3) by lia. rewrite Z.div_add by lia. lia.
Qed.
Lemma base64_text data : exists ds text pad,
  bytes_to_base64 data = text ++ repeat x3d pad ++ [x0a] /\ Forall2 base64_char text ds /\
  sixbit data ds /\ 6 * zlen ds - 8 * zlen data < 6 /\ (pad <= 2)%nat /\
  zlen text + Z.of_nat pad = 4 * ((zlen data + 2) / 3).
Proof.
  destruct (base64_groups data) as (ds & pad & S & F & K & Hp & L & T).
  exists ds, (firstn (List.length ds) (b2a_base64_groups data)), pad.
  split.
  { unfold bytes_to_base64. rewrite app_assoc. f_equal. rewrite <- K. symmetry. apply firstn_skipn. }
  repeat split; auto; try apply S. rewrite <- L. f_equal. unfold zlen. f_equal. now apply Forall2_len in F.
Qed.
Lemma uu_groups data : exists ds, sixbit data ds /\ Forall2 uu_char (b2a_uu_groups data) ds /\
  zlen ds = 4 * ((zlen data + 2) / 3).
Proof.
  induction data as [|a|a b|a b c data IH] using three_step.
  - exists []. repeat split; auto; first [reflexivity|discriminate|now constructor|unfold zlen; cbn; lia].
  - exists (quad (ord a * 65536)).
    split; [apply sixbit1|]. split; [repeat constructor; try apply uu_ok; apply uu_ok|]. reflexivity.
  - exists (quad (ord a * 65536 + ord b * 256)).
    split; [apply sixbit2|]. split; [repeat constructor; try apply uu_ok; apply uu_ok|]. reflexivity.
  - destruct IH as (ds & S & F & L).
    exists (quad (ord a * 65536 + ord b * 256 + ord c) ++ ds).
    split; [change (a :: b :: c :: data) with ([a; b; c] ++ data); apply sixbit_app; [apply sixbit3|exact S|reflexivity]|].
    split; [cbn; repeat constructor; try apply uu_ok; exact F|]. 
    rewrite zlen_app, !zlen_cons. change (zlen (quad _)) with 4.
    replace (1 + (1 + (1 + zlen data)) + 2) with (zlen data + 2 + 1 * 3) by lia. rewrite Z.div_add by lia. lia.
Qed.

(** Digits and length determine the bytes. *)
Lemma sixbit_inj data data' ds : zlen data = zlen data' -> sixbit data ds -> sixbit data' ds -> data = data'.
Proof.
  intros L [_ E] [G E']. rewrite L in E. rewrite E in E'.
  apply Z.mul_reg_r in E'; [|apply Z.pow_nonzero; lia].
  apply (dec_inj BE); [unfold zlen in L; lia|]. rewrite <- !value_dec. exact E'.
Qed.
Lemma base64_char_fun c d d' : base64_char c d -> base64_char c d' -> d = d'.
Proof.
  intros [H E] [H' E'].
  assert (N : NoDup base64_chars).
  { assert (C : (fix go (l : list byte) := match l with [] => true | x :: l' => negb (existsb (Byte.eqb x) l') && go l' end)
       base64_chars = true) by (vm_compute; reflexivity).
    revert C. generalize base64_chars as l. induction l as [|x l IH]; intros C; constructor.
    - apply andb_prop in C as [C _]. intros I. apply negb_true_iff in C.
      assert (existsb (Byte.eqb x) l = true) by (apply existsb_exists; exists x; split; auto; apply byte_eqb_refl). congruence.
    - apply IH. now apply andb_prop in C as [_ C]. }
  assert (Z.to_nat d = Z.to_nat d'); [|lia].
  eapply NoDup_nth_error; [exact N| |congruence]. apply nth_error_Some. congruence.
Qed.
Lemma uu_char_fun c d d' : uu_char c d -> uu_char c d' -> d = d'.
Proof. intros [_ H] [_ H']. lia. Qed.
Lemma Forall2_fun {A B} (R : A -> B -> Prop) (F : forall a b b', R a b -> R a b' -> b = b') l m m' :
  Forall2 R l m -> Forall2 R l m' -> m = m'.
Proof.
  intros H. revert m'. induction H as [|a b l m H _ IH]; intros m' H'; inversion H'; subst; [reflexivity|].
  f_equal; eauto.
Qed.
Lemma no_pad text ds : Forall2 base64_char text ds -> ~ In x3d text.
Proof.
  induction 1 as [|c d l l' H _ IH]; [easy|]. intros [C|C]; [|easy]. subst c.
  destruct H as [_ H]. apply nth_error_In in H. cbn in H. decompose [or] H; easy.
Qed.
Lemma app_sep (x : byte) u v k k' : ~ In x u -> ~ In x v -> u ++ repeat x k ++ [x0a] = v ++ repeat x k' ++ [x0a] ->
  x <> x0a -> ~ In x0a u -> ~ In x0a v -> u = v.
Proof.
  intros Hu Hv E Hx. revert v Hv E. induction u as [|a u IH]; intros [|b v] Hv E Nu Nv; auto.
  - exfalso. cbn in E. destruct k; cbn in E; injection E as E _; subst b.
    + apply Nv. now left.
    + apply Hv. now left.
  - exfalso. cbn in E. destruct k'; cbn in E; injection E as E _; subst a.
    + apply Nu. now left.
    + apply Hu. now left.
  - cbn in E. injection E as <- E. f_equal. apply IH; auto; intros C; [apply Hu|apply Hv|apply Nu|apply Nv]; now right.
Qed.
Lemma no_newline text ds : Forall2 base64_char text ds -> ~ In x0a text.
Proof.
  induction 1 as [|c d l l' H _ IH]; [easy|]. intros [C|C]; [|easy]. subst c.
  destruct H as [_ H]. apply nth_error_In in H. cbn in H. decompose [or] H; easy.
Qed.
Lemma base64_inj a b : bytes_to_base64 a = bytes_to_base64 b -> a = b.
Proof.
  intros H. destruct (base64_text a) as (ds & u & k & E & F & S & T & _).
  destruct (base64_text b) as (ds' & v & k' & E' & F' & S' & T' & _).
  rewrite E, E' in H.
  assert (u = v).
  { apply app_sep in H; auto; try discriminate; eauto using no_pad, no_newline. }
  subst v. pose proof (Forall2_fun _ base64_char_fun _ _ _ F F'). subst ds'.
  destruct S as [G S]. destruct S' as [G' S']. eapply sixbit_inj; [|split; eassumption|split; eassumption]. lia.
Qed.

Lemma uu_text data : zlen data <= 45 -> exists c ds text,
  bytes_to_ascii data = Ok ([c] ++ text ++ [x0a]) /\ uu_char c (zlen data) /\
  Forall2 uu_char text ds /\ sixbit data ds /\ zlen text = 4 * ((zlen data + 2) / 3).
Proof.
  intros H. destruct (uu_groups data) as (ds & S & F & L).
  exists (uu (zlen data)), ds, (b2a_uu_groups data). unfold bytes_to_ascii.
  destruct (Z.ltb_spec 45 (zlen data)); [lia|]. split; [reflexivity|].
  split. { pose proof (uu_ok (zlen data)) as U. rewrite Z.mod_small in U by (pose proof (zlen_nonneg data); lia). exact U. }
  repeat split; auto; try apply S. rewrite <- L. unfold zlen. f_equal. now apply Forall2_len in F.
Qed.
Lemma uu_too_long data : 45 < zlen data -> bytes_to_ascii data = Err BinasciiErr.
Proof. intros H. unfold bytes_to_ascii. destruct (Z.ltb_spec 45 (zlen data)); [reflexivity|lia]. Qed.
Lemma uu_inj a b t : bytes_to_ascii a = Ok t -> bytes_to_ascii b = Ok t -> a = b.
Proof.
  intros Ha Hb.
  destruct (Z.le_gt_cases (zlen a) 45) as [La|La]; [|rewrite uu_too_long in Ha by lia; discriminate].
  destruct (Z.le_gt_cases (zlen b) 45) as [Lb|Lb]; [|rewrite uu_too_long in Hb by lia; discriminate].
  destruct (uu_text a La) as (c & ds & u & E & C & F & S & _).
  destruct (uu_text b Lb) as (c' & ds' & v & E' & C' & F' & S' & _).
  rewrite E in Ha. rewrite E' in Hb. injection Ha as <-. injection Hb as -> Hb.
  apply app_inj_tail in Hb as [-> _].
  pose proof (uu_char_fun _ _ _ C C') as L. pose proof (Forall2_fun _ uu_char_fun _ _ _ F F'). subst ds'.
  eapply sixbit_inj; eauto.
Qed.
