(** Message numbers and the template dictionary. *)
From Coq Require Import ZifyBool ZifyNat.
From Verif Require Import TemplateDict Deserializer Lib SpecCodec CodecProofs SpecWire.
Ltac Zify.zify_post_hook ::= Z.div_mod_to_equations.

Lemma bv_ord b : byte_value b = ord b. Proof. reflexivity. Qed.
Lemma wire_number_len f n h : wire_number f n h -> zlen h = number_width f.
Proof. now destruct 1. Qed.
Lemma wire_number_inv f n h : wire_number f n h ->
  match f with
  | HIGH => exists b, n = ord b /\ h = [b]
  | MEDIUM => exists b, n = ord b /\ h = [xff; b]
  | LOW => exists b c, n = 256 * ord b + ord c /\ h = [xff; xff; b; c]
  | FIXED => exists b, n = ord b /\ h = [xff; xff; xff; b]
  end.
Proof. destruct 1; eauto. Qed.
Lemma wire_number_fun f n h h' : wire_number f n h -> wire_number f n h' -> h = h'.
Proof.
  intros H H'. apply wire_number_inv in H, H'.
  destruct f; destruct H as (b & H); destruct H' as (b' & H');
    try (destruct H as [-> ->], H' as [E ->]; repeat f_equal; apply ord_inj; lia).
  destruct H as (c & -> & ->), H' as (c' & E & ->).
  pose proof (ord_range b); pose proof (ord_range b'); pose proof (ord_range c); pose proof (ord_range c').
  repeat f_equal; apply ord_inj; lia.
Qed.
Lemma wire_number_range f n h : wire_number f n h -> 0 <= n < number_space f.
Proof.
  intros H. apply wire_number_inv in H. destruct f; destruct H as (b & H); pose proof (ord_range b);
    cbn [number_space]; try (destruct H; lia). destruct H as (c & -> & _). pose proof (ord_range c). lia.
Qed.
Lemma wire_number_ex f n : 0 <= n < number_space f -> exists h, wire_number f n h.
Proof.
  destruct f; cbn [number_space]; intros Hn.
  - exists [xff; xff; xff; chr n]. replace n with (byte_value (chr n)) at 1; [constructor|].
    rewrite bv_ord, ord_chr. lia.
  - exists [xff; xff; chr (n / 256); chr n].
    replace n with (256 * byte_value (chr (n / 256)) + byte_value (chr n)) at 1; [constructor|].
    rewrite !bv_ord, !ord_chr. lia.
  - exists [xff; chr n]. replace n with (byte_value (chr n)) at 1; [constructor|].
    rewrite bv_ord, ord_chr. lia.
  - exists [chr n]. replace n with (byte_value (chr n)) at 1; [constructor|].
    rewrite bv_ord, ord_chr. lia.
Qed.
Lemma codable_range f n : codable f n -> 0 <= n < number_space f.
Proof. destruct f; cbn; lia. Qed.

Lemma ord_ff b : ord b < 255 -> Byte.eqb b xff = false.
Proof. intros H. apply byte_eqb_false. intros ->. change (ord xff) with 255 in H. lia. Qed.
Lemma idx0 {A} (a : A) l : pyindex (a :: l) 0 = Ok a.
Proof. reflexivity. Qed.
Lemma idx1 {A} (a b : A) l : pyindex (a :: b :: l) 1 = Ok b.
Proof. reflexivity. Qed.
Lemma idx2 {A} (a b c : A) l : pyindex (a :: b :: c :: l) 2 = Ok c.
Proof. reflexivity. Qed.

Lemma unpack1 b : unpack_int BE false 1 [b] = Ok (ord b).
Proof. unfold unpack_int, dec, be_val. cbn [List.length Nat.eqb rev app le_val]. f_equal. lia. Qed.
Lemma unpack2 b c : unpack_int BE false 2 [b; c] = Ok (256 * ord b + ord c).
Proof. unfold unpack_int, dec, be_val. cbn [List.length Nat.eqb rev app le_val]. f_equal. lia. Qed.
Lemma decode_number f n h rest : wire_number f n h -> codable f n ->
  decode_frequency (h ++ rest) = Ok f /\ decode_num (h ++ rest) = Ok n.
Proof.
  intros H Hc.
  assert (Hf : decode_frequency (h ++ rest) = Ok f).
  { destruct H as [b|b|b c|b]; cbn [app] in *; unfold decode_frequency; rewrite ?idx0, ?idx1, ?idx2; cbn [bind];
      cbn [codable] in Hc; change byte_value with ord in *; try (rewrite ord_ff by lia; reflexivity);
      rewrite ?byte_eqb_refl, ?idx1; cbn [bind]; rewrite ?byte_eqb_refl, ?idx2; cbn [bind];
      rewrite ?byte_eqb_refl; try reflexivity.
    - rewrite ord_ff by lia. reflexivity.
    - pose proof (ord_range c). rewrite ord_ff by lia. reflexivity. }
  split; [exact Hf|]. unfold decode_num. rewrite Hf. cbn [bind].
  destruct H as [b|b|b c|b].
  - cbn [app]. rewrite idx0. cbn [bind]. rewrite unpack1. reflexivity.
  - cbn [app]. change (xff :: b :: rest) with ([xff] ++ [b] ++ rest). rewrite (pyslice_mid [xff] [b] rest 1 2) by reflexivity.
    rewrite ?unpack1, ?unpack2. reflexivity.
  - cbn [app]. change (xff :: xff :: b :: c :: rest) with ([xff; xff] ++ [b; c] ++ rest). rewrite (pyslice_mid [xff; xff] [b; c] rest 2 4) by reflexivity.
    rewrite ?unpack1, ?unpack2. reflexivity.
  - cbn [app]. change (xff :: xff :: xff :: b :: rest) with ([xff; xff; xff] ++ [b] ++ rest). rewrite (pyslice_mid [xff; xff; xff] [b] rest 3 4) by reflexivity.
    rewrite ?unpack1, ?unpack2. reflexivity.
Qed.

(** deserialize looks at bytes 6..11 *)
Lemma decode_template_number d six f n h rest : zlen six = 6 -> wire_number f n h -> codable f n ->
  decode_template d (six ++ h ++ rest) = Ok (get_template_by_pair d (Some f) n).
Proof.
  intros H6 H Hc. unfold decode_template, PACKET_ID_LENGTH.
  pose proof (wire_number_len f n h H) as Hl.
  assert (Hw : 1 <= number_width f <= 4) by (destruct f; cbn; lia).
  assert (E : pyslice (six ++ h ++ rest) 6 12 = h ++ firstn (Z.to_nat (6 - number_width f)) rest).
  { rewrite pyslice_pos by lia. rewrite skipn_app. rewrite skipn_all2 by (unfold zlen in H6; lia).
    replace (Z.to_nat 6 - List.length six)%nat with O by (unfold zlen in H6; lia). cbn [skipn app].
    rewrite firstn_app. rewrite firstn_all2 by (unfold zlen in Hl; lia). do 2 f_equal. unfold zlen in Hl. lia. }
  rewrite E, !zlen_app. destruct (_ <=? 6) eqn:E6; [pose proof (zlen_nonneg rest); lia|].
  unfold decode_header. destruct (decode_number f n h (firstn (Z.to_nat (6 - number_width f)) rest) H Hc) as [E1 E2].
  rewrite E1, E2. reflexivity.
Qed.

Lemma prefix_free f n h f' n' h' r r' : wire_number f n h -> codable f n ->
  wire_number f' n' h' -> codable f' n' -> h ++ r = h' ++ r' -> f = f' /\ n = n'.
Proof.
  intros H C H' C' E. destruct (decode_number f n h r H C) as [A B].
  destruct (decode_number f' n' h' r' H' C') as [A' B']. rewrite E in A, B. split; congruence.
Qed.
(** Outside the codable numbers the frequency read is another one. *)
Lemma not_codable f n h rest : wire_number f n h -> ~ codable f n -> decode_frequency (h ++ rest) <> Ok f.
Proof.
  intros H Hc. assert (Hff : forall b, 255 <= ord b -> b = xff).
  { intros b Hb. pose proof (ord_range b). apply ord_inj. change (ord xff) with 255. lia. }
  destruct H as [b|b|b c|b]; cbn [codable] in Hc; change byte_value with ord in *; pose proof (ord_range b).
  - rewrite (Hff b) by lia. cbn [app]. unfold decode_frequency. rewrite idx0. cbn [bind]. rewrite byte_eqb_refl.
    destruct (pyindex (xff :: rest) 1) as [h1|]; cbn [bind]; [|discriminate].
    destruct (Byte.eqb h1 xff); [|discriminate].
    destruct (pyindex (xff :: rest) 2) as [h2|]; cbn [bind]; [|discriminate]. destruct (Byte.eqb h2 xff); discriminate.
  - rewrite (Hff b) by lia. cbn [app]. unfold decode_frequency. rewrite idx0. cbn [bind]. rewrite byte_eqb_refl.
    rewrite idx1. cbn [bind]. rewrite byte_eqb_refl.
    destruct (pyindex (xff :: xff :: rest) 2) as [h2|]; cbn [bind]; [|discriminate]. destruct (Byte.eqb h2 xff); discriminate.
  - pose proof (ord_range c). rewrite (Hff b) by lia. cbn [app]. unfold decode_frequency. rewrite idx0, idx1, idx2.
    cbn [bind]. rewrite ?byte_eqb_refl. cbn [bind]. rewrite ?byte_eqb_refl. cbn [bind]. rewrite ?byte_eqb_refl. discriminate.
  - exfalso. lia.
Qed.

(** ** The dictionary *)
Lemma int1_range et z : 0 <= z < 256 -> forall pv, need (pack_data pv (VInt z) (Some MVT_U8) et) = Ok [chr z].
Proof.
  intros H pv. rewrite (pack_item pv MVT_U8 1 false BE et z) by (repeat split; auto).
  unfold pack_int. replace (in_range false 1 z) with true by (unfold in_range; cbn; lia).
  destruct et as [[|]|]; reflexivity.
Qed.
Lemma int1_26 et z : need (pack_data Py26 (VInt z) (Some MVT_U8) et) = Ok [chr z].
Proof.
  rewrite (pack_item Py26 MVT_U8 1 false BE et z) by (repeat split; auto).
  unfold pack_int. destruct (in_range false 1 z); destruct et as [[|]|]; reflexivity.
Qed.
Lemma int2_26 z : need (pack_data Py26 (VInt z) (Some MVT_U16) (Some BE)) = Ok [chr (z / 256); chr z].
Proof.
  rewrite (pack_item Py26 MVT_U16 2 false LE (Some BE) z) by (repeat split; auto; lia).
  unfold pack_int. destruct (in_range false 2 z); reflexivity.
Qed.
Lemma int2_range z pv : 0 <= z < 65536 -> need (pack_data pv (VInt z) (Some MVT_U16) (Some BE)) = Ok [chr (z / 256); chr z].
Proof.
  intros H. rewrite (pack_item pv MVT_U16 2 false LE (Some BE) z) by (repeat split; auto; lia).
  unfold pack_int. replace (in_range false 2 z) with true by (unfold in_range; cbn; lia). reflexivity.
Qed.
Lemma int1_27 et z : ~ 0 <= z < 256 -> need (pack_data Py27 (VInt z) (Some MVT_U8) et) = Err StructError.
Proof.
  intros H. rewrite (pack_item Py27 MVT_U8 1 false BE et z) by (repeat split; auto).
  unfold pack_int. replace (in_range false 1 z) with false by (unfold in_range; cbn; lia). reflexivity.
Qed.
Lemma int2_27 z : ~ 0 <= z < 65536 -> need (pack_data Py27 (VInt z) (Some MVT_U16) (Some BE)) = Err StructError.
Proof.
  intros H. rewrite (pack_item Py27 MVT_U16 2 false LE (Some BE) z) by (repeat split; auto; lia).
  unfold pack_int. replace (in_range false 2 z) with false by (unfold in_range; cbn; lia). reflexivity.
Qed.

(** What with_message_id writes. *)
Definition number_bytes (f : freq) (n : Z) : bytes :=
  match f with
  | HIGH => [chr n]
  | MEDIUM => [xff; chr n]
  | LOW => [xff; xff; chr (n / 256); chr n]
  | FIXED => [xff; xff; xff; chr n]
  end.
Lemma number_bytes_wire f n : wire_number f (n mod number_space f) (number_bytes f n).
Proof.
  destruct f; cbn [number_space number_bytes].
  - replace (n mod 256) with (byte_value (chr n)) by (rewrite bv_ord; apply ord_chr). constructor.
  - replace (n mod 65536) with (256 * byte_value (chr (n / 256)) + byte_value (chr n))
      by (rewrite !bv_ord, !ord_chr; lia). constructor.
  - replace (n mod 256) with (byte_value (chr n)) by (rewrite bv_ord; apply ord_chr). constructor.
  - replace (n mod 256) with (byte_value (chr n)) by (rewrite bv_ord; apply ord_chr). constructor.
Qed.
Lemma with_message_id_spec pv t :
  match t_freq t with
  | None => with_message_id pv t = Ok t
  | Some f =>
      if (0 <=? t_num t) && (t_num t <? number_space f) then
        with_message_id pv t = Ok (set_hex t (number_bytes f (t_num t)))
      else match pv with
           | Py26 => with_message_id pv t = Ok (set_hex t (number_bytes f (t_num t)))
           | Py27 => with_message_id pv t = Err StructError
           end
  end.
Proof.
  unfold with_message_id. destruct (t_freq t) as [f|]; [|reflexivity].
  destruct (_ && _) eqn:E.
  - destruct f; cbn [number_space] in E; rewrite ?int1_range, ?int2_range by lia; reflexivity.
  - destruct pv.
    + destruct f; rewrite ?int1_26, ?int2_26; reflexivity.
    + destruct f; cbn [number_space] in E; rewrite ?int1_27, ?int2_27 by lia; reflexivity.
Qed.
Lemma with_message_id_ok pv t t' : with_message_id pv t = Ok t' ->
  same_template t t' /\ (t_freq t = None -> t' = t) /\
  (forall f, t_freq t = Some f -> t_hex t' = Some (number_bytes f (t_num t))).
Proof.
  intros H. pose proof (with_message_id_spec pv t) as S.
  destruct (t_freq t) as [f|] eqn:Ef.
  - assert (E : t' = set_hex t (number_bytes f (t_num t))).
    { destruct (_ && _); [congruence|]. destruct pv; congruence. }
    subst t'. split; [repeat split|]. split; [discriminate|]. intros f' [= <-]. reflexivity.
  - assert (t' = t) by congruence. subst. split; [repeat split|]. split; [auto|discriminate].
Qed.
Lemma with_message_id_idem pv t t' : with_message_id pv t = Ok t' -> with_message_id pv t' = Ok t'.
Proof.
  intros H. pose proof (with_message_id_ok pv t t' H) as ((N1 & N2 & N3 & N4) & S1 & S2).
  pose proof (with_message_id_spec pv t) as S. pose proof (with_message_id_spec pv t') as S'.
  rewrite <- N2, <- N3 in S'. destruct (t_freq t) as [f|]; [|exact S'].
  assert (E : t' = set_hex t' (number_bytes f (t_num t))).
  { destruct t'; cbn in *. unfold set_hex. cbn. now rewrite (S2 f eq_refl). }
  destruct (_ && _); [congruence|]. destruct pv; congruence.
Qed.

Lemma nth_update_eq {A} i (x : A) l : (i < List.length l)%nat -> nth_error (update_nth i x l) i = Some x.
Proof. revert i. induction l as [|a l IH]; intros [|i] H; cbn in *; try lia; [reflexivity|]. apply IH. lia. Qed.
Lemma nth_update_neq {A} i j (x : A) l : i <> j -> nth_error (update_nth i x l) j = nth_error l j.
Proof.
  revert i j. induction l as [|a l IH]; intros [|i] [|j] H; cbn; try reflexivity; try congruence.
  apply IH. congruence.
Qed.
Lemma length_update {A} i (x : A) l : List.length (update_nth i x l) = List.length l.
Proof. revert i. induction l as [|a l IH]; intros [|i]; cbn; auto. Qed.
Lemma nth_lt {A} (l : list A) i x : nth_error l i = Some x -> (i < List.length l)%nat.
Proof. intros H. apply nth_error_Some. congruence. Qed.

Lemma build_message_ids_spec pv names store store' : build_message_ids pv names store = Ok store' ->
  forall i t, nth_error store i = Some t -> exists t', nth_error store' i = Some t' /\
    (In i (map snd names) -> with_message_id pv t = Ok t') /\ (~ In i (map snd names) -> t' = t).
Proof.
  revert store. induction names as [|[s j] names IH]; intros store H i t Hi; cbn [build_message_ids] in H.
  - injection H as <-. exists t. split; [exact Hi|]. split; [easy|auto].
  - destruct (nth_error store j) as [u|] eqn:Ej; [|discriminate].
    destruct (with_message_id pv u) as [u'|] eqn:Eu; [|discriminate]. cbn [bind] in H.
    destruct (Nat.eq_dec j i) as [->|Hne].
    + assert (u = t) by congruence. subst u.
      destruct (IH _ H i u') as (t' & H1 & H2 & H3); [apply nth_update_eq; eapply nth_lt; eauto|].
      exists t'. split; [exact H1|]. split; [intros _|intros Hn; exfalso; apply Hn; now left].
      destruct (in_dec Nat.eq_dec i (map snd names)) as [Hin|Hin].
      * apply H2 in Hin. apply with_message_id_idem in Eu as Ei. congruence.
      * rewrite (H3 Hin). exact Eu.
    + destruct (IH _ H i t) as (t' & H1 & H2 & H3); [rewrite nth_update_neq by auto; exact Hi|].
      exists t'. split; [exact H1|]. cbn [map snd In]. split.
      * intros [E|Hin]; [congruence|auto].
      * intros Hn. apply H3. tauto.
Qed.
Lemma build_message_ids_none pv names store store' i : build_message_ids pv names store = Ok store' ->
  nth_error store i = None -> nth_error store' i = None.
Proof.
  revert store. induction names as [|[s j] names IH]; intros store H Hi; cbn [build_message_ids] in H.
  - congruence.
  - destruct (nth_error store j) as [u|] eqn:Ej; [|discriminate].
    destruct (with_message_id pv u) as [u'|] eqn:Eu; [|discriminate]. cbn [bind] in H.
    apply (IH _ H). apply nth_error_None. rewrite length_update. now apply nth_error_None.
Qed.
Lemma build_message_ids_ok pv names store :
  (forall n i, In (n, i) names -> exists t t', nth_error store i = Some t /\ with_message_id pv t = Ok t') ->
  exists store', build_message_ids pv names store = Ok store'.
Proof.
  revert store. induction names as [|[s j] names IH]; intros store H; cbn [build_message_ids]; [eauto|].
  destruct (H s j (or_introl eq_refl)) as (t & t' & H1 & H2). rewrite H1, H2. cbn [bind]. apply IH.
  intros n i Hi. destruct (H n i (or_intror Hi)) as (u & u' & H3 & H4).
  destruct (Nat.eq_dec j i) as [->|Hne].
  - exists t', t'. split; [apply nth_update_eq; eapply nth_lt; eauto|eapply with_message_id_idem; eauto].
  - exists u, u'. split; [now rewrite nth_update_neq|exact H4].
Qed.

Lemma freq_eqb_spec a b : freq_eqb a b = true <-> a = b.
Proof. destruct a, b; cbn; split; congruence. Qed.
Lemma pair_eqb_spec a b : pair_eqb a b = true <-> a = b.
Proof.
  destruct a as [f n], b as [g m]. unfold pair_eqb. cbn [fst snd].
  assert (H : ofreq_eqb f g = true <-> f = g).
  { destruct f as [f|], g as [g|]; cbn; try (split; congruence). rewrite freq_eqb_spec. split; congruence. }
  destruct (ofreq_eqb f g); cbn [andb].
  - rewrite Z.eqb_eq. destruct H as [H _]. specialize (H eq_refl). subst. split; [intros ->; auto|congruence].
  - split; [discriminate|]. intros [= E _]. apply H in E. discriminate.
Qed.

Lemma build_dictionaries_names ts : forall i names pairs name,
  let r := fst (build_dictionaries i ts names pairs) in
  (Forall (fun x => t_name x <> name) ts -> sget name r = sget name names) /\
  (forall t, last_such (fun x => t_name x = name) ts t ->
     exists k, nth_error ts k = Some t /\ sget name r = Some (i + k)%nat).
Proof.
  induction ts as [|t ts IH]; intros i names pairs name; cbn [build_dictionaries].
  - cbn [fst]. split; [auto|]. intros t (l1 & l2 & E & _). destruct l1; discriminate.
  - destruct (IH (S i) (sset (t_name t) i names) (dset pair_eqb (t_freq t, t_num t) i pairs) name) as [H1 H2].
    split.
    + intros HF. inversion HF as [|? ? Hn HF']; subst. rewrite (H1 HF').
      apply (dget_dset_neq String.eqb string_eqb_spec). congruence.
    + intros u ([|a l1] & l2 & E & Pu & Hl2); cbn [app] in E.
      * injection E as -> ->. exists O. split; [reflexivity|]. rewrite H1 by exact Hl2.
        rewrite Nat.add_0_r. rewrite <- Pu. apply (dget_dset_eq String.eqb string_eqb_spec).
      * injection E as -> ->. destruct (H2 u) as (k & K1 & K2); [exists l1, l2; auto|].
        exists (S k). split; [exact K1|]. rewrite K2. f_equal. lia.
Qed.
Lemma build_dictionaries_pairs ts : forall i names pairs p,
  let r := snd (build_dictionaries i ts names pairs) in
  (Forall (fun x => (t_freq x, t_num x) <> p) ts -> dget pair_eqb p r = dget pair_eqb p pairs) /\
  (forall t, last_such (fun x => (t_freq x, t_num x) = p) ts t ->
     exists k, nth_error ts k = Some t /\ dget pair_eqb p r = Some (i + k)%nat).
Proof.
  induction ts as [|t ts IH]; intros i names pairs p; cbn [build_dictionaries].
  - cbn [snd]. split; [auto|]. intros t (l1 & l2 & E & _). destruct l1; discriminate.
  - destruct (IH (S i) (sset (t_name t) i names) (dset pair_eqb (t_freq t, t_num t) i pairs) p) as [H1 H2].
    split.
    + intros HF. inversion HF as [|? ? Hn HF']; subst. rewrite (H1 HF').
      apply (dget_dset_neq pair_eqb pair_eqb_spec). congruence.
    + intros u ([|a l1] & l2 & E & Pu & Hl2); cbn [app] in E.
      * injection E as -> ->. exists O. split; [reflexivity|]. rewrite H1 by exact Hl2.
        rewrite Nat.add_0_r. rewrite <- Pu. apply (dget_dset_eq pair_eqb pair_eqb_spec).
      * injection E as -> ->. destruct (H2 u) as (k & K1 & K2); [exists l1, l2; auto|].
        exists (S k). split; [exact K1|]. rewrite K2. f_equal. lia.
Qed.
Lemma build_dictionaries_index ts : forall i names pairs n k,
  In (n, k) (fst (build_dictionaries i ts names pairs)) ->
  In (n, k) names \/ exists t, nth_error ts (k - i) = Some t /\ (i <= k)%nat /\ t_name t = n.
Proof.
  induction ts as [|t ts IH]; intros i names pairs n k; cbn [build_dictionaries]; [auto|].
  intros H. apply IH in H as [H|(u & H1 & H2 & H3)].
  - assert (D : In (n, k) names \/ (n, k) = (t_name t, i)).
    { clear -H. induction names as [|[a b] names IHn]; cbn [dset In] in *; [intuition|].
      destruct (String.eqb_spec (t_name t) a) as [->|Hne].
      - destruct H as [H|H]; [right; congruence|left; now right].
      - destruct H as [H|H]; [left; now left|]. destruct (IHn H); auto. }
    destruct D as [D|D]; [now left|]. right. injection D as -> ->. exists t.
    rewrite Nat.sub_diag. auto.
  - right. exists u. split; [|split; [lia|exact H3]].
    replace (k - i)%nat with (S (k - S i)) by lia. exact H1.
Qed.

Lemma build_dict_name pv ts d name : build_dict pv ts = Ok d ->
  (Forall (fun x => t_name x <> name) ts -> get_template d name = None) /\
  (forall t, last_such (fun x => t_name x = name) ts t ->
     exists t', get_template d name = Some t' /\ same_template t t' /\
       forall f, t_freq t = Some f -> t_hex t' = Some (number_bytes f (t_num t))).
Proof.
  unfold build_dict. destruct (build_dictionaries 0 ts [] []) as [names pairs] eqn:E.
  destruct (build_message_ids pv names ts) as [store|] eqn:Es; [|discriminate]. cbn [bind]. intros [= <-].
  unfold get_template. cbn [td_names td_store].
  destruct (build_dictionaries_names ts 0 [] [] name) as [H1 H2]. rewrite E in H1, H2. cbn [fst] in H1, H2.
  split.
  - intros HF. rewrite (H1 HF). reflexivity.
  - intros t Ht. destruct (H2 t Ht) as (k & K1 & K2). rewrite K2. cbn [Nat.add].
    destruct (build_message_ids_spec pv names ts store Es k t K1) as (t' & T1 & T2 & _).
    exists t'. split; [exact T1|].
    assert (Hin : In k (map snd names)).
    { apply (dget_In String.eqb string_eqb_spec) in K2. apply (in_map snd) in K2. exact K2. }
    apply T2 in Hin. apply with_message_id_ok in Hin as (A & _ & B). auto.
Qed.
Lemma build_dict_pair pv ts d f n : build_dict pv ts = Ok d ->
  (Forall (fun x => (t_freq x, t_num x) <> (f, n)) ts -> get_template_by_pair d f n = None) /\
  (forall t, last_such (fun x => (t_freq x, t_num x) = (f, n)) ts t ->
     exists t', get_template_by_pair d f n = Some t' /\ same_template t t').
Proof.
  unfold build_dict. destruct (build_dictionaries 0 ts [] []) as [names pairs] eqn:E.
  destruct (build_message_ids pv names ts) as [store|] eqn:Es; [|discriminate]. cbn [bind]. intros [= <-].
  unfold get_template_by_pair. cbn [td_pairs td_store].
  destruct (build_dictionaries_pairs ts 0 [] [] (f, n)) as [H1 H2]. rewrite E in H1, H2. cbn [snd] in H1, H2.
  split.
  - intros HF. rewrite (H1 HF). reflexivity.
  - intros t Ht. destruct (H2 t Ht) as (k & K1 & K2). rewrite K2. cbn [Nat.add].
    destruct (build_message_ids_spec pv names ts store Es k t K1) as (t' & T1 & T2 & T3).
    exists t'. split; [exact T1|].
    destruct (in_dec Nat.eq_dec k (map snd names)) as [Hin|Hin].
    + apply T2 in Hin. now apply with_message_id_ok in Hin as (A & _).
    + rewrite (T3 Hin). repeat split.
Qed.

(** With distinct names and pairs both lookups give the same object. *)
Lemma nodup_last {A B} (g : A -> B) l t : NoDup (map g l) -> In t l -> last_such (fun x => g x = g t) l t.
Proof.
  intros Hn Hi. apply in_split in Hi as (l1 & l2 & ->). exists l1, l2. split; [reflexivity|]. split; [reflexivity|].
  rewrite map_app in Hn. cbn [map] in Hn. apply NoDup_remove in Hn as [_ Hn].
  apply Forall_forall. intros x Hx E. apply Hn. apply in_or_app. right. rewrite <- E. now apply in_map.
Qed.
Lemma nth_nodup {A B} (g : A -> B) l i j t : NoDup (map g l) -> nth_error l i = Some t -> nth_error l j = Some t -> i = j.
Proof.
  intros Hn Hi Hj. apply (NoDup_nth_error (map g l)); auto.
  - rewrite map_length. eapply nth_lt; eauto.
  - rewrite !nth_error_map, Hi, Hj. reflexivity.
Qed.
Lemma build_dict_both pv ts d t : build_dict pv ts = Ok d ->
  NoDup (map t_name ts) -> NoDup (map (fun x => (t_freq x, t_num x)) ts) -> In t ts ->
  exists t', get_template d (t_name t) = Some t' /\ get_template_by_pair d (t_freq t) (t_num t) = Some t' /\
    same_template t t' /\ forall f, t_freq t = Some f -> t_hex t' = Some (number_bytes f (t_num t)).
Proof.
  intros Hd Hn Hp Hi.
  pose proof (nodup_last t_name ts t Hn Hi) as L1.
  pose proof (nodup_last (fun x => (t_freq x, t_num x)) ts t Hp Hi) as L2. cbn beta in L2.
  destruct (build_dict_name pv ts d (t_name t) Hd) as [_ B]. destruct (B t L1) as (t' & B1 & B2 & B3).
  exists t'. split; [exact B1|]. split; [|auto].
  revert Hd B1. unfold build_dict. destruct (build_dictionaries 0 ts [] []) as [names pairs] eqn:E.
  destruct (build_message_ids pv names ts) as [store|] eqn:Es; [|discriminate]. cbn [bind]. intros [= <-].
  unfold get_template, get_template_by_pair. cbn [td_names td_pairs td_store].
  destruct (build_dictionaries_names ts 0 [] [] (t_name t)) as [_ H1].
  destruct (build_dictionaries_pairs ts 0 [] [] (t_freq t, t_num t)) as [_ H2].
  rewrite E in H1, H2. cbn [fst snd] in H1, H2.
  destruct (H1 t L1) as (k & K1 & ->). destruct (H2 t L2) as (k' & K1' & ->).
  rewrite (nth_nodup t_name ts k k' t Hn K1 K1'). auto.
Qed.
Lemma build_dict_ok pv ts : (forall t f, In t ts -> t_freq t = Some f -> pv = Py26 \/ 0 <= t_num t < number_space f) ->
  exists d, build_dict pv ts = Ok d.
Proof.
  intros H. unfold build_dict. destruct (build_dictionaries 0 ts [] []) as [names pairs] eqn:E.
  destruct (build_message_ids_ok pv names ts) as (store & ->); [|cbn; eauto].
  intros n i Hi. pose proof (build_dictionaries_index ts 0 [] [] n i) as D. rewrite E in D. cbn [fst] in D.
  destruct (D Hi) as [[]|(t & T1 & _ & _)]. rewrite Nat.sub_0_r in T1. exists t.
  pose proof (with_message_id_spec pv t) as S. destruct (t_freq t) as [f|] eqn:Ef; [|eauto].
  destruct (_ && _) eqn:Er; [eauto|]. destruct pv; [eauto|]. exfalso.
  destruct (H t f (nth_error_In _ _ T1) Ef); [discriminate|lia].
Qed.

(** build_dict keeps the templates one for one *)
Lemma build_dict_sound pv ts d : build_dict pv ts = Ok d ->
  (forall name t', get_template d name = Some t' ->
     exists t, In t ts /\ same_template t t' /\ t_name t' = name /\
       (forall f, t_freq t' = Some f -> t_hex t' = Some (number_bytes f (t_num t')))) /\
  (forall f n t', get_template_by_pair d f n = Some t' ->
     exists t, In t ts /\ same_template t t' /\ t_freq t' = f /\ t_num t' = n).
Proof.
  intros Hd. split.
  - intros name t' H.
    destruct (Exists_dec (fun x => t_name x = name) ts (fun x => string_dec (t_name x) name)) as [He|He].
    + assert (exists t, last_such (fun x => t_name x = name) ts t) as (t & Ht).
      { clear -He. induction ts as [|a ts IH]; [inversion He|].
        destruct (Exists_dec (fun x => t_name x = name) ts (fun x => string_dec (t_name x) name)) as [Hd|Hd].
        - destruct (IH Hd) as (t & l1 & l2 & -> & P & F). exists t, (a :: l1), l2. auto.
        - inversion He as [? ? Ha|? ? Ha]; subst; [|contradiction]. exists a, [], ts. split; [reflexivity|].
          split; [reflexivity|]. now apply Forall_Exists_neg. }
      destruct (build_dict_name pv ts d name Hd) as [_ B]. destruct (B t Ht) as (u & U1 & U2 & U3).
      assert (u = t') by congruence. subst u. exists t. split.
      { destruct Ht as (l1 & l2 & -> & _). apply in_or_app. right. now left. }
      split; [exact U2|]. destruct Ht as (_ & _ & _ & P & _). destruct U2 as (N1 & N2 & N3 & _).
      split; [congruence|]. intros f Hf. rewrite <- N3. apply U3. congruence.
    + apply Forall_Exists_neg in He. destruct (build_dict_name pv ts d name Hd) as [B _].
      rewrite (B He) in H. discriminate.
  - intros f n t' H.
    assert (Dec : forall x, {(t_freq x, t_num x) = (f, n)} + {(t_freq x, t_num x) <> (f, n)}).
    { intros x. destruct (pair_eqb (t_freq x, t_num x) (f, n)) eqn:E.
      - left. now apply pair_eqb_spec. - right. intros E'. apply pair_eqb_spec in E'. congruence. }
    destruct (Exists_dec (fun x => (t_freq x, t_num x) = (f, n)) ts Dec) as [He|He].
    + assert (exists t, last_such (fun x => (t_freq x, t_num x) = (f, n)) ts t) as (t & Ht).
      { clear -He Dec. induction ts as [|a ts IH]; [inversion He|].
        destruct (Exists_dec (fun x => (t_freq x, t_num x) = (f, n)) ts Dec) as [Hd|Hd].
        - destruct (IH Hd) as (t & l1 & l2 & -> & P & F). exists t, (a :: l1), l2. auto.
        - inversion He as [? ? Ha|? ? Ha]; subst; [|contradiction]. exists a, [], ts. split; [reflexivity|].
          split; [exact Ha|]. now apply Forall_Exists_neg. }
      destruct (build_dict_pair pv ts d f n Hd) as [_ B]. destruct (B t Ht) as (u & U1 & U2).
      assert (u = t') by congruence. subst u. exists t. split.
      { destruct Ht as (l1 & l2 & -> & _). apply in_or_app. right. now left. }
      split; [exact U2|]. destruct Ht as (_ & _ & _ & P & _). destruct U2 as (N1 & N2 & N3 & _).
      injection P as P1 P2. split; congruence.
    + apply Forall_Exists_neg in He. destruct (build_dict_pair pv ts d f n Hd) as [B _].
      rewrite (B He) in H. discriminate.
Qed.

Lemma numbered_bytes t t' : same_template t t' ->
  (forall f, t_freq t = Some f -> t_hex t' = Some (number_bytes f (t_num t))) -> numbered t'.
Proof.
  intros (_ & N2 & N3 & _) H f Hf. exists (number_bytes f (t_num t')). split; [|apply number_bytes_wire].
  rewrite <- N3. apply H. congruence.
Qed.
Lemma build_dict_name' pv ts d name : build_dict pv ts = Ok d ->
  (Forall (fun x => t_name x <> name) ts -> get_template d name = None) /\
  (forall t, last_such (fun x => t_name x = name) ts t ->
     exists t', get_template d name = Some t' /\ same_template t t' /\ numbered t').
Proof.
  intros Hd. destruct (build_dict_name pv ts d name Hd) as [A B]. split; [exact A|]. intros t Ht.
  destruct (B t Ht) as (t' & B1 & B2 & B3). exists t'. split; [exact B1|]. split; [exact B2|].
  now apply (numbered_bytes t t').
Qed.
Lemma build_dict_both' pv ts d t : build_dict pv ts = Ok d ->
  NoDup (map t_name ts) -> NoDup (map (fun x => (t_freq x, t_num x)) ts) -> In t ts ->
  exists t', get_template d (t_name t) = Some t' /\ get_template_by_pair d (t_freq t) (t_num t) = Some t' /\
    same_template t t' /\ numbered t'.
Proof.
  intros Hd H1 H2 H3. destruct (build_dict_both pv ts d t Hd H1 H2 H3) as (t' & A & B & C & D).
  exists t'. repeat (split; [assumption|]). now apply (numbered_bytes t t').
Qed.
Lemma build_dict_sound' pv ts d : build_dict pv ts = Ok d ->
  (forall name t', get_template d name = Some t' ->
     exists t, In t ts /\ same_template t t' /\ t_name t' = name /\ numbered t') /\
  (forall f n t', get_template_by_pair d f n = Some t' ->
     exists t, In t ts /\ same_template t t' /\ t_freq t' = f /\ t_num t' = n).
Proof.
  intros Hd. destruct (build_dict_sound pv ts d Hd) as [A B]. split; [|exact B]. intros name t' H.
  destruct (A name t' H) as (t & T1 & T2 & T3 & T4). exists t. repeat (split; [assumption|]).
  intros f Hf. exists (number_bytes f (t_num t')). split; [now apply T4|apply number_bytes_wire].
Qed.
