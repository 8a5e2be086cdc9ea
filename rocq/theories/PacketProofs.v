(** Proofs about deserialize: unwrapping, identification, the header. *)
From Coq Require Import ZifyBool ZifyNat.
From Verif Require Import Deserializer Lib SpecCodec SpecWire SpecLayout CodecProofs FieldProofs HeaderProofs ZeroProofs LayoutProofs DecodeProofs.
Ltac Zify.zify_post_hook ::= Z.div_mod_to_equations.

(** ** Flags *)
Lemma flag_zero f : has_flag (ord f) LL_ZERO_CODE_FLAG = bit f zero_bit.
Proof. destruct f; reflexivity. Qed.
Lemma flag_ack f : has_flag (ord f) LL_ACK_FLAG = bit f ack_bit.
Proof. destruct f; reflexivity. Qed.
Lemma flag_reliable f : has_flag (ord f) LL_RELIABLE_FLAG = bit f reliable_bit.
Proof. destruct f; reflexivity. Qed.

(** ** Ack trailers *)
Lemma ack_trailer_len w ids : ack_trailer w ids -> zlen w = 4 * zlen ids + 1.
Proof.
  intros (ws & c & -> & _ & H). rewrite zlen_app. change (zlen [c]) with 1. f_equal.
  induction H as [|aw id ws ids [H1 _] H2 IH]; [reflexivity|]. cbn [List.concat]. rewrite zlen_app, zlen_cons. lia.
Qed.
Lemma ack_trailer_last w ids : ack_trailer w ids -> exists w' c, w = w' ++ [c] /\ ord c = zlen ids /\ zlen w' = 4 * zlen ids.
Proof.
  intros H. pose proof (ack_trailer_len w ids H) as L. destruct H as (ws & c & -> & Hc & _).
  exists (List.concat ws), c. split; [reflexivity|]. split; [exact Hc|]. rewrite zlen_app in L. change (zlen [c]) with 1 in L. lia.
Qed.
Lemma ack_groups n w : List.length w = (4 * n)%nat ->
  exists ws ids, w = List.concat ws /\ List.length ids = n /\
    Forall2 (fun aw id => zlen aw = 4 /\ value_lsb_first aw = id) ws ids.
Proof.
  revert w. induction n as [|n IH]; intros w Hl.
  - destruct w; [|cbn in Hl; lia]. exists [], []. repeat split; constructor.
  - destruct (IH (skipn 4 w)) as (ws & ids & E & L & F); [rewrite skipn_length; lia|].
    exists (firstn 4 w :: ws), (value_lsb_first (firstn 4 w) :: ids). split; [|split].
    + cbn [List.concat]. rewrite <- E. symmetry. apply firstn_skipn.
    + cbn. congruence.
    + constructor; [|exact F]. split; [|reflexivity]. unfold zlen. rewrite firstn_length. lia.
Qed.
Lemma ack_trailer_ex w c : zlen w = 4 * ord c -> exists ids, ack_trailer (w ++ [c]) ids.
Proof.
  intros H. destruct (ack_groups (Z.to_nat (ord c)) w) as (ws & ids & -> & L & F).
  { pose proof (ord_range c). unfold zlen in H. lia. }
  exists ids, ws, c. split; [reflexivity|]. split; [|exact F]. change byte_value with ord. unfold zlen. pose proof (ord_range c). lia.
Qed.
Lemma ack_trailer_fun w ids ids' : ack_trailer w ids -> ack_trailer w ids' -> ids = ids'.
Proof.
  intros (ws & c & -> & Hc & F) (ws' & c' & E & Hc' & F').
  apply app_inj_tail in E as [E ->].
  assert (L : List.length ids = List.length ids') by (unfold zlen in *; lia). clear Hc Hc'.
  revert ws' ids' E F' L. induction F as [|aw id ws ids [H1 H2] F IH]; intros ws' ids' E F' L.
  - destruct ids'; [reflexivity|discriminate].
  - destruct F' as [|aw' id' ws' ids' [H1' H2'] F']; [discriminate|]. cbn [List.concat] in E.
    assert (E1 : aw = aw' /\ List.concat ws = List.concat ws').
    { apply app_eq_app in E as (l & [[E1 E2]|[E1 E2]]).
      - rewrite E1, zlen_app in H1. assert (l = []) by (apply zlen_0; lia). subst l. rewrite app_nil_r in E1. auto.
      - rewrite E1, zlen_app in H1'. assert (l = []) by (apply zlen_0; lia). subst l. rewrite app_nil_r in E1. auto. }
    destruct E1 as [-> E2]. f_equal; [congruence|]. apply (IH ws'); auto.
Qed.
Lemma read_acks_ok ws ids : Forall2 (fun aw id => zlen aw = 4 /\ value_lsb_first aw = id) ws ids ->
  forall pre post, read_acks (pre ++ List.concat ws ++ post) (zlen pre) (List.length ids) = Ok ids.
Proof.
  induction 1 as [|aw id ws ids [H1 H2] F IH]; intros pre post; [reflexivity|].
  cbn [List.length read_acks List.concat].
  rewrite <- app_assoc, (unpack_z_int MVT_U32 4 LE None pre aw _ eq_refl H1). cbn [order value bind].
  pose proof (IH (pre ++ aw) post) as E. rewrite <- app_assoc, zlen_app, H1 in E. rewrite E, H2. reflexivity.
Qed.

(** ** strip_acks *)
Lemma pyindex_last {A} (l : list A) x : pyindex (l ++ [x]) (zlen (l ++ [x]) - 1) = Ok x.
Proof. apply pyindex_app. rewrite zlen_app. change (zlen [x]) with 1. lia. Qed.
Lemma strip_plain f tl : bit f ack_bit = false -> strip_acks (f :: tl) = Ok (f :: tl, []).
Proof. intros H. unfold strip_acks. rewrite idx0. cbn [bind]. rewrite flag_ack, H. reflexivity. Qed.
Lemma cut_tail {A} (a t : list A) k : 0 < k -> zlen t = k -> pyupto (a ++ t) (- k) = a /\ pyfrom (a ++ t) (- k) = t.
Proof.
  intros Hk <-. rewrite pyupto_neg, pyfrom_neg by exact Hk. rewrite zlen_app.
  replace (zlen a + zlen t - zlen t) with (zlen a) by lia. rewrite zlen_to_nat. split.
  - rewrite firstn_app, firstn_all, Nat.sub_diag. cbn. apply app_nil_r.
  - rewrite skipn_app, skipn_all, Nat.sub_diag. reflexivity.
Qed.
Lemma strip_acked f tl tr ids : bit f ack_bit = true -> ack_trailer tr ids ->
  strip_acks ((f :: tl) ++ tr) = Ok (f :: tl, tr).
Proof.
  intros Hf Ht. destruct (ack_trailer_last tr ids Ht) as (w & c & -> & Hc & Hl).
  unfold strip_acks. cbn [app]. rewrite idx0. cbn [bind]. rewrite flag_ack, Hf.
  change (f :: tl ++ w ++ [c]) with ((f :: tl) ++ w ++ [c]). rewrite (app_assoc (f :: tl) w [c]).
  rewrite pyindex_last. cbn [bind]. rewrite Hc, <- app_assoc. pose proof (zlen_nonneg ids).
  assert (Lt : zlen (w ++ [c]) = 1 + 4 * zlen ids) by (rewrite zlen_app; change (zlen [c]) with 1; lia).
  destruct (cut_tail (f :: tl) (w ++ [c]) (1 + 4 * zlen ids) ltac:(lia) Lt) as [E1 E2].
  rewrite E1, E2. reflexivity.
Qed.
Lemma strip_acked_short f tl c buf : buf = f :: tl -> bit f ack_bit = true ->
  (exists l, buf = l ++ [c]) -> zlen buf <= 1 + 4 * ord c -> strip_acks buf = Ok ([], buf).
Proof.
  intros E Hf (l & El) Hl. unfold strip_acks. rewrite E at 1. rewrite idx0. cbn [bind]. rewrite flag_ack, Hf.
  rewrite El, pyindex_last. cbn [bind]. rewrite <- El. pose proof (ord_range c).
  rewrite pyupto_neg, pyfrom_neg by lia. replace (Z.to_nat (zlen buf - (1 + 4 * ord c))) with O by lia. reflexivity.
Qed.
Lemma last_ex {A} (f : A) tl : exists l c, f :: tl = l ++ [c].
Proof. destruct (@exists_last _ (f :: tl)) as (l & c & E); [discriminate|]. eauto. Qed.

(** Every datagram: empty, too short for its own trailer, or properly split. *)
Lemma strip_cases f tl :
  (bit f ack_bit = true /\ exists l c, f :: tl = l ++ [c] /\ zlen (f :: tl) <= 1 + 4 * ord c /\
     strip_acks (f :: tl) = Ok ([], f :: tl)) \/
  (exists tl' tr ids, f :: tl = (f :: tl') ++ tr /\ strip_acks (f :: tl) = Ok (f :: tl', tr) /\
     if bit f ack_bit then ack_trailer tr ids else tr = [] /\ ids = []).
Proof.
  destruct (bit f ack_bit) eqn:Ef.
  - destruct (last_ex f tl) as (l & c & E).
    destruct (Z_le_gt_dec (zlen (f :: tl)) (1 + 4 * ord c)) as [H|H].
    + left. split; [reflexivity|]. exists l, c. split; [exact E|]. split; [exact H|]. apply (strip_acked_short f tl c); eauto.
    + right. set (k := Z.to_nat (zlen l - 4 * ord c)). pose proof (ord_range c) as Hc.
      assert (Hz : zlen (f :: tl) = zlen l + 1) by (rewrite E, zlen_app; reflexivity).
      assert (Hkz : Z.of_nat k = zlen l - 4 * ord c) by (unfold k; lia). clearbody k.
      assert (Hk : (1 <= k)%nat) by lia.
      destruct l as [|f' l']; [exfalso; clear E; rewrite (zlen_nil (A:=byte)) in *; lia|].
      assert (f' = f) by (cbn in E; congruence). subst f'.
      destruct (ack_trailer_ex (skipn k (f :: l')) c) as (ids & Ht).
      { unfold zlen in *. rewrite skipn_length. lia. }
      assert (Es : firstn k (f :: l') = f :: firstn (k - 1) l').
      { destruct k as [|k']; [lia|]. cbn [firstn]. f_equal. f_equal. lia. }
      assert (E3 : f :: tl = (f :: firstn (k - 1) l') ++ (skipn k (f :: l') ++ [c])).
      { rewrite <- Es, app_assoc, firstn_skipn. exact E. }
      exists (firstn (k - 1) l'), (skipn k (f :: l') ++ [c]), ids. split; [exact E3|]. split; [|exact Ht].
      rewrite E3. apply (strip_acked f _ _ ids Ef Ht).
  - right. exists tl, [], []. split; [now rewrite app_nil_r|]. split; [now apply strip_plain|auto].
Qed.

(** ** expand *)
Lemma expand_ok f tl plain : expand (f :: tl) = Ok plain <->
  (if bit f zero_bit then
     exists o, nth_error (f :: tl) 5 = Some o /\
     let k := Z.to_nat (6 + byte_value o) in
     exists p, expansion (skipn k (f :: tl)) p /\ plain = firstn k (f :: tl) ++ p
   else plain = f :: tl).
Proof.
  unfold expand. rewrite idx0. cbn [bind]. rewrite flag_zero. destruct (bit f zero_bit).
  - rewrite pyindex_pos by lia. change (Z.to_nat 5) with 5%nat.
    destruct (nth_error (f :: tl) 5) as [o|]; cbn [bind].
    2:{ split; [discriminate|]. intros (o & H & _). discriminate. }
    change byte_value with ord. pose proof (ord_range o).
    rewrite pyupto_pos, pyfrom_pos by lia. split.
    + intros [= <-]. exists o. split; [reflexivity|]. cbv zeta. eexists. split; [|reflexivity]. apply expansion_ok.
    + intros (o' & [= <-] & p & Hp & ->). now rewrite (expansion_fun _ _ Hp).
  - split; [intros [= <-]; reflexivity|intros ->; reflexivity].
Qed.
Lemma expand_err f tl e : expand (f :: tl) = Err e <->
  e = IndexErr /\ bit f zero_bit = true /\ zlen (f :: tl) < 6.
Proof.
  unfold expand. rewrite idx0. cbn [bind]. rewrite flag_zero. destruct (bit f zero_bit).
  - rewrite pyindex_pos by lia. change (Z.to_nat 5) with 5%nat.
    destruct (nth_error (f :: tl) 5) as [o|] eqn:E; cbn [bind].
    + split; [discriminate|]. intros (_ & _ & H). exfalso.
      assert (N : nth_error (f :: tl) 5 <> None) by congruence. apply nth_error_Some in N. unfold zlen in H. lia.
    + apply nth_error_None in E. split; [intros [= <-]; repeat split; unfold zlen; lia|intros (-> & _); reflexivity].
  - split; [discriminate|]. intros (_ & H & _). discriminate.
Qed.
(** the first six bytes are kept *)
Lemma expand_head f tl plain : expand (f :: tl) = Ok plain -> exists tl', plain = f :: tl'.
Proof.
  intros H. apply expand_ok in H. destruct (bit f zero_bit); [|exists tl; exact H].
  destruct H as (o & Ho & p & _ & ->). change byte_value with ord. pose proof (ord_range o).
  destruct (Z.to_nat (6 + ord o)) eqn:E; [lia|]. cbn. eauto.
Qed.

(** ** Identification *)
Notation short_header := number_cut (only parsing).
Lemma header_cases plain : 6 < zlen plain ->
  (exists e, short_header plain e) \/
  (exists six h rest f n, plain = six ++ h ++ rest /\ zlen six = 6 /\ wire_number f n h /\ codable f n).
Proof.
  intros H. destruct plain as [|a0 [|a1 [|a2 [|a3 [|a4 [|a5 [|h0 tl]]]]]]]; unfold zlen in H; cbn in H; try lia.
  set (six := [a0; a1; a2; a3; a4; a5]).
  assert (FF : forall b, b <> xff -> 0 <= byte_value b < 255).
  { intros b Hb. change byte_value with ord. pose proof (ord_range b). assert (ord b <> 255); [|lia].
    intros E. apply Hb. apply ord_inj. exact E. }
  destruct (Byte.byte_eq_dec h0 xff) as [->|N0].
  2:{ right. exists six, [h0], tl, HIGH, (byte_value h0). repeat split; [constructor|apply FF; exact N0|apply FF; exact N0]. }
  destruct tl as [|h1 tl]; [left; exists IndexErr, six; split; [reflexivity|left; split; [reflexivity|auto]]|].
  destruct (Byte.byte_eq_dec h1 xff) as [->|N1].
  2:{ right. exists six, [xff; h1], tl, MEDIUM, (byte_value h1). repeat split; [constructor|apply FF; exact N1|apply FF; exact N1]. }
  destruct tl as [|h2 tl]; [left; exists IndexErr, six; split; [reflexivity|left; split; [reflexivity|auto]]|].
  destruct tl as [|h3 tl]; [left; exists StructError, six; split; [reflexivity|right; split; [reflexivity|exists h2; reflexivity]]|].
  right. pose proof (ord_range h3). destruct (Byte.byte_eq_dec h2 xff) as [->|N2].
  - exists six, [xff; xff; xff; h3], tl, FIXED, (byte_value h3). repeat split; [constructor|apply ord_range|apply ord_range].
  - exists six, [xff; xff; h2; h3], tl, LOW, (256 * byte_value h2 + byte_value h3).
    pose proof (FF h2 N2). change byte_value with ord in *. repeat split; [constructor|lia|lia].
Qed.
Lemma decode_template_short d plain e : short_header plain e -> decode_template d plain = Err e.
Proof.
  intros (six & H6 & H).
  destruct six as [|a0 [|a1 [|a2 [|a3 [|a4 [|a5 [|]]]]]]]; unfold zlen in H6; cbn in H6; try lia.
  destruct H as [[-> [->| ->]]|[-> [c ->]]]; try reflexivity.
  destruct c; reflexivity.
Qed.
Lemma decode_template_tiny d plain : zlen plain <= 6 -> decode_template d plain = Err MessageDeserializationErr.
Proof. intros H. unfold decode_template, PACKET_ID_LENGTH. destruct (zlen plain <=? 6) eqn:E; [reflexivity|lia]. Qed.

(** ** The header of the data *)
Lemma decode_data_eq t fr flags id off after tr ids plain :
  t_freq t = Some fr -> plain = flags :: id ++ off :: after -> zlen id = 4 ->
  (if bit flags ack_bit then ack_trailer tr ids else tr = [] /\ ids = []) ->
  decode_data t (plain ++ tr) =
    do r <- decode_blocks (plain ++ tr) (t_blocks t) [] (6 + number_width fr + ord off);
    match r with
    | None => Ok None
    | Some (d, _) =>
        if (zlen d <=? 0) && (0 <? zlen (t_blocks t)) then Err MessageDeserializationErr
        else Ok (Some {| m_name := t_name t; m_blocks := d; m_flags := ord flags; m_id := value_msb_first id;
                         m_eqid := 0; m_acks := ids; m_num_acks := zlen ids;
                         m_trusted := false; m_reliable := bit flags reliable_bit; m_retries := 1 |})
    end.
Proof.
  intros Hf Hp Hl Ht. unfold decode_data.
  assert (E0 : pyindex (plain ++ tr) 0 = Ok flags) by (rewrite Hp; apply idx0). rewrite E0. cbn [bind].
  assert (E1 : unpack_z (plain ++ tr) MVT_U32 1 (Some BE) = Ok (value_msb_first id)).
  { rewrite Hp. change ((flags :: id ++ off :: after) ++ tr) with ([flags] ++ (id ++ off :: after) ++ tr). rewrite <- app_assoc.
    apply (unpack_z_int MVT_U32 4 LE (Some BE) [flags] id _ eq_refl Hl). }
  rewrite E1. cbn [bind]. rewrite flag_ack, flag_reliable.
  assert (E2 : unpack_z (plain ++ tr) MVT_U8 PHL_OFFSET None = Ok (ord off)).
  { rewrite Hp. replace ((flags :: id ++ off :: after) ++ tr) with ((flags :: id) ++ off :: after ++ tr) by (cbn; now rewrite <- app_assoc).
    replace PHL_OFFSET with (zlen (flags :: id)) by (rewrite zlen_cons, Hl; reflexivity). apply unpack_u8_ok. }
  assert (E3 : freq_bytes t = Ok (number_width fr)) by (unfold freq_bytes; rewrite Hf; destruct fr; reflexivity).
  rewrite E2, E3.
  assert (EA : (if bit flags ack_bit then
      let msg_size := zlen (plain ++ tr) - 1 in
      do n <- unpack_z (plain ++ tr) MVT_U8 msg_size None;
      let ack_data := pyfrom (plain ++ tr) (msg_size - n * 4) in
      read_acks ack_data 0 (Z.to_nat n) else Ok []) = Ok ids).
  { destruct (bit flags ack_bit).
    2:{ destruct Ht as [_ ->]. reflexivity. }
    pose proof (ack_trailer_len tr ids Ht) as Lt. pose proof (zlen_nonneg ids) as Hi.
    destruct Ht as (ws & c & -> & Hc & F). change byte_value with ord in Hc. cbv zeta.
    assert (U : unpack_z (plain ++ List.concat ws ++ [c]) MVT_U8 (zlen (plain ++ List.concat ws ++ [c]) - 1) None = Ok (ord c)).
    { rewrite app_assoc. replace (zlen ((plain ++ List.concat ws) ++ [c]) - 1) with (zlen (plain ++ List.concat ws))
        by (rewrite (zlen_app _ [c]); change (zlen [c]) with 1; lia). apply unpack_u8_ok. }
    rewrite U. cbn [bind]. rewrite zlen_app, Lt, Hc.
    replace (zlen plain + (4 * zlen ids + 1) - 1 - zlen ids * 4) with (zlen plain) by lia.
    rewrite pyfrom_app. rewrite zlen_to_nat. apply (read_acks_ok ws ids F [] [c]). }
  cbv zeta in EA |- *. rewrite EA. reflexivity.
Qed.

(** ** The whole decoder *)
Definition finish (r : res (option message)) : res (option message) :=
  match r with Err DataUnpackingErr => Err MessageDeserializationErr | _ => r end.
Lemma deserialize_eq c buf plain tr t handled : dc_handled c = Some handled ->
  (exists a, strip_acks buf = Ok (a, tr) /\ expand a = Ok plain) ->
  decode_template (dc_dict c) plain = Ok (Some t) ->
  validate_udp_msg (dc_xml c) (t_name t) = Ok true -> (handled (t_name t) || negb (dc_deferred c) = true)%bool ->
  deserialize c buf = finish (decode_data t (plain ++ tr)).
Proof.
  intros Hh (a & Hs & He) Ht Hv Hd. unfold deserialize. rewrite Hs. cbn [bind]. rewrite He. cbn [bind]. rewrite Ht. cbn [bind].
  rewrite Hv. cbn [bind negb]. rewrite Hh, Hd. unfold finish. destruct (decode_data t (plain ++ tr)) as [r|[]]; reflexivity.
Qed.

(** Unwrapping as the decoder does it. *)
Lemma unwrapped_ok buf plain tr ids : unwrapped buf plain tr ids ->
  exists a, strip_acks buf = Ok (a, tr) /\ expand a = Ok plain.
Proof.
  intros (f & tl & coded & -> & -> & Ht & Hz). exists (f :: tl). split.
  - destruct (bit f ack_bit) eqn:E; [now apply (strip_acked f tl tr ids)|].
    destruct Ht as [-> ->]. rewrite app_nil_r. now apply strip_plain.
  - now apply expand_ok.
Qed.
Lemma unwrapped_inv buf a tr plain : strip_acks buf = Ok (a, tr) -> expand a = Ok plain ->
  exists ids f tl tl', unwrapped buf plain tr ids /\ a = f :: tl /\ plain = f :: tl' /\
   (if bit f ack_bit then ack_trailer tr ids else tr = [] /\ ids = []).
Proof.
  intros Hs He. destruct buf as [|f tl]; [discriminate Hs|].
  destruct (strip_cases f tl) as [(Ea & l & c & E & Hl & Hs')|(tl' & tr' & ids & E & Hs' & Ht)]; rewrite Hs' in Hs.
  - injection Hs as <- <-. discriminate He.
  - injection Hs as <- <-. pose proof (expand_head f tl' plain He) as (tl'' & Hp). exists ids, f, tl', tl''.
    split; [|auto]. exists f, tl', (f :: tl'). split; [exact E|]. split; [reflexivity|]. split; [exact Ht|]. now apply expand_ok.
Qed.

Definition wf_dict (d : tdict) : Prop :=
  forall f n t, get_template_by_pair d (Some f) n = Some t -> t_freq t = Some f /\ Forall pos_block (t_blocks t).
Lemma built_wf pv ts d : build_dict pv ts = Ok d -> Forall sized ts -> wf_dict d.
Proof.
  intros Hb Hs f n t Ht. destruct (build_dict_sound pv ts d Hb) as [_ H].
  destruct (H _ _ _ Ht) as (t0 & Hin & Hst & Hf & _). split; [exact Hf|].
  rewrite Forall_forall in Hs. pose proof (Hs t0 Hin) as S. apply sized_blocks in S.
  destruct Hst as (_ & _ & _ & _ & _ & _ & <-). exact S.
Qed.

Lemma add_block_nonempty bs d : d <> [] -> fold_left add_block bs d <> [].
Proof.
  revert d. induction bs as [|b bs IH]; intros d H; [exact H|]. cbn [fold_left]. apply IH.
  unfold add_block. destruct (sget (b_name b) d) as [l|]; destruct d as [|[k v] d]; cbn; try congruence;
    destruct (String.eqb (b_name b) k); discriminate.
Qed.
Lemma add_blocks_empty bs : fold_left add_block bs [] = [] <-> bs = [].
Proof.
  split; [|intros ->; reflexivity]. destruct bs as [|b bs]; [reflexivity|]. cbn [fold_left]. intros H. exfalso.
  apply (add_block_nonempty bs (add_block [] b)); [discriminate|exact H].
Qed.
Lemma firstn_skipn_at {A} (l : list A) k b r : skipn k l = b ++ r -> (k <= List.length l)%nat ->
  exists pre, l = pre ++ b ++ r /\ List.length pre = k.
Proof.
  intros H Hk. exists (firstn k l). rewrite <- H, firstn_skipn. split; [reflexivity|]. apply firstn_length_le, Hk.
Qed.

Lemma six_split (plain : bytes) : 6 <= zlen plain ->
  exists flags id off after, plain = flags :: id ++ off :: after /\ zlen id = 4.
Proof.
  intros H. destruct plain as [|a0 [|a1 [|a2 [|a3 [|a4 [|a5 tl]]]]]]; unfold zlen in H; cbn [List.length] in H; try lia.
  exists a0, [a1; a2; a3; a4], a5, tl. split; reflexivity.
Qed.

(** A body that reads no bytes can be read anywhere. *)
Lemma field_nonempty v w y : pos_size v -> field_read v w y -> w <> [].
Proof.
  intros Hs H E. inversion H as [w' y' Ht Hsz Hu|p len d Ht Hsz Hin Hl Hv Hn|p len d r Ht Hsz Hin Hl Hv Hn Hr]; subst.
  - apply Hs in Hsz. change (zlen (@nil byte)) with 0 in Hsz. lia.
  - destruct len; [|discriminate]. apply Hs in Hsz. change (zlen (@nil byte)) with 0 in Hsz. lia.
  - destruct len; [|discriminate]. apply Hs in Hsz. change (zlen (@nil byte)) with 0 in Hsz. lia.
Qed.
Lemma fields_nonempty vs ws ys : Forall pos_size vs -> fields_read vs ws ys -> List.concat ws = [] -> vs = [].
Proof.
  intros Hs H E. destruct vs as [|v vs]; [reflexivity|]. exfalso. inversion Hs; subst.
  apply fields_read_inv in H as (w & ws' & y & ys' & -> & -> & H1 & _). cbn in E.
  apply app_eq_nil in E as [E _]. eapply field_nonempty; eauto.
Qed.
Lemma instances_empty tb : pos_block tb -> forall i w bs, instances_read tb i w bs -> w = [] ->
  forall data d pos, decode_instances data tb i (List.length bs) d pos = Ok (Some (fold_left add_block bs d, pos)).
Proof.
  intros Hb i w bs H. induction H as [i|i w b w' bs H1 H2 IH]; intros E data d pos; [reflexivity|].
  apply app_eq_nil in E as [-> ->]. destruct H1 as (ws & ys & Ew & -> & H1 & H1').
  pose proof (fields_nonempty _ ws ys Hb (conj H1 H1') (eq_sym Ew)) as Ev.
  cbn [List.length decode_instances]. rewrite Ev. cbn [decode_vars bind]. rewrite (IH eq_refl).
  cbn [fold_left]. unfold the_block. rewrite Ev. reflexivity.
Qed.
Lemma blocks_read_empty tbs w bs : blocks_read tbs w bs -> Forall pos_block tbs -> w = [] ->
  forall data d pos, decode_blocks data tbs d pos = Ok (Some (fold_left add_block bs d, pos)).
Proof.
  induction 1 as [|tb w bs tbs w' bs' H1 H2 IH]; intros Hb E data d pos; [reflexivity|].
  apply app_eq_nil in E as [-> ->]. inversion Hb as [|? ? Hb1 Hb2]; subst. rewrite decode_blocks_cons, fold_left_app.
  unfold count_at. inversion H1 as [w0 b Ht Hi|w0 bs0 Ht Hn Hi|c w0 bs0 Ht Hc Hi]; subst; rewrite Ht; cbn [bind].
  - change (Z.to_nat 1) with (List.length [b]). rewrite (instances_empty tb Hb1 0 [] [b] Hi eq_refl). cbn [bind]. now apply IH.
  - replace (Z.to_nat (tb_number tb)) with (List.length bs) by (unfold zlen in Hn; lia).
    rewrite (instances_empty tb Hb1 0 [] bs Hi eq_refl). cbn [bind]. now apply IH.
Qed.
Lemma decode_blocks_at tbs w bs data d pos rest : blocks_read tbs w bs -> Forall pos_block tbs -> 0 <= pos ->
  skipn (Z.to_nat pos) data = w ++ rest ->
  decode_blocks data tbs d pos = Ok (Some (fold_left add_block bs d, pos + zlen w)).
Proof.
  intros H Hb Hp E. destruct w as [|c w].
  - change (zlen (@nil byte)) with 0. rewrite Z.add_0_r. now apply (blocks_read_empty tbs [] bs).
  - destruct (Z_le_gt_dec pos (zlen data)) as [L|L].
    + destruct (firstn_skipn_at data (Z.to_nat pos) (c :: w) rest E) as (pre & -> & Lp); [unfold zlen in L; lia|].
      replace pos with (zlen pre) by (unfold zlen; lia). apply (decode_blocks_read tbs (c :: w) bs H Hb pre rest d).
    + rewrite skipn_all2 in E by (unfold zlen in L; lia). discriminate.
Qed.

Lemma app_inj_zlen {A} (a b c d : list A) : zlen a = zlen b -> a ++ c = b ++ d -> a = b /\ c = d.
Proof.
  unfold zlen. revert b. induction a as [|x a IH]; intros [|y b] L E; cbn in *; try lia; [auto|].
  injection E as -> E. destruct (IH b ltac:(lia) E) as [-> ->]. auto.
Qed.

(** ** C09 *)
Lemma deserialize_says pv ts c handled buf m :
  build_dict pv ts = Ok (dc_dict c) -> Forall sized ts -> dc_handled c = Some handled ->
  deserialize c buf = Ok (Some m) <->
  datagram_says (dc_dict c) (udp_allowed (dc_xml c))
    (fun name => handled name = true \/ dc_deferred c = false) buf m.
Proof.
  intros Hbd Hsz Hh. pose proof (built_wf _ _ _ Hbd Hsz) as Hwf. split.
  - intros H. unfold deserialize in H. inv_bind H. destruct a as [a tr]. rename Ha into Hs.
    inv_bind H. rename a0 into plain, Ha into He. inv_bind H. rename a0 into ot, Ha into Ht.
    destruct ot as [t|]; [|discriminate]. inv_bind H. rename a0 into ok, Ha into Hv.
    destruct ok; [|discriminate]. cbn [negb] in H. rewrite Hh in H.
    destruct (handled (t_name t) || negb (dc_deferred c))%bool eqn:Hw; [|discriminate].
    destruct (unwrapped_inv buf a tr plain Hs He) as (ids & fl & tl & tl' & Hu & -> & Hp & Htr).
    assert (L6 : 6 < zlen plain).
    { destruct (Z_le_gt_dec (zlen plain) 6) as [L|L]; [|lia]. rewrite decode_template_tiny in Ht by exact L. discriminate. }
    destruct (header_cases plain L6) as [(e & Hse)|(six & h & rest0 & f & n & Ep & E6 & Hn & Hc)].
    { rewrite (decode_template_short _ _ _ Hse) in Ht. discriminate. }
    assert (Ht' : get_template_by_pair (dc_dict c) (Some f) n = Some t).
    { rewrite Ep, (decode_template_number (dc_dict c) six f n h rest0 E6 Hn Hc) in Ht. now injection Ht. }
    destruct (Hwf f n t Ht') as [Hf Hb].
    destruct (six_split plain ltac:(lia)) as (flags & id & off & after & Eh & Hid).
    assert (flags = fl) by congruence. subst fl.
    assert (D : decode_data t (plain ++ tr) = Ok (Some m)).
    { destruct (decode_data t (plain ++ tr)) as [r|[]]; congruence. }
    rewrite (decode_data_eq t f flags id off after tr ids plain Hf Eh Hid Htr) in D.
    inv_bind D. destruct a as [[d p]|]; [|discriminate].
    assert (Hpos : 0 <= 6 + number_width f + ord off) by (pose proof (ord_range off); destruct f; cbn [number_width]; lia).
    destruct (decode_blocks_inv _ _ Hb _ _ _ _ Hpos Ha) as (w & bs & Hr & -> & -> & rest & R).
    destruct ((zlen (fold_left add_block bs []) <=? 0) && (0 <? zlen (t_blocks t)))%bool eqn:Ez; [discriminate|].
    injection D as <-.
    exists plain, tr, ids, t, f, n, h, rest0. split; [exact Hu|]. split; [exists six; auto|]. split; [exact Hn|].
    split; [exact Hc|]. split; [exact Ht'|]. split; [now apply udp_allowed_spec|].
    split; [apply orb_true_iff in Hw; rewrite negb_true_iff in Hw; exact Hw|].
    exists flags, id, off, (after ++ tr), w, rest, bs. split; [rewrite Eh; cbn; rewrite <- app_assoc; reflexivity|].
    split; [exact Hid|]. split; [exact R|]. split; [exact Hr|]. split; [|repeat split; reflexivity].
    destruct bs as [|b bs]; [right|left; discriminate].
    destruct (t_blocks t) as [|tb tbs]; [reflexivity|]. apply andb_false_iff in Ez. rewrite zlen_cons in Ez. pose proof (zlen_nonneg tbs). change (zlen (fold_left add_block [] [])) with 0 in Ez. destruct Ez as [Ez|Ez]; [discriminate|lia].
  - intros (plain & tr & ids & t & f & n & h & rest0 & Hu & (six & Ep & E6) & Hn & Hc & Ht & Hal & Hw &
      flags & id & off & after & body & rest & bs & Eh & Hid & Hsk & Hr & Hne & Hname & Hfl & Hidv & Hbl & Hac & Hna & Hrel & Heq & Htr & Hre).
    destruct (Hwf f n t Ht) as [Hf Hb].
    destruct (unwrapped_ok buf plain tr ids Hu) as (a & Hs & He).
    destruct (unwrapped_inv buf a tr plain Hs He) as (ids' & fl & tl & tl' & Hu' & -> & Hp & Htrl).
    assert (Htrl' : if bit fl ack_bit then ack_trailer tr ids else tr = [] /\ ids = []).
    { destruct Hu as (f1 & tl1 & cd & Eb & Ecd & Ht1 & Hz1). destruct Hu' as (f2 & tl2 & cd2 & Eb2 & Ecd2 & Ht2 & Hz2).
      assert (f1 = f2) by (rewrite Eb in Eb2; cbn in Eb2; congruence). subst f2.
      assert (f1 = fl).
      { assert (ex : expand cd2 = Ok plain) by (rewrite Ecd2; apply expand_ok; rewrite <- Ecd2; exact Hz2).
        rewrite Ecd2 in ex. apply expand_head in ex as (q & Eq). congruence. }
      subst fl. exact Ht1. }
    assert (Lh : zlen h = number_width f) by (apply (wire_number_len f n h Hn)).
    assert (L6 : 6 <= zlen plain) by (rewrite Ep, zlen_app; pose proof (zlen_nonneg (h ++ rest0)); lia).
    destruct (six_split plain L6) as (flags' & id' & off' & after' & Eh' & Hid').
    assert (Eall : flags' :: id' ++ off' :: after' ++ tr = flags :: id ++ off :: after).
    { rewrite <- Eh, Eh'. cbn. now rewrite <- app_assoc. }
    injection Eall as Ef Eall.
    assert (Ex : id' = id /\ off' :: after' ++ tr = off :: after).
    { revert Eall. apply app_inj_zlen. lia. }
    destruct Ex as [-> Ex]. injection Ex as Eo Ea. subst flags' off'.
    assert (fl = flags) by congruence. subst fl.
    rewrite (deserialize_eq c buf plain tr t handled Hh); eauto.
    + rewrite (decode_data_eq t f flags id off after' tr ids plain Hf Eh' Hid Htrl').
      assert (Hpos : 0 <= 6 + number_width f + ord off) by (pose proof (ord_range off); destruct f; cbn [number_width]; lia).
      rewrite (decode_blocks_at (t_blocks t) body bs _ [] _ rest Hr Hb Hpos Hsk). cbn [bind].
      assert (Ez : ((zlen (fold_left add_block bs []) <=? 0) && (0 <? zlen (t_blocks t)))%bool = false).
      { destruct Hne as [Hne|Hne].
        - assert (fold_left add_block bs [] <> []) by (rewrite add_blocks_empty; exact Hne).
          destruct (fold_left add_block bs []); [congruence|]. rewrite zlen_cons. pose proof (zlen_nonneg l). lia.
        - rewrite Hne. apply andb_false_r. }
      rewrite Ez. cbn [finish]. f_equal. f_equal. destruct m; cbn in Hname, Hfl, Hidv, Hbl, Hac, Hna, Hrel, Heq, Htr, Hre |- *. subst. reflexivity.
    + rewrite Ep, (decode_template_number (dc_dict c) six f n h rest0 E6 Hn Hc). now rewrite Ht.
    + now apply udp_allowed_spec.
    + apply orb_true_iff. rewrite negb_true_iff. exact Hw.
Qed.
