(** Proofs about DataPacker and DataUnpacker: integers, UUIDs, strings. *)
From Coq Require Import ZifyBool ZifyNat.
From Verif Require Import Packer Lib SpecCodec.
Ltac Zify.zify_post_hook ::= Z.div_mod_to_equations.

Lemma value_lsb_le s : value_lsb_first s = le_val s.
Proof. induction s as [|b s IH]; cbn; [auto|]. now rewrite IH. Qed.
Lemma msb_acc s acc : fold_left (fun acc b => 256 * acc + byte_value b) s acc =
  acc * 2 ^ (8 * zlen s) + le_val (rev s).
Proof.
  revert acc. induction s as [|b s IH]; intros acc; cbn [fold_left rev].
  - cbn. lia.
  - rewrite IH. clear IH. assert (Hs : forall s', le_val (s' ++ [b]) = le_val s' + 2 ^ (8 * zlen s') * ord b).
    { clear. induction s' as [|c s' IH]; cbn [app le_val]; [change (2 ^ (8 * zlen (@nil byte))) with 1; cbn [le_val]; ring|].
      rewrite IH. unfold zlen. cbn [List.length]. rewrite pow2_S. ring. }
    rewrite Hs, zlen_rev. unfold zlen. cbn [List.length]. rewrite pow2_S.
    change (byte_value b) with (ord b). ring.
Qed.
Lemma value_msb_be s : value_msb_first s = be_val s.
Proof. unfold value_msb_first, be_val. rewrite msb_acc. lia. Qed.
Lemma value_dec en s : value en s = dec en s.
Proof. destruct en; [apply value_lsb_le|apply value_msb_be]. Qed.

(** ** Integer items *)
Definition int_item (t : mvt) (n : nat) (sg : bool) (en : endian) : Prop :=
  packer_table t = (en, FInt sg n) /\ unpacker_table t = (en, FInt sg n) /\
  sizeof_mvt t = Z.of_nat n /\ (0 < n)%nat.
Lemma int_spec_item t size sg en : int_spec t = Some (size, sg, en) ->
  exists n, size = Z.of_nat n /\ int_item t n sg en /\ ((n < 8)%nat <-> size < 8) /\
            (size = 1 \/ size = 2 \/ size = 4 \/ size = 8).
Proof.
  unfold int_item. destruct t; cbn; intros [= <- <- <-];
    match goal with |- context [?z = Z.of_nat _] => exists (Z.to_nat z) end;
    (split; [reflexivity|split; [repeat split; try reflexivity; cbn; lia|split; [cbn; lia|lia]]]).
Qed.
Lemma fits_in_range sg n z : fits sg (Z.of_nat n) z <-> in_range sg n z = true.
Proof. unfold fits, in_range. destruct sg; lia. Qed.

Lemma pack_item pv t n sg en et z : int_item t n sg en ->
  pack_data pv (VInt z) (Some t) et = res_map (@Some _) (pack_int pv (order et en) sg n z).
Proof. intros (H & _). unfold pack_data. rewrite H. destruct et; reflexivity. Qed.

Lemma unpack_item t n sg en et b : int_item t n sg en -> List.length b = n ->
  unpack_raw t et b = Ok (VInt (if sg then to_signed n (dec (order et en) b) else dec (order et en) b)).
Proof.
  intros (_ & H & _) Hl. unfold unpack_raw. rewrite H. unfold unpack_int.
  replace (match et with Some e => e | None => en end) with (order et en) by (destruct et; reflexivity).
  rewrite Hl, Nat.eqb_refl. reflexivity.
Qed.
Lemma unpack_item_bad t n sg en et b : int_item t n sg en -> List.length b <> n ->
  unpack_raw t et b = Err StructError.
Proof.
  intros (_ & H & _) Hl. unfold unpack_raw. rewrite H. unfold unpack_int.
  apply Nat.eqb_neq in Hl. rewrite Hl. reflexivity.
Qed.

(** unpack_data of a whole string and of a slice of a longer one agree *)
Lemma unpack_whole b t et : unpack_data b (Some t) (-1) (-1) et = wrap_struct_error (unpack_raw t et b).
Proof. reflexivity. Qed.
Lemma unpack_at pre b post t et : zlen b = sizeof_mvt t ->
  unpack_data (pre ++ b ++ post) (Some t) (zlen pre) (-1) et =
  wrap_struct_error (unpack_raw t et b).
Proof.
  intros Hl. unfold unpack_data. pose proof (zlen_nonneg pre).
  destruct (zlen pre =? -1) eqn:E; [lia|]. cbn [Z.eqb sizeof option_map bind].
  rewrite pyslice_mid by lia. reflexivity.
Qed.
Lemma unpack_at_vs pre b post t et : unpack_data (pre ++ b ++ post) (Some t) (zlen pre) (zlen b) et =
  wrap_struct_error (unpack_raw t et b).
Proof.
  unfold unpack_data. pose proof (zlen_nonneg pre). pose proof (zlen_nonneg b).
  destruct (zlen pre =? -1) eqn:E; [lia|]. destruct (zlen b =? -1) eqn:E2; [lia|].
  cbn [bind]. rewrite pyslice_mid by lia. reflexivity.
Qed.

Lemma int_roundtrip pv t size sg en et z pre post :
  int_spec t = Some (size, sg, en) -> fits sg size z ->
  exists b, pack_data pv (VInt z) (Some t) et = Ok (Some b) /\ zlen b = size /\
    value (order et en) b = z mod 2 ^ (8 * size) /\
    unpack_data b (Some t) (-1) (-1) et = Ok (VInt z) /\
    unpack_data (pre ++ b ++ post) (Some t) (zlen pre) (-1) et = Ok (VInt z).
Proof.
  intros Hs Hf. destruct (int_spec_item _ _ _ _ Hs) as (n & -> & Hi & _ & _).
  apply fits_in_range in Hf. exists (enc (order et en) n z).
  rewrite (pack_item pv t n sg en et z Hi). unfold pack_int. rewrite Hf.
  split; [reflexivity|]. split; [apply zlen_enc|].
  split; [rewrite value_dec; apply dec_enc|].
  assert (Hu : unpack_raw t et (enc (order et en) n z) = Ok (VInt z)).
  { rewrite (unpack_item t n sg en et _ Hi) by apply enc_length. rewrite dec_enc.
    destruct Hi as (_ & _ & _ & Hn). destruct sg.
    - now rewrite to_signed_inv.
    - unfold in_range in Hf. rewrite Z.mod_small by lia. reflexivity. }
  destruct Hi as (_ & _ & Hsz & _).
  split; [rewrite unpack_whole, Hu; reflexivity|].
  rewrite unpack_at by (rewrite zlen_enc; lia). now rewrite Hu.
Qed.

Lemma int_out_of_range pv t size sg en et z :
  int_spec t = Some (size, sg, en) -> ~ fits sg size z ->
  match pv with
  | Py27 => pack_data pv (VInt z) (Some t) et = Err StructError
  | Py26 =>
      if size <? 8 then
        exists b, pack_data pv (VInt z) (Some t) et = Ok (Some b) /\ zlen b = size /\
                  value (order et en) b = z mod 2 ^ (8 * size)
      else pack_data pv (VInt z) (Some t) et = Err OverflowErr
  end.
Proof.
  intros Hs Hf. destruct (int_spec_item _ _ _ _ Hs) as (n & -> & Hi & H8 & _).
  rewrite (pack_item pv t n sg en et z Hi). unfold pack_int.
  destruct (in_range sg n z) eqn:E; [exfalso; apply Hf; now apply fits_in_range|].
  destruct pv; [|reflexivity]. destruct (Nat.ltb n 8) eqn:E8.
  - destruct (Z.of_nat n <? 8) eqn:E9; [|lia].
    eexists. split; [reflexivity|]. split; [apply zlen_enc|]. rewrite value_dec. apply dec_enc.
  - destruct (Z.of_nat n <? 8) eqn:E9; [lia|]. reflexivity.
Qed.

Lemma int_decode pv t size sg en et b :
  int_spec t = Some (size, sg, en) ->
  (zlen b = size -> exists z, unpack_data b (Some t) (-1) (-1) et = Ok (VInt z) /\ fits sg size z /\
     value (order et en) b = z mod 2 ^ (8 * size) /\
     pack_data pv (VInt z) (Some t) et = Ok (Some b)) /\
  (zlen b <> size -> unpack_data b (Some t) (-1) (-1) et = Err DataUnpackingErr).
Proof.
  intros Hs. destruct (int_spec_item _ _ _ _ Hs) as (n & -> & Hi & _ & _). split.
  - intros Hl. assert (Hl' : List.length b = n) by (unfold zlen in Hl; lia).
    pose proof (dec_range (order et en) b) as Hr. rewrite Hl in Hr.
    rewrite unpack_whole, (unpack_item t n sg en et b Hi Hl'). cbn [wrap_struct_error].
    assert (Hn : (0 < n)%nat) by apply Hi.
    eexists. split; [reflexivity|].
    rewrite (pack_item pv t n sg en et _ Hi), value_dec. unfold pack_int. destruct sg.
    + destruct (to_signed_spec n _ Hn Hr) as [H1 H2]. rewrite fits_in_range, H1, H2.
      split; [reflexivity|]. split; [reflexivity|]. cbn [res_map]. do 2 f_equal.
      erewrite enc_mod by (rewrite H2; symmetry; apply Z.mod_small; exact Hr).
      now apply enc_dec.
    + assert (H1 : in_range false n (dec (order et en) b) = true) by (unfold in_range; lia).
      rewrite fits_in_range, H1.
      split; [reflexivity|]. split; [symmetry; apply Z.mod_small; exact Hr|].
      cbn [res_map]. do 2 f_equal. now apply enc_dec.
  - intros Hl. rewrite unpack_whole, (unpack_item_bad t n sg en et b Hi); [reflexivity|].
    unfold zlen in Hl. lia.
Qed.

(** ** UUIDs *)
Lemma uuid_roundtrip pv u (std : bool) et et' pre post : 0 <= u < 2 ^ 128 ->
  exists b, pack_data pv (if std then VStdUUID u else VUUID u) (Some MVT_LLUUID) et = Ok (Some b) /\
    zlen b = 16 /\ value_msb_first b = u /\
    unpack_data b (Some MVT_LLUUID) (-1) (-1) et' = Ok (VUUID u) /\
    unpack_data (pre ++ b ++ post) (Some MVT_LLUUID) (zlen pre) (-1) et' = Ok (VUUID u).
Proof.
  intros Hu. exists (be_bytes 16 u).
  assert (Hl : List.length (be_bytes 16 u) = 16%nat) by apply (enc_length BE).
  assert (Hv : be_val (be_bytes 16 u) = u).
  { change (dec BE (enc BE 16 u) = u). rewrite dec_enc. apply Z.mod_small. exact Hu. }
  assert (Hr : unpack_raw MVT_LLUUID et' (be_bytes 16 u) = Ok (VUUID u)).
  { unfold unpack_raw, unpacker_table, uuid_unpack.
    rewrite pyslice_pos by lia. replace (Z.to_nat (0 + 16 - 0)) with (List.length (be_bytes 16 u)) by (rewrite Hl; reflexivity).
    cbn [Z.to_nat skipn]. rewrite firstn_all, Hl, Hv. reflexivity. }
  split; [destruct std; reflexivity|]. split; [unfold zlen; rewrite Hl; reflexivity|].
  split; [rewrite value_msb_be; exact Hv|].
  split; [rewrite unpack_whole, Hr; reflexivity|].
  rewrite unpack_at by (unfold zlen; rewrite Hl; reflexivity). now rewrite Hr.
Qed.
Lemma uuid_decode pv b et : zlen b = 16 ->
  exists u, 0 <= u < 2 ^ 128 /\ unpack_data b (Some MVT_LLUUID) (-1) (-1) et = Ok (VUUID u) /\
    pack_data pv (VUUID u) (Some MVT_LLUUID) et = Ok (Some b).
Proof.
  intros Hl. exists (be_val b).
  assert (Hl' : List.length b = 16%nat) by (unfold zlen in Hl; lia).
  split; [pose proof (dec_range BE b) as H; rewrite Hl in H; exact H|].
  split.
  - rewrite unpack_whole. unfold unpack_raw, unpacker_table, uuid_unpack.
    rewrite pyslice_pos by lia. cbn [Z.to_nat skipn].
    replace (Z.to_nat (0 + 16 - 0)) with (List.length b) by (rewrite Hl'; reflexivity).
    rewrite firstn_all, Hl'. reflexivity.
  - unfold pack_data, packer_table, pack_uuid, uuid_get_bytes. cbn [res_map]. do 2 f_equal.
    apply (enc_dec BE). exact Hl'.
Qed.
(** A string longer than 16 bytes is read up to its 16th byte. *)
Lemma uuid_decode_bad b et : zlen b < 16 ->
  unpack_data b (Some MVT_LLUUID) (-1) (-1) et = Err ValueErr.
Proof.
  intros Hl. rewrite unpack_whole. unfold unpack_raw, unpacker_table, uuid_unpack.
  destruct (Nat.eqb_spec (List.length (pyslice b 0 (0 + 16))) 16) as [E|E]; [|reflexivity].
  exfalso. pose proof (pyslice_length b 0 16 ltac:(lia)) as H. change (0 + 16) with 16 in E.
  unfold zlen in *. lia.
Qed.
Lemma uuid_decode_long b et : 16 <= zlen b ->
  unpack_data b (Some MVT_LLUUID) (-1) (-1) et =
  unpack_data (firstn 16 b) (Some MVT_LLUUID) (-1) (-1) et.
Proof.
  intros Hl. rewrite !unpack_whole. unfold unpack_raw, unpacker_table, uuid_unpack.
  rewrite !pyslice_pos by lia. change (Z.to_nat (0 + 16 - 0)) with 16%nat.
  change (Z.to_nat 0) with O. cbn [skipn]. now rewrite firstn_firstn.
Qed.

(** ** Text *)
Lemma ord_chr_small z : 0 <= z < 256 -> byte_value (chr z) = z.
Proof. intros H. change (byte_value (chr z)) with (ord (chr z)). rewrite ord_chr. apply Z.mod_small; lia. Qed.
Lemma utf8_char_spec c : 0 <= c < 2 ^ 21 -> utf8_spec_char c (utf8_char c).
Proof.
  intros Hc. unfold utf8_spec_char, utf8_char.
  change (2 ^ 7) with 128. change (2 ^ 11) with 2048. change (2 ^ 16) with 65536.
  change (2 ^ 21) with 2097152 in *.
  destruct (c <? 128) eqn:E1; [left; split; [lia|cbn [map]; rewrite ord_chr_small by lia; reflexivity]|].
  destruct (c <? 2048) eqn:E2.
  { right; left. split; [lia|]. exists (c / 64), (c mod 64).
    split; [lia|]. split; [lia|]. cbn [map]. rewrite !ord_chr_small by lia. reflexivity. }
  destruct (c <? 65536) eqn:E3.
  { right; right; left. split; [lia|]. exists (c / 4096), ((c / 64) mod 64), (c mod 64).
    split; [lia|]. split; [lia|]. split; [lia|]. cbn [map]. rewrite !ord_chr_small by lia. reflexivity. }
  right; right; right. split; [lia|].
  exists (c / 262144), ((c / 4096) mod 64), ((c / 64) mod 64), (c mod 64).
  split; [lia|]. split; [lia|]. split; [lia|]. split; [lia|]. cbn [map].
  rewrite !ord_chr_small by lia. reflexivity.
Qed.
Lemma utf8_ok u : Forall (fun c => 0 <= c < 2 ^ 21) u -> utf8_spec u (utf8 u).
Proof.
  induction 1 as [|c u Hc Hu IH]; cbn [utf8 flat_map]; constructor; auto using utf8_char_spec.
Qed.
Lemma byte_value_inj_map s s' : map byte_value s = map byte_value s' -> s = s'.
Proof.
  revert s'. induction s as [|b s IH]; intros [|b' s'] H; try discriminate; [auto|].
  cbn in H. injection H as H1 H2. f_equal; [apply ord_inj; exact H1|auto].
Qed.
Lemma utf8_char_fun c s s' : utf8_spec_char c s -> utf8_spec_char c s' -> s = s'.
Proof.
  unfold utf8_spec_char. change (2 ^ 7) with 128. change (2 ^ 11) with 2048.
  change (2 ^ 16) with 65536. change (2 ^ 21) with 2097152.
  intros [[? H]|[(? & a & b & ? & ? & H)|[(? & a & b & d & ? & ? & ? & H)|(? & a & b & d & e & ? & ? & ? & ? & H)]]]
         [[? H']|[(? & a' & b' & ? & ? & H')|[(? & a' & b' & d' & ? & ? & ? & H')|(? & a' & b' & d' & e' & ? & ? & ? & ? & H')]]];
    try lia; apply byte_value_inj_map; rewrite H, H'; repeat f_equal; lia.
Qed.
Lemma utf8_fun u s : utf8_spec u s -> s = utf8 u.
Proof.
  induction 1 as [|c u s s' Hc Hu IH]; [reflexivity|]. cbn [utf8 flat_map].
  rewrite IH. f_equal. apply (utf8_char_fun c); auto. apply utf8_char_spec.
  unfold utf8_spec_char in Hc. change (2 ^ 7) with 128 in Hc. change (2 ^ 11) with 2048 in Hc.
  change (2 ^ 16) with 65536 in Hc. change (2 ^ 21) with 2097152 in *.
  destruct Hc as [[? H]|[(? & ?)|[(? & ?)|(? & ?)]]]; lia.
Qed.
Lemma pack_text v s : text_bytes v s -> pack_string v = Ok (s ++ [x00]).
Proof.
  intros H. destruct H as [|s|u s H]; cbn [pack_string app]; auto.
  apply utf8_fun in H. now subst.
Qed.

Lemma rstrip0_unique s r : without_trailing_nuls s r <-> rstrip0 s = r.
Proof.
  split.
  - intros [[n ->] H]. rewrite rstrip0_app0. apply rstrip0_id.
    destruct (list_eq_dec Byte.byte_eq_dec r []) as [->|Hne]; [left; reflexivity|].
    destruct (exists_last Hne) as (t & b & ->); right; exists t, b; split; [reflexivity|];
         intros ->; apply H; exists t; reflexivity.
  - intros <-. split; [apply rstrip0_spec|]. intros [s' H]. now apply rstrip0_last in H.
Qed.
