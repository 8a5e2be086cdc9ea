(** Proofs about one field of a message: build_var and decode_var. *)
From Coq Require Import ZifyBool ZifyNat.
From Verif Require Import Serializer Deserializer Lib SpecCodec CodecProofs.
Ltac Zify.zify_post_hook ::= Z.div_mod_to_equations.

(** The integer type used for a length prefix of [p] bytes. *)
Definition prefix_type (p : Z) : option mvt :=
  if p =? 1 then Some MVT_U8 else if p =? 2 then Some MVT_U16
  else if p =? 4 then Some MVT_U32 else None.

Lemma single_byte_order en en' s : zlen s = 1 -> value en s = value en' s.
Proof.
  intros H. destruct s as [|b [|c s]]; unfold zlen in H; cbn in H; try lia.
  destruct en, en'; cbn; unfold value_msb_first; cbn; lia.
Qed.

Lemma build_var_variable pv b v d p t :
  tv_type v = Some MVT_VARIABLE -> tv_size v = Some p -> prefix_type p = Some t ->
  forall var, get_variable b (tv_name v) = Ok var -> pack_string (v_data var) = Ok d ->
  build_var pv b v = do len <- need (pack_data pv (VInt (zlen d)) (Some t) None); Ok (len ++ d).
Proof.
  intros Ht Hs Hp var Hv Hd. unfold build_var. rewrite Hv. cbn [bind]. rewrite Ht.
  assert (Hpk : pack_data pv (v_data var) (Some MVT_VARIABLE) None = Ok (Some d)).
  { cbv [pack_data packer_table]. rewrite Hd. reflexivity. }
  rewrite Hpk. cbn [bind]. rewrite Hs.
  unfold prefix_type in Hp.
  destruct (Z.eqb_spec p 1) as [->|H1]; [injection Hp as <-; reflexivity|].
  destruct (Z.eqb_spec p 2) as [->|H2]; [injection Hp as <-; reflexivity|].
  destruct (Z.eqb_spec p 4) as [->|H4]; [injection Hp as <-; reflexivity|discriminate].
Qed.

Lemma prefix_int p t : prefix_type p = Some t ->
  exists en, int_spec t = Some (p, false, en) /\ (p = 1 \/ en = LE).
Proof.
  unfold prefix_type.
  destruct (Z.eqb_spec p 1) as [->|]; [intros [= <-]; exists BE; auto|].
  destruct (Z.eqb_spec p 2) as [->|]; [intros [= <-]; exists LE; auto|].
  destruct (Z.eqb_spec p 4) as [->|]; [intros [= <-]; exists LE; auto|discriminate].
Qed.
Lemma prefix_known p : p = 1 \/ p = 2 \/ p = 4 -> exists t, prefix_type p = Some t.
Proof. intros [->|[->| ->]]; eexists; reflexivity. Qed.

(** Writing a text field *)
Lemma variable_write pv b v var s p :
  tv_type v = Some MVT_VARIABLE -> tv_size v = Some p -> p = 1 \/ p = 2 \/ p = 4 ->
  get_variable b (tv_name v) = Ok var -> text_bytes (v_data var) s ->
  (zlen s + 1 < 2 ^ (8 * p) ->
   exists len, build_var pv b v = Ok (len ++ s ++ [x00]) /\ zlen len = p /\
               value_lsb_first len = zlen s + 1) /\
  (2 ^ (8 * p) <= zlen s + 1 ->
   match pv with
   | Py27 => build_var pv b v = Err StructError
   | Py26 => exists len, build_var pv b v = Ok (len ++ s ++ [x00]) /\ zlen len = p /\
               value_lsb_first len = (zlen s + 1) mod 2 ^ (8 * p)
   end).
Proof.
  intros Ht Hs Hp Hv Htx. destruct (prefix_known p Hp) as [t Hpt].
  destruct (prefix_int p t Hpt) as (en & Hi & Hen).
  apply pack_text in Htx.
  assert (Hl : forall len, zlen len = p -> value en len = value_lsb_first len).
  { intros len H. destruct Hen as [->| ->]; [|reflexivity]. now apply (single_byte_order en LE). }
  rewrite (build_var_variable pv b v _ p t Ht Hs Hpt var Hv Htx), zlen_app.
  change (zlen [x00]) with 1.
  pose proof (zlen_nonneg s) as Hz.
  split; intros Hsz.
  - destruct (int_roundtrip pv t p false en None (zlen s + 1) [] [] Hi) as (len & H1 & H2 & H3 & _);
      [unfold fits; lia|].
    exists len. rewrite H1. cbn [need bind]. split; [reflexivity|]. split; [exact H2|].
    rewrite <- Hl by exact H2. cbn [order] in H3. rewrite H3. apply Z.mod_small. lia.
  - pose proof (int_out_of_range pv t p false en None (zlen s + 1) Hi) as H.
    destruct pv.
    + assert (Hp8 : (p <? 8) = true) by lia. rewrite Hp8 in H.
      destruct H as (len & H1 & H2 & H3); [unfold fits; lia|].
      exists len. rewrite H1. cbn [need bind]. split; [reflexivity|]. split; [exact H2|].
      rewrite <- Hl by exact H2. exact H3.
    + rewrite H by (unfold fits; lia). reflexivity.
Qed.

Lemma unpack_z_int t p en et pre b post :
  int_spec t = Some (p, false, en) -> zlen b = p ->
  unpack_z (pre ++ b ++ post) t (zlen pre) et = Ok (value (order et en) b).
Proof.
  intros Hi Hl. unfold unpack_z.
  destruct (int_decode Py26 t p false en et b Hi) as [H _].
  destruct (H Hl) as (z & H1 & H2 & H3 & _).
  destruct (int_spec_item _ _ _ _ Hi) as (n & -> & Hit & _ & _).
  rewrite unpack_at by (rewrite Hl; symmetry; apply Hit).
  rewrite unpack_whole in H1. rewrite H1. cbn [bind]. f_equal.
  rewrite H3. symmetry. apply Z.mod_small. unfold fits in H2. lia.
Qed.

(** Reading back a Variable field *)
Lemma variable_read v p pre len s post :
  tv_type v = Some MVT_VARIABLE -> tv_size v = Some p -> p = 1 \/ p = 2 \/ p = 4 ->
  zlen len = p -> value_lsb_first len = zlen s ->
  decode_var (pre ++ (len ++ s) ++ post) v (zlen pre) =
    Ok (Some (VStr (if String.eqb (tv_name v) "Data" then s else rstrip0 s),
              zlen pre + zlen (len ++ s))).
Proof.
  intros Ht Hs Hp Hl Hval. unfold decode_var. rewrite Hs, Ht.
  rewrite <- app_assoc, !zlen_app. pose proof (zlen_nonneg pre). pose proof (zlen_nonneg s).
  pose proof (zlen_nonneg post).
  destruct (_ <? zlen pre + p) eqn:E1; [lia|].
  destruct (prefix_known p Hp) as [t Hpt]. destruct (prefix_int p t Hpt) as (en & Hi & Hen).
  assert (Hu : unpack_z (pre ++ len ++ s ++ post) t (zlen pre) None = Ok (zlen s)).
  { rewrite (unpack_z_int t p en None pre len (s ++ post) Hi Hl). f_equal. cbn [order].
    destruct Hen as [->| ->]; [rewrite (single_byte_order en LE) by auto|]; exact Hval. }
  assert (Hsel : (if p =? 1 then unpack_z (pre ++ len ++ s ++ post) MVT_U8 (zlen pre) None
      else if p =? 2 then unpack_z (pre ++ len ++ s ++ post) MVT_U16 (zlen pre) None
      else if p =? 4 then unpack_z (pre ++ len ++ s ++ post) MVT_U32 (zlen pre) None
      else Err MessageDeserializationErr) = Ok (zlen s)).
  { rewrite <- Hu. unfold prefix_type in Hpt.
    destruct (p =? 1); [now injection Hpt as <-|]. destruct (p =? 2); [now injection Hpt as <-|].
    destruct (p =? 4); [now injection Hpt as <-|discriminate]. }
  rewrite Hsel. cbn [bind].
  destruct (_ <? zlen pre + p + zlen s) eqn:E2; [lia|].
  replace (pre ++ len ++ s ++ post) with ((pre ++ len) ++ s ++ post) by now rewrite <- app_assoc.
  replace (zlen pre + p) with (zlen (pre ++ len)) by (rewrite zlen_app; lia).
  rewrite unpack_at_vs. cbn [unpack_raw unpacker_table wrap_struct_error bind].
  rewrite zlen_app.
  replace (zlen pre + zlen len + zlen s) with (zlen pre + (zlen len + zlen s)) by lia.
  destruct (String.eqb (tv_name v) "Data"); reflexivity.
Qed.

(** Fixed and IPADDR fields *)
Definition raw_type (t : mvt) : Prop := t = MVT_FIXED \/ t = MVT_IP_ADDR.
Lemma raw_write pv b v t var s :
  tv_type v = Some t -> raw_type t -> get_variable b (tv_name v) = Ok var ->
  text_bytes (v_data var) s -> build_var pv b v = Ok (s ++ [x00]).
Proof.
  intros Ht Hr Hv Htx. apply pack_text in Htx. unfold build_var. rewrite Hv. cbn [bind].
  rewrite Ht. destruct Hr as [->| ->]; cbv [pack_data packer_table]; rewrite Htx; reflexivity.
Qed.
Lemma raw_read v t n pre s post :
  tv_type v = Some t -> raw_type t -> tv_size v = Some n -> zlen s = n ->
  decode_var (pre ++ s ++ post) v (zlen pre) = Ok (Some (VStr s, zlen pre + n)).
Proof.
  intros Ht Hr Hs Hl. unfold decode_var. rewrite Hs, Ht, !zlen_app.
  pose proof (zlen_nonneg post).
  assert (Hm : forall A (x y : A), match Some t with Some MVT_VARIABLE => x | _ => y end = y)
    by (intros; destruct Hr as [->| ->]; reflexivity).
  destruct Hr as [->| ->]; cbn [bind];
    (destruct (_ <? zlen pre + n) eqn:E; [lia|]); subst n; rewrite unpack_at_vs; reflexivity.
Qed.

(** Writing then reading a text field *)
Lemma variable_roundtrip pv b v var s p pre post :
  tv_type v = Some MVT_VARIABLE -> tv_size v = Some p -> p = 1 \/ p = 2 \/ p = 4 ->
  get_variable b (tv_name v) = Ok var -> text_bytes (v_data var) s ->
  zlen s + 1 < 2 ^ (8 * p) ->
  exists f r, build_var pv b v = Ok f /\ zlen f = p + zlen s + 1 /\
    decode_var (pre ++ f ++ post) v (zlen pre) = Ok (Some (VStr r, zlen pre + zlen f)) /\
    (tv_name v = "Data"%string -> r = s ++ [x00]) /\
    (tv_name v <> "Data"%string -> without_trailing_nuls s r /\ (r = s <-> ~ ends_in_nul s)).
Proof.
  intros Ht Hs Hp Hv Htx Hfit.
  destruct (variable_write pv b v var s p Ht Hs Hp Hv Htx) as [H _].
  destruct (H Hfit) as (len & Hb & Hl & Hval).
  exists (len ++ s ++ [x00]), (if String.eqb (tv_name v) "Data" then s ++ [x00] else rstrip0 (s ++ [x00])).
  split; [exact Hb|]. split; [rewrite !zlen_app; change (zlen [x00]) with 1; lia|].
  split.
  { apply (variable_read v p pre len (s ++ [x00]) post); auto. rewrite zlen_app. exact Hval. }
  destruct (String.eqb_spec (tv_name v) "Data") as [E|E]; (split; [intros E'|intros E']); try congruence.
  assert (W : without_trailing_nuls s (rstrip0 (s ++ [x00]))).
  { apply rstrip0_unique. symmetry. apply (rstrip0_app0 s 1). }
  split; [exact W|]. split.
  - intros <-. apply W.
  - intros Hn. destruct W as [[n Hn'] Hr]. destruct n as [|n].
    + rewrite app_nil_r in Hn'. now symmetry.
    + exfalso. apply Hn. exists (rstrip0 (s ++ [x00]) ++ repeat x00 n).
      rewrite Hn' at 1. rewrite <- app_assoc. f_equal. now rewrite repeat_snoc.
Qed.

(** A Fixed/IPADDR field is one byte longer than its contents, and the decoder
    takes the declared number of bytes. *)
Lemma raw_roundtrip pv b v t var s n pre post :
  tv_type v = Some t -> raw_type t -> tv_size v = Some n -> get_variable b (tv_name v) = Ok var ->
  text_bytes (v_data var) s ->
  exists f, build_var pv b v = Ok f /\ zlen f = zlen s + 1 /\
    (zlen s = n -> decode_var (pre ++ f ++ post) v (zlen pre) = Ok (Some (VStr s, zlen pre + zlen f - 1))) /\
    (zlen s = n - 1 -> decode_var (pre ++ f ++ post) v (zlen pre) = Ok (Some (VStr (s ++ [x00]), zlen pre + zlen f))).
Proof.
  intros Ht Hr Hn Hv Htx. exists (s ++ [x00]).
  split; [now apply (raw_write pv b v t var)|].
  assert (Hl : zlen (s ++ [x00]) = zlen s + 1) by (rewrite zlen_app; reflexivity).
  split; [exact Hl|]. split; intros Hs.
  - rewrite <- app_assoc. rewrite (raw_read v t n pre s ([x00] ++ post)) by auto.
    do 3 f_equal. lia.
  - rewrite (raw_read v t n pre (s ++ [x00]) post) by (auto; lia). do 3 f_equal. lia.
Qed.
