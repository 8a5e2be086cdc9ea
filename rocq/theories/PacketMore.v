(** Consequences for malformed, zero-coded, acked, banned and deferred datagrams
    (C10, C13, C14, C16, C17, C20). *)
From Verif Require Import Deserializer SpecCodec SpecWire SpecLayout Lib CodecProofs FieldProofs HeaderProofs ZeroProofs LayoutProofs DecodeProofs PacketProofs.

(** ** Unwrapping, identification, body *)
Definition rest_of (c : dconf) (ot : option template) (data : bytes) : res (option message) :=
  match ot with
  | None => Ok None
  | Some t =>
      do ok <- validate_udp_msg (dc_xml c) (t_name t);
      if negb ok then Ok None else
      match dc_handled c with
      | None => Err AttributeErr
      | Some handled =>
          if handled (t_name t) || negb (dc_deferred c) then finish (decode_data t data) else Ok None
      end
  end.
Lemma deserialize_unwrapped c buf plain tr ids : unwrapped buf plain tr ids ->
  deserialize c buf = do t <- decode_template (dc_dict c) plain; rest_of c t (plain ++ tr).
Proof.
  intros Hu. destruct (unwrapped_ok buf plain tr ids Hu) as (a & Hs & He). unfold deserialize. rewrite Hs. cbn [bind].
  rewrite He. cbn [bind]. destruct (decode_template (dc_dict c) plain) as [[t|]|e]; cbn [bind rest_of]; try reflexivity.
  destruct (validate_udp_msg (dc_xml c) (t_name t)) as [[]|e]; cbn [bind negb]; try reflexivity.
  destruct (dc_handled c) as [h|]; [|reflexivity]. destruct (h (t_name t) || negb (dc_deferred c))%bool; [|reflexivity].
  unfold finish. destruct (decode_data t (plain ++ tr)) as [r|[]]; reflexivity.
Qed.
Lemma deserialize_carries c buf t : carries (dc_dict c) buf t ->
  exists plain tr ids, unwrapped buf plain tr ids /\ deserialize c buf = rest_of c (Some t) (plain ++ tr).
Proof.
  intros (plain & tr & ids & six & h & rest & f & n & Hu & -> & H6 & Hn & Hc & Ht).
  exists (six ++ h ++ rest), tr, ids. split; [exact Hu|].
  rewrite (deserialize_unwrapped c buf _ tr ids Hu), (decode_template_number _ six f n h rest H6 Hn Hc), Ht. reflexivity.
Qed.
Lemma deserialize_cases c buf :
  (exists e, header_failure buf e /\ deserialize c buf = Err e) \/
  (exists t plain tr ids, carries (dc_dict c) buf t /\ unwrapped buf plain tr ids /\
     deserialize c buf = rest_of c (Some t) (plain ++ tr)) \/
  ((forall t, ~ carries (dc_dict c) buf t) /\
   (deserialize c buf = Ok None \/ deserialize c buf = Err MessageDeserializationErr)).
Proof.
  destruct buf as [|f tl].
  { left. exists IndexErr. split; [now constructor|reflexivity]. }
  destruct (strip_cases f tl) as [(Ea & l & c0 & E & Hl & Hs)|(tl' & tr & ids & E & Hs & Ht)].
  { left. exists IndexErr. split; [eapply hf_trailer; eauto|]. unfold deserialize. rewrite Hs. reflexivity. }
  destruct (expand (f :: tl')) as [plain|e] eqn:He.
  2:{ left. apply expand_err in He as He'. destruct He' as (-> & Hz & Hl). exists IndexErr.
      split; [eapply hf_offset; eauto|]. unfold deserialize. rewrite Hs. cbn [bind]. now rewrite He. }
  assert (Hu : unwrapped (f :: tl) plain tr ids).
  { exists f, tl', (f :: tl'). split; [exact E|]. split; [reflexivity|]. split; [exact Ht|]. now apply expand_ok. }
  pose proof (deserialize_unwrapped c _ _ _ _ Hu) as D.
  assert (Fun : forall plain' tr' ids', unwrapped (f :: tl) plain' tr' ids' -> plain' = plain).
  { intros plain' tr' ids' Hu'. apply unwrapped_ok in Hu' as (a & Hs' & He'). rewrite Hs in Hs'. injection Hs' as <- <-. congruence. }
  destruct (Z_le_gt_dec (zlen plain) 6) as [L|L].
  { right; right. rewrite decode_template_tiny in D by exact L. split; [|right; exact D].
    intros t (p' & tr' & ids' & six & h & rest & g & n & Hu' & Ep & H6 & Hn & _). apply Fun in Hu'. subst p'. rewrite Ep in L.
    rewrite !zlen_app, (wire_number_len g n h Hn) in L. pose proof (zlen_nonneg rest). destruct g; cbn [number_width] in L; lia. }
  destruct (header_cases plain) as [(e & Hsh)|(six & h & rest & g & n & Ep & H6 & Hn & Hc)]; [lia| |].
  { left. exists e. split; [eapply hf_number; eauto|]. rewrite (decode_template_short _ _ _ Hsh) in D. exact D. }
  rewrite Ep in D at 1. rewrite (decode_template_number _ six g n h rest H6 Hn Hc) in D. cbn [bind] in D.
  destruct (get_template_by_pair (dc_dict c) (Some g) n) as [t|] eqn:Eg.
  - right; left. exists t, plain, tr, ids. split; [|auto]. exists plain, tr, ids, six, h, rest, g, n. tauto.
  - right; right. split; [|left; exact D].
    intros t (p' & tr' & ids' & six' & h' & rest' & g' & n' & Hu' & Ep' & H6' & Hn' & Hc' & Hg'). apply Fun in Hu'. subst p'.
    rewrite Ep in Ep'. apply app_inj_zlen in Ep' as [-> Ep']; [|lia].
    destruct (prefix_free g n h g' n' h' rest rest' Hn Hc Hn' Hc' Ep') as [-> ->]. congruence.
Qed.
Lemma carries_fun d buf t t' : carries d buf t -> carries d buf t' -> t = t'.
Proof.
  intros (p & tr & ids & six & h & rest & g & n & Hu & Ep & H6 & Hn & Hc & Hg)
         (p' & tr' & ids' & six' & h' & rest' & g' & n' & Hu' & Ep' & H6' & Hn' & Hc' & Hg').
  apply unwrapped_ok in Hu as (a & Hs & He). apply unwrapped_ok in Hu' as (a' & Hs' & He').
  rewrite Hs in Hs'. injection Hs' as <- <-. rewrite He in He'. injection He' as <-.
  rewrite Ep in Ep'. apply app_inj_zlen in Ep' as [-> Ep']; [|lia].
  destruct (prefix_free g n h g' n' h' rest rest' Hn Hc Hn' Hc' Ep') as [-> ->]. congruence.
Qed.
Lemma failure_eq c buf e : header_failure buf e -> deserialize c buf = Err e.
Proof.
  intros [->|f tl l b Eb Ha El Hl|f tl tr' ids' Eb Ht Hz Hl|p' tr' ids' e0 Hu' Hn].
  - reflexivity.
  - unfold deserialize. rewrite (strip_acked_short f tl b buf Eb Ha); [reflexivity|eauto|exact Hl].
  - unfold deserialize. assert (Hs : strip_acks buf = Ok (f :: tl, tr')).
    { rewrite Eb. destruct (bit f ack_bit) eqn:Ea; [now apply (strip_acked f tl tr' ids')|].
      destruct Ht as [-> ->]. rewrite app_nil_r. now apply strip_plain. }
    rewrite Hs. cbn [bind]. assert (He : expand (f :: tl) = Err IndexErr) by (apply expand_err; auto).
    rewrite He. reflexivity.
  - rewrite (deserialize_unwrapped c buf p' tr' ids' Hu'), (decode_template_short _ _ _ Hn). reflexivity.
Qed.
Lemma carries_no_failure d buf t e : carries d buf t -> header_failure buf e -> False.
Proof.
  intros Hc Hf. set (c := {| dc_dict := d; dc_xml := [(t_name t, Some "x"%string)]; dc_deferred := false; dc_handled := None |}).
  destruct (deserialize_carries c buf t Hc) as (p & tr & ids & Hu & D).
  cbn [rest_of] in D. unfold validate_udp_msg in D. cbn in D. rewrite String.eqb_refl in D. cbn in D.
  pose proof (failure_eq c buf e Hf) as E. congruence.
Qed.

(** ** C10 *)
Lemma unpack_z_err data t pos e : int_spec t <> None -> unpack_z data t pos None = Err e -> e = DataUnpackingErr.
Proof.
  intros Hi. unfold unpack_z, unpack_data. destruct (pos =? -1); cbn [bind sizeof option_map];
    change (-1 =? -1) with true; cbn [bind];
    destruct t; try (cbn in Hi; congruence); unfold unpack_raw; cbn [unpacker_table];
    unfold unpack_int, wrap_struct_error;
    match goal with |- context [Nat.eqb ?a ?b] => destruct (Nat.eqb a b) end; cbn; congruence.
Qed.
Lemma unpack_nums_err en db k : forall s e, unpack_nums en db k s = Err e -> e = StructError.
Proof.
  induction k as [|k IH]; intros s e; cbn [unpack_nums].
  - destruct s; congruence.
  - unfold unpack_float. destruct db; match goal with |- context [Nat.eqb ?a ?b] => destruct (Nat.eqb a b) end; cbn [bind]; try congruence.
    + destruct (unpack_nums en true k (skipn 8 s)) eqn:E; cbn [bind]; [congruence|]. intros [= <-]. eauto.
    + destruct (unpack_nums en false k (skipn 4 s)) eqn:E; cbn [bind]; [congruence|]. intros [= <-]. eauto.
Qed.
Lemma wrap_unpacking {A} (r : res A) e : (forall e', r = Err e' -> e' = StructError) ->
  wrap_struct_error r = Err e -> e = DataUnpackingErr.
Proof. intros H. destruct r as [a|e']; cbn; [discriminate|]. rewrite (H e' eq_refl). congruence. Qed.
Lemma unpack_float_err en db s e : unpack_float en db s = Err e -> e = StructError.
Proof. unfold unpack_float. destruct db; match goal with |- context [Nat.eqb ?a ?b] => destruct (Nat.eqb a b) end; congruence. Qed.
Lemma unpack_raw_err ty d e : (ty = MVT_LLUUID -> List.length d = 16%nat) ->
  wrap_struct_error (unpack_raw ty None d) = Err e -> e = DataUnpackingErr.
Proof.
  intros Hu. apply wrap_unpacking. intros e'.
  destruct ty; unfold unpack_raw; cbn [unpacker_table]; intros H;
    try (unfold unpack_int in H; match type of H with context [Nat.eqb ?a ?b] => destruct (Nat.eqb a b) end; cbn in H; congruence);
    try discriminate H.
  all: try (unfold unpack_tuple in H;
            match type of H with res_map _ ?r = _ => destruct r eqn:E; [discriminate H|] end; cbn in H; injection H as <-;
            try (eapply unpack_nums_err; exact E); try (eapply unpack_float_err; exact E)).
  - unfold vec3_unpack in E. repeat (apply bind_err in E as [E|(? & _ & E)]; [eapply unpack_float_err; exact E|]). discriminate.
  - unfold quat_unpack in E. repeat (apply bind_err in E as [E|(? & _ & E)]; [eapply unpack_float_err; exact E|]).
    destruct (unpack_float LE false (pyslice d (0 + 12) (0 + 16))); discriminate.
  - unfold uuid_unpack in E. rewrite pyslice_pos in E by lia. cbn [Z.to_nat skipn] in E.
    rewrite (firstn_all2 d) in E by (rewrite Hu by reflexivity; cbn; lia). rewrite Hu in E by reflexivity. discriminate.
Qed.
Definition var_ok (v : tvar) : Prop :=
  exists ty s, tv_type v = Some ty /\ tv_size v = Some s /\
    match ty with
    | MVT_FIXED => 1 <= s
    | MVT_VARIABLE => In s [1; 2; 4]
    | _ => s = sizeof_mvt ty
    end.
Lemma var_ok_pos v : var_ok v -> pos_size v.
Proof.
  intros (ty & s & _ & Hs & H) s' Hs'. rewrite Hs in Hs'. injection Hs' as <-.
  destruct ty; cbn in H; lia.
Qed.
Lemma well_formed_sized t : well_formed t -> sized t.
Proof. intros H tb v s Htb Hv Hs. destruct (H tb Htb) as [_ H']. exact (var_ok_pos v (H' v Hv) s Hs). Qed.
Lemma unpack_at_err data ty pos n e : 0 <= pos -> 0 <= n -> pos + n <= zlen data -> (ty = MVT_LLUUID -> n = 16) ->
  unpack_data data (Some ty) pos n None = Err e -> e = DataUnpackingErr.
Proof.
  intros Hp Hn Hl Hu. unfold unpack_data. destruct (pos =? -1) eqn:E1; [lia|]. destruct (n =? -1) eqn:E2; [lia|].
  cbn [bind]. apply unpack_raw_err. intros E. pose proof (pyslice_length data pos (pos + n) ltac:(lia)) as L. rewrite (Hu E) in *. unfold zlen in L, Hl. lia.
Qed.
Lemma decode_var_err data v pos e : 0 <= pos -> var_ok v -> decode_var data v pos = Err e -> e = DataUnpackingErr.
Proof.
  intros Hp Hv H. pose proof (var_ok_pos v Hv) as Hps. destruct Hv as (ty & s & Ht & Hs & Hok).
  unfold decode_var in H. rewrite Hs, Ht in H. specialize (Hps s Hs).
  assert (T : forall n p0 g, 0 <= p0 -> 0 <= n -> (ty = MVT_LLUUID -> n = 16) ->
    (if zlen data <? p0 + n then Ok None else
     do u <- unpack_data data (Some ty) p0 n None; Ok (Some (g u : pyval, p0 + n))) = Err e -> e = DataUnpackingErr).
  { intros n p0 g Hp0 Hn Hu. destruct (zlen data <? p0 + n) eqn:E; [discriminate|]. intros H'.
    apply bind_err in H' as [H'|(u & _ & H')]; [|discriminate].
    apply (unpack_at_err data ty p0 n e Hp0 Hn); [lia|exact Hu|exact H']. }
  destruct ty; cbn [bind] in H;
    try (apply (T s pos (fun u => u) Hp ltac:(lia)); [intros; first [discriminate|exact Hok]|exact H]).
  destruct (zlen data <? pos + s); [discriminate|].
  apply bind_err in H as [H|(sp & Hsp & H)].
  - apply bind_err in H as [H|(vs & _ & H)]; [|discriminate].
    unfold In in Hok. destruct Hok as [<-|[<-|[<-|Hok]]]; [| | |destruct Hok]; cbn [Z.eqb Pos.eqb] in H; eapply unpack_z_err; try exact H; discriminate.
  - inv_bind Hsp. injection Hsp as <-.
    assert (0 <= a).
    { clear H. cbn in Hok. destruct Hok as [<-|[<-|[<-|[]]]]; cbn [Z.eqb Pos.eqb] in Ha.
      - apply unpack_u8_at in Ha as (c & r & _ & ->); [|exact Hp]. pose proof (ord_range c). lia.
      - unfold unpack_z, unpack_data in Ha. destruct (pos =? -1) eqn:E; [lia|]. cbn [sizeof option_map bind] in Ha.
        change (-1 =? -1) with true in Ha. cbn [bind] in Ha. unfold unpack_raw in Ha. cbn [unpacker_table] in Ha. unfold unpack_int in Ha.
        destruct (Nat.eqb _ _); [|discriminate]. cbn in Ha. injection Ha as <-. apply (le_val_range _).
      - unfold unpack_z, unpack_data in Ha. destruct (pos =? -1) eqn:E; [lia|]. cbn [sizeof option_map bind] in Ha.
        change (-1 =? -1) with true in Ha. cbn [bind] in Ha. unfold unpack_raw in Ha. cbn [unpacker_table] in Ha. unfold unpack_int in Ha.
        destruct (Nat.eqb _ _); [|discriminate]. cbn in Ha. injection Ha as <-. apply (le_val_range _). }
    apply (T a (pos + s) (fun u => match u with VStr s => if String.eqb (tv_name v) "Data" then u else VStr (rstrip0 s) | _ => u end));
      [lia|lia|discriminate|exact H].
Qed.
Lemma decode_vars_err data vs : Forall var_ok vs -> forall b pos e, 0 <= pos ->
  decode_vars data vs b pos = Err e -> e = DataUnpackingErr.
Proof.
  induction 1 as [|v vs Hv Hvs IH]; intros b pos e Hp H; cbn [decode_vars] in H; [discriminate|].
  apply bind_err in H as [H|([[y p]|] & Hr & H)]; [now apply (decode_var_err data v pos)| |discriminate].
  refine (IH _ p e _ H). destruct (decode_var_pos data v pos y p Hp (var_ok_pos v Hv) Hr) as (w & _ & -> & _).
  pose proof (zlen_nonneg w). lia.
Qed.
Definition block_ok (tb : tblock) : Prop := tb_type tb <> None /\ Forall var_ok (tb_vars tb).
Lemma block_ok_pos tb : block_ok tb -> pos_block tb.
Proof. intros [_ H]. unfold pos_block. eapply Forall_impl; [|exact H]. apply var_ok_pos. Qed.
Lemma decode_instances_err data tb : block_ok tb -> forall n i d pos e, 0 <= pos ->
  decode_instances data tb i n d pos = Err e -> e = DataUnpackingErr.
Proof.
  intros Hb. induction n as [|n IH]; intros i d pos e Hp H; cbn [decode_instances] in H; [discriminate|].
  apply bind_err in H as [H|([[b p]|] & Hr & H)]; [eapply decode_vars_err; [apply Hb|exact Hp|exact H]| |discriminate].
  refine (IH (i + 1) _ p e _ H).
  destruct (decode_vars_inv data _ (block_ok_pos tb Hb) _ _ _ _ Hp Hr) as (ws & ys & _ & _ & -> & _).
  pose proof (zlen_nonneg (List.concat ws)). lia.
Qed.
Lemma decode_blocks_err data tbs : Forall block_ok tbs -> forall d pos e, 0 <= pos ->
  decode_blocks data tbs d pos = Err e -> e = DataUnpackingErr.
Proof.
  induction 1 as [|tb tbs Hb Hbs IH]; intros d pos e Hp H; [discriminate|]. rewrite decode_blocks_cons in H.
  apply bind_err in H as [H|([[n p]|] & Hr & H)]; [| |discriminate].
  - unfold count_at in H. destruct (tb_type tb) as [[]|]; try discriminate.
    apply bind_err in H as [H|(? & _ & H)]; [|discriminate]. eapply unpack_z_err; [|exact H]. discriminate.
  - pose proof (count_at_pos tb data pos n p Hp Hr) as Hp'.
    apply bind_err in H as [H|([[d' p']|] & Hr' & H)]; [eapply decode_instances_err; eauto| |discriminate].
    refine (IH d' p' e _ H).
    destruct (decode_instances_inv data tb (block_ok_pos tb Hb) _ _ _ _ _ _ Hp' Hr') as (w & bs & _ & _ & _ & -> & _).
    pose proof (zlen_nonneg w). lia.
Qed.
Lemma well_formed_blocks t : well_formed t -> Forall block_ok (t_blocks t).
Proof.
  intros H. apply Forall_forall. intros tb Htb. destruct (H tb Htb) as [H1 H2]. split; [exact H1|].
  apply Forall_forall. exact H2.
Qed.
(** Under well-formed templates and a usable configuration the only failures are
    MessageDeserializationError and those of the header. *)
Lemma carried_template pv ts c buf t : build_dict pv ts = Ok (dc_dict c) -> carries (dc_dict c) buf t ->
  exists t0, In t0 ts /\ same_template t0 t.
Proof.
  intros Hb (p & tr & ids & six & h & rest & f & n & _ & _ & _ & _ & _ & Ht).
  destruct (build_dict_sound pv ts _ Hb) as [_ H]. destruct (H _ _ _ Ht) as (t0 & Hin & Hs & _). eauto.
Qed.
Lemma body_err pv ts c buf t plain tr ids e : build_dict pv ts = Ok (dc_dict c) -> Forall well_formed ts ->
  carries (dc_dict c) buf t -> unwrapped buf plain tr ids -> decode_data t (plain ++ tr) = Err e ->
  e = DataUnpackingErr \/ e = MessageDeserializationErr.
Proof.
  intros Hb Hw Hc Hu H. destruct (carried_template pv ts c buf t Hb Hc) as (t0 & Hin & Hst).
  rewrite Forall_forall in Hw. pose proof (Hw t0 Hin) as W. apply well_formed_blocks in W.
  destruct Hst as (_ & _ & _ & _ & _ & _ & Eb). rewrite Eb in W.
  destruct Hc as (p & tr0 & ids0 & six & h & rest & f & n & Hu0 & Ep & H6 & Hn & Hcd & Ht).
  destruct (build_dict_sound pv ts _ Hb) as [_ S]. destruct (S _ _ _ Ht) as (t1 & _ & _ & Hf & _).
  pose proof (unwrapped_ok _ _ _ _ Hu) as (a & Hs & He). pose proof (unwrapped_ok _ _ _ _ Hu0) as (a0 & Hs0 & He0).
  rewrite Hs in Hs0. injection Hs0 as <- <-. rewrite He in He0. injection He0 as <-.
  destruct (unwrapped_inv buf a tr plain Hs He) as (ids1 & fl & tl & tl' & _ & _ & Epl & Htr).
  destruct (six_split plain) as (flags & id & off & after & Eh & Hid).
  { rewrite Ep, zlen_app. pose proof (zlen_nonneg (h ++ rest)). lia. }
  assert (flags = fl) by congruence. subst fl.
  rewrite (decode_data_eq t f flags id off after tr ids1 plain Hf Eh Hid Htr) in H.
  apply bind_err in H as [H|([[d p']|] & _ & H)].
  - left. eapply decode_blocks_err; [exact W| |exact H]. pose proof (ord_range off). destruct f; cbn [number_width]; lia.
  - destruct (_ && _)%bool; [right; congruence|discriminate].
  - discriminate.
Qed.
Lemma deserialize_failures pv ts c handled buf e :
  build_dict pv ts = Ok (dc_dict c) -> Forall well_formed ts -> dc_handled c = Some handled ->
  (forall t, In t ts -> sget (t_name t) (dc_xml c) <> Some None) ->
  e <> MessageDeserializationErr ->
  (deserialize c buf = Err e <-> header_failure buf e).
Proof.
  intros Hb Hw Hh Hx He. split.
  - intros H. destruct (deserialize_cases c buf) as [(e' & Hf & D)|[(t & plain & tr & ids & Hc & Hu & D)|[_ [D|D]]]].
    + rewrite D in H. injection H as <-. exact Hf.
    + exfalso. rewrite D in H. cbn [rest_of] in H. destruct (carried_template pv ts c buf t Hb Hc) as (t0 & Hin & Hst).
      assert (Hv : exists b, validate_udp_msg (dc_xml c) (t_name t) = Ok b).
      { unfold validate_udp_msg. destruct Hst as (<- & _). specialize (Hx t0 Hin).
        destruct (sget (t_name t0) (dc_xml c)) as [[fl|]|]; [|congruence|eauto]. destruct (String.eqb fl "template"); eauto. }
      destruct Hv as (b & Hv). rewrite Hv in H. destruct b; [|discriminate]. cbn [bind negb] in H. rewrite Hh in H.
      destruct (handled (t_name t) || negb (dc_deferred c))%bool; [|discriminate]. unfold finish in H.
      destruct (decode_data t (plain ++ tr)) as [r|e'] eqn:Ed; [discriminate|].
      destruct (body_err pv ts c buf t plain tr ids e' Hb Hw Hc Hu Ed) as [->| ->]; congruence.
    + congruence.
    + congruence.
  - apply failure_eq.
Qed.
