(** Whole packets: C06, C09, C10, C13, C14, C16-C20.  Vocabulary: SpecLayout.v
    (with SpecWire.v and SpecCodec.v); examples use Samples.v. *)
From Verif Require Import Samples LayoutProofs PacketProofs PacketMore PacketForms PacketRules HeaderProofs Lib Prop_Wire.

(** ** C06 *)
(** serialize returns a buffer exactly when the message can be laid out, and the
    buffer is that layout. *)
Theorem C06_layout pv d x m w : serialize pv d x m = Ok (Some w) <-> packet_layout pv d x m w.
Proof. exact (serialize_layout pv d x m w). Qed.
Print Assumptions C06_layout.
(** The layout determines the bytes. *)
Theorem C06_layout_unique pv d x m w w' : packet_layout pv d x m w -> packet_layout pv d x m w' -> w = w'.
Proof. exact (layout_fun pv d x m w w'). Qed.
Print Assumptions C06_layout_unique.
(** Nothing else matters: other blocks, other variables, insertion order, acks. *)
Theorem C06_depends_on pv d x m m' t : get_template d (m_name m) = Some t -> same_for t m m' ->
  serialize pv d x m = serialize pv d x m'.
Proof. exact (serialize_same pv d x m m' t). Qed.
Print Assumptions C06_depends_on.
Theorem C06_only pv d x m m' : m_name m = m_name m' -> m_blocks m = m_blocks m' -> m_flags m = m_flags m' -> m_id m = m_id m' ->
  serialize pv d x m = serialize pv d x m'.
Proof. exact (serialize_only pv d x m m'). Qed.
Print Assumptions C06_only.
Theorem C06_acks_not_sent pv d x m id : serialize pv d x (add_ack m id) = serialize pv d x m.
Proof. exact (serialize_only pv d x (add_ack m id) m eq_refl eq_refl eq_refl eq_refl). Qed.
Print Assumptions C06_acks_not_sent.
Theorem C06_no_template pv d x m : get_template d (m_name m) = None -> serialize pv d x m = Err AttributeErr.
Proof. exact (serialize_unknown pv d x m). Qed.
Print Assumptions C06_no_template.
Example C06_ex : packet_layout Py27 s_dict s_xml s_msg s_wire.
Proof. apply serialize_layout. reflexivity. Qed.
(** The order of blocks and variables given by the caller does not matter, nor
    does an additional block or variable. *)
Definition s_msg' : message :=
  mk_message "Ping" [One (mk_block "Zzz" []); One (mk_block "A" [("Q"%string, VNone); ("X"%string, VInt 7)]);
                     One (mk_block "B" [("Y"%string, VStr s_hi); ("X"%string, VInt 5)])].
Example C06_ex_order : exists t, get_template s_dict (m_name s_msg) = Some t /\ same_for t s_msg s_msg' /\
  serialize Py27 s_dict s_xml s_msg' = Ok (Some s_wire).
Proof.
  eexists. split; [reflexivity|]. split; [|reflexivity]. repeat (split; [reflexivity|]).
  intros tb [<-|[<-|[]]]; cbn; constructor; try constructor; intros v Hv; cbn in Hv;
    repeat (destruct Hv as [<-|Hv]; [reflexivity|]); contradiction.
Qed.

(** ** C11: the number that a serialized message carries *)
Lemma sent_number pv' ts pv d x m w t f : build_dict pv' ts = Ok d ->
  serialize pv d x m = Ok (Some w) -> get_template d (m_name m) = Some t ->
  t_freq t = Some f -> codable f (t_num t) ->
  decode_template d w = Ok (get_template_by_pair d (Some f) (t_num t)) /\
  (NoDup (map t_name ts) -> NoDup (map (fun x => (t_freq x, t_num x)) ts) -> decode_template d w = Ok (Some t)).
Proof.
  intros Hb Hs Ht Hf Hc. apply serialize_layout in Hs.
  destruct Hs as (t' & flags & id & number & ws & tail & Ht' & _ & -> & _ & _ & Hid & _ & _ & Hx & _).
  assert (t' = t) by congruence. subst t'.
  destruct (C55_sound pv' ts d Hb) as [S _]. destruct (S _ _ Ht) as (t0 & H0 & Sm & Hn & N).
  destruct (N f Hf) as (h & Hh & W). assert (h = number) by congruence. subst h.
  assert (t_num t mod number_space f = t_num t) as E.
  { apply Z.mod_small. destruct f; cbn in *; lia. }
  rewrite E in W.
  assert (decode_template d ([flags] ++ id ++ [x00] ++ number ++ List.concat ws ++ tail) =
          Ok (get_template_by_pair d (Some f) (t_num t))) as D.
  { replace ([flags] ++ id ++ [x00] ++ number ++ List.concat ws ++ tail)
      with (([flags] ++ id ++ [x00]) ++ number ++ (List.concat ws ++ tail)) by now rewrite <- !app_assoc.
    apply decode_template_number; auto. rewrite !zlen_app, Hid. reflexivity. }
  split; [exact D|]. intros N1 N2. rewrite D. f_equal.
  destruct Sm as (A1 & A2 & A3 & _).
  destruct (C55_distinct pv' ts d t0 Hb N1 N2 H0) as (t1 & B1 & B2 & _).
  rewrite A1, Hn, Ht in B1. injection B1 as <-. rewrite A2, A3, Hf in B2. exact B2.
Qed.
(** A serialized message is recognised by the receiver's dictionary lookup: it
    carries its own frequency and number, whatever its contents. *)
Theorem C11_sent_number pv' ts pv d x m w t f : build_dict pv' ts = Ok d ->
  serialize pv d x m = Ok (Some w) -> get_template d (m_name m) = Some t ->
  t_freq t = Some f -> codable f (t_num t) ->
  decode_template d w = Ok (get_template_by_pair d (Some f) (t_num t)) /\
  (NoDup (map t_name ts) -> NoDup (map (fun x => (t_freq x, t_num x)) ts) -> decode_template d w = Ok (Some t)).
Proof. exact (sent_number pv' ts pv d x m w t f). Qed.
Print Assumptions C11_sent_number.
Example C11_sent_ex : serialize Py27 s_dict s_xml s_msg = Ok (Some s_wire) /\ (exists t, decode_template s_dict s_wire = Ok (Some t) /\ t_name t = "Ping"%string).
Proof. split; [reflexivity|]. eexists. split; vm_compute; reflexivity. Qed.

(** ** C09 *)
Theorem C09_decoded_is_said pv ts c handled buf m :
  build_dict pv ts = Ok (dc_dict c) -> Forall sized ts -> dc_handled c = Some handled ->
  deserialize c buf = Ok (Some m) <->
  datagram_says (dc_dict c) (udp_allowed (dc_xml c))
    (fun name => handled name = true \/ dc_deferred c = false) buf m.
Proof. exact (deserialize_says pv ts c handled buf m). Qed.
Print Assumptions C09_decoded_is_said.
(** Block by block (for templates whose block names are distinct). *)
Theorem C09_blocks pv ts c handled buf m :
  build_dict pv ts = Ok (dc_dict c) -> Forall sized ts -> dc_handled c = Some handled ->
  deserialize c buf = Ok (Some m) ->
  exists t, carries (dc_dict c) buf t /\ m_name m = t_name t /\
   (NoDup (map tb_name (t_blocks t)) ->
    forall tb, In tb (t_blocks t) -> exists w l, block_read tb w l /\ decoded_count tb (zlen l) /\
      get_block (m_blocks m) (tb_name tb) = if zlen l =? 0 then Err KeyErr else Ok l) /\
   (forall name, ~ In name (map tb_name (t_blocks t)) -> get_block (m_blocks m) name = Err KeyErr).
Proof. exact (decoded_blocks pv ts c handled buf m). Qed.
Print Assumptions C09_blocks.
Example C09_ex : exists m, deserialize s_conf s_wire = Ok (Some m) /\ m_name m = "Ping"%string /\
  (exists b, get_block (m_blocks m) "B" = Ok [b] /\ block_getitem b "Y" = Ok (VStr s_hi)).
Proof. eexists. split; [reflexivity|]. split; [reflexivity|]. eexists. split; reflexivity. Qed.

(** ** C10 *)
(** Apart from MessageDeserializationError, deserialize raises exactly on the
    header failures listed in SpecLayout.v, and only IndexError or struct.error. *)
Theorem C10_failures pv ts c handled buf e :
  build_dict pv ts = Ok (dc_dict c) -> Forall well_formed ts -> dc_handled c = Some handled ->
  (forall t, In t ts -> sget (t_name t) (dc_xml c) <> Some None) ->
  e <> MessageDeserializationErr ->
  (deserialize c buf = Err e <-> header_failure buf e).
Proof. exact (deserialize_failures pv ts c handled buf e). Qed.
Print Assumptions C10_failures.
Theorem C10_kinds buf e : header_failure buf e -> e = IndexErr \/ e = StructError.
Proof. exact (failure_kinds buf e). Qed.
Print Assumptions C10_kinds.
(** The failures do not depend on the configuration at all. *)
Theorem C10_always c buf e : header_failure buf e -> deserialize c buf = Err e.
Proof. exact (failure_eq c buf e). Qed.
Print Assumptions C10_always.
Theorem C10_seven_bytes c six : zlen six = 6 -> bit (hd x00 six) zero_bit = false -> bit (hd x00 six) ack_bit = false ->
  deserialize c (six ++ [xff]) = Err IndexErr.
Proof. exact (seven_bytes c six). Qed.
Print Assumptions C10_seven_bytes.
Example C10_ex : Forall well_formed s_ts /\ deserialize s_conf [x00; x00; x00; x00; x00; x00; xff] = Err IndexErr /\
  deserialize s_conf [x00; x00; x00; x00; x00; x00; xff; xff; x01] = Err StructError /\
  deserialize s_conf [x00; x00; x00; x00; x00; x00; x03; x07] = Err MessageDeserializationErr /\
  deserialize s_conf [x00; x00; x00; x00; x00; x00; x03] = Ok None /\
  deserialize s_conf [x10; x05] = Err IndexErr /\ deserialize s_conf [] = Err IndexErr.
Proof. split; [exact s_well_formed|]. repeat split. Qed.

(** ** C13 *)
(** [fl'] is [fl] with the zero-code flag; the part after the six header bytes
    and the extra bytes [ex] is zero-coded; an ack trailer may follow. *)
Theorem C13_zero_coded pv ts c fl fl' id off ex q s tr ids :
  build_dict pv ts = Ok (dc_dict c) -> Forall sized ts ->
  bit fl zero_bit = false -> byte_value fl' = byte_value fl + 128 ->
  zlen id = 4 -> zlen ex = byte_value off -> zero_coded s q ->
  (if bit fl ack_bit then ack_trailer tr ids else tr = [] /\ ids = []) ->
  deserialize c ((fl' :: id ++ off :: ex ++ s) ++ tr) =
  res_map (option_map (reflagged (byte_value fl') ids)) (deserialize c ((fl :: id ++ off :: ex ++ q) ++ tr)).
Proof. exact (zero_coded_same pv ts c fl fl' id off ex q s tr ids). Qed.
Print Assumptions C13_zero_coded.
Example C13_ex :
  let plain := [x00; x00; x00; x00; x01; x00; x03; x00; x01; x02; x00; x00; x00] in
  let coded := [x80; x00; x00; x00; x01; x00; x03; x00; x01; x01; x02; x00; x03] in
  zero_coded (skipn 6 coded) (skipn 6 plain) /\
  exists m, deserialize s_conf plain = Ok (Some m) /\ deserialize s_conf coded = Ok (Some (reflagged 128 [] m)).
Proof.
  split.
  - cbn. apply zc_lit; [discriminate|]. apply (zc_run 1 x01 [x01; x02; x00; x03] [x01; x02; x00; x00; x00]); [lia|reflexivity|].
    apply zc_lit; [discriminate|]. apply zc_lit; [discriminate|]. apply (zc_run 3 x03 [] []); [lia|reflexivity|constructor].
  - eexists. split; reflexivity.
Qed.

(** ** C14 *)
(** Adding a trailer of acks to a datagram that decodes. *)
Theorem C14_acks_added pv ts c handled f f' tl tr ids m :
  build_dict pv ts = Ok (dc_dict c) -> Forall sized ts -> dc_handled c = Some handled ->
  bit f ack_bit = false -> byte_value f' = byte_value f + 16 -> ack_trailer tr ids ->
  deserialize c (f :: tl) = Ok (Some m) ->
  deserialize c ((f' :: tl) ++ tr) = Ok (Some (reflagged (byte_value f') ids m)).
Proof. exact (acked_same pv ts c handled f f' tl tr ids m). Qed.
Print Assumptions C14_acks_added.
(** The ids reported are always those of the trailer. *)
Theorem C14_acks_reported pv ts c handled f tl tr ids m :
  build_dict pv ts = Ok (dc_dict c) -> Forall sized ts -> dc_handled c = Some handled ->
  bit f ack_bit = true -> ack_trailer tr ids ->
  deserialize c ((f :: tl) ++ tr) = Ok (Some m) -> m_acks m = ids /\ m_num_acks m = zlen ids.
Proof. exact (acked_ids pv ts c handled f tl tr ids m). Qed.
Print Assumptions C14_acks_reported.
(** The message is identified the same way with and without the acks. *)
Theorem C14_same_template d f f' tl tr ids t : bit f ack_bit = false -> byte_value f' = byte_value f + 16 -> ack_trailer tr ids ->
  (carries d (f :: tl) t <-> carries d ((f' :: tl) ++ tr) t).
Proof. exact (acked_carries d f f' tl tr ids t). Qed.
Print Assumptions C14_same_template.
(** Every list of at most 255 ids below 2^32 has a trailer. *)
Theorem C14_trailers_exist ids : zlen ids <= 255 -> Forall (fun i => 0 <= i < 2 ^ 32) ids -> exists tr, ack_trailer tr ids.
Proof. exact (ack_trailer_for ids). Qed.
Print Assumptions C14_trailers_exist.
(** A truncated body can run into the trailer: without the acks this datagram
    decodes to nothing, with them to a message. *)
Example C14_ex_truncated : deserialize s_conf [x00; x00; x00; x00; x01; x00; x03] = Ok None /\
  ack_trailer [x01; x00; x00; x00; x01] [1] /\
  exists m, deserialize s_conf [x10; x00; x00; x00; x01; x00; x03; x01; x00; x00; x00; x01] = Ok (Some m) /\ m_acks m = [1].
Proof.
  split; [reflexivity|]. split; [exists [[x01; x00; x00; x00]], x01; repeat constructor|]. eexists. split; reflexivity.
Qed.
Example C14_ex : exists m, deserialize s_conf s_wire = Ok (Some m) /\
  deserialize s_conf ((x10 :: tl s_wire) ++ [x05; x01; x00; x00; x02; x00; x00; x00; x02]) =
    Ok (Some (reflagged 16 [261; 2] m)).
Proof. eexists. split; reflexivity. Qed.

(** ** C16 *)
Theorem C16_not_sent pv d x m t : get_template d (m_name m) = Some t -> udp_banned x (t_name t) ->
  serialize pv d x m = Ok None.
Proof. exact (serialize_banned pv d x m t). Qed.
Print Assumptions C16_not_sent.
Theorem C16_not_received c buf t : carries (dc_dict c) buf t -> udp_banned (dc_xml c) (t_name t) ->
  deserialize c buf = Ok None.
Proof. exact (deserialize_banned c buf t). Qed.
Print Assumptions C16_not_received.
Theorem C16_no_influence_sending pv d x m : (forall t, get_template d (m_name m) = Some t -> udp_allowed x (t_name t)) ->
  serialize pv d x m = serialize pv d [] m.
Proof. exact (serialize_allowed pv d x m). Qed.
Print Assumptions C16_no_influence_sending.
Theorem C16_no_influence_receiving c buf : (forall t, carries (dc_dict c) buf t -> udp_allowed (dc_xml c) (t_name t)) ->
  deserialize c buf =
  deserialize {| dc_dict := dc_dict c; dc_xml := []; dc_deferred := dc_deferred c; dc_handled := dc_handled c |} buf.
Proof. exact (deserialize_allowed c buf). Qed.
Print Assumptions C16_no_influence_receiving.
Theorem C16_no_flavor_sending pv d x m t : get_template d (m_name m) = Some t -> sget (t_name t) x = Some None ->
  serialize pv d x m = Err KeyErr.
Proof. exact (serialize_no_flavor pv d x m t). Qed.
Print Assumptions C16_no_flavor_sending.
Theorem C16_no_flavor_receiving c buf t : carries (dc_dict c) buf t -> sget (t_name t) (dc_xml c) = Some None ->
  deserialize c buf = Err KeyErr.
Proof. exact (deserialize_no_flavor c buf t). Qed.
Print Assumptions C16_no_flavor_receiving.
Example C16_ex : udp_banned s_xml "Bare" /\ serialize Py27 s_dict s_xml (mk_message "Bare" []) = Ok None /\
  deserialize s_conf [x00; x00; x00; x00; x00; x00; xff; x09] = Ok None /\
  (exists t, carries s_dict [x00; x00; x00; x00; x00; x00; xff; x09] t /\ t_name t = "Bare"%string) /\
  deserialize s_conf0 [x00; x00; x00; x00; x00; x00; xff; x09] <> Ok None.
Proof.
  split; [exists "llsd"%string; split; [reflexivity|discriminate]|]. split; [reflexivity|]. split; [reflexivity|].
  split; [|discriminate]. exists (nth 2 (td_store s_dict) s_bare). split; [|reflexivity].
  apply (extra_names s_dict x00 [x00; x00; x00; x00] x00 MEDIUM 9 [xff; x09] [] [] _ eq_refl eq_refl eq_refl (wn_medium x09)); [cbn; lia|reflexivity].
Qed.

(** ** C17 *)
Theorem C17_unregistered_skipped c handled buf t : dc_deferred c = true -> dc_handled c = Some handled ->
  carries (dc_dict c) buf t -> handled (t_name t) = false -> sget (t_name t) (dc_xml c) <> Some None ->
  deserialize c buf = Ok None.
Proof. exact (deferred_unhandled c handled buf t). Qed.
Print Assumptions C17_unregistered_skipped.
Theorem C17_registered_unaffected c handled buf : dc_handled c = Some handled ->
  (forall t, carries (dc_dict c) buf t -> handled (t_name t) = true) ->
  deserialize c buf =
  deserialize {| dc_dict := dc_dict c; dc_xml := dc_xml c; dc_deferred := false; dc_handled := dc_handled c |} buf.
Proof. exact (deferred_handled c handled buf). Qed.
Print Assumptions C17_registered_unaffected.
Example C17_ex : (exists t, carries s_dict [x00; x00; x00; x00; x00; x00; xff; xff; x01; x2c; x00] t /\ t_name t = "Pair"%string) /\
  deserialize s_conf [x00; x00; x00; x00; x00; x00; xff; xff; x01; x2c; x00] = Ok None /\
  deserialize {| dc_dict := s_dict; dc_xml := s_xml; dc_deferred := true; dc_handled := Some (fun _ => true) |}
    [x00; x00; x00; x00; x00; x00; xff; xff; x01; x2c; x01; x00; x02; x00] <> Ok None.
Proof.
  split; [|split; [reflexivity|discriminate]]. exists (nth 1 (td_store s_dict) s_bare). split; [|reflexivity].
  apply (extra_names s_dict x00 [x00; x00; x00; x00] x00 LOW 300 [xff; xff; x01; x2c] [] [x00] _ eq_refl eq_refl eq_refl (wn_low x01 x2c)); [cbn; lia|reflexivity].
Qed.

(** ** C18 *)
(** What is written for a Variable block. *)
Theorem C18_count_byte pv d x m t w tb l : get_template d (m_name m) = Some t -> serialize pv d x m = Ok (Some w) ->
  In tb (t_blocks t) -> tb_type tb = Some MBT_VARIABLE -> get_block (m_blocks m) (tb_name tb) = Ok l ->
  exists before c ws after, w = before ++ [c] ++ List.concat ws ++ after /\ byte_value c = zlen l mod 256 /\
    Forall2 (instance_layout pv tb) l ws /\ (pv = Py27 -> zlen l <= 255).
Proof. exact (count_byte pv d x m t w tb l). Qed.
Print Assumptions C18_count_byte.
(** Python 2.7: more than 255 instances raise struct.error (when nothing before
    them raises something else). *)
Theorem C18_py27 d x m t num pre tb post l :
  get_template d (m_name m) = Some t -> udp_allowed x (t_name t) -> t_hex t = Some num ->
  written Py27 false 1 (m_flags m) -> written Py27 true 4 (m_id m) ->
  t_blocks t = pre ++ tb :: post -> Forall (fun tb => exists w, block_layout Py27 tb m w) pre ->
  tb_type tb = Some MBT_VARIABLE -> get_block (m_blocks m) (tb_name tb) = Ok l -> 255 < zlen l ->
  serialize Py27 d x m = Err StructError.
Proof.
  exact (fun Ht Hx Hh Hf Hi Eb Hp Hv Hl Hn => serialize_fails Py27 d x m t num pre tb post StructError Ht Hx Hh Hf Hi Eb Hp (count_overflow m tb l Hl Hv Hn)).
Qed.
Print Assumptions C18_py27.
(** Python <= 2.6: no error, and the number of instances is not limited. *)
Theorem C18_py26_silent m tb l ws : tb_type tb = Some MBT_VARIABLE -> get_block (m_blocks m) (tb_name tb) = Ok l ->
  Forall2 (instance_layout Py26 tb) l ws -> block_layout Py26 tb m (chr (zlen l mod 256) :: List.concat ws).
Proof. exact (py26_silent m tb l ws). Qed.
Print Assumptions C18_py26_silent.
(** No decoded message has more than 255 instances, so an overlong block is
    never seen as it was sent. *)
Theorem C18_at_most_255 pv ts c handled buf m' t tb l :
  build_dict pv ts = Ok (dc_dict c) -> Forall sized ts -> dc_handled c = Some handled ->
  deserialize c buf = Ok (Some m') -> carries (dc_dict c) buf t -> NoDup (map tb_name (t_blocks t)) ->
  In tb (t_blocks t) -> tb_type tb = Some MBT_VARIABLE -> get_block (m_blocks m') (tb_name tb) = Ok l -> 1 <= zlen l <= 255.
Proof. exact (at_most_255 pv ts c handled buf m' t tb l). Qed.
Print Assumptions C18_at_most_255.
Definition s_many (n : nat) : message :=
  mk_message "Ping" [One (mk_block "A" [("X"%string, VInt 7)]);
                     Many (repeat (mk_block "B" [("X"%string, VInt 0); ("Y"%string, VStr [])]) n)].
Example C18_ex : serialize Py27 s_dict [] (s_many 256) = Err StructError /\
  (exists w, serialize Py26 s_dict [] (s_many 257) = Ok (Some w) /\ zlen w = 9 + 3 * 257 /\
   exists m' b, deserialize s_conf0 w = Ok (Some m') /\ get_block (m_blocks m') "B" = Ok [b]).
Proof.
  split; [vm_compute; reflexivity|]. eexists. split; [vm_compute; reflexivity|]. split; [vm_compute; reflexivity|].
  do 2 eexists. split; vm_compute; reflexivity.
Qed.

(** ** C19 *)
Theorem C19_counts pv d x m t w tb : get_template d (m_name m) = Some t -> serialize pv d x m = Ok (Some w) ->
  In tb (t_blocks t) ->
  exists l, get_block (m_blocks m) (tb_name tb) = Ok l /\
    (tb_type tb = Some MBT_MULTIPLE -> zlen l = tb_number tb) /\
    forall b v, In b l -> In v (tb_vars tb) -> exists y, block_getitem b (tv_name v) = Ok y.
Proof. exact (sent_counts pv d x m t w tb). Qed.
Print Assumptions C19_counts.
Theorem C19_mismatch pv d x m t num pre tb post l :
  get_template d (m_name m) = Some t -> udp_allowed x (t_name t) -> t_hex t = Some num ->
  written pv false 1 (m_flags m) -> written pv true 4 (m_id m) ->
  t_blocks t = pre ++ tb :: post -> Forall (fun tb => exists w, block_layout pv tb m w) pre ->
  tb_type tb = Some MBT_MULTIPLE -> get_block (m_blocks m) (tb_name tb) = Ok l -> zlen l <> tb_number tb ->
  serialize pv d x m = Err (MessageSerializationErr (tb_name tb) "block data mismatch").
Proof.
  exact (fun Ht Hx Hh Hf Hi Eb Hp Hv Hl Hn => serialize_fails pv d x m t num pre tb post _ Ht Hx Hh Hf Hi Eb Hp (count_mismatch pv m tb l Hl Hv Hn)).
Qed.
Print Assumptions C19_mismatch.
Theorem C19_missing_block pv d x m t num pre tb post :
  get_template d (m_name m) = Some t -> udp_allowed x (t_name t) -> t_hex t = Some num ->
  written pv false 1 (m_flags m) -> written pv true 4 (m_id m) ->
  t_blocks t = pre ++ tb :: post -> Forall (fun tb => exists w, block_layout pv tb m w) pre ->
  sget (tb_name tb) (m_blocks m) = None ->
  serialize pv d x m = Err KeyErr.
Proof.
  exact (fun Ht Hx Hh Hf Hi Eb Hp Hn => serialize_fails pv d x m t num pre tb post _ Ht Hx Hh Hf Hi Eb Hp (missing_block pv m tb Hn)).
Qed.
Print Assumptions C19_missing_block.
Theorem C19_missing_variable pv d x m t num pre tb post lpre b lpost vpre v vpost :
  get_template d (m_name m) = Some t -> udp_allowed x (t_name t) -> t_hex t = Some num ->
  written pv false 1 (m_flags m) -> written pv true 4 (m_id m) ->
  t_blocks t = pre ++ tb :: post -> Forall (fun tb => exists w, block_layout pv tb m w) pre ->
  get_block (m_blocks m) (tb_name tb) = Ok (lpre ++ b :: lpost) ->
  match tb_type tb with
  | Some MBT_MULTIPLE => zlen (lpre ++ b :: lpost) = tb_number tb
  | Some MBT_VARIABLE => written pv false 1 (zlen (lpre ++ b :: lpost))
  | _ => True
  end ->
  Forall (fun b => exists w, instance_layout pv tb b w) lpre ->
  tb_vars tb = vpre ++ v :: vpost ->
  Forall (fun v => exists y w, block_getitem b (tv_name v) = Ok y /\ field_layout pv v y w) vpre ->
  sget (tv_name v) (b_vars b) = None ->
  serialize pv d x m = Err KeyErr.
Proof.
  exact (fun Ht Hx Hh Hf Hi Eb Hp Hl Hc Hpre Ev Hvp Hv => serialize_fails pv d x m t num pre tb post _ Ht Hx Hh Hf Hi Eb Hp
           (missing_variable pv m tb lpre b lpost vpre v vpost Hl Hc Hpre Ev Hvp Hv)).
Qed.
Print Assumptions C19_missing_variable.
(** A Single block is not checked when sending ... *)
Theorem C19_single_unchecked pv m tb l ws : tb_type tb = Some MBT_SINGLE -> get_block (m_blocks m) (tb_name tb) = Ok l ->
  Forall2 (instance_layout pv tb) l ws -> block_layout pv tb m (List.concat ws).
Proof. exact (single_unchecked pv m tb l ws). Qed.
Print Assumptions C19_single_unchecked.
(** ... but the decoder always reads exactly one. *)
Theorem C19_single_decoded pv ts c handled buf m t tb :
  build_dict pv ts = Ok (dc_dict c) -> Forall sized ts -> dc_handled c = Some handled ->
  deserialize c buf = Ok (Some m) -> carries (dc_dict c) buf t -> NoDup (map tb_name (t_blocks t)) ->
  In tb (t_blocks t) -> tb_type tb = Some MBT_SINGLE -> exists b, get_block (m_blocks m) (tb_name tb) = Ok [b].
Proof. exact (single_decoded pv ts c handled buf m t tb). Qed.
Print Assumptions C19_single_decoded.
Example C19_ex : let z n := mk_block "C" [("Z"%string, VInt n)] in
  serialize Py27 s_dict [] (mk_message "Pair" [One (z 1)]) = Err (MessageSerializationErr "C" "block data mismatch") /\
  serialize Py27 s_dict [] (mk_message "Pair" []) = Err KeyErr /\
  serialize Py27 s_dict [] (mk_message "Pair" [One (z 1); One (mk_block "C" [])]) = Err KeyErr /\
  serialize Py27 s_dict [] (mk_message "Pair" [One (z 1); One (z 2)]) =
    Ok (Some [x00; x00; x00; x00; x00; x00; xff; xff; x01; x2c; x01; x00; x02; x00]).
Proof. repeat split. Qed.

(** ** C20 *)
(** Extra header bytes are skipped when they follow the message number. *)
Theorem C20_extra_skipped pv ts c fl id off f n num ex ex' body tr ids :
  build_dict pv ts = Ok (dc_dict c) -> Forall sized ts ->
  bit fl zero_bit = false -> zlen id = 4 -> wire_number f n num -> codable f n ->
  zlen ex = byte_value off -> zlen ex' = byte_value off ->
  (if bit fl ack_bit then ack_trailer tr ids else tr = [] /\ ids = []) ->
  deserialize c ((fl :: id ++ off :: num ++ ex ++ body) ++ tr) =
  deserialize c ((fl :: id ++ off :: num ++ ex' ++ body) ++ tr).
Proof. exact (extra_ignored pv ts c fl id off f n num ex ex' body tr ids). Qed.
Print Assumptions C20_extra_skipped.
(** When they precede it (as the protocol has it) they are taken for the message
    number: whatever number they start with decides. *)
Theorem C20_identified_by_extra d fl id off f n h e' body t :
  bit fl zero_bit = false -> bit fl ack_bit = false -> zlen id = 4 ->
  wire_number f n h -> codable f n -> get_template_by_pair d (Some f) n = Some t ->
  carries d (fl :: id ++ off :: (h ++ e') ++ body) t.
Proof. exact (extra_names d fl id off f n h e' body t). Qed.
Print Assumptions C20_identified_by_extra.
(** At most one template is carried, and it decides the decoded name. *)
Theorem C20_one_template d buf t t' : carries d buf t -> carries d buf t' -> t = t'.
Proof. exact (carries_fun d buf t t'). Qed.
Print Assumptions C20_one_template.
Example C20_ex : (* a Bare message with one extra byte 03 is taken for a Ping *)
  carries s_dict [x00; x00; x00; x00; x00; x01; x03; xff; x09; x00] (nth 0 (td_store s_dict) s_bare) /\
  t_name (nth 0 (td_store s_dict) s_bare) = "Ping"%string /\
  exists m, deserialize s_conf0 [x00; x00; x00; x00; x00; x01; x03; xff; x09; x00] = Ok (Some m) /\ m_name m = "Ping"%string.
Proof.
  split; [|split; [reflexivity|eexists; split; reflexivity]].
  apply (extra_names s_dict x00 [x00; x00; x00; x00] x01 HIGH 3 [x03] [] [xff; x09; x00] _ eq_refl eq_refl eq_refl (wn_high x03)); [cbn; lia|reflexivity].
Qed.
