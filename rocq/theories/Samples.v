(** Concrete templates, messages and configurations used by the non-vacuity
    examples of the Prop_*.v files. *)
From Verif Require Export Deserializer Serializer SpecCodec SpecWire SpecLayout.

Definition s_x := {| tv_name := "X"; tv_type := Some MVT_U8; tv_size := Some 1 |}.
Definition s_y := {| tv_name := "Y"; tv_type := Some MVT_VARIABLE; tv_size := Some 1 |}.
Definition s_z := {| tv_name := "Z"; tv_type := Some MVT_U16; tv_size := Some 2 |}.
Definition s_a := {| tb_name := "A"; tb_type := Some MBT_SINGLE; tb_number := 1; tb_vars := [s_x] |}.
Definition s_b := {| tb_name := "B"; tb_type := Some MBT_VARIABLE; tb_number := 1; tb_vars := [s_y; s_x] |}.
Definition s_c := {| tb_name := "C"; tb_type := Some MBT_MULTIPLE; tb_number := 2; tb_vars := [s_z] |}.
Definition s_ping := {| t_name := "Ping"; t_freq := Some HIGH; t_num := 3; t_hex := None;
  t_trust := Some LL_NOTRUST; t_enc := Some LL_UNENCODED; t_dep := None; t_blocks := [s_a; s_b] |}.
Definition s_pair := {| t_name := "Pair"; t_freq := Some LOW; t_num := 300; t_hex := None;
  t_trust := Some LL_NOTRUST; t_enc := Some LL_UNENCODED; t_dep := None; t_blocks := [s_c] |}.
Definition s_bare := {| t_name := "Bare"; t_freq := Some MEDIUM; t_num := 9; t_hex := None;
  t_trust := Some LL_NOTRUST; t_enc := Some LL_UNENCODED; t_dep := None; t_blocks := [] |}.
Definition s_ts := [s_ping; s_pair; s_bare].
Definition s_dict : tdict :=
  match build_dict Py27 s_ts with Ok d => d | Err _ => {| td_store := []; td_names := []; td_pairs := [] |} end.
Definition s_xml : xmltable := [("Bare"%string, Some "llsd"%string); ("Ping"%string, Some "template"%string)].
Definition s_conf : dconf :=
  {| dc_dict := s_dict; dc_xml := s_xml; dc_deferred := true;
     dc_handled := Some (fun n => String.eqb n "Ping") |}.
Definition s_conf0 : dconf :=
  {| dc_dict := s_dict; dc_xml := []; dc_deferred := false; dc_handled := Some (fun _ => false) |}.
Definition s_hi : bytes := [x68; x69].
Definition s_msg : message :=
  mk_message "Ping" [Many [mk_block "B" [("X"%string, VInt 5); ("Y"%string, VStr s_hi)]]; One (mk_block "A" [("X"%string, VInt 7)])].
Definition s_wire : bytes := [x00; x00; x00; x00; x00; x00; x03; x07; x01; x03; x68; x69; x00; x05].
Lemma s_built : build_dict Py27 s_ts = Ok (dc_dict s_conf).
Proof. reflexivity. Qed.
Lemma s_built0 : build_dict Py27 s_ts = Ok (dc_dict s_conf0).
Proof. reflexivity. Qed.
Lemma s_well_formed : Forall well_formed s_ts.
Proof.
  assert (F : forall t, In t s_ts -> well_formed t); [|apply Forall_forall; exact F].
  intros t [<-|[<-|[<-|[]]]] tb Htb; cbn in Htb; repeat (destruct Htb as [<-|Htb]; [|]); try contradiction;
    (split; [discriminate|]); intros v Hv; cbn in Hv; repeat (destruct Hv as [<-|Hv]; [|]); try contradiction;
    do 2 eexists; (split; [reflexivity|]); (split; [reflexivity|]); cbn; auto.
Qed.
Lemma s_sized : Forall sized s_ts.
Proof.
  assert (F : forall t, In t s_ts -> sized t); [|apply Forall_forall; exact F].
  intros t [<-|[<-|[<-|[]]]] tb v s Htb; cbn in Htb; repeat (destruct Htb as [<-|Htb]; [|]); try contradiction;
    intros Hv; cbn in Hv; repeat (destruct Hv as [<-|Hv]; [|]); try contradiction; cbn; intros [= <-]; lia.
Qed.
