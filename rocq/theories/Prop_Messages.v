(** Theorems about messages and the LLSD builder: C47, C48, C49. *)
From Verif Require Import Lib SpecMessages MessageProofs.

(** ** C47 *)

(** msg[k]: the blocks of that name among those given, in order. *)
Theorem C47_message_item : forall name args k,
  get_block (m_blocks (mk_message name args)) k =
  match filter (of_name k) (flat_args args) with [] => Err KeyErr | l => Ok l end.
Proof. exact message_getitem. Qed.
Print Assumptions C47_message_item.

(** block[k]: the last value given. *)
Theorem C47_block_item : forall b name given k, block_given b name given ->
  block_getitem b k = match last_given k (values given) with Some d => Ok d | None => Err KeyErr end.
Proof. exact block_item. Qed.
Print Assumptions C47_block_item.

(** Block(name, **kwargs) is a block whose variables were set by the kwargs. *)
Theorem C47_block_kwargs : forall name kwargs k,
  b_name (mk_block name kwargs) = name /\
  block_getitem (mk_block name kwargs) k =
  match last_given k kwargs with Some d => Ok d | None => Err KeyErr end.
Proof.
  intros name kwargs k. pose proof (mk_block_given name kwargs) as H.
  split; [now destruct (block_given_vars _ _ _ H)|].
  rewrite (block_item _ _ _ k H). f_equal.
  change (map _ kwargs) with (untyped kwargs). now rewrite values_untyped.
Qed.
Print Assumptions C47_block_kwargs.

(** Adding a block to a message appends it under its name only. *)
Theorem C47_add_block : forall m b k,
  get_block (m_blocks (msg_add_block m b)) k =
  if String.eqb (b_name b) k
  then Ok (match get_block (m_blocks m) k with Ok l => l | Err _ => [] end ++ [b])
  else get_block (m_blocks m) k.
Proof.
  intros m b k. unfold get_block. cbn. rewrite PacketRules.add_block_get.
  destruct (String.eqb (b_name b) k); [|reflexivity]. now destruct (sget k (m_blocks m)).
Qed.
Print Assumptions C47_add_block.

(** A new message has its name, no flags, no packet id, no acks; nothing marks
    it as trusted or reliable. *)
Theorem C47_fresh : forall name args, let m := mk_message name args in
  m_name m = name /\ m_flags m = 0 /\ m_id m = 0 /\ m_eqid m = 0 /\ m_acks m = [] /\ m_num_acks m = 0 /\
  m_trusted m = false /\ m_reliable m = false /\ m_retries m = 1.
Proof. repeat split. Qed.
Print Assumptions C47_fresh.
(** add_ack appends to the acks, and counts them. *)
Theorem C47_acks : forall name args ids, let m := fold_left add_ack ids (mk_message name args) in
  m_acks m = ids /\ m_num_acks m = zlen ids /\ m_blocks m = m_blocks (mk_message name args) /\ m_name m = name.
Proof.
  intros name args ids. assert (G : forall m, m_acks (fold_left add_ack ids m) = m_acks m ++ ids /\
    m_num_acks (fold_left add_ack ids m) = m_num_acks m + zlen ids /\
    m_blocks (fold_left add_ack ids m) = m_blocks m /\ m_name (fold_left add_ack ids m) = m_name m).
  { induction ids as [|i ids IH]; intros m; cbn [fold_left].
    - rewrite app_nil_r. change (zlen (@nil Z)) with 0. repeat split; auto with zarith.
    - destruct (IH (add_ack m i)) as (-> & -> & -> & ->). cbn [add_ack m_acks m_num_acks m_blocks m_name].
      rewrite <- app_assoc. unfold zlen. cbn [List.length app]. repeat split; lia. }
  exact (G (mk_message name args)).
Qed.
Print Assumptions C47_acks.

Definition blk_a1 := mk_block "A" [("x"%string, VInt 1); ("y"%string, VInt 2)].
Definition blk_a2 := mk_block "A" [("x"%string, VInt 3)].
Definition blk_b := mk_block "B" [].
Definition aba := mk_message "M" [One blk_a1; Many [blk_b; blk_a2]].
Example C47_case :
  get_block (m_blocks aba) "A" = Ok [blk_a1; blk_a2] /\ get_block (m_blocks aba) "B" = Ok [blk_b] /\
  get_block (m_blocks aba) "C" = Err KeyErr /\
  block_getitem (add_variable blk_a1 "x" {| v_data := VInt 9; v_type := None |}) "x" = Ok (VInt 9) /\
  block_getitem blk_a2 "y" = Err KeyErr.
Proof. repeat split; reflexivity. Qed.

(** ** C48: over every history of a builder *)

(** Build returns the blocks written since the last new_message, grouped by
    name, and the number of distinct names; it leaves them as they were. *)
Theorem C48_build : forall ops blocks, written ops = Some blocks -> exists b m,
  bd_build (brun bd_init ops) = (b, Ok (m, distinct_count (map fst blocks))) /\
  is_built_from blocks m /\ is_built b = true.
Proof.
  intros ops l W. destruct (build_ok ops l W) as (m & E & B).
  eexists. exists m. split; [exact E|]. split; [exact B|reflexivity].
Qed.
Print Assumptions C48_build.

(** Before the first new_message, build and next_block raise AttributeError. *)
Theorem C48_build_without_message : forall ops, written ops = None ->
  snd (bd_build (brun bd_init ops)) = Err AttributeErr.
Proof. intros ops W. rewrite (build_none ops W). reflexivity. Qed.
Print Assumptions C48_build_without_message.
Theorem C48_next_block_result : forall ops n, snd (bd_next_block (brun bd_init ops) n) =
  match written ops with Some _ => Ok tt | None => Err AttributeErr end.
Proof. exact next_block_result. Qed.
Print Assumptions C48_next_block_result.

(** add_data raises AttributeError until the first block of the first message, and
    never again: new_message does not end the current block. *)
Theorem C48_add_data_result : forall ops n d,
  (snd (bd_add_data (brun bd_init ops) n d) = Ok tt <->
   exists before name later, ops = before ++ BBlock name :: later /\ In BNew before) /\
  forall e, snd (bd_add_data (brun bd_init ops) n d) = Err e -> e = AttributeErr.
Proof. intros ops n d. split; [exact (add_data_result ops n d)|exact (add_data_error ops n d)]. Qed.
Print Assumptions C48_add_data_result.

Theorem C48_is_built : forall ops, is_built (brun bd_init ops) = true <->
  exists before, ops = before ++ [BBuild] /\ written before <> None.
Proof. exact built_iff. Qed.
Print Assumptions C48_is_built.

Definition builder_ops := [BNew; BBlock "A"; BData "x" (VInt 1); BData "x" (VInt 2); BBlock "B";
                           BBlock "A"; BData "y" (VInt 3)].
Example C48_case : written builder_ops =
    Some [("A", [("x", VInt 1); ("x", VInt 2)]); ("B", []); ("A", [("y", VInt 3)])]%string /\
  snd (bd_build (brun bd_init builder_ops)) =
    Ok ([("A", [[("x", VInt 2)]; [("y", VInt 3)]]); ("B", [[]])]%string, 2).
Proof. split; reflexivity. Qed.
(** Data added after new_message and before next_block goes to a block of the
    previous message. *)
Example C48_case_stale_block :
  snd (bd_build (brun bd_init [BNew; BBlock "A"; BNew; BData "x" (VInt 1); BBlock "B"])) =
    Ok ([("B", [[]])]%string, 1).
Proof. reflexivity. Qed.

(** ** C49 *)

(** Each block name is mapped to one map, that of its last block. *)
Theorem C49_to_dict : forall name args, good_blocks (flat_args args) -> exists body,
  to_dict (mk_message name args) = Ok (name, body) /\ NoDup (map fst body) /\
  forall k, match filter (of_name k) (flat_args args) with
            | [] => sget k body = None
            | l => exists earlier b given m, l = earlier ++ [b] /\ block_given b k given /\
                     is_map_of (values given) m /\ sget k body = Some [m]
            end.
Proof.
  intros name args G. destruct (to_dict_last name args G) as (body & E & N & R).
  exists body. split; [exact E|]. split; [exact N|]. intros k. specialize (R k).
  destruct (filter (of_name k) (flat_args args)) as [|x l] eqn:F; [exact R|].
  destruct R as (l' & b & m & EL & B & S). rewrite EL in F.
  assert (In b (filter (of_name k) (flat_args args))) as I by (rewrite F; apply in_or_app; right; now left).
  apply filter_In in I as [I K]. unfold good_blocks in G. rewrite Forall_forall in G.
  destruct (G b I) as (n & given & H). apply String.eqb_eq in K.
  pose proof (block_given_vars _ _ _ H) as (Bn & _). rewrite Bn in K. subst n.
  destruct (block_dict_ok b k given H) as (m' & E' & M). rewrite E' in B. injection B as ->.
  exists l', b, given, m. auto.
Qed.
Print Assumptions C49_to_dict.

(** So the number of blocks of each name is kept iff no block name repeats. *)
Theorem C49_faithful_iff_no_repeat : forall name args body, good_blocks (flat_args args) ->
  to_dict (mk_message name args) = Ok (name, body) ->
  ((forall k, zlen (match sget k body with Some l => l | None => [] end)
              = zlen (filter (of_name k) (flat_args args)))
   <-> NoDup (map b_name (flat_args args))).
Proof.
  intros name args body G E. destruct (to_dict_last name args G) as (body' & E' & _ & R).
  rewrite E in E'. injection E' as <-.
  assert (forall k, zlen (match sget k body with Some l => l | None => [] end) =
                    Z.min 1 (zlen (filter (of_name k) (flat_args args)))) as L.
  { intros k. specialize (R k). destruct (filter (of_name k) (flat_args args)) as [|x l] eqn:F.
    - rewrite R. reflexivity.
    - destruct R as (l' & b & m & _ & _ & ->). rewrite zlen_cons. pose proof (zlen_nonneg l).
      rewrite zlen_cons. change (zlen (@nil (list (string * pyval)))) with 0. lia. }
  transitivity (forall k, zlen (filter (of_name k) (flat_args args)) <= 1).
  { split; intros H k; specialize (H k); specialize (L k); pose proof (zlen_nonneg (filter (of_name k) (flat_args args))); lia. }
  clear. induction (flat_args args) as [|b l IH]; cbn [map].
  - split; [constructor|]. intros _ k. cbn. lia.
  - split.
    + intros H. constructor.
      * intros I. specialize (H (b_name b)). cbn in H. unfold of_name at 1 in H.
        rewrite String.eqb_refl, zlen_cons in H.
        apply in_map_iff in I as (c & Ec & Ic).
        assert (In c (filter (of_name (b_name b)) l)) as X.
        { apply filter_In. split; [exact Ic|]. unfold of_name. now apply String.eqb_eq. }
        destruct (filter (of_name (b_name b)) l) as [|y r]; [destruct X|].
        rewrite zlen_cons in H. pose proof (zlen_nonneg r). lia.
      * apply IH. intros k. specialize (H k). cbn in H. destruct (of_name k b); [|exact H].
        rewrite zlen_cons in H. lia.
    + intros N. inversion N as [|? ? X N']; subst. intros k. cbn.
      destruct (of_name k b) eqn:K; [|now apply IH].
      apply String.eqb_eq in K. subst k.
      assert (filter (of_name (b_name b)) l = []) as ->.
      { destruct (filter (of_name (b_name b)) l) as [|y r] eqn:Y; [reflexivity|].
        exfalso. apply X. assert (In y (filter (of_name (b_name b)) l)) as I by (rewrite Y; now left).
        apply filter_In in I as [I O]. apply String.eqb_eq in O. apply in_map_iff. eauto. }
      reflexivity.
Qed.
Print Assumptions C49_faithful_iff_no_repeat.

Theorem C49_to_llsd_raises : forall m, to_llsd m = Err AttributeErr.
Proof. reflexivity. Qed.
Print Assumptions C49_to_llsd_raises.

(** get_var never returns. *)
Theorem C49_get_var_raises : forall name args b v,
  get_var (mk_message name args) b v =
  Err (match filter (of_name b) (flat_args args) with [] => KeyErr | _ => AttributeErr end).
Proof.
  intros name args b v. pose proof (message_getitem name args b) as H. unfold get_block in H. unfold get_var.
  destruct (sget b (m_blocks (mk_message name args))); destruct (filter (of_name b) (flat_args args)); congruence.
Qed.
Print Assumptions C49_get_var_raises.

Example C49_case : to_dict aba = Ok ("M", [("A", [[("x", VInt 3)]]); ("B", [[]])])%string
  /\ good_blocks (flat_args [One blk_a1; Many [blk_b; blk_a2]]).
Proof.
  split; [reflexivity|]. repeat constructor; eexists; eexists; apply mk_block_given.
Qed.
