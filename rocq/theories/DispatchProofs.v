(** Proofs about the dispatcher. *)
From Coq Require Import Permutation.
From Verif Require Import Lib SpecDispatch EventsProofs FieldProofs PacketProofs PacketMore PacketForms PacketRules.

Lemma hval_eqb_spec a b : hval_eqb a b = true <-> a = b.
Proof.
  destruct a as [|x|x], b as [|y|y]; cbn; try (split; (reflexivity || discriminate)).
  - rewrite Z.eqb_eq. split; congruence.
  - rewrite String.eqb_eq. split; congruence.
Qed.
Lemma addr_eqb_spec a b : addr_eqb a b = true <-> a = b.
Proof.
  destruct a as [i p], b as [j q]. unfold addr_eqb. cbn.
  rewrite andb_true_iff, !hval_eqb_spec. split; [intros [-> ->]; reflexivity|intros [= -> ->]; auto].
Qed.
Lemma addr_eqb_refl a : addr_eqb a a = true.
Proof. now apply addr_eqb_spec. Qed.
Lemma addr_eqb_neq a b : a <> b -> addr_eqb a b = false.
Proof. intros H. destruct (addr_eqb a b) eqn:E; [|reflexivity]. apply addr_eqb_spec in E. contradiction. Qed.
Lemma addr_dec (a b : addr) : {a = b} + {a <> b}.
Proof.
  destruct (addr_eqb a b) eqn:E; [left; now apply addr_eqb_spec|right].
  intros H. apply addr_eqb_spec in H. congruence.
Qed.

Notation circ := circuit_of.

Lemma put_same st a c : circ (put_circuit st a c) a = Some c.
Proof. apply (dget_dset_eq _ addr_eqb_spec). Qed.
Lemma put_other st a b c : b <> a -> circ (put_circuit st a c) b = circ st b.
Proof. apply (dget_dset_neq _ addr_eqb_spec). Qed.

(** The circuit an operation for [a] through the Host object [href] works on. *)
Definition cur (st : dstate) (href : nat) (a : addr) : circuit :=
  match circ st a with Some c => c | None => new_circuit href receive_packet_id end.

Lemma find_circuit_spec st href a :
  let '(st', c) := find_circuit st href a in
  c = cur st href a /\ circ st' a = Some c /\ (forall b, b <> a -> circ st' b = circ st b) /\
  s_hosts st' = s_hosts st /\ s_msgs st' = s_msgs st /\ s_unackedc st' = s_unackedc st /\
  s_handler st' = s_handler st /\ s_in st' = s_in st /\ s_out st' = s_out st /\
  (circ st a <> None -> st' = st) /\
  (NoDup (dkeys (s_circuits st)) -> NoDup (dkeys (s_circuits st'))).
Proof.
  unfold find_circuit, cur. fold (circ st a). destruct (circ st a) as [c|] eqn:E.
  - repeat split; try reflexivity; auto.
  - cbn. repeat split; auto.
    + apply (dget_dset_eq _ addr_eqb_spec).
    + intros b N. now apply (dget_dset_neq _ addr_eqb_spec).
    + intros H. congruence.
    + intros N. now apply (dset_nodup _ addr_eqb_spec).
Qed.

(** ** The invariant *)
Record circ_ok (c : circuit) : Prop := {
  ok_final : c_final c = [];
  ok_count : c_count c = zlen (c_unacked c);
  ok_nodup : NoDup (map fst (c_unacked c));
  ok_range : forall n, In n (map fst (c_unacked c)) -> 1 <= n <= c_last_out c;
  ok_last : 0 <= c_last_out c;
  ok_acks : Forall (fun n => 0 <= n < 2 ^ 32) (c_acks c);
  ok_alive : c_alive c = true;
  ok_in : c_last_in c = -1 }.
Record inv (st : dstate) : Prop := {
  inv_circ : forall a c, circ st a = Some c -> circ_ok c;
  inv_keys : NoDup (dkeys (s_circuits st));
  inv_unackedc : s_unackedc st = [] }.

Lemma new_ok href : circ_ok (new_circuit href receive_packet_id).
Proof. constructor; cbn; try reflexivity; try constructor; try lia. Qed.
Lemma cur_ok st href a : inv st -> circ_ok (cur st href a).
Proof.
  intros I. unfold cur. destruct (circ st a) as [c|] eqn:E; [exact (inv_circ _ I _ _ E)|apply new_ok].
Qed.

Lemma inv_init : inv init_state.
Proof. constructor; cbn; try reflexivity; [discriminate|constructor]. Qed.

Lemma nodup_snoc {A} (l : list A) a : NoDup l -> ~ In a l -> NoDup (l ++ [a]).
Proof.
  intros N I. rewrite <- (rev_involutive (l ++ [a])), rev_app_distr. apply NoDup_rev. cbn.
  constructor; [|now apply NoDup_rev]. now rewrite <- in_rev.
Qed.

(** ** Preparing a packet *)
Lemma fold_add_ack ids : forall m,
  let m' := fold_left add_ack ids m in
  m_name m' = m_name m /\ m_blocks m' = m_blocks m /\ m_flags m' = m_flags m /\ m_id m' = m_id m /\
  m_retries m' = m_retries m /\ m_trusted m' = m_trusted m /\ m_reliable m' = m_reliable m /\ m_eqid m' = m_eqid m /\
  m_acks m' = m_acks m ++ ids.
Proof.
  induction ids as [|i ids IH]; intros m; cbn.
  - rewrite app_nil_r. repeat split; reflexivity.
  - destruct (IH (add_ack m i)) as (A & B & C & D & E & F & G & H & J). cbn in *.
    repeat split; try assumption. rewrite J, <- app_assoc. reflexivity.
Qed.

Definition mode_flag (md : mode) : Z := match md with Reliable _ => LL_RELIABLE_FLAG | Plain => LL_NONE end.
Definition mode_retries (md : mode) : Z := match md with Reliable r => r | Plain => 0 end.
Definition is_reliable (md : mode) : bool := match md with Reliable _ => true | Plain => false end.
Definition piggyback (c : circuit) (m : message) : bool :=
  (0 <? zlen (c_acks c)) && negb (String.eqb (m_name m) "PacketAck").

Lemma prepare_spec c mref m md : circ_ok c ->
  let '(c', m') := match md with
                   | Reliable r => prepare_packet c mref m LL_RELIABLE_FLAG r
                   | Plain => prepare_packet c mref m LL_NONE 0
                   end in
  m_name m' = m_name m /\ m_blocks m' = m_blocks m /\ m_id m' = c_last_out c + 1 /\
  m_flags m' = Z.lor (mode_flag md) (if piggyback c m then LL_ACK_FLAG else 0) /\
  m_acks m' = m_acks m ++ (if piggyback c m then c_acks c else []) /\
  m_retries m' = mode_retries md /\
  c_host c' = c_host c /\ c_trusted c' = c_trusted c /\ c_acks c' = c_acks c /\
  c_last_out c' = c_last_out c + 1 /\ c_final c' = c_final c /\
  c_unacked c' = (if is_reliable md then c_unacked c ++ [(m_id m', mref)] else c_unacked c) /\
  circ_ok c' /\ (is_reliable md = true -> 0 < c_count c').
Proof.
  intros K.
  assert (match md with
                   | Reliable r => prepare_packet c mref m LL_RELIABLE_FLAG r
                   | Plain => prepare_packet c mref m LL_NONE 0
                   end = prepare_packet c mref m (mode_flag md) (mode_retries md)) as -> by now destruct md.
  unfold prepare_packet, next_packet_id. cbn [c_acks set_last_out m_name set_header].
  fold (piggyback c m).
  set (m0 := set_header m (mode_flag md) (mode_retries md) (c_last_out c + 1)).
  assert (exists m', (if piggyback c m then fold_left add_ack (c_acks c) (or_flags m0 LL_ACK_FLAG) else m0) = m' /\
    m_name m' = m_name m /\ m_blocks m' = m_blocks m /\ m_id m' = c_last_out c + 1 /\
    m_flags m' = Z.lor (mode_flag md) (if piggyback c m then LL_ACK_FLAG else 0) /\
    m_acks m' = m_acks m ++ (if piggyback c m then c_acks c else []) /\
    m_retries m' = mode_retries md) as (m' & -> & E1 & E2 & E3 & E4 & E5 & E6).
  { destruct (piggyback c m).
    - destruct (fold_add_ack (c_acks c) (or_flags m0 LL_ACK_FLAG)) as (A & B & C & D & E & F & G & H & J).
      eexists. split; [reflexivity|]. rewrite A, B, C, D, E, J. cbn. repeat split; reflexivity.
    - exists m0. split; [reflexivity|]. cbn. rewrite app_nil_r, Z.lor_0_r. repeat split; reflexivity. }
  rewrite E3. destruct K as [KF KC KN KR KL KA KV KI].
  destruct md as [|r].
  - cbn [mode_flag is_reliable mode_retries] in *. change (LL_NONE =? LL_RELIABLE_FLAG) with false. cbn iota.
    assert (circ_ok (set_last_out c (c_last_out c + 1))) as OK.
    { constructor; cbn; auto; try lia; intros n H; apply KR in H; lia. }
    repeat (split; [assumption || reflexivity|]); discriminate.
  - cbn [mode_flag is_reliable mode_retries] in *. change (LL_RELIABLE_FLAG =? LL_RELIABLE_FLAG) with true. cbn iota.
    assert (~ In (c_last_out c + 1) (map fst (c_unacked c))) as NEW by (intros H; apply KR in H; lia).
    assert (dset Z.eqb (c_last_out c + 1) mref (c_unacked c) = c_unacked c ++ [(c_last_out c + 1, mref)]) as DS.
    { apply dset_app_new. destruct (dmem Z.eqb (c_last_out c + 1) (c_unacked c)) eqn:M; [|reflexivity].
      apply (dmem_In _ zeqb_spec) in M. contradiction. }
    set (c' := add_reliable_packet (set_last_out c (c_last_out c + 1)) (c_last_out c + 1) mref).
    assert (c_unacked c' = c_unacked c ++ [(c_last_out c + 1, mref)]) as CU by (cbn; exact DS).
    assert (circ_ok c') as OK.
    { constructor; rewrite ?CU.
      - exact KF.
      - cbn. rewrite KC, zlen_app. reflexivity.
      - rewrite map_app. cbn. now apply nodup_snoc.
      - intros n H. rewrite map_app, in_app_iff in H. cbn in H. cbn.
        destruct H as [H|[<-|[]]]; [apply KR in H; lia|lia].
      - cbn. lia.
      - exact KA.
      - exact KV.
      - exact KI. }
    repeat (split; [assumption || reflexivity|]).
    intros _. cbn. rewrite KC. pose proof (zlen_nonneg (c_unacked c)). lia.
Qed.

(** ** Sending one message *)
Definition out_error (env : denv) (st : dstate) (m : message) : option exn :=
  if e_handle_out env then snd (handle (e_cb env) (s_handler st) m) else None.
Definition out_calls (env : denv) (st : dstate) (m : message) : list sub :=
  if e_handle_out env then fst (handle (e_cb env) (s_handler st) m) else [].
(** What becomes of a prepared message: the datagram handed over, or the exception. *)
Definition put_on_wire (env : denv) (m : message) (a : addr) (sock : addr -> bytes -> option exn)
  : option bytes * exn :=
  match serialize (e_pv env) (e_ser_dict env) (e_ser_xml env) m with
  | Ok (Some b) => match sock a b with None => (Some b, no_data) | Some e => (None, e) end
  | Ok None => (None, no_data)
  | Err e => (None, e)
  end.

Lemma nth_update {A} n (x : A) l y : nth_error l n = Some y -> nth_error (update_nth n x l) n = Some x.
Proof.
  revert l. induction n as [|n IH]; intros [|z l] H; try discriminate; cbn in *; [reflexivity|]. now apply IH.
Qed.

Lemma send_detail env st mref href md sock a m : inv st ->
  nth_error (s_hosts st) href = Some a -> nth_error (s_msgs st) mref = Some m ->
  host_ok a = true -> out_error env st m = None ->
  exists st' x c', send_message env st mref href md sock =
    (st', {| o_res := match at_data x with
                      | Some b => Ok (Some b)
                      | None => contain (snd (put_on_wire env (at_msg x) a sock)) (at_msg x)
                      end;
             o_sends := [x]; o_calls := map (fun s => (s, m)) (out_calls env st m) |}) /\
    at_addr x = a /\ at_data x = fst (put_on_wire env (at_msg x) a sock) /\
    m_name (at_msg x) = m_name m /\ m_blocks (at_msg x) = m_blocks m /\
    m_id (at_msg x) = c_last_out (cur st href a) + 1 /\
    m_flags (at_msg x) = Z.lor (mode_flag md) (if piggyback (cur st href a) m then LL_ACK_FLAG else 0) /\
    m_acks (at_msg x) = m_acks m ++ (if piggyback (cur st href a) m then c_acks (cur st href a) else []) /\
    circ st' a = Some c' /\ (forall b, b <> a -> circ st' b = circ st b) /\
    c_host c' = c_host (cur st href a) /\ c_trusted c' = c_trusted (cur st href a) /\
    c_acks c' = c_acks (cur st href a) /\ c_last_out c' = c_last_out (cur st href a) + 1 /\
    c_unacked c' = (if is_reliable md then c_unacked (cur st href a) ++ [(m_id (at_msg x), mref)]
                    else c_unacked (cur st href a)) /\
    s_hosts st' = s_hosts st /\ s_handler st' = s_handler st /\ s_in st' = s_in st /\
    s_out st' = s_out st + (match at_data x with Some _ => 1 | None => 0 end) /\
    nth_error (s_msgs st') mref = Some (at_msg x) /\
    List.length (s_msgs st') = List.length (s_msgs st) /\ inv st'.
Proof.
  intros I NH NM HO OE. unfold send_message. rewrite NH, NM, HO. cbn [negb].
  assert ((if e_handle_out env then handle (e_cb env) (s_handler st) m else ([], None)) =
          (out_calls env st m, None)) as ->.
  { unfold out_error in OE. unfold out_calls. destruct (e_handle_out env); [|reflexivity].
    destruct (handle (e_cb env) (s_handler st) m) as [calls e]. cbn in *. now rewrite OE. }
  pose proof (find_circuit_spec st href a) as FC. destruct (find_circuit st href a) as [st1 c].
  destruct FC as (EC & C1 & CO & H1 & M1 & U1 & HD1 & IN1 & OUT1 & _ & N1). subst c.
  pose proof (prepare_spec (cur st href a) mref m md (cur_ok st href a I)) as PS.
  destruct (match md with
            | Reliable r => prepare_packet (cur st href a) mref m LL_RELIABLE_FLAG r
            | Plain => prepare_packet (cur st href a) mref m LL_NONE 0
            end) as [c' m'] eqn:EP.
  destruct PS as (P1 & P2 & P3 & P4 & P5 & P6 & P7 & P8 & P9 & P10 & P11 & P12 & P13 & P14).
  cbv zeta. set (st2 := set_msgs (put_circuit st1 a c') (update_nth mref m' (s_msgs st1))).
  assert (match md with
          | Plain => st2
          | Reliable _ => if c_count c' <=? 0 then set_unackedc st2 (dset Nat.eqb href a (s_unackedc st2)) else st2
          end = st2) as ->.
  { destruct md; [reflexivity|]. specialize (P14 eq_refl). destruct (Z.leb_spec (c_count c') 0); [lia|reflexivity]. }
  assert (inv st2) as I2.
  { constructor.
    - intros b c H. destruct (addr_dec b a) as [->|N].
      + change (circ st2 a) with (circ (put_circuit st1 a c') a) in H. rewrite put_same in H. injection H as <-. exact P13.
      + change (circ st2 b) with (circ (put_circuit st1 a c') b) in H. rewrite put_other in H by exact N.
        rewrite CO in H by exact N. exact (inv_circ _ I _ _ H).
    - cbn. apply (dset_nodup _ addr_eqb_spec). apply N1. exact (inv_keys _ I).
    - cbn. rewrite U1. exact (inv_unackedc _ I). }
  assert (circ st2 a = Some c') as C2 by apply put_same.
  assert (forall b, b <> a -> circ st2 b = circ st b) as CO2.
  { intros b N. rewrite <- (CO b N). change (circ st2 b) with (circ (put_circuit st1 a c') b). now apply put_other. }
  assert (nth_error (s_msgs st2) mref = Some m') as M2.
  { cbn. rewrite M1. eapply nth_update. exact NM. }
  assert (forall {A} n (y : A) l, List.length (update_nth n y l) = List.length l) as UL.
  { clear. intros A n y l. revert l. induction n as [|n IH]; intros [|z l]; cbn; auto. }
  assert (List.length (s_msgs st2) = List.length (s_msgs st)) as L2 by (cbn; rewrite M1; apply UL).
  unfold put_on_wire.
  destruct (serialize (e_pv env) (e_ser_dict env) (e_ser_xml env) m') as [[b|]|e] eqn:SE.
  1: destruct (sock a b) as [e|] eqn:SO.
  2: { exists (set_counts st2 (s_in st2) (s_out st2 + 1)), {| at_addr := a; at_msg := m'; at_data := Some b |}, c'.
       cbn [at_addr at_msg at_data]. rewrite SE, SO. split; [reflexivity|].
       assert (inv (set_counts st2 (s_in st2) (s_out st2 + 1))) as I3.
       { constructor; [exact (inv_circ _ I2)|exact (inv_keys _ I2)|exact (inv_unackedc _ I2)]. }
       cbn [fst]. repeat (split; [first [assumption | reflexivity | exact C2 | exact CO2 | exact M2 | exact L2
         | (cbn; congruence)]|]). exact I3. }
  all: exists st2, {| at_addr := a; at_msg := m'; at_data := None |}, c';
       cbn [at_addr at_msg at_data]; rewrite SE; try rewrite SO; split; [reflexivity|]; cbn [fst];
       rewrite Z.add_0_r;
       repeat (split; [first [assumption | reflexivity | (cbn; congruence)]|]); exact I2.
Qed.

Lemma send_nothing env st mref href md sock :
  (match nth_error (s_hosts st) href, nth_error (s_msgs st) mref with
   | Some a, Some m => host_ok a = false \/ (exists e, out_error env st m = Some e)
   | _, _ => True
   end) ->
  exists o, send_message env st mref href md sock = (st, o) /\ o_sends o = [] /\
    (forall a, nth_error (s_hosts st) href = Some a -> host_ok a = false ->
       nth_error (s_msgs st) mref <> None -> o = out0 (Ok None)) /\
    (forall a m e, nth_error (s_hosts st) href = Some a -> host_ok a = true -> nth_error (s_msgs st) mref = Some m ->
       out_error env st m = Some e ->
       o = {| o_res := Err e; o_sends := []; o_calls := map (fun s => (s, m)) (out_calls env st m) |}).
Proof.
  intros H. unfold send_message. destruct (nth_error (s_hosts st) href) as [a|].
  2: { eexists. split; [reflexivity|]. split; [reflexivity|]. split; intros; discriminate. }
  destruct (nth_error (s_msgs st) mref) as [m|].
  2: { eexists. split; [reflexivity|]. split; [reflexivity|]. split; intros; congruence. }
  destruct (host_ok a) eqn:HO; cbn [negb].
  - destruct H as [H|(e & H)]; [discriminate|].
    assert ((if e_handle_out env then handle (e_cb env) (s_handler st) m else ([], None)) =
            (out_calls env st m, Some e)) as ->.
    { unfold out_error in H. unfold out_calls. destruct (e_handle_out env); [|discriminate].
      destruct (handle (e_cb env) (s_handler st) m) as [calls e']. cbn in *. now rewrite H. }
    eexists. split; [reflexivity|]. split; [reflexivity|]. split; [intros; congruence|].
    intros a' m' e' [= <-] _ [= <-] E. rewrite H in E. injection E as <-. reflexivity.
  - eexists. split; [reflexivity|]. split; [reflexivity|]. split; [reflexivity|]. intros a' m' e' [= <-] E. congruence.
Qed.

Lemma send_total env st mref href :
  (match nth_error (s_hosts st) href, nth_error (s_msgs st) mref with
   | Some a, Some m => host_ok a = false \/ (exists e, out_error env st m = Some e)
   | _, _ => True
   end) \/
  (exists a m, nth_error (s_hosts st) href = Some a /\ nth_error (s_msgs st) mref = Some m /\
     host_ok a = true /\ out_error env st m = None).
Proof.
  destruct (nth_error (s_hosts st) href) as [a|]; [|left; trivial].
  destruct (nth_error (s_msgs st) mref) as [m|]; [|left; trivial].
  destruct (host_ok a) eqn:HO; [|left; now left].
  destruct (out_error env st m) as [e|] eqn:OE; [left; right; eauto|right; exists a, m; auto].
Qed.

(** ** The ledger *)
Definition zseq (n : Z) : list Z := map (fun k => Z.of_nat k + 1) (seq 0 (Z.to_nat n)).
Lemma zseq_succ n : 0 <= n -> zseq (n + 1) = zseq n ++ [n + 1].
Proof.
  intros H. unfold zseq. replace (Z.to_nat (n + 1)) with (S (Z.to_nat n)) by lia.
  rewrite seq_S, map_app. cbn. repeat f_equal. lia.
Qed.

Lemma since_snoc a tr e : since_removal a (tr ++ [e]) =
  if removes a e then [] else since_removal a tr ++ [e].
Proof. unfold since_removal. now rewrite fold_left_app. Qed.

Lemma attempts_app a t1 t2 : attempts_to a (t1 ++ t2) = attempts_to a t1 ++ attempts_to a t2.
Proof. apply flat_map_app. Qed.

Lemma unack_snoc a ep e n : unacknowledged a (ep ++ [e]) n <->
  (unacknowledged a ep n /\ forall m, e = Accepted a m -> ~ In n (m_acks m)) \/
  (exists x, e = Attempted x /\ at_addr x = a /\ sent_reliably x = true /\ m_id (at_msg x) = n).
Proof.
  split.
  - intros (t1 & x & t2 & E & A & R & N & Q).
    destruct t2 as [|e2 t2] using rev_ind.
    + apply app_inj_tail in E as [-> ->]. right. eauto.
    + clear IHt2. change (t1 ++ Attempted x :: t2 ++ [e2]) with (t1 ++ (Attempted x :: t2) ++ [e2]) in E.
      rewrite app_assoc in E. apply app_inj_tail in E as [-> ->]. left. split.
      * exists t1, x, t2. repeat split; auto. intros m I. apply Q. apply in_or_app. now left.
      * intros m ->. apply Q. apply in_or_app. right. now left.
  - intros [[(t1 & x & t2 & -> & A & R & N & Q) QE]|(x & -> & A & R & N)].
    + exists t1, x, (t2 ++ [e]). rewrite <- app_assoc. repeat split; auto.
      intros m I. apply in_app_or in I as [I|[->|[]]]; [now apply Q|now apply QE].
    + exists ep, x, []. repeat split; auto.
Qed.

Definition last_id (st : dstate) (a : addr) : Z :=
  match circ st a with Some c => c_last_out c | None => 0 end.
Definition ledger (tr : list devent) (st : dstate) : Prop :=
  forall a, map (fun x => m_id (at_msg x)) (attempts_to a (since_removal a tr)) = zseq (last_id st a) /\
            forall n, In n (outstanding st a) <-> unacknowledged a (since_removal a tr) n.

Lemma ledger_same tr st st' : (forall a, circ st' a = circ st a) -> ledger tr st -> ledger tr st'.
Proof. intros E L a. unfold last_id, outstanding. rewrite E. apply L. Qed.

Lemma ledger_view tr st st' : (forall a, last_id st' a = last_id st a /\ outstanding st' a = outstanding st a) ->
  ledger tr st -> ledger tr st'.
Proof. intros E L a. destruct (E a) as [E1 E2]. rewrite E1, E2. apply L. Qed.

Lemma ledger_init : ledger [] init_state.
Proof.
  intros a. split; [reflexivity|]. intros n. split; [intros []|]. intros (t1 & x & t2 & E & _).
  destruct t1; discriminate.
Qed.

(** An attempt at [a]. *)
Lemma ledger_attempt tr st st' x : ledger tr st ->
  let a := at_addr x in
  0 <= last_id st a -> last_id st' a = last_id st a + 1 -> m_id (at_msg x) = last_id st a + 1 ->
  outstanding st' a = outstanding st a ++ (if sent_reliably x then [m_id (at_msg x)] else []) ->
  (forall b, b <> a -> circ st' b = circ st b) ->
  ledger (tr ++ [Attempted x]) st'.
Proof.
  intros L a P LA ID O OTH b. rewrite since_snoc. cbn [removes].
  rewrite attempts_app, map_app. destruct (L b) as [L1 L2].
  destruct (addr_dec b a) as [->|N].
  - assert (attempts_to a [Attempted x] = [x]) as -> by (cbn; fold a; rewrite addr_eqb_refl; reflexivity).
    split.
    + rewrite L1, LA, zseq_succ by exact P. cbn [map]. now rewrite ID.
    + intros n. rewrite O, in_app_iff, unack_snoc, L2. split.
      * intros [H|H]; [left; split; [exact H|discriminate]|].
        destruct (sent_reliably x) eqn:R; [|destruct H]. destruct H as [<-|[]]. right. eauto 6.
      * intros [[H _]|(y & [= <-] & _ & R & <-)]; [now left|]. right. rewrite R. now left.
  - assert (attempts_to b [Attempted x] = []) as -> by (cbn; fold a; rewrite addr_eqb_neq by exact N; reflexivity).
    cbn [map]. rewrite app_nil_r. unfold last_id, outstanding. rewrite OTH by exact N. split; [exact L1|].
    intros n. rewrite unack_snoc. unfold outstanding in L2. rewrite L2. split.
    + intros H. left. split; [exact H|discriminate].
    + intros [[H _]|(y & [= <-] & E & _)]; [exact H|]. exfalso. apply N. symmetry. exact E.
Qed.

(** ** The effect of sending *)
(** Every circuit refers to an existing Host object. *)
Definition hosts_valid (st : dstate) : Prop := forall a c, circ st a = Some c -> host_address st (c_host c) <> None.

Record effect (st : dstate) (xs : list attempt) (st' : dstate) : Prop := {
  ef_hosts : s_hosts st' = s_hosts st;
  ef_handler : s_handler st' = s_handler st;
  ef_in : s_in st' = s_in st;
  ef_old : forall a c, circ st a = Some c -> exists c', circ st' a = Some c' /\
             c_host c' = c_host c /\ c_acks c' = c_acks c /\ c_trusted c' = c_trusted c;
  ef_new : forall a c', circ st a = None -> circ st' a = Some c' -> c_acks c' = [] /\ c_trusted c' = false;
  ef_other : forall a, ~ In a (map at_addr xs) -> circ st' a = circ st a;
  ef_valid : hosts_valid st -> hosts_valid st';
  ef_inv : inv st';
  ef_ledger : forall tr, ledger tr st -> ledger (tr ++ map Attempted xs) st' }.

Lemma effect_nil st : inv st -> effect st [] st.
Proof.
  intros I. constructor; auto.
  - intros a c H. exists c. auto.
  - intros a c' H H'. congruence.
  - intros tr L. now rewrite app_nil_r.
Qed.

Lemma effect_app st xs st1 ys st2 : effect st xs st1 -> effect st1 ys st2 -> effect st (xs ++ ys) st2.
Proof.
  intros [A1 A2 A3 A4 A5 A6 AV A7 A8] [B1 B2 B3 B4 B5 B6 BV B7 B8]. constructor; try congruence.
  - intros a c H. destruct (A4 a c H) as (c1 & C1 & E1 & E2 & E3). destruct (B4 a c1 C1) as (c2 & C2 & F1 & F2 & F3).
    exists c2. repeat split; congruence.
  - intros a c' H H'. destruct (circ st1 a) as [c1|] eqn:C1.
    + destruct (A5 a c1 H C1) as [G1 G2]. destruct (B4 a c1 C1) as (c2 & C2 & F1 & F2 & F3).
      rewrite H' in C2. injection C2 as <-. split; congruence.
    + now apply B5 with a.
  - intros a N. rewrite map_app, in_app_iff in N. rewrite B6, A6 by tauto. reflexivity.
  - auto.
  - intros tr L. rewrite map_app, app_assoc. now apply B8, A8.
Qed.

Lemma reliable_flag md b : Z.testbit (Z.lor (mode_flag md) (if (b : bool) then LL_ACK_FLAG else 0)) reliable_bit = is_reliable md.
Proof. destruct md, b; reflexivity. Qed.

Lemma send_effect env st mref href md sock st' o : inv st ->
  send_message env st mref href md sock = (st', o) -> effect st (o_sends o) st'.
Proof.
  intros I H. destruct (send_total env st mref href) as [T|(a & m & NH & NM & HO & OE)].
  - destruct (send_nothing env st mref href md sock T) as (o' & E & S & _). rewrite E in H. injection H as <- <-.
    rewrite S. now apply effect_nil.
  - destruct (send_detail env st mref href md sock a m I NH NM HO OE)
      as (st2 & x & c' & E & AA & _ & _ & _ & ID & FL & _ & CA & CO & CH & CT & CK & CL & CU & SH & HD & SI & _ & _ & _ & I2).
    rewrite E in H. injection H as <- <-. cbn [o_sends].
    pose proof (cur_ok st href a I) as OK.
    constructor; try assumption.
    + intros b c Hc. destruct (addr_dec b a) as [->|N].
      * exists c'. unfold cur in *. rewrite Hc in *. auto.
      * exists c. rewrite CO by exact N. auto.
    + intros b c2 Hn Hc. destruct (addr_dec b a) as [->|N].
      * rewrite CA in Hc. injection Hc as <-. unfold cur in *. rewrite Hn in *. cbn in *. auto.
      * rewrite CO in Hc by exact N. congruence.
    + intros b N. apply CO. intros ->. apply N. left. exact AA.
    + intros V b c2 Hc. unfold host_address. rewrite SH. destruct (addr_dec b a) as [->|N].
      * rewrite CA in Hc. injection Hc as <-. rewrite CH. unfold cur. destruct (circ st a) as [c|] eqn:Ec; [exact (V _ _ Ec)|].
        cbn. congruence.
      * rewrite CO in Hc by exact N. exact (V _ _ Hc).
    + intros tr L. cbn [map]. apply ledger_attempt with st; try assumption; rewrite ?AA.
      * unfold last_id. pose proof (ok_last _ OK). unfold cur in *. destruct (circ st a); cbn in *; lia.
      * unfold last_id. rewrite CA, CL. unfold cur. destruct (circ st a); reflexivity.
      * rewrite ID. unfold last_id, cur. destruct (circ st a); reflexivity.
      * unfold outstanding. rewrite CA, CU. unfold sent_reliably. rewrite FL, reliable_flag.
        unfold cur in *. destruct (circ st a) as [c|]; destruct (is_reliable md); cbn; rewrite ?app_nil_r, ?map_app; reflexivity.
      * exact CO.
Qed.

(** ** Receiving *)
Lemma seq_range buf n : sequence_number buf = Some n -> 0 <= n < 2 ^ 32.
Proof.
  destruct buf as [|f [|b1 [|b2 [|b3 [|b4 r]]]]]; try discriminate. intros [= <-].
  unfold value_msb_first. cbn [fold_left]. change byte_value with ord.
  pose proof (ord_range b1). pose proof (ord_range b2). pose proof (ord_range b3). pose proof (ord_range b4). lia.
Qed.

Lemma id_read buf : unpack_z buf MVT_U32 1 (Some BE) =
  match sequence_number buf with Some n => Ok n | None => Err DataUnpackingErr end.
Proof.
  destruct buf as [|f [|b1 [|b2 [|b3 [|b4 r]]]]]; try reflexivity.
  exact (unpack_z_int MVT_U32 4 LE (Some BE) [f] [b1; b2; b3; b4] r eq_refl eq_refl).
Qed.

Lemma first_bytes_seq f b1 b2 b3 b4 r : sequence_number (f :: b1 :: b2 :: b3 :: b4 :: r) = Some (value_msb_first [b1; b2; b3; b4]).
Proof. reflexivity. Qed.

Lemma seq_unwrapped buf plain tr ids : unwrapped buf plain tr ids -> 6 <= zlen plain ->
  sequence_number (plain ++ tr) = sequence_number buf /\ sequence_number buf <> None.
Proof.
  intros (f & tl & coded & -> & -> & _ & Z) L.
  assert (exists p b1 b2 b3 b4 r r', plain = p :: b1 :: b2 :: b3 :: b4 :: r /\ f :: tl = p :: b1 :: b2 :: b3 :: b4 :: r')
    as (p & b1 & b2 & b3 & b4 & r & r' & -> & ->).
  { destruct (bit f zero_bit).
    - destruct Z as (o & N & p & E & ->).
      destruct tl as [|b1 [|b2 [|b3 [|b4 [|b5 tl]]]]]; try discriminate. injection N as ->.
      pose proof (ord_range o). change byte_value with ord in *.
      replace (Z.to_nat (6 + ord o)) with (6 + Z.to_nat (ord o))%nat by lia.
      cbn [Nat.add firstn app]. do 7 eexists. split; reflexivity.
    - rewrite Z in *. destruct tl as [|b1 [|b2 [|b3 [|b4 [|b5 tl]]]]]; cbn in L; try lia.
      do 7 eexists. split; reflexivity. }
  cbn [app sequence_number]. split; [reflexivity|discriminate].
Qed.

Lemma deserialize_header c buf m : deserialize c buf = Ok (Some m) ->
  sequence_number buf = Some (m_id m) /\ m_trusted m = false /\ m_retries m = 1 /\
  exists f tl, buf = f :: tl /\ m_flags m = ord f /\ m_reliable m = bit f reliable_bit.
Proof.
  intros D. destruct (deserialize_cases c buf) as [(e & _ & E)|[(t & p & tr & ids & C & U & E)|[_ [E|E]]]]; try congruence.
  rewrite D in E. symmetry in E. cbn [rest_of] in E.
  inv_bind E. clear Ha. destruct a; cbn [negb] in E; [|discriminate].
  destruct (dc_handled c) as [h|]; [|discriminate].
  destruct (h (t_name t) || negb (dc_deferred c))%bool; [|discriminate].
  assert (decode_data t (p ++ tr) = Ok (Some m)) as DD.
  { unfold finish in E. destruct (decode_data t (p ++ tr)) as [x|x]; [exact E|]. destruct x; discriminate. }
  clear E. destruct C as (p' & tr' & ids' & six & h' & rest & f & n & U' & EP & L6 & WN & _).
  destruct (unwrapped_fun _ _ _ _ _ _ _ U U') as (<- & <- & _).
  assert (6 <= zlen p) as L by (rewrite EP, zlen_app; pose proof (zlen_nonneg (h' ++ rest)); lia).
  destruct (seq_unwrapped _ _ _ _ U L) as [S1 S2].
  unfold decode_data in DD. inv_bind DD. rename a into c0. inv_bind DD. rename a into id0.
  rewrite id_read, S1 in Ha0. destruct (sequence_number buf) as [n0|]; [|congruence]. injection Ha0 as ->.
  inv_bind DD. inv_bind DD. inv_bind DD. inv_bind DD. destruct a2 as [[d pos]|]; [|discriminate].
  destruct ((zlen d <=? 0) && (0 <? zlen (t_blocks t)))%bool; [discriminate|]. injection DD as <-. cbn.
  split; [reflexivity|]. split; [reflexivity|]. split; [reflexivity|].
  destruct U as (f0 & tl & coded & -> & -> & _ & Z).
  assert (exists r, p = f0 :: r) as (r & ->).
  { destruct (bit f0 zero_bit); [|eauto]. destruct Z as (o & N & q & _ & ->).
    pose proof (ord_range o). change byte_value with ord.
    replace (Z.to_nat (6 + ord o)) with (S (5 + Z.to_nat (ord o))) by lia. cbn [firstn app]. eauto. }
  cbn in Ha. injection Ha as ->. exists c0, (tl ++ tr). repeat split; try reflexivity.
  apply flag_reliable.
Qed.

Lemma zdel_keys {V} id (d : list (Z * V)) n : NoDup (map fst d) ->
  In n (map fst (ddel Z.eqb id d)) <-> In n (map fst d) /\ n <> id.
Proof.
  induction d as [|[k v] d IH]; cbn [ddel map fst]; intros N; [cbn; tauto|]. inversion N as [|? ? NI ND]; subst.
  cbn [ddel]. destruct (Z.eqb_spec id k) as [->|NE]; cbn [map fst In].
  - split; [intros H; split; [auto|intros ->; contradiction]|]. intros [[->|H] NK]; [congruence|exact H].
  - rewrite (IH ND). split; [intros [->|[H1 H2]]; auto|]. intros [[->|H] NK]; auto.
Qed.
Lemma zdel_zlen {V} id (d : list (Z * V)) : In id (map fst d) -> zlen (ddel Z.eqb id d) = zlen d - 1.
Proof.
  induction d as [|[k v] d IH]; cbn [ddel map fst In]; [intros []|]. intros H.
  destruct (Z.eqb_spec id k) as [->|NE]; rewrite ?zlen_cons; [lia|]. destruct H as [->|H]; [congruence|].
  rewrite IH by exact H. lia.
Qed.

(** Acknowledging one id. *)
Lemma ack_one_spec c id : circ_ok c ->
  let c' := ack_reliable_packet c id in
  circ_ok c' /\ c_host c' = c_host c /\ c_trusted c' = c_trusted c /\ c_acks c' = c_acks c /\
  c_last_out c' = c_last_out c /\
  (forall n, In n (map fst (c_unacked c')) <-> In n (map fst (c_unacked c)) /\ n <> id) /\
  (~ In id (map fst (c_unacked c)) -> c' = c).
Proof.
  intros [KF KC KN KR KL KA KV KI]. unfold ack_reliable_packet.
  destruct (dmem Z.eqb id (c_unacked c)) eqn:M.
  - set (c1 := set_unacked c (ddel Z.eqb id (c_unacked c)) (c_count c - 1)).
    assert (dmem Z.eqb id (c_final c1) = false) as -> by (cbn; rewrite KF; reflexivity).
    apply (dmem_In _ zeqb_spec) in M.
    assert (forall n, In n (map fst (c_unacked c1)) <-> In n (map fst (c_unacked c)) /\ n <> id) as IN.
    { intros n. cbn. now apply zdel_keys. }
    cbn. repeat split; try assumption; try (apply IN in H; tauto); try (apply IN; tauto); try contradiction.
    + cbn. rewrite KC. rewrite zdel_zlen by exact M. reflexivity.
    + cbn. now apply ddel_nodup.
    + apply IN in H as [H _]. now apply KR.
    + apply IN in H as [H _]. now apply KR.
  - assert (dmem Z.eqb id (c_final c) = false) as -> by (rewrite KF; reflexivity).
    assert (~ In id (map fst (c_unacked c))) as NI.
    { intros H. apply (dmem_In _ zeqb_spec) in H. congruence. }
    cbn. repeat split; try assumption; try tauto; try (intros ->; contradiction).
    + apply (KR n H).
    + apply (KR n H).
Qed.

Lemma ack_all_spec ids : forall c, circ_ok c ->
  let c' := fold_left ack_reliable_packet ids c in
  circ_ok c' /\ c_host c' = c_host c /\ c_trusted c' = c_trusted c /\ c_acks c' = c_acks c /\
  c_last_out c' = c_last_out c /\
  (forall n, In n (map fst (c_unacked c')) <-> In n (map fst (c_unacked c)) /\ ~ In n ids) /\
  ((forall n, In n ids -> ~ In n (map fst (c_unacked c))) -> c' = c).
Proof.
  induction ids as [|id ids IH]; intros c K; cbn [fold_left].
  - cbn. tauto.
  - destruct (ack_one_spec c id K) as (K1 & H1 & T1 & A1 & L1 & I1 & S1).
    destruct (IH _ K1) as (K2 & H2 & T2 & A2 & L2 & I2 & S2).
    cbn zeta in *. rewrite H2, T2, A2, L2, H1, T1, A1, L1.
    split; [exact K2|]. do 4 (split; [reflexivity|]). split.
    + intros n. rewrite I2, I1. cbn [In]. split; [intros [[H N1] N2]; split; [exact H|intros [->|H']; auto]|].
      intros [H N]. split; [split; [exact H|]|]; intros E; apply N; auto.
    + intros N. assert (ack_reliable_packet c id = c) as E by (apply S1, N; now left).
      rewrite E in *. apply S2. intros n I. apply N. now right.
Qed.

Lemma handle_packet_spec c m : circ_ok c -> 0 <= m_id m < 2 ^ 32 ->
  let c' := handle_packet c m in
  circ_ok c' /\ c_host c' = c_host c /\ c_trusted c' = c_trusted c /\
  c_acks c' = c_acks c ++ (if m_reliable m then [m_id m] else []) /\
  c_last_out c' = c_last_out c /\
  (forall n, In n (map fst (c_unacked c')) <-> In n (map fst (c_unacked c)) /\ ~ In n (m_acks m)).
Proof.
  intros K R. unfold handle_packet. destruct (ack_all_spec (m_acks m) c K) as (K1 & H1 & T1 & A1 & L1 & I1 & _).
  cbn zeta in *. set (c1 := fold_left ack_reliable_packet (m_acks m) c) in *. destruct (m_reliable m).
  - cbn. rewrite A1. repeat split; try assumption; try apply I1; auto.
    + apply (ok_final _ K1).
    + apply (ok_count _ K1).
    + apply (ok_nodup _ K1).
    + now apply (ok_range _ K1).
    + now apply (ok_range _ K1).
    + apply (ok_last _ K1).
    + cbn. rewrite A1. apply Forall_app. split; [exact (ok_acks _ K)|]. constructor; [exact R|constructor].
    + apply (ok_alive _ K1).
    + apply (ok_in _ K1).
  - rewrite app_nil_r. auto 8.
Qed.

Lemma collect_ok c n : circ_ok c -> 0 <= n < 2 ^ 32 -> circ_ok (collect_ack c n).
Proof.
  intros K R. destruct K as [K1 K2 K3 K4 K5 K6 K7 K8]. constructor; cbn; auto. apply Forall_app. split; [exact K6|]. constructor; [exact R|constructor].
Qed.

(** receive_check, case by case. *)
Inductive received (env : denv) (st : dstate) (c : circuit) (buf : bytes) : circuit -> rout -> Prop :=
| rc_error e : deserialize (deser_conf env st) buf = Err e ->
    received env st c buf c {| r_res := Err e; r_calls := [] |}
| rc_short e : deserialize (deser_conf env st) buf = Ok None -> sequence_number buf = None ->
    e = match buf with [] => IndexErr | _ => DataUnpackingErr end ->
    received env st c buf c {| r_res := Err e; r_calls := [] |}
| rc_skipped n : deserialize (deser_conf env st) buf = Ok None -> sequence_number buf = Some n ->
    received env st c buf (collect_ack c n) {| r_res := Ok None; r_calls := [] |}
| rc_refused m : deserialize (deser_conf env st) buf = Ok (Some m) -> c_trusted c = true ->
    received env st c buf c {| r_res := Ok None; r_calls := [] |}
| rc_parsed m : deserialize (deser_conf env st) buf = Ok (Some m) -> c_trusted c = false ->
    received env st c buf (handle_packet c m)
      (if e_handle env then
         {| r_res := match snd (handle (e_cb env) (s_handler st) m) with Some e => Err e | None => Ok (Some m) end;
            r_calls := map (fun s => (s, m)) (fst (handle (e_cb env) (s_handler st) m)) |}
       else {| r_res := Ok (Some m); r_calls := [] |}).

Lemma received_ok env st c buf c' r : circ_ok c -> received env st c buf c' r -> circ_ok c' /\
  c_host c' = c_host c /\ c_trusted c' = c_trusted c /\ c_last_out c' = c_last_out c.
Proof.
  intros K [e D|e D S _|n D S|m D T|m D T]; auto.
  - split; [|auto]. apply collect_ok; [exact K|]. eapply seq_range; eauto.
  - destruct (deserialize_header _ _ _ D) as (S & _). apply seq_range in S.
    destruct (handle_packet_spec c m K S) as (K1 & H1 & T1 & A1 & L1 & I1). auto.
Qed.

Lemma receive_spec env st href buf size a : inv st -> host_address st href = Some a -> 0 < size ->
  exists st' r c', receive_check env st href buf size = (st', r) /\
    received env st (cur st href a) buf c' r /\
    circ st' a = Some c' /\ (forall b, b <> a -> circ st' b = circ st b) /\
    s_hosts st' = s_hosts st /\ s_msgs st' = s_msgs st /\ s_handler st' = s_handler st /\
    s_in st' = s_in st + 1 /\ s_out st' = s_out st /\ inv st'.
Proof.
  intros I NH SZ. unfold receive_check. unfold host_address in NH. rewrite NH.
  destruct (Z.leb_spec size 0) as [L|_]; [lia|].
  pose proof (find_circuit_spec st href a) as FC. destruct (find_circuit st href a) as [st1 c].
  destruct FC as (-> & C1 & CO & H1 & M1 & U1 & HD1 & IN1 & OUT1 & _ & N1).
  set (c := cur st href a) in *.
  pose proof (cur_ok st href a I : circ_ok c) as K.
  set (st2 := set_counts st1 (s_in st1 + 1) (s_out st1)).
  assert (deser_conf env st2 = deser_conf env st) as -> by (unfold deser_conf; cbn; now rewrite HD1).
  assert (forall c', circ_ok c' -> let st3 := put_circuit st2 a c' in
    circ st3 a = Some c' /\ (forall b, b <> a -> circ st3 b = circ st b) /\
    s_hosts st3 = s_hosts st /\ s_msgs st3 = s_msgs st /\ s_handler st3 = s_handler st /\
    s_in st3 = s_in st + 1 /\ s_out st3 = s_out st /\ inv st3) as PUT.
  { intros c' K'. assert (forall b, b <> a -> circ (put_circuit st2 a c') b = circ st b) as CO3.
    { intros b N. rewrite put_other by exact N. now apply CO. }
    split; [apply put_same|]. split; [exact CO3|]. cbn. rewrite H1, M1, HD1, IN1, OUT1. do 5 (split; [reflexivity|]).
    constructor.
    - intros b c2 H. destruct (addr_dec b a) as [->|N].
      + rewrite put_same in H. injection H as <-. exact K'.
      + rewrite CO3 in H by exact N. exact (inv_circ _ I _ _ H).
    - cbn. apply (dset_nodup _ addr_eqb_spec). apply N1, (inv_keys _ I).
    - cbn. rewrite U1. apply (inv_unackedc _ I). }
  assert (circ st2 a = Some c /\ (forall b, b <> a -> circ st2 b = circ st b) /\
    s_hosts st2 = s_hosts st /\ s_msgs st2 = s_msgs st /\ s_handler st2 = s_handler st /\
    s_in st2 = s_in st + 1 /\ s_out st2 = s_out st /\ inv st2) as SAME.
  { split; [exact C1|]. split; [exact CO|]. cbn. rewrite H1, M1, HD1, IN1, OUT1. do 5 (split; [reflexivity|]).
    constructor.
    - intros b c2 H. destruct (addr_dec b a) as [->|N].
      + change (circ st2 a) with (circ st1 a) in H. rewrite C1 in H. injection H as <-. exact K.
      + change (circ st2 b) with (circ st1 b) in H. rewrite CO in H by exact N. exact (inv_circ _ I _ _ H).
    - cbn. apply N1, (inv_keys _ I).
    - cbn. rewrite U1. apply (inv_unackedc _ I). }
  destruct (deserialize (deser_conf env st) buf) as [[m|]|e] eqn:D.
  - destruct (deserialize_header _ _ _ D) as (S & TR & _). rewrite TR. cbn [negb]. rewrite andb_true_r.
    destruct (c_trusted c) eqn:T.
    + exists st2, {| r_res := Ok None; r_calls := [] |}, c.
      split; [reflexivity|]. split; [now apply rc_refused with m|exact SAME].
    + pose proof (received_ok env st c buf _ _ K (rc_parsed env st c buf m D T)) as (K' & _).
      specialize (PUT _ K').
      assert (s_handler (put_circuit st2 a (handle_packet c m)) = s_handler st) as -> by (cbn; exact HD1).
      pose proof (rc_parsed env st c buf m D T) as RP.
      destruct (e_handle env); [destruct (handle (e_cb env) (s_handler st) m) as [calls e]|];
        do 3 eexists; (split; [reflexivity|]); (split; [exact RP|exact PUT]).
  - assert ((do _ <- pyindex buf 0; unpack_z buf MVT_U32 1 (Some BE)) =
            match sequence_number buf with
            | Some n => Ok n
            | None => Err match buf with [] => IndexErr | _ => DataUnpackingErr end
            end) as ->.
    { destruct buf as [|f r]; [reflexivity|]. change (pyindex (f :: r) 0) with (@Ok byte f). cbn [bind]. apply id_read. }
    destruct (sequence_number buf) as [n|] eqn:S.
    + exists (put_circuit st2 a (collect_ack c n)), {| r_res := Ok None; r_calls := [] |}, (collect_ack c n).
      split; [reflexivity|]. split; [now apply rc_skipped|]. apply PUT.
      apply collect_ok; [exact K|]. eapply seq_range; eauto.
    + exists st2, {| r_res := Err match buf with [] => IndexErr | _ => DataUnpackingErr end; r_calls := [] |}, c.
      split; [reflexivity|]. split; [now apply rc_short|exact SAME].
  - exists st2, {| r_res := Err e; r_calls := [] |}, c. split; [reflexivity|]. split; [now apply rc_error|exact SAME].
Qed.

Lemma receive_nothing env st href buf size :
  host_address st href = None \/ size <= 0 -> exists r, receive_check env st href buf size = (st, r) /\
    r_calls r = [] /\ accepts env st href buf size = None /\ (host_address st href <> None -> r_res r = Ok None).
Proof.
  unfold receive_check, accepts, host_address. intros H. destruct (nth_error (s_hosts st) href) as [a|].
  - destruct H as [H|H]; [discriminate|]. destruct (Z.leb_spec size 0); [|lia].
    destruct (Z.ltb_spec 0 size); [lia|]. eauto 6.
  - eexists. split; [reflexivity|]. split; [reflexivity|]. split; [reflexivity|congruence].
Qed.

(** ** Flushing the acks *)
Lemma ack_message_spec ids : m_name (ack_message ids) = "PacketAck"%string /\ m_acks (ack_message ids) = [] /\
  m_blocks (ack_message ids) = match ids with [] => [] | _ => [("Packets"%string, map ack_block ids)] end.
Proof.
  unfold ack_message. induction ids as [|i ids IH] using rev_ind; [auto|].
  rewrite fold_left_app. cbn [fold_left]. destruct IH as (A & B & C).
  set (m := fold_left (fun m id => msg_add_block m (ack_block id)) ids (mk_message "PacketAck" [])) in *.
  cbn [msg_add_block set_blocks m_name m_acks m_blocks]. split; [exact A|]. split; [exact B|]. rewrite C.
  destruct ids as [|j ids]; [reflexivity|].
  cbn [app]. rewrite (map_app ack_block (j :: ids) [i] : map ack_block (j :: ids ++ [i]) = _). reflexivity.
Qed.
(** A message whose entries all print as byte strings can be printed. *)
Definition prints_bytes (b : block) : Prop :=
  Forall (fun n => exists v s, sget n (b_vars b) = Some v /\ var_text (fun _ => []) v = Ok (TStr s)) (b_list b).
Lemma add_vars_bytes b names : Forall (fun n => exists v s, sget n (b_vars b) = Some v /\ var_text (fun _ => []) v = Ok (TStr s)) names ->
  forall s, exists t, add_vars (fun _ => []) b names (TStr s) = Ok (TStr t).
Proof.
  induction 1 as [|n names (v & x & G & V) F IH]; intros s; [now exists s|]. cbn [add_vars]. unfold get_variable. rewrite G. cbn [bind].
  rewrite V. cbn [bind join]. apply IH.
Qed.
Lemma add_instances_bytes l : Forall prints_bytes l -> forall s, exists t, add_instances (fun _ => []) l (TStr s) = Ok (TStr t).
Proof.
  induction 1 as [|b l B F IH]; intros s; [now exists s|]. cbn [add_instances].
  destruct (add_vars_bytes b (b_list b) B s) as (t & ->). cbn [bind]. apply IH.
Qed.
Lemma add_blocks_bytes d : Forall (fun kl : string * list block => Forall prints_bytes (snd kl)) d ->
  forall s, exists t, add_blocks (fun _ => []) d (TStr s) = Ok (TStr t).
Proof.
  induction 1 as [|[k l] d B F IH]; intros s; [now exists s|]. cbn [add_blocks join bind].
  destruct (add_instances_bytes l B (s ++ (delim ++ bytes_of_string "Block Name:" ++ delim ++ bytes_of_string k ++ [x0a]))) as (t & ->).
  cbn [bind]. apply IH.
Qed.
Lemma prints_bytes_ok m : Forall (fun kl : string * list block => Forall prints_bytes (snd kl)) (m_blocks m) -> msg_str_error m = None.
Proof.
  intros F. unfold msg_str_error, data_text. cbn [join bind].
  match goal with |- context [add_blocks _ _ (TStr ?s)] => destruct (add_blocks_bytes _ F s) as (t & ->) end. reflexivity.
Qed.
Lemma ack_printable m ids : m_blocks m = match ids with [] => [] | _ => [("Packets"%string, map ack_block ids)] end ->
  msg_str_error m = None.
Proof.
  intros E. apply prints_bytes_ok. rewrite E. assert (Forall prints_bytes (map ack_block ids)) as X.
  { clear. induction ids as [|i ids IH]; constructor; [|exact IH]. constructor; [|constructor]. eexists _, _. split; reflexivity. }
  destruct ids; constructor; [exact X|constructor].
Qed.
Lemma ack_acknowledges m ids : ids <> [] -> m_name m = "PacketAck"%string -> m_flags m = 0 -> m_acks m = [] ->
  m_blocks m = m_blocks (ack_message ids) -> acknowledges m ids.
Proof.
  intros N A B C E. destruct (ack_message_spec ids) as (_ & _ & D). rewrite D in E.
  repeat (split; [assumption|]). exists (map ack_block ids). split; [rewrite E; destruct ids; [congruence|reflexivity]|].
  clear. induction ids as [|i ids IH]; cbn; constructor; auto.
Qed.

Definition with_msg (st : dstate) (m : message) : dstate := set_msgs st (s_msgs st ++ [m]).
Lemma effect_new st m xs st' : effect (with_msg st m) xs st' -> effect st xs st'.
Proof. intros [A1 A2 A3 A4 A5 A6 AV A7 A8]. constructor; try assumption. Qed.

Lemma contain_ok e m : msg_str_error m = None -> contain e m = Ok None.
Proof. intros H. unfold contain. rewrite H. now destruct e. Qed.

Lemma send_ack env st ids href sock t st' o : inv st -> host_address st href = Some t -> ids <> [] ->
  send_new env st (ack_message ids) href sock = (st', o) ->
  effect st (o_sends o) st' /\
  if host_ok t
  then match out_error env st (ack_message ids) with
       | Some e => o_res o = Err e /\ o_sends o = []
       | None => (exists r, o_res o = Ok r) /\
                 exists x, o_sends o = [x] /\ at_addr x = t /\ acknowledges (at_msg x) ids
       end
  else o_sends o = [] /\ o_res o = Ok None.
Proof.
  intros I NH NE H. unfold send_new in H. fold (with_msg st (ack_message ids)) in H.
  assert (inv (with_msg st (ack_message ids))) as I1.
  { constructor; [exact (inv_circ _ I)|exact (inv_keys _ I)|exact (inv_unackedc _ I)]. }
  split; [apply effect_new with (ack_message ids); eapply send_effect; eauto|].
  set (m := ack_message ids) in *. set (st1 := with_msg st m) in *.
  assert (nth_error (s_msgs st1) (List.length (s_msgs st)) = Some m) as NM.
  { cbn. rewrite nth_error_app2 by lia. now rewrite Nat.sub_diag. }
  assert (nth_error (s_hosts st1) href = Some t) as NH1 by exact NH.
  destruct (host_ok t) eqn:HO.
  - change (out_error env st m) with (out_error env st1 m). destruct (out_error env st1 m) as [e|] eqn:OE.
    + destruct (send_nothing env st1 (List.length (s_msgs st)) href Plain sock) as (o' & E & S & _ & R).
      { rewrite NH1, NM. right. eauto. }
      rewrite E in H. injection H as <- <-. rewrite (R t m e NH1 HO NM OE). auto.
    + destruct (send_detail env st1 _ href Plain sock t m I1 NH1 NM HO OE)
        as (st2 & x & c' & E & AA & AD & MN & MB & _ & FL & AC & _).
      rewrite E in H. injection H as <- <-. cbn [o_res o_sends].
      destruct (ack_message_spec ids) as (N1 & N2 & N3).
      assert (piggyback (cur st1 href t) m = false) as PB.
      { unfold piggyback. unfold m. rewrite N1. apply andb_false_r. }
      rewrite PB in *. split.
      * destruct (at_data x); [eauto|]. exists None. apply contain_ok. apply ack_printable with ids. rewrite MB. exact N3.
      * exists x. split; [reflexivity|]. split; [exact AA|]. apply ack_acknowledges; [exact NE|now rewrite MN|exact FL| |exact MB].
        rewrite AC. unfold m. rewrite N2. reflexivity.
  - destruct (send_nothing env st1 (List.length (s_msgs st)) href Plain sock) as (o' & E & S & R & _).
    { rewrite NH1, NM. now left. }
    rewrite E in H. injection H as <- <-. rewrite (R t NH1 HO) by congruence. auto.
Qed.

Definition sends_acks (t : addr) (ids : list Z) (xs : list attempt) : Prop := acks_sent t ids xs.

Lemma packs_cons p ids parts : zlen p = 251 -> packs ids parts -> packs (p ++ ids) (p :: parts).
Proof.
  intros L (E & F & R). split; [cbn; congruence|]. split; [constructor; [lia|exact F]|].
  destruct parts as [|q parts]; [constructor|]. change (removelast (p :: q :: parts)) with (p :: removelast (q :: parts)).
  constructor; assumption.
Qed.

Lemma flush_spec env sock href t : forall ids cur st st' o, inv st -> host_address st href = Some t -> zlen cur <= 250 ->
  flush_acks env sock href ids cur st = (st', o) ->
  effect st (o_sends o) st' /\
  (forall r, o_res o = Ok r -> acks_sent t (cur ++ ids) (o_sends o)) /\
  (outgoing_quiet env st -> exists r, o_res o = Ok r) /\
  (Forall (fun x => at_addr x = t /\ exists p, acknowledges (at_msg x) p) (o_sends o)).
Proof.
  induction ids as [|id ids IH]; intros cur st st' o I NH LC H; cbn [flush_acks] in H.
  - rewrite app_nil_r. destruct (Z.ltb_spec 0 (zlen cur)) as [L|L].
    + assert (cur <> []) as NE by (intros ->; cbn in L; lia).
      destruct (send_ack _ _ _ _ _ _ _ _ I NH NE H) as [EF R]. split; [exact EF|].
      unfold acks_sent. destruct (host_ok t).
      * destruct (out_error env st (ack_message cur)) as [e|] eqn:OE.
        -- destruct R as [R S]. rewrite R, S. split; [discriminate|]. split; [|constructor].
           intros Q. unfold out_error in OE. destruct (e_handle_out env) eqn:EO; [|discriminate].
           rewrite (Q EO) in OE. discriminate.
        -- destruct R as [R (x & S & A & K)]. rewrite S. split; [|split; [auto|constructor; [eauto|constructor]]].
           intros _ _. exists [cur]. split; [|constructor; [auto|constructor]].
           split; [cbn; now rewrite app_nil_r|]. split; [constructor; [lia|constructor]|constructor].
      * destruct R as [S R]. rewrite R, S. split; [auto|]. split; [eauto|constructor].
    + assert (cur = []) as -> by (destruct cur as [|x cur]; [reflexivity|rewrite zlen_cons in L; pose proof (zlen_nonneg cur); lia]).
      injection H as <- <-. cbn. split; [now apply effect_nil|]. split; [|split; [eauto|constructor]].
      intros _ _. unfold acks_sent. destruct (host_ok t); [|reflexivity]. exists []. split; [|constructor].
      split; [reflexivity|]. split; constructor.
  - assert (zlen (cur ++ [id]) = zlen cur + 1) as LL by (rewrite zlen_app; reflexivity).
    destruct (Z.ltb_spec 250 (zlen (cur ++ [id]))) as [L|L].
    + assert (cur ++ [id] <> []) as NE by (destruct cur; discriminate).
      destruct (send_new env st (ack_message (cur ++ [id])) href sock) as [st1 o1] eqn:E1.
      destruct (send_ack _ _ _ _ _ _ _ _ I NH NE E1) as [EF1 R1].
      destruct (o_res o1) as [r1|e1] eqn:O1.
      * destruct (flush_acks env sock href ids [] st1) as [st2 o2] eqn:E2. injection H as <- <-.
        assert (host_address st1 href = Some t) as NH1 by (unfold host_address; rewrite (ef_hosts _ _ _ EF1); exact NH).
        destruct (IH [] st1 st2 o2 (ef_inv _ _ _ EF1) NH1 ltac:(cbn; lia) E2) as (EF2 & R2 & Q2 & F2). cbn [app] in R2.
        cbn [app_out o_sends o_res].
        assert (outgoing_quiet env st -> outgoing_quiet env st1) as QQ.
        { intros Q EO m. rewrite (ef_handler _ _ _ EF1). now apply Q. }
        split; [eapply effect_app; eauto|].
        replace (cur ++ id :: ids) with ((cur ++ [id]) ++ ids) by (rewrite <- app_assoc; reflexivity).
        destruct (host_ok t) eqn:HO.
        -- destruct (out_error env st (ack_message (cur ++ [id]))) as [e|]; [destruct R1; congruence|].
           destruct R1 as [_ (x & S & A & K)]. rewrite S. split; [|split; [auto|constructor; eauto]].
           intros r Hr. specialize (R2 r Hr). unfold acks_sent in *. rewrite HO in *.
           destruct R2 as (parts & P & F). exists ((cur ++ [id]) :: parts). split.
           ++ apply packs_cons; [lia|exact P].
           ++ constructor; auto.
        -- destruct R1 as [S _]. rewrite S. split; [|auto]. intros r Hr. specialize (R2 r Hr).
           unfold acks_sent in *. rewrite HO in *. exact R2.
      * injection H as <- <-. split; [exact EF1|]. rewrite O1. split; [discriminate|].
        destruct (host_ok t).
        -- destruct (out_error env st (ack_message (cur ++ [id]))) as [e|] eqn:OE.
           ++ destruct R1 as [R1 S]. rewrite S. split; [|constructor].
              intros Q. unfold out_error in OE. destruct (e_handle_out env) eqn:EO; [|discriminate].
              rewrite (Q EO) in OE. discriminate.
           ++ destruct R1 as [(r & R1) _]. congruence.
        -- destruct R1 as [_ R1]. congruence.
    + destruct (IH (cur ++ [id]) st st' o I NH L H) as (A & B & C & D). rewrite <- app_assoc in B. cbn [app] in B. auto.
Qed.

(** ** All circuits *)
Record flushed (st : dstate) (keys : list addr) (xs : list attempt) (st' : dstate) : Prop := {
  fl_hosts : s_hosts st' = s_hosts st;
  fl_handler : s_handler st' = s_handler st;
  fl_in : s_in st' = s_in st;
  fl_old : forall a c, circ st a = Some c -> exists c', circ st' a = Some c' /\
             c_host c' = c_host c /\ c_trusted c' = c_trusted c /\
             (c_acks c' = c_acks c \/ In a keys /\ c_acks c' = []);
  fl_new : forall a c', circ st a = None -> circ st' a = Some c' -> c_acks c' = [] /\ c_trusted c' = false;
  fl_out : forall a, ~ In a keys -> ~ In a (map at_addr xs) -> circ st' a = circ st a;
  fl_valid : hosts_valid st -> hosts_valid st';
  fl_inv : inv st';
  fl_ledger : forall tr, ledger tr st -> ledger (tr ++ map Attempted xs) st' }.

Lemma flushed_nil st : inv st -> flushed st [] [] st.
Proof.
  intros I. constructor; auto.
  - intros a c H. exists c. auto.
  - intros a c' H H'. congruence.
  - intros tr L. now rewrite app_nil_r.
Qed.
Lemma flushed_effect st xs st1 : effect st xs st1 -> flushed st [] xs st1.
Proof.
  intros [A1 A2 A3 A4 A5 A6 AV A7 A8]. constructor; auto.
  intros a c H. destruct (A4 a c H) as (c' & B1 & B2 & B3 & B4). exists c'. auto.
Qed.
Lemma flushed_weaken st ks ks' xs st1 : incl ks ks' -> flushed st ks xs st1 -> flushed st ks' xs st1.
Proof.
  intros S [A1 A2 A3 A4 A5 A6 AV A7 A8]. constructor; auto.
  intros a c H. destruct (A4 a c H) as (c' & B1 & B2 & B3 & B4). exists c'.
  split; [exact B1|]. split; [exact B2|]. split; [exact B3|]. destruct B4 as [B4|[B4 B5]]; auto.
Qed.
Lemma flushed_app st ks xs st1 ys st2 : flushed st ks xs st1 -> flushed st1 ks ys st2 -> flushed st ks (xs ++ ys) st2.
Proof.
  intros [A1 A2 A3 A4 A5 A6 AV A7 A8] [B1 B2 B3 B4 B5 B6 BV B7 B8].
  constructor; [congruence|congruence|congruence|..]; auto.
  - intros a c H. destruct (A4 a c H) as (c1 & C1 & E1 & E2 & E3). destruct (B4 a c1 C1) as (c2 & C2 & F1 & F2 & F3).
    exists c2. split; [exact C2|]. split; [congruence|]. split; [congruence|].
    destruct F3 as [F3|F3]; [|now right]. destruct E3 as [E3|[E3 E4]]; [left; congruence|right; split; [exact E3|congruence]].
  - intros a c' H H'. destruct (circ st1 a) as [c1|] eqn:C1.
    + destruct (A5 a c1 H C1) as [G1 G2]. destruct (B4 a c1 C1) as (c2 & C2 & F1 & F2 & F3).
      rewrite H' in C2. injection C2 as <-. split; [|congruence]. destruct F3 as [F3|[_ F3]]; congruence.
    + now apply B5 with a.
  - intros a N N'. rewrite map_app, in_app_iff in N'. rewrite B6, A6 by tauto. reflexivity.
  - intros tr L. rewrite map_app, app_assoc. now apply B8, A8.
Qed.

Lemma clear_spec st k : inv st -> flushed st [k] [] (clear_acks st k) /\ pending_acks (clear_acks st k) k = [].
Proof.
  intros I. unfold clear_acks. fold (circ st k). destruct (circ st k) as [c|] eqn:C.
  - set (st1 := put_circuit st k (set_acks c [])).
    assert (circ st1 k = Some (set_acks c [])) as C1 by apply put_same.
    assert (forall b, b <> k -> circ st1 b = circ st b) as CO by (intros b N; now apply put_other).
    split; [|unfold pending_acks; rewrite C1; reflexivity].
    constructor; try reflexivity.
    + intros a c0 H. destruct (addr_dec a k) as [->|N].
      * rewrite C in H. injection H as <-. exists (set_acks c []). cbn. auto 8.
      * exists c0. rewrite CO by exact N. auto.
    + intros a c' H H'. destruct (addr_dec a k) as [->|N]; [congruence|]. rewrite CO in H' by exact N. congruence.
    + intros a N _. apply CO. intros ->. apply N. now left.
    + intros V a c0 H. destruct (addr_dec a k) as [->|N].
      * rewrite C1 in H. injection H as <-. exact (V _ _ C).
      * rewrite CO in H by exact N. exact (V _ _ H).
    + constructor.
      * intros a c0 H. destruct (addr_dec a k) as [->|N].
        -- rewrite C1 in H. injection H as <-. destruct (inv_circ _ I _ _ C) as [K1 K2 K3 K4 K5 K6]. constructor; cbn; auto.
        -- rewrite CO in H by exact N. exact (inv_circ _ I _ _ H).
      * cbn. apply (dset_nodup _ addr_eqb_spec). apply (inv_keys _ I).
      * exact (inv_unackedc _ I).
    + intros tr L. cbn [map]. rewrite app_nil_r. apply ledger_view with st; [|exact L].
      intros a. unfold last_id, outstanding. destruct (addr_dec a k) as [->|N]; [rewrite C1, C|rewrite CO by exact N]; auto.
  - split; [|unfold pending_acks; rewrite C; reflexivity]. apply flushed_weaken with []; [intros x []|]. now apply flushed_nil.
Qed.

Lemma pending_kept st ks xs st' a : flushed st ks xs st' -> pending_acks st a = [] -> pending_acks st' a = [].
Proof.
  intros F H. unfold pending_acks in *. destruct (circ st a) as [c|] eqn:C.
  - destruct (fl_old _ _ _ _ F a c C) as (c' & -> & _ & _ & [E|[_ E]]); congruence.
  - destruct (circ st' a) as [c'|] eqn:C'; [|reflexivity]. now destruct (fl_new _ _ _ _ F a c' C C').
Qed.

Definition for_circuit (st : dstate) (k : addr) (xs : list attempt) : Prop :=
  exists c t, circ st k = Some c /\ host_address st (c_host c) = Some t /\ acks_sent t (c_acks c) xs.

Lemma send_acks_spec env sock : forall keys st st' o, inv st -> hosts_valid st -> NoDup keys ->
  (forall k, In k keys -> circ st k <> None) ->
  send_acks env sock keys st = (st', o) ->
  flushed st keys (o_sends o) st' /\
  (forall r, o_res o = Ok r -> (forall k, In k keys -> pending_acks st' k = []) /\
     exists groups, o_sends o = List.concat groups /\ Forall2 (for_circuit st) keys groups) /\
  (outgoing_quiet env st -> exists r, o_res o = Ok r) /\
  Forall (fun x => exists p, acknowledges (at_msg x) p) (o_sends o).
Proof.
  induction keys as [|k keys IH]; intros st st' o I V ND IN H; cbn [send_acks] in H.
  - injection H as <- <-. cbn. split; [now apply flushed_nil|]. split; [|split; [eauto|constructor]].
    intros r _. split; [intros k []|]. exists []. split; [reflexivity|constructor].
  - fold (circ st k) in H. destruct (circ st k) as [c|] eqn:C; [|exfalso; apply (IN k); [now left|exact C]].
    inversion ND as [|? ? NI ND']; subst.
    destruct (flush_acks env sock (c_host c) (c_acks c) [] st) as [st1 o1] eqn:E1.
    destruct (host_address st (c_host c)) as [t|] eqn:NH; [|now apply V in C].
    destruct (flush_spec env sock (c_host c) t _ [] _ _ _ I NH ltac:(cbn; lia) E1) as (EF & R1 & Q1 & F1). cbn [app] in R1.
    assert (Forall (fun x => exists p, acknowledges (at_msg x) p) (o_sends o1)) as F1'.
    { eapply Forall_impl; [|exact F1]. cbn. tauto. }
    pose proof (flushed_weaken st [] (k :: keys) _ _ ltac:(intros x []) (flushed_effect _ _ _ EF)) as FL1.
    destruct (o_res o1) as [r1|e1] eqn:O1.
    + destruct (send_acks env sock keys (clear_acks st1 k)) as [st3 o3] eqn:E3. injection H as <- <-.
      destruct (clear_spec st1 k (ef_inv _ _ _ EF)) as [FL2 PK].
      set (st2 := clear_acks st1 k) in *.
      assert (flushed st (k :: keys) (o_sends o1) st2) as FL12.
      { rewrite <- (app_nil_r (o_sends o1)). eapply flushed_app; [exact FL1|].
        apply flushed_weaken with [k]; [|exact FL2]. intros x [->|[]]. now left. }
      assert (forall k', In k' keys -> circ st2 k' <> None) as IN2.
      { intros k' H. destruct (circ st k') as [c'|] eqn:C'; [|exfalso; apply (IN k'); [now right|exact C']].
        destruct (fl_old _ _ _ _ FL12 k' c' C') as (c2 & C2 & _). congruence. }
      destruct (IH st2 st3 o3 (fl_inv _ _ _ _ FL12) (fl_valid _ _ _ _ FL12 V) ND' IN2 E3) as (FL3 & R3 & Q3 & F3).
      cbn [app_out o_sends o_res].
      pose proof (flushed_weaken _ keys (k :: keys) _ _ ltac:(intros x Hx; now right) FL3) as FL3'.
      split; [eapply flushed_app; eauto|]. split; [|split].
      * intros r Hr. destruct (R3 r Hr) as [P3 (groups & G1 & G2)]. split.
        -- intros k' [<-|H]; [|now apply P3]. eapply pending_kept; [exact FL3|exact PK].
        -- exists (o_sends o1 :: groups). split; [cbn; congruence|]. constructor.
           ++ exists c, t. split; [exact C|]. split; [exact NH|]. now apply R1 with r1.
           ++ assert (forall k', In k' keys -> circ st k' <> None) as IN' by (intros k' X; apply IN; now right).
              clear - G2 FL2 EF NI IN'. induction G2 as [|k' g keys groups G _ IH']; [constructor|].
              constructor; [|apply IH'; [intros X; apply NI; now right|intros x X; apply IN'; now right]].
              destruct G as (c2 & t2 & C2 & N2 & S2).
              assert (k' <> k) as NK by (intros ->; apply NI; now left).
              assert (circ st2 k' = circ st1 k') as E.
              { apply (fl_out _ _ _ _ FL2); [intros [->|[]]; congruence|intros []]. }
              rewrite E in C2. destruct (circ st k') as [c'|] eqn:C'.
              ** destruct (ef_old _ _ _ EF k' c' C') as (c1 & C1 & E1 & E2 & _). rewrite C2 in C1. injection C1 as <-.
                 exists c', t2. split; [exact C'|]. rewrite <- E1, <- E2. split; [|exact S2].
                 unfold host_address in *. rewrite <- (ef_hosts _ _ _ EF). rewrite <- (fl_hosts _ _ _ _ FL2). exact N2.
              ** exfalso. apply (IN' k'); [now left|exact C'].
      * intros Q. apply Q3. intros EO m. rewrite (fl_handler _ _ _ _ FL12). now apply Q.
      * apply Forall_app. auto.
    + injection H as <- <-. split; [exact FL1|]. rewrite O1. split; [discriminate|]. split; [|exact F1'].
      intros Q. destruct (Q1 Q) as (r & Hr). congruence.
Qed.

(** ** The iteration order *)
Lemma amem_spec a l : amem a l = true <-> In a l.
Proof.
  induction l as [|b l IH]; cbn; [split; [discriminate|intros []]|]. rewrite orb_true_iff, addr_eqb_spec, IH.
  split; intros [H|H]; auto.
Qed.
Lemma adedup_spec l : NoDup (adedup l) /\ forall a, In a (adedup l) <-> In a l.
Proof.
  induction l as [|b l [ND IN]]; cbn [adedup]; [split; [constructor|tauto]|]. split.
  - constructor; [|now apply NoDup_filter]. rewrite filter_In, addr_eqb_refl. cbn. intros [_ H]. discriminate.
  - intros a. cbn [In]. rewrite filter_In, IN. destruct (addr_dec b a) as [->|N]; [tauto|].
    rewrite addr_eqb_neq by exact N. cbn. tauto.
Qed.
Lemma nodup_app' {A} (l1 l2 : list A) : NoDup l1 -> NoDup l2 -> (forall x, In x l1 -> ~ In x l2) -> NoDup (l1 ++ l2).
Proof.
  induction l1 as [|a l1 IH]; cbn; [auto|]. intros N1 N2 D. inversion N1; subst. constructor.
  - rewrite in_app_iff. intros [H|H]; [contradiction|]. apply (D a); auto.
  - apply IH; auto.
Qed.
Lemma arrange_perm order keys : NoDup keys -> Permutation (arrange order keys) keys.
Proof.
  intros N. destruct (adedup_spec order) as [ND IN]. apply NoDup_Permutation; [|exact N|].
  - unfold arrange. apply nodup_app'; [now apply NoDup_filter|now apply NoDup_filter|].
    intros x H1 H2. apply filter_In in H1 as [H1 _]. apply filter_In in H2 as [_ H2]. apply IN in H1.
    apply amem_spec in H1. rewrite H1 in H2. discriminate.
  - intros x. unfold arrange. rewrite in_app_iff, !filter_In, IN, amem_spec. split; [intros [[_ H]|[H _]]; exact H|].
    intros H. destruct (amem x order) eqn:E; [left; split; [now apply amem_spec|exact H]|right; auto].
Qed.

Lemma key_circ st a : In a (dkeys (s_circuits st)) <-> circ st a <> None.
Proof.
  unfold circuit_of, get_circuit. rewrite (dget_None _ addr_eqb_spec). split; [tauto|].
  intros H. rewrite <- (dmem_In _ addr_eqb_spec). destruct (dmem addr_eqb a (s_circuits st)) eqn:E; [reflexivity|].
  exfalso. apply H. intros I. apply (dmem_In _ addr_eqb_spec) in I. congruence.
Qed.

Lemma process_spec env st order sock st' o : inv st -> hosts_valid st ->
  process_acks env st order sock = (st', o) ->
  let keys := arrange order (dkeys (s_circuits st)) in
  flushed st keys (o_sends o) st' /\ NoDup keys /\ (forall a, In a keys <-> circ st a <> None) /\
  (forall r, o_res o = Ok r -> r = None /\ (forall a, pending_acks st' a = []) /\
     exists groups, o_sends o = List.concat groups /\ Forall2 (for_circuit st) keys groups) /\
  (outgoing_quiet env st -> o_res o = Ok None) /\
  Forall (fun x => exists p, acknowledges (at_msg x) p) (o_sends o).
Proof.
  intros I V H keys. unfold process_acks in H. rewrite (inv_unackedc _ I) in H. cbn [resend_all] in H.
  fold keys in H. pose proof (arrange_perm order _ (inv_keys _ I)) as P. fold keys in P.
  assert (NoDup keys) as ND by (eapply Permutation_NoDup; [symmetry; exact P|apply (inv_keys _ I)]).
  assert (forall a, In a keys <-> circ st a <> None) as IN.
  { intros a. rewrite <- key_circ. split; apply Permutation_in; [exact P|symmetry; exact P]. }
  destruct (send_acks env sock keys st) as [st1 o1] eqn:E. injection H as <- <-. cbn [o_res o_sends].
  destruct (send_acks_spec env sock keys st st1 o1 I V ND (fun k H => proj1 (IN k) H) E) as (FL & R & Q & F).
  split; [exact FL|]. split; [exact ND|]. split; [exact IN|]. split; [|split; [|exact F]].
  - intros r Hr. destruct (o_res o1) as [r1|e1]; [|discriminate]. injection Hr as <-. split; [reflexivity|].
    destruct (R r1 eq_refl) as [PK G]. split; [|exact G]. intros a. destruct (circ st a) as [c|] eqn:C.
    + apply PK, IN. congruence.
    + unfold pending_acks. destruct (circ st1 a) as [c'|] eqn:C'; [|reflexivity]. now destruct (fl_new _ _ _ _ FL a c' C C').
  - intros QQ. destruct (Q QQ) as (r & ->). reflexivity.
Qed.

(** ** Every operation *)
Lemma ledger_accept tr st st' a m : ledger tr st ->
  last_id st' a = last_id st a ->
  (forall n, In n (outstanding st' a) <-> In n (outstanding st a) /\ ~ In n (m_acks m)) ->
  (forall b, b <> a -> circ st' b = circ st b) ->
  ledger (tr ++ [Accepted a m]) st'.
Proof.
  intros L LA O OTH b. rewrite since_snoc. cbn [removes]. rewrite attempts_app. cbn [attempts_to flat_map].
  rewrite app_nil_r. destruct (L b) as [L1 L2]. destruct (addr_dec b a) as [->|N].
  - rewrite LA. split; [exact L1|]. intros n. rewrite O, L2, unack_snoc. split.
    + intros [H Q]. left. split; [exact H|]. intros m' [= <-]. exact Q.
    + intros [[H Q]|(x & E & _)]; [|discriminate]. split; [exact H|]. now apply Q.
  - unfold last_id, outstanding. rewrite OTH by exact N. split; [exact L1|]. intros n. rewrite unack_snoc.
    unfold outstanding in L2. rewrite L2. split.
    + intros H. left. split; [exact H|]. intros m' [= -> _]. contradiction.
    + intros [[H _]|(x & E & _)]; [exact H|discriminate].
Qed.
Lemma ledger_remove tr st st' a : ledger tr st -> circ st' a = None -> (forall b, b <> a -> circ st' b = circ st b) ->
  ledger (tr ++ [Removed a]) st'.
Proof.
  intros L C OTH b. rewrite since_snoc. cbn [removes]. destruct (addr_dec b a) as [->|N].
  - rewrite addr_eqb_refl. unfold last_id, outstanding. rewrite C. split; [reflexivity|]. intros n. split; [intros []|].
    intros (t1 & x & t2 & E & _). destruct t1; discriminate.
  - rewrite addr_eqb_neq by exact N. destruct (L b) as [L1 L2]. rewrite attempts_app. cbn [attempts_to flat_map].
    rewrite app_nil_r. unfold last_id, outstanding. rewrite OTH by exact N. split; [exact L1|]. intros n.
    unfold outstanding in L2. rewrite L2, unack_snoc. split.
    + intros H. left. split; [exact H|discriminate].
    + intros [[H _]|(x & E & _)]; [exact H|discriminate].
Qed.

Record good (st : dstate) : Prop := { good_inv : inv st; good_hosts : hosts_valid st }.

Lemma update_nth_none {A} n (x : A) l k : nth_error (update_nth n x l) k = None <-> nth_error l k = None.
Proof.
  rewrite !nth_error_None. assert (List.length (update_nth n x l) = List.length l) as ->; [|tauto].
  revert l. induction n as [|n IH]; intros [|y l]; cbn; auto.
Qed.

Lemma accepts_spec env st href buf size a : host_address st href = Some a -> 0 < size ->
  accepts env st href buf size =
  match deserialize (deser_conf env st) buf with
  | Ok (Some m) => if c_trusted (cur st href a) then None else Some (a, m)
  | _ => None
  end.
Proof.
  intros NH SZ. unfold accepts. rewrite NH. destruct (Z.ltb_spec 0 size) as [_|]; [|lia].
  destruct (deserialize (deser_conf env st) buf) as [[m|]|e] eqn:D; try reflexivity.
  destruct (deserialize_header _ _ _ D) as (_ & -> & _). cbn [negb]. rewrite andb_true_r.
  unfold cur. destruct (circ st a); reflexivity.
Qed.

Lemma last_cur st href a : last_id st a = c_last_out (cur st href a).
Proof. unfold last_id, cur. now destruct (circ st a). Qed.
Lemma outstanding_cur st href a : outstanding st a = map fst (c_unacked (cur st href a)).
Proof. unfold outstanding, cur. now destruct (circ st a). Qed.
Lemma pending_cur st href a : pending_acks st a = c_acks (cur st href a).
Proof. unfold pending_acks, cur. now destruct (circ st a). Qed.

Lemma step_good env st o tr : good st -> ledger tr st ->
  good (fst (step env st o)) /\ ledger (tr ++ events env st o) (fst (step env st o)).
Proof.
  intros [I V] L. destruct o as [a|h a|m|r m|r|a b|mref href md sock|mref href|href buf size|order sock|a]; cbn [step fst].
  - cbn [events step snd]. rewrite app_nil_r. split; [|exact L]. split.
    + constructor; [exact (inv_circ _ I)|exact (inv_keys _ I)|exact (inv_unackedc _ I)].
    + intros k c H. unfold host_address. cbn. specialize (V k c H). unfold host_address in V.
      rewrite nth_error_None in *. rewrite app_length. lia.
  - cbn [events step snd]. rewrite app_nil_r. split; [|exact L]. split.
    + constructor; [exact (inv_circ _ I)|exact (inv_keys _ I)|exact (inv_unackedc _ I)].
    + intros k c H. unfold host_address. cbn. specialize (V k c H). unfold host_address in V.
      rewrite update_nth_none. exact V.
  - cbn [events step snd]. rewrite app_nil_r. split; [|exact L]. split; [|exact V].
    constructor; [exact (inv_circ _ I)|exact (inv_keys _ I)|exact (inv_unackedc _ I)].
  - cbn [events step snd]. rewrite app_nil_r. split; [|exact L]. split; [|exact V].
    constructor; [exact (inv_circ _ I)|exact (inv_keys _ I)|exact (inv_unackedc _ I)].
  - cbn [events step snd]. rewrite app_nil_r. split; [|exact L]. split; [|exact V].
    constructor; [exact (inv_circ _ I)|exact (inv_keys _ I)|exact (inv_unackedc _ I)].
  - cbn [events step snd]. rewrite app_nil_r. fold (circ st a). destruct (circ st a) as [c|] eqn:C; [|split; [split|]; assumption].
    set (st1 := put_circuit st a (set_trusted c b)).
    assert (circ st1 a = Some (set_trusted c b)) as C1 by apply put_same.
    assert (forall k, k <> a -> circ st1 k = circ st k) as CO by (intros k N; now apply put_other).
    split; [split; [constructor|]|].
    + intros k c0 H. destruct (addr_dec k a) as [->|N].
      * rewrite C1 in H. injection H as <-. destruct (inv_circ _ I _ _ C) as [K1 K2 K3 K4 K5 K6]. constructor; cbn; auto.
      * rewrite CO in H by exact N. exact (inv_circ _ I _ _ H).
    + cbn. apply (dset_nodup _ addr_eqb_spec). apply (inv_keys _ I).
    + exact (inv_unackedc _ I).
    + intros k c0 H. destruct (addr_dec k a) as [->|N].
      * rewrite C1 in H. injection H as <-. exact (V _ _ C).
      * rewrite CO in H by exact N. exact (V _ _ H).
    + apply ledger_view with st; [|exact L]. intros k. unfold last_id, outstanding.
      destruct (addr_dec k a) as [->|N]; [rewrite C1, C|rewrite CO by exact N]; auto.
  - unfold events. cbn [step]. destruct (send_message env st mref href md sock) as [st1 o1] eqn:E. cbn [fst snd].
    pose proof (send_effect _ _ _ _ _ _ _ _ I E) as EF. split; [split|].
    + exact (ef_inv _ _ _ EF).
    + exact (ef_valid _ _ _ EF V).
    + exact (ef_ledger _ _ _ EF tr L).
  - cbn [events step snd]. cbn. rewrite app_nil_r. split; [split|]; assumption.
  - cbn [events]. destruct (host_address st href) as [a|] eqn:NH.
    2: { destruct (receive_nothing env st href buf size) as (r & -> & _ & -> & _); [now left|]. cbn [fst]. rewrite app_nil_r.
         split; [split|]; assumption. }
    destruct (Z_le_gt_dec size 0) as [SZ|SZ].
    { destruct (receive_nothing env st href buf size) as (r & -> & _ & -> & _); [now right|]. cbn [fst]. rewrite app_nil_r.
      split; [split|]; assumption. }
    destruct (receive_spec env st href buf size a I NH ltac:(lia)) as (st1 & r & c' & E & RC & C1 & CO & H1 & M1 & HD1 & _ & _ & I1).
    rewrite E. cbn [fst]. rewrite (accepts_spec env st href buf size a NH ltac:(lia)).
    pose proof (cur_ok st href a I) as K.
    destruct (received_ok _ _ _ _ _ _ K RC) as (K' & RH & RT & RL).
    split; [split; [exact I1|]|].
    + intros k c0 H. unfold host_address. rewrite H1. destruct (addr_dec k a) as [->|N].
      * rewrite C1 in H. injection H as <-. rewrite RH. unfold cur. destruct (circ st a) as [c|] eqn:C; [exact (V _ _ C)|].
        cbn. unfold host_address in NH. congruence.
      * rewrite CO in H by exact N. exact (V _ _ H).
    + assert (map fst (c_unacked c') = map fst (c_unacked (cur st href a)) -> ledger tr st1) as SAME.
      { intros EU. apply ledger_view with st; [|exact L]. intros k. destruct (addr_dec k a) as [->|N].
        - rewrite (last_cur st href), (outstanding_cur st href). unfold last_id, outstanding. rewrite C1, RL, EU. auto.
        - unfold last_id, outstanding. rewrite CO by exact N. auto. }
      destruct RC as [e D|e D S _|n D S|m D T|m D T]; rewrite D; try (rewrite app_nil_r; apply SAME; reflexivity).
      * rewrite T, app_nil_r. apply SAME. reflexivity.
      * rewrite T. apply ledger_accept with st; [exact L| | |exact CO].
        -- rewrite (last_cur st href). unfold last_id. rewrite C1. exact RL.
        -- intros n. rewrite (outstanding_cur st href). unfold outstanding. rewrite C1.
           destruct (deserialize_header _ _ _ D) as (S & _). apply seq_range in S.
           apply (handle_packet_spec _ m K S).
  - unfold events. cbn [step]. destruct (process_acks env st order sock) as [st1 o1] eqn:E. cbn [fst snd].
    destruct (process_spec _ _ _ _ _ _ I V E) as (FL & _). split; [split|].
    + exact (fl_inv _ _ _ _ FL).
    + exact (fl_valid _ _ _ _ FL V).
    + exact (fl_ledger _ _ _ _ FL tr L).
  - cbn [events]. unfold remove_circuit_data. set (st1 := set_circuits st _).
    assert (circ st1 a = None /\ (forall b, b <> a -> circ st1 b = circ st b) /\ NoDup (dkeys (s_circuits st1))) as (C1 & CO & ND).
    { unfold circuit_of, get_circuit. cbn. destruct (dmem addr_eqb a (s_circuits st)) eqn:M.
      - split; [apply (dget_ddel_eq _ addr_eqb_spec), (inv_keys _ I)|]. split; [|apply ddel_nodup, (inv_keys _ I)].
        intros b N. now apply (dget_ddel_neq _ addr_eqb_spec).
      - split; [|split; [auto|apply (inv_keys _ I)]]. apply (dget_None _ addr_eqb_spec). intros H.
        apply (dmem_In _ addr_eqb_spec) in H. congruence. }
    split; [split; [constructor|]|].
    + intros k c0 H. destruct (addr_dec k a) as [->|N]; [congruence|]. rewrite CO in H by exact N. exact (inv_circ _ I _ _ H).
    + exact ND.
    + exact (inv_unackedc _ I).
    + intros k c0 H. destruct (addr_dec k a) as [->|N]; [congruence|]. rewrite CO in H by exact N. exact (V _ _ H).
    + now apply ledger_remove with st.
Qed.

Lemma good_init : good init_state.
Proof. split; [apply inv_init|]. intros a c H. discriminate. Qed.

Lemma run_fst env st o ops : fst (run env st (o :: ops)) = fst (run env (fst (step env st o)) ops).
Proof. cbn [run]. destruct (step env st o) as [st1 x]. cbn [fst]. destruct (run env st1 ops) as [st2 xs]. reflexivity. Qed.

Lemma run_good env ops : forall st tr, good st -> ledger tr st ->
  good (fst (run env st ops)) /\ ledger (tr ++ trace env st ops) (fst (run env st ops)).
Proof.
  induction ops as [|o ops IH]; intros st tr G L.
  - cbn. rewrite app_nil_r. auto.
  - rewrite run_fst. cbn [trace]. destruct (step_good env st o tr G L) as [G1 L1]. rewrite app_assoc. now apply IH.
Qed.
Lemma reachable_good env st : reachable env st -> good st.
Proof. intros (ops & ->). apply (run_good env ops init_state [] good_init ledger_init). Qed.
Lemma history_ledger env ops : ledger (trace env init_state ops) (fst (run env init_state ops)).
Proof. apply (run_good env ops init_state [] good_init ledger_init). Qed.
