(** A message handed to its subscribers by a dispatcher that is used from several
    places at once: C101 (received) and C102 (to be sent).  Vocabulary:
    SpecHanding.v (with SpecGreenlets.v, SpecDispatch.v). *)
From Verif Require Import Lib Samples SpecHanding DispatchProofs Prop_Dispatch GreenletProofs HandingProofs.

(** ** For the examples *)
Definition hx_sub (n : nat) : sub := {| sb_handler := n; sb_args := 0 |}.
Definition hx_reg (l : list nat) : sched := Spawn (SetHandler [("Ping"%string, map hx_sub l)]).
Definition hx_c : config := fst (crun d_env (idle init_state)
  (map Spawn [NewHost d_a; NewHost d_b; NewMsg s_msg] ++ [hx_reg [1; 2; 3]%nat])).
Definition hx_in : sched := Spawn (Receive 0 (d_in x09) 14).
Definition hx_out : sched := Spawn (Send 0 0 Plain d_sock).
Definition hx_env : denv := {| e_pv := Py27; e_ser_dict := d_dict; e_ser_xml := []; e_des_dict := d_dict; e_des_xml := [];
  e_deferred := true; e_handle := true; e_handle_out := true; e_cb := fun _ _ => None |}.
Definition hx_go (e : option exn) : sched := Resume 4 e.
(** The first subscriber sends a message itself, the second leaves and two new ones come. *)
Definition hx_change : list sched := [hx_in; Spawn (Send 0 1 Plain d_sock); hx_go None; hx_reg [1; 3; 4; 5]%nat; hx_go None; hx_go None; hx_go None].

(** ** C101 *)
(** A datagram is accepted by the t-th operation; then, whatever else runs: exactly
    who is called, and with what result it ends.  [handing] goes through the
    positions 0, 1, 2, ... of the subscribers as they are at each of its moments. *)
Theorem C101_delivery env c h buf size a m ys : accepts env (cf_st c) h buf size = Some (a, m) -> e_handle env = true ->
  let t := List.length (cf_pool c) in let xs := Spawn (Receive h buf size) :: ys in
  let '(called, ended) := handing (m_name m) 0 c (turns env c t xs) in
  calls (seen_of env c t xs) = map (fun '(s, _) => (s, m)) called /\ packets (seen_of env c t xs) = [] /\
  match ended with
  | None => returned_with (fst (crun env c xs)) t = None
  | Some (e, _, _) => exists r, returned_with (fst (crun env c xs)) t = Some (ORecv r) /\
      r_res r = match passed_on e with Some e => Err e | None => Ok (Some m) end
  end.
Proof.
  intros A HE t xs. pose proof (deliver_all env c h buf size a m ys A HE) as D. cbv zeta in D. fold t in D. fold xs in D.
  destruct (handing (m_name m) 0 c (turns env c t xs)) as [called ended]. destruct D as (D1 & D2 & D3). split; [exact D1|]. split; [exact D2|].
  unfold returned_with. destruct ended as [[[e c'] later]|]; cbn [delivery_end] in D3.
  - rewrite D3. eexists. split; reflexivity.
  - destruct D3 as [i ->]. reflexivity.
Qed.
Print Assumptions C101_delivery.
(** The i-th call goes to the i-th subscriber there is at its moment - that of the
    reception, or the one when the call before it returned, normally. *)
Theorem C101_position env c h buf size a m ys i s m' : accepts env (cf_st c) h buf size = Some (a, m) -> e_handle env = true ->
  let t := List.length (cf_pool c) in let xs := Spawn (Receive h buf size) :: ys in
  nth_error (calls (seen_of env c t xs)) i = Some (s, m') ->
  m' = m /\ exists c', nth_error (subscribers (m_name m) c') i = Some s /\
    match i with O => c' = c | S j => nth_error (turns env c t xs) j = Some (None, c') end.
Proof.
  intros A HE t xs N. pose proof (C101_delivery env c h buf size a m ys A HE) as D. cbv zeta in D. fold t in D. fold xs in D.
  destruct (handing (m_name m) 0 c (turns env c t xs)) as [called ended] eqn:R. destruct D as (D1 & _). rewrite D1, nth_error_map in N.
  destruct (nth_error called i) as [[s0 c']|] eqn:E; [|discriminate N]. cbn in N. injection N as <- <-. split; [reflexivity|].
  destruct (handing_calls _ _ _ _ _ _ R i s0 c' E) as [P Q]. now exists c'.
Qed.
Print Assumptions C101_position.
(** If nobody raises or changes the subscriptions while it is at it, every subscriber
    is called once, in order, as it goes on; having gone on once for each of them it
    has returned the message. *)
Theorem C101_alone env c h buf size a m ys : accepts env (cf_st c) h buf size = Some (a, m) -> e_handle env = true ->
  let t := List.length (cf_pool c) in let xs := Spawn (Receive h buf size) :: ys in let ts := turns env c t xs in
  left_alone (m_name m) c ts ->
  calls (seen_of env c t xs) = map (fun s => (s, m)) (firstn (S (List.length ts)) (subscribers (m_name m) c)) /\
  ((List.length (subscribers (m_name m) c) <= List.length ts)%nat <-> returned_with (fst (crun env c xs)) t <> None) /\
  (returned_with (fst (crun env c xs)) t <> None -> exists r, returned_with (fst (crun env c xs)) t = Some (ORecv r) /\ r_res r = Ok (Some m)).
Proof.
  intros A HE t xs ts L. pose proof (C101_delivery env c h buf size a m ys A HE) as D. cbv zeta in D. fold t in D. fold xs in D. fold ts in D.
  pose proof (handing_alone (m_name m) ts 0 c L) as H. cbv zeta in H. cbn [skipn] in H.
  destruct (handing (m_name m) 0 c ts) as [called ended]. destruct D as (D1 & _ & D3). destruct H as [H1 H2].
  assert (map (fun '(s, _) => (s, m)) called = map (fun s => (s, m)) (map fst called)) as E.
  { rewrite map_map. apply map_ext. intros [s0 c0]. reflexivity. }
  split; [rewrite D1, E, H1; reflexivity|]. destruct ended as [[[e c'] later]|].
  - destruct H2 as [-> H2]. destruct D3 as (r & R1 & R2). split; [split; [intros _; congruence|intros _; exact H2]|].
    intros _. exists r. now split.
  - rewrite D3. split; [split; [lia|congruence]|congruence].
Qed.
Print Assumptions C101_alone.
(** How it ends: by the first exception, of which KeyError is not passed on, or when
    there is no subscriber left at the position that is next. *)
Theorem C101_ends env c h buf size a m ys r : accepts env (cf_st c) h buf size = Some (a, m) -> e_handle env = true ->
  let t := List.length (cf_pool c) in let xs := Spawn (Receive h buf size) :: ys in
  let n := List.length (calls (seen_of env c t xs)) in
  returned_with (fst (crun env c xs)) t = Some (ORecv r) ->
  (exists e before c' later, turns env c t xs = before ++ (Some e, c') :: later /\ S (List.length before) = n /\
     Forall (fun x => fst x = None) before /\ r_res r = match e with KeyErr => Ok (Some m) | _ => Err e end) \/
  (exists before later, turns env c t xs = before ++ later /\ List.length before = n /\ Forall (fun x => fst x = None) before /\
     nth_error (subscribers (m_name m) (last (c :: map snd before) c)) n = None /\ r_res r = Ok (Some m)).
Proof.
  intros A HE t xs n R. pose proof (C101_delivery env c h buf size a m ys A HE) as D. cbv zeta in D. fold t in D. fold xs in D.
  destruct (handing (m_name m) 0 c (turns env c t xs)) as [called ended] eqn:H. destruct D as (D1 & _ & D3).
  assert (n = List.length called) as N by (unfold n; now rewrite D1, map_length). pose proof (handing_raises _ _ _ _ _ _ H) as E.
  destruct ended as [[[[e|] c'] later]|]; [| |congruence]; destruct D3 as (r' & R1 & R2); assert (r' = r) as -> by congruence.
  - left. destruct E as (NE & before & E1 & E2 & E3). exists e, before, c', later. split; [exact E1|]. split; [|split; [exact E3|]].
    + rewrite N. destruct called; [congruence|]. cbn in *. lia.
    + rewrite R2. destruct e; reflexivity.
  - right. destruct E as (before & E1 & E2 & E3 & E4 & E5). exists before, later. rewrite N, E5. repeat split; try assumption.
Qed.
Print Assumptions C101_ends.

Definition hx_called (env : denv) (xs : list sched) : list nat := map (fun '(s, _) => sb_handler s) (calls (seen_of env hx_c 4 xs)).
Example C101_ex : (exists m, accepts d_env (cf_st hx_c) 0 (d_in x09) 14 = Some (d_a, m) /\ m_name m = "Ping"%string) /\
  List.length (cf_pool hx_c) = 4%nat /\
  hx_called d_env (hx_in :: repeat (hx_go None) 3) = [1; 2; 3]%nat /\
  hx_called d_env hx_change = [1; 2; 4; 5]%nat /\
  hx_called d_env [hx_in; hx_go None; hx_go (Some KeyErr)] = [1; 2]%nat /\
  match returned_with (fst (crun d_env hx_c [hx_in; hx_go None; hx_go (Some ValueErr)])) 4 with Some (ORecv r) => r_res r = Err ValueErr | _ => False end.
Proof. vm_compute. repeat split. eexists. split; reflexivity. Qed.
Example C101_ex_alone : left_alone "Ping" hx_c (turns d_env hx_c 4 [hx_in; Spawn (Send 0 1 Plain d_sock); hx_go None; hx_go None; hx_go None]).
Proof. vm_compute. repeat constructor. Qed.

(** ** C102 *)
(** send_message to a host whose address is set, with outgoing messages handled: the
    subscribers see the Message object as it is when they are called; if the last of
    them returned, or one raised KeyError, then at that moment the object as it is
    then is sent to the address the Host object has then, once; if one raised
    something else, nothing is sent and the sender gets the exception. *)
Theorem C102_announced env c mref href md sock a m ys : host_address (cf_st c) href = Some a -> host_ok a = true ->
  nth_error (s_msgs (cf_st c)) mref = Some m -> e_handle_out env = true ->
  let t := List.length (cf_pool c) in let xs := Spawn (Send mref href md sock) :: ys in
  let own := seen_of env c t xs in
  let '(called, ended) := handing (m_name m) 0 c (turns env c t xs) in
  map (fun '(s, m) => (s, Some m)) (calls own) = map (fun '(s, c') => (s, nth_error (s_msgs (cf_st c')) mref)) called /\
  match ended with
  | None => packets own = [] /\ returned_with (fst (crun env c xs)) t = None
  | Some (e, c', later) =>
      match passed_on e with
      | Some e => packets own = [] /\ exists o, returned_with (fst (crun env c xs)) t = Some (OSend o) /\ o_res o = Err e
      | None => exists a' m' x, host_address (cf_st c') href = Some a' /\ nth_error (s_msgs (cf_st c')) mref = Some m' /\
          packets own = [x] /\ at_addr x = a' /\ same_content m' (at_msg x) /\
          match at_data x, later with
          | Some b, [] => returned_with (fst (crun env c xs)) t = None                        (* in the socket *)
          | Some b, (None, _) :: _ => exists o, returned_with (fst (crun env c xs)) t = Some (OSend o) /\ o_res o = Ok (Some b)
          | _, _ => exists o, returned_with (fst (crun env c xs)) t = Some (OSend o) /\ forall b, o_res o <> Ok (Some b)
          end
      end
  end.
Proof.
  intros NH OK NM HE t xs own. pose proof (announce_all env c mref href md sock a m ys NH OK NM HE) as D. cbv zeta in D. fold t in D. fold xs in D. fold own in D.
  destruct (handing (m_name m) 0 c (turns env c t xs)) as [called ended]. destruct D as (D1 & D2). split; [exact D1|].
  unfold returned_with. destruct ended as [[[e c'] later]|]; cbn [sending_end] in D2.
  - destruct (passed_on e) as [e0|].
    + destruct D2 as [D2 D3]. split; [exact D2|]. rewrite D3. eexists. split; reflexivity.
    + destruct D2 as (a' & m' & x & X1 & X2 & X3 & X4 & X5 & X6). exists a', m', x. repeat split; try assumption; try apply X5.
      destruct (at_data x) as [b|].
      * unfold in_socket in X6. destruct later as [|[[e1|] c1] later].
        { now rewrite X6. }
        { destruct X6 as (r & X6 & X7). rewrite X6. eexists. split; [reflexivity|exact X7]. }
        { rewrite X6. eexists. split; reflexivity. }
      * destruct X6 as (r & X6 & X7). rewrite X6. eexists. split; [reflexivity|exact X7].
  - destruct D2 as [D2 (name & i & md0 & ->)]. now split.
Qed.
Print Assumptions C102_announced.
(** The i-th call goes to the i-th subscriber there is at its moment, with the
    message as it is at that moment - also if a subscriber has renamed it. *)
Theorem C102_position env c mref href md sock a m ys i s m' : host_address (cf_st c) href = Some a -> host_ok a = true ->
  nth_error (s_msgs (cf_st c)) mref = Some m -> e_handle_out env = true ->
  let t := List.length (cf_pool c) in let xs := Spawn (Send mref href md sock) :: ys in
  nth_error (calls (seen_of env c t xs)) i = Some (s, m') ->
  exists c', nth_error (subscribers (m_name m) c') i = Some s /\ nth_error (s_msgs (cf_st c')) mref = Some m' /\
    match i with O => c' = c | S j => nth_error (turns env c t xs) j = Some (None, c') end.
Proof.
  intros NH OK NM HE t xs N. pose proof (C102_announced env c mref href md sock a m ys NH OK NM HE) as D. cbv zeta in D. fold t in D. fold xs in D.
  destruct (handing (m_name m) 0 c (turns env c t xs)) as [called ended] eqn:R. destruct D as (D1 & _).
  assert (nth_error (map (fun '(s, m) => (s, Some m)) (calls (seen_of env c t xs))) i = Some (s, Some m')) as N' by (now rewrite nth_error_map, N).
  rewrite D1, nth_error_map in N'. destruct (nth_error called i) as [[s0 c']|] eqn:E; [|discriminate N'].
  cbn in N'. injection N' as <- NM'. destruct (handing_calls _ _ _ _ _ _ R i s0 c' E) as [P Q]. now exists c'.
Qed.
Print Assumptions C102_position.
(** It prepares one packet at most, and none before every subscriber there is has
    been called, or one raised KeyError. *)
Theorem C102_once env c mref href md sock a m ys : host_address (cf_st c) href = Some a -> host_ok a = true ->
  nth_error (s_msgs (cf_st c)) mref = Some m -> e_handle_out env = true ->
  let t := List.length (cf_pool c) in let xs := Spawn (Send mref href md sock) :: ys in
  (List.length (packets (seen_of env c t xs)) <= 1)%nat /\
  (left_alone (m_name m) c (turns env c t xs) -> packets (seen_of env c t xs) <> [] ->
   map fst (calls (seen_of env c t xs)) = subscribers (m_name m) c).
Proof.
  intros NH OK NM HE t xs. pose proof (C102_announced env c mref href md sock a m ys NH OK NM HE) as D. cbv zeta in D. fold t in D. fold xs in D.
  split.
  - destruct (handing (m_name m) 0 c (turns env c t xs)) as [called ended]. destruct D as (_ & D). destruct ended as [[[e c'] later]|].
    + destruct (passed_on e); [destruct D as [-> _]; cbn; lia|]. destruct D as (a' & m' & x & _ & _ & -> & _). cbn. lia.
    + destruct D as [-> _]. cbn. lia.
  - intros L NP. pose proof (handing_alone (m_name m) (turns env c t xs) 0 c L) as H. cbv zeta in H. cbn [skipn] in H.
    destruct (handing (m_name m) 0 c (turns env c t xs)) as [called ended]. destruct D as (D1 & D). destruct H as [H1 H2].
    assert (map fst (calls (seen_of env c t xs)) = map fst called) as ->.
    { apply (f_equal (map fst)) in D1. rewrite !map_map in D1. etransitivity; [|etransitivity; [exact D1|]]; apply map_ext; intros [? ?]; reflexivity. }
    destruct ended as [[[e c'] later]|]; [|destruct D; congruence]. rewrite H1. apply firstn_all2. lia.
Qed.
Print Assumptions C102_once.
(** The second subscriber changes the message and the host's address; that is sent. *)
Definition hx_other : message := set_header s_msg 7 7 7.
Definition hx_edit : list sched := [hx_out; hx_go None; Spawn (SetHost 0 d_b); Spawn (NewMsg s_msg); Spawn (SetMsg 0 hx_other); hx_go None; hx_go None; hx_go None].
Example C102_ex : host_address (cf_st hx_c) 0 = Some d_a /\ host_ok d_a = true /\ nth_error (s_msgs (cf_st hx_c)) 0 = Some s_msg /\
  m_name s_msg = "Ping"%string /\
  hx_called hx_env hx_edit = [1; 2; 3]%nat /\
  map (fun '(s, m) => m_id m) (calls (seen_of hx_env hx_c 4 hx_edit)) = [m_id s_msg; m_id s_msg; 7] /\
  map at_addr (packets (seen_of hx_env hx_c 4 hx_edit)) = [d_b] /\
  packets (seen_of hx_env hx_c 4 [hx_out; hx_go None; hx_go (Some ValueErr)]) = [] /\
  match returned_with (fst (crun hx_env hx_c hx_edit)) 4 with Some (OSend o) => exists b, o_res o = Ok (Some b) | _ => False end.
Proof. vm_compute. repeat split. eexists. reflexivity. Qed.
Example C102_ex_alone : left_alone "Ping" hx_c (turns hx_env hx_c 4 (hx_out :: repeat (hx_go None) 4)) /\
  List.length (packets (seen_of hx_env hx_c 4 (hx_out :: repeat (hx_go None) 4))) = 1%nat.
Proof. vm_compute. repeat constructor. Qed.
