(** pyogp/lib/base/message/circuit.py *)
From Verif Require Export Events.

(** What Host.ip and Host.port may hold. *)
Inductive hval := HNone | HInt (z : Z) | HStr (s : string).
Definition hval_eqb (a b : hval) : bool :=
  match a, b with
  | HNone, HNone => true
  | HInt x, HInt y => x =? y
  | HStr x, HStr y => String.eqb x y
  | _, _ => false
  end.
Notation addr := (hval * hval)%type.
Definition addr_eqb (a b : addr) : bool :=
  hval_eqb (fst a) (fst b) && hval_eqb (snd a) (snd b).

(** circuit.py:31-36, Host.is_ok, on the host's (ip, port) *)
Definition hval_ok (h : hval) : bool :=
  match h with HNone => false | HInt z => negb (z =? 0) | HStr _ => true end.
Definition host_ok (h : addr) : bool := hval_ok (fst h) && hval_ok (snd h).

(** circuit.py:47-63, Circuit.  [c_host] refers to the Host object given at
    creation; [c_unacked] and [c_final] map packet ids to message objects.
    Fields nothing reads (circuit_code, session_id, is_blocked, allow_timeout,
    unack_packet_bytes) are omitted. *)
Record circuit := {
  c_host : nat;
  c_alive : bool;
  c_trusted : bool;
  c_last_out : Z;
  c_last_in : Z;
  c_acks : list Z;
  c_unacked : list (Z * nat);
  c_count : Z;                    (* unack_packet_count *)
  c_final : list (Z * nat);
  c_final_count : Z }.

(** circuit.py:47-63, Circuit.__init__ *)
Definition new_circuit (host : nat) (pack_in_id : Z) : circuit :=
  {| c_host := host; c_alive := true; c_trusted := false; c_last_out := 0;
     c_last_in := pack_in_id; c_acks := []; c_unacked := []; c_count := 0;
     c_final := []; c_final_count := 0 |}.

Definition set_acks (c : circuit) (l : list Z) : circuit :=
  {| c_host := c_host c; c_alive := c_alive c; c_trusted := c_trusted c;
     c_last_out := c_last_out c; c_last_in := c_last_in c; c_acks := l;
     c_unacked := c_unacked c; c_count := c_count c; c_final := c_final c;
     c_final_count := c_final_count c |}.
Definition set_trusted (c : circuit) (b : bool) : circuit :=
  {| c_host := c_host c; c_alive := c_alive c; c_trusted := b;
     c_last_out := c_last_out c; c_last_in := c_last_in c; c_acks := c_acks c;
     c_unacked := c_unacked c; c_count := c_count c; c_final := c_final c;
     c_final_count := c_final_count c |}.
Definition set_last_out (c : circuit) (n : Z) : circuit :=
  {| c_host := c_host c; c_alive := c_alive c; c_trusted := c_trusted c;
     c_last_out := n; c_last_in := c_last_in c; c_acks := c_acks c;
     c_unacked := c_unacked c; c_count := c_count c; c_final := c_final c;
     c_final_count := c_final_count c |}.
Definition set_unacked (c : circuit) (u : list (Z * nat)) (n : Z) : circuit :=
  {| c_host := c_host c; c_alive := c_alive c; c_trusted := c_trusted c;
     c_last_out := c_last_out c; c_last_in := c_last_in c; c_acks := c_acks c;
     c_unacked := u; c_count := n; c_final := c_final c;
     c_final_count := c_final_count c |}.
Definition set_final (c : circuit) (u : list (Z * nat)) (n : Z) : circuit :=
  {| c_host := c_host c; c_alive := c_alive c; c_trusted := c_trusted c;
     c_last_out := c_last_out c; c_last_in := c_last_in c; c_acks := c_acks c;
     c_unacked := c_unacked c; c_count := c_count c; c_final := u; c_final_count := n |}.

(** circuit.py:65-67, next_packet_id *)
Definition next_packet_id (c : circuit) : Z * circuit :=
  let n := c_last_out c + 1 in (n, set_last_out c n).

(** circuit.py:111-122, add_reliable_packet *)
Definition add_reliable_packet (c : circuit) (id : Z) (mref : nat) : circuit :=
  set_unacked c (dset Z.eqb id mref (c_unacked c)) (c_count c + 1).

(** circuit.py:96-104, ack_reliable_packet *)
Definition ack_reliable_packet (c : circuit) (id : Z) : circuit :=
  let c := if dmem Z.eqb id (c_unacked c)
           then set_unacked c (ddel Z.eqb id (c_unacked c)) (c_count c - 1) else c in
  if dmem Z.eqb id (c_final c)
  then set_final c (ddel Z.eqb id (c_final c)) (c_final_count c - 1) else c.

(** circuit.py:106-109, collect_ack *)
Definition collect_ack (c : circuit) (id : Z) : circuit := set_acks c (c_acks c ++ [id]).

(** circuit.py:88-94, handle_packet *)
Definition handle_packet (c : circuit) (m : message) : circuit :=
  let c := fold_left ack_reliable_packet (m_acks m) c in
  if m_reliable m then collect_ack c (m_id m) else c.

Definition set_header (m : message) (flags retries id : Z) : message :=
  {| m_name := m_name m; m_blocks := m_blocks m; m_flags := flags; m_id := id;
     m_eqid := m_eqid m; m_acks := m_acks m; m_num_acks := m_num_acks m;
     m_trusted := m_trusted m; m_reliable := m_reliable m; m_retries := retries |}.
Definition or_flags (m : message) (f : Z) : message :=
  set_header m (Z.lor (m_flags m) f) (m_retries m) (m_id m).

(** circuit.py:69-86, prepare_packet on the message object [mref] whose
    contents are [m]: the new circuit and the new contents. *)
Definition prepare_packet (c : circuit) (mref : nat) (m : message) (flag retries : Z)
  : circuit * message :=
  let '(id, c) := next_packet_id c in
  let m := set_header m flag retries id in
  let m := if (0 <? zlen (c_acks c)) && negb (String.eqb (m_name m) "PacketAck")
           then fold_left add_ack (c_acks c) (or_flags m LL_ACK_FLAG) else m in
  let c := if flag =? LL_RELIABLE_FLAG then add_reliable_packet c (m_id m) mref else c in
  (c, m).

(** circuit.py:128: circuit_map *)
Notation circuits := (list (addr * circuit)).

(** circuit.py:136-140, get_circuit *)
Definition get_circuit (m : circuits) (a : addr) : option circuit := dget addr_eqb a m.
(** circuit.py:142-146, add_circuit (the Host object [href] has address [a]) *)
Definition add_circuit (m : circuits) (a : addr) (href : nat) (packet_in_id : Z) : circuits :=
  dset addr_eqb a (new_circuit href packet_in_id) m.
(** circuit.py:148-150, remove_circuit_data *)
Definition remove_circuit_data (m : circuits) (a : addr) : circuits :=
  if dmem addr_eqb a m then ddel addr_eqb a m else m.
(** circuit.py:152-157, is_circuit_alive *)
Definition is_circuit_alive (m : circuits) (a : addr) : bool :=
  match dget addr_eqb a m with None => false | Some c => c_alive c end.
