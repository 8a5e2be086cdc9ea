(** What the dispatcher, its deserializer and serializer and the message handler
    log, and where: udpdispatcher.py, udpdeserializer.py, udpserializer.py,
    message_handler.py and events.py once more, this time with their log
    statements, the prints, the settings that govern them and the order in which
    log lines, subscriber calls and datagrams come out.
    A line is represented by its parts, not by its text.  Tracebacks
    (traceback.print_exc) are left out. *)
From Verif Require Export Dispatcher Helpers Settings.

Inductive logline :=
| UnknownLine (header : bytes)                       (* udpdeserializer.py:161 *)
| BannedInLine (name : string)                       (* udpdeserializer.py:120 *)
| SkippedLine (name : string)                        (* udpdeserializer.py:139 *)
| BlockTypeLine (name : string)                      (* udpdeserializer.py:292 *)
| ShortLine (wanted have : Z) (name : string)        (* udpdeserializer.py:314, 340 *)
| ProblemLine (name block var : string)              (* udpdeserializer.py:348 *)
| ReceivedLine (host : option addr) (name : string) (id : Z) (hex : option bytes)
                                                     (* udpdispatcher.py:166 *)
| BannedOutLine (name : string)                      (* udpserializer.py:67 *)
| SentLine (host : option addr) (name : string) (id : Z) (hex : option bytes)
                                                     (* udpdispatcher.py:229 *)
| FailedLine (m : message)                           (* udpdispatcher.py:242 *)
| AckingLine (id : Z)                                (* udpdispatcher.py:302 *)
| HandlingLine (name : string)                       (* message_handler.py:76 *)
| EventErrorLine.                                    (* events.py:64 *)

(** What comes out of an operation, in order. *)
Inductive entry :=
| Line (l : logline)
| Printed (n : Z)                                    (* udpdeserializer.py:339, on stdout *)
| Call (s : sub) (m : message)                       (* a subscriber is called *)
| Handed (a : addr) (m : message) (b : bytes) (accepted : bool).
                                                     (* sendto, and whether it succeeded *)

(** The subscriber calls among them. *)
Definition calls_of (t : list entry) : list (sub * message) :=
  flat_map (fun x => match x with Call s m => [(s, m)] | _ => [] end) t.

(** Results with what came out before them. *)
Notation lres A := (list entry * res A)%type.
Definition lift {A} (r : res A) : lres A := ([], r).
Definition emit (on : bool) (l : logline) : lres unit := ((if on then [Line l] else []), Ok tt).
Definition lbind {A B} (x : lres A) (f : A -> lres B) : lres B :=
  match x with
  | (t, Ok a) => let '(t', r) := f a in (t ++ t', r)
  | (t, Err e) => (t, Err e)
  end.
Notation "'ldo' x <- e ; f" := (lbind e (fun x => f)) (at level 60, x name, right associativity).

(** ** udpdeserializer.py *)

(** 304-355, one variable at [pos] of a block [block] of a packet [name] *)
Definition decode_var_l (name block : string) (data : bytes) (v : tvar) (pos : Z)
  : lres (option (pyval * Z)) :=
  match tv_size v with
  | None => lift (Err TypeErr)
  | Some size0 =>
      ldo sp <-
        match tv_type v with
        | Some MVT_VARIABLE =>
            if zlen data <? pos + size0
            then ldo _ <- emit true (ShortLine (pos + size0) (zlen data) name); lift (Ok None)
            else
            ldo vs <- lift (if size0 =? 1 then unpack_z data MVT_U8 pos None
                            else if size0 =? 2 then unpack_z data MVT_U16 pos None
                            else if size0 =? 4 then unpack_z data MVT_U32 pos None
                            else Err MessageDeserializationErr);
            lift (Ok (Some (vs, pos + size0)))
        | _ => lift (Ok (Some (size0, pos)))
        end;
      match sp with
      | None => lift (Ok None)
      | Some (var_size, pos) =>
          if zlen data <? pos + var_size
          then ldo _ <- (([Printed var_size], Ok tt) : lres unit);
               ldo _ <- emit true (ShortLine (pos + var_size) (zlen data) name);
               lift (Ok None)
          else
          match unpack_data data (tv_type v) pos var_size None with
          | Err e => ldo _ <- emit true (ProblemLine name block (tv_name v)); lift (Err e)
          | Ok u =>
              let u := match tv_type v, u with
                       | Some MVT_VARIABLE, VStr s =>
                           if String.eqb (tv_name v) "Data" then u else VStr (rstrip0 s)
                       | _, _ => u
                       end in
              lift (Ok (Some (u, pos + var_size)))
          end
      end
  end.

(** 302-355, the variables of one block instance *)
Fixpoint decode_vars_l (name : string) (data : bytes) (vs : list tvar) (b : block) (pos : Z)
  : lres (option (block * Z)) :=
  match vs with
  | [] => lift (Ok (Some (b, pos)))
  | v :: vs' =>
      ldo r <- decode_var_l name (b_name b) data v pos;
      match r with
      | None => lift (Ok None)
      | Some (u, pos') =>
          decode_vars_l name data vs' (add_variable b (tv_name v) {| v_data := u; v_type := tv_type v |}) pos'
      end
  end.

(** 295-355, [n] instances of a block *)
Fixpoint decode_instances_l (name : string) (data : bytes) (tb : tblock) (i : Z) (n : nat) (d : blockdict) (pos : Z)
  : lres (option (blockdict * Z)) :=
  match n with
  | O => lift (Ok (Some (d, pos)))
  | S n' =>
      let b0 := {| b_name := tb_name tb; b_vars := []; b_list := []; b_number := i |} in
      ldo r <- decode_vars_l name data (tb_vars tb) b0 pos;
      match r with
      | None => lift (Ok None)
      | Some (b, pos') => decode_instances_l name data tb (i + 1) n' (add_block d b) pos'
      end
  end.

(** 272-355, the blocks of the template *)
Fixpoint decode_blocks_l (name : string) (data : bytes) (tbs : list tblock) (d : blockdict) (pos : Z)
  : lres (option (blockdict * Z)) :=
  match tbs with
  | [] => lift (Ok (Some (d, pos)))
  | tb :: tbs' =>
      ldo cp <- match tb_type tb with
                | Some MBT_SINGLE => lift (Ok (Some (1, pos)))
                | Some MBT_MULTIPLE => lift (Ok (Some (tb_number tb, pos)))
                | Some MBT_VARIABLE =>
                    ldo c <- lift (unpack_z data MVT_U8 pos None); lift (Ok (Some (c, pos + 1)))
                | None => ldo _ <- emit true (BlockTypeLine name); lift (Ok None)
                end;
      match cp with
      | None => lift (Ok None)
      | Some (count, pos) =>
          ldo r <- decode_instances_l name data tb 0 (Z.to_nat count) d pos;
          match r with
          | None => lift (Ok None)
          | Some (d', pos') => decode_blocks_l name data tbs' d' pos'
          end
      end
  end.

(** 211-362, __decode_data *)
Definition decode_data_l (t : template) (data : bytes) : lres (option message) :=
  ldo c0 <- lift (pyindex data 0);
  let flags := ord c0 in
  ldo id <- lift (unpack_z data MVT_U32 1 (Some BE));
  ldo acks <- lift (if has_flag flags LL_ACK_FLAG then
                      let msg_size := zlen data - 1 in
                      do n <- unpack_z data MVT_U8 msg_size None;
                      let ack_data := pyfrom data (msg_size - n * 4) in
                      read_acks ack_data 0 (Z.to_nat n)
                    else Ok []);
  let reliable := has_flag flags LL_RELIABLE_FLAG in
  ldo offset <- lift (unpack_z data MVT_U8 PHL_OFFSET None);
  ldo fb <- lift (freq_bytes t);
  let pos := PACKET_ID_LENGTH + fb + offset in
  ldo r <- decode_blocks_l (t_name t) data (t_blocks t) [] pos;
  match r with
  | None => lift (Ok None)
  | Some (d, _) =>
      if (zlen d <=? 0) && (0 <? zlen (t_blocks t)) then lift (Err MessageDeserializationErr)
      else lift (Ok (Some {| m_name := t_name t; m_blocks := d; m_flags := flags; m_id := id;
                       m_eqid := 0; m_acks := acks; m_num_acks := zlen acks;
                       m_trusted := false; m_reliable := reliable; m_retries := 1 |}))
  end.

(** 150-163, __decode_template *)
Definition decode_template_l (d : tdict) (buf : bytes) : lres (option template) :=
  if zlen buf <=? PACKET_ID_LENGTH then lift (Err MessageDeserializationErr)
  else
    let header := pyslice buf PACKET_ID_LENGTH 12 in
    ldo t <- lift (decode_header d header);
    match t with
    | Some t => lift (Ok (Some t))
    | None => ldo _ <- emit true (UnknownLine header); lift (Ok None)
    end.

(** 68-141, deserialize, under the settings [s]; [handled] is the message
    handler's is_message_handled. *)
Definition deserialize_l (s : settings) (d : tdict) (x : xmltable) (handled : string -> bool) (buf : bytes)
  : lres (option message) :=
  ldo p <- lift (strip_acks buf);
  let '(msg_buff, temp_acks) := p in
  ldo msg_buff <- lift (expand msg_buff);
  ldo t <- decode_template_l d msg_buff;
  match t with
  | None => lift (Ok None)
  | Some t =>
      let msg_buff := msg_buff ++ temp_acks in
      ldo ok <- lift (validate_udp_msg x (t_name t));
      if negb ok then ldo _ <- emit true (BannedInLine (t_name t)); lift (Ok None)
      else if handled (t_name t) || negb (ENABLE_DEFERRED_PACKET_PARSING s) then
        match decode_data_l t msg_buff with
        | (tr, Err DataUnpackingErr) => (tr, Err MessageDeserializationErr)
        | r => r
        end
      else
        ldo _ <- emit (LOG_VERBOSE s && ENABLE_UDP_LOGGING s && LOG_SKIPPED_PACKETS s && negb (PROXY_LOGGING s))
                      (SkippedLine (t_name t));
        lift (Ok None)
  end.

(** ** message_handler.py and events.py *)

(** events.py:53-65, the notification: a raising subscriber ends it. *)
Fixpoint call_all_l (cb : sub -> message -> option exn) (m : message) (l : list sub)
  : list entry * option exn :=
  match l with
  | [] => ([], None)
  | s :: l' =>
      match cb s m with
      | Some e => ([Call s m; Line EventErrorLine], Some e)
      | None => let '(t, r) := call_all_l cb m l' in (Call s m :: t, r)
      end
  end.

(** message_handler.py:66-82, handle(message); [hs] are the settings the handler
    was created with.  An empty list of spammers is false. *)
Definition handling_logged (hs : settings) : bool :=
  LOG_VERBOSE hs && negb (negb (match UDP_SPAMMERS hs with [] => true | _ => false end) && DISABLE_SPAMMERS hs).
Definition handle_l (hs : settings) (cb : sub -> message -> option exn) (r : registry) (m : message)
  : list entry * option exn :=
  match sget (m_name m) r with
  | None => ([], None)
  | Some l =>
      if 0 <? subscriber_count l
      then let '(t, e) := call_all_l cb m l in
           ((if handling_logged hs then [Line (HandlingLine (m_name m))] else []) ++ t, swallow_keyerror e)
      else ([], None)
  end.

(** ** udpdispatcher.py *)

(** 115-171, receive_check(host, msg_buf, msg_size), under the dispatcher's
    settings [s] and the handler's [hs].  (Of [env] only the templates, the
    message.xml tables and the subscribers are used.) *)
Definition receive_check_l (s hs : settings) (env : denv) (st : dstate) (href : nat) (buf : bytes) (size : Z)
  : dstate * rout * list entry :=
  match nth_error (s_hosts st) href with
  | None => (st, {| r_res := Err NameErr; r_calls := [] |}, [])
  | Some a =>
      if size <=? 0 then (st, {| r_res := Ok None; r_calls := [] |}, [])
      else
        let '(st, c) := find_circuit st href a in
        let st := set_counts st (s_in st + 1) (s_out st) in
        let '(t, r) := deserialize_l s (e_des_dict env) (e_des_xml env) (is_message_handled (s_handler st)) buf in
        match r with
        | Err e => (st, {| r_res := Err e; r_calls := [] |}, t)
        | Ok None =>
            match (do _ <- pyindex buf 0; unpack_z buf MVT_U32 1 (Some BE)) with
            | Err e => (st, {| r_res := Err e; r_calls := [] |}, t)
            | Ok id => (put_circuit st a (collect_ack c id), {| r_res := Ok None; r_calls := [] |}, t)
            end
        | Ok (Some m) =>
            if c_trusted c && negb (m_trusted m)
            then (st, {| r_res := Ok None; r_calls := [] |}, t)
            else
              let st := put_circuit st a (handle_packet c m) in
              let hex := if ENABLE_BYTES_TO_HEX_LOGGING s then Some (bytes_to_hex buf) else None in
              let host := if ENABLE_HOST_LOGGING s then Some a else None in
              let t := t ++ (if ENABLE_UDP_LOGGING s && negb (PROXY_LOGGING s)
                             then [Line (ReceivedLine host (m_name m) (m_id m) hex)] else []) in
              if HANDLE_PACKETS s then
                let '(t', e) := handle_l hs (e_cb env) (s_handler st) m in
                (st, {| r_res := match e with Some e => Err e | None => Ok (Some m) end;
                        r_calls := calls_of t' |}, t ++ t')
              else (st, {| r_res := Ok (Some m); r_calls := [] |}, t)
        end
  end.

(** udpserializer.py:57-107 with its warning; the rest of it logs nothing. *)
Definition serialize_l (pv : pyver) (d : tdict) (x : xmltable) (m : message) : lres (option bytes) :=
  match get_template d (m_name m) with
  | None => lift (Err AttributeErr)
  | Some t =>
      ldo ok <- lift (validate_udp_msg x (t_name t));
      if negb ok then ldo _ <- emit true (BannedOutLine (t_name t)); lift (Ok None)
      else lift (serialize pv d x m)
  end.

(** 238-245: AssertionError is dropped; anything else is logged with the
    message, unless printing the message raises. *)
Definition contain_l (e : exn) (m : message) : lres (option bytes) :=
  match e with
  | AssertionErr => lift (Ok None)
  | _ => match msg_str_error m with
         | Some e' => lift (Err e')
         | None => ldo _ <- emit true (FailedLine m); lift (Ok None)
         end
  end.

(** 217-229: the log line of a packet about to be sent; bytes_to_hex(None) is a
    TypeError (helpers.py:42-48 iterates over it). *)
Definition log_sent (s : settings) (a : addr) (m : message) (send_buffer : option bytes) : lres unit :=
  if ENABLE_UDP_LOGGING s then
    if existsb (String.eqb (m_name m)) (UDP_SPAMMERS s) && DISABLE_SPAMMERS s then lift (Ok tt)
    else
      ldo hex <- lift (if ENABLE_BYTES_TO_HEX_LOGGING s
                       then match send_buffer with
                            | Some b => Ok (Some (bytes_to_hex b))
                            | None => Err TypeErr
                            end
                       else Ok None);
      emit true (SentLine (if ENABLE_HOST_LOGGING s then Some a else None) (m_name m) (m_id m) hex)
  else lift (Ok tt).

(** 231 with net.py:35-43, send_packet: a missing buffer raises before the
    socket is used. *)
Definition send_packet_l (sock : addr -> bytes -> option exn) (a : addr) (m : message) (send_buffer : option bytes)
  : lres bytes :=
  match send_buffer with
  | None => lift (Err no_data)
  | Some b => match sock a b with
              | Some e => ([Handed a m b false], Err e)
              | None => ([Handed a m b true], Ok b)
              end
  end.

(** 187-245, __send_message *)
Definition send_message_l (s hs : settings) (env : denv) (st : dstate) (mref href : nat) (md : mode)
  (sock : addr -> bytes -> option exn) : dstate * dout * list entry :=
  match nth_error (s_hosts st) href, nth_error (s_msgs st) mref with
  | Some a, Some m =>
      if negb (host_ok a) then (st, out0 (Ok None), []) else
      let '(t0, e) := if HANDLE_OUTGOING_PACKETS s then handle_l hs (e_cb env) (s_handler st) m
                      else ([], None) in
      let calls := calls_of t0 in
      match e with
      | Some e => (st, {| o_res := Err e; o_sends := []; o_calls := calls |}, t0)
      | None =>
          let '(st, c) := find_circuit st href a in
          let '(c, m) := match md with
                         | Reliable r => prepare_packet c mref m LL_RELIABLE_FLAG r
                         | Plain => prepare_packet c mref m LL_NONE 0
                         end in
          let st := set_msgs (put_circuit st a c) (update_nth mref m (s_msgs st)) in
          let st := match md with
                    | Reliable _ => if c_count c <=? 0
                                    then set_unackedc st (dset Nat.eqb href a (s_unackedc st))
                                    else st
                    | Plain => st
                    end in
          let out r data := {| o_res := r; o_calls := calls;
                               o_sends := [{| at_addr := a; at_msg := m; at_data := data |}] |} in
          let '(t, r) := ldo send_buffer <- serialize_l (e_pv env) (e_ser_dict env) (e_ser_xml env) m;
                         ldo _ <- log_sent s a m send_buffer;
                         send_packet_l sock a m send_buffer in
          match r with
          | Ok b => (set_counts st (s_in st) (s_out st + 1), out (Ok (Some b)) (Some b), t0 ++ t)
          | Err e => let '(t', r) := contain_l e m in (st, out r None, t0 ++ t ++ t')
          end
      end
  | _, _ => (st, out0 (Err NameErr), [])
  end.

Definition send_new_l (s hs : settings) (env : denv) (st : dstate) (m : message) (href : nat)
  (sock : addr -> bytes -> option exn) : dstate * dout * list entry :=
  let mref := List.length (s_msgs st) in
  send_message_l s hs env (set_msgs st (s_msgs st ++ [m])) mref href Plain sock.

(** 289-313: the loop over one circuit's acks *)
Fixpoint flush_acks_l (s hs : settings) (env : denv) (sock : addr -> bytes -> option exn) (href : nat)
  (ids cur : list Z) (st : dstate) : dstate * dout * list entry :=
  match ids with
  | [] =>
      if 0 <? zlen cur then send_new_l s hs env st (ack_message cur) href sock
      else (st, out0 (Ok None), [])
  | id :: ids' =>
      let t0 := if LOG_VERBOSE s && negb (DISABLE_SPAMMERS s) then [Line (AckingLine id)] else [] in
      let cur := cur ++ [id] in
      if 250 <? zlen cur then
        let '(st, o, t) := send_new_l s hs env st (ack_message cur) href sock in
        match o_res o with
        | Err _ => (st, o, t0 ++ t)
        | Ok _ => let '(st, o', t') := flush_acks_l s hs env sock href ids' [] st in
                  (st, app_out o o', t0 ++ t ++ t')
        end
      else let '(st, o, t) := flush_acks_l s hs env sock href ids' cur st in (st, o, t0 ++ t)
  end.

(** 283-315, __send_acks *)
Fixpoint send_acks_l (s hs : settings) (env : denv) (sock : addr -> bytes -> option exn) (keys : list addr)
  (st : dstate) : dstate * dout * list entry :=
  match keys with
  | [] => (st, out0 (Ok None), [])
  | k :: keys' =>
      match get_circuit (s_circuits st) k with
      | None => send_acks_l s hs env sock keys' st
      | Some c =>
          let '(st, o, t) := flush_acks_l s hs env sock (c_host c) (c_acks c) [] st in
          match o_res o with
          | Err _ => (st, o, t)
          | Ok _ =>
              let '(st, o', t') := send_acks_l s hs env sock keys' (clear_acks st k) in
              (st, app_out o o', t ++ t')
          end
      end
  end.

(** 247-254, process_acks (resending, 256-276, logs nothing) *)
Definition process_acks_l (s hs : settings) (env : denv) (st : dstate) (order : list addr)
  (sock : addr -> bytes -> option exn) : dstate * dout * list entry :=
  let '(st, r) := resend_all (s_unackedc st) st in
  match r with
  | Err e => (st, out0 (Err e), [])
  | Ok _ =>
      let '(st, o, t) := send_acks_l s hs env sock (arrange order (dkeys (s_circuits st))) st in
      (st, {| o_res := match o_res o with Err e => Err e | Ok _ => Ok None end;
              o_sends := o_sends o; o_calls := o_calls o |}, t)
  end.

(** The operations of a dispatcher's user, with everything that comes out. *)
Definition step_l (s hs : settings) (env : denv) (st : dstate) (o : op) : dstate * outcome * list entry :=
  match o with
  | Send m h md sock => let '(st, o, t) := send_message_l s hs env st m h md sock in (st, OSend o, t)
  | Receive h b n => let '(st, r, t) := receive_check_l s hs env st h b n in (st, ORecv r, t)
  | ProcessAcks order sock => let '(st, o, t) := process_acks_l s hs env st order sock in (st, OSend o, t)
  | _ => let '(st, x) := step env st o in (st, x, [])
  end.
Fixpoint run_l (s hs : settings) (env : denv) (st : dstate) (ops : list op)
  : dstate * list (outcome * list entry) :=
  match ops with
  | [] => (st, [])
  | o :: ops' =>
      let '(st, x, t) := step_l s hs env st o in
      let '(st, xs) := run_l s hs env st ops' in
      (st, (x, t) :: xs)
  end.

(** The dispatcher's settings that are not about logging, put into [env]. *)
Definition with_settings (s : settings) (env : denv) : denv :=
  {| e_pv := e_pv env; e_ser_dict := e_ser_dict env; e_ser_xml := e_ser_xml env;
     e_des_dict := e_des_dict env; e_des_xml := e_des_xml env;
     e_deferred := ENABLE_DEFERRED_PACKET_PARSING s; e_handle := HANDLE_PACKETS s;
     e_handle_out := HANDLE_OUTGOING_PACKETS s; e_cb := e_cb env |}.
