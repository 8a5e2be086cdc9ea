(** pyogp/lib/base/message/udpdeserializer.py *)
From Verif Require Export TemplateDict MessageXml.

(** What UDPMessageDeserializer.__init__ (39-66) sets up: the dictionary, the
    message.xml table, whether ENABLE_DEFERRED_PACKET_PARSING is on, and the
    message handler's [is_message_handled] (None when no handler was given and
    HANDLE_PACKETS is off: the attribute is then never assigned). *)
Record dconf := {
  dc_dict : tdict;
  dc_xml : xmltable;
  dc_deferred : bool;
  dc_handled : option (string -> bool) }.

(** udpdeserializer.py:364-390, zero_code_expand: [in_zero] is the flag of
    line 374. *)
Fixpoint zero_code_expand (in_zero : bool) (s : bytes) : bytes :=
  match s with
  | [] => []
  | c :: s' =>
      if Byte.eqb c x00 then x00 :: zero_code_expand true s'
      else if in_zero then repeat x00 (Z.to_nat (ord c - 1)) ++ zero_code_expand false s'
      else c :: zero_code_expand false s'
  end.

(** udpdeserializer.py:173-191, __decode_frequency *)
Definition decode_frequency (header : bytes) : res freq :=
  do h0 <- pyindex header 0;
  if Byte.eqb h0 xff then
    do h1 <- pyindex header 1;
    if Byte.eqb h1 xff then
      do h2 <- pyindex header 2;
      if Byte.eqb h2 xff then Ok FIXED else Ok LOW
    else Ok MEDIUM
  else Ok HIGH.

(** udpdeserializer.py:193-209, __decode_num (a raw struct.error can escape) *)
Definition decode_num (header : bytes) : res Z :=
  do f <- decode_frequency header;
  match f with
  | LOW => unpack_int BE false 2 (pyslice header 2 4)
  | MEDIUM => unpack_int BE false 1 (pyslice header 1 2)
  | HIGH => do h0 <- pyindex header 0; unpack_int BE false 1 [h0]
  | FIXED => unpack_int BE false 1 (pyslice header 3 4)
  end.

(** udpdeserializer.py:165-171, __decode_header *)
Definition decode_header (d : tdict) (header : bytes) : res (option template) :=
  do f <- decode_frequency header;
  do n <- decode_num header;
  Ok (get_template_by_pair d (Some f) n).

(** udpdeserializer.py:150-163, __decode_template (and 143-148) *)
Definition decode_template (d : tdict) (buf : bytes) : res (option template) :=
  if zlen buf <=? PACKET_ID_LENGTH then Err MessageDeserializationErr
  else decode_header d (pyslice buf PACKET_ID_LENGTH 12).

(** An integer read with unpack_data. *)
Definition unpack_z (data : bytes) (t : mvt) (si : Z) (et : option endian) : res Z :=
  do v <- unpack_data data (Some t) si (-1) et;
  match v with VInt z => Ok z | _ => Err TypeErr end.

(** udpdeserializer.py:240-246: the loop that reads the appended acks. *)
Fixpoint read_acks (ack_data : bytes) (pos : Z) (n : nat) : res (list Z) :=
  match n with
  | O => Ok []
  | S n' => do a <- unpack_z ack_data MVT_U32 pos None;
            do r <- read_acks ack_data (pos + 4) n';
            Ok (a :: r)
  end.

(** Results of the body loops: [Ok None] is the early [return None]. *)
Notation dres A := (res (option A)).

(** udpdeserializer.py:304-355, one variable at [pos]: its value and the next
    position.  Additions with a None size are TypeErrors. *)
Definition decode_var (data : bytes) (v : tvar) (pos : Z) : dres (pyval * Z) :=
  match tv_size v with
  | None => Err TypeErr
  | Some size0 =>
      do sp <-
        match tv_type v with
        | Some MVT_VARIABLE =>
            if zlen data <? pos + size0 then Ok None else
            do vs <- (if size0 =? 1 then unpack_z data MVT_U8 pos None
                      else if size0 =? 2 then unpack_z data MVT_U16 pos None
                      else if size0 =? 4 then unpack_z data MVT_U32 pos None
                      else Err MessageDeserializationErr);
            Ok (Some (vs, pos + size0))
        | _ => Ok (Some (size0, pos))
        end;
      match sp with
      | None => Ok None
      | Some (var_size, pos) =>
          if zlen data <? pos + var_size then Ok None else
          do u <- unpack_data data (tv_type v) pos var_size None;
          let u := match tv_type v, u with
                   | Some MVT_VARIABLE, VStr s =>
                       if String.eqb (tv_name v) "Data" then u else VStr (rstrip0 s)
                   | _, _ => u
                   end in
          Ok (Some (u, pos + var_size))
      end
  end.

(** udpdeserializer.py:302-355, the variables of one block instance. *)
Fixpoint decode_vars (data : bytes) (vs : list tvar) (b : block) (pos : Z) : dres (block * Z) :=
  match vs with
  | [] => Ok (Some (b, pos))
  | v :: vs' =>
      do r <- decode_var data v pos;
      match r with
      | None => Ok None
      | Some (u, pos') =>
          decode_vars data vs' (add_variable b (tv_name v) {| v_data := u; v_type := tv_type v |}) pos'
      end
  end.

(** udpdeserializer.py:295-355, [n] instances of a block, numbered from [i]. *)
Fixpoint decode_instances (data : bytes) (tb : tblock) (i : Z) (n : nat) (d : blockdict) (pos : Z)
  : dres (blockdict * Z) :=
  match n with
  | O => Ok (Some (d, pos))
  | S n' =>
      let b0 := {| b_name := tb_name tb; b_vars := []; b_list := []; b_number := i |} in
      do r <- decode_vars data (tb_vars tb) b0 pos;
      match r with
      | None => Ok None
      | Some (b, pos') => decode_instances data tb (i + 1) n' (add_block d b) pos'
      end
  end.

(** udpdeserializer.py:272-355, the blocks of the template. *)
Fixpoint decode_blocks (data : bytes) (tbs : list tblock) (d : blockdict) (pos : Z)
  : dres (blockdict * Z) :=
  match tbs with
  | [] => Ok (Some (d, pos))
  | tb :: tbs' =>
      do cp <- match tb_type tb with
               | Some MBT_SINGLE => Ok (Some (1, pos))
               | Some MBT_MULTIPLE => Ok (Some (tb_number tb, pos))
               | Some MBT_VARIABLE => do c <- unpack_z data MVT_U8 pos None; Ok (Some (c, pos + 1))
               | None => Ok None
               end;
      match cp with
      | None => Ok None
      | Some (count, pos) =>
          do r <- decode_instances data tb 0 (Z.to_nat count) d pos;
          match r with
          | None => Ok None
          | Some (d', pos') => decode_blocks data tbs' d' pos'
          end
      end
  end.

(** udpdeserializer.py:263-266 (a frequency of None cannot occur here: the
    template was found by a frequency/number pair; None + int is a TypeError) *)
Definition freq_bytes (t : template) : res Z :=
  match t_freq t with
  | Some f => Ok (if freq_code f =? -1 then 4 else freq_code f)
  | None => Err TypeErr
  end.

Definition has_flag (flags mask : Z) : bool := negb (Z.land flags mask =? 0).

(** udpdeserializer.py:211-362, __decode_data *)
Definition decode_data (t : template) (data : bytes) : res (option message) :=
  do c0 <- pyindex data 0;
  let flags := ord c0 in
  do id <- unpack_z data MVT_U32 1 (Some BE);
  do acks <- (if has_flag flags LL_ACK_FLAG then
                let msg_size := zlen data - 1 in
                do n <- unpack_z data MVT_U8 msg_size None;
                let ack_data := pyfrom data (msg_size - n * 4) in
                read_acks ack_data 0 (Z.to_nat n)
              else Ok []);
  let reliable := has_flag flags LL_RELIABLE_FLAG in
  do offset <- unpack_z data MVT_U8 PHL_OFFSET None;
  do fb <- freq_bytes t;
  let pos := PACKET_ID_LENGTH + fb + offset in
  do r <- decode_blocks data (t_blocks t) [] pos;
  match r with
  | None => Ok None
  | Some (d, _) =>
      if (zlen d <=? 0) && (0 <? zlen (t_blocks t)) then Err MessageDeserializationErr
      else Ok (Some {| m_name := t_name t; m_blocks := d; m_flags := flags; m_id := id;
                       m_eqid := 0; m_acks := acks; m_num_acks := zlen acks;
                       m_trusted := false; m_reliable := reliable; m_retries := 1 |})
  end.

(** udpdeserializer.py:76-85: strip the appended acks. *)
Definition strip_acks (buf : bytes) : res (bytes * bytes) :=
  do c0 <- pyindex buf 0;
  if has_flag (ord c0) LL_ACK_FLAG then
    do last <- pyindex buf (zlen buf - 1);
    let ack_length := 1 + 4 * ord last in
    Ok (pyupto buf (- ack_length), pyfrom buf (- ack_length))
  else Ok (buf, []).

(** udpdeserializer.py:89-110: expand the zero-coded part. *)
Definition expand (buf : bytes) : res bytes :=
  do c0 <- pyindex buf 0;
  if has_flag (ord c0) LL_ZERO_CODE_FLAG then
    do o <- pyindex buf 5;
    let offset := ord o in
    let header := pyupto buf (6 + offset) in
    let inputbuf := pyfrom buf (6 + offset) in
    Ok (header ++ zero_code_expand false inputbuf)
  else Ok buf.

(** udpdeserializer.py:68-141, deserialize.  The [except] of 128-130 turns
    DataUnpackingError into MessageDeserializationError. *)
Definition deserialize (c : dconf) (buf : bytes) : res (option message) :=
  do (msg_buff, temp_acks) <- strip_acks buf;
  do msg_buff <- expand msg_buff;
  do t <- decode_template (dc_dict c) msg_buff;
  match t with
  | None => Ok None
  | Some t =>
      let msg_buff := msg_buff ++ temp_acks in
      do ok <- validate_udp_msg (dc_xml c) (t_name t);
      if negb ok then Ok None else
      match dc_handled c with
      | None => Err AttributeErr
      | Some handled =>
          if handled (t_name t) || negb (dc_deferred c) then
            match decode_data t msg_buff with
            | Err DataUnpackingErr => Err MessageDeserializationErr
            | r => r
            end
          else Ok None
      end
  end.
