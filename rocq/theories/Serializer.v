(** pyogp/lib/base/message/udpserializer.py *)
From Verif Require Export TemplateDict MessageXml.

(** udpserializer.py:136-166, one variable of one block instance. *)
Definition build_var (pv : pyver) (b : block) (v : tvar) : res bytes :=
  do variable <- get_variable b (tv_name v);
  do data <- pack_data pv (v_data variable) (tv_type v) None;
  match tv_type v with
  | Some MVT_VARIABLE =>
      match data with
      | None => Err TypeErr                (* unreachable: the type is known *)
      | Some d =>
          do len <-
            match tv_size v with
            | Some 1 => need (pack_data pv (VInt (zlen d)) (Some MVT_U8) None)
            | Some 2 => need (pack_data pv (VInt (zlen d)) (Some MVT_U16) None)
            | Some 4 => need (pack_data pv (VInt (zlen d)) (Some MVT_U32) None)
            | _ => Err (MessageSerializationErr "variable size" "unrecognized variable size")
            end;
          Ok (len ++ d)
      end
  | _ => need (Ok data)                    (* block_buffer += None is a TypeError *)
  end.

(** udpserializer.py:136, the inner loop over the template's variables. *)
Fixpoint build_vars (pv : pyver) (b : block) (vs : list tvar) : res bytes :=
  match vs with
  | [] => Ok []
  | v :: vs' => do x <- build_var pv b v; do y <- build_vars pv b vs'; Ok (x ++ y)
  end.

(** udpserializer.py:134, the loop over the block instances. *)
Fixpoint build_instances (pv : pyver) (tb : tblock) (bl : list block) : res bytes :=
  match bl with
  | [] => Ok []
  | b :: bl' => do x <- build_vars pv b (tb_vars tb);
                do y <- build_instances pv tb bl'; Ok (x ++ y)
  end.

(** udpserializer.py:109-168, build_block (the byte count it also returns is
    not used for anything but a sum nobody reads). *)
Definition build_block (pv : pyver) (tb : tblock) (m : message) : res bytes :=
  do block_list <- get_block (m_blocks m) (tb_name tb);
  let block_count := zlen block_list in
  do _ <- match tb_type tb with
          | Some MBT_MULTIPLE =>
              if tb_number tb =? block_count then Ok tt
              else Err (MessageSerializationErr (tb_name tb) "block data mismatch")
          | _ => Ok tt
          end;
  do count <- match tb_type tb with
              | Some MBT_VARIABLE => pack_int pv BE false 1 block_count
              | _ => Ok []
              end;
  do body <- build_instances pv tb block_list;
  Ok (count ++ body).

(** udpserializer.py:96-99 *)
Fixpoint build_blocks (pv : pyver) (tbs : list tblock) (m : message) : res bytes :=
  match tbs with
  | [] => Ok []
  | tb :: tbs' => do x <- build_block pv tb m; do y <- build_blocks pv tbs' m; Ok (x ++ y)
  end.

(** udpserializer.py:57-107, serialize.  The dead test of lines 85-86 comes
    after [self.current_template.name] has already failed. *)
Definition serialize (pv : pyver) (d : tdict) (x : xmltable) (m : message)
  : res (option bytes) :=
  match get_template d (m_name m) with
  | None => Err AttributeErr                           (* line 66 *)
  | Some t =>
      do ok <- validate_udp_msg x (t_name t);
      if negb ok then Ok None else
      do flags <- need (pack_data pv (VInt (m_flags m)) (Some MVT_U8) None);
      do id <- need (pack_data pv (VInt (m_id m)) (Some MVT_S32) (Some BE));
      do off <- need (pack_data pv (VInt 0) (Some MVT_U8) None);
      do num <- need (Ok (t_hex t));
      do body <- build_blocks pv (t_blocks t) m;
      do tail <- (if String.eqb (t_name t) "RegionHandshakeReply"
                  then pack_int pv BE false 4 0 else Ok []);
      Ok (Some (flags ++ id ++ off ++ num ++ body ++ tail))
  end.
