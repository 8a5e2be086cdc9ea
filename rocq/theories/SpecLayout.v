(** Specification vocabulary for whole packets: what a serialized packet looks
    like (C06, C18, C19) and what a received datagram says (C09, C10, C13, C14,
    C16, C17, C20).  Nothing here refers to the serializer or the deserializer;
    single values are described through DataPacker.pack_data and
    DataUnpacker.unpack_data (see C01-C05), blocks through the accessors
    [message[name]] ([get_block]) and [block[name]] ([block_getitem]). *)
From Verif Require Import MsgTypes Template TemplateDict MessageXml SpecCodec SpecWire.

(** ** Common *)
(** message.xml lets the message travel over UDP. *)
Definition udp_allowed (x : xmltable) (name : string) : Prop :=
  match sget name x with
  | Some (Some flavor) => flavor = "template"%string
  | Some None => False
  | None => True
  end.
Definition udp_banned (x : xmltable) (name : string) : Prop :=
  exists flavor, sget name x = Some (Some flavor) /\ flavor <> "template"%string.
(** A number written into [size] bytes: Python <= 2.6 wraps it, 2.7 accepts it
    only if it fits. *)
Definition written (pv : pyver) (sg : bool) (size z : Z) : Prop := pv = Py26 \/ fits sg size z.

(** ** What is sent *)
(** [field_layout pv v x w]: the value [x] of the template variable [v] is sent
    as the bytes [w]. *)
Inductive field_layout (pv : pyver) (v : tvar) (x : pyval) : bytes -> Prop :=
| fl_plain w : tv_type v <> Some MVT_VARIABLE ->
    pack_data pv x (tv_type v) None = Ok (Some w) -> field_layout pv v x w
| fl_variable p len d : tv_type v = Some MVT_VARIABLE -> tv_size v = Some p -> In p [1; 2; 4] ->
    pack_data pv x (Some MVT_VARIABLE) None = Ok (Some d) ->
    zlen len = p -> written pv false p (zlen d) -> value_lsb_first len = zlen d mod 2 ^ (8 * p) ->
    field_layout pv v x (len ++ d).
(** One block instance: its fields in template order. *)
Definition instance_layout (pv : pyver) (tb : tblock) (b : block) (w : bytes) : Prop :=
  exists ws, w = List.concat ws /\
    Forall2 (fun v fw => exists x, block_getitem b (tv_name v) = Ok x /\ field_layout pv v x fw)
            (tb_vars tb) ws.
(** One template block: the repeat count if it is Variable, then the instances. *)
Definition block_layout (pv : pyver) (tb : tblock) (m : message) (w : bytes) : Prop :=
  exists l count ws, get_block (m_blocks m) (tb_name tb) = Ok l /\
    w = count ++ List.concat ws /\
    match tb_type tb with
    | Some MBT_VARIABLE => exists c, count = [c] /\ byte_value c = zlen l mod 256 /\ written pv false 1 (zlen l)
    | Some MBT_MULTIPLE => count = [] /\ zlen l = tb_number tb
    | _ => count = []
    end /\
    Forall2 (instance_layout pv tb) l ws.
(** The whole packet. *)
Definition packet_layout (pv : pyver) (d : tdict) (x : xmltable) (m : message) (w : bytes) : Prop :=
  exists t flags id number ws tail,
    get_template d (m_name m) = Some t /\ udp_allowed x (t_name t) /\
    w = [flags] ++ id ++ [x00] ++ number ++ List.concat ws ++ tail /\
    byte_value flags = m_flags m mod 256 /\ written pv false 1 (m_flags m) /\
    zlen id = 4 /\ value_msb_first id = m_id m mod 2 ^ 32 /\ written pv true 4 (m_id m) /\
    t_hex t = Some number /\
    Forall2 (fun tb bw => block_layout pv tb m bw) (t_blocks t) ws /\
    tail = if String.eqb (t_name t) "RegionHandshakeReply" then repeat x00 4 else [].

(** Two messages that look the same to a template. *)
Definition same_for (t : template) (m m' : message) : Prop :=
  m_name m = m_name m' /\ m_flags m = m_flags m' /\ m_id m = m_id m' /\
  forall tb, In tb (t_blocks t) ->
    match get_block (m_blocks m) (tb_name tb), get_block (m_blocks m') (tb_name tb) with
    | Ok l, Ok l' => Forall2 (fun b b' => forall v, In v (tb_vars tb) ->
                       block_getitem b (tv_name v) = block_getitem b' (tv_name v)) l l'
    | Err _, Err _ => True
    | _, _ => False
    end.

(** ** What is received *)
(** Declared sizes are positive (true of every template that the parser can
    produce from a sensible file; see C53). *)
Definition sized (t : template) : Prop :=
  forall tb v s, In tb (t_blocks t) -> In v (tb_vars tb) -> tv_size v = Some s -> 1 <= s.

(** [field_read v w y]: the bytes [w] are one field of the template variable
    [v], read as [y]. *)
Inductive field_read (v : tvar) : bytes -> pyval -> Prop :=
| fr_plain w y : tv_type v <> Some MVT_VARIABLE -> tv_size v = Some (zlen w) ->
    unpack_data w (tv_type v) (-1) (-1) None = Ok y -> field_read v w y
| fr_data p len d : tv_type v = Some MVT_VARIABLE -> tv_size v = Some p -> In p [1; 2; 4] ->
    zlen len = p -> value_lsb_first len = zlen d -> tv_name v = "Data"%string ->
    field_read v (len ++ d) (VStr d)
| fr_text p len d r : tv_type v = Some MVT_VARIABLE -> tv_size v = Some p -> In p [1; 2; 4] ->
    zlen len = p -> value_lsb_first len = zlen d -> tv_name v <> "Data"%string ->
    without_trailing_nuls d r -> field_read v (len ++ d) (VStr r).
(** The block object holding the values [ys] of the variables of [tb]. *)
Definition the_block (tb : tblock) (i : Z) (ys : list pyval) : block :=
  fold_left (fun b vy => add_variable b (tv_name (fst vy)) {| v_data := snd vy; v_type := tv_type (fst vy) |})
            (combine (tb_vars tb) ys)
            {| b_name := tb_name tb; b_vars := []; b_list := []; b_number := i |}.
Definition instance_read (tb : tblock) (i : Z) (w : bytes) (b : block) : Prop :=
  exists ws ys, w = List.concat ws /\ b = the_block tb i ys /\
    Forall2 (fun v wy => field_read v (fst wy) (snd wy)) (tb_vars tb) (combine ws ys) /\
    List.length ws = List.length ys.
Inductive instances_read (tb : tblock) : Z -> bytes -> list block -> Prop :=
| ir_nil i : instances_read tb i [] []
| ir_cons i w b w' bs : instance_read tb i w b -> instances_read tb (i + 1) w' bs ->
    instances_read tb i (w ++ w') (b :: bs).
(** The instances of one template block. *)
Inductive block_read (tb : tblock) : bytes -> list block -> Prop :=
| br_single w b : tb_type tb = Some MBT_SINGLE -> instances_read tb 0 w [b] -> block_read tb w [b]
| br_multiple w bs : tb_type tb = Some MBT_MULTIPLE -> zlen bs = Z.max 0 (tb_number tb) ->
    instances_read tb 0 w bs -> block_read tb w bs
| br_variable c w bs : tb_type tb = Some MBT_VARIABLE -> byte_value c = zlen bs ->
    instances_read tb 0 w bs -> block_read tb (c :: w) bs.
Inductive blocks_read : list tblock -> bytes -> list block -> Prop :=
| bsr_nil : blocks_read [] [] []
| bsr_cons tb w bs tbs w' bs' : block_read tb w bs -> blocks_read tbs w' bs' ->
    blocks_read (tb :: tbs) (w ++ w') (bs ++ bs').

(** Bits of the flags byte. *)
Definition bit (flags : byte) (k : Z) : bool := Z.testbit (byte_value flags) k.
Definition zero_bit := 7. Definition reliable_bit := 6. Definition ack_bit := 4.

(** [ack_trailer w ids]: four little-endian bytes for each id, then the count. *)
Definition ack_trailer (w : bytes) (ids : list Z) : Prop :=
  exists ws c, w = List.concat ws ++ [c] /\ byte_value c = zlen ids /\
    Forall2 (fun aw id => zlen aw = 4 /\ value_lsb_first aw = id) ws ids.
(** [unwrapped buf plain trailer ids]: the datagram [buf] consists of a (possibly
    zero-coded) packet that expands to [plain], and the ack trailer. *)
Definition unwrapped (buf plain trailer : bytes) (ids : list Z) : Prop :=
  exists f tl coded, buf = (f :: tl) ++ trailer /\ coded = f :: tl /\
    (if bit f ack_bit then ack_trailer trailer ids else trailer = [] /\ ids = []) /\
    (if bit f zero_bit then
       exists o, nth_error coded 5 = Some o /\
       let k := Z.to_nat (6 + byte_value o) in
       exists p, expansion (skipn k coded) p /\ plain = firstn k coded ++ p
     else plain = coded).

(** [datagram_says d allowed wanted buf m]: the datagram [buf] carries the message
    [m]; [allowed] and [wanted] say which message names may come over UDP and
    which are to be parsed. *)
Definition datagram_says (d : tdict) (allowed wanted : string -> Prop) (buf : bytes) (m : message) : Prop :=
  exists plain trailer ids t f n h rest0,
    unwrapped buf plain trailer ids /\
    (exists six, plain = six ++ h ++ rest0 /\ zlen six = 6) /\
    wire_number f n h /\ codable f n /\ get_template_by_pair d (Some f) n = Some t /\
    allowed (t_name t) /\ wanted (t_name t) /\
    exists flags id off after body rest bs,
      plain ++ trailer = flags :: id ++ off :: after /\ zlen id = 4 /\
      skipn (Z.to_nat (6 + number_width f + byte_value off)) (plain ++ trailer) = body ++ rest /\
      blocks_read (t_blocks t) body bs /\ (bs <> [] \/ t_blocks t = []) /\
      m_name m = t_name t /\ m_flags m = byte_value flags /\ m_id m = value_msb_first id /\
      m_blocks m = fold_left add_block bs [] /\ m_acks m = ids /\ m_num_acks m = zlen ids /\
      m_reliable m = bit flags reliable_bit /\
      m_eqid m = 0 /\ m_trusted m = false /\ m_retries m = 1.

(** [carries d buf t]: the datagram carries the message number of the template
    [t]: the number stands right after the first six bytes of the unwrapped
    packet. *)
Definition carries (d : tdict) (buf : bytes) (t : template) : Prop :=
  exists plain trailer ids six h rest f n,
    unwrapped buf plain trailer ids /\ plain = six ++ h ++ rest /\ zlen six = 6 /\
    wire_number f n h /\ codable f n /\ get_template_by_pair d (Some f) n = Some t.

(** ** Malformed datagrams *)
(** Every block has a known type, every variable a known type and the size that
    goes with it. *)
Definition well_formed (t : template) : Prop :=
  forall tb, In tb (t_blocks t) -> tb_type tb <> None /\
  forall v, In v (tb_vars tb) -> exists ty s, tv_type v = Some ty /\ tv_size v = Some s /\
    match ty with
    | MVT_FIXED => 1 <= s
    | MVT_VARIABLE => In s [1; 2; 4]
    | _ => s = sizeof_mvt ty
    end.
(** The packet ends in the middle of the message number. *)
Definition number_cut (plain : bytes) (e : exn) : Prop :=
  exists six, zlen six = 6 /\
    ((e = IndexErr /\ (plain = six ++ [xff] \/ plain = six ++ [xff; xff])) \/
     (e = StructError /\ exists c, plain = six ++ [xff; xff; c])).
(** The datagrams whose header makes the decoder raise something undocumented. *)
Inductive header_failure (buf : bytes) : exn -> Prop :=
| hf_empty : buf = [] -> header_failure buf IndexErr
| hf_trailer f tl l c : buf = f :: tl -> bit f ack_bit = true -> buf = l ++ [c] ->
    zlen buf <= 1 + 4 * byte_value c -> header_failure buf IndexErr
| hf_offset f tl tr ids : buf = (f :: tl) ++ tr ->
    (if bit f ack_bit then ack_trailer tr ids else tr = [] /\ ids = []) ->
    bit f zero_bit = true -> zlen (f :: tl) < 6 -> header_failure buf IndexErr
| hf_number plain tr ids e : unwrapped buf plain tr ids -> number_cut plain e -> header_failure buf e.

(** The message with other send flags and other acks. *)
Definition reflagged (z : Z) (acks : list Z) (m : message) : message :=
  {| m_name := m_name m; m_blocks := m_blocks m; m_flags := z; m_id := m_id m;
     m_eqid := m_eqid m; m_acks := acks; m_num_acks := zlen acks;
     m_trusted := m_trusted m; m_reliable := m_reliable m; m_retries := m_retries m |}.

(** How many instances of a template block a decoded message can hold. *)
Definition decoded_count (tb : tblock) (n : Z) : Prop :=
  match tb_type tb with
  | Some MBT_SINGLE => n = 1
  | Some MBT_MULTIPLE => n = Z.max 0 (tb_number tb)
  | Some MBT_VARIABLE => 0 <= n <= 255
  | None => False
  end.
