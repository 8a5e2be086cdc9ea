(** pyogp/lib/base/message/template.py and message.py: templates and messages. *)
From Verif Require Export Packer.

(** template.py:113-119, MessageTemplateVariable.  [tv_size] is None when the
    parser could not determine a size (unknown type). *)
Record tvar := { tv_name : string; tv_type : option mvt; tv_size : option Z }.

(** template.py:129-142, MessageTemplateBlock (the [variable_map] shadow of
    [variables] is not read by any modelled code). *)
Record tblock := { tb_name : string; tb_type : option mbt; tb_number : Z; tb_vars : list tvar }.

(** template.py:162-184, MessageTemplate ([block_map] likewise omitted). *)
Record template := {
  t_name : string;
  t_freq : option freq;
  t_num : Z;
  t_hex : option bytes;          (* msg_num_hex *)
  t_trust : option trust;
  t_enc : option encoding;
  t_dep : option deprecation;
  t_blocks : list tblock }.

(** template.py:79-88, MsgVariableData (the name is the key in its block). *)
Record var := { v_data : pyval; v_type : option mvt }.

(** template.py:51-73, MsgBlockData *)
Record block := {
  b_name : string;
  b_vars : list (string * var);   (* dict *)
  b_list : list string;           (* var_list *)
  b_number : Z }.

Definition new_block (name : string) : block :=
  {| b_name := name; b_vars := []; b_list := []; b_number := 0 |}.

(** template.py:71-73, MsgBlockData.add_variable *)
Definition add_variable (b : block) (name : string) (v : var) : block :=
  {| b_name := b_name b; b_vars := sset name v (b_vars b);
     b_list := b_list b ++ [name]; b_number := b_number b |}.

(** template.py:62-66, MsgBlockData.get_variable / __getitem__ *)
Definition get_variable (b : block) (name : string) : res var :=
  match sget name (b_vars b) with Some v => Ok v | None => Err KeyErr end.
Definition block_getitem (b : block) (name : string) : res pyval :=
  res_map v_data (get_variable b name).

(** message.py:56-73, Block(name, **kwargs): Variable(name, data) for each
    keyword argument, in the iteration order of the kwargs dict. *)
Definition mk_block (name : string) (kwargs : list (string * pyval)) : block :=
  fold_left (fun b '(n, d) => add_variable b n {| v_data := d; v_type := None |})
            kwargs (new_block name).

Notation blockdict := (list (string * list block)).

(** template.py:36-40, MsgData.add_block *)
Definition add_block (d : blockdict) (b : block) : blockdict :=
  match sget (b_name b) d with
  | Some l => sset (b_name b) (l ++ [b]) d
  | None => sset (b_name b) [b] d
  end.

(** template.py:42-46, MsgData.get_block / __getitem__ *)
Definition get_block (d : blockdict) (name : string) : res (list block) :=
  match sget name d with Some l => Ok l | None => Err KeyErr end.

(** message.py:88-111, Message.  Fields that nothing modelled reads (socket,
    expiration_time, resent, original_args, host) are omitted. *)
Record message := {
  m_name : string;
  m_blocks : blockdict;
  m_flags : Z;          (* send_flags *)
  m_id : Z;             (* packet_id *)
  m_eqid : Z;           (* event_queue_id *)
  m_acks : list Z;
  m_num_acks : Z;
  m_trusted : bool;
  m_reliable : bool;
  m_retries : Z }.

(** message.py:45-54, parse_blocks: each argument is a block or a list of
    blocks. *)
Inductive blockarg := One (b : block) | Many (l : list block).
Definition parse_blocks (d : blockdict) (args : list blockarg) : blockdict :=
  fold_left (fun d a => match a with
                        | One b => add_block d b
                        | Many l => fold_left add_block l d
                        end) args d.

(** message.py:88-111, Message.__init__ *)
Definition mk_message (name : string) (args : list blockarg) : message :=
  {| m_name := name; m_blocks := parse_blocks [] args; m_flags := LL_NONE; m_id := 0;
     m_eqid := 0; m_acks := []; m_num_acks := 0; m_trusted := false;
     m_reliable := false; m_retries := 1 |}.

(** message.py:113-116, Message.add_ack *)
Definition add_ack (m : message) (id : Z) : message :=
  {| m_name := m_name m; m_blocks := m_blocks m; m_flags := m_flags m; m_id := m_id m;
     m_eqid := m_eqid m; m_acks := m_acks m ++ [id]; m_num_acks := m_num_acks m + 1;
     m_trusted := m_trusted m; m_reliable := m_reliable m; m_retries := m_retries m |}.

Definition set_blocks (m : message) (d : blockdict) : message :=
  {| m_name := m_name m; m_blocks := d; m_flags := m_flags m; m_id := m_id m;
     m_eqid := m_eqid m; m_acks := m_acks m; m_num_acks := m_num_acks m;
     m_trusted := m_trusted m; m_reliable := m_reliable m; m_retries := m_retries m |}.

(** Message.add_block(block) on a message object (template.py:36-40). *)
Definition msg_add_block (m : message) (b : block) : message :=
  set_blocks m (add_block (m_blocks m) b).

(** message.py:118-120, Message.get_var: [self.blocks[block]] is a list, which
    has no attribute [vars]. *)
Definition get_var (m : message) (b v : string) : res pyval :=
  match sget b (m_blocks m) with
  | None => Err KeyErr
  | Some _ => Err AttributeErr
  end.

(** message.py:126-148, Message.to_dict, the 'body' part: [new_vars] survives
    the inner loop, so only the last block of each name is kept.  A block name
    whose list is empty would read the previous iteration's [new_vars]
    (UnboundLocalError if there is none). *)
Definition block_dict (b : block) : res (list (string * pyval)) :=
  fold_left (fun acc n =>
               do d <- acc;
               do v <- get_variable b n;
               Ok (sset n (v_data v) d)) (b_list b) (Ok []).
Fixpoint last_block_dict (prev : option (list (string * pyval))) (l : list block)
  : res (option (list (string * pyval))) :=
  match l with
  | [] => Ok prev
  | b :: l' => do d <- block_dict b; last_block_dict (Some d) l'
  end.
Fixpoint to_dict_body (prev : option (list (string * pyval))) (d : blockdict)
  (body : list (string * list (list (string * pyval))))
  : res (list (string * list (list (string * pyval)))) :=
  match d with
  | [] => Ok body
  | (name, l) :: d' =>
      do nv <- last_block_dict prev l;
      match nv with
      | None => Err UnboundLocalErr
      | Some vars =>
          let body' := match sget name body with
                       | Some x => sset name (x ++ [vars]) body
                       | None => sset name [vars] body
                       end in
          to_dict_body nv d' body'
      end
  end.
Definition to_dict (m : message) : res (string * list (string * list (list (string * pyval)))) :=
  do b <- to_dict_body None (m_blocks m) [];
  Ok (m_name m, b).

(** message.py:154-173, Message.to_llsd: [self.as_dict] does not exist. *)
Definition to_llsd (m : message) : res bytes := Err AttributeErr.
