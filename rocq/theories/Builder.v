(** pyogp/lib/base/message/llsd_builder.py *)
From Verif Require Export Template.

(** Blocks are objects shared between the message and [current_block]; note
    that new_message does not reset [current_block]. *)
Record builder := {
  bd_heap : list block;                               (* all blocks created *)
  bd_msg : option (list (string * list nat));         (* current_msg.blocks *)
  bd_block : option nat;                              (* current_block *)
  bd_built : bool }.

(** llsd_builder.py:24-31 *)
Definition bd_init : builder :=
  {| bd_heap := []; bd_msg := None; bd_block := None; bd_built := false |}.

(** llsd_builder.py:33-34, is_built *)
Definition is_built (b : builder) : bool := bd_built b.

(** llsd_builder.py:63-66, new_message *)
Definition bd_new_message (b : builder) : builder :=
  {| bd_heap := bd_heap b; bd_msg := Some []; bd_block := bd_block b; bd_built := false |}.

(** llsd_builder.py:68-73, next_block: has_been_built is reset before
    [None.add_block] fails. *)
Definition bd_next_block (b : builder) (name : string) : builder * res unit :=
  match bd_msg b with
  | None => ({| bd_heap := bd_heap b; bd_msg := None; bd_block := bd_block b; bd_built := false |},
             Err AttributeErr)
  | Some d =>
      let r := List.length (bd_heap b) in
      let d' := match sget name d with
                | Some l => sset name (l ++ [r]) d
                | None => sset name [r] d
                end in
      ({| bd_heap := bd_heap b ++ [new_block name]; bd_msg := Some d'; bd_block := Some r;
          bd_built := false |}, Ok tt)
  end.

Fixpoint upd_heap (n : nat) (f : block -> block) (l : list block) : list block :=
  match l, n with
  | [], _ => []
  | a :: l', O => f a :: l'
  | a :: l', S n' => a :: upd_heap n' f l'
  end.

(** llsd_builder.py:75-78, add_data (data_type is not used) *)
Definition bd_add_data (b : builder) (name : string) (data : pyval) : builder * res unit :=
  match bd_block b with
  | None => ({| bd_heap := bd_heap b; bd_msg := bd_msg b; bd_block := None; bd_built := false |},
             Err AttributeErr)
  | Some r =>
      ({| bd_heap := upd_heap r (fun bl => add_variable bl name {| v_data := data; v_type := None |})
                              (bd_heap b);
          bd_msg := bd_msg b; bd_block := Some r; bd_built := false |}, Ok tt)
  end.

(** llsd_builder.py:55-58: a block as a map *)
Definition block_map (b : block) : list (string * pyval) :=
  map (fun '(n, v) => (n, v_data v)) (b_vars b).

Notation builtmsg := (list (string * list (list (string * pyval)))).

(** llsd_builder.py:46-58, the blocks of one name *)
Fixpoint build_list (heap : list block) (refs : list nat) (msg : builtmsg) : builtmsg :=
  match refs with
  | [] => msg
  | r :: refs' =>
      match nth_error heap r with
      | None => build_list heap refs' msg             (* unreachable *)
      | Some bl =>
          let old := match sget (b_name bl) msg with Some l => l | None => [] end in
          build_list heap refs' (sset (b_name bl) (old ++ [block_map bl]) msg)
      end
  end.

(** llsd_builder.py:36-61, build_message *)
Definition bd_build (b : builder) : builder * res (builtmsg * Z) :=
  match bd_msg b with
  | None => (b, Err AttributeErr)
  | Some d =>
      let msg := fold_left (fun msg '(_, refs) => build_list (bd_heap b) refs msg) d [] in
      ({| bd_heap := bd_heap b; bd_msg := bd_msg b; bd_block := bd_block b; bd_built := true |},
       Ok (msg, zlen msg))
  end.

Inductive bop := BNew | BBlock (name : string) | BData (name : string) (data : pyval) | BBuild.
Definition bstep (b : builder) (o : bop) : builder * res (option (builtmsg * Z)) :=
  match o with
  | BNew => (bd_new_message b, Ok None)
  | BBlock n => let '(b, r) := bd_next_block b n in (b, res_map (fun _ => None) r)
  | BData n d => let '(b, r) := bd_add_data b n d in (b, res_map (fun _ => None) r)
  | BBuild => let '(b, r) := bd_build b in (b, res_map Some r)
  end.
Fixpoint brun (b : builder) (ops : list bop) : builder :=
  match ops with
  | [] => b
  | o :: ops' => brun (fst (bstep b o)) ops'
  end.
