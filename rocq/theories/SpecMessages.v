(** Vocabulary for the statements about messages and the LLSD builder. *)
From Verif Require Export Builder.

(** The last value given for [k] in a sequence of assignments. *)
Fixpoint last_given {V} (k : string) (given : list (string * V)) : option V :=
  match given with
  | [] => None
  | (k', v) :: rest =>
      match last_given k rest with
      | Some w => Some w
      | None => if String.eqb k k' then Some v else None
      end
  end.

(** [m] is a map holding, for each key, the last value given. *)
Definition is_map_of {V} (given m : list (string * V)) : Prop :=
  NoDup (map fst m) /\ forall k, sget k m = last_given k given.

(** The blocks passed to Message(name, ...), lists opened. *)
Definition flat_args (args : list blockarg) : list block :=
  flat_map (fun a => match a with One b => [b] | Many l => l end) args.
Definition of_name (name : string) (b : block) : bool := String.eqb (b_name b) name.

(** [b] is a block of that name whose variables were set by [given], in order
    (by keyword arguments or add_variable). *)
Definition block_given (b : block) (name : string) (given : list (string * var)) : Prop :=
  exists number, b = fold_left (fun b '(n, v) => add_variable b n v) given
    {| b_name := name; b_vars := []; b_list := []; b_number := number |}.
Definition values {K} (given : list (K * var)) : list (K * pyval) :=
  map (fun '(k, v) => (k, v_data v)) given.

(** The meaning of a builder history: the blocks of the message being built,
    in order, each with the data given to it in order; None before the first
    new_message.  Data added before the first next_block of a message is not
    part of that message. *)
Fixpoint add_to_last {A} (x : A) (l : list (string * list A)) : list (string * list A) :=
  match l with
  | [] => []
  | [(n, d)] => [(n, d ++ [x])]
  | e :: l' => e :: add_to_last x l'
  end.
Definition written_step (w : option (list (string * list (string * pyval)))) (o : bop) :=
  match o, w with
  | BNew, _ => Some []
  | BBlock n, Some l => Some (l ++ [(n, [])])
  | BData n d, Some l => Some (add_to_last (n, d) l)
  | _, w => w
  end.
Definition written (ops : list bop) : option (list (string * list (string * pyval))) :=
  fold_left written_step ops None.

Definition data_of_name (name : string) (l : list (string * list (string * pyval))) :=
  map snd (filter (fun '(n, _) => String.eqb n name) l).

(** [m] maps each block name of [l] to the maps of its blocks, in order. *)
Definition is_built_from (l : list (string * list (string * pyval))) (m : builtmsg) : Prop :=
  NoDup (map fst m) /\
  forall name,
    match data_of_name name l with
    | [] => sget name m = None
    | ds => exists ms, sget name m = Some ms /\ Forall2 is_map_of ds ms
    end.
Definition distinct_count (l : list string) : Z := zlen (nodup string_dec l).
