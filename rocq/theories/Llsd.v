(** LLSD values as Python objects, with the operations event_queue.py and
    caps.py apply to them. *)
From Verif Require Export Values.

Inductive llsd :=
| LUndef                              (* None *)
| LBool (b : bool)
| LInt (z : Z)
| LReal (f : pyfloat)
| LStr (s : string)                   (* string, uri *)
| LUuid (u : Z)
| LBin (b : bytes)
| LArr (l : list llsd)
| LMap (m : list (string * llsd)).    (* in iteration order *)

(** v == False in Python 2: False itself and the numbers equal to 0. *)
Definition equals_false (v : llsd) : bool :=
  match v with
  | LBool b => negb b
  | LInt z => z =? 0
  | LReal (S754_zero _) => true
  | _ => false
  end.

(** v == -1 *)
Definition equals_minus1 (v : llsd) : bool :=
  match v with
  | LInt z => z =? -1
  | LReal f => SFeqb f (S754_finite true 4503599627370496 (-52))
  | _ => false
  end.

Definition is_none (v : llsd) : bool := match v with LUndef => true | _ => false end.

Fixpoint chars (s : string) : list llsd :=
  match s with
  | EmptyString => []
  | String c s' => LStr (String c EmptyString) :: chars s'
  end.

(** for x in v: the values x takes *)
Definition iterate (v : llsd) : res (list llsd) :=
  match v with
  | LArr l => Ok l
  | LMap m => Ok (map (fun p => LStr (fst p)) m)
  | LStr s => Ok (chars s)
  | LBin b => Ok (map (fun c => LStr (string_of_list_byte [c])) b)
  | _ => Err TypeErr
  end.

(** v[k].  Simplification: integer indexing into lists and strings is not
    needed by the modelled code and is a TypeError here. *)
Definition getitem (v k : llsd) : res llsd :=
  match v, k with
  | LMap m, LStr s => match sget s m with Some x => Ok x | None => Err KeyErr end
  | LMap m, (LArr _ | LMap _) => Err TypeErr
  | LMap m, _ => Err KeyErr
  | _, _ => Err TypeErr
  end.
