(** UUID, Vector3 and Quaternion objects (datatypes.py) as objects: what ==, !=,
    hash() and dictionaries make of them, and how they change.
    UUID defines __eq__ (237-241) but neither __ne__ nor __hash__, Vector3 and
    Quaternion none of the three. *)
From Verif Require Export Objects.

(** The contents of an object; an object is known by its place in the heap. *)
Inductive content :=
| CUuid (u : Z)               (* self.uuid *)
| CVec (v : vec3)             (* self.X, self.Y, self.Z *)
| CQuat (q : quat).
Notation ref := nat (only parsing).
Definition heap := list content.

(** a == b.  UUID.__eq__ compares with whatever has an attribute [uuid]; if the
    left operand has no __eq__ the right one's is tried; without either two
    objects are equal iff they are the same. *)
Definition obj_eq (h : heap) (a b : ref) : bool :=
  match nth_error h a, nth_error h b with
  | Some (CUuid u), Some (CUuid v) => u =? v
  | Some (CUuid _), _ | _, Some (CUuid _) => false
  | _, _ => Nat.eqb a b
  end.
(** a != b: no __ne__ anywhere, so Python 2 compares addresses. *)
Definition obj_ne (a b : ref) : bool := negb (Nat.eqb a b).
(** hash(a): object.__hash__, a one-to-one function of the address. *)
Definition obj_hash (a : ref) : nat := a.
(** x in l, for a list *)
Definition obj_in (h : heap) (x : ref) (l : list ref) : bool :=
  existsb (fun y => Nat.eqb x y || obj_eq h x y) l.

(** A dictionary with objects as keys: an entry is found if its key is the
    object or has its hash and is equal to it. *)
Section Dict.
Context {V : Type}.
Definition found (h : heap) (k k' : ref) : bool :=
  Nat.eqb k k' || (Nat.eqb (obj_hash k) (obj_hash k') && obj_eq h k k').
Fixpoint odict_get (h : heap) (k : ref) (d : list (ref * V)) : option V :=
  match d with
  | [] => None
  | (k', v) :: d' => if found h k k' then Some v else odict_get h k d'
  end.
Fixpoint odict_set (h : heap) (k : ref) (v : V) (d : list (ref * V)) : list (ref * V) :=
  match d with
  | [] => [(k, v)]
  | (k', v') :: d' => if found h k k' then (k', v) :: d' else (k', v') :: odict_set h k v d'
  end.
End Dict.

(** What a program does with such objects, with one dictionary keyed by objects
    and one keyed by what UUID objects return when called (231-234: a uuid.UUID,
    which is compared and hashed by value). *)
Inductive action :=
| New (c : content)                   (* a constructor that succeeded *)
| Copy (a : ref)                      (* a.copy() *)
| Random (a : ref) (fresh : Z)        (* a.random(), uuid4() giving [fresh] *)
| Unpack (a : ref) (c : content)      (* a.unpack_from_bytes(..), or assigning attributes *)
| Store (a : ref) (v : Z)             (* d[a] = v *)
| StoreValue (a : ref) (v : Z).       (* e[a()] = v, for a UUID *)

Record world := { w_heap : heap; w_dict : list (ref * Z); w_values : list (Z * Z) }.
Definition empty_world : world := {| w_heap := []; w_dict := []; w_values := [] |}.

Fixpoint replace_nth {A} (l : list A) (n : nat) (x : A) : list A :=
  match l, n with
  | [], _ => []
  | _ :: l', O => x :: l'
  | a :: l', S n' => a :: replace_nth l' n' x
  end.
(** Both contents are of the same class. *)
Definition same_class (c c' : content) : bool :=
  match c, c' with
  | CUuid _, CUuid _ | CVec _, CVec _ | CQuat _, CQuat _ => true
  | _, _ => false
  end.
(** 223-224, 74-75, 168-169, copy() *)
Definition copy_of (txt : bytes -> res pyfloat) (c : content) : res content :=
  match c with
  | CUuid u => do u <- uuid_copy u; Ok (CUuid u)
  | CVec v => do v <- vec3_copy txt v; Ok (CVec v)
  | CQuat q => do q <- quat_copy txt q; Ok (CQuat q)
  end.

(** One action; None if it cannot be done: there is no such object, or it has
    no such method. *)
Definition act (txt : bytes -> res pyfloat) (w : world) (x : action) : option world :=
  let with_heap h := Some {| w_heap := h; w_dict := w_dict w; w_values := w_values w |} in
  match x with
  | New c => with_heap (w_heap w ++ [c])
  | Copy a => match nth_error (w_heap w) a with
              | Some c => match copy_of txt c with
                          | Ok c' => with_heap (w_heap w ++ [c'])
                          | Err _ => None
                          end
              | None => None
              end
  | Random a fresh => match nth_error (w_heap w) a with
                      | Some (CUuid u) => with_heap (replace_nth (w_heap w) a (CUuid (fst (uuid_random u fresh))))
                      | _ => None
                      end
  | Unpack a c => match nth_error (w_heap w) a with
                  | Some c0 => if same_class c0 c then with_heap (replace_nth (w_heap w) a c) else None
                  | None => None
                  end
  | Store a v => match nth_error (w_heap w) a with
                 | Some _ => Some {| w_heap := w_heap w; w_dict := odict_set (w_heap w) a v (w_dict w);
                                     w_values := w_values w |}
                 | None => None
                 end
  | StoreValue a v => match nth_error (w_heap w) a with
                      | Some (CUuid u) => Some {| w_heap := w_heap w; w_dict := w_dict w;
                                                  w_values := dset Z.eqb u v (w_values w) |}
                      | _ => None
                      end
  end.
Fixpoint acts (txt : bytes -> res pyfloat) (w : world) (l : list action) : option world :=
  match l with
  | [] => Some w
  | x :: l' => match act txt w x with Some w' => acts txt w' l' | None => None end
  end.
