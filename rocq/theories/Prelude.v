(** Basic vocabulary of the model: Python exceptions as values, byte strings,
    Python slicing and indexing, insertion-ordered dictionaries.

    Nothing here models a particular function of the repository; these are the
    parts of the Python 2 language that the modelled functions rely on. *)
From Coq Require Export List ZArith Bool String Lia.
From Coq Require Export Init.Byte.
Export ListNotations.
Open Scope list_scope.
Open Scope Z_scope.

(** Python exceptions that the modelled code can raise.  [Raised n] stands for
    an arbitrary exception raised by code outside the repository (subscriber
    callbacks, the socket, the REST client); its [nat] distinguishes them. *)
Inductive exn : Type :=
| StructError            (* struct.error *)
| OverflowErr | TypeErr | ValueErr | AttributeErr | KeyErr | IndexErr
| NameErr | UnboundLocalErr | AssertionErr
| DataUnpackingErr       (* exc.DataUnpackingError *)
| MessageSerializationErr (block msg : string)   (* exc.MessageSerializationError *)
| MessageDeserializationErr                      (* exc.MessageDeserializationError *)
| MessageTemplateNotFoundErr
| DataParsingErr
| MessageBuildingErr (label reason : string)      (* exc.MessageBuildingError *)
| BinasciiErr            (* binascii.Error *)
| RegionDomainErr
| ResourceNotFoundErr (url : string)
| ResourceErr (url : string) (code : Z) (method : string)
| DeserializerNotFoundErr (ctype : string)
| SerializerNotFoundErr
| DeserializationFailedErr
| Raised (n : nat).

Inductive res (A : Type) : Type :=
| Ok (a : A)
| Err (e : exn).
Arguments Ok {A} a.
Arguments Err {A} e.

Definition bind {A B} (x : res A) (f : A -> res B) : res B :=
  match x with Ok a => f a | Err e => Err e end.
Notation "'do' x <- e ; f" := (bind e (fun x => f))
  (at level 200, x pattern, e at level 100, f at level 200, right associativity).

Definition res_map {A B} (f : A -> B) (x : res A) : res B :=
  match x with Ok a => Ok (f a) | Err e => Err e end.

Definition is_ok {A} (x : res A) : bool := match x with Ok _ => true | Err _ => false end.

Notation bytes := (list byte).

(** [ord(c)] and [chr(z)] (the latter on the low 8 bits). *)
Definition ord (b : byte) : Z := Z.of_N (Byte.to_N b).
Definition chr (z : Z) : byte :=
  match Byte.of_N (Z.to_N (z mod 256)) with Some b => b | None => x00 end.

Definition zlen {A} (l : list A) : Z := Z.of_nat (List.length l).

(** Python slice bound normalisation: negative bounds count from the end, and
    both are clamped into [0, len]. *)
Definition slice_bound (len i : Z) : Z :=
  if i <? 0 then Z.max 0 (i + len) else Z.min i len.

(** [s[i:j]] *)
Definition pyslice {A} (s : list A) (i j : Z) : list A :=
  let len := zlen s in
  let a := slice_bound len i in
  let b := slice_bound len j in
  firstn (Z.to_nat (b - a)) (skipn (Z.to_nat a) s).

(** [s[i:]] and [s[:j]] *)
Definition pyfrom {A} (s : list A) (i : Z) : list A := pyslice s i (zlen s).
Definition pyupto {A} (s : list A) (j : Z) : list A := pyslice s 0 j.

(** [s[i]], raising IndexError outside [-len, len). *)
Definition pyindex {A} (s : list A) (i : Z) : res A :=
  let k := if i <? 0 then i + zlen s else i in
  if k <? 0 then Err IndexErr
  else match nth_error s (Z.to_nat k) with
       | Some x => Ok x
       | None => Err IndexErr
       end.

(** Dictionaries: association lists in order of first insertion, at most one
    entry per key. *)
Section Dict.
  Context {K V : Type} (eqb : K -> K -> bool).
  Fixpoint dget (k : K) (d : list (K * V)) : option V :=
    match d with
    | [] => None
    | (k', v) :: d' => if eqb k k' then Some v else dget k d'
    end.
  Definition dmem (k : K) (d : list (K * V)) : bool :=
    match dget k d with Some _ => true | None => false end.
  Fixpoint dset (k : K) (v : V) (d : list (K * V)) : list (K * V) :=
    match d with
    | [] => [(k, v)]
    | (k', v') :: d' => if eqb k k' then (k', v) :: d' else (k', v') :: dset k v d'
    end.
  Fixpoint ddel (k : K) (d : list (K * V)) : list (K * V) :=
    match d with
    | [] => []
    | (k', v') :: d' => if eqb k k' then d' else (k', v') :: ddel k d'
    end.
End Dict.
Definition dkeys {K V} (d : list (K * V)) : list K := map fst d.
Definition dvals {K V} (d : list (K * V)) : list V := map snd d.

Notation sget := (dget String.eqb).
Notation sset := (dset String.eqb).
Notation smem := (dmem String.eqb).

(** [s.rstrip('\x00')] on byte strings. *)
Fixpoint lstrip0 (s : bytes) : bytes :=
  match s with
  | x00 :: s' => lstrip0 s'
  | _ => s
  end.
Definition rstrip0 (s : bytes) : bytes := rev (lstrip0 (rev s)).

(** String literal as bytes (names are kept as [string]). *)
Definition bytes_of_string (s : string) : bytes := list_byte_of_string s.
