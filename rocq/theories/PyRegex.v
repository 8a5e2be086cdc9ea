(** The part of Python's [re] that the repository uses: re.match with greedy
    stars and pluses, lazy stars, groups, optional groups and the end anchor.
    A backtracking matcher in continuation-passing style: like Python's, it
    returns the first success in priority order. *)
From Verif Require Export Prelude.

Notation caps := (list (nat * bytes)).

Inductive re :=
| Eps
| Cls (c : byte -> bool)             (* one character of a class *)
| Star (c : byte -> bool)            (* c* (greedy) *)
| LStar (c : byte -> bool)           (* c*? (lazy) *)
| Seq (a b : re)
| Grp (n : nat) (a : re)             (* (a) *)
| Opt (a : re)                       (* a? (greedy) *)
| Eol.                               (* $ : at the end, or before a final newline *)

Definition Plus (c : byte -> bool) : re := Seq (Cls c) (Star c).

(** text consumed between two suffixes of the same string *)
Definition consumed (s s' : bytes) : bytes :=
  firstn (List.length s - List.length s') s.

Section Matcher.
  Context {A : Type}.
  Fixpoint star (c : byte -> bool) (k : bytes -> option A) (s : bytes) : option A :=
    match s with
    | a :: s' => if c a then match star c k s' with Some r => Some r | None => k s end
                 else k s
    | [] => k []
    end.
  Fixpoint lstar (c : byte -> bool) (k : bytes -> option A) (s : bytes) : option A :=
    match k s with
    | Some r => Some r
    | None => match s with
              | a :: s' => if c a then lstar c k s' else None
              | [] => None
              end
    end.
End Matcher.

Fixpoint rmatch (r : re) (cs : caps) (s : bytes) (k : caps -> bytes -> option caps)
  : option caps :=
  match r with
  | Eps => k cs s
  | Cls c => match s with a :: s' => if c a then k cs s' else None | [] => None end
  | Star c => star c (k cs) s
  | LStar c => lstar c (k cs) s
  | Seq a b => rmatch a cs s (fun cs' s' => rmatch b cs' s' k)
  | Grp n a => rmatch a cs s (fun cs' s' => k ((n, consumed s s') :: cs') s')
  | Opt a => match rmatch a cs s k with Some x => Some x | None => k cs s end
  | Eol => match s with [] => k cs s | [x0a] => k cs s | _ => None end
  end.

(** re.match(r, s): anchored at the start only; the groups of the match. *)
Definition re_match (r : re) (s : bytes) : option caps := rmatch r [] s (fun cs _ => Some cs).

Definition group (n : nat) (cs : caps) : option bytes := dget Nat.eqb n cs.

(** character classes (no re flags: ASCII) *)
Definition is_dot (b : byte) : bool := negb (Byte.eqb b x0a).          (* . *)
Definition is_digit (b : byte) : bool := (48 <=? ord b) && (ord b <=? 57).   (* \d *)
Definition is_alpha (b : byte) : bool :=
  ((65 <=? ord b) && (ord b <=? 90)) || ((97 <=? ord b) && (ord b <=? 122)).
Definition is_word (b : byte) : bool :=                                 (* \w *)
  is_alpha b || is_digit b || Byte.eqb b x5f.
Definition is_space (b : byte) : bool :=                                (* \s *)
  Byte.eqb b x20 || ((9 <=? ord b) && (ord b <=? 13)).
Definition is_chr (c : byte) (b : byte) : bool := Byte.eqb b c.

Fixpoint seqs (l : list re) : re :=
  match l with [] => Eps | [r] => r | r :: l' => Seq r (seqs l') end.
Definition lit (s : string) : re := seqs (map (fun c => Cls (is_chr c)) (bytes_of_string s)).
