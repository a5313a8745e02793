(** Model of the [std::string] operations that the binder sources use.

    A C++ [std::string] is a finite sequence of [char]; it is modelled as
    [list ascii] (8-bit characters).  This file models the C++ standard
    library, not /repo code; every later file builds on it. *)
From Coq Require Import Ascii String Bool Arith NArith DecimalString Decimal.
From Coq Require Import List.
Import ListNotations.

Notation str := (list ascii).

(** String literals: [$"abc"]. *)
Notation "$ s" := (list_ascii_of_string s) (at level 0, s at level 0, format "$ s").

Definition nl  : ascii := "010"%char.   (* '\n' *)
Definition tab : ascii := "009"%char.   (* '\t' *)
Definition cr  : ascii := "013"%char.   (* '\r' *)
Definition sp  : ascii := " "%char.
Definition dq  : ascii := """"%char.
Definition bs  : ascii := "\"%char.

(** [operator==(std::string, std::string)] *)
Fixpoint streqb (a b : str) : bool :=
  match a, b with
  | [], [] => true
  | x :: a', y :: b' => Ascii.eqb x y && streqb a' b'
  | _, _ => false
  end.

(** [std::find(v.begin(), v.end(), s) != v.end()] and [set.count(s)] *)
Definition mem (s : str) (l : list str) : bool := existsb (streqb s) l.

(** [std::string::substr(pos, n)], defined for [pos <= size()]. *)
Definition substr (s : str) (pos n : nat) : str := firstn n (skipn pos s).

(** [!s.compare(pos, n, t)]: the [n] characters at [pos] (fewer if the string
    ends) are equal to [t].  Defined for [pos <= size()]. *)
Definition same_at (s : str) (pos n : nat) (t : str) : bool := streqb (substr s pos n) t.

(** [s] starts with [p]. *)
Fixpoint prefixb (p s : str) : bool :=
  match p, s with
  | [], _ => true
  | x :: p', y :: s' => Ascii.eqb x y && prefixb p' s'
  | _ :: _, [] => false
  end.

(** [s.find(p)] *)
Fixpoint find0 (p s : str) : option nat :=
  if prefixb p s then Some 0
  else match s with
       | [] => None
       | _ :: s' => option_map S (find0 p s')
       end.

(** [s.find(p, pos)]; [None] is [std::string::npos]. *)
Definition find (s p : str) (pos : nat) : option nat :=
  if pos <=? length s then option_map (fun i => pos + i) (find0 p (skipn pos s)) else None.

(** [s.rfind(p)] *)
Fixpoint rfind (s p : str) : option nat :=
  match s with
  | [] => if prefixb p [] then Some 0 else None
  | _ :: s' => match rfind s' p with
               | Some i => Some (S i)
               | None => if prefixb p s then Some 0 else None
               end
  end.

(** [s.replace(pos, n, t)] *)
Definition splice (s : str) (pos n : nat) (t : str) : str :=
  firstn pos s ++ t ++ skipn (pos + n) s.

(** [s.find(c)] for a character. *)
Fixpoint find_char (s : str) (c : ascii) : option nat :=
  match s with
  | [] => None
  | x :: s' => if Ascii.eqb x c then Some 0 else option_map S (find_char s' c)
  end.

(** [s.erase(std::remove(s.begin(), s.end(), c), s.end())] *)
Definition remove_char (c : ascii) (s : str) : str := filter (fun x => negb (Ascii.eqb x c)) s.

(** [std::to_string(n)] for [n >= 0]. *)
Definition dec (n : nat) : str := list_ascii_of_string (NilZero.string_of_uint (Nat.to_uint n)).

(** Three-way lexicographic comparison: [std::string::compare], i.e. the order
    of [std::set<std::string>] (characters compared as unsigned bytes). *)
Fixpoint strcmp (a b : str) : comparison :=
  match a, b with
  | [], [] => Eq
  | [], _ :: _ => Lt
  | _ :: _, [] => Gt
  | x :: a', y :: b' => match N.compare (N_of_ascii x) (N_of_ascii y) with
                        | Eq => strcmp a' b'
                        | c => c
                        end
  end.

(** [std::set<std::string>::insert] on the sorted sequence of its elements. *)
Fixpoint set_insert (s : str) (l : list str) : list str :=
  match l with
  | [] => [s]
  | x :: l' => match strcmp s x with
               | Lt => s :: l
               | Eq => l
               | Gt => x :: set_insert s l'
               end
  end.

(** [std::set<std::string>(v.begin(), v.end())], in iteration order. *)
Definition set_of (l : list str) : list str := fold_left (fun acc s => set_insert s acc) l [].

(** [std::map<std::string, A>] as an association list with unique keys. *)
Fixpoint lookup {A} (k : str) (m : list (str * A)) : option A :=
  match m with
  | [] => None
  | (k', v) :: m' => if streqb k k' then Some v else lookup k m'
  end.

(** [m[k] = v] *)
Fixpoint update {A} (k : str) (v : A) (m : list (str * A)) : list (str * A) :=
  match m with
  | [] => [(k, v)]
  | (k', v') :: m' => if streqb k k' then (k', v) :: m' else (k', v') :: update k v m'
  end.

(** C-locale [std::isalpha], [std::isdigit], [std::isalnum] on 7-bit characters. *)
Definition in_range (lo hi : N) (c : ascii) : bool :=
  let n := N_of_ascii c in (N.leb lo n && N.leb n hi)%bool.
Definition is_alpha (c : ascii) : bool := in_range 65 90 c || in_range 97 122 c.
Definition is_digit (c : ascii) : bool := in_range 48 57 c.
Definition is_alnum (c : ascii) : bool := is_alpha c || is_digit c.
