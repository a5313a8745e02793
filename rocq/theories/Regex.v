(** The regular expressions of type.cpp and what [llvm::Regex::sub] does with
    them.  The engine is external; it is described by a relation, [sub_spec],
    that every theorem assumes of the functions [rx] of the environment, and by
    one executable engine that shows the relation can be met. *)
From Coq Require Import Ascii String Bool Arith.
From Coq Require Import List.
From Verif Require Import Str Types.
Import ListNotations.

(** type.cpp:619-640 [regex_arg_map]: expression and replacement, verbatim. *)
Definition regex_table : list (str * str) := [
  ($"list<(.*), *std::allocator<\1 *> *>", $"list<\1>");
  ($"deque<(.*), *std::allocator<\1 *> *>", $"deque<\1>");
  ($"vector<(.*), *std::allocator<\1 *> *>", $"vector<\1>");
  ($"set<(.*), *std::less<\1 *>, *std::allocator<\1 *> *>", $"set<\1>");
  ($"forward_list<(.*), *std::allocator<\1 *> *>", $"forward_list<\1>");
  ($"map<(.*),(.*), *std::less<\1 *>, *std::allocator<std::pair<const \1, \2 *> *> *>", $"map<\1,\2>");
  ($"multiset<(.*), *std::less<(.*)>, *std::allocator<(.*)>>", $"multiset<\1 *>");
  ($"multimap<(.*),(.*), *std::less<\1>, *std::allocator<std::pair<const \1, \2 *> *> *>", $"multimap<\1,\2>");
  ($"unordered_set<(.*), *std::hash<\1>,std::equal_to<\1>,std::allocator<\1>>", $"unordered_set<\1>");
  ($"unordered_map<(.*), *(.*),std::hash<\1>,std::equal_to<\1>,std::allocator<std::pair<const \1, \2 *> *> *>", $"unordered_map<\1,\2>");
  ($"unordered_multiset<(.*), *std::hash<\1>, *std::equal_to<\1>, *std::allocator<\1 *> *>", $"unordered_multiset<\1>");
  ($"unordered_multimap<(.*), *(.*),std::hash<\1 *>, *std::equal_to<\1 *>, *std::allocator<std::pair<const \1, \2 *> *> *>", $"unordered_multimap<\1,\2>")
].

(** The part of the syntax that the table uses: a character stands for itself,
    a parenthesised dot-star is a group matching any text, a blank followed by a star is any
    number of blanks, a backslash with a digit is what the group of that number
    matched. *)
Inductive tok := Chr (c : ascii) | Group | Blanks | Ref (n : nat).
Definition digit (c : ascii) : option nat :=
  if is_digit c then Some (nat_of_ascii c - 48) else None.
Fixpoint parse_regex (s : str) : list tok :=
  match s with
  | "("%char :: "."%char :: "*"%char :: ")"%char :: s' => Group :: parse_regex s'
  | " "%char :: "*"%char :: s' => Blanks :: parse_regex s'
  | "\"%char :: c :: s' => match digit c with Some n => Ref n | None => Chr c end :: parse_regex s'
  | c :: s' => Chr c :: parse_regex s'
  | [] => []
  end.
(** In the replacement only the backslash is special. *)
Fixpoint parse_template (s : str) : list tok :=
  match s with
  | "\"%char :: c :: s' => match digit c with Some n => Ref n | None => Chr c end :: parse_template s'
  | c :: s' => Chr c :: parse_template s'
  | [] => []
  end.

(** [rmatch p caps s caps']: the expression [p] matches exactly [s]; the groups
    matched so far are [caps], those matched at the end are [caps']. *)
Inductive rmatch : list tok -> list str -> str -> list str -> Prop :=
| M_nil caps : rmatch [] caps [] caps
| M_chr c p caps s caps' : rmatch p caps s caps' -> rmatch (Chr c :: p) caps (c :: s) caps'
| M_group x p caps s caps' : rmatch p (caps ++ [x]) s caps' -> rmatch (Group :: p) caps (x ++ s) caps'
| M_blanks n p caps s caps' : rmatch p caps s caps' -> rmatch (Blanks :: p) caps (repeat " "%char n ++ s) caps'
| M_ref n x p caps s caps' : nth_error caps (n - 1) = Some x -> rmatch p caps s caps' -> rmatch (Ref n :: p) caps (x ++ s) caps'.
(** The replacement text for given groups. *)
Fixpoint expand (t : list tok) (caps : list str) : str :=
  match t with
  | Chr c :: t' => c :: expand t' caps
  | Ref n :: t' => nth (n - 1) caps [] ++ expand t' caps
  | _ :: t' => expand t' caps
  | [] => []
  end.
(** [m] is matched inside [s], between [a] and [z]. *)
Definition matched (p : list tok) (s a m z : str) (caps : list str) : Prop := s = a ++ m ++ z /\ rmatch p [] m caps.
(** [llvm::Regex::sub]: without a match the text is unchanged; otherwise the
    leftmost match, and of these the longest, is replaced.  What the groups
    match within it is left open. *)
Definition sub_spec (p t : list tok) (s s' : str) : Prop :=
  ((forall a m z caps, ~ matched p s a m z caps) /\ s' = s) \/
  exists a m z caps, matched p s a m z caps /\ s' = a ++ expand t caps ++ z /\
    forall a' m' z' caps', matched p s a' m' z' caps' ->
      length a < length a' \/ (length a' = length a /\ length m' <= length m).
(** The functions [fs] are engines for the entries of the table. *)
Definition regex_engine (fs : list (str -> str)) : Prop :=
  Forall2 (fun e f => forall s, sub_spec (parse_regex (fst e)) (parse_template (snd e)) s (f s)) regex_table fs.

(** ** An engine *)

Fixpoint strip (x s : str) : option str :=
  match x, s with
  | [], _ => Some s
  | c :: x', d :: s' => if Ascii.eqb c d then strip x' s' else None
  | _ :: _, [] => None
  end.
(** All ways to split [s] in two. *)
Fixpoint splits (s : str) : list (str * str) :=
  ([], s) :: match s with [] => [] | c :: s' => map (fun xy => (c :: fst xy, snd xy)) (splits s') end.
(** All ways to strip blanks from the front. *)
Fixpoint blank_tails (s : str) : list str :=
  s :: match s with c :: s' => if Ascii.eqb c " " then blank_tails s' else [] | [] => [] end.
(** All matches of [p] at the start of [s]: groups, rest. *)
Fixpoint all_matches (p : list tok) (caps : list str) (s : str) : list (list str * str) :=
  match p with
  | [] => [(caps, s)]
  | Chr c :: p' => match s with d :: s' => if Ascii.eqb c d then all_matches p' caps s' else [] | [] => [] end
  | Group :: p' => flat_map (fun xy => all_matches p' (caps ++ [fst xy]) (snd xy)) (splits s)
  | Blanks :: p' => flat_map (fun s' => all_matches p' caps s') (blank_tails s)
  | Ref n :: p' => match nth_error caps (n - 1) with
                   | Some x => match strip x s with Some s' => all_matches p' caps s' | None => [] end
                   | None => []
                   end
  end.
(** The match that leaves the shortest rest. *)
Fixpoint best (l : list (list str * str)) : option (list str * str) :=
  match l with
  | [] => None
  | x :: l' => match best l' with
               | Some y => if length (snd x) <=? length (snd y) then Some x else Some y
               | None => Some x
               end
  end.
Fixpoint sub_exec (p t : list tok) (s : str) : str :=
  match best (all_matches p [] s) with
  | Some (caps, z) => expand t caps ++ z
  | None => match s with [] => [] | c :: s' => c :: sub_exec p t s' end
  end.
Definition std_engine : list (str -> str) := map (fun e => sub_exec (parse_regex (fst e)) (parse_template (snd e))) regex_table.
