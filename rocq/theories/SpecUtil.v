(** Small declarative specifications for the string and file helpers.
    Nothing here refers to the model of util.cpp. *)
From Coq Require Import Ascii String Bool Arith.
From Coq Require Import List.
From Verif Require Import Str Util.
Import ListNotations.

(** [p] occurs in [s] at position [i]. *)
Definition occurs_at (p s : str) (i : nat) : Prop := exists a b, s = a ++ p ++ b /\ length a = i.
Definition occurs (p s : str) : Prop := exists i, occurs_at p s i.

(** [r] is [s] with the leftmost-first, non-overlapping occurrences of [from]
    rewritten to [to]; the scan continues after the replaced occurrence, in
    the original text. *)
Inductive leftmost_replaced (from to : str) : str -> str -> Prop :=
| LR_none s : ~ occurs from s -> leftmost_replaced from to s s
| LR_some a b r :
    (forall i, i < length a -> ~ occurs_at from (a ++ from ++ b) i) ->
    leftmost_replaced from to b r ->
    leftmost_replaced from to (a ++ from ++ b) (a ++ to ++ r).

(** [pieces] are the [c]-terminated pieces of [s], followed by the rest of the
    text after the last [c] if that rest is not empty. *)
Definition pieces_of (c : ascii) (s : str) (pieces : list str) : Prop :=
  exists terminated rest,
    s = concat (map (fun p => p ++ [c]) terminated) ++ rest /\
    (forall p, In p (rest :: terminated) -> ~ In c p) /\
    pieces = terminated ++ (match rest with [] => [] | _ => [rest] end).

(** Joining with a separator. *)
Fixpoint join (sep : str) (l : list str) : str :=
  match l with
  | [] => []
  | [x] => x
  | x :: l' => x ++ sep ++ join sep l'
  end.

Definition blank (c : ascii) : Prop := c = sp \/ c = tab.

(** [t] is [s] without its surrounding blanks. *)
Definition trimmed (s t : str) : Prop :=
  exists a b, s = a ++ t ++ b /\ Forall blank a /\ Forall blank b /\
    (forall c t', t = c :: t' -> ~ blank c) /\ (forall c t', t = t' ++ [c] -> ~ blank c).

(** What a C++ compiler reads from the characters between the quotes of an
    ordinary string literal that uses only the simple escapes for backslash,
    quote and newline; [None] if the literal is not well formed. *)
Fixpoint read_literal (s : str) : option str :=
  match s with
  | [] => Some []
  | c :: s' =>
      if Ascii.eqb c bs then
        match s' with
        | e :: s'' =>
            option_map (cons (if Ascii.eqb e "n" then nl else e))
              (if Ascii.eqb e bs || Ascii.eqb e dq || Ascii.eqb e "n" then read_literal s'' else None)
        | [] => None
        end
      else if Ascii.eqb c dq || Ascii.eqb c nl then None
      else option_map (cons c) (read_literal s')
  end.

(** [reads c t] / [reads_from line l t]: [t] is the plain text of the comment
    [c] / of the consecutive parts [l], the previous part being on line [line].
    Text is taken as it is; a new line starts with each paragraph and before
    each part that is on another line than the previous one.  The first part of
    a node continues on the line where the node begins. *)
Inductive reads : comment -> str -> Prop :=
| RD_text line text : reads (CText line text) text
| RD_part line l t : reads_from line l t -> reads (CNode line false l) t
| RD_paragraph line l t : reads_from line l t -> reads (CNode line true l) ([nl] ++ t)
with reads_from : nat -> list comment -> str -> Prop :=
| RF_none line : reads_from line [] []
| RF_same line c l t u : comment_line c = line -> reads c t -> reads_from line l u -> reads_from line (c :: l) (t ++ u)
| RF_new line c l t u : comment_line c <> line -> reads c t -> reads_from (comment_line c) l u -> reads_from line (c :: l) ([nl] ++ t ++ u).
(** The whole comment: the place before it is on no line. *)
Definition comment_reads (c : comment) (t : str) : Prop :=
  match c with
  | CText _ text => t = text
  | CNode _ paragraph l => exists u, reads_from 0 l u /\ t = (if paragraph then [nl] else []) ++ u
  end.
(** The texts of a comment in order. *)
Fixpoint texts (c : comment) : str :=
  match c with CText _ t => t | CNode _ _ l => concat (map texts l) end.

(** [t] is [s] without its leading spaces and newlines. *)
Definition without_leading (s t : str) : Prop :=
  exists a, s = a ++ t /\ Forall (fun c => c = sp \/ c = nl) a /\
    (forall c t', t = c :: t' -> c <> sp /\ c <> nl).

(** Letters and digits; [boundary]: no letter or digit there. *)
Definition alnum (c : ascii) : Prop := is_alpha c = true \/ is_digit c = true.
Definition boundary (o : option ascii) : Prop := forall c, o = Some c -> ~ alnum c.

(** [bool_fixed prev s r]: [r] is [s] with every occurrence of [_Bool] whose
    neighbours in [s] are no letters or digits rewritten to [bool]; [prev] is
    the character before [s]. *)
Definition bool_word (prev : option ascii) (s : str) : Prop :=
  exists rest, s = $"_Bool" ++ rest /\ boundary prev /\ boundary (hd_error rest).
Inductive bool_fixed : option ascii -> str -> str -> Prop :=
| BF_nil prev : bool_fixed prev [] []
| BF_word prev rest r :
    bool_word prev ($"_Bool" ++ rest) -> bool_fixed (Some "l"%char) rest r ->
    bool_fixed prev ($"_Bool" ++ rest) ($"bool" ++ r)
| BF_other prev c s r :
    ~ bool_word prev (c :: s) -> bool_fixed (Some c) s r ->
    bool_fixed prev (c :: s) (c :: r).
