(** What a format string means: it is made of pieces, and each field is
    replaced by an argument as it is. *)
From Coq Require Import Ascii String Bool Arith NArith.
From Coq Require Import List.
From Verif Require Import Str.
Import ListNotations.

(** Text to copy, the next argument, or the argument with a given number. *)
Inductive piece := Copy (s : str) | Next | Number (n : nat).

(** How a piece is written in a format string: braces of the text are doubled. *)
Definition doubled (s : str) : str :=
  flat_map (fun c => if Ascii.eqb c "{" || Ascii.eqb c "}" then [c; c] else [c]) s.
Definition written (p : piece) : str :=
  match p with
  | Copy s => doubled s
  | Next => $"{}"
  | Number n => $"{" ++ dec n ++ $"}"
  end.
Definition format_string (ps : list piece) : str := concat (map written ps).

(** The text it stands for; [k] arguments have been used by [Next] so far.
    [None]: there are too few arguments. *)
Fixpoint filled (args : list str) (k : nat) (ps : list piece) : option str :=
  match ps with
  | [] => Some []
  | p :: ps' =>
      let '(v, k') := match p with
                      | Copy s => (Some s, k)
                      | Next => (nth_error args k, S k)
                      | Number n => (nth_error args n, k)
                      end in
      match v, filled args k' ps' with
      | Some a, Some b => Some (a ++ b)
      | _, _ => None
      end
  end.

(** The two ways to refer to arguments are not mixed. *)
Definition uniform (ps : list piece) : Prop := ~ In Next ps \/ forall n, ~ In (Number n) ps.
