(** Specification of calls from Python: which definition pybind11 chooses and
    what it passes on. *)
From Coq Require Import Ascii String Bool Arith.
From Coq Require Import List.
From Verif Require Import Str Ast SpecBind.
Import ListNotations.

(** A call from Python; the object of a method is not counted. *)
Record call (V : Type) := mkcall { positional : list V; keywords : list (str * V) }.
Arguments mkcall {V}. Arguments positional {V}. Arguments keywords {V}.

(** pybind11 (pybind11.h [cpp_function::dispatcher], not part of /repo): a
    definition of [n] parameters with the names [Some names] or without names
    takes a call, and the C++ function gets [args].  Arguments in excess,
    missing arguments, unknown keywords, keywords for a parameter that has a
    positional argument, and keywords for a definition without names are
    refused. *)
Inductive taken {V} (c : call V) : nat -> option (list str) -> list V -> Prop :=
| TK_unnamed n : keywords c = [] -> length (positional c) = n -> taken c n None (positional c)
| TK_named n names rest : length names = n -> length (positional c) <= n ->
    Forall2 (fun name v => In (name, v) (keywords c)) (skipn (length (positional c)) names) rest ->
    (forall name, In name (map fst (keywords c)) -> In name (skipn (length (positional c)) names) /\ ~ In name (firstn (length (positional c)) names)) ->
    taken c n (Some names) (positional c ++ rest).

(** What the call says: the [i]-th of the parameters [names] is given [v]. *)
Definition gives {V} (c : call V) (names : list str) (i : nat) (v : V) : Prop :=
  nth_error (positional c) i = Some v \/
  (length (positional c) <= i /\ exists name, nth_error names i = Some name /\ In (name, v) (keywords c)).
(** The call gives the first [n] of the parameters, with the values [args], and
    nothing else. *)
Definition gives_first {V} (c : call V) (names : list str) (n : nat) (args : list V) : Prop :=
  length args = n /\ length (positional c) <= n /\
  (forall i v, nth_error args i = Some v -> gives c names i v) /\
  (forall name, In name (map fst (keywords c)) -> exists i, length (positional c) <= i < n /\ nth_error names i = Some name).

(** The names that a definition has in the generated text. *)
Definition names_text (names : option (list str)) : str :=
  match names with Some l => concat (map (fun x => $", pybind11::arg(" ++ quoted x ++ $")") l) | None => [] end.
Inductive has_names : option (list str) -> str -> Prop :=
| HN_def before guard l : guard = [] \/ (exists g, guard = $", pybind11::call_guard<" ++ g ++ $">()") ->
    has_names (Some l) (before ++ [dq] ++ names_text (Some l) ++ guard ++ $");")
| HN_policy before p guard l : guard = [] \/ (exists g, guard = $", pybind11::call_guard<" ++ g ++ $">()") ->
    has_names (Some l) (before ++ [dq] ++ $", " ++ p ++ names_text (Some l) ++ guard ++ $");")
| HN_init types l : has_names (Some l) ([tab] ++ $"cl.def( pybind11::init<" ++ types ++ $">()" ++ names_text (Some l) ++ $" );" ++ [nl])
| HN_factory f l : has_names (Some l) ([tab] ++ $"cl.def( pybind11::init( " ++ f ++ $" ), ""doc"" " ++ names_text (Some l) ++ $");")
| HN_none f : has_names None ([tab] ++ $"cl.def( pybind11::init( " ++ f ++ $" ), ""doc"");").

(** The names of the definition of a constructor for [n] arguments: those of
    the parameters, except for fewer than all the arguments of a class with a
    call-back structure. *)
Definition constructor_names (tramp : option str) (T : fn) (n : nat) : option (list str) :=
  match tramp with
  | Some _ => if (n =? length (f_params T)) && negb (f_variadic T) then Some (map p_name (firstn n (f_params T))) else None
  | None => Some (map p_name (firstn n (f_params T)))
  end.
