(** Specification vocabulary for runs one of which is asked for more. *)
From Coq Require Import Ascii String Bool Arith.
From Coq Require Import List.
From Verif Require Import Str SpecUtil Util Config SpecConfig Ast Context SpecStyle.
Import ListNotations.

(** The lists of what is to be bound and of what is to be left out. *)
Definition wanted : list list_key := [namespaces_to_bind; classes_to_bind; functions_to_bind; enums_to_bind].
Definition unwanted : list list_key := [namespaces_to_skip; classes_to_skip; functions_to_skip; enums_to_skip; fields_to_skip].
(** [c'] asks for all that [c] asks for and leaves out nothing that [c] does
    not; the classes known to Python, those with a replacing binder and the
    type of the holder are the same.  All other settings may differ. *)
Definition asks_for_more (c c' : config) : Prop :=
  (forall k, In k wanted -> incl (lists c k) (lists c' k)) /\
  (forall k, In k unwanted -> incl (lists c' k) (lists c k)) /\
  lists c' python_builtins = lists c python_builtins /\ lists c' not_python_builtins = lists c not_python_builtins /\
  (forall n, lookup n (maps c' binders) = None <-> lookup n (maps c binders) = None) /\
  strs c' holder_type = strs c holder_type.
(** The same for the options: --bind-class-template-specialization may be added. *)
Definition options_for_more (o o' : options) : Prop :=
  include_pybind11_stl o' = include_pybind11_stl o /\
  (bind_class_template_specialization o = true -> bind_class_template_specialization o' = true).

(** ** Config files *)
Definition wanting_tokens : list str := [$"namespace"; $"class"; $"function"; $"enum"].
Definition unwanting_tokens : list str := [$"namespace"; $"class"; $"function"; $"enum"; $"field"].
Definition wanting_line (line : str) : Prop := exists token arg, says line true token arg /\ In token wanting_tokens.
Definition unwanting_line (line : str) : Prop := exists token arg, says line false token arg /\ In token unwanting_tokens.
(** The second file is the first one with + directives added and - directives
    taken out, wherever they stand. *)
Inductive file_for_more : list str -> list str -> Prop :=
| fm_end : file_for_more [] []
| fm_same l a b : file_for_more a b -> file_for_more (l :: a) (l :: b)
| fm_added l a b : wanting_line l -> file_for_more a b -> file_for_more a (l :: b)
| fm_removed l a b : unwanting_line l -> file_for_more a b -> file_for_more (l :: a) b.
