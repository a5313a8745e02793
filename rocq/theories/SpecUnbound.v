(** Specification vocabulary for declarations that are not bound (C100). *)
From Coq Require Import Ascii String Bool.
From Coq Require Import List.
From Verif Require Import Str Util Config Ast Types Func Enum Includes Class Context SpecContext.
Import ListNotations.

(** All that is kept about a declaration for writing: its code, the code before
    the function, the functions whose headers are needed, the base classes. *)
Definition content (b : binder) : decl * str * str * list nat * list nat := (b_decl b, b_code b, b_prefix b, b_incl b, b_deps b).
(** The bindings in the order in which they are written. *)
Definition bindings (o : output) : list (decl * str * str * list nat * list nat) := map content (filter has_code (out_sorted o)).
(** The statements of the generated functions, without the calls of binders of
    namespaces. *)
Definition statements (o : output) : str := concat (map (fun g => skipn (length (g_call g)) (g_body g)) (out_files o)).
