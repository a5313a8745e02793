(** Specification of which C++ types the generated module has as Python types. *)
From Coq Require Import Ascii String Bool Arith.
From Coq Require Import List.
From Verif Require Import Str Util Config Ast Types Func Class SpecTypes SpecClass SpecContext.
Import ListNotations.

(** [offered w top r]: the class [r] is one of the classes [top], or is nested,
    publicly, in an offered class whose code is generated (that is, which is
    neither a Python type already nor left to a configured binder). *)
Inductive offered (w : world) (top : nat -> Prop) : nat -> Prop :=
| OF_top r : top r -> offered w top r
| OF_nested r j : offered w top r -> generated w r -> In j (inner_classes w r) -> bound_inner w j -> offered w top (definition_of w j).
(** The class becomes a Python type: Python does not have it already, and it has
    a name or a configured binder makes it. *)
Definition made (w : world) (r : nat) : Prop :=
  ~ python_type w (class_name w r) /\
  (lookup (class_name w r) (maps (wcfg w) Config.binders) <> None \/ r_anon (rec_ w r) = false).
(** The enum is one of [top], or is a public member of an offered class. *)
Inductive offered_enum (w : world) (classes enums : nat -> Prop) : nat -> Prop :=
| OE_top e : enums e -> offered_enum w classes enums e
| OE_member r e : offered w classes r -> generated w r -> In e (inner_enums w r) -> bound_enum w e -> offered_enum w classes enums e.
