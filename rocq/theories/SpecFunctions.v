(** Specification for C106: which functions are bound. *)
From Coq Require Import Ascii String Bool Arith NArith.
From Coq Require Import List.
From Verif Require Import Str Config Ast Types Func SpecTypes SpecLeftOut.
Import ListNotations.

(** The configuration asks for the function: a +function line names it, with or
    without its parameters; or its namespace is to be bound; or a class in its
    signature, by itself or by a pointer or reference written as such, is. *)
Inductive wanted (w : world) (F : fn) : Prop :=
| WT_signature : listed_in w functions_to_bind (function_qualified_name w F true) -> wanted w F
| WT_name : listed_in w functions_to_bind (n_qname (f_decl F)) -> wanted w F
| WT_namespace : namespace_requested w (namespace_from_named_decl w (f_decl F)) -> wanted w F
| WT_class t r : in_signature F t -> written_as r t -> class_requested w r -> wanted w F.
