(** Specification for C105: what is said about a class that the config file leaves out.
    Nothing here refers to the functions of the model that decide what is bound. *)
From Coq Require Import Ascii String Bool Arith NArith.
From Coq Require Import List.
From Verif Require Import Str Config Ast Types SpecTypes.
Import ListNotations.

(** The config file leaves the class out: a -class line names it, with its
    template arguments if it has any; or a -class line names its template and no
    +class line names the class; or no line names it and the deepest listed
    namespace around it is left out. *)
Inductive left_out (w : world) (r : nat) : Prop :=
| LO_named : listed_in w classes_to_skip (class_qualified_name w r) -> left_out w r
| LO_template : ~ listed_in w classes_to_bind (class_qualified_name w r) ->
    listed_in w classes_to_skip (std_name w (r_decl (rec_ w r))) -> left_out w r
| LO_namespace : unlisted w classes_to_skip classes_to_bind (class_names w r) ->
    namespace_skipped w (namespace_from_named_decl w (r_decl (rec_ w r))) -> left_out w r.
(** The type is the class [r], by its name or by a typedef, or a pointer or
    reference to it that is written as such. *)
Inductive written_as (r : nat) : qty -> Prop :=
| WA_class t c args : desugared t = TRec c r args -> written_as r t
| WA_pointer c t : written_as r t -> written_as r (TPtr c t)
| WA_lvalue t : written_as r t -> written_as r (TLRef t)
| WA_rvalue t : written_as r t -> written_as r (TRRef t).
(** The type is the class or a pointer or reference to it, however written. *)
Inductive stands_for (r : nat) : qty -> Prop :=
| SF_written t : written_as r t -> stands_for r t
| SF_typedef c name t : stands_for r t -> stands_for r (TSugar c name t).
(** A +function line names the function, with or without its parameters. *)
Definition asked_by_name (w : world) (F : fn) : Prop := exists n, In n (function_names w F) /\ listed_in w functions_to_bind n.
(** Those of the functions [fs] that have the class in their signature are
    named by +function lines. *)
Definition keeps_out (w : world) (r : nat) (fs : list nat) : Prop :=
  forall f t, In f fs -> in_signature (fun_ w f) t -> written_as r t -> asked_by_name w (fun_ w f).
