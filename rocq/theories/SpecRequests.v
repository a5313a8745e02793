(** Specification vocabulary for the types a declaration needs. *)
From Coq Require Import Ascii String Bool Arith.
From Coq Require Import List.
From Verif Require Import Str Util Config Ast Types Func Enum Includes Class Context SpecTypes SpecBind SpecClass SpecContext.
Import ListNotations.

(** The types of a signature: of the result and of all parameters. *)
Definition signature_type (F : fn) (t : qty) : Prop := t = canonical (f_ret F) \/ exists p, In p (f_params F) /\ t = p_type p.
(** A constructor of [r] that Python can call, other than a copy: its own or one
    brought in by a using declaration. *)
Definition callable_constructor (w : world) (r m : nat) : Prop :=
  (In m (own_constructors w r) /\ bound_constructor w m /\ forall const, ~ copy_constructor (fun_ w m) const) \/
  (In m (used_constructors w r) /\ used_constructor w m).
(** Constructors of [r] are bound. *)
Definition constructible (w : world) (r : nat) : Prop :=
  r_anon (rec_ w r) = false /\ (r_abstract (rec_ w r) = false \/ has_structure w r).

(** The types the code of a class needs: its named bases, the parameters of its
    constructors without ellipsis, the signatures of its functions and of those
    of the bases folded into it; and what its member classes need. *)
Inductive class_uses (w : world) : nat -> qty -> Prop :=
| CU_base r b : generated w r -> r_anon (rec_ w r) = false -> In b (r_bases (rec_ w r)) -> named_base w b -> class_uses w r (canonical (b_type b))
| CU_constructor r m p : generated w r -> constructible w r -> callable_constructor w r m -> f_variadic (fun_ w m) = false ->
    In p (f_params (fun_ w m)) -> class_uses w r (p_type p)
| CU_method r c t : generated w r -> In c (candidates w r) -> chosen w c -> signature_type (fun_ w (fst c)) t -> class_uses w r t
| CU_folded r l R c t : generated w r -> folded_bases w r l -> In R l -> In c (candidates w R) -> chosen w c -> signature_type (fun_ w (fst c)) t -> class_uses w r t
| CU_member r i t : generated w r -> In i (inner_classes w r) -> bound_inner w i -> class_uses w (definition_of w i) t -> class_uses w r t.

(** The types a declaration needs. *)
Inductive uses (w : world) : decl -> qty -> Prop :=
| US_function f t : signature_type (fun_ w f) t -> uses w (DFun f) t
| US_class r t : class_uses w r t -> uses w (DRec r) t.

(** The items (by position) that have to be bound: those the configuration
    asks for, unless they come from a system header, and the classes and enums
    of the types needed by an item that has to be bound. *)
Inductive required (w : world) (items : list decl) : nat -> Prop :=
| RQ_config i d : nth_error items i = Some d -> eligible w d -> n_system (named_of (wenv w) d) = false -> bind_decl w d = Ok true ->
    required w items i
| RQ_used i j d dj t name : nth_error items i = Some d -> eligible w d -> required w items j -> nth_error items j = Some dj ->
    uses w dj t -> announces w t name -> named_item w items name i -> required w items i.
