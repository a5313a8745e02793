(** Specification vocabulary for the order in which declarations are met. *)
From Coq Require Import Ascii String Bool Arith.
From Coq Require Import List.
From Verif Require Import Str Util Config Ast Types Func Enum Includes Class Context SpecContext.
Import ListNotations.

(** A free function that prints: operator<<, not bound itself. *)
Definition insertion_operator (w : world) (f : nat) : Prop :=
  f_method (fun_ w f) = false /\ is_bindable_fun w (fun_ w f) = false /\ f_operator (fun_ w f) = true /\
  n_name (f_decl (fun_ w f)) = $"operator<<".
(** The last one met that has the type [key]. *)
Definition last_operator (w : world) (visits : list decl) (key : str) (f : nat) : Prop :=
  exists before after, visits = before ++ DFun f :: after /\ insertion_operator w f /\ function_pointer_type w (fun_ w f) = key /\
    forall g, In (DFun g) after -> insertion_operator w g -> function_pointer_type w (fun_ w g) <> key.

(** The configuration answers the questions asked about a declaration. *)
Definition decided (w : world) (d : decl) : Prop :=
  can_bind w d = true -> exists skip, skip_decl w d = Ok skip /\
    (skip = false -> n_system (named_of (wenv w) d) = false -> exists bind, bind_decl w d = Ok bind).

(** No two declarations share an identity, and no two printing operators a type. *)
Definition distinct_identities (w : world) (visits : list decl) : Prop :=
  forall d d', In d visits -> In d' visits -> collectible w d -> collectible w d' -> decl_id w d = decl_id w d' -> d = d'.
Definition distinct_operators (w : world) (visits : list decl) : Prop :=
  forall f g, In (DFun f) visits -> In (DFun g) visits -> insertion_operator w f -> insertion_operator w g ->
    function_pointer_type w (fun_ w f) = function_pointer_type w (fun_ w g) -> f = g.
(** The same declarations in another order, or met more or less often. *)
Definition same_declarations (visits visits' : list decl) : Prop := forall d, In d visits <-> In d visits'.
