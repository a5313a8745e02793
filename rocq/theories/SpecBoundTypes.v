(** Specification for C107: which classes and enums are bound. *)
From Coq Require Import Ascii String Bool Arith NArith.
From Coq Require Import List.
From Verif Require Import Str Config Ast Types Context SpecTypes SpecBind SpecClass SpecContext SpecRequests.
Import ListNotations.

(** Something that is bound needs a type, and the type is known under a name of
    which the item at position [i] is the last owner. *)
Definition in_use (w : world) (visits : list decl) (o : output) (i : nat) : Prop :=
  exists d t name, bound o d /\ uses w d t /\ announces w t name /\ named_item w (collected_items w visits) name i.
