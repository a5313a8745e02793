(** Specification for C108: where bindings come from. *)
From Coq Require Import Ascii String Bool Arith NArith.
From Coq Require Import List.
From Verif Require Import Str Config Ast Types Context SpecTypes SpecBind SpecClass SpecContext SpecRequests.
Import ListNotations.

(** [d] is reached from [d0] by types that bound declarations use: [d0] uses a
    type that names a declaration, which uses a type, and so on up to [d]. *)
Inductive led_to (w : world) (visits : list decl) (o : output) (d0 : decl) : decl -> Prop :=
| LT_self : bound o d0 -> led_to w visits o d0 d0
| LT_use d1 d t name i : led_to w visits o d0 d1 -> uses w d1 t -> announces w t name ->
    named_item w (collected_items w visits) name i -> nth_error (collected_items w visits) i = Some d -> bound o d -> led_to w visits o d0 d.
(** There is no line that asks for anything, and no --bind. *)
Definition asks_nothing (w : world) : Prop :=
  forall k, In k [functions_to_bind; classes_to_bind; enums_to_bind; namespaces_to_bind] -> lists (wcfg w) k = [].
