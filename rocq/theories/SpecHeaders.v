(** Specification: the headers of the types that a generated definition names. *)
From Coq Require Import Ascii String Bool Arith.
From Coq Require Import List.
From Verif Require Import Str Util Config Ast Types SpecTypes SpecIncludes.
Import ListNotations.

(** [mentions w t d]: the type [t] is made from the class or enum [d]: directly,
    or through pointers and references (as written), or as a template argument,
    at any depth, of a class it is made from. *)
Inductive mentions (w : world) : qty -> decl -> Prop :=
| MT_direct t d : names_tag t d -> mentions w t d
| MT_argument t r u text d : names_tag t (DRec r) -> In (Targ (KType u) text) (targs_of (rec_ w r)) -> mentions w (desugared u) d -> mentions w t d.
(** The text begins with a block of #include lines that has one for [i]. *)
Definition includes (text i : str) : Prop :=
  exists l body, text = concat (map (fun h => $"#include " ++ h ++ [nl]) l) ++ body /\ In i l.
(** The configuration does not say to leave out the header. *)
Definition wanted (w : world) (i : str) : Prop := ~ exists p r, In p (lists (wcfg w) includes_to_skip) /\ i = p ++ r.
