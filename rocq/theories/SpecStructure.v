(** Specification of the names of call-back structures and of the exception
    specifications of their member functions. *)
From Coq Require Import Ascii String Bool Arith NArith.
From Coq Require Import List.
From Verif Require Import Str Util Config Ast Types Class SpecBind SpecClass SpecLex.
Import ListNotations.

(** A part of a qualified name. *)
Definition part (s : str) : Prop := s <> [] /\ identifier s.
(** [named_by w r ps]: the class is called by the parts [ps]: those of the
    namespace or class it is in, and its Python name. *)
Definition named_by (w : world) (r : nat) (ps : list str) : Prop :=
  exists qs, separated $"::" qs (namespace_from_named_decl w (r_decl (rec_ w r))) /\ ps = qs ++ [python_class_name w r] /\ Forall part ps.

(** Exceptions, by the number that clang gives to the exception specification
    of a function (see Class.v): [throw()], [nothrow], [noexcept] and
    [noexcept(true)] promise that nothing is thrown; nothing at all,
    [throw(X)], [throw(...)] and [noexcept(false)] promise nothing. *)
Definition throws_nothing (est : nat) : Prop := In est [1; 4; 5; 8].
Definition throws_anything (est : nat) : Prop := In est [0; 2; 3; 7].
(** The same for the texts that are generated. *)
Definition text_throws_nothing (s : str) : Prop := s = $"noexcept " \/ s = $"throw() ".
