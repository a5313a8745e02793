(** Model of [getQualifiedNameAsStringLLVM5Fix], /repo/source/enum.cpp:84-114. *)
From Coq Require Import Ascii String Bool Arith.
From Coq Require Import List.
From Verif Require Import Str Ast.
Import ListNotations.

(** The [DeclContext]s of clang in which an enumerator can stand.  A namespace
    without a name has the name [[]]; [c_args] are the template arguments of a
    class template specialisation as C++ writes them; an [extern "C"] block (a
    [LinkageSpecDecl]) is a context that is not a [NamedDecl]. *)
Inductive context : Type :=
| CNamespace (name : str)
| CClass (name args : str)
| CFunction (name : str)
| CEnum (name : str) (scoped : bool)
| CLinkage.

(** enum.cpp:90-94: the contexts are collected from the inside to the outside,
    up to the first one that is not a [NamedDecl] *)
Definition is_named_decl (c : context) : bool := match c with CLinkage => false | _ => true end.
Fixpoint named_contexts (cs : list context) : list context :=
  match cs with
  | c :: cs' => if is_named_decl c then c :: named_contexts cs' else []
  | [] => []
  end.

(** enum.cpp:95-107: the loop body.  [OS << *ND] writes the name of the
    declaration without template arguments. *)
Definition context_text (c : context) : str :=
  match c with
  | CEnum n scoped => if scoped then n ++ $"::" else []
  | CNamespace n | CClass n _ | CFunction n => n ++ $"::"
  | CLinkage => []
  end.

(** enum.cpp:86-112 [getQualifiedNameAsStringLLVM5Fix]; [cs] are the contexts of
    the declaration, the innermost first.  Structured bindings
    ([DecompositionDecl]) are not enumerators. *)
Definition qualified_name_llvm5 (cs : list context) (name : str) : str :=
  concat (map context_text (rev (named_contexts cs)))
    ++ (match name with [] => $"(anonymous)" | _ => name end).

(** enum.cpp:132-138: with LLVM 5 and older the enumerators of an enum that
    stands in the contexts [cs] are written with these names *)
Definition values_llvm5 (cs : list context) (name : str) (scoped : bool) (es : list str) : list (str * str) :=
  map (fun e => (e, qualified_name_llvm5 (CEnum name scoped :: cs) e)) es.
