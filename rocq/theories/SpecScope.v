(** What a qualified name means in C++, for enumerators. *)
From Coq Require Import Ascii String Bool.
From Coq Require Import List.
From Verif Require Import Str Ast Scope.
Import ListNotations.

(** A C++ program as far as it matters: declarations that contain declarations. *)
Inductive decl : Type :=
| DNamespace (name : str) (ds : list decl)   (* [[]]: an unnamed namespace *)
| DClass (name args : str) (ds : list decl)  (* a class; [args]: template arguments *)
| DFunction (name : str) (ds : list decl)    (* a function with local declarations *)
| DLinkage (ds : list decl)                  (* extern "C" { ... } *)
| DEnum (name : str) (scoped : bool) (es : list str).

(** [stands p cs name scoped es]: the program [p] has the enum [name] with the
    enumerators [es], in the contexts [cs] (the innermost first). *)
Inductive stands : list decl -> list context -> str -> bool -> list str -> Prop :=
| st_enum p n s es : In (DEnum n s es) p -> stands p [] n s es
| st_namespace p m ds cs n s es : In (DNamespace m ds) p -> stands ds cs n s es -> stands p (cs ++ [CNamespace m]) n s es
| st_class p m a ds cs n s es : In (DClass m a ds) p -> stands ds cs n s es -> stands p (cs ++ [CClass m a]) n s es
| st_function p m ds cs n s es : In (DFunction m ds) p -> stands ds cs n s es -> stands p (cs ++ [CFunction m]) n s es
| st_linkage p ds cs n s es : In (DLinkage ds) p -> stands ds cs n s es -> stands p (cs ++ [CLinkage]) n s es.

(** [finds p names cs n e]: looked up from the global scope of [p], the qualified
    name [names] denotes the enumerator [e] of the enum [n] in the contexts [cs].
    Enumerators of unscoped enums are members of the enclosing scope too; the
    members of unnamed namespaces and of [extern] blocks are members of the
    enclosing scope only; nothing outside a function can name its local
    declarations. *)
Inductive finds : list decl -> list str -> list context -> str -> str -> Prop :=
| f_enum p n s es e : In (DEnum n s es) p -> In e es -> finds p [n; e] [] n e
| f_unscoped p n es e : In (DEnum n false es) p -> In e es -> finds p [e] [] n e
| f_namespace p m ds names cs n e :
    m <> [] -> In (DNamespace m ds) p -> finds ds names cs n e -> finds p (m :: names) (cs ++ [CNamespace m]) n e
| f_unnamed p ds names cs n e :
    In (DNamespace [] ds) p -> finds ds names cs n e -> finds p names (cs ++ [CNamespace []]) n e
| f_class p m a ds names cs n e :
    In (DClass m a ds) p -> finds ds names cs n e -> finds p ((m ++ a) :: names) (cs ++ [CClass m a]) n e
| f_linkage p ds names cs n e : In (DLinkage ds) p -> finds ds names cs n e -> finds p names (cs ++ [CLinkage]) n e.

(** the text of a qualified name *)
Fixpoint spelled (names : list str) : str :=
  match names with
  | [] => []
  | [x] => x
  | x :: rest => x ++ $"::" ++ spelled rest
  end.

(** contexts of ordinary declarations: named namespaces and classes that are not
    template specialisations *)
Definition ordinary (c : context) : Prop :=
  match c with
  | CNamespace m => m <> []
  | CClass m a => a = []
  | _ => False
  end.
