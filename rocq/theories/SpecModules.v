(** Specification of the Python modules that the generated root module makes
    and of the file that lists them. *)
From Coq Require Import Ascii String Bool Arith.
From Coq Require Import List.
From Verif Require Import Str SpecUtil SpecBind.
Import ListNotations.

(** [n] is the C++ name [x1::x2::...] of a namespace whose components are [cs]. *)
Definition path_in_cpp (cs : list str) (n : str) : Prop :=
  cs <> [] /\ Forall (fun c => c <> [] /\ ~ In ":"%char c) cs /\ separated $"::" cs n.

(** context.cpp:106-115: the name that the root module gives to the Python
    module of a namespace. *)
Inductive module_name : str -> str -> Prop :=
| MN_reserved x : x = $"nonlocal" \/ x = $"global" -> module_name x (x ++ $"_")
| MN_same x : x <> $"nonlocal" -> x <> $"global" -> module_name x x.
Definition submodule_name (x : str) : str := if mem x [$"nonlocal"; $"global"] then x ++ $"_" else x.

(** context.cpp:98-119: what the root module does when it is imported.  The map
    [made] from namespaces to Python modules begins with the root module for
    the empty name; a Python module is given by its path below the root.
    [None]: the module of the parent is missing. *)
Fixpoint create_modules (pairs : list (str * str)) (made : list (str * list str)) : option (list (str * list str)) :=
  match pairs with
  | [] => Some made
  | (p, l) :: pairs' =>
      match lookup p made with
      | None => None
      | Some path => create_modules pairs' ((match p with [] => l | _ => p ++ $"::" ++ l end, path ++ [submodule_name l]) :: made)
      end
  end.

(** Keywords of Python that are ordinary identifiers in C++. *)
Definition keyword_in_python (x : str) : Prop :=
  In x [$"False"; $"None"; $"True"; $"as"; $"assert"; $"async"; $"await"; $"def"; $"del"; $"elif"; $"except"; $"finally"; $"from"; $"global"; $"import";
        $"in"; $"is"; $"lambda"; $"nonlocal"; $"pass"; $"raise"; $"with"; $"yield"].
