(** Specification vocabulary for directives about things that are not in the
    program. *)
From Coq Require Import Ascii String Bool Arith.
From Coq Require Import List.
From Verif Require Import Str SpecUtil Util Config SpecConfig Ast Types Func.
Import ListNotations.

(** Names of the program, as C++ (and the directives) write them. *)
Inductive in_namespace (w : world) : str -> Prop :=
| InNamespace d : in_namespace w (namespace_from_named_decl w (named_of (wenv w) d)).
Inductive plain_class (w : world) : str -> Prop :=
| PlainClass r : plain_class w (standard_name w (n_qname (r_decl (rec_ w r)))).
Inductive class_in (w : world) : str -> Prop :=
| ClassPlain n : plain_class w n -> class_in w n
| ClassWithArguments r : class_in w (class_qualified_name w r).
(** A function is named with or without its parameters; [class::__str__] stands
    for the printing of a class. *)
Inductive function_in (w : world) : str -> Prop :=
| FunPlain f : function_in w (n_qname (f_decl (fun_ w f)))
| FunStandard f : function_in w (standard_name w (n_qname (f_decl (fun_ w f))))
| FunFull f : function_in w (function_qualified_name w (fun_ w f) true)
| FunOfTemplate f : function_in w (standard_name w (n_qname (r_decl (rec_ w (parent_of (fun_ w f)))) ++ $"::" ++ n_name (f_decl (fun_ w f))))
| FunStr r : function_in w (class_qualified_name w r ++ $"::__str__")
| FunStrPlain r : function_in w (standard_name w (n_qname (r_decl (rec_ w r)) ++ $"::__str__")).
Inductive field_in (w : world) : str -> Prop :=
| FieldOwn r f : In (MField f) (r_members (rec_ w r)) -> field_in w (n_qname (fd_decl f))
| FieldLifted r a ts f : In (MUsing a ts) (r_members (rec_ w r)) -> In (UField f) ts -> field_in w (n_qname (fd_decl f)).
Inductive method_in (w : world) : str -> Prop :=
| MethodIn r f : method_in w
    ((match namespace_from_named_decl w (r_decl (rec_ w r)) with [] => [] | ns => ns ++ $"::" end)
     ++ n_name (r_decl (rec_ w r)) ++ $"::" ++ n_name (f_decl (fun_ w f))).

(** The entry [v] of a list of names may concern the program. *)
Definition concerns (w : world) (k : list_key) (v : str) : Prop :=
  match k with
  | namespaces_to_bind | namespaces_to_skip => exists ns, in_namespace w ns /\ is_prefix v ns
  | module_local_namespaces_to_add | module_local_namespaces_to_skip => v = $"@all_namespaces" \/ in_namespace w v
  | classes_to_bind | classes_to_skip => exists n, class_in w n /\ v = nospace n
  | buffer_protocols | smart_held_classes => exists n, plain_class w n /\ v = nospace n
  | functions_to_bind | functions_to_skip => exists n, function_in w n /\ v = nospace n
  | enums_to_bind | enums_to_skip => exists n, v = n_qname (e_decl (enum_ w n)) \/ v = standard_name w (n_qname (e_decl (enum_ w n)))
  | fields_to_skip => field_in w v
  | python_builtins | not_python_builtins => exists d, v = standard_name w (n_qname (named_of (wenv w) d))
  | includes_to_add | includes_to_skip => True
  end.
(** ... the key [x] of a keyed setting. *)
Definition concerns_key (w : world) (k : map_key) (x : str) : Prop :=
  match k with
  | binders | add_on_binders => plain_class w x
  | binder_for_namespaces | add_on_binder_for_namespaces => in_namespace w x
  | custom_trampoline_functions => method_in w x
  end.
Definition concerns_include (w : world) (k : vec_key) (x : str) : Prop :=
  match k with class_includes => plain_class w x | namespace_includes => in_namespace w x end.

(** Settings that say the same about the program. *)
Definition same_for_program (w : world) (c c' : config) : Prop :=
  (forall k v, concerns w k v -> (In v (lists c' k) <-> In v (lists c k))) /\
  lists c' includes_to_add = lists c includes_to_add /\
  (forall k x, concerns_key w k x -> lookup x (maps c' k) = lookup x (maps c k)) /\
  (forall k x, concerns_include w k x -> get_vec x (vecs c' k) = get_vec x (vecs c k)) /\
  (forall k, strs c' k = strs c k).

(** The directive is about nothing in the program. *)
Definition idle (w : world) (k : kind) (bind : bool) (arg : str) : Prop :=
  match k with
  | Names plus minus => ~ concerns w (if bind then plus else minus) (nospace arg)
  | PlusNames plus => bind = true -> ~ concerns w plus (nospace arg)
  | MinusNames minus => bind = false -> ~ concerns w minus (nospace arg)
  | Keyed m _ => bind = true -> forall x v, two_parts arg x v -> ~ concerns_key w m x
  | KeyedInclude k => forall x v, two_parts arg x v -> ~ concerns_include w k x
  | Scalar _ => False
  end.
