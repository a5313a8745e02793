(** Specification vocabulary for runs that differ in the settings on the form
    of the generated code only. *)
From Coq Require Import Ascii String Bool Arith.
From Coq Require Import List.
From Verif Require Import Str SpecUtil Util Config SpecConfig Ast Context.
Import ListNotations.

(** The settings that select: directives on namespaces, classes, functions,
    enums, fields, Python builtins and module-local namespaces; the classes
    that have a replacing binder (not which one); the type of the holder.

    All other settings may differ: return value policies, the call guard, the
    prefix of static member functions, the header of pybind11, smart holders,
    buffer protocols, trampoline function binders, add-on binders, binders of
    namespaces and the includes of classes, namespaces and files. *)
Definition selecting : list list_key :=
  [namespaces_to_bind; namespaces_to_skip; classes_to_bind; classes_to_skip; functions_to_bind; functions_to_skip;
   enums_to_bind; enums_to_skip; fields_to_skip; module_local_namespaces_to_add; module_local_namespaces_to_skip;
   python_builtins; not_python_builtins].
Definition same_selection (c c' : config) : Prop :=
  (forall k, In k selecting -> lists c' k = lists c k) /\
  (forall n, lookup n (maps c' binders) = None <-> lookup n (maps c binders) = None) /\
  strs c' holder_type = strs c holder_type.
(** The options that select: --include-pybind11-stl and
    --bind-class-template-specialization. *)
Definition same_selecting_options (o o' : options) : Prop :=
  include_pybind11_stl o' = include_pybind11_stl o /\ bind_class_template_specialization o' = bind_class_template_specialization o.
(** The same item with the same decisions; its text may differ. *)
Definition same_item (b b' : binder) : Prop :=
  b_decl b' = b_decl b /\ b_bind_req b' = b_bind_req b /\ b_skip_req b' = b_skip_req b /\ b_deps b' = b_deps b /\ b_incl b' = b_incl b /\
  (b_code b' = [] <-> b_code b = []).

(** ** Config files *)
Definition style_tokens : list str :=
  [$"include"; $"include_for_class"; $"include_for_namespace"; $"buffer_protocol"; $"add_on_binder"; $"binder_for_namespace";
   $"add_on_binder_for_namespace"; $"smart_holder"; $"pybind11_include_file";
   $"default_static_pointer_return_value_policy"; $"default_static_lvalue_reference_return_value_policy";
   $"default_static_rvalue_reference_return_value_policy"; $"default_member_pointer_return_value_policy";
   $"default_member_lvalue_reference_return_value_policy"; $"default_member_rvalue_reference_return_value_policy";
   $"default_call_guard"; $"prefix_for_static_member_functions"; $"trampoline_member_function_binder"].
(** A comment, a blank line or a directive on the form of the code. *)
Definition style_line (line : str) : Prop :=
  ignored_line line \/ exists bind token arg, says line bind token arg /\ In token style_tokens.
(** The lines of two files that differ in such lines and in the functions that
    +binder directives name. *)
Inductive same_but_style : list str -> list str -> Prop :=
| sb_end : same_but_style [] []
| sb_same l a b : same_but_style a b -> same_but_style (l :: a) (l :: b)
| sb_first l a b : style_line l -> same_but_style a b -> same_but_style (l :: a) b
| sb_second l a b : style_line l -> same_but_style a b -> same_but_style a (l :: b)
| sb_binder l l' x arg f arg' f' a b : says l true $"binder" arg -> two_parts arg x f -> says l' true $"binder" arg' -> two_parts arg' x f' ->
    same_but_style a b -> same_but_style (l :: a) (l' :: b).
