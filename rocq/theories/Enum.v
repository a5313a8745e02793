(** Model of /repo/source/enum.cpp. *)
From Coq Require Import Ascii String Bool Arith NArith.
From Coq Require Import List.
From Verif Require Import Str Util Config Ast Types Func.
Import ListNotations.

(** enum.cpp:45-57 [is_bindable(EnumDecl)] *)
Definition is_bindable_enum (e : enum) : bool :=
  negb (e_instance e)
  && negb (streqb (n_name (e_decl e)) [] || contains_char ")" (n_name (e_decl e))).

(** enum.cpp:60-67 [is_binding_requested(EnumDecl)] *)
Definition is_binding_requested_enum (w : world) (e : enum) : result bool :=
  if is_enum_binding_requested (wcfg w) (n_qname (e_decl e)) then Ok true
  else is_namespace_binding_requested (wcfg w) (namespace_from_named_decl w (e_decl e)).

(** enum.cpp:70-82 [is_skipping_requested(EnumDecl)] *)
Definition is_skipping_requested_enum (w : world) (e : enum) : result bool :=
  let qualified_name := standard_name w (n_qname (e_decl e)) in
  if is_enum_skipping_requested (wcfg w) qualified_name then Ok true
  else if is_enum_binding_requested (wcfg w) qualified_name then Ok false
  else is_namespace_skipping_requested (wcfg w) (namespace_from_named_decl w (e_decl e)).

(** enum.cpp:117-143 [bind_enum].  [r.pop_back()] removes the last newline. *)
Definition enum_value (v : str * str) : str :=
  [tab; tab] ++ $".value(" ++ [dq] ++ fst v ++ [dq] ++ $", " ++ snd v ++ $")" ++ [nl].
Definition bind_enum (w : world) (module : str) (e : enum) : result str :=
  do local <- is_module_local_requested (wcfg w) (namespace_from_named_decl w (e_decl e));
  let r := [tab] ++ $"pybind11::enum_<" ++ n_qname (e_decl e) ++ $">(" ++ module ++ $", " ++ [dq] ++ n_name (e_decl e) ++ [dq]
             ++ (if e_scoped e then [] else $", pybind11::arithmetic()")
             ++ $", " ++ [dq] ++ documentation_string (n_doc (e_decl e)) ++ [dq]
             ++ (if local then $", pybind11::module_local()" else []) ++ $")" ++ [nl]
             ++ concat (map enum_value (e_values e)) in
  Ok (removelast r
        ++ (if e_class_tag e then $";" ++ [nl; nl] else [nl; tab; tab] ++ $".export_values();" ++ [nl; nl])).

(** enum.cpp:147-150 [EnumBinder::id] *)
Definition enum_id (e : enum) : str := n_qname (e_decl e).

(** enum.cpp:154-157 [EnumBinder::bindable] *)
Definition enum_bindable (w : world) (e : enum) : bool :=
  is_bindable_enum e && negb (is_banned_symbol w (e_decl e)).

(** enum.cpp:175-184 [EnumBinder::bind] (after the [is_binded] test) *)
Definition bind_enum_binder (w : world) (e : enum) : result str :=
  do s <- bind_enum w (module_variable_name (namespace_from_named_decl w (e_decl e))) e;
  Ok ([tab] ++ generate_comment_for_declaration w (e_decl e) ++ s ++ $";" ++ [nl; nl]).
