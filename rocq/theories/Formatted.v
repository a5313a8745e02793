(** The functions that generate text, written with the calls of [fmt::format]
    of the sources: the same functions as in [Func], [Class], [Enum] and
    [Context], where the texts are put together directly. *)
From Coq Require Import Ascii String Bool Arith NArith.
From Coq Require Import List.
From Verif Require Import Str Util Config Ast Types Func Enum Includes Class Context Fmt FmtStrings.
Import ListNotations.

(** [s += ...] in a loop. *)
Fixpoint concat_r (l : list (result str)) : result str :=
  match l with
  | [] => Ok []
  | x :: l' => do a <- x; do b <- concat_r l'; Ok (a ++ b)
  end.

(** function.cpp:247-269 [function_pointer_type] *)
Definition function_pointer_type_f (w : world) (F : fn) : result str :=
  let prefix := if f_method F && negb (f_static F) then class_qualified_name w (parent_of F) ++ $"::" else [] in
  do p <- format fs_pointer [prefix];
  Ok (fix_boolean_types (standard_name_q w (f_ret F) ++ p ++ function_arguments w F ++ $")" ++ const_suffix F)).

(** function.cpp:379-416: the C++ expression bound to a function. *)
Definition function_expression_f (w : world) (F : fn) (args_to_bind : nat) (parent : option nat) (always_use_lambda : bool) : result str :=
  if (args_to_bind =? num_params F) && negb always_use_lambda then
    do p <- function_pointer_type_f w F;
    format fs_function [p; bound_name w F parent; fun_specialization w F]
  else
    let '(typed, names) := function_arguments_for_lambda w F args_to_bind in
    let return_type := lambda_return_type w (f_ret F) in
    if f_method F && negb (f_static F) then
      let object := class_qualified_name w (match parent with Some p => p | None => parent_of F end)
                      ++ (if f_const F then $" const" else []) ++ $" &o" ++ (if args_to_bind =? 0 then [] else $", ") in
      format fs_lambda_member [object; typed; return_type; n_name (f_decl F); names]
    else format fs_lambda [typed; return_type; bound_name w F parent; names].

(** function.cpp:431-449: one definition. *)
Definition bind_overload_f (w : world) (F : fn) (args_to_bind : nat) (parent : option nat) (always_use_lambda : bool) : result str :=
  let static := f_method F && f_static F in
  let function_name := (if static then strs (wcfg w) prefix_for_static_member_functions else []) ++ python_function_name F in
  let guard := strs (wcfg w) default_call_guard in
  do function <- function_expression_f w F args_to_bind parent always_use_lambda;
  do r <- format fs_def [if static then $"_static" else []; function_name; function;
                         snd (function_expression w F args_to_bind parent always_use_lambda); return_policy w F];
  do a <- concat_r (map (fun p => format fs_arg [p_name p]) (firstn args_to_bind (f_params F)));
  Ok (r ++ a ++ (match guard with [] => [] | _ => $", pybind11::call_guard<" ++ guard ++ $">()" end) ++ $");").

(** enum.cpp:117-143 [bind_enum] *)
Definition bind_enum_f (w : world) (module : str) (e : enum) : result str :=
  do local <- is_module_local_requested (wcfg w) (namespace_from_named_decl w (e_decl e));
  do h <- format fs_enum [n_qname (e_decl e); module; n_name (e_decl e); if e_scoped e then [] else $", pybind11::arithmetic()";
                          documentation_string (n_doc (e_decl e)); if local then $", pybind11::module_local()" else []];
  do v <- concat_r (map (fun v => format fs_enum_value [fst v; snd v]) (e_values e));
  Ok (removelast (h ++ v) ++ (if e_class_tag e then $";" ++ [nl; nl] else [nl; tab; tab] ++ $".export_values();" ++ [nl; nl])).

(** class.cpp:155-167 [bind_data_member] *)
Definition bind_data_member_f (w : world) (f : field) (class_qualified_name : str) : result str :=
  let qn := strip_anonymous class_qualified_name in
  let n := n_name (fd_decl f) in
  format (if is_const (fd_type f) || negb (is_field_assignable w f) then fs_readonly else fs_readwrite) [n; qn; n].

(** class.cpp:727-789: text of one overrider. *)
Definition overrider_text_f (w : world) (r m : nat) (class_name : str) (ret_id : nat) : result (str * nat) :=
  let C := rec_ w r in
  let M := fun_ w m in
  let cn := n_name (r_decl C) in
  let mn := n_name (f_decl M) in
  let return_type := fix_boolean_types (standard_name_q w (f_ret M)) in
  let '(typed, names) := function_arguments_for_py_overload w M in
  do (alias, return_type, ret_id) <-
    (if contains_char "," return_type then
       let a := $"_binder_ret_" ++ dec ret_id in
       let rt := if begins_with return_type $"class " then substr return_type 6 (length return_type) else return_type in
       do s <- format fs_alias [a; rt]; Ok (s, a, S ret_id)
     else Ok ([], return_type, ret_id));
  let python_name := python_function_name M in
  let ns := namespace_from_named_decl w (r_decl C) in
  let custom := is_custom_trampoline_function_requested (wcfg w)
                  ((match ns with [] => [] | _ => ns ++ $"::" end) ++ cn ++ $"::" ++ mn) in
  do h <- format fs_overrider [return_type; mn; typed; if f_const M then $" const" else []; exception_specification (f_est M)];
  do body <-
    match custom with
    | [] =>
        do b <- format fs_call_back [class_name; python_name; names; return_type];
        do c <- (if f_pure M then format fs_pure_call [cn; python_name] else format fs_base_call [cn; mn; names]);
        Ok (indent b [tab; tab] ++ c)
    | _ =>
        do b <- format fs_custom_call [custom; cn; callback_structure_name w r; class_name; mn];
        do c <- match names with [] => Ok [] | _ => format fs_custom_args [names] end;
        Ok (b ++ c ++ $");" ++ [nl])
    end;
  Ok (alias ++ h ++ body ++ [tab] ++ $"}" ++ [nl], ret_id).

(** class.cpp:827-841 [generate_prefix_code], the first line of the structure. *)
Definition structure_head_f (w : world) (r : nat) : result str :=
  format fs_structure [callback_structure_name w r; class_qualified_name w r; n_name (r_decl (rec_ w r))].

(** class.cpp:1029-1073 [bind_constructor], one overload (without the annotation). *)
Definition bind_ctor_overload_f (w : world) (ci : ctor_info) (T : fn) (args_to_bind : nat) : result str :=
  if (args_to_bind =? num_params T) && negb (f_variadic T) then
    do h <- format fs_init [function_arguments w T];
    do a <- concat_r (map (fun p => format fs_ctor_arg [p_name p]) (firstn args_to_bind (f_params T)));
    Ok (h ++ a ++ $" );" ++ [nl])
  else
    let '(typed, names) := function_arguments_for_lambda w T args_to_bind in
    let params := if args_to_bind =? 0 then [] else typed in
    do args_helper <- concat_r (map (fun p => format fs_ctor_arg2 [p_name p]) (firstn args_to_bind (f_params T)));
    if r_abstract (rec_ w (ci_class ci)) then format fs_ctor_abstract [params; names; ci_trampoline_name ci]
    else if ci_trampoline ci then format fs_ctor_trampoline [params; names; ci_name ci; ci_trampoline_name ci]
    else format fs_ctor_plain [params; names; ci_name ci; args_helper].

(** class.cpp:1077-1101 [bind_default_constructor] (without the annotation) *)
Definition bind_default_constructor_f (w : world) (ci : ctor_info) : result str :=
  if r_abstract (rec_ w (ci_class ci)) then format fs_default_abstract [ci_trampoline_name ci]
  else if ci_trampoline ci then format fs_default_trampoline [ci_name ci; ci_trampoline_name ci]
  else format fs_default_plain [ci_name ci].

(** class.cpp:1105-1153 [bind_copy_constructor] (without the annotation) *)
Definition bind_copy_constructor_f (w : world) (ci : ctor_info) (T : fn) : result str :=
  let const_bit := match f_ctor T with Some k => match c_copy k with Some true => $" const" | _ => [] end | None => [] end in
  if ci_trampoline ci then
    if r_abstract (rec_ w (ci_class ci)) then format fs_copy_abstract [ci_trampoline_name ci; const_bit]
    else
      do a <- format fs_copy_trampoline [ci_trampoline_name ci; const_bit];
      do b <- (if is_public (f_decl T) then format fs_copy_class [ci_name ci; const_bit] else Ok []);
      Ok (a ++ b)
  else format fs_copy_plain [ci_name ci; const_bit].

(** class.cpp:1171-1192 [bind_repr], the generated text. *)
Definition str_text_f (qualified_name ns : str) : result str :=
  do u <- match ns with [] => Ok [] | _ => format fs_using_namespace [ns] end;
  format fs_str_function [qualified_name; u].

(** class.cpp:1282-1285: the holder. *)
Definition smart_holder_f (holder qualified_name : str) : result str := format fs_holder [holder; qualified_name].

(** class.cpp:943-975 [maybe_base_classes] *)
Definition bases_text_f (w : world) (l : list nat) : result str := concat_r (map (fun R => format fs_base_class [class_qualified_name w R]) l).

(** class.cpp:1304-1315: the head of a named class. *)
Definition class_head_f (w : world) (r : nat) (hold trampoline_text bases_text module_var extra : str) : result str :=
  let qualified_name := class_qualified_name w r in
  do c <- (if is_smart_holder_requested (wcfg w) (standard_name w (n_qname (r_decl (rec_ w r)))) then
             do s <- format fs_caster [qualified_name; hold]; Ok ([tab] ++ s ++ [nl])
           else Ok []);
  do s <- format fs_class_ [qualified_name; hold; trampoline_text; bases_text; module_var; python_class_name w r;
                            documentation_string (n_doc (r_decl (rec_ w r))); extra];
  Ok (c ++ [tab] ++ s ++ [nl]).

(** context.cpp:457: one pair of the list of submodules. *)
Definition namespace_pair_f (n : str) : result str :=
  match n with [] => Ok [] | _ => format fs_namespace_pair [base_namespace n; last_namespace n] end.

(** context.cpp:453-474: the root module. *)
Definition root_text_f (w : world) (namespaces : list str) (files : list gen_file) : result str :=
  do pairs <- concat_r (map namespace_pair_f namespaces);
  format fs_main_module [pybind11_include_line w; concat (map (fun g => function_decl (g_fun g)) files); root_module (wopt w); pairs;
                         concat (map (fun g => function_call (g_fun g)) files)].

(** context.cpp:438-444: text of a file. *)
Definition file_text_f (w : world) (fname : str) (st : file_state) : result str :=
  let holder := strs (wcfg w) holder_type in
  do h <- format fs_module_header [pybind11_include_line w; includes_code (wcfg w) (include_pybind11_stl (wopt w));
                                   $"PYBIND11_DECLARE_HOLDER_TYPE(T, " ++ holder ++ $"<T>, false)"; $"PYBIND11_MAKE_OPAQUE(" ++ holder ++ $"<void>)"];
  Ok (generate_include_directives w (s_incs st) ++ h ++ s_prefix st ++ $"void " ++ fname ++ module_function_suffix ++ [nl] ++ $"{" ++ [nl] ++ s_code st ++ $"}" ++ [nl]).
