(** Model of /repo/source/function.cpp. *)
From Coq Require Import Ascii String Bool Arith NArith.
From Coq Require Import List.
From Verif Require Import Str Util Config Ast Types.
Import ListNotations.

(** [for(i...) { r += x_i; if(i + 1 != n) r += sep; }] *)
Fixpoint join (sep : str) (l : list str) : str :=
  match l with
  | [] => []
  | [x] => x
  | x :: l' => x ++ sep ++ join sep l'
  end.
Fixpoint mapi_from {A B} (i : nat) (f : nat -> A -> B) (l : list A) : list B :=
  match l with
  | [] => []
  | x :: l' => f i x :: mapi_from (S i) f l'
  end.
Definition mapi {A B} (f : nat -> A -> B) (l : list A) : list B := mapi_from 0 f l.

Definition num_params (F : fn) : nat := length (f_params F).

(** function.cpp:47-89 [cpp_python_operator]; the [std::map] is given as its list of entries. *)
Definition operator_table : list (str * list str) := [
  ($"operator+", [$"__pos__"; $"__add__"]);
  ($"operator-", [$"__neg__"; $"__sub__"]);
  ($"operator*", [$"dereference"; $"__mul__"]);
  ($"operator/", [$"__truediv__"]);
  ($"operator%", [$"__mod__"]);
  ($"operator~", [$"__invert__"]);
  ($"operator|", [$"__or__"]);
  ($"operator&", [$"__and__"]);
  ($"operator^", [$"__xor__"]);
  ($"operator<<", [$"__lshift__"]);
  ($"operator>>", [$"__rshift__"]);
  ($"operator+=", [$"__iadd__"]);
  ($"operator-=", [$"__isub__"]);
  ($"operator*=", [$"__imul__"]);
  ($"operator/=", [$"__itruediv__"]);
  ($"operator%=", [$"__imod__"]);
  ($"operator|=", [$"__ior__"]);
  ($"operator&=", [$"__iand__"]);
  ($"operator^=", [$"__ixor__"]);
  ($"operator<<=", [$"__ilshift__"]);
  ($"operator>>=", [$"__irshift__"]);
  ($"operator()", [$"__call__"]);
  ($"operator==", [$"__eq__"]);
  ($"operator!=", [$"__ne__"]);
  ($"operator[]", [$"__getitem__"]);
  ($"operator=", [$"assign"]);
  ($"operator++", [$"pre_increment"; $"post_increment"]);
  ($"operator--", [$"pre_decrement"; $"post_decrement"]);
  ($"operator->", [$"arrow"])
].
Definition cpp_python_operator (F : fn) : str :=
  match lookup (n_name (f_decl F)) operator_table with
  | Some vec => if num_params F <? length vec then nth (num_params F) vec [] else last vec []
  | None => []
  end.

(** function.cpp:93-107 [function_arguments] *)
Definition function_arguments (w : world) (F : fn) : str :=
  fix_boolean_types (join $", " (map (fun p => standard_name_q w (p_type p)) (f_params F))).

(** function.cpp:112-132 [function_arguments_for_lambda] *)
Definition arg_name (i : nat) : str := $"a" ++ dec i.
Definition lambda_param (w : world) (i : nat) (p : param) : str :=
  let qt := p_type p in
  standard_name_q w qt ++ $" "
    ++ (if negb (is_reference qt) && negb (is_pointer qt)
        then (if negb (is_const qt) then $"const & " else $"& ") else [])
    ++ arg_name i.
Definition function_arguments_for_lambda (w : world) (F : fn) (n : nat) : str * str :=
  (fix_boolean_types (join $", " (mapi (lambda_param w) (firstn n (f_params F)))),
   join $", " (mapi (fun i _ => arg_name i) (firstn n (f_params F)))).

(** function.cpp:137-156 [function_arguments_for_py_overload]; the third
    component is never used and is left out. *)
Definition function_arguments_for_py_overload (w : world) (F : fn) : str * str :=
  (fix_boolean_types (join $", " (mapi (fun i p => standard_name_q w (p_type p) ++ $" " ++ arg_name i) (f_params F))),
   join $", " (mapi (fun i _ => arg_name i) (f_params F))).

(** function.cpp:160-223 [template_specialization(FunctionDecl)] *)
Definition fun_specialization (w : world) (F : fn) : str :=
  let templ :=
    match f_kind F, f_targs F with
    | TK_Specialization, Some ta =>
        let t := set_last ">"
          (fold_left (fun templ a =>
             match a with
             | Targ (KPack 0) _ => templ
             | Targ (KPack _) arg =>
                 templ ++ (if 2 <? length arg then substr arg 1 (length arg - 2) else arg) ++ $","
             | Targ _ arg => templ ++ arg ++ $","
             end) ta $"<") in
        fix_boolean_types (if length t =? 1 then [] else t)
    | _, _ => []
    end in
  standard_name w templ.

(** function.cpp:227-244 [python_function_name] *)
Definition python_function_name (F : fn) : str :=
  if f_operator F then cpp_python_operator F else n_name (f_decl F).

(** [cast<CXXRecordDecl>(F->getParent())] of a method *)
Definition parent_of (F : fn) : nat := match n_parent (f_decl F) with Some p => p | None => 0 end.

(** function.cpp:247-269 [function_pointer_type] *)
Definition const_suffix (F : fn) : str := if f_method F && f_const F then $" const" else [].
Definition function_pointer_type (w : world) (F : fn) : str :=
  let prefix := if f_method F && negb (f_static F) then class_qualified_name w (parent_of F) ++ $"::" else [] in
  fix_boolean_types
    (standard_name_q w (f_ret F) ++ $" (" ++ prefix ++ $"*)(" ++ function_arguments w F ++ $")" ++ const_suffix F).

(** function.cpp:273-283 [function_qualified_name] *)
Definition function_qualified_name (w : world) (F : fn) (omit_return_type : bool) : str :=
  fix_boolean_types
    ((if omit_return_type then [] else standard_name_q w (f_ret F) ++ $" ")
       ++ standard_name w (n_qname (f_decl F) ++ fun_specialization w F)
       ++ $"(" ++ function_arguments w F ++ $")" ++ const_suffix F).

(** function.cpp:294-312 [get_type_dependencies(FunctionDecl)] *)
Definition fun_type_dependencies (F : fn) : list qty :=
  f_ret F :: map p_type (f_params F)
    ++ match f_kind F with
       | TK_NonTemplate => []
       | _ => match f_targs F with Some ta => type_args ta | None => [] end
       end.

(** function.cpp:316-325 [is_binding_requested(FunctionDecl)] *)
Definition is_binding_requested_fun (w : world) (F : fn) : result bool :=
  if is_function_binding_requested (wcfg w) (n_qname (f_decl F))
     || is_function_binding_requested (wcfg w) (function_qualified_name w F true) then Ok true
  else
    do bind <- is_namespace_binding_requested (wcfg w) (namespace_from_named_decl w (f_decl F));
    or_all bind (map (is_binding_requested_q w) (fun_type_dependencies F)).

(** function.cpp:329-360 [is_skipping_requested(FunctionDecl)] *)
Definition is_skipping_requested_fun (w : world) (F : fn) : result bool :=
  let qualified_name := standard_name w (n_qname (f_decl F)) in
  let full_name := function_qualified_name w F true in
  if is_function_skipping_requested (wcfg w) full_name then Ok true
  else if is_function_binding_requested (wcfg w) full_name then Ok false
  else if is_function_skipping_requested (wcfg w) qualified_name then Ok true
  else if is_function_binding_requested (wcfg w) qualified_name then Ok false
  else
    do skip <- is_namespace_skipping_requested (wcfg w) (namespace_from_named_decl w (f_decl F));
    let skip := skip || is_function_skipping_requested (wcfg w) qualified_name in
    let C := rec_ w (parent_of F) in
    let skip := skip || (f_method F && is_specialization C
                         && is_function_skipping_requested (wcfg w)
                              (standard_name w (n_qname (r_decl C) ++ $"::" ++ n_name (f_decl F)))) in
    or_all skip (map (is_skipping_requested_q w) (fun_type_dependencies F)).

(** Text together with the type names passed to [Context::request_bindings]. *)
Definition emitted := (str * list str)%type.

(** function.cpp:393-404: elaborated keywords at the start of a lambda's return type. *)
Definition lambda_return_map : list (str * str) := [
  ($"enum ", []); ($"class ", []); ($"struct ", []);
  ($"const enum ", $"const "); ($"const class ", $"const "); ($"const struct ", $"const ")
].
Definition lambda_return_type (w : world) (t : qty) : str :=
  fold_left (fun r p => if begins_with r (fst p) then snd p ++ substr r (length (fst p)) (length r) else r)
            lambda_return_map (standard_name_q w t).

(** function.cpp:422-432: return value policy. *)
Definition return_policy (w : world) (F : fn) : str :=
  let s := strs (wcfg w) in
  let t := f_ret F in
  if f_method F && negb (f_static F) then
    if is_pointer t then $", " ++ s default_member_pointer_return_value_policy
    else if is_lref t then $", " ++ s default_member_lvalue_reference_return_value_policy
    else if is_rref t then $", " ++ s default_member_rvalue_reference_return_value_policy
    else []
  else
    if is_pointer t then $", " ++ s default_static_pointer_return_value_policy
    else if is_lref t then $", " ++ s default_static_lvalue_reference_return_value_policy
    else if is_rref t then $", " ++ s default_static_rvalue_reference_return_value_policy
    else [].

(** [request_bindings] on a list of types, in order *)
Fixpoint request_types (w : world) (l : list qty) : result (list str) :=
  match l with
  | [] => Ok []
  | t :: l' => do a <- request_type w t; do b <- request_types w l'; Ok (a ++ b)
  end.

(** [, pybind11::arg("name")] for the first [n] parameters *)
Definition py_args (F : fn) (n : nat) : str :=
  concat (map (fun p => $", pybind11::arg(" ++ [dq] ++ p_name p ++ [dq] ++ $")") (firstn n (f_params F))).

(** function.cpp:381-420: the C++ expression bound to a function, and its documentation. *)
Definition bound_name (w : world) (F : fn) (parent : option nat) : str :=
  standard_name w (match parent with
                   | Some p => class_qualified_name w p ++ $"::" ++ n_name (f_decl F)
                   | None => n_qname (f_decl F)
                   end).
Definition function_expression (w : world) (F : fn) (args_to_bind : nat) (parent : option nat) (always_use_lambda : bool) : str * str :=
  if (args_to_bind =? num_params F) && negb always_use_lambda then
    let doc := documentation_string (n_doc (f_decl F)) in
    ($"(" ++ function_pointer_type w F ++ $") &" ++ bound_name w F parent ++ fun_specialization w F,
     (match doc with [] => [] | _ => doc ++ [bs; "n"%char; bs; "n"%char] end)
       ++ $"C++: " ++ standard_name w (n_qname (f_decl F) ++ $"(" ++ function_arguments w F ++ $")" ++ const_suffix F
                                         ++ $" --> " ++ standard_name_q w (f_ret F)))
  else
    let '(typed, names) := function_arguments_for_lambda w F args_to_bind in
    let return_type := lambda_return_type w (f_ret F) in
    ((if f_method F && negb (f_static F) then
        $"[](" ++ class_qualified_name w (match parent with Some p => p | None => parent_of F end)
          ++ (if f_const F then $" const" else []) ++ $" &o" ++ (if args_to_bind =? 0 then [] else $", ")
          ++ typed ++ $") -> " ++ return_type ++ $" { return o." ++ n_name (f_decl F) ++ $"(" ++ names ++ $"); }"
      else
        $"[](" ++ typed ++ $") -> " ++ return_type ++ $" { return " ++ bound_name w F parent ++ $"(" ++ names ++ $"); }"),
     []).

(** function.cpp:364-449 [bind_function], one overload. *)
Definition bind_overload (w : world) (F : fn) (args_to_bind : nat) (request : bool) (parent : option nat) (always_use_lambda : bool) : result emitted :=
  let static := f_method F && f_static F in
  let function_name := (if static then strs (wcfg w) prefix_for_static_member_functions else []) ++ python_function_name F in
  let '(function, documentation) := function_expression w F args_to_bind parent always_use_lambda in
  let guard := strs (wcfg w) default_call_guard in
  do reqs <- (if request
              then request_types w (canonical (f_ret F) :: map p_type (firstn args_to_bind (f_params F)))
              else Ok []);
  Ok ($".def" ++ (if static then $"_static" else []) ++ $"(" ++ [dq] ++ function_name ++ [dq] ++ $", " ++ function
        ++ $", " ++ [dq] ++ documentation ++ [dq] ++ return_policy w F
        ++ py_args F args_to_bind
        ++ (match guard with [] => [] | _ => $", pybind11::call_guard<" ++ guard ++ $">()" end)
        ++ $");",
      reqs).

(** Concatenation of emitted pieces, in order. *)
Fixpoint emit_all (l : list (result emitted)) : result emitted :=
  match l with
  | [] => Ok ([], [])
  | x :: l' => do (s, r) <- x; do (s', r') <- emit_all l'; Ok (s ++ s', r ++ r')
  end.

(** function.cpp:460-472: the numbers of arguments for which an overload is generated. *)
Fixpoint first_default (l : list param) : nat :=
  match l with
  | [] => 0
  | p :: l' => if p_default p then 0 else S (first_default l')
  end.
Definition first_bound (F : fn) : nat :=
  if existsb (fun p => is_function_type (canonical (p_type p))) (f_params F) then num_params F
  else first_default (f_params F).
Definition overload_counts (F : fn) : list nat := seq (first_bound F) (num_params F + 1 - first_bound F).

(** function.cpp:455-458 (also class.cpp:1036-1040, 1080-1092, 1108-1112): --annotate-functions. *)
Definition annotation (w : world) (F : fn) (omit_return_type : bool) : str :=
  if annotate_functions (wopt w) then
    tab :: $"// function-signature: " ++ function_qualified_name w F omit_return_type ++ $"(" ++ function_arguments w F
      ++ $") file:" ++ include_body (relevant_include (f_decl F)) ++ $" line:" ++ line_number w (f_decl F) ++ [nl]
  else [].

(** function.cpp:451-480 [bind_function] *)
Definition bind_function (w : world) (module : str) (F : fn) (parent : option nat) (always_use_lambda : bool) : result emitted :=
  do (s, r) <- emit_all (map (fun n =>
       do (s, r) <- bind_overload w F n (n =? num_params F) parent (always_use_lambda || f_variadic F);
       Ok (module ++ s ++ [nl], r)) (overload_counts F));
  Ok (annotation w F false ++ s, r).

(** function.cpp:494-497 [FunctionBinder::id] *)
Definition fun_id (w : world) (F : fn) : str := function_qualified_name w F false.

(** function.cpp:501-537 [is_bindable_raw(FunctionDecl)]; 540-569 [is_bindable]
    only adds a cache (see Memo.v). *)
Definition bracket_ok (qn : str) : bool :=
  match rfind qn $")" with
  | None => true
  | Some 0 => false
  | Some (S i) => match nth_error qn i with Some c => Ascii.eqb c "(" | None => false end
  end.
Definition is_bindable_fun (w : world) (F : fn) : bool :=
  bracket_ok (n_qname (f_decl F))
  && (if f_operator F then f_method F && negb (streqb (cpp_python_operator F) []) else true)
  && negb (f_deleted F)
  && (match f_kind F with TK_FunctionTemplate => false | _ => true end)
  && negb (f_conversion F)
  && is_bindable_q w (f_ret F)
  && forallb (fun p => is_bindable_q w (canonical (p_type p))) (f_params F)
  && negb (is_banned_symbol w (f_decl F)).

(** context.cpp:234-237 [Context::module_variable_name] *)
Definition module_variable_name (ns : str) : str := $"M(" ++ [dq] ++ ns ++ [dq] ++ $")".

(** function.cpp:617-629 [FunctionBinder::bind] (after the [is_binded] test) *)
Definition bind_fun (w : world) (F : fn) : result emitted :=
  do (s, r) <- bind_function w (tab :: module_variable_name (namespace_from_named_decl w (f_decl F))) F None false;
  Ok ((tab :: $"// " ++ n_qname (f_decl F) ++ $"(" ++ function_arguments w F ++ $") file:"
         ++ include_body (relevant_include (f_decl F)) ++ $" line:" ++ line_number w (f_decl F) ++ [nl])
        ++ s ++ [nl], r).
