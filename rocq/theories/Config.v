(** Model of /repo/source/config.hpp and config.cpp: the settings, the reader
    of config files and the queries on settings. *)
From Coq Require Import Ascii String Bool Arith NArith.
From Coq Require Import List.
From Verif Require Import Str Util.
Import ListNotations.

(** config.hpp:37-77.  The data members of [Config] grouped by type.
    [std::vector<string>] members: *)
Inductive list_key :=
| namespaces_to_bind | namespaces_to_skip | classes_to_bind | classes_to_skip
| functions_to_bind | functions_to_skip | enums_to_bind | enums_to_skip
| includes_to_add | includes_to_skip | fields_to_skip | buffer_protocols
| module_local_namespaces_to_add | module_local_namespaces_to_skip | smart_held_classes
| python_builtins | not_python_builtins.   (* std::set<string>; only membership is observed, kept as lists *)
(** [std::map<string, string>] members: *)
Inductive map_key :=
| binders | add_on_binders | binder_for_namespaces | add_on_binder_for_namespaces | custom_trampoline_functions.
(** [std::map<string, std::vector<string>>] members: *)
Inductive vec_key := class_includes | namespace_includes.
(** [string] members: *)
Inductive str_key :=
| default_static_pointer_return_value_policy | default_static_lvalue_reference_return_value_policy
| default_static_rvalue_reference_return_value_policy | default_member_pointer_return_value_policy
| default_member_lvalue_reference_return_value_policy | default_member_rvalue_reference_return_value_policy
| default_call_guard | holder_type | pybind11_include_file | prefix_for_static_member_functions.

Definition list_key_eq (a b : list_key) : {a = b} + {a <> b}. Proof. decide equality. Defined.
Definition map_key_eq (a b : map_key) : {a = b} + {a <> b}. Proof. decide equality. Defined.
Definition vec_key_eq (a b : vec_key) : {a = b} + {a <> b}. Proof. decide equality. Defined.
Definition str_key_eq (a b : str_key) : {a = b} + {a <> b}. Proof. decide equality. Defined.

Record config := mkconfig {
  lists : list_key -> list str;
  maps : map_key -> list (str * str);
  vecs : vec_key -> list (str * list str);
  strs : str_key -> str
}.

(** config.hpp:42-57: default member initialisers. *)
Definition default_config : config :=
  mkconfig (fun _ => []) (fun _ => []) (fun _ => [])
    (fun k => match k with
              | default_call_guard => []
              | holder_type => $"std::shared_ptr"
              | pybind11_include_file => $"pybind11/pybind11.h"
              | prefix_for_static_member_functions => []
              | _ => $"pybind11::return_value_policy::automatic"
              end).

(** [vector.push_back] / [set.insert], [map[k] = v], [map[k].push_back(v)], assignment. *)
Definition push (k : list_key) (v : str) (c : config) : config :=
  mkconfig (fun k' => if list_key_eq k' k then lists c k' ++ [v] else lists c k') (maps c) (vecs c) (strs c).
Definition put (k : map_key) (x v : str) (c : config) : config :=
  mkconfig (lists c) (fun k' => if map_key_eq k' k then update x v (maps c k') else maps c k') (vecs c) (strs c).
Definition put_vec (k : vec_key) (x v : str) (c : config) : config :=
  mkconfig (lists c) (maps c)
    (fun k' => if vec_key_eq k' k
               then update x ((match lookup x (vecs c k') with Some l => l | None => [] end) ++ [v]) (vecs c k')
               else vecs c k') (strs c).
Definition assign (k : str_key) (v : str) (c : config) : config :=
  mkconfig (lists c) (maps c) (vecs c) (fun k' => if str_key_eq k' k then v else strs c k').

(** config.cpp:32-41 [split_in_two]: [std::min] of the two positions, [npos] being the largest. *)
Definition split_in_two (s error_string : str) : result (str * str) :=
  let split := match find_char s sp, find_char s tab with
               | Some a, Some b => Some (Nat.min a b)
               | Some a, None => Some a
               | None, b => b
               end in
  match split with
  | None => Throw error_string
  | Some i => Ok (firstn i s, skipn (i + 1) s)
  end.

(** The two-part directives of config.cpp:143-244 (error text up to the name of the directive). *)
Definition keyed (name line what form : str) (f : str -> str -> config) : result config :=
  do p <- split_in_two name ($"Invalid line for " ++ what ++ $" specification! Must be: " ++ form ++ $". Got: " ++ line);
  Ok (f (fst p) (snd p)).

Definition type_include_form : str := $"name_of_type + <space or tab> + include_path".
Definition type_binder_form : str := $"name_of_type + <space or tab> + name_of_binder".
Definition trampoline_form : str := $"qualified_class_name::member_funtion_name + <space or tab> + name_of_function".

(** config.cpp:119-252: the chain of token comparisons for one line.
    [token], [name], [name_without_spaces] as computed by [read_line]. *)
Definition read_token (c : config) (bind : bool) (token name line : str) : result config :=
  let nws := remove_char sp name in
  let is s := streqb token s in
  if is $"namespace" then Ok (push (if bind then namespaces_to_bind else namespaces_to_skip) nws c)
  else if is $"class" then Ok (push (if bind then classes_to_bind else classes_to_skip) nws c)
  else if is $"enum" then Ok (push (if bind then enums_to_bind else enums_to_skip) nws c)
  else if is $"python_builtin" then Ok (push (if bind then python_builtins else not_python_builtins) nws c)
  else if is $"function" then Ok (push (if bind then functions_to_bind else functions_to_skip) nws c)
  else if is $"include" then Ok (push (if bind then includes_to_add else includes_to_skip) nws c)
  else if is $"include_for_class" then
    (if bind then keyed name line $"include_for_class" type_include_form (fun x v => put_vec class_includes x v c)
     else Throw $"include_for_class must be '+' configuration.")
  else if is $"include_for_namespace" then
    (if bind then keyed name line $"include_for_namespace" type_include_form (fun x v => put_vec namespace_includes x v c)
     else Throw $"include_for_namespace must be '+' configuration.")
  else if is $"buffer_protocol" then Ok (if bind then push buffer_protocols nws c else c)
  else if is $"module_local_namespace" then
    Ok (push (if bind then module_local_namespaces_to_add else module_local_namespaces_to_skip) nws c)
  else if is $"binder" then
    (if bind then keyed name line $"binder" type_binder_form (fun x v => put binders x (trim v) c) else Ok c)
  else if is $"add_on_binder" then
    (if bind then keyed name line $"add_on_binder" type_binder_form (fun x v => put add_on_binders x (trim v) c) else Ok c)
  else if is $"binder_for_namespace" then
    (if bind then keyed name line $"binder_for_namespace" type_binder_form (fun x v => put binder_for_namespaces x (trim v) c) else Ok c)
  else if is $"add_on_binder_for_namespace" then
    (if bind then keyed name line $"add_on_binder_for_namespace" type_binder_form (fun x v => put add_on_binder_for_namespaces x (trim v) c) else Ok c)
  else if is $"field" then Ok (if bind then c else push fields_to_skip nws c)
  else if is $"custom_shared" then Ok (assign holder_type nws c)
  else if is $"smart_holder" then Ok (if bind then push smart_held_classes nws c else c)
  else if is $"pybind11_include_file" then Ok (assign pybind11_include_file nws c)
  else if is $"default_static_pointer_return_value_policy" then Ok (assign default_static_pointer_return_value_policy nws c)
  else if is $"default_static_lvalue_reference_return_value_policy" then Ok (assign default_static_lvalue_reference_return_value_policy nws c)
  else if is $"default_static_rvalue_reference_return_value_policy" then Ok (assign default_static_rvalue_reference_return_value_policy nws c)
  else if is $"default_member_pointer_return_value_policy" then Ok (assign default_member_pointer_return_value_policy nws c)
  else if is $"default_member_lvalue_reference_return_value_policy" then Ok (assign default_member_lvalue_reference_return_value_policy nws c)
  else if is $"default_member_rvalue_reference_return_value_policy" then Ok (assign default_member_rvalue_reference_return_value_policy nws c)
  else if is $"default_call_guard" then Ok (assign default_call_guard nws c)
  else if is $"prefix_for_static_member_functions" then Ok (assign prefix_for_static_member_functions nws c)
  else if is $"trampoline_member_function_binder" then
    (if bind then keyed name line $"trampoline_member_function_binder" trampoline_form (fun x v => put custom_trampoline_functions x v c) else Ok c)
  else Throw ($"Invalid token in config file! Each token must be either: namespace, class or function! For example: '+function aaa::bb::my_function'. Token: '"
              ++ token ++ $"' Line: '" ++ line ++ $"'").

(** config.cpp:100-252: one iteration of the [getline] loop. *)
Definition drop_cr (line : str) : str :=
  match rev line with
  | c :: r => if Ascii.eqb c cr then rev r else line
  | [] => line
  end.
Definition read_line (c : config) (line0 : str) : result config :=
  match line0 with
  | [] => Ok c
  | ch :: _ =>
      if Ascii.eqb ch "#" then Ok c
      else
        let line := drop_cr line0 in
        match line with
        | [] => Ok c
        | sign :: _ =>
            if negb (Ascii.eqb sign "+") && negb (Ascii.eqb sign "-") then
              Throw ($"Invalid token at the begining of line in config file! Each line should begin with ether '+' or '-' or '#'! Line: " ++ line)
            else
              match find_char line sp with
              | None => Throw ($"Invalid line in config file! Each line must have token separated with space from object name. For example: '+function aaa::bb::my_function'. Line: " ++ line)
              | Some space =>
                  read_token c (Ascii.eqb sign "+") (substr line 1 (space - 1)) (skipn (space + 1) line) line
              end
        end
  end.

(** config.cpp:94-254: the loop over the lines of the file.  [std::getline]
    yields the newline-terminated pieces and a last unterminated non-empty
    piece, i.e. [split text "\n"]. *)
Fixpoint read_lines (c : config) (ls : list str) : result config :=
  match ls with
  | [] => Ok c
  | l :: ls' => do c' <- read_line c l; read_lines c' ls'
  end.
Definition read_text (c : config) (text : str) : result config := read_lines c (split text [nl]).

(** config.cpp:54-97 [Config::read]: [None] is a file that cannot be opened. *)
Definition read (c : config) (file_name : str) (file : option str) : result config :=
  match file with
  | None => Throw ($"can not open file " ++ file_name ++ $" for reading...")
  | Some text => read_text c text
  end.

(** The scan shared by config.cpp:264-280 and 299-315: the longest non-empty
    entry that is a prefix of [ns] (first among equals) and whether one was
    found. *)
Definition longest_step (ns : str) (acc : str * bool) (n : str) : str * bool :=
  if begins_with ns n then (if length (fst acc) <? length n then (n, true) else acc) else acc.
Definition conflict_text (ns : str) : str :=
  $"Could not determent if namespace '" ++ ns ++ $"' should be binded or not... please check if options --bind and --skip conflicting!!!".

(** config.cpp:259-292 *)
Definition is_namespace_binding_requested (c : config) (ns : str) : result bool :=
  let '(to_bind, bind_flag) :=
    fold_left (fun acc n =>
                 let acc := if length n =? 0 then (fst acc, true) else acc in longest_step ns acc n)
              (lists c namespaces_to_bind) ([], false) in
  let '(to_skip, skip_flag) := fold_left (longest_step ns) (lists c namespaces_to_skip) ([], false) in
  if length to_skip <? length to_bind then Ok true
  else if length to_bind <? length to_skip then Ok false
  else if bind_flag && skip_flag then Throw (conflict_text ns)
  else if bind_flag then Ok true else Ok false.

(** config.cpp:294-326 *)
Definition is_namespace_skipping_requested (c : config) (ns : str) : result bool :=
  let '(to_bind, bind_flag) := fold_left (longest_step ns) (lists c namespaces_to_bind) ([], false) in
  let '(to_skip, skip_flag) := fold_left (longest_step ns) (lists c namespaces_to_skip) ([], false) in
  if length to_skip <? length to_bind then Ok false
  else if length to_bind <? length to_skip then Ok true
  else if bind_flag && skip_flag then Throw (conflict_text ns)
  else if skip_flag then Ok true else Ok false.

(** config.cpp:329-384: spaces are removed from the query. *)
Definition is_function_binding_requested (c : config) (f : str) : bool := mem (remove_char sp f) (lists c functions_to_bind).
Definition is_function_skipping_requested (c : config) (f : str) : bool := mem (remove_char sp f) (lists c functions_to_skip).
Definition is_class_binding_requested (c : config) (n : str) : bool := mem (remove_char sp n) (lists c classes_to_bind).
Definition is_class_skipping_requested (c : config) (n : str) : bool := mem (remove_char sp n) (lists c classes_to_skip).
(** config.cpp:387-410: spaces are not removed from the query. *)
Definition is_field_skipping_requested (c : config) (n : str) : bool := mem n (lists c fields_to_skip).
Definition is_enum_binding_requested (c : config) (n : str) : bool := mem n (lists c enums_to_bind).
Definition is_enum_skipping_requested (c : config) (n : str) : bool := mem n (lists c enums_to_skip).
(** config.cpp:414-419 *)
Definition is_custom_trampoline_function_requested (c : config) (f : str) : str :=
  match lookup f (maps c custom_trampoline_functions) with Some v => v | None => [] end.
(** config.cpp:422-435 *)
Definition is_buffer_protocol_requested (c : config) (n : str) : bool := mem (remove_char sp n) (lists c buffer_protocols).
(** config.cpp:437-459 *)
Definition module_local_conflict_text (ns : str) : str :=
  $"Could not determent if namespace '" ++ ns ++ $"' should use module_local or not... please resolve the conlficting options +module_local_namespace and -module_local_namespace!!!".
Definition is_module_local_requested (c : config) (ns : str) : result bool :=
  if mem $"@all_namespaces" (lists c module_local_namespaces_to_add)
  then Ok (negb (mem ns (lists c module_local_namespaces_to_skip)))
  else if mem ns (lists c module_local_namespaces_to_add)
  then (if mem ns (lists c module_local_namespaces_to_skip) then Throw (module_local_conflict_text ns) else Ok true)
  else Ok false.
(** config.cpp:461-474 *)
Definition is_smart_holder_requested (c : config) (n : str) : bool := mem (remove_char sp n) (lists c smart_held_classes).
(** config.cpp:476-482 *)
Definition is_include_skipping_requested (c : config) (include : str) : bool :=
  existsb (begins_with include) (lists c includes_to_skip).
(** config.cpp:485-492; [stl] is the option --include-pybind11-stl. *)
Definition includes_code (c : config) (stl : bool) : str :=
  let s := flat_map (fun i => $"#include " ++ i ++ [nl]) (lists c includes_to_add)
           ++ (if stl then $"#include <pybind11/stl.h>" ++ [nl] else []) in
  match s with [] => [] | _ => s ++ [nl] end.

(** Command line options (options.cpp:21-66) and the members copied from them
    in main.cpp:88-94.  [max_file_size] is the value after the conversion
    from [int] to [std::size_t]. *)
Record options := mkoptions {
  annotate_includes : bool;
  annotate_functions : bool;
  single_file : bool;
  trace : bool;
  flat : bool;
  include_pybind11_stl : bool;
  root_module : str;
  max_file_size : N;
  skip_line_number : bool;
  prefix : str;
  bind_class_template_specialization : bool
}.

(** main.cpp:86-96: the settings in force while one source file is processed.
    [Config::get()] is a singleton, so [c] is the state left by the previous
    source file; the namespace lists are assigned from the options (--bind, --skip)
    and the config file is read again. *)
Definition assign_list (k : list_key) (v : list str) (c : config) : config :=
  mkconfig (fun k' => if list_key_eq k' k then v else lists c k') (maps c) (vecs c) (strs c).
Definition setup (c : config) (bind skip : list str) (config_file : str) (file : option str) : result config :=
  let c := assign_list namespaces_to_skip skip (assign_list namespaces_to_bind bind c) in
  match config_file with [] => Ok c | _ => read c config_file file end.
