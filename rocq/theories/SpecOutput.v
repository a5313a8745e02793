(** Declarative specifications for the text of whole files: their layout, the
    items in them and their names. *)
From Coq Require Import Ascii String Bool Arith NArith.
From Coq Require Import List.
From Verif Require Import Str SpecUtil SpecConfig Util Config Ast Types Func Enum Includes Class Context SpecTypes SpecBind SpecContext SpecIncludes SpecClass.
Import ListNotations.

(** A text given by its lines. *)
Definition lines (l : list str) : str := concat (map (fun s => s ++ [nl]) l).

(** ** Items *)

(** The comment in front of an item says where it is declared: the header
    without its brackets and the line. *)
Definition location (w : world) (n : named) (path line : str) : Prop :=
  (forall a body b, relevant_include n = a :: body ++ [b] -> path = body) /\ (relevant_include n = [] -> path = []) /\
  line = (if skip_line_number (wopt w) then [] else dec (n_line n)).
Definition module_of (w : world) (n : named) : str := $"M(" ++ quoted (namespace_from_named_decl w n) ++ $")".
Inductive item_text (w : world) (ops : list (str * nat)) : decl -> str -> str -> Prop :=
| IT_function f path line args k ls : location w (f_decl (fun_ w f)) path line -> parameter_types w (fun_ w f) args ->
    smallest_arity (fun_ w f) k -> length ls = length (f_params (fun_ w f)) + 1 - k ->
    (forall i l, nth_error ls i = Some l -> def_line w (fun_ w f) (k + i) None (f_variadic (fun_ w f)) l) ->
    item_text w ops (DFun f)
      ([tab] ++ $"// " ++ n_qname (f_decl (fun_ w f)) ++ $"(" ++ args ++ $") file:" ++ path ++ $" line:" ++ line ++ [nl]
       ++ annotation w (fun_ w f) false ++ concat (map (fun l => [tab] ++ module_of w (f_decl (fun_ w f)) ++ l ++ [nl]) ls) ++ [nl]) []
| IT_enum e path line s : location w (e_decl (enum_ w e)) path line -> enum_text w (module_of w (e_decl (enum_ w e))) (enum_ w e) s ->
    item_text w ops (DEnum e)
      ([tab] ++ $"// " ++ standard_name w (n_qname (e_decl (enum_ w e))) ++ $" file:" ++ path ++ $" line:" ++ line ++ [nl] ++ s ++ $";" ++ [nl; nl]) []
| IT_class r b : class_binding w ops r b -> item_text w ops (DRec r) (cb_code b) (cb_prefix b).

(** ** Layout of a file *)

(** After the includes that the items need: the fixed and the configured
    includes, and the holder types. *)
Definition header_lines (w : world) : list str :=
  let added := map (fun i => $"#include " ++ i) (lists (wcfg w) includes_to_add) ++ (if include_pybind11_stl (wopt w) then [$"#include <pybind11/stl.h>"] else []) in
  let holder := strs (wcfg w) holder_type in
  [[]; $"#include <functional>"; $"#include <" ++ strs (wcfg w) pybind11_include_file ++ $">"; $"#include <string>"]
  ++ added ++ (match added with [] => [] | _ => [[]] end)
  ++ [[]; $"#ifndef BINDER_PYBIND11_TYPE_CASTER";
      [tab] ++ $"#define BINDER_PYBIND11_TYPE_CASTER";
      [tab] ++ $"PYBIND11_DECLARE_HOLDER_TYPE(T, " ++ holder ++ $"<T>, false)";
      [tab] ++ $"PYBIND11_DECLARE_HOLDER_TYPE(T, T*, false)";
      [tab] ++ $"PYBIND11_MAKE_OPAQUE(" ++ holder ++ $"<void>)";
      $"#endif"; []].
Definition signature (f : str) : str := $"void " ++ f ++ $"(std::function< pybind11::module &(std::string const &namespace_) > &M)".
(** The code of the items put in a file, each with its trace line. *)
Definition trace_text (n : nat) (id : str) : str := [tab] ++ $"std::cout << ""B" ++ dec n ++ $"_[" ++ id ++ $"]"" << std::endl;" ++ [nl].
Fixpoint items_text (w : world) (tc : nat) (l : list binder) : str :=
  match l with
  | [] => []
  | b :: l' => (if trace (wopt w) then trace_text tc (decl_id w (b_decl b)) else []) ++ b_code b ++ items_text w (S tc) l'
  end.
(** The call configured for a namespace. *)
Definition file_layout (w : world) (g : gen_file) : Prop :=
  exists l k,
    (forall i, In i l <-> file_needs w g i /\ ~ exists p r, In p (lists (wcfg w) includes_to_skip) /\ i = p ++ r) /\
    Sorted.StronglySorted byte_less l /\
    g_text g = lines (map (fun i => $"#include " ++ i) l) ++ lines (header_lines w)
               ++ (if g_skip g then [] else concat (map b_prefix (g_items g)))
               ++ lines [signature (g_fun g); $"{"] ++ g_call g ++ (if g_skip g then [] else items_text w k (g_items g)) ++ lines [$"}"].

(** ** The root module *)

Definition namespace_entry (n : str) : list str :=
  match n with [] => [] | _ => [[tab; tab] ++ $"{" ++ quoted (base_namespace n) ++ $", " ++ quoted (last_namespace n) ++ $"},"] end.
Definition root_lines (w : world) (namespaces : list str) (functions : list str) : list str :=
  let root := root_module (wopt w) in
  [$"#include <map>"; $"#include <algorithm>"; $"#include <functional>"; $"#include <memory>"; $"#include <stdexcept>"; $"#include <string>"; [];
   $"#include <" ++ strs (wcfg w) pybind11_include_file ++ $">"; [];
   $"using ModuleGetter = std::function< pybind11::module & (std::string const &) >;"; []]
  ++ map (fun f => signature f ++ $";") functions
  ++ [[]; []; $"PYBIND11_MODULE(" ++ root ++ $", root_module) {";
      [tab] ++ $"root_module.doc() = " ++ quoted (root ++ $" module") ++ $";"; [];
      [tab] ++ $"std::map <std::string, pybind11::module> modules;";
      [tab] ++ $"ModuleGetter M = [&](std::string const &namespace_) -> pybind11::module & {";
      [tab; tab] ++ $"auto it = modules.find(namespace_);";
      [tab; tab] ++ $"if( it == modules.end() ) throw std::runtime_error(""Attempt to access pybind11::module for namespace "" + namespace_ + "" before it was created!!!"");";
      [tab; tab] ++ $"return it->second;";
      [tab] ++ $"};"; [];
      [tab] ++ $"modules[""""] = root_module;"; [];
      [tab] ++ $"static std::vector<std::string> const reserved_python_words {""nonlocal"", ""global"", };"; [];
      [tab] ++ $"auto mangle_namespace_name(";
      [tab; tab] ++ $"[](std::string const &ns) -> std::string {";
      [tab; tab; tab] ++ $"if ( std::find(reserved_python_words.begin(), reserved_python_words.end(), ns) == reserved_python_words.end() ) return ns;";
      [tab; tab; tab] ++ $"return ns+'_';";
      [tab; tab] ++ $"}";
      [tab] ++ $");"; [];
      [tab] ++ $"std::vector< std::pair<std::string, std::string> > sub_modules {"]
  ++ flat_map namespace_entry namespaces
  ++ [[tab] ++ $"};";
      [tab] ++ $"for(auto &p : sub_modules ) modules[ p.first.empty() ? p.second :  p.first+""::""+p.second ] = modules[p.first].def_submodule( mangle_namespace_name(p.second).c_str(), (""Bindings for "" + p.first + ""::"" + p.second + "" namespace"").c_str() );"; [];
      [tab] ++ $"//pybind11::class_<std::shared_ptr<void>>(M(""""), ""_encapsulated_data_"");"; []]
  ++ map (fun f => [tab] ++ f ++ $"(M);") functions
  ++ [[]; $"}"].

(** ** Names of files and functions *)

(** The path of the header of an item: letters, digits and a few other
    characters of it, without the brackets. *)
Definition path_char (c : ascii) : Prop := is_alnum c = true \/ In c $"_/<>.".
Inductive header_path (include : str) : str -> Prop :=
| HP_known a path b : selection path_char include (a :: path ++ [b]) -> path <> [] -> header_path include path
| HP_unknown s : selection path_char include s -> length s <= 2 -> header_path include $"unknown/unknown.hh".
(** Files of std go to a directory of their own. *)
Inductive placed (ns path : str) : str -> Prop :=
| PL_other : ns <> $"std" -> ~ starts $"std::" ns -> placed ns path path
| PL_bits rest : ns = $"std" \/ starts $"std::" ns -> path = $"bits/" ++ rest -> placed ns path ($"std/" ++ rest)
| PL_std : ns = $"std" \/ starts $"std::" ns -> ~ starts $"bits/" path -> placed ns path ($"std/" ++ path).
(** The stem: without extensions; other dots become underscores. *)
Definition header_stem (w : world) (d : decl) (stem : str) : Prop :=
  exists path place s1 s2 s3,
    header_path (relevant_include (named_of (wenv w) d)) path /\ placed (namespace_from_named_decl w (named_of (wenv w) d)) path place /\
    leftmost_replaced $".hh" [] place s1 /\ leftmost_replaced $".hpp" [] s1 s2 /\ leftmost_replaced $".h" [] s2 s3 /\ leftmost_replaced $"." $"_" s3 stem.
(** The stem of the [n]-th file (from 0) made for the same header. *)
Inductive numbered (w : world) (d : decl) (n : nat) : str -> str -> Prop :=
| NU_flat : flat (wopt w) = true -> numbered w d n (root_module (wopt w) ++ $"_") (root_module (wopt w) ++ $"_" ++ dec n)
| NU_first stem : flat (wopt w) = false -> header_stem w d stem -> n = 0 -> numbered w d n stem stem
| NU_more stem : flat (wopt w) = false -> header_stem w d stem -> n <> 0 -> numbered w d n stem (stem ++ $"_" ++ dec n).
