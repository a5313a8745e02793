(** Model of /repo/source/context.cpp (collection, binding, sorting and
    writing) and of the visitor of /repo/source/main.cpp. *)
From Coq Require Import Ascii String Bool Arith NArith.
From Coq Require Import List.
From Verif Require Import Str Util Config Ast Types Func Enum Includes Class.
Import ListNotations.

(** binder.hpp:69-127 [Binder] with the members of [ClassBinder]
    (class.hpp:72-125) that are observed later: requests, generated code,
    prefix code, functions whose headers are needed, base classes. *)
Record binder := mkbinder {
  b_decl : decl;
  b_bind_req : bool;
  b_skip_req : bool;
  b_code : str;
  b_prefix : str;
  b_incl : list nat;
  b_deps : list nat
}.
Definition new_binder (d : decl) : binder := mkbinder d false false [] [] [] [].

(** function.cpp:494, class.cpp:512, enum.cpp:147: [Binder::id] *)
Definition decl_id (w : world) (d : decl) : str :=
  match d with
  | DFun f => fun_id w (fun_ w f)
  | DRec r => class_qualified_name w r
  | DEnum e => enum_id (enum_ w e)
  end.

(** ** Collection *)

(** context.hpp:62-94 [Context].  [x_types] maps a type name to the position
    of its binder (a shared pointer in C++); the most recent entry comes first. *)
Record context := mkctx {
  x_binders : list binder;
  x_types : list (str * nat);
  x_ids : list str;
  x_ops : list (str * nat)
}.
Definition empty_context : context := mkctx [] [] [] [].

(** context.cpp:145-156 [Context::add] *)
Definition type_names (w : world) (d : decl) : list str :=
  match d with
  | DFun _ => []
  | DRec r => [typename_from_rec w r]
  | DEnum e => [typename_from_enum w e]
  end.
Definition add (w : world) (d : decl) (c : context) : context :=
  if mem (decl_id w d) (x_ids c) then c
  else mkctx (x_binders c ++ [new_binder d])
             (map (fun n => (n, length (x_binders c))) (type_names w d) ++ x_types c)
             (decl_id w d :: x_ids c) (x_ops c).
(** context.cpp:158-161 [Context::add_insertion_operator] *)
Definition add_insertion_operator (w : world) (f : nat) (c : context) : context :=
  mkctx (x_binders c) (x_types c) (x_ids c) (update (function_pointer_type w (fun_ w f)) f (x_ops c)).

(** main.cpp:112-183: the visitor.  The order of the declarations is the one
    of clang's [RecursiveASTVisitor]. *)
Definition visit (w : world) (d : decl) (c : context) : context :=
  match d with
  | DFun f =>
      let F := fun_ w f in
      if f_method F then c
      else if is_bindable_fun w F then add w d c
      else if f_operator F && streqb (n_name (f_decl F)) $"operator<<" then add_insertion_operator w f c
      else c
  | DRec r => if n_member (r_decl (rec_ w r)) then c else if is_bindable_rec w r then add w d c else c
  | DEnum e => if n_member (e_decl (enum_ w e)) then c else add w d c
  end.
Definition collect (w : world) (l : list decl) : context := fold_left (fun c d => visit w d c) l empty_context.

(** ** Binding *)

(** function.cpp:501, class.cpp:519-522, enum.cpp:154: [Binder::bindable] *)
Definition bindable (w : world) (b : binder) : bool :=
  match b_decl b with
  | DFun f => is_bindable_fun w (fun_ w f)
  | DRec r => is_bindable_rec w r && negb (b_skip_req b)
  | DEnum e => enum_bindable w (enum_ w e)
  end.
(** binder.cpp:99-102 [Binder::is_binded] *)
Definition named_decl (w : world) (b : binder) : named := named_of (wenv w) (b_decl b).
Definition builtin (w : world) (b : binder) : bool := is_python_builtin w (named_decl w b).
Definition has_code (b : binder) : bool := match b_code b with [] => false | _ => true end.
Definition is_binded (w : world) (b : binder) : bool := has_code b || builtin w b.

(** Decisions of the configuration on a declaration. *)
Definition skip_decl (w : world) (d : decl) : result bool :=
  match d with
  | DFun f => is_skipping_requested_fun w (fun_ w f)
  | DRec r => is_skipping_requested_rec w r
  | DEnum e => is_skipping_requested_enum w (enum_ w e)
  end.
Definition bind_decl (w : world) (d : decl) : result bool :=
  match d with
  | DFun f => is_binding_requested_fun w (fun_ w f)
  | DRec r => is_binding_requested_rec w r
  | DEnum e => is_binding_requested_enum w (enum_ w e)
  end.
Definition set_skip (b : binder) : binder := mkbinder (b_decl b) (b_bind_req b) true (b_code b) (b_prefix b) (b_incl b) (b_deps b).
Definition set_bind (b : binder) : binder := mkbinder (b_decl b) true (b_skip_req b) (b_code b) (b_prefix b) (b_incl b) (b_deps b).
(** class.cpp:526-530 (same text in function.cpp and enum.cpp)
    [request_bindings_and_skipping], and context.cpp:252-258: in a system
    header only skipping is asked for. *)
Definition initial_request (w : world) (b : binder) : result binder :=
  if bindable w b then
    do skip <- skip_decl w (b_decl b);
    if skip then Ok (set_skip b)
    else if n_system (named_decl w b) then Ok b
    else do bind <- bind_decl w (b_decl b); Ok (if bind then set_bind b else b)
  else Ok b.
Fixpoint map_r {A B} (f : A -> result B) (l : list A) : result (list B) :=
  match l with
  | [] => Ok []
  | x :: l' => do y <- f x; do r <- map_r f l'; Ok (y :: r)
  end.

(** context.cpp:241-246 [Context::request_bindings] *)
Fixpoint update_nth {A} (n : nat) (f : A -> A) (l : list A) : list A :=
  match l, n with
  | [], _ => []
  | x :: l', 0 => f x :: l'
  | x :: l', S n' => x :: update_nth n' f l'
  end.
Definition request (w : world) (types : list (str * nat)) (name : str) (l : list binder) : list binder :=
  match lookup name types with
  | None => l
  | Some i => update_nth i (fun b => if negb (is_binded w b) && bindable w b && negb (b_skip_req b) && negb (builtin w b)
                                     then set_bind b else b) l
  end.

(** [Binder::bind]: the result and the requested type names. *)
Definition generate_code (w : world) (ops : list (str * nat)) (d : decl) : result cbound :=
  match d with
  | DFun f => do (s, q) <- bind_fun w (fun_ w f); Ok (mkcbound s [] [] [] q)
  | DRec r => bind_class (e_fuel (wenv w)) w ops r
  | DEnum e => do s <- bind_enum_binder w (enum_ w e); Ok (mkcbound s [] [] [] [])
  end.
Definition set_code (g : cbound) (b : binder) : binder :=
  mkbinder (b_decl b) (b_bind_req b) (b_skip_req b) (cb_code g) (cb_prefix g) (cb_incl g) (cb_deps g).

(** context.cpp:264-275: one pass over the binders.  [log]: positions bound so
    far, in order.  The requests are made while the code is generated, that is
    before it is stored. *)
Definition wants_binding (w : world) (b : binder) : bool := negb (is_binded w b) && bindable w b && b_bind_req b.
Fixpoint bind_pass (w : world) (c : context) (todo : list nat) (l : list binder) (log : list nat) : result (list binder * list nat) :=
  match todo with
  | [] => Ok (l, log)
  | i :: todo' =>
      match nth_error l i with
      | None => Ok (l, log)                          (* unreachable: todo = 0 .. size-1 *)
      | Some b =>
          if wants_binding w b then
            do g <- generate_code w (x_ops c) (b_decl b);
            let l1 := fold_left (fun l n => request w (x_types c) n l) (cb_req g) l in
            bind_pass w c todo' (update_nth i (set_code g) l1) (log ++ [i])
          else bind_pass w c todo' l log
      end
  end.
(** context.cpp:260-278.  [Diverges]: more than [fuel] passes. *)
Fixpoint bind_loop (fuel : nat) (w : world) (c : context) (l : list binder) (log : list nat) : result (list binder * list nat) :=
  match fuel with
  | 0 => Diverges
  | S fuel' =>
      do (l1, log1) <- bind_pass w c (seq 0 (length l)) l log;
      if length log1 =? length log then Ok (l1, log1)      (* flag is still false *)
      else bind_loop fuel' w c l1 log1
  end.
(** context.cpp:250-278 [Context::bind] *)
Definition bind_all (w : world) (c : context) : result (list binder * list nat) :=
  do l <- map_r (initial_request w) (x_binders c);
  bind_loop (S (length l)) w c l [].

(** ** Sorting *)

Definition node (b : binder) : option nat := match b_decl b with DRec r => Some r | _ => None end.
Definition is_node (c : nat) (b : binder) : bool := match node b with Some r => r =? c | None => false end.
(** [std::find_if] *)
Fixpoint index_of {A} (f : A -> bool) (l : list A) : option nat :=
  match l with
  | [] => None
  | x :: l' => if f x then Some 0 else option_map S (index_of f l')
  end.
(** [std::rotate(begin, begin + e, end)] *)
Definition rotate {A} (e : nat) (l : list A) : list A := skipn e l ++ firstn e l.

(** context.cpp:293-315: the dependencies of one binder; [suffix] is the
    vector from the binder's position on.  [key] is [class_qualified_name] and
    [known] tells the Python builtins. *)
Fixpoint move_deps (key : nat -> str) (known : nat -> bool) (binded : list str) (deps : list nat)
         (suffix : list binder) (again : bool) : result (list binder * bool) :=
  match deps with
  | [] => Ok (suffix, again)
  | c :: deps' =>
      if mem (key c) binded || known c then move_deps key known binded deps' suffix again
      else match index_of (is_node c) suffix with
           | None => if again then move_deps key known binded deps' suffix again
                     else Exit1 ($"ERROR: Could not find binder for type: " ++ key c ++ $"!")
           | Some e => move_deps key known binded deps' (rotate e suffix) true
           end
  end.
(** context.cpp:289-319: the scan.  [inr]: everything is in order; [inl]: the
    vector was rotated and the scan starts again. *)
Fixpoint scan (key : nat -> str) (known : nat -> bool) (before : list binder) (binded : list str) (rest : list binder)
  : result (list binder + list binder) :=
  match rest with
  | [] => Ok (inr before)
  | b :: rest' =>
      match node b with
      | None => scan key known (before ++ [b]) binded rest'
      | Some C =>
          do (suffix, again) <- move_deps key known binded (b_deps b) rest false;
          if again then Ok (inl (before ++ suffix))
          else scan key known (before ++ [b]) (key C :: binded) rest'
      end
  end.
(** context.cpp:281-323 [Context::sort_binders]; [forward] stays empty.
    [Diverges]: more than [fuel] scans. *)
Fixpoint sort_loop (fuel : nat) (key : nat -> str) (known : nat -> bool) (l : list binder) : result (list binder) :=
  match fuel with
  | 0 => Diverges
  | S fuel' =>
      do r <- scan key known [] [] l;
      match r with
      | inr l' => Ok l'
      | inl l' => sort_loop fuel' key known l'
      end
  end.
Definition sort_fuel (l : list binder) : nat := S (length l * S (length l)).
Definition sort_binders (w : world) (l : list binder) : result (list binder) :=
  sort_loop (sort_fuel l) (class_qualified_name w) (fun c => is_python_builtin w (r_decl (rec_ w c))) l.

(** ** Writing *)

(** context.cpp:47-70 [file_name_prefix_for_binder] *)
Definition file_char (c : ascii) : bool := is_alnum c || existsb (Ascii.eqb c) $"_/<>.".
Definition binder_namespace (w : world) (b : binder) : str := namespace_from_named_decl w (named_decl w b).
Definition file_name_prefix (w : world) (b : binder) : str :=
  let include := filter file_char (relevant_include (named_decl w b)) in
  let include := if length include <=? 2 then $"<unknown/unknown.hh>" else include in
  let include := substr include 1 (length include - 2) in
  let ns := binder_namespace w b in
  let include := if streqb ns $"std" || begins_with ns $"std::"
                 then $"std/" ++ (if begins_with include $"bits/" then substr include 5 (length include) else include)
                 else include in
  replace (replace (replace (replace include $".hh" []) $".hpp" []) $".h" []) $"." $"_".

(** context.cpp:73-81 [generate_include_directives] *)
Definition generate_include_directives (w : world) (s : include_set) : str :=
  concat (map (fun i => $"#include " ++ i ++ [nl])
              (filter (fun i => negb (is_include_skipping_requested (wcfg w) i)) (set_of (incs s)))).

(** context.cpp:83-124 [main_module_header] *)
Definition main_module_text (pybind11_include decls root namespace_pairs calls : str) : str :=
  $"#include <map>
#include <algorithm>
#include <functional>
#include <memory>
#include <stdexcept>
#include <string>

"
  ++ pybind11_include
  ++ $"

using ModuleGetter = std::function< pybind11::module & (std::string const &) >;

"
  ++ decls
  ++ $"

PYBIND11_MODULE("
  ++ root
  ++ $", root_module) {
	root_module.doc() = """
  ++ root
  ++ $" module"";

	std::map <std::string, pybind11::module> modules;
	ModuleGetter M = [&](std::string const &namespace_) -> pybind11::module & {
		auto it = modules.find(namespace_);
		if( it == modules.end() ) throw std::runtime_error(""Attempt to access pybind11::module for namespace "" + namespace_ + "" before it was created!!!"");
		return it->second;
	};

	modules[""""] = root_module;

	static std::vector<std::string> const reserved_python_words {""nonlocal"", ""global"", };

	auto mangle_namespace_name(
		[](std::string const &ns) -> std::string {
			if ( std::find(reserved_python_words.begin(), reserved_python_words.end(), ns) == reserved_python_words.end() ) return ns;
			return ns+'_';
		}
	);

	std::vector< std::pair<std::string, std::string> > sub_modules {
"
  ++ namespace_pairs
  ++ $"	};
	for(auto &p : sub_modules ) modules[ p.first.empty() ? p.second :  p.first+""::""+p.second ] = modules[p.first].def_submodule( mangle_namespace_name(p.second).c_str(), (""Bindings for "" + p.first + ""::"" + p.second + "" namespace"").c_str() );

	//pybind11::class_<std::shared_ptr<void>>(M(""""), ""_encapsulated_data_"");

"
  ++ calls
  ++ $"
}
".
(** context.cpp:127-139 [module_header] *)
Definition module_header_text (pybind11_include includes shared_declare shared_make_opaque : str) : str :=
  $"
#include <functional>
"
  ++ pybind11_include
  ++ $"
#include <string>
"
  ++ includes
  ++ $"
#ifndef BINDER_PYBIND11_TYPE_CASTER
	#define BINDER_PYBIND11_TYPE_CASTER
	"
  ++ shared_declare
  ++ $"
	PYBIND11_DECLARE_HOLDER_TYPE(T, T*, false)
	"
  ++ shared_make_opaque
  ++ $"
#endif

".
(** context.cpp:141 *)
Definition module_function_suffix : str := $"(std::function< pybind11::module &(std::string const &namespace_) > &M)".

(** [add_relevant_includes] of the three kinds of binders. *)
Definition binder_includes (w : world) (b : binder) (s : include_set) : result include_set :=
  let fuel := e_fuel (wenv w) in
  match b_decl b with
  | DRec r => class_includes_rec fuel fuel w r (b_incl b) s
  | d => add_includes fuel w d 0 s
  end.

(** context.cpp:496-499 [Context::trace_line]; [n] is the counter after [++]. *)
Definition trace_line (n : nat) (info : str) : str :=
  tab :: $"std::cout << ""B" ++ dec n ++ $"_[" ++ info ++ $"]"" << std::endl;" ++ [nl].

(** One generated file: name, function, namespace, the call of a namespace
    binder it starts with, whether the items are left out, the items it
    consumes, the text of the function's body and the whole text. *)
Record gen_file := mkfile {
  g_name : str;
  g_fun : str;
  g_ns : str;
  g_call : str;
  g_skip : bool;
  g_items : list binder;
  g_body : str;
  g_text : str
}.

(** context.cpp:395-434: the items of one file.  [tc]: trace lines so far. *)
Record file_state := mkfst { s_code : str; s_prefix : str; s_incs : include_set; s_tc : nat }.
Definition add_item (w : world) (b : binder) (st : file_state) : result file_state :=
  let code := if trace (wopt w) then s_code st ++ trace_line (s_tc st) (decl_id w (b_decl b)) else s_code st in
  let incs := if trace (wopt w)
              then add_include (if annotate_includes (wopt w) then $"<iostream> // --trace" else $"<iostream>") (s_incs st)
              else s_incs st in
  let tc := if trace (wopt w) then S (s_tc st) else s_tc st in
  do incs <- (if has_code b then binder_includes w b incs else Ok incs);
  Ok (mkfst (code ++ b_code b) (s_prefix st ++ b_prefix b) incs tc).
Definition fits (w : world) (code : str) : bool := (N.of_nat (length code) <? max_file_size (wopt w))%N.
Fixpoint fill (w : world) (ns : str) (skip : bool) (rest : list binder) (st : file_state)
  : result (list binder * list binder * file_state) :=
  match rest with
  | [] => Ok ([], [], st)
  | b :: rest' =>
      if fits w (s_code st) && streqb ns (binder_namespace w b) then
        do st1 <- (if skip then Ok st else add_item w b st);
        do (taken, later, st2) <- fill w ns skip rest' st1;
        Ok (b :: taken, later, st2)
      else Ok ([], rest, st)
  end.

(** context.cpp:384-393: the call of the (add-on) binder of a namespace. *)
Definition namespace_call (f ns : str) : str := [nl; tab] ++ f ++ $"(M(""" ++ ns ++ $"""));" ++ [nl].
Definition first_code (w : world) (ns : str) (entrance : nat) : str * bool :=
  let once (f : str) := if entrance =? 0 then namespace_call f ns else [] in
  let '(code, skip) := match lookup ns (maps (wcfg w) binder_for_namespaces) with
                       | Some f => (once f, true)
                       | None => ([], false)
                       end in
  (match lookup ns (maps (wcfg w) add_on_binder_for_namespaces), code with
   | Some f, [] => once f
   | _, _ => code
   end, skip).

(** context.cpp:348-361: names of the file and of its function; counters. *)
Definition count (k : str) (m : list (str * nat)) : nat := match lookup k m with Some n => n | None => 0 end.
Definition bump (k : str) (m : list (str * nat)) : list (str * nat) := update k (S (count k m)) m.
Definition name_prefix (w : world) (b : binder) : str :=
  if flat (wopt w) then root_module (wopt w) ++ $"_" else file_name_prefix w b.
Definition file_stem (w : world) (np : str) (n : nat) : str :=
  if flat (wopt w) then np ++ dec n else np ++ (if n =? 0 then [] else $"_" ++ dec n).
Definition function_name (stem : str) : str := $"bind_" ++ replace stem $"/" $"_".

(** context.cpp:438-444: text of a file. *)
Definition pybind11_include_line (w : world) : str := $"#include <" ++ strs (wcfg w) pybind11_include_file ++ $">".
Definition file_text (w : world) (fname : str) (st : file_state) : str :=
  let holder := strs (wcfg w) holder_type in
  generate_include_directives w (s_incs st)
  ++ module_header_text (pybind11_include_line w) (includes_code (wcfg w) (include_pybind11_stl (wopt w)))
       ($"PYBIND11_DECLARE_HOLDER_TYPE(T, " ++ holder ++ $"<T>, false)") ($"PYBIND11_MAKE_OPAQUE(" ++ holder ++ $"<void>)")
  ++ s_prefix st ++ $"void " ++ fname ++ module_function_suffix ++ [nl] ++ $"{" ++ [nl] ++ s_code st ++ $"}" ++ [nl].

(** context.cpp:345-450: the loop over the sorted binders, as a recursion on
    the binders that are left.  When the inner loop takes no item, [--i]
    followed by [++i] comes back to the same item.  [fnames], [entrance]: the
    maps [file_names] and [namespace_entrance].  [Diverges]: more than [fuel]
    files or empty items. *)
Fixpoint write_loop (fuel : nat) (w : world) (rest : list binder) (fnames entrance : list (str * nat)) (tc : nat)
  : result (list gen_file) :=
  match rest with
  | [] => Ok []
  | b :: rest' =>
      match fuel with
      | 0 => Diverges
      | S fuel' =>
          if negb (has_code b) then write_loop fuel' w rest' fnames entrance tc
          else
            let np := name_prefix w b in
            let stem := file_stem w np (count np fnames) in
            let ns := binder_namespace w b in
            let incs := fold_left (fun s i => add_include i s)
                          (match lookup ns (vecs (wcfg w) namespace_includes) with Some l => l | None => [] end) (mkis [] []) in
            let '(call, skip) := first_code w ns (count ns entrance) in
            do (taken, later, st) <- fill w ns skip rest (mkfst call [] incs tc);
            let g := mkfile (stem ++ $".cpp") (function_name stem) ns call skip taken (s_code st) (file_text w (function_name stem) st) in
            do gs <- write_loop fuel' w later (bump np fnames) (bump ns entrance) (s_tc st);
            Ok (g :: gs)
      end
  end.
Definition write_fuel (l : list binder) : nat := 2 * length l.
Definition write_files (w : world) (l : list binder) : result (list gen_file) := write_loop (write_fuel l) w l [] [] 0.

(** context.cpp:214-232 [Context::create_all_nested_namespaces] *)
Fixpoint enclosing (fuel : nat) (ns : str) : list str :=
  match ns, fuel with
  | [], _ | _, 0 => []
  | _, S fuel' => ns :: enclosing fuel' (base_namespace ns)
  end.
Definition nested_namespaces (w : world) (l : list binder) : list str :=
  set_of (flat_map (fun b => if has_code b then enclosing (length (binder_namespace w b)) (binder_namespace w b) else []) l).

(** context.cpp:453-474: the root module. *)
Definition namespace_pair (n : str) : str :=
  match n with [] => [] | _ => [tab; tab] ++ $"{""" ++ base_namespace n ++ $""", """ ++ last_namespace n ++ $"""}," ++ [nl] end.
Definition function_decl (f : str) : str := $"void " ++ f ++ module_function_suffix ++ $";" ++ [nl].
Definition function_call (f : str) : str := tab :: f ++ $"(M);" ++ [nl].
Definition root_text (w : world) (namespaces : list str) (files : list gen_file) : str :=
  main_module_text (pybind11_include_line w) (concat (map (fun g => function_decl (g_fun g)) files)) (root_module (wopt w))
    (concat (map namespace_pair namespaces)) (concat (map (fun g => function_call (g_fun g)) files)).
Definition modules_text (namespaces : list str) : str := replace (concat (map (fun n => n ++ $" ") namespaces)) $"::" $".".
Definition root_file_name (w : world) : str := root_module (wopt w) ++ $".cpp".
Definition source_names (w : world) (files : list gen_file) : list str := root_file_name w :: map g_name files.

(** context.cpp:325-493 [Context::generate], up to the texts it writes. *)
Record output := mkout {
  out_log : list nat;              (* positions of the collected items bound, in order *)
  out_sorted : list binder;
  out_files : list gen_file;
  out_namespaces : list str
}.
Definition generate (w : world) (c : context) : result output :=
  do (l, log) <- bind_all w c;
  do s <- sort_binders w l;
  do fs <- write_files w s;
  Ok (mkout log s fs (nested_namespaces w s)).

(** context.cpp:336-339, 446-447, 474-492: what is written where.  The order
    of the effects is kept, except that the texts are computed beforehand: an
    exception or exit raised while computing them is not interleaved with the
    writing of earlier files. *)
Definition sources_text (l : list str) : str := concat (map (fun s => s ++ [nl]) l).
Definition root_path (w : world) : str := prefix (wopt w) ++ $"/" ++ root_module (wopt w).
Definition single_file_text (w : world) (o : output) : str :=
  concat (map (fun g => $"// File: " ++ g_name g ++ [nl] ++ g_text g ++ [nl; nl]) (out_files o))
  ++ root_text w (out_namespaces o) (out_files o)
  ++ [nl] ++ $"// Source list file: " ++ root_path w ++ $".sources" ++ [nl]
  ++ concat (map (fun s => $"// " ++ s ++ [nl]) (source_names w (out_files o)))
  ++ [nl] ++ $"// Modules list file: " ++ root_path w ++ $".modules" ++ [nl] ++ $"// "
  ++ modules_text (out_namespaces o) ++ [nl].
Definition write_file (path text : str) (f : fs) : fs := mkfs (update path text (files f)) (writes f ++ [path]).
Definition write_output (mkdir_ok can_open : str -> bool) (w : world) (o : output) (f : fs) : result fs :=
  let root := prefix (wopt w) ++ $"/" ++ root_file_name w in
  if negb (can_open root) then Throw ($"ERROR: Can not open file " ++ root ++ $" for writing...")
  else if single_file (wopt w) then Ok (write_file root (single_file_text w o) f)
  else
    do f1 <- update_all mkdir_ok can_open (prefix (wopt w)) (map (fun g => (g_name g, g_text g)) (out_files o)) (write_file root [] f);
    let f2 := write_file root (root_text w (out_namespaces o) (out_files o)) f1 in
    let put p t f := if can_open p then write_file p t f else f in
    Ok (put (root_path w ++ $".modules") (modules_text (out_namespaces o))
          (put (root_path w ++ $".sources") (sources_text (source_names w (out_files o))) f2)).
