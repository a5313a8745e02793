(** Model of /repo/source/type.cpp, of the parts of class.cpp that decide
    whether a class is bindable, requested or skipped (they are mutually
    recursive with the decisions on types), and of the naming helpers of
    util.cpp that need type.cpp. *)
From Coq Require Import Ascii String Bool Arith NArith.
From Coq Require Import List.
From Verif Require Import Str Util Config Ast.
Import ListNotations.

(** ** Tables *)

(** type.cpp:116-178 [type_map]: the header of a type, by exact name. *)
Definition type_map : list (str * str) := [
  ($"std::move_backward", $"<algorithm>");
  ($"std::iter_swap", $"<algorithm>");
  ($"std::min", $"<algorithm>");
  ($"std::memory_order", $"<atomic>");
  ($"std::atomic_signal_fence", $"<atomic>");
  ($"std::atomic_thread_fence", $"<atomic>");
  ($"std::nested_exception", $"<exception>");
  ($"std::function", $"<functional>");
  ($"std::_Manager_operation", $"<functional>");
  ($"std::bad_function_call", $"<functional>");
  ($"std::advance", $"<iterator>");
  ($"std::distance", $"<iterator>");
  ($"std::iterator", $"<iterator>");
  ($"std::iterator_traits", $"<iterator>");
  ($"std::reverse_iterator", $"<iterator>");
  ($"std::bidirectional_iterator_tag", $"<iterator>");
  ($"std::forward_iterator_tag", $"<iterator>");
  ($"std::input_iterator_tag", $"<iterator>");
  ($"std::random_access_iterator_tag", $"<iterator>");
  ($"std::begin", $"<iterator>");
  ($"std::end", $"<iterator>");
  ($"std::ctype", $"<locale>");
  ($"std::ctype_byname", $"<locale>");
  ($"std::ctype_base", $"<locale>");
  ($"std::locale", $"<locale>");
  ($"std::money_base", $"<locale>");
  ($"std::money_base::pattern", $"<locale>");
  ($"std::messages_base", $"<locale>");
  ($"std::numpunct", $"<locale>");
  ($"std::num_get", $"<locale>");
  ($"std::num_put", $"<locale>");
  ($"std::numpunct_byname", $"<locale>");
  ($"std::time_base", $"<locale>");
  ($"std::codecvt", $"<locale>");
  ($"std::codecvt_base", $"<locale>");
  ($"std::codecvt_byname", $"<locale>");
  ($"std::basic_regex", $"<regex>");
  ($"std::regex_traits", $"<regex>");
  ($"std::basic_string", $"<string>");
  ($"std::char_traits", $"<string>");
  ($"std::thread::id", $"<thread>");
  ($"std::mbstate_t", $"<cwchar>");
  ($"std::uninitialized_copy", $"<memory>");
  ($"std::mutex", $"<mutex>");
  ($" std::adopt_lock", $"<mutex>");
  ($"std::adopt_lock_t", $"<mutex>");
  ($"std::defer_lock", $"<mutex>");
  ($"std::defer_lock_t", $"<mutex>");
  ($"std::try_to_lock", $"<mutex>");
  ($"std::try_to_lock_t", $"<mutex>");
  ($"std::unique_lock", $"<mutex>");
  ($"std::lock_guard", $"<mutex>");
  ($"std::move", $"<utility>")
].

(** type.cpp:184-205 [name_map_old]: the header of a type, by prefix of its name. *)
Definition name_map_old : list (str * str) := [
  ($"std::basic_ios", $"<ios>");
  ($"std::list", $"<list>");
  ($"std::map", $"<map>");
  ($"std::allocator", $"<memory>");
  ($"std::set", $"<set>");
  ($"std::stack", $"<stack>");
  ($"std::vector", $"<vector>");
  ($"std::pair", $"<utility>");
  ($"__gnu_cxx::__normal_iterator", $"<iterator>");
  ($"std::__1::basic_string<char,std::__1::char_traits<char>,std::__1::allocator<char>>", $"<string>");
  ($"std::__1::basic_streambuf<char,std::__1::char_traits<char>>", $"<streambuf>");
  ($"std::__1::basic_istream<char,std::__1::char_traits<char>>", $"<istream>");
  ($"std::__1::basic_iostream<char,std::__1::char_traits<char>>", $"<ostream>")
].

(** type.cpp:208-311 [include_map]: public header for an internal one. *)
Definition include_map : list (str * str) := [
  ($"<bits/atomic_base.h>", $"<atomic>");
  ($"<bits/ios_base.h>", $"<ios>");
  ($"<bits/istream.tcc>", $"<istream>");
  ($"<bits/ostream.tcc>", $"<ostream>");
  ($"<bits/postypes.h>", $"<ios>");
  ($"<bits/stl_function.h>", $"<functional>");
  ($"<bits/stl_tree.h>", $"<map>");
  ($"<bits/stl_map.h>", $"<map>");
  ($"<bits/streambuf.tcc>", $"<streambuf>");
  ($"<bits/stl_bvector.h>", $"<vector>");
  ($"<bits/stl_vector.h>", $"<vector>");
  ($"<bits/algorithmfwd.h>", $"<algorithm>");
  ($"<bits/stl_algo.h>", $"<algorithm>");
  ($"<bits/fstream.tcc>", $"<fstream>");
  ($"<bits/sstream.tcc>", $"<sstream>");
  ($"<bits/stl_list.h>", $"<list>");
  ($"<bits/stl_deque.h>", $"<deque>");
  ($"<bits/stl_queue.h>", $"<queue>");
  ($"<bits/sched.h>", $"<unistd.h>");
  ($"<bits/pthreadtypes.h>", $"<pthread.h>");
  ($"<bits/gthr-default.h>", $"<pthread.h>");
  ($"<bits/random.h>", $"<random>");
  ($"<bits/basic_string.h>", $"<string>");
  ($"<bits/basic_string.tcc>", $"<string>");
  ($"<__string>", $"<string>");
  ($"<bits/streambuf_iterator.h>", $"<streambuf>");
  ($"<bits/shared_ptr.h>", $"<memory>");
  ($"<bits/unique_ptr.h>", $"<memory>");
  ($"<bits/uses_allocator.h>", $"<memory>");
  ($"<bits/shared_ptr_base.h>", $"<memory>");
  ($"<backward/auto_ptr.h>", $"<memory>");
  ($"<ext/concurrence.h>", $"<memory>");
  ($"<bits/ptr_traits.h>", $"<memory>");
  ($"<bits/alloc_traits.h>", $"<memory>");
  ($"<bits/stl_uninitialized.h>", $"<memory>");
  ($"<bits/error_constants.h>", $"<system_error>");
  ($"<bits/locale_classes.h>", $"<locale>");
  ($"<bits/locale_classes.tcc>", $"<locale>");
  ($"<__tree>", $"<iterator>");
  ($"<bits/stl_iterator.h>", $"<iterator>");
  ($"<__functional_base>", $"<functional>");
  ($"<_wctype.h>", $"<cwctype>");
  ($"<ctype.h>", $"<cctype>");
  ($"<wchar.h>", $"<cwchar>");
  ($"<bits/functional_hash.h>", $"<functional>");
  ($"<bits/unordered_set.h>", $"<unordered_set>");
  ($"<bits/unordered_map.h>", $"<unordered_map>");
  ($"<__hash_table>", $"<unordered_map>");
  ($"<bits/hashtable_policy.h>", $"<unordered_map>");
  ($"<bits/hashtable.h>", $"<unordered_map>");
  ($"<bits/stl_multiset.h>", $"<set>");
  ($"<bits/stl_multimap.h>", $"<map>");
  ($"<__locale>", $"<locale>");
  ($"<__bit_reference>", $"<vector>");
  ($"<bits/stl_stack.h>", $"<stack>");
  ($"<bits/regex_cursor.h>", $"<regex>");
  ($"<bits/regex_nfa.h>", $"<regex>");
  ($"<bits/exception.h>", $"<exception>");
  ($"<bits/hashtable_policy.h>", $"<unordered_map>");
  ($"<__mutex_base>", $"<mutex>");
  ($"<bits/types/struct_FILE.h>", $"<cstdio>");
  ($"<bits/forward_list.h>", $"<forward_list>");
  ($"<bits/stl_heap.h>", $"<algorithm>");
  ($"<bits/types/__mbstate_t.h>", $"<ios>");
  ($"<bits/libio.h>", $"<stdio.h>");
  ($"<bits/types/struct_tm.h>", $"<time.h>");
  ($"<bits/types/struct_timespec.h>", $"<time.h>");
  ($"<bits/types/struct_itimerspec.h>", $"<time.h>");
  ($"<bits/pthreadtypes-arch.h>", $"<pthread.h>");
  ($"<bits/pthread_stack_min-dynamic.h>", $"<pthread.h>");
  ($"<bits/thread-shared-types.h>", $"<pthread.h>");
  ($"<bits/struct_mutex.h>", $"<pthread.h>");
  ($"<bits/struct_rwlock.h>", $"<pthread.h>");
  ($"<bits/types/struct_sched_param.h>", $"<pthread.h>");
  ($"<bits/setjmp.h>", $"<csetjmp>");
  ($"<bits/types/struct___jmp_buf_tag.h>", $"<csetjmp>")
].

(** type.cpp:494-515 [name_map]. *)
Definition name_map : list (str * str) := [
  ($"std::__1::", $"std::");
  ($"std::__cxx11::", $"std::");
  ($"std::basic_string<char>", $"std::string");
  ($"std::basic_string<char, std::char_traits<char>, std::allocator<char> >", $"std::string");
  ($"class std::basic_string<char, struct std::char_traits<char>, class std::allocator<char> >", $"std::string");
  ($"std::basic_ostream<char>", $"std::ostream");
  ($"std::basic_istream<char>", $"std::istream");
  ($"class std::string", $"std::string");
  ($"class std::ostream", $"std::ostream");
  ($"class std::istream", $"std::istream");
  ($"class std::__thread_id", $"std::thread::id");
  ($"std::__thread_id", $"std::thread::id");
  ($"nullptr_t", $"std::nullptr_t")
].

(** type.cpp:574-597 [std_typedef_map]. *)
Definition std_typedef_map : list (str * str) := [
  ($"basic_iostream<char,std::char_traits<char>>", $"iostream");
  ($"basic_ostream<char,std::char_traits<char>>", $"ostream");
  ($"basic_istream<char,std::char_traits<char>>", $"istream");
  ($"basic_ostream<wchar_t,std::char_traits<wchar_t>>", $"wostream");
  ($"basic_istream<wchar_t,std::char_traits<wchar_t>>", $"wistream");
  ($"basic_stringstream<char,std::char_traits<char>,std::allocator<char>>", $"stringstream");
  ($"basic_istringstream<char,std::char_traits<char>,std::allocator<char>>", $"istringstream");
  ($"basic_ostringstream<char,std::char_traits<char>,std::allocator<char>>", $"ostringstream");
  ($"basic_filebuf<char,std::char_traits<char>>", $"filebuf");
  ($"basic_stringbuf<char>", $"stringbuf");
  ($"basic_ifstream<char,std::char_traits<char>>", $"ifstream");
  ($"basic_ofstream<char,std::char_traits<char>>", $"ofstream");
  ($"basic_stringbuf<char,std::char_traits<char>,std::allocator<char>>", $"stringbuf");
  ($"basic_stringbuf<wchar_t,std::wchar_traits<wchar_t>,std::allocator<wchar_t>>", $"wstringbuf");
  ($"basic_streambuf<char,std::char_traits<char>>", $"streambuf");
  ($"basic_streambuf<wchar_t,std::char_traits<wchar_t>>", $"wstreambuf")
].

(** type.cpp:689-756 [known_builtin], without the entry [Config::get().holder_type()]. *)
Definition known_builtin : list str := [
  $"std::basic_string";
  $"std::initializer_list";
  $"std::__1::basic_string";
  $"std::allocator";
  $"std::__allocator_destructor";
  $"std::shared_ptr";
  $"std::enable_shared_from_this";
  $"std::__shared_ptr";
  $"std::unique_ptr";
  $"std::pair";
  $"std::tuple";
  $"std::_Rb_tree_iterator";
  $"std::_Rb_tree_const_iterator";
  $"__gnu_cxx::__normal_iterator";
  $"std::_List_iterator";
  $"std::_List_const_iterator";
  $"std::__list_node";
  $"std::__wrap_iter";
  $"std::less";
  $"std::__value_type";
  $"std::__detail::_Hash_node_base";
  $"std::__detail::_Hash_node";
  $"std::__detail::_Node_iterator";
  $"std::__detail::_Node_iterator_base";
  $"std::__detail::_Node_const_iterator";
  $"std::__hash_value_type";
  $"std::function";
  $"std::complex";
  $"pybind11::handle";
  $"pybind11::object";
  $"pybind11::module_";
  $"pybind11::iterator";
  $"pybind11::type";
  $"pybind11::iterable";
  $"pybind11::str";
  $"pybind11::bytes";
  $"pybind11::bytesarray";
  $"pybind11::none";
  $"pybind11::ellipsis";
  $"pybind11::bool_";
  $"pybind11::int_";
  $"pybind11::float_";
  $"pybind11::weakref";
  $"pybind11::slice";
  $"pybind11::capsule";
  $"pybind11::tuple";
  $"pybind11::args";
  $"pybind11::dict";
  $"pybind11::kwargs";
  $"pybind11::sequence";
  $"pybind11::list";
  $"pybind11::anyset";
  $"pybind11::frozenset";
  $"pybind11::set";
  $"pybind11::function";
  $"pybind11::cpp_function";
  $"pybind11::staticmethod";
  $"pybind11::buffer";
  $"pybind11::memoryview";
  $"pybind11::array";
  $"pybind11::array_t"
].

(** type.cpp:758-773 [stl_builtin]. *)
Definition stl_builtin : list str := [
  $"std::vector";
  $"std::deque";
  $"std::list";
  $"std::array";
  $"std::valarray";
  $"std::set";
  $"std::unordered_set";
  $"std::map";
  $"std::unordered_map";
  $"std::experimental::optional";
  $"std::optional";
  $"std::variant"
].

(** type.cpp:791-804 [known_banned_symbols]. *)
Definition known_banned_symbols : list str := [
  $"std::initializer_list";
  $"std::locale::facet"
].

(** ** Names *)

(** type.cpp:572-656 [simplify_std_class_name_raw].  The regular expression
    engine is external: the entries of [regex_map] are the functions [rx].
    [None]: fuel exhausted. *)
Fixpoint simplify_loop (fuel : nat) (rx : list (str -> str)) (res : str) (len previous_len : nat) : option str :=
  if len =? previous_len then Some res
  else match fuel with
       | 0 => None
       | S fuel' =>
           let res' := fold_left (fun r f => f r) rx res in
           simplify_loop fuel' rx res' (length res') len
       end.
Definition simplify_opt (rx : list (str -> str)) (type : str) : option str :=
  match lookup type std_typedef_map with
  | Some r => Some r
  | None => simplify_loop (S (length type)) rx type (length type) 0
  end.
(** type.cpp:660-680 [simplify_std_class_name], without its cache (see Memo.v). *)
Definition simplify_std_class_name (rx : list (str -> str)) (type : str) : str :=
  match simplify_opt rx type with
  | Some r => r
  | None => type                         (* unreachable: theorem [simplify_total] *)
  end.

(** type.cpp:492-536 [standard_name_raw] *)
Definition standard_name_raw (rx : list (str -> str)) (type : str) : str :=
  let r := fold_left (fun r p => replace r (fst p) (snd p)) name_map type in
  let r := if begins_with r $"std::" then $"std::" ++ simplify_std_class_name rx (substr r 5 (length r)) else r in
  fix_boolean_types r.

(** type.cpp:540-568 [standard_name(string)], without its cache (see Memo.v). *)
Definition standard_name (w : world) (type : str) : str := standard_name_raw (rx (wenv w)) type.

(** type.cpp:459-488 [standard_name(QualType)] *)
Definition standard_name_q (w : world) (t : qty) : str :=
  let r := print (wenv w) t in
  if streqb r $"std::size_t" then r else standard_name w (print (wenv w) (canonical t)).

(** util.cpp:156-169 [namespace_from_named_decl] *)
Definition namespace_from_named_decl (w : world) (n : named) : str :=
  namespace_from_names (standard_name w (n_qname n)) (n_name n).

(** util.cpp:173-176 [typename_from_type_decl], for a class and for an enum. *)
Definition typename_from_rec (w : world) (r : nat) : str := standard_name w (print (wenv w) (rec_type w r)).
Definition typename_from_enum (w : world) (e : nat) : str := standard_name w (print (wenv w) (TEnum false e)).

(** util.cpp:256-264 [line_number] *)
Definition line_number (w : world) (n : named) : str :=
  if skip_line_number (wopt w) then [] else dec (n_line n).

(** ** Headers *)

(** type.cpp:81-107 [relevant_include].  [n_include] is the text at the
    #include location, cut at the first NUL character. *)
Fixpoint until (terminator : ascii) (data : str) : str :=
  match data with
  | [] => []
  | c :: data' => if Ascii.eqb c terminator then [c] else c :: until terminator data'
  end.
Definition relevant_include (n : named) : str :=
  match n_include n with
  | None => []
  | Some data =>
      let include_string :=
        if 2 <? length data then
          match data with
          | c :: data' => if Ascii.eqb c dq then c :: until dq data'
                          else if Ascii.eqb c "<" then c :: until ">" data'
                          else []
          | [] => []
          end
        else [] in
      match include_string with
      | c :: _ => if Ascii.eqb c dq then [] else include_string
      | [] => []
      end
  end.

(** The text shown in comments: [include.size() ? include.substr(1, include.size() - 2) : ""].
    [size() - 2] cannot be negative here unless the include has one character,
    in which case the C++ length is huge and the result is empty. *)
Definition include_body (include : str) : str :=
  match include with
  | [] => []
  | _ => substr include 1 (length include - 2)
  end.

(** util.cpp:293-297 [generate_comment_for_declaration] *)
Definition generate_comment_for_declaration (w : world) (n : named) : str :=
  $"// " ++ standard_name w (n_qname n) ++ $" file:" ++ include_body (relevant_include n)
    ++ $" line:" ++ line_number w n ++ [nl].

(** type.cpp:315-336: the name used to look for the header of a declaration.
    For a method: the name of its class, or of the class enclosing that class.
    For any other class member that is not itself a class: the empty name. *)
Definition qname_of_parent (w : world) (p : option nat) : str :=
  match p with Some r => n_qname (r_decl (rec_ w r)) | None => [] end.
Definition include_name (w : world) (d : decl) : str :=
  let n := named_of (wenv w) d in
  if n_member n then
    match d with
    | DFun f =>
        if f_method (fun_ w f) then
          match n_parent n with
          | Some p => let D := r_decl (rec_ w p) in
                      if n_member D then qname_of_parent w (n_parent D) else n_qname D
          | None => []
          end
        else []
    | DRec _ => qname_of_parent w (n_parent n)
    | DEnum _ => []
    end
  else n_qname n.

(** binder.hpp:35-58, binder.cpp:29-83: [IncludeSet]. *)
Record include_set := mkis { incs : list str; stack : list (decl * nat) }.
Definition add_include (i : str) (s : include_set) : include_set := mkis (incs s ++ [i]) (stack s).
Fixpoint stack_find (d : decl) (l : list (decl * nat)) : option nat :=
  match l with
  | [] => None
  | (d', n) :: l' => if decl_eq d d' then Some n else stack_find d l'
  end.
(** binder.cpp:29-45 [IncludeSet::add_decl]; [None]: not added. *)
Definition add_decl (d : decl) (level : nat) (s : include_set) : option include_set :=
  match stack_find d (stack s) with
  | None => Some (mkis (incs s) ((d, level) :: stack s))
  | Some l => if l <=? level then None else Some (mkis (incs s) ((d, level) :: stack s))
  end.

(** type.cpp:338-374: tail of [add_relevant_include_for_decl]. *)
Fixpoint find_prefix (name : str) (m : list (str * str)) : option str :=
  match m with
  | [] => None
  | (p, i) :: m' => if begins_with name p then Some i else find_prefix name m'
  end.
Definition header_of (name include : str) : str :=
  match lookup name type_map with
  | Some h => h
  | None => match find_prefix name name_map_old with
            | Some h => h
            | None => match lookup include include_map with Some h => h | None => include end
            end
  end.
(** type.cpp:111-374 [add_relevant_include_for_decl] *)
Definition add_relevant_include_for_decl (w : world) (d : decl) (s : include_set) : include_set :=
  let name := standard_name w (include_name w d) in
  let h := header_of name (relevant_include (named_of (wenv w) d)) in
  match h with
  | [] => s
  | _ => add_include (if annotate_includes (wopt w) then h ++ $" // " ++ name else h) s
  end.

(** ** Builtin and banned names *)

(** type.cpp:683-786 [is_python_builtin].  [known_builtin] is built on the
    first call, after the config was read. *)
Definition builtin_name (w : world) (name : str) : bool :=
  if mem name (lists (wcfg w) not_python_builtins) then false
  else if mem name (lists (wcfg w) python_builtins)
          || mem name (strs (wcfg w) holder_type :: known_builtin) then true
  else include_pybind11_stl (wopt w) && mem name stl_builtin.
Definition is_python_builtin (w : world) (n : named) : bool := builtin_name w (standard_name w (n_qname n)).

(** type.cpp:789-811 [is_banned_symbol] *)
Definition is_banned_symbol (w : world) (n : named) : bool :=
  let name := standard_name w (n_qname n) in
  begins_with name $"std::_" || mem name known_banned_symbols.

(** ** Class names *)

Definition set_last (c : ascii) (s : str) : str := removelast s ++ [c].   (* s.back() = c *)

(** class.cpp:43-66 [template_specialization(CXXRecordDecl)] *)
Definition strip_angles (a : str) : str :=
  match a with
  | c :: _ => if Ascii.eqb c "<" && last_is a ">" then substr a 1 (length a - 2) else a
  | [] => a
  end.
Definition arg_text (t : targ) : str := match t with Targ _ s => s end.
Definition spec_text (args : list targ) : str :=
  set_last ">" (fold_left (fun templ t => let a := strip_angles (arg_text t) in
                                          match a with [] => templ | _ => templ ++ a ++ $"," end)
                          args $"<").
Definition rec_specialization (r : record) : str :=
  match r_targs r with
  | None => []
  | Some args => fix_boolean_types (spec_text args)
  end.

(** class.cpp:89-92 [class_qualified_name] *)
Definition class_qualified_name (w : world) (r : nat) : str :=
  standard_name w (n_qname (r_decl (rec_ w r)) ++ rec_specialization (rec_ w r)).

(** class.cpp:70-77 [class_name] and 81-85 [python_class_name] *)
Definition class_name (w : world) (r : nat) : str :=
  let res := standard_name w (n_name (r_decl (rec_ w r)) ++ rec_specialization (rec_ w r)) in
  if streqb (namespace_from_named_decl w (r_decl (rec_ w r))) $"std"
  then simplify_std_class_name (rx (wenv w)) res else res.
Definition python_class_name (w : world) (r : nat) : str := mangle_type_name (class_name w r) true.

(** ** Bindable types and classes *)

(** class.cpp:246-331 [is_bindable_raw(CXXRecordDecl)]; [std_function_ok] is
    the answer of [is_std_function_bindable] on the same class.
    [rfind(')') != npos] holds iff the name contains the character. *)
Definition contains_char (c : ascii) (s : str) : bool := existsb (Ascii.eqb c) s.
Definition rec_bindable_raw (w : world) (r : nat) (std_function_ok : bool) : bool :=
  let C := rec_ w r in
  let n := r_decl C in
  let anonymous_name := contains_char ")" (n_qname n) in
  if r_anon_ns C then false
  else if negb (r_linkage C) && negb (n_member n) then false
  else if anonymous_name && r_linkage C then false
  else if anonymous_name && negb (r_linkage C) && negb (r_anon C) then false
  else if r_dependent C then false
  else if access_eqb (n_access n) Protected || access_eqb (n_access n) Private then false
  else if negb (r_complete C)
          && (if is_specialization C
              then if streqb (n_qname n) $"std::function" then negb std_function_ok
                   else negb (r_instantiated C) && negb (is_python_builtin w n)
              else true) then false
  else negb (is_banned_symbol w n).

(** Access of the declaration of a class or enum (type.cpp:432-434). *)
Definition tag_accessible (n : named) : bool :=
  negb (access_eqb (n_access n) Protected || access_eqb (n_access n) Private).

(** type.cpp:400-404 and 417-418: pointers and references to pairs and tuples. *)
Definition pair_pointee (name : str) : bool :=
  begins_with name $"struct std::pair" || begins_with name $"const struct std::pair"
  || begins_with name $"class std::tuple" || begins_with name $"const class std::tuple".
Definition pair_referee (name : str) : bool :=
  begins_with name $"struct std::pair" || begins_with name $"class std::tuple".

(** type.cpp:390-439 [is_bindable(QualType)] and class.cpp:195-218
    [is_std_function_bindable].  [sugared]: the node was reached through a
    typedef, so the [dyn_cast]s to pointer and reference types fail, while
    [getAsCXXRecordDecl] and [getAsTagDecl] still find the class. *)
Definition shallow_ok (t : qty) : bool :=
  negb (is_function_pointer t) && negb (is_rref t) && negb (dependent t) && negb (is_array t).
Fixpoint bindable_type (w : world) (sugared : bool) (t : qty) {struct t} : bool :=
  shallow_ok t &&
  match t with
  | TPtr _ p =>
      sugared ||
      (negb (is_pointer p) && negb (is_array p) && negb (pair_pointee (standard_name w (print (wenv w) p)))
       && bindable_type w false p)
  | TLRef p | TRRef p =>
      sugared ||
      (negb (pair_referee (standard_name w (print (wenv w) p))) && bindable_type w false p)
  | TRec _ r args =>
      rec_bindable_raw w r
        (forallb (fun a => match a with
                           | Targ (KDecl _ (Some (ret, ps))) _ => bindable_type w false ret && forallb (bindable_type w false) ps
                           | _ => true
                           end) args)
      && tag_accessible (r_decl (rec_ w r))
  | TEnum _ e => tag_accessible (e_decl (enum_ w e))
  | TSugar _ _ t' => bindable_type w true t'
  | TBuiltin _ _ | TArray _ _ | TFun _ _ | TDep _ _ => true
  end.
Definition is_bindable_q (w : world) (t : qty) : bool := bindable_type w false t.

(** class.cpp:195-218 [is_std_function_bindable] for a class given by its declaration. *)
Definition is_std_function_bindable (w : world) (args : list targ) : bool :=
  forallb (fun a => match a with
                    | Targ (KDecl _ (Some (ret, ps))) _ => bindable_type w false ret && forallb (bindable_type w false) ps
                    | _ => true
                    end) args.
(** class.cpp:224-243 [is_bindable(CXXRecordDecl)], without its cache (see Memo.v). *)
Definition is_bindable_rec (w : world) (r : nat) : bool :=
  rec_bindable_raw w r (is_std_function_bindable w (targs_of (rec_ w r))).

(** ** Requested and skipped types and classes *)

(** [x |= f(t)] in a loop: every operand is evaluated; an exception escapes. *)
Fixpoint or_all (acc : bool) (l : list (result bool)) : result bool :=
  match l with
  | [] => Ok acc
  | x :: l' => do b <- x; or_all (acc || b) l'
  end.

(** class.cpp:348-364 [is_skipping_requested(CXXRecordDecl)]; [deps]: the
    answers for the type arguments of the specialization. *)
Definition skip_rec_with (w : world) (r : nat) (deps : list (result bool)) : result bool :=
  let n := r_decl (rec_ w r) in
  let qualified_name := standard_name w (n_qname n) in
  let qualified_name_with_template_specialization := class_qualified_name w r in
  if is_class_skipping_requested (wcfg w) qualified_name_with_template_specialization then Ok true
  else if is_class_binding_requested (wcfg w) qualified_name_with_template_specialization then Ok false
  else if is_class_skipping_requested (wcfg w) qualified_name then Ok true
  else if is_class_binding_requested (wcfg w) qualified_name then Ok false
  else
    do skip <- is_namespace_skipping_requested (wcfg w) (namespace_from_named_decl w n);
    or_all skip deps.

(** type.cpp:59-68 [is_skipping_requested(QualType)]; [sugared] as above. *)
Fixpoint skip_type (w : world) (sugared : bool) (t : qty) {struct t} : result bool :=
  match t with
  | TPtr _ p | TLRef p | TRRef p => if sugared then Ok false else skip_type w false p
  | TRec _ r args =>
      skip_rec_with w r
        (flat_map (fun a => match a with Targ (KType t') _ => [skip_type w false t'] | _ => [] end) args)
  | TSugar _ _ t' => skip_type w true t'
  | _ => Ok false
  end.
Definition is_skipping_requested_q (w : world) (t : qty) : result bool := skip_type w false t.

(** class.cpp:95-106 [get_type_dependencies(CXXRecordDecl)] *)
Definition type_args (args : list targ) : list qty :=
  flat_map (fun a => match a with Targ (KType t) _ => [t] | _ => [] end) args.

(** class.cpp:348-364 [is_skipping_requested(CXXRecordDecl)] *)
Definition is_skipping_requested_rec (w : world) (r : nat) : result bool :=
  skip_rec_with w r (map (is_skipping_requested_q w) (type_args (targs_of (rec_ w r)))).

(** class.cpp:334-345 [is_binding_requested(CXXRecordDecl)].
    [bind &= !is_skipping_requested(t)]: every operand is evaluated. *)
Definition is_binding_requested_rec (w : world) (r : nat) : result bool :=
  let n := r_decl (rec_ w r) in
  if is_class_binding_requested (wcfg w) (class_qualified_name w r)
     || is_class_binding_requested (wcfg w) (standard_name w (n_qname n)) then Ok true
  else if negb (bind_class_template_specialization (wopt w)) && is_specialization (rec_ w r) then Ok false
  else
    do bind <- is_namespace_binding_requested (wcfg w) (namespace_from_named_decl w n);
    do skip <- or_all false (map (is_skipping_requested_q w) (type_args (targs_of (rec_ w r))));
    Ok (bind && negb skip).

(** type.cpp:46-55 [is_binding_requested(QualType)] *)
Fixpoint bind_type (w : world) (sugared : bool) (t : qty) {struct t} : result bool :=
  match t with
  | TPtr _ p | TLRef p | TRRef p => if sugared then Ok false else bind_type w false p
  | TRec _ r _ => is_binding_requested_rec w r
  | TSugar _ _ t' => bind_type w true t'
  | _ => Ok false
  end.
Definition is_binding_requested_q (w : world) (t : qty) : result bool := bind_type w false t.

(** type.cpp:71-77 [is_function_type], used on canonical types only. *)
Fixpoint is_function_type (t : qty) : bool :=
  match t with
  | TFun _ _ => true
  | TPtr _ p | TLRef p | TRRef p => is_function_type p
  | _ => false
  end.

(** type.cpp:443-455 [request_bindings(QualType)]: the names passed to
    [Context::request_bindings], in order. *)
Definition request_name (w : world) (d : decl) : list str :=
  match d with
  | DRec r => if r_complete (rec_ w r) || is_specialization (rec_ w r) then [typename_from_rec w r] else []
  | DEnum e => if e_complete (enum_ w e) then [typename_from_enum w e] else []
  | DFun _ => []
  end.
Fixpoint request_type (w : world) (t : qty) : result (list str) :=
  do skip <- is_skipping_requested_q w t;
  if skip then Ok []
  else
    let here := match as_tag t with Some d => request_name w d | None => [] end in
    match t with
    | TPtr _ p | TLRef p | TRRef p => do l <- request_type w p; Ok (here ++ l)
    | _ => Ok here
    end.
