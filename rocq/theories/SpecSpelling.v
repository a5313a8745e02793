(** Specification vocabulary: how names of the standard library are spelled,
    what depends on a template parameter, template arguments of functions and
    the headers that programs may include. *)
From Coq Require Import Ascii String Bool Arith.
From Coq Require Import List.
From Verif Require Import Str SpecUtil Util Ast SpecTypes.
Import ListNotations.

(** [spelling long name]: [long] is how compilers and libraries spell what C++
    programs call [name]. *)
Inductive spelling : str -> str -> Prop :=
(* the inline namespaces of libc++ and libstdc++ *)
| SP_inline ns : In ns [$"__1"; $"__cxx11"] -> spelling ($"std::" ++ ns ++ $"::") $"std::"
(* the typedefs for narrow characters *)
| SP_char x : In x [$"string"; $"ostream"; $"istream"] -> spelling ($"std::basic_" ++ x ++ $"<char>") ($"std::" ++ x)
| SP_string : spelling $"std::basic_string<char, std::char_traits<char>, std::allocator<char> >" $"std::string"
| SP_class_string : spelling $"class std::basic_string<char, struct std::char_traits<char>, class std::allocator<char> >" $"std::string"
(* ... which are no classes by name *)
| SP_class x : In x [$"string"; $"ostream"; $"istream"] -> spelling ($"class std::" ++ x) ($"std::" ++ x)
(* the identifier of a thread in libc++ *)
| SP_thread k : In k [ []; $"class "] -> spelling (k ++ $"std::__thread_id") $"std::thread::id"
| SP_null : spelling $"nullptr_t" $"std::nullptr_t".
(** One place of a text is changed. *)
Definition rewrites (R : str -> str -> Prop) (s s' : str) : Prop :=
  exists a k v b, R k v /\ s = a ++ k ++ b /\ s' = a ++ v ++ b.

(** [std_typedef t n]: the name [n] of the standard library stands for [t]. *)
Inductive std_typedef : str -> str -> Prop :=
| TD_narrow x : In x [$"iostream"; $"ostream"; $"istream"; $"filebuf"; $"ifstream"; $"ofstream"; $"streambuf"] ->
    std_typedef ($"basic_" ++ x ++ $"<char,std::char_traits<char>>") x
| TD_wide x : In x [$"ostream"; $"istream"; $"streambuf"] ->
    std_typedef ($"basic_" ++ x ++ $"<wchar_t,std::char_traits<wchar_t>>") ("w"%char :: x)
| TD_string x : In x [$"stringstream"; $"istringstream"; $"ostringstream"; $"stringbuf"] ->
    std_typedef ($"basic_" ++ x ++ $"<char,std::char_traits<char>,std::allocator<char>>") x
| TD_stringbuf : std_typedef $"basic_stringbuf<char>" $"stringbuf"
(* there is no [std::wchar_traits] *)
| TD_wstringbuf : std_typedef $"basic_stringbuf<wchar_t,std::wchar_traits<wchar_t>,std::allocator<wchar_t>>" $"wstringbuf".

(** The type mentions a template parameter. *)
Inductive mentions_parameter : qty -> Prop :=
| MP_parameter c n : mentions_parameter (TDep c n)
| MP_pointer c t : mentions_parameter t -> mentions_parameter (TPtr c t)
| MP_lvalue_reference t : mentions_parameter t -> mentions_parameter (TLRef t)
| MP_rvalue_reference t : mentions_parameter t -> mentions_parameter (TRRef t)
| MP_array c t : mentions_parameter t -> mentions_parameter (TArray c t)
| MP_typedef c n t : mentions_parameter t -> mentions_parameter (TSugar c n t)
| MP_result r ps : mentions_parameter r -> mentions_parameter (TFun r ps)
| MP_argument r ps p : In p ps -> mentions_parameter p -> mentions_parameter (TFun r ps)
| MP_type_argument c r args t s : In (Targ (KType t) s) args -> mentions_parameter t -> mentions_parameter (TRec c r args)
| MP_value_argument c r args t s : In (Targ (KIntegral t) s) args -> mentions_parameter t -> mentions_parameter (TRec c r args).

(** What a template argument of a function contributes: an empty pack nothing,
    another pack what is between its brackets. *)
Inductive contributes : targ -> list str -> Prop :=
| CO_empty_pack s : contributes (Targ (KPack 0) s) []
| CO_pack n body : body <> [] -> contributes (Targ (KPack (S n)) ($"<" ++ body ++ $">")) [body]
| CO_other k s : (forall n, k <> KPack n) -> contributes (Targ k s) [s].

(** The headers of the C++ and C standard libraries and the POSIX headers for
    threads. *)
Definition public_headers : list str := map (fun h => $"<" ++ h ++ $">") [
  $"algorithm"; $"any"; $"array"; $"atomic"; $"bitset"; $"charconv"; $"chrono"; $"codecvt"; $"complex"; $"condition_variable"; $"deque"; $"exception";
  $"filesystem"; $"forward_list"; $"fstream"; $"functional"; $"future"; $"initializer_list"; $"iomanip"; $"ios"; $"iosfwd"; $"iostream"; $"istream";
  $"iterator"; $"limits"; $"list"; $"locale"; $"map"; $"memory"; $"mutex"; $"new"; $"numeric"; $"optional"; $"ostream"; $"queue"; $"random"; $"ratio";
  $"regex"; $"scoped_allocator"; $"set"; $"shared_mutex"; $"sstream"; $"stack"; $"stdexcept"; $"streambuf"; $"string"; $"string_view"; $"system_error";
  $"thread"; $"tuple"; $"type_traits"; $"typeindex"; $"typeinfo"; $"unordered_map"; $"unordered_set"; $"utility"; $"valarray"; $"variant"; $"vector";
  $"cassert"; $"cctype"; $"cerrno"; $"cfenv"; $"cfloat"; $"cinttypes"; $"climits"; $"clocale"; $"cmath"; $"csetjmp"; $"csignal"; $"cstdarg"; $"cstddef";
  $"cstdint"; $"cstdio"; $"cstdlib"; $"cstring"; $"ctime"; $"cuchar"; $"cwchar"; $"cwctype"; $"stdio.h"; $"stdlib.h"; $"time.h"; $"unistd.h"; $"pthread.h"].

(** The classes that Python knows without bindings: values that pybind11
    converts, holders, internals of the libraries, and pybind11's own classes. *)
Inductive known_class : str -> Prop :=
| KC_value x : In x [$"basic_string"; $"pair"; $"tuple"; $"function"; $"complex"; $"initializer_list"; $"less"] -> known_class ($"std::" ++ x)
| KC_memory x : In x [$"allocator"; $"shared_ptr"; $"unique_ptr"; $"enable_shared_from_this"] -> known_class ($"std::" ++ x)
| KC_gnu x : In x [$"_Rb_tree_iterator"; $"_Rb_tree_const_iterator"; $"_List_iterator"; $"_List_const_iterator"; $"__shared_ptr"] -> known_class ($"std::" ++ x)
| KC_hash x : In x [$"Hash_node_base"; $"Hash_node"; $"Node_iterator"; $"Node_iterator_base"; $"Node_const_iterator"] -> known_class ($"std::__detail::_" ++ x)
| KC_llvm x : In x [$"allocator_destructor"; $"list_node"; $"wrap_iter"; $"value_type"; $"hash_value_type"; $"1::basic_string"] -> known_class ($"std::__" ++ x)
| KC_vector_iterator : known_class $"__gnu_cxx::__normal_iterator"
(* the keywords of C++ have an underscore *)
| KC_pybind11_keyword x : In x [$"module"; $"bool"; $"int"; $"float"] -> known_class ($"pybind11::" ++ x ++ $"_")
(* the class of pybind11 is called [bytearray] *)
| KC_pybind11 x : In x [$"handle"; $"object"; $"type"; $"none"; $"ellipsis"; $"capsule"; $"weakref"; $"slice"; $"str"; $"bytes"; $"bytesarray"; $"memoryview"; $"buffer";
    $"iterator"; $"iterable"; $"sequence"; $"list"; $"tuple"; $"dict"; $"set"; $"frozenset"; $"anyset"; $"args"; $"kwargs"; $"function"; $"cpp_function"; $"staticmethod";
    $"array"; $"array_t"] -> known_class ($"pybind11::" ++ x).
(** The templates that pybind11/stl.h converts. *)
Inductive converted_container : str -> Prop :=
| CC_sequence x : In x [$"vector"; $"deque"; $"list"; $"array"; $"valarray"] -> converted_container ($"std::" ++ x)
| CC_lookup u x : In u [ []; $"unordered_"] -> In x [$"set"; $"map"] -> converted_container ($"std::" ++ u ++ x)
| CC_optional e : In e [ []; $"experimental::"] -> converted_container ($"std::" ++ e ++ $"optional")
| CC_variant : converted_container $"std::variant".
