(** The reference outputs of /repo/test, compared with the text the model
    writes.  Each [tNN_w] below is a hand-made record of what clang says about
    the header of one test, each [tNN_ref] the verbatim text of its reference
    file, and each example states that the run of the model on that input
    writes exactly this text, after [updated].  These are tests of the model's
    fidelity, not proofs of properties. *)
From Coq Require Import Ascii String Bool Arith NArith.
From Coq Require Import List.
From Verif Require Import Str Util Config Ast Types Func Enum Includes Class Context SpecContext Samples.
Import ListNotations.

(** The reference files are older than the sources: a few fixed pieces of text
    (context.cpp:105-139, 433-446, class.cpp:670-700) were reworded after the
    reference files had been written.  This brings them up to date. *)
Definition reworded : list (str * str) := [
  ($"PYBIND11_DECLARE_HOLDER_TYPE(T, std::shared_ptr<T>)", $"PYBIND11_DECLARE_HOLDER_TYPE(T, std::shared_ptr<T>, false)");
  ($"PYBIND11_DECLARE_HOLDER_TYPE(T, my_shared_ptr<T>)", $"PYBIND11_DECLARE_HOLDER_TYPE(T, my_shared_ptr<T>, false)");
  ($"PYBIND11_DECLARE_HOLDER_TYPE(T, T*)", $"PYBIND11_DECLARE_HOLDER_TYPE(T, T*, false)");
  ($"else return pybind11::detail::cast_safe", $"return pybind11::detail::cast_safe");
  ($"typedef std::function< pybind11::module & (std::string const &) > ModuleGetter;",
   $"using ModuleGetter = std::function< pybind11::module & (std::string const &) >;");
  ($"else return ns+'_';", $"return ns+'_';");
  ($"modules[p.first.size() ? p.first+""::""+p.second : p.second]", $"modules[ p.first.empty() ? p.second :  p.first+""::""+p.second ]")].
Definition updated (s : str) : str := fold_left (fun s p => replace s (fst p) (snd p)) reworded s.

(** What --single-file writes. *)
Definition writes (w : world) (visits : list decl) : str :=
  match run w visits with
  | Ok o => single_file_text w o
  | Throw m => $"throw " ++ m | Exit1 m => $"exit " ++ m | Undefined m => $"undefined " ++ m | Diverges => $"diverges"
  end.

(** A better printing of function types than that of Samples.v. *)
Definition pr_fun (rname ename : nat -> str) (t : qty) : str :=
  match t with
  | TFun _ _ => $"void (void)"
  | TLRef (TFun _ _) => $"void (&)(void)"
  | TPtr _ (TFun _ _) => $"void (*)(void)"
  | _ => pr rname ename t
  end.
Definition unit_ (rs : list record) (fs : list fn) (es : list enum) (rname ename : nat -> str) : env :=
  mkenv (fun n => nth n rs norec) (fun n => nth n fs nofn) (fun n => nth n es noenum) (pr_fun rname ename) [] 10.
Definition everything : config := assign_list namespaces_to_bind [ [] ] default_config.
Definition config_of (name text : str) : config :=
  match setup default_config [ [] ] [] name (Some text) with Ok c => c | _ => default_config end.
Definition bool_ : qty := TBuiltin false $"bool".
Definition float_ : qty := TBuiltin false $"float".
Definition double_ : qty := TBuiltin false $"double".
Definition const_int : qty := TBuiltin true $"int".
Definition arg (t : qty) : param := mkparam [] t false.
Definition struct_of (R : record) : record :=
  mkrecord (r_decl R) (r_targs R) true (r_abstract R) (r_final R) (r_complete R) (r_is_def R) (r_definition R) (r_first R) (r_anon_ns R)
           (r_linkage R) (r_anon R) (r_dependent R) (r_instantiated R) (r_has_default R) (r_needs_default R) (r_dtor R) (r_bases R) (r_members R).
Definition abstract_of (R : record) : record :=
  mkrecord (r_decl R) (r_targs R) (r_struct R) true (r_final R) (r_complete R) (r_is_def R) (r_definition R) (r_first R) (r_anon_ns R)
           (r_linkage R) (r_anon R) (r_dependent R) (r_instantiated R) (r_has_default R) (r_needs_default R) (r_dtor R) (r_bases R) (r_members R).
(** [has]: hasDefaultConstructor(); [needs]: needsImplicitDefaultConstructor(). *)
Definition default_ctor (has needs : bool) (R : record) : record :=
  mkrecord (r_decl R) (r_targs R) (r_struct R) (r_abstract R) (r_final R) (r_complete R) (r_is_def R) (r_definition R) (r_first R) (r_anon_ns R)
           (r_linkage R) (r_anon R) (r_dependent R) (r_instantiated R) has needs (r_dtor R) (r_bases R) (r_members R).
Definition anonymous_of (R : record) : record :=
  mkrecord (r_decl R) (r_targs R) (r_struct R) (r_abstract R) (r_final R) (r_complete R) (r_is_def R) (r_definition R) (r_first R) (r_anon_ns R)
           false true (r_dependent R) (r_instantiated R) (r_has_default R) (r_needs_default R) (r_dtor R) (r_bases R) (r_members R).
Definition special_of (l : list targ) (R : record) : record :=
  mkrecord (r_decl R) (Some l) (r_struct R) (r_abstract R) (r_final R) (r_complete R) (r_is_def R) (r_definition R) (r_first R) (r_anon_ns R)
           (r_linkage R) (r_anon R) (r_dependent R) true (r_has_default R) (r_needs_default R) (r_dtor R) (r_bases R) (r_members R).
Definition operator_of (F : fn) : fn :=
  mkfn (f_decl F) (f_ret F) (f_params F) (f_method F) (f_static F) (f_const F) (f_virtual F) (f_pure F) (f_final F) (f_variadic F) (f_deleted F)
       true (f_conversion F) (f_dtor F) (f_ctor F) (f_kind F) (f_targs F) (f_est F) (f_copy_assign F).

(** /repo/test/T01.enum.hpp and T01.enum.ref.cpp *)
Definition t01_inc : str := $"<T01.enum.hpp>".
Definition t01_enum (name qname : str) (scoped class_tag : bool) (self : nat) (values : list (str * str)) : enum :=
  mkenum (nm name qname t01_inc) scoped class_tag false true values (Some self).
Definition t01_inner (a : access) (name : str) (scoped class_tag : bool) (self : nat) (values : list (str * str)) : enum :=
  mkenum (member_of 0 a (nm name ($"A::" ++ name) t01_inc)) scoped class_tag false true values (Some self).
Definition t01_enums : list enum := [
  t01_enum $"E1" $"E1" false false 0 [($"E1_V0", $"E1_V0"); ($"E1_V1", $"E1_V1")];
  t01_enum $"E2_struct" $"E2_struct" true false 1 [($"V0", $"E2_struct::V0"); ($"V1", $"E2_struct::V1")];
  t01_enum $"E3_class" $"E3_class" true true 2 [($"V0", $"E3_class::V0"); ($"V1", $"E3_class::V1")];
  t01_enum $"E4_not_binded" $"E4_not_binded" false false 3 [($"E4_V0", $"E4_V0"); ($"E4_V1", $"E4_V1")];
  t01_inner Public $"AE1" false false 4 [($"AE1_V0", $"A::AE1_V0"); ($"AE1_V1", $"A::AE1_V1")];
  t01_inner Public $"AE2_struct" true false 5 [($"AE3_V0", $"A::AE2_struct::AE3_V0"); ($"AE3_V1", $"A::AE2_struct::AE3_V1")];
  t01_inner Public $"AE3_class" true true 6 [($"AE2_V0", $"A::AE3_class::AE2_V0"); ($"AE2_V1", $"A::AE3_class::AE2_V1")];
  t01_inner Protected $"AE3_not_binded" false false 7 [($"AE3_V0_not_binded", $"A::AE3_V0_not_binded")];
  t01_inner Private $"AE6_not_binded" true true 8 [($"AE6_V0_not_binded", $"A::AE6_V0_not_binded")];
  t01_enum $"E6_class_not_binded" $"E6_class_not_binded" true true 9 [($"V0", $"E6_class_not_binded::V0")];
  t01_enum $"E7_class" $"aaaa::E7_class" true true 10 [($"V0", $"aaaa::E7_class::V0"); ($"V1", $"aaaa::E7_class::V1")];
  t01_enum $"E8_class_not_binded" $"aaaa::E8_class_not_binded" true true 11 [($"V0", $"aaaa::E8_class_not_binded::V0")]].
Definition t01_field (n : str) : field := mkfield (member_of 0 Public (nm n ($"A::" ++ n) t01_inc)) int false.
Definition t01_a : record :=
  cls (nm $"A" $"A" t01_inc) 0 []
      [MEnum 4; MEnum 5; MEnum 6; MField (t01_field $"field1"); MField (t01_field $"field2"); MEnum 7; MEnum 8].
Definition t01_config : str := $"-namespace aaaa

-enum E4_not_binded

-enum E6_class_not_binded
+enum aaaa::E7_class

-field A::field1".
Definition t01_w : world :=
  mkworld (unit_ [t01_a] [] t01_enums (fun _ => $"class A") (fun e => $"enum " ++ n_qname (e_decl (nth e t01_enums noenum))))
          (config_of $"T01.enum.config" t01_config) (test_options $"T01_enum").
Definition t01_visits : list decl := [DEnum 0; DEnum 1; DEnum 2; DEnum 3; DRec 0; DEnum 9; DEnum 10; DEnum 11].
Definition t01_ref : str := $"// File: T01_enum.cpp
#include <T01.enum.hpp> // A
#include <T01.enum.hpp> // E1
#include <T01.enum.hpp> // E2_struct
#include <T01.enum.hpp> // E3_class
#include <sstream> // __str__

#include <functional>
#include <pybind11/pybind11.h>
#include <string>

#ifndef BINDER_PYBIND11_TYPE_CASTER
	#define BINDER_PYBIND11_TYPE_CASTER
	PYBIND11_DECLARE_HOLDER_TYPE(T, std::shared_ptr<T>)
	PYBIND11_DECLARE_HOLDER_TYPE(T, T*)
	PYBIND11_MAKE_OPAQUE(std::shared_ptr<void>)
#endif

void bind_T01_enum(std::function< pybind11::module &(std::string const &namespace_) > &M)
{
	// E1 file:T01.enum.hpp line:
	pybind11::enum_<E1>(M(""""), ""E1"", pybind11::arithmetic(), """")
		.value(""E1_V0"", E1_V0)
		.value(""E1_V1"", E1_V1)
		.export_values();

;

	// E2_struct file:T01.enum.hpp line:
	pybind11::enum_<E2_struct>(M(""""), ""E2_struct"", """")
		.value(""V0"", E2_struct::V0)
		.value(""V1"", E2_struct::V1)
		.export_values();

;

	// E3_class file:T01.enum.hpp line:
	pybind11::enum_<E3_class>(M(""""), ""E3_class"", """")
		.value(""V0"", E3_class::V0)
		.value(""V1"", E3_class::V1);

;

	{ // A file:T01.enum.hpp line:
		pybind11::class_<A, std::shared_ptr<A>> cl(M(""""), ""A"", """");
		cl.def( pybind11::init( [](){ return new A(); } ) );

		pybind11::enum_<A::AE1>(cl, ""AE1"", pybind11::arithmetic(), """")
			.value(""AE1_V0"", A::AE1_V0)
			.value(""AE1_V1"", A::AE1_V1)
			.export_values();


		pybind11::enum_<A::AE2_struct>(cl, ""AE2_struct"", """")
			.value(""AE3_V0"", A::AE2_struct::AE3_V0)
			.value(""AE3_V1"", A::AE2_struct::AE3_V1)
			.export_values();


		pybind11::enum_<A::AE3_class>(cl, ""AE3_class"", """")
			.value(""AE2_V0"", A::AE3_class::AE2_V0)
			.value(""AE2_V1"", A::AE3_class::AE2_V1);

		cl.def_readwrite(""field2"", &A::field2);
	}
}


// File: T01_enum_1.cpp
#include <T01.enum.hpp> // aaaa::E7_class

#include <functional>
#include <pybind11/pybind11.h>
#include <string>

#ifndef BINDER_PYBIND11_TYPE_CASTER
	#define BINDER_PYBIND11_TYPE_CASTER
	PYBIND11_DECLARE_HOLDER_TYPE(T, std::shared_ptr<T>)
	PYBIND11_DECLARE_HOLDER_TYPE(T, T*)
	PYBIND11_MAKE_OPAQUE(std::shared_ptr<void>)
#endif

void bind_T01_enum_1(std::function< pybind11::module &(std::string const &namespace_) > &M)
{
	// aaaa::E7_class file:T01.enum.hpp line:
	pybind11::enum_<aaaa::E7_class>(M(""aaaa""), ""E7_class"", """")
		.value(""V0"", aaaa::E7_class::V0)
		.value(""V1"", aaaa::E7_class::V1);

;

}


#include <map>
#include <algorithm>
#include <functional>
#include <memory>
#include <stdexcept>
#include <string>

#include <pybind11/pybind11.h>

typedef std::function< pybind11::module & (std::string const &) > ModuleGetter;

void bind_T01_enum(std::function< pybind11::module &(std::string const &namespace_) > &M);
void bind_T01_enum_1(std::function< pybind11::module &(std::string const &namespace_) > &M);


PYBIND11_MODULE(T01_enum, root_module) {
	root_module.doc() = ""T01_enum module"";

	std::map <std::string, pybind11::module> modules;
	ModuleGetter M = [&](std::string const &namespace_) -> pybind11::module & {
		auto it = modules.find(namespace_);
		if( it == modules.end() ) throw std::runtime_error(""Attempt to access pybind11::module for namespace "" + namespace_ + "" before it was created!!!"");
		return it->second;
	};

	modules[""""] = root_module;

	static std::vector<std::string> const reserved_python_words {""nonlocal"", ""global"", };

	auto mangle_namespace_name(
		[](std::string const &ns) -> std::string {
			if ( std::find(reserved_python_words.begin(), reserved_python_words.end(), ns) == reserved_python_words.end() ) return ns;
			else return ns+'_';
		}
	);

	std::vector< std::pair<std::string, std::string> > sub_modules {
		{"""", ""aaaa""},
	};
	for(auto &p : sub_modules ) modules[p.first.size() ? p.first+""::""+p.second : p.second] = modules[p.first].def_submodule( mangle_namespace_name(p.second).c_str(), (""Bindings for "" + p.first + ""::"" + p.second + "" namespace"").c_str() );

	//pybind11::class_<std::shared_ptr<void>>(M(""""), ""_encapsulated_data_"");

	bind_T01_enum(M);
	bind_T01_enum_1(M);

}

// Source list file: TEST/T01_enum.sources
// T01_enum.cpp
// T01_enum.cpp
// T01_enum_1.cpp

// Modules list file: TEST/T01_enum.modules
// aaaa 
".
Example t01 : writes t01_w t01_visits = updated t01_ref.
Proof. vm_compute. reflexivity. Qed.

(** /repo/test/T05.default.hpp and T05.default.ref.cpp *)
Definition t05_inc : str := $"<T05.default.hpp>".
Definition t05_a : qty := TRec false 0 [].
Definition t05_foo_params : list param :=
  [mkparam $"a" int false; mkparam $"i1" int true; mkparam $"i2" (TLRef int) true; mkparam $"f" float_ true;
   mkparam $"d" (TLRef (TBuiltin true $"double")) true; mkparam $"p" (TPtr false void) true; mkparam $"q" int true].
Definition t05_b (n : str) : named := member_of 1 Public (nm n ($"B::" ++ n) t05_inc).
Definition t05_three (i : qty) : list param := [mkparam $"i" i true; mkparam $"f" float_ true; mkparam $"d" double_ true].
Definition t05_fns : list fn := [
  fn0 (nm $"foo" $"foo" t05_inc) double_ t05_foo_params;
  ctor_of (member_of 0 Public (nm $"A" $"A::A" t05_inc)) [] (mkctor true None false) false;
  ctor_of (member_of 0 Public (nm $"A" $"A::A" t05_inc)) [arg (TLRef (TRec true 0 []))] (mkctor false (Some true) false) false;
  ctor_of (member_of 0 Public (nm $"A" $"A::A" t05_inc)) [arg (TRRef t05_a)] (mkctor false None true) false;
  ctor_of (t05_b $"B") [mkparam $"a" const_int true; mkparam $"b" float_ true; mkparam $"a2" (TLRef t05_a) true;
                        mkparam $"a3" (TPtr false t05_a) true; mkparam $"i" int true] (mkctor true None false) false;
  meth (t05_b $"foo") void [mkparam $"a1" t05_a true; mkparam $"a2" (TLRef t05_a) true; mkparam $"a3" (TPtr false t05_a) true;
                            mkparam $"i" int true] false false false false;
  meth (t05_b $"foo_member") double_ (t05_three const_int) false false false false;
  meth (t05_b $"foo_member_const") double_ (t05_three int) false true false false;
  meth (t05_b $"foo_static") double_ (t05_three int) true false false false;
  fn0 (nm $"foo_f0" $"foo_f0" t05_inc) void [mkparam $"f" (TFun void []) false; mkparam $"a" int true; mkparam $"b" float_ true];
  fn0 (nm $"foo_f1" $"foo_f1" t05_inc) void [mkparam $"f" (TLRef (TFun void [])) false; mkparam $"a" int true; mkparam $"b" float_ true];
  fn0 (nm $"foo_f2_not_binded" $"foo_f2_not_binded" t05_inc) void
      [mkparam $"f" (TPtr false (TFun void [])) false; mkparam $"a" int true; mkparam $"b" float_ true]].
Definition t05_rs : list record := [
  struct_of (default_ctor true false (cls (nm $"A" $"A" t05_inc) 0 [] [MMethod 1; MMethod 2; MMethod 3]));
  struct_of (default_ctor true false (cls (nm $"B" $"B" t05_inc) 1 [] [MMethod 4; MMethod 5; MMethod 6; MMethod 7; MMethod 8]))].
Definition t05_w : world :=
  mkworld (unit_ t05_rs t05_fns [] (fun r => nth r [$"struct A"; $"struct B"] []) (fun _ => [])) everything (test_options $"T05_default").
Definition t05_visits : list decl := [DFun 0; DRec 0; DRec 1; DFun 9; DFun 10; DFun 11].
Definition t05_ref : str := $"// File: T05_default.cpp
#include <T05.default.hpp> // A
#include <T05.default.hpp> // B
#include <T05.default.hpp> // foo
#include <T05.default.hpp> // foo_f0
#include <T05.default.hpp> // foo_f1
#include <sstream> // __str__

#include <functional>
#include <pybind11/pybind11.h>
#include <string>

#ifndef BINDER_PYBIND11_TYPE_CASTER
	#define BINDER_PYBIND11_TYPE_CASTER
	PYBIND11_DECLARE_HOLDER_TYPE(T, std::shared_ptr<T>)
	PYBIND11_DECLARE_HOLDER_TYPE(T, T*)
	PYBIND11_MAKE_OPAQUE(std::shared_ptr<void>)
#endif

void bind_T05_default(std::function< pybind11::module &(std::string const &namespace_) > &M)
{
	// foo(int, int, int &, float, const double &, void *, int) file:T05.default.hpp line:
	M("""").def(""foo"", [](int const & a0) -> double { return foo(a0); }, """", pybind11::arg(""a""));
	M("""").def(""foo"", [](int const & a0, int const & a1) -> double { return foo(a0, a1); }, """", pybind11::arg(""a""), pybind11::arg(""i1""));
	M("""").def(""foo"", [](int const & a0, int const & a1, int & a2) -> double { return foo(a0, a1, a2); }, """", pybind11::arg(""a""), pybind11::arg(""i1""), pybind11::arg(""i2""));
	M("""").def(""foo"", [](int const & a0, int const & a1, int & a2, float const & a3) -> double { return foo(a0, a1, a2, a3); }, """", pybind11::arg(""a""), pybind11::arg(""i1""), pybind11::arg(""i2""), pybind11::arg(""f""));
	M("""").def(""foo"", [](int const & a0, int const & a1, int & a2, float const & a3, const double & a4) -> double { return foo(a0, a1, a2, a3, a4); }, """", pybind11::arg(""a""), pybind11::arg(""i1""), pybind11::arg(""i2""), pybind11::arg(""f""), pybind11::arg(""d""));
	M("""").def(""foo"", [](int const & a0, int const & a1, int & a2, float const & a3, const double & a4, void * a5) -> double { return foo(a0, a1, a2, a3, a4, a5); }, """", pybind11::arg(""a""), pybind11::arg(""i1""), pybind11::arg(""i2""), pybind11::arg(""f""), pybind11::arg(""d""), pybind11::arg(""p""));
	M("""").def(""foo"", (double (*)(int, int, int &, float, const double &, void *, int)) &foo, ""C++: foo(int, int, int &, float, const double &, void *, int) --> double"", pybind11::arg(""a""), pybind11::arg(""i1""), pybind11::arg(""i2""), pybind11::arg(""f""), pybind11::arg(""d""), pybind11::arg(""p""), pybind11::arg(""q""));

	{ // A file:T05.default.hpp line:
		pybind11::class_<A, std::shared_ptr<A>> cl(M(""""), ""A"", """");
		cl.def( pybind11::init( [](){ return new A(); } ) );
		cl.def( pybind11::init( [](A const &o){ return new A(o); } ) );
	}
	{ // B file:T05.default.hpp line:
		pybind11::class_<B, std::shared_ptr<B>> cl(M(""""), ""B"", """");
		cl.def( pybind11::init( [](){ return new B(); } ), ""doc"" );
		cl.def( pybind11::init( [](const int & a0){ return new B(a0); } ), ""doc"" , pybind11::arg(""a""));
		cl.def( pybind11::init( [](const int & a0, float const & a1){ return new B(a0, a1); } ), ""doc"" , pybind11::arg(""a""), pybind11::arg(""b""));
		cl.def( pybind11::init( [](const int & a0, float const & a1, struct A & a2){ return new B(a0, a1, a2); } ), ""doc"" , pybind11::arg(""a""), pybind11::arg(""b""), pybind11::arg(""a2""));
		cl.def( pybind11::init( [](const int & a0, float const & a1, struct A & a2, struct A * a3){ return new B(a0, a1, a2, a3); } ), ""doc"" , pybind11::arg(""a""), pybind11::arg(""b""), pybind11::arg(""a2""), pybind11::arg(""a3""));
		cl.def( pybind11::init<const int, float, struct A &, struct A *, int>(), pybind11::arg(""a""), pybind11::arg(""b""), pybind11::arg(""a2""), pybind11::arg(""a3""), pybind11::arg(""i"") );

		cl.def(""foo"", [](B &o) -> void { return o.foo(); }, """");
		cl.def(""foo"", [](B &o, struct A const & a0) -> void { return o.foo(a0); }, """", pybind11::arg(""a1""));
		cl.def(""foo"", [](B &o, struct A const & a0, struct A & a1) -> void { return o.foo(a0, a1); }, """", pybind11::arg(""a1""), pybind11::arg(""a2""));
		cl.def(""foo"", [](B &o, struct A const & a0, struct A & a1, struct A * a2) -> void { return o.foo(a0, a1, a2); }, """", pybind11::arg(""a1""), pybind11::arg(""a2""), pybind11::arg(""a3""));
		cl.def(""foo"", (void (B::*)(struct A, struct A &, struct A *, int)) &B::foo, ""C++: B::foo(struct A, struct A &, struct A *, int) --> void"", pybind11::arg(""a1""), pybind11::arg(""a2""), pybind11::arg(""a3""), pybind11::arg(""i""));
		cl.def(""foo_member"", [](B &o) -> double { return o.foo_member(); }, """");
		cl.def(""foo_member"", [](B &o, const int & a0) -> double { return o.foo_member(a0); }, """", pybind11::arg(""i""));
		cl.def(""foo_member"", [](B &o, const int & a0, float const & a1) -> double { return o.foo_member(a0, a1); }, """", pybind11::arg(""i""), pybind11::arg(""f""));
		cl.def(""foo_member"", (double (B::*)(const int, float, double)) &B::foo_member, ""C++: B::foo_member(const int, float, double) --> double"", pybind11::arg(""i""), pybind11::arg(""f""), pybind11::arg(""d""));
		cl.def(""foo_member_const"", [](B const &o) -> double { return o.foo_member_const(); }, """");
		cl.def(""foo_member_const"", [](B const &o, int const & a0) -> double { return o.foo_member_const(a0); }, """", pybind11::arg(""i""));
		cl.def(""foo_member_const"", [](B const &o, int const & a0, float const & a1) -> double { return o.foo_member_const(a0, a1); }, """", pybind11::arg(""i""), pybind11::arg(""f""));
		cl.def(""foo_member_const"", (double (B::*)(int, float, double) const) &B::foo_member_const, ""C++: B::foo_member_const(int, float, double) const --> double"", pybind11::arg(""i""), pybind11::arg(""f""), pybind11::arg(""d""));
		cl.def_static(""foo_static"", []() -> double { return B::foo_static(); }, """");
		cl.def_static(""foo_static"", [](int const & a0) -> double { return B::foo_static(a0); }, """", pybind11::arg(""i""));
		cl.def_static(""foo_static"", [](int const & a0, float const & a1) -> double { return B::foo_static(a0, a1); }, """", pybind11::arg(""i""), pybind11::arg(""f""));
		cl.def_static(""foo_static"", (double (*)(int, float, double)) &B::foo_static, ""C++: B::foo_static(int, float, double) --> double"", pybind11::arg(""i""), pybind11::arg(""f""), pybind11::arg(""d""));
	}
	// foo_f0(void (void), int, float) file:T05.default.hpp line:
	M("""").def(""foo_f0"", (void (*)(void (void), int, float)) &foo_f0, ""C++: foo_f0(void (void), int, float) --> void"", pybind11::arg(""f""), pybind11::arg(""a""), pybind11::arg(""b""));

	// foo_f1(void (&)(void), int, float) file:T05.default.hpp line:
	M("""").def(""foo_f1"", (void (*)(void (&)(void), int, float)) &foo_f1, ""C++: foo_f1(void (&)(void), int, float) --> void"", pybind11::arg(""f""), pybind11::arg(""a""), pybind11::arg(""b""));

}


#include <map>
#include <algorithm>
#include <functional>
#include <memory>
#include <stdexcept>
#include <string>

#include <pybind11/pybind11.h>

typedef std::function< pybind11::module & (std::string const &) > ModuleGetter;

void bind_T05_default(std::function< pybind11::module &(std::string const &namespace_) > &M);


PYBIND11_MODULE(T05_default, root_module) {
	root_module.doc() = ""T05_default module"";

	std::map <std::string, pybind11::module> modules;
	ModuleGetter M = [&](std::string const &namespace_) -> pybind11::module & {
		auto it = modules.find(namespace_);
		if( it == modules.end() ) throw std::runtime_error(""Attempt to access pybind11::module for namespace "" + namespace_ + "" before it was created!!!"");
		return it->second;
	};

	modules[""""] = root_module;

	static std::vector<std::string> const reserved_python_words {""nonlocal"", ""global"", };

	auto mangle_namespace_name(
		[](std::string const &ns) -> std::string {
			if ( std::find(reserved_python_words.begin(), reserved_python_words.end(), ns) == reserved_python_words.end() ) return ns;
			else return ns+'_';
		}
	);

	std::vector< std::pair<std::string, std::string> > sub_modules {
	};
	for(auto &p : sub_modules ) modules[p.first.size() ? p.first+""::""+p.second : p.second] = modules[p.first].def_submodule( mangle_namespace_name(p.second).c_str(), (""Bindings for "" + p.first + ""::"" + p.second + "" namespace"").c_str() );

	//pybind11::class_<std::shared_ptr<void>>(M(""""), ""_encapsulated_data_"");

	bind_T05_default(M);

}

// Source list file: TEST/T05_default.sources
// T05_default.cpp
// T05_default.cpp

// Modules list file: TEST/T05_default.modules
// 
".
Example t05 : writes t05_w t05_visits = updated t05_ref.
Proof. vm_compute. reflexivity. Qed.

(** /repo/test/T08.constructor.hpp and T08.constructor.ref.cpp *)
Definition t08_name (r : nat) : str :=
  nth r [$"BaseA"; $"DerivedA"; $"BaseB"; $"DerivedB"; $"BaseC"; $"DerivedC"; $"BaseD"; $"DerivedD"] [].
Definition t08_n (r : nat) : named := nm (t08_name r) (t08_name r) $"<T08.constructor.hpp>".
Definition t08_ctor (r : nat) (a : access) (ps : list param) (deleted : bool) : fn :=
  ctor_of (member_of r a (nm (t08_name r) (t08_name r ++ $"::" ++ t08_name r) $"<T08.constructor.hpp>")) ps
          (mkctor (match ps with [] => true | _ => false end) None false) deleted.
Definition t08_fns : list fn := [
  t08_ctor 2 Public [arg int] false;
  t08_ctor 4 Public [arg int] false; t08_ctor 4 Private [] false;
  t08_ctor 6 Public [] true; t08_ctor 6 Public [arg int] false].
Definition t08_below (b : nat) : list base := [mkbase Public false (TRec false b [])].
Definition t08_rs : list record := [
  cls (t08_n 0) 0 [] []; cls (t08_n 1) 1 (t08_below 0) [];
  default_ctor false false (cls (t08_n 2) 2 [] [MMethod 0]); cls (t08_n 3) 3 (t08_below 2) [];
  default_ctor true false (cls (t08_n 4) 4 [] [MMethod 1; MMethod 2]); cls (t08_n 5) 5 (t08_below 4) [];
  default_ctor true false (cls (t08_n 6) 6 [] [MMethod 3; MMethod 4]); cls (t08_n 7) 7 (t08_below 6) []].
Definition t08_w : world :=
  mkworld (unit_ t08_rs t08_fns [] (fun r => $"class " ++ t08_name r) (fun _ => [])) everything (test_options $"T08_constructor").
Definition t08_visits : list decl := map DRec [0; 1; 2; 3; 4; 5; 6; 7].
Definition t08_ref : str := $"// File: T08_constructor.cpp
#include <T08.constructor.hpp> // BaseA
#include <T08.constructor.hpp> // BaseB
#include <T08.constructor.hpp> // BaseC
#include <T08.constructor.hpp> // BaseD
#include <T08.constructor.hpp> // DerivedA
#include <T08.constructor.hpp> // DerivedB
#include <T08.constructor.hpp> // DerivedC
#include <T08.constructor.hpp> // DerivedD
#include <sstream> // __str__

#include <functional>
#include <pybind11/pybind11.h>
#include <string>

#ifndef BINDER_PYBIND11_TYPE_CASTER
	#define BINDER_PYBIND11_TYPE_CASTER
	PYBIND11_DECLARE_HOLDER_TYPE(T, std::shared_ptr<T>)
	PYBIND11_DECLARE_HOLDER_TYPE(T, T*)
	PYBIND11_MAKE_OPAQUE(std::shared_ptr<void>)
#endif

void bind_T08_constructor(std::function< pybind11::module &(std::string const &namespace_) > &M)
{
	{ // BaseA file:T08.constructor.hpp line:
		pybind11::class_<BaseA, std::shared_ptr<BaseA>> cl(M(""""), ""BaseA"", """");
		cl.def( pybind11::init( [](){ return new BaseA(); } ) );
	}
	{ // DerivedA file:T08.constructor.hpp line:
		pybind11::class_<DerivedA, std::shared_ptr<DerivedA>, BaseA> cl(M(""""), ""DerivedA"", """");
		cl.def( pybind11::init( [](){ return new DerivedA(); } ) );
	}
	{ // BaseB file:T08.constructor.hpp line:
		pybind11::class_<BaseB, std::shared_ptr<BaseB>> cl(M(""""), ""BaseB"", """");
		cl.def( pybind11::init<int>(), pybind11::arg("""") );

	}
	{ // DerivedB file:T08.constructor.hpp line:
		pybind11::class_<DerivedB, std::shared_ptr<DerivedB>, BaseB> cl(M(""""), ""DerivedB"", """");
	}
	{ // BaseC file:T08.constructor.hpp line:
		pybind11::class_<BaseC, std::shared_ptr<BaseC>> cl(M(""""), ""BaseC"", """");
		cl.def( pybind11::init<int>(), pybind11::arg("""") );

	}
	{ // DerivedC file:T08.constructor.hpp line:
		pybind11::class_<DerivedC, std::shared_ptr<DerivedC>, BaseC> cl(M(""""), ""DerivedC"", """");
	}
	{ // BaseD file:T08.constructor.hpp line:
		pybind11::class_<BaseD, std::shared_ptr<BaseD>> cl(M(""""), ""BaseD"", """");
		cl.def( pybind11::init<int>(), pybind11::arg("""") );

	}
	{ // DerivedD file:T08.constructor.hpp line:
		pybind11::class_<DerivedD, std::shared_ptr<DerivedD>, BaseD> cl(M(""""), ""DerivedD"", """");
	}
}


#include <map>
#include <algorithm>
#include <functional>
#include <memory>
#include <stdexcept>
#include <string>

#include <pybind11/pybind11.h>

typedef std::function< pybind11::module & (std::string const &) > ModuleGetter;

void bind_T08_constructor(std::function< pybind11::module &(std::string const &namespace_) > &M);


PYBIND11_MODULE(T08_constructor, root_module) {
	root_module.doc() = ""T08_constructor module"";

	std::map <std::string, pybind11::module> modules;
	ModuleGetter M = [&](std::string const &namespace_) -> pybind11::module & {
		auto it = modules.find(namespace_);
		if( it == modules.end() ) throw std::runtime_error(""Attempt to access pybind11::module for namespace "" + namespace_ + "" before it was created!!!"");
		return it->second;
	};

	modules[""""] = root_module;

	static std::vector<std::string> const reserved_python_words {""nonlocal"", ""global"", };

	auto mangle_namespace_name(
		[](std::string const &ns) -> std::string {
			if ( std::find(reserved_python_words.begin(), reserved_python_words.end(), ns) == reserved_python_words.end() ) return ns;
			else return ns+'_';
		}
	);

	std::vector< std::pair<std::string, std::string> > sub_modules {
	};
	for(auto &p : sub_modules ) modules[p.first.size() ? p.first+""::""+p.second : p.second] = modules[p.first].def_submodule( mangle_namespace_name(p.second).c_str(), (""Bindings for "" + p.first + ""::"" + p.second + "" namespace"").c_str() );

	//pybind11::class_<std::shared_ptr<void>>(M(""""), ""_encapsulated_data_"");

	bind_T08_constructor(M);

}

// Source list file: TEST/T08_constructor.sources
// T08_constructor.cpp
// T08_constructor.cpp

// Modules list file: TEST/T08_constructor.modules
// 
".
Example t08 : writes t08_w t08_visits = updated t08_ref.
Proof. vm_compute. reflexivity. Qed.

(** /repo/test/T09.overload.hpp and T09.overload.ref.cpp *)
Definition t09_name (r : nat) : str := nth r [$"A1"; $"A2"; $"A3"; $"A4"] [].
Definition t09_mem (r : nat) (n : str) : named := member_of r Public (nm n (t09_name r ++ $"::" ++ n) $"<T09.overload.hpp>").
Definition t09_ctor (r : nat) : fn := ctor_of (t09_mem r (t09_name r)) [mkparam $"a" int true] (mkctor true None false) false.
Definition t09_fns : list fn := [
  t09_ctor 0; t09_ctor 1; t09_ctor 2; t09_ctor 3;
  meth (t09_mem 1 $"f") void [] false false true false;
  meth (t09_mem 2 $"f") void [] false false true true;
  operator_of (meth (t09_mem 3 $"operator=") int [arg int] false false true true);
  assign_of (t09_mem 1 $"operator=") 1; assign_of (t09_mem 2 $"operator=") 2; assign_of (t09_mem 3 $"operator=") 3].
Definition t09_r (r : nat) (ms : list member) : record :=
  struct_of (default_ctor true false (cls (nm (t09_name r) (t09_name r) $"<T09.overload.hpp>") r [] ms)).
Definition t09_rs : list record := [
  t09_r 0 [MMethod 0]; t09_r 1 [MMethod 1; MMethod 4; MMethod 7];
  abstract_of (t09_r 2 [MMethod 2; MMethod 5; MMethod 8]); abstract_of (t09_r 3 [MMethod 3; MMethod 6; MMethod 9])].
Definition t09_w : world :=
  mkworld (unit_ t09_rs t09_fns [] (fun r => $"struct " ++ t09_name r) (fun _ => [])) everything (test_options $"T09_overload").
Definition t09_visits : list decl := map DRec [0; 1; 2; 3].
Definition t09_ref : str := $"// File: T09_overload.cpp
#include <T09.overload.hpp> // A1
#include <T09.overload.hpp> // A2
#include <T09.overload.hpp> // A3
#include <T09.overload.hpp> // A4
#include <sstream> // __str__

#include <functional>
#include <pybind11/pybind11.h>
#include <string>

#ifndef BINDER_PYBIND11_TYPE_CASTER
	#define BINDER_PYBIND11_TYPE_CASTER
	PYBIND11_DECLARE_HOLDER_TYPE(T, std::shared_ptr<T>)
	PYBIND11_DECLARE_HOLDER_TYPE(T, T*)
	PYBIND11_MAKE_OPAQUE(std::shared_ptr<void>)
#endif

// A2 file:T09.overload.hpp line:
struct PyCallBack_A2 : public A2 {
	using A2::A2;

	void f() override {
		pybind11::gil_scoped_acquire gil;
		pybind11::function overload = pybind11::get_overload(static_cast<const A2 *>(this), ""f"");
		if (overload) {
			auto o = overload.operator()<pybind11::return_value_policy::reference>();
			if (pybind11::detail::cast_is_temporary_value_reference<void>::value) {
				static pybind11::detail::override_caster_t<void> caster;
				return pybind11::detail::cast_ref<void>(std::move(o), caster);
			}
			else return pybind11::detail::cast_safe<void>(std::move(o));
		}
		return A2::f();
	}
};

// A3 file:T09.overload.hpp line:
struct PyCallBack_A3 : public A3 {
	using A3::A3;

	void f() override {
		pybind11::gil_scoped_acquire gil;
		pybind11::function overload = pybind11::get_overload(static_cast<const A3 *>(this), ""f"");
		if (overload) {
			auto o = overload.operator()<pybind11::return_value_policy::reference>();
			if (pybind11::detail::cast_is_temporary_value_reference<void>::value) {
				static pybind11::detail::override_caster_t<void> caster;
				return pybind11::detail::cast_ref<void>(std::move(o), caster);
			}
			else return pybind11::detail::cast_safe<void>(std::move(o));
		}
		pybind11::pybind11_fail(""Tried to call pure virtual function \""A3::f\"""");
	}
};

// A4 file:T09.overload.hpp line:
struct PyCallBack_A4 : public A4 {
	using A4::A4;

	int operator=(int a0) override {
		pybind11::gil_scoped_acquire gil;
		pybind11::function overload = pybind11::get_overload(static_cast<const A4 *>(this), ""assign"");
		if (overload) {
			auto o = overload.operator()<pybind11::return_value_policy::reference>(a0);
			if (pybind11::detail::cast_is_temporary_value_reference<int>::value) {
				static pybind11::detail::override_caster_t<int> caster;
				return pybind11::detail::cast_ref<int>(std::move(o), caster);
			}
			else return pybind11::detail::cast_safe<int>(std::move(o));
		}
		pybind11::pybind11_fail(""Tried to call pure virtual function \""A4::assign\"""");
	}
};

void bind_T09_overload(std::function< pybind11::module &(std::string const &namespace_) > &M)
{
	{ // A1 file:T09.overload.hpp line:
		pybind11::class_<A1, std::shared_ptr<A1>> cl(M(""""), ""A1"", """");
		cl.def( pybind11::init( [](){ return new A1(); } ), ""doc"" );
		cl.def( pybind11::init<int>(), pybind11::arg(""a"") );

	}
	{ // A2 file:T09.overload.hpp line:
		pybind11::class_<A2, std::shared_ptr<A2>, PyCallBack_A2> cl(M(""""), ""A2"", """");
		cl.def( pybind11::init( [](){ return new A2(); }, [](){ return new PyCallBack_A2(); } ), ""doc"");
		cl.def( pybind11::init<int>(), pybind11::arg(""a"") );

		cl.def(""f"", (void (A2::*)()) &A2::f, ""C++: A2::f() --> void"");
		cl.def(""assign"", (struct A2 & (A2::*)(const struct A2 &)) &A2::operator=, ""C++: A2::operator=(const struct A2 &) --> struct A2 &"", pybind11::return_value_policy::automatic, pybind11::arg(""""));
	}
	{ // A3 file:T09.overload.hpp line:
		pybind11::class_<A3, std::shared_ptr<A3>, PyCallBack_A3> cl(M(""""), ""A3"", """");
		cl.def( pybind11::init( [](){ return new PyCallBack_A3(); } ), ""doc"");
		cl.def( pybind11::init<int>(), pybind11::arg(""a"") );

		cl.def(""f"", (void (A3::*)()) &A3::f, ""C++: A3::f() --> void"");
		cl.def(""assign"", (struct A3 & (A3::*)(const struct A3 &)) &A3::operator=, ""C++: A3::operator=(const struct A3 &) --> struct A3 &"", pybind11::return_value_policy::automatic, pybind11::arg(""""));
	}
	{ // A4 file:T09.overload.hpp line:
		pybind11::class_<A4, std::shared_ptr<A4>, PyCallBack_A4> cl(M(""""), ""A4"", """");
		cl.def( pybind11::init( [](){ return new PyCallBack_A4(); } ), ""doc"");
		cl.def( pybind11::init<int>(), pybind11::arg(""a"") );

		cl.def(""assign"", (int (A4::*)(int)) &A4::operator=, ""C++: A4::operator=(int) --> int"", pybind11::arg(""""));
		cl.def(""assign"", (struct A4 & (A4::*)(const struct A4 &)) &A4::operator=, ""C++: A4::operator=(const struct A4 &) --> struct A4 &"", pybind11::return_value_policy::automatic, pybind11::arg(""""));
	}
}


#include <map>
#include <algorithm>
#include <functional>
#include <memory>
#include <stdexcept>
#include <string>

#include <pybind11/pybind11.h>

typedef std::function< pybind11::module & (std::string const &) > ModuleGetter;

void bind_T09_overload(std::function< pybind11::module &(std::string const &namespace_) > &M);


PYBIND11_MODULE(T09_overload, root_module) {
	root_module.doc() = ""T09_overload module"";

	std::map <std::string, pybind11::module> modules;
	ModuleGetter M = [&](std::string const &namespace_) -> pybind11::module & {
		auto it = modules.find(namespace_);
		if( it == modules.end() ) throw std::runtime_error(""Attempt to access pybind11::module for namespace "" + namespace_ + "" before it was created!!!"");
		return it->second;
	};

	modules[""""] = root_module;

	static std::vector<std::string> const reserved_python_words {""nonlocal"", ""global"", };

	auto mangle_namespace_name(
		[](std::string const &ns) -> std::string {
			if ( std::find(reserved_python_words.begin(), reserved_python_words.end(), ns) == reserved_python_words.end() ) return ns;
			else return ns+'_';
		}
	);

	std::vector< std::pair<std::string, std::string> > sub_modules {
	};
	for(auto &p : sub_modules ) modules[p.first.size() ? p.first+""::""+p.second : p.second] = modules[p.first].def_submodule( mangle_namespace_name(p.second).c_str(), (""Bindings for "" + p.first + ""::"" + p.second + "" namespace"").c_str() );

	//pybind11::class_<std::shared_ptr<void>>(M(""""), ""_encapsulated_data_"");

	bind_T09_overload(M);

}

// Source list file: TEST/T09_overload.sources
// T09_overload.cpp
// T09_overload.cpp

// Modules list file: TEST/T09_overload.modules
// 
".
Example t09 : writes t09_w t09_visits = updated t09_ref.
Proof. vm_compute. reflexivity. Qed.

(** /repo/test/T12.operator.hpp and T12.operator.ref.cpp *)
Definition t12_op (ret : qty) (ps : list param) (sign : str) : fn :=
  operator_of (meth (member_of 0 Public (nm ($"operator" ++ sign) ($"T::operator" ++ sign) $"<T12.operator.hpp>")) ret ps false false false false).
Definition t12_t : qty := TLRef (TRec false 0 []).
Definition t12_fns : list fn :=
  map (t12_op t12_t []) [$"~"; $"+"; $"-"; $"*"] ++
  map (t12_op t12_t [arg int]) [$"+"; $"-"; $"*"; $"/"; $"%"; $"|"; $"&"; $"^"; $"<<"; $">>"] ++
  map (t12_op void [arg int]) [$"+="; $"-="; $"*="; $"/="; $"%="; $"|="; $"&="; $"^="; $"<<="; $">>="; $"()"] ++
  map (t12_op bool_ [arg (TLRef (TRec true 0 []))]) [$"=="; $"!="] ++
  [t12_op bool_ [arg int] $"[]"; assign_of (member_of 0 Public (nm $"operator=" $"T::operator=" $"<T12.operator.hpp>")) 0] ++
  map (t12_op t12_t []) [$"++"; $"--"] ++ map (t12_op t12_t [arg int]) [$"++"; $"--"].
Definition t12_w : world :=
  mkworld (unit_ [struct_of (cls (nm $"T" $"T" $"<T12.operator.hpp>") 0 [] (map MMethod (seq 0 (length t12_fns))))] t12_fns []
                 (fun _ => $"struct T") (fun _ => [])) everything (test_options $"T12_operator").
Definition t12_visits : list decl := [DRec 0].
Definition t12_ref : str := $"// File: T12_operator.cpp
#include <T12.operator.hpp> // T
#include <sstream> // __str__

#include <functional>
#include <pybind11/pybind11.h>
#include <string>

#ifndef BINDER_PYBIND11_TYPE_CASTER
	#define BINDER_PYBIND11_TYPE_CASTER
	PYBIND11_DECLARE_HOLDER_TYPE(T, std::shared_ptr<T>)
	PYBIND11_DECLARE_HOLDER_TYPE(T, T*)
	PYBIND11_MAKE_OPAQUE(std::shared_ptr<void>)
#endif

void bind_T12_operator(std::function< pybind11::module &(std::string const &namespace_) > &M)
{
	{ // T file:T12.operator.hpp line:
		pybind11::class_<T, std::shared_ptr<T>> cl(M(""""), ""T"", """");
		cl.def( pybind11::init( [](){ return new T(); } ) );
		cl.def(""__invert__"", (struct T & (T::*)()) &T::operator~, ""C++: T::operator~() --> struct T &"", pybind11::return_value_policy::automatic);
		cl.def(""__pos__"", (struct T & (T::*)()) &T::operator+, ""C++: T::operator+() --> struct T &"", pybind11::return_value_policy::automatic);
		cl.def(""__neg__"", (struct T & (T::*)()) &T::operator-, ""C++: T::operator-() --> struct T &"", pybind11::return_value_policy::automatic);
		cl.def(""dereference"", (struct T & (T::*)()) &T::operator*, ""C++: T::operator*() --> struct T &"", pybind11::return_value_policy::automatic);
		cl.def(""__add__"", (struct T & (T::*)(int)) &T::operator+, ""C++: T::operator+(int) --> struct T &"", pybind11::return_value_policy::automatic, pybind11::arg(""""));
		cl.def(""__sub__"", (struct T & (T::*)(int)) &T::operator-, ""C++: T::operator-(int) --> struct T &"", pybind11::return_value_policy::automatic, pybind11::arg(""""));
		cl.def(""__mul__"", (struct T & (T::*)(int)) &T::operator*, ""C++: T::operator*(int) --> struct T &"", pybind11::return_value_policy::automatic, pybind11::arg(""""));
		cl.def(""__truediv__"", (struct T & (T::*)(int)) &T::operator/, ""C++: T::operator/(int) --> struct T &"", pybind11::return_value_policy::automatic, pybind11::arg(""""));
		cl.def(""__mod__"", (struct T & (T::*)(int)) &T::operator%, ""C++: T::operator%(int) --> struct T &"", pybind11::return_value_policy::automatic, pybind11::arg(""""));
		cl.def(""__or__"", (struct T & (T::*)(int)) &T::operator|, ""C++: T::operator|(int) --> struct T &"", pybind11::return_value_policy::automatic, pybind11::arg(""""));
		cl.def(""__and__"", (struct T & (T::*)(int)) &T::operator&, ""C++: T::operator&(int) --> struct T &"", pybind11::return_value_policy::automatic, pybind11::arg(""""));
		cl.def(""__xor__"", (struct T & (T::*)(int)) &T::operator^, ""C++: T::operator^(int) --> struct T &"", pybind11::return_value_policy::automatic, pybind11::arg(""""));
		cl.def(""__lshift__"", (struct T & (T::*)(int)) &T::operator<<, ""C++: T::operator<<(int) --> struct T &"", pybind11::return_value_policy::automatic, pybind11::arg(""""));
		cl.def(""__rshift__"", (struct T & (T::*)(int)) &T::operator>>, ""C++: T::operator>>(int) --> struct T &"", pybind11::return_value_policy::automatic, pybind11::arg(""""));
		cl.def(""__iadd__"", (void (T::*)(int)) &T::operator+=, ""C++: T::operator+=(int) --> void"", pybind11::arg(""""));
		cl.def(""__isub__"", (void (T::*)(int)) &T::operator-=, ""C++: T::operator-=(int) --> void"", pybind11::arg(""""));
		cl.def(""__imul__"", (void (T::*)(int)) &T::operator*=, ""C++: T::operator*=(int) --> void"", pybind11::arg(""""));
		cl.def(""__itruediv__"", (void (T::*)(int)) &T::operator/=, ""C++: T::operator/=(int) --> void"", pybind11::arg(""""));
		cl.def(""__imod__"", (void (T::*)(int)) &T::operator%=, ""C++: T::operator%=(int) --> void"", pybind11::arg(""""));
		cl.def(""__ior__"", (void (T::*)(int)) &T::operator|=, ""C++: T::operator|=(int) --> void"", pybind11::arg(""""));
		cl.def(""__iand__"", (void (T::*)(int)) &T::operator&=, ""C++: T::operator&=(int) --> void"", pybind11::arg(""""));
		cl.def(""__ixor__"", (void (T::*)(int)) &T::operator^=, ""C++: T::operator^=(int) --> void"", pybind11::arg(""""));
		cl.def(""__ilshift__"", (void (T::*)(int)) &T::operator<<=, ""C++: T::operator<<=(int) --> void"", pybind11::arg(""""));
		cl.def(""__irshift__"", (void (T::*)(int)) &T::operator>>=, ""C++: T::operator>>=(int) --> void"", pybind11::arg(""""));
		cl.def(""__call__"", (void (T::*)(int)) &T::operator(), ""C++: T::operator()(int) --> void"", pybind11::arg(""""));
		cl.def(""__eq__"", (bool (T::*)(const struct T &)) &T::operator==, ""C++: T::operator==(const struct T &) --> bool"", pybind11::arg(""""));
		cl.def(""__ne__"", (bool (T::*)(const struct T &)) &T::operator!=, ""C++: T::operator!=(const struct T &) --> bool"", pybind11::arg(""""));
		cl.def(""__getitem__"", (bool (T::*)(int)) &T::operator[], ""C++: T::operator[](int) --> bool"", pybind11::arg(""""));
		cl.def(""assign"", (struct T & (T::*)(const struct T &)) &T::operator=, ""C++: T::operator=(const struct T &) --> struct T &"", pybind11::return_value_policy::automatic, pybind11::arg(""""));
		cl.def(""pre_increment"", (struct T & (T::*)()) &T::operator++, ""C++: T::operator++() --> struct T &"", pybind11::return_value_policy::automatic);
		cl.def(""pre_decrement"", (struct T & (T::*)()) &T::operator--, ""C++: T::operator--() --> struct T &"", pybind11::return_value_policy::automatic);
		cl.def(""post_increment"", (struct T & (T::*)(int)) &T::operator++, ""C++: T::operator++(int) --> struct T &"", pybind11::return_value_policy::automatic, pybind11::arg(""""));
		cl.def(""post_decrement"", (struct T & (T::*)(int)) &T::operator--, ""C++: T::operator--(int) --> struct T &"", pybind11::return_value_policy::automatic, pybind11::arg(""""));
	}
}


#include <map>
#include <algorithm>
#include <functional>
#include <memory>
#include <stdexcept>
#include <string>

#include <pybind11/pybind11.h>

typedef std::function< pybind11::module & (std::string const &) > ModuleGetter;

void bind_T12_operator(std::function< pybind11::module &(std::string const &namespace_) > &M);


PYBIND11_MODULE(T12_operator, root_module) {
	root_module.doc() = ""T12_operator module"";

	std::map <std::string, pybind11::module> modules;
	ModuleGetter M = [&](std::string const &namespace_) -> pybind11::module & {
		auto it = modules.find(namespace_);
		if( it == modules.end() ) throw std::runtime_error(""Attempt to access pybind11::module for namespace "" + namespace_ + "" before it was created!!!"");
		return it->second;
	};

	modules[""""] = root_module;

	static std::vector<std::string> const reserved_python_words {""nonlocal"", ""global"", };

	auto mangle_namespace_name(
		[](std::string const &ns) -> std::string {
			if ( std::find(reserved_python_words.begin(), reserved_python_words.end(), ns) == reserved_python_words.end() ) return ns;
			else return ns+'_';
		}
	);

	std::vector< std::pair<std::string, std::string> > sub_modules {
	};
	for(auto &p : sub_modules ) modules[p.first.size() ? p.first+""::""+p.second : p.second] = modules[p.first].def_submodule( mangle_namespace_name(p.second).c_str(), (""Bindings for "" + p.first + ""::"" + p.second + "" namespace"").c_str() );

	//pybind11::class_<std::shared_ptr<void>>(M(""""), ""_encapsulated_data_"");

	bind_T12_operator(M);

}

// Source list file: TEST/T12_operator.sources
// T12_operator.cpp
// T12_operator.cpp

// Modules list file: TEST/T12_operator.modules
// 
".
Example t12 : writes t12_w t12_visits = updated t12_ref.
Proof. vm_compute. reflexivity. Qed.

(** /repo/test/T15.inner_class.hpp and T15.inner_class.ref.cpp *)
Definition t15_inc : str := $"<T15.inner_class.hpp>".
Definition t15_mem (p : nat) (name qname : str) : named := member_of p Public (nm name qname t15_inc).
Definition t15_int : list targ := [Targ (KType int) $"int"].
Definition t15_float : list targ := [Targ (KType float_) $"float"].
Definition t15_field (p : nat) (n q : str) (t : qty) : member := MField (mkfield (t15_mem p n (q ++ $"::" ++ n)) t false).
(** classes: Base 0, the anonymous structure 1, InnerBase 2, InnerTemplate<int> 3, InnerTemplate<float> 4, n1::A 5, n1::n2::A 6;
    then the injected class names of the classes 0, 2, 3 and 4.  clang lists the injected class name of a class among its
    declarations: a public class that is no definition. *)
Definition t15_injected (p : nat) (name qname : str) : record :=
  mkrecord (t15_mem p name (qname ++ $"::" ++ name)) None true false false false false None true false true false false false
           false false None [] [].
Definition t15_fns : list fn := [
  meth (t15_mem 0 $"foo" $"Base::foo") void [] false false true false;
  meth (t15_mem 2 $"foo_i" $"Base::InnerBase::foo_i") void [] false false false false;
  assign_of (t15_mem 0 $"operator=" $"Base::operator=") 0;
  assign_of (t15_mem 5 $"operator=" $"n1::A::operator=") 5;
  assign_of (t15_mem 6 $"operator=" $"n1::n2::A::operator=") 6;
  fn0 (nm $"instantiate_templates" $"instantiate_templates" t15_inc) void [arg (TRec false 3 t15_int); arg (TRec false 4 t15_float)]].
Definition t15_rs : list record := [
  struct_of (cls (nm $"Base" $"Base" t15_inc) 0 []
    [MRec 7; MMethod 0; MRec 1; MRec 2; MClassTemplate Public [3; 4]; MMethod 2]);
  anonymous_of (struct_of (cls (t15_mem 0 [] $"Base::(anonymous)") 1 [] [t15_field 1 $"a" $"Base" int; t15_field 1 $"b" $"Base" float_]));
  struct_of (cls (t15_mem 0 $"InnerBase" $"Base::InnerBase") 2 []
    [MRec 8; t15_field 2 $"ia" $"Base::InnerBase" int; t15_field 2 $"ib" $"Base::InnerBase" float_; MMethod 1]);
  struct_of (special_of t15_int (cls (t15_mem 0 $"InnerTemplate" $"Base::InnerTemplate") 3 [] [MRec 9; t15_field 3 $"value" $"Base::InnerTemplate" int]));
  struct_of (special_of t15_float (cls (t15_mem 0 $"InnerTemplate" $"Base::InnerTemplate") 4 [] [MRec 10; t15_field 4 $"value" $"Base::InnerTemplate" float_]));
  struct_of (cls (nm $"A" $"n1::A" t15_inc) 5 [mkbase Public false (TRec false 0 [])] [MMethod 3]);
  struct_of (cls (nm $"A" $"n1::n2::A" t15_inc) 6 [mkbase Public false (TRec false 5 [])] [MMethod 4]);
  t15_injected 0 $"Base" $"Base"; t15_injected 2 $"InnerBase" $"Base::InnerBase";
  t15_injected 3 $"InnerTemplate" $"Base::InnerTemplate"; t15_injected 4 $"InnerTemplate" $"Base::InnerTemplate"].
Definition t15_name (r : nat) : str :=
  nth r [$"struct Base"; $"struct Base::(anonymous)"; $"struct Base::InnerBase"; $"struct Base::InnerTemplate<int>";
         $"struct Base::InnerTemplate<float>"; $"struct n1::A"; $"struct n1::n2::A"] [].
Definition t15_w : world :=
  mkworld (unit_ t15_rs t15_fns [] t15_name (fun _ => [])) everything (test_options $"T15_inner_class").
Definition t15_visits : list decl := [DRec 0; DRec 1; DRec 2; DRec 3; DRec 4; DRec 5; DRec 6; DFun 5].
Definition t15_ref : str := $"// File: T15_inner_class.cpp
#include <T15.inner_class.hpp> // Base
#include <T15.inner_class.hpp> // Base::InnerBase
#include <T15.inner_class.hpp> // Base::InnerTemplate
#include <sstream> // __str__

#include <functional>
#include <pybind11/pybind11.h>
#include <string>

#ifndef BINDER_PYBIND11_TYPE_CASTER
	#define BINDER_PYBIND11_TYPE_CASTER
	PYBIND11_DECLARE_HOLDER_TYPE(T, std::shared_ptr<T>)
	PYBIND11_DECLARE_HOLDER_TYPE(T, T*)
	PYBIND11_MAKE_OPAQUE(std::shared_ptr<void>)
#endif

// Base file:T15.inner_class.hpp line:
struct PyCallBack_Base : public Base {
	using Base::Base;

	void foo() override {
		pybind11::gil_scoped_acquire gil;
		pybind11::function overload = pybind11::get_overload(static_cast<const Base *>(this), ""foo"");
		if (overload) {
			auto o = overload.operator()<pybind11::return_value_policy::reference>();
			if (pybind11::detail::cast_is_temporary_value_reference<void>::value) {
				static pybind11::detail::override_caster_t<void> caster;
				return pybind11::detail::cast_ref<void>(std::move(o), caster);
			}
			else return pybind11::detail::cast_safe<void>(std::move(o));
		}
		return Base::foo();
	}
};

void bind_T15_inner_class(std::function< pybind11::module &(std::string const &namespace_) > &M)
{
	{ // Base file:T15.inner_class.hpp line:
		pybind11::class_<Base, std::shared_ptr<Base>, PyCallBack_Base> cl(M(""""), ""Base"", """");
		cl.def( pybind11::init( [](){ return new Base(); }, [](){ return new PyCallBack_Base(); } ) );
		cl.def(""foo"", (void (Base::*)()) &Base::foo, ""C++: Base::foo() --> void"");
		cl.def(""assign"", (struct Base & (Base::*)(const struct Base &)) &Base::operator=, ""C++: Base::operator=(const struct Base &) --> struct Base &"", pybind11::return_value_policy::automatic, pybind11::arg(""""));

		{ // Base::(anonymous) file:T15.inner_class.hpp line:
			cl.def_readwrite(""a"", &Base::a);
			cl.def_readwrite(""b"", &Base::b);
		}

		{ // Base::InnerBase file:T15.inner_class.hpp line:
			auto & enclosing_class = cl;
			pybind11::class_<Base::InnerBase, std::shared_ptr<Base::InnerBase>> cl(enclosing_class, ""InnerBase"", """");
			cl.def( pybind11::init( [](){ return new Base::InnerBase(); } ) );
			cl.def_readwrite(""ia"", &Base::InnerBase::ia);
			cl.def_readwrite(""ib"", &Base::InnerBase::ib);
			cl.def(""foo_i"", (void (Base::InnerBase::*)()) &Base::InnerBase::foo_i, ""C++: Base::InnerBase::foo_i() --> void"");
		}

		{ // Base::InnerTemplate file:T15.inner_class.hpp line:
			auto & enclosing_class = cl;
			pybind11::class_<Base::InnerTemplate<int>, std::shared_ptr<Base::InnerTemplate<int>>> cl(enclosing_class, ""InnerTemplate_int_t"", """");
			cl.def( pybind11::init( [](){ return new Base::InnerTemplate<int>(); } ) );
			cl.def_readwrite(""value"", &Base::InnerTemplate<int>::value);
		}

		{ // Base::InnerTemplate file:T15.inner_class.hpp line:
			auto & enclosing_class = cl;
			pybind11::class_<Base::InnerTemplate<float>, std::shared_ptr<Base::InnerTemplate<float>>> cl(enclosing_class, ""InnerTemplate_float_t"", """");
			cl.def( pybind11::init( [](){ return new Base::InnerTemplate<float>(); } ) );
			cl.def_readwrite(""value"", &Base::InnerTemplate<float>::value);
		}

	}
}


// File: T15_inner_class_1.cpp
#include <T15.inner_class.hpp> // Base
#include <T15.inner_class.hpp> // n1::A
#include <sstream> // __str__

#include <functional>
#include <pybind11/pybind11.h>
#include <string>

#ifndef BINDER_PYBIND11_TYPE_CASTER
	#define BINDER_PYBIND11_TYPE_CASTER
	PYBIND11_DECLARE_HOLDER_TYPE(T, std::shared_ptr<T>)
	PYBIND11_DECLARE_HOLDER_TYPE(T, T*)
	PYBIND11_MAKE_OPAQUE(std::shared_ptr<void>)
#endif

// n1::A file:T15.inner_class.hpp line:
struct PyCallBack_n1_A : public n1::A {
	using n1::A::A;

	void foo() override {
		pybind11::gil_scoped_acquire gil;
		pybind11::function overload = pybind11::get_overload(static_cast<const n1::A *>(this), ""foo"");
		if (overload) {
			auto o = overload.operator()<pybind11::return_value_policy::reference>();
			if (pybind11::detail::cast_is_temporary_value_reference<void>::value) {
				static pybind11::detail::override_caster_t<void> caster;
				return pybind11::detail::cast_ref<void>(std::move(o), caster);
			}
			else return pybind11::detail::cast_safe<void>(std::move(o));
		}
		return Base::foo();
	}
};

void bind_T15_inner_class_1(std::function< pybind11::module &(std::string const &namespace_) > &M)
{
	{ // n1::A file:T15.inner_class.hpp line:
		pybind11::class_<n1::A, std::shared_ptr<n1::A>, PyCallBack_n1_A, Base> cl(M(""n1""), ""A"", """");
		cl.def( pybind11::init( [](){ return new n1::A(); }, [](){ return new PyCallBack_n1_A(); } ) );
		cl.def(""assign"", (struct n1::A & (n1::A::*)(const struct n1::A &)) &n1::A::operator=, ""C++: n1::A::operator=(const struct n1::A &) --> struct n1::A &"", pybind11::return_value_policy::automatic, pybind11::arg(""""));
	}
}


// File: T15_inner_class_2.cpp
#include <T15.inner_class.hpp> // Base
#include <T15.inner_class.hpp> // n1::n2::A
#include <sstream> // __str__

#include <functional>
#include <pybind11/pybind11.h>
#include <string>

#ifndef BINDER_PYBIND11_TYPE_CASTER
	#define BINDER_PYBIND11_TYPE_CASTER
	PYBIND11_DECLARE_HOLDER_TYPE(T, std::shared_ptr<T>)
	PYBIND11_DECLARE_HOLDER_TYPE(T, T*)
	PYBIND11_MAKE_OPAQUE(std::shared_ptr<void>)
#endif

// n1::n2::A file:T15.inner_class.hpp line:
struct PyCallBack_n1_n2_A : public n1::n2::A {
	using n1::n2::A::A;

	void foo() override {
		pybind11::gil_scoped_acquire gil;
		pybind11::function overload = pybind11::get_overload(static_cast<const n1::n2::A *>(this), ""foo"");
		if (overload) {
			auto o = overload.operator()<pybind11::return_value_policy::reference>();
			if (pybind11::detail::cast_is_temporary_value_reference<void>::value) {
				static pybind11::detail::override_caster_t<void> caster;
				return pybind11::detail::cast_ref<void>(std::move(o), caster);
			}
			else return pybind11::detail::cast_safe<void>(std::move(o));
		}
		return Base::foo();
	}
};

void bind_T15_inner_class_2(std::function< pybind11::module &(std::string const &namespace_) > &M)
{
	{ // n1::n2::A file:T15.inner_class.hpp line:
		pybind11::class_<n1::n2::A, std::shared_ptr<n1::n2::A>, PyCallBack_n1_n2_A, n1::A> cl(M(""n1::n2""), ""A"", """");
		cl.def( pybind11::init( [](){ return new n1::n2::A(); }, [](){ return new PyCallBack_n1_n2_A(); } ) );
		cl.def(""assign"", (struct n1::n2::A & (n1::n2::A::*)(const struct n1::n2::A &)) &n1::n2::A::operator=, ""C++: n1::n2::A::operator=(const struct n1::n2::A &) --> struct n1::n2::A &"", pybind11::return_value_policy::automatic, pybind11::arg(""""));
	}
}


// File: T15_inner_class_3.cpp
#include <T15.inner_class.hpp> // Base
#include <T15.inner_class.hpp> // instantiate_templates

#include <functional>
#include <pybind11/pybind11.h>
#include <string>

#ifndef BINDER_PYBIND11_TYPE_CASTER
	#define BINDER_PYBIND11_TYPE_CASTER
	PYBIND11_DECLARE_HOLDER_TYPE(T, std::shared_ptr<T>)
	PYBIND11_DECLARE_HOLDER_TYPE(T, T*)
	PYBIND11_MAKE_OPAQUE(std::shared_ptr<void>)
#endif

void bind_T15_inner_class_3(std::function< pybind11::module &(std::string const &namespace_) > &M)
{
	// instantiate_templates(struct Base::InnerTemplate<int>, struct Base::InnerTemplate<float>) file:T15.inner_class.hpp line:
	M("""").def(""instantiate_templates"", (void (*)(struct Base::InnerTemplate<int>, struct Base::InnerTemplate<float>)) &instantiate_templates, ""C++: instantiate_templates(struct Base::InnerTemplate<int>, struct Base::InnerTemplate<float>) --> void"", pybind11::arg(""""), pybind11::arg(""""));

}


#include <map>
#include <algorithm>
#include <functional>
#include <memory>
#include <stdexcept>
#include <string>

#include <pybind11/pybind11.h>

typedef std::function< pybind11::module & (std::string const &) > ModuleGetter;

void bind_T15_inner_class(std::function< pybind11::module &(std::string const &namespace_) > &M);
void bind_T15_inner_class_1(std::function< pybind11::module &(std::string const &namespace_) > &M);
void bind_T15_inner_class_2(std::function< pybind11::module &(std::string const &namespace_) > &M);
void bind_T15_inner_class_3(std::function< pybind11::module &(std::string const &namespace_) > &M);


PYBIND11_MODULE(T15_inner_class, root_module) {
	root_module.doc() = ""T15_inner_class module"";

	std::map <std::string, pybind11::module> modules;
	ModuleGetter M = [&](std::string const &namespace_) -> pybind11::module & {
		auto it = modules.find(namespace_);
		if( it == modules.end() ) throw std::runtime_error(""Attempt to access pybind11::module for namespace "" + namespace_ + "" before it was created!!!"");
		return it->second;
	};

	modules[""""] = root_module;

	static std::vector<std::string> const reserved_python_words {""nonlocal"", ""global"", };

	auto mangle_namespace_name(
		[](std::string const &ns) -> std::string {
			if ( std::find(reserved_python_words.begin(), reserved_python_words.end(), ns) == reserved_python_words.end() ) return ns;
			else return ns+'_';
		}
	);

	std::vector< std::pair<std::string, std::string> > sub_modules {
		{"""", ""n1""},
		{""n1"", ""n2""},
	};
	for(auto &p : sub_modules ) modules[p.first.size() ? p.first+""::""+p.second : p.second] = modules[p.first].def_submodule( mangle_namespace_name(p.second).c_str(), (""Bindings for "" + p.first + ""::"" + p.second + "" namespace"").c_str() );

	//pybind11::class_<std::shared_ptr<void>>(M(""""), ""_encapsulated_data_"");

	bind_T15_inner_class(M);
	bind_T15_inner_class_1(M);
	bind_T15_inner_class_2(M);
	bind_T15_inner_class_3(M);

}

// Source list file: TEST/T15_inner_class.sources
// T15_inner_class.cpp
// T15_inner_class.cpp
// T15_inner_class_1.cpp
// T15_inner_class_2.cpp
// T15_inner_class_3.cpp

// Modules list file: TEST/T15_inner_class.modules
// n1 n1.n2 
".
Example t15 : writes t15_w t15_visits = updated t15_ref.
Proof. vm_compute. reflexivity. Qed.

(** /repo/test/T32.call_guard.hpp and T32.call_guard.ref.cpp *)
Definition t32_inc : str := $"<T32.call_guard.hpp>".
Definition t32_w : world :=
  mkworld (unit_ [struct_of (cls (nm $"Methods" $"Methods" t32_inc) 0 [] [MMethod 1])]
                 [fn0 (nm $"free" $"free" t32_inc) void [arg int];
                  meth (member_of 0 Public (nm $"foo" $"Methods::foo" t32_inc)) void [arg int] false false false false]
                 [] (fun _ => $"struct Methods") (fun _ => []))
          (config_of $"T32.call_guard.config" $"+default_call_guard pybind11::gil_scoped_release
") (test_options $"T32_call_guard").
Definition t32_visits : list decl := [DFun 0; DRec 0].
Definition t32_ref : str := $"// File: T32_call_guard.cpp
#include <T32.call_guard.hpp> // Methods
#include <T32.call_guard.hpp> // free
#include <sstream> // __str__

#include <functional>
#include <pybind11/pybind11.h>
#include <string>

#ifndef BINDER_PYBIND11_TYPE_CASTER
	#define BINDER_PYBIND11_TYPE_CASTER
	PYBIND11_DECLARE_HOLDER_TYPE(T, std::shared_ptr<T>)
	PYBIND11_DECLARE_HOLDER_TYPE(T, T*)
	PYBIND11_MAKE_OPAQUE(std::shared_ptr<void>)
#endif

void bind_T32_call_guard(std::function< pybind11::module &(std::string const &namespace_) > &M)
{
	// free(int) file:T32.call_guard.hpp line:
	M("""").def(""free"", (void (*)(int)) &free, ""C++: free(int) --> void"", pybind11::arg(""""), pybind11::call_guard<pybind11::gil_scoped_release>());

	{ // Methods file:T32.call_guard.hpp line:
		pybind11::class_<Methods, std::shared_ptr<Methods>> cl(M(""""), ""Methods"", """");
		cl.def( pybind11::init( [](){ return new Methods(); } ) );
		cl.def(""foo"", (void (Methods::*)(int)) &Methods::foo, ""C++: Methods::foo(int) --> void"", pybind11::arg(""""), pybind11::call_guard<pybind11::gil_scoped_release>());
	}
}


#include <map>
#include <algorithm>
#include <functional>
#include <memory>
#include <stdexcept>
#include <string>

#include <pybind11/pybind11.h>

typedef std::function< pybind11::module & (std::string const &) > ModuleGetter;

void bind_T32_call_guard(std::function< pybind11::module &(std::string const &namespace_) > &M);


PYBIND11_MODULE(T32_call_guard, root_module) {
	root_module.doc() = ""T32_call_guard module"";

	std::map <std::string, pybind11::module> modules;
	ModuleGetter M = [&](std::string const &namespace_) -> pybind11::module & {
		auto it = modules.find(namespace_);
		if( it == modules.end() ) throw std::runtime_error(""Attempt to access pybind11::module for namespace "" + namespace_ + "" before it was created!!!"");
		return it->second;
	};

	modules[""""] = root_module;

	static std::vector<std::string> const reserved_python_words {""nonlocal"", ""global"", };

	auto mangle_namespace_name(
		[](std::string const &ns) -> std::string {
			if ( std::find(reserved_python_words.begin(), reserved_python_words.end(), ns) == reserved_python_words.end() ) return ns;
			else return ns+'_';
		}
	);

	std::vector< std::pair<std::string, std::string> > sub_modules {
	};
	for(auto &p : sub_modules ) modules[p.first.size() ? p.first+""::""+p.second : p.second] = modules[p.first].def_submodule( mangle_namespace_name(p.second).c_str(), (""Bindings for "" + p.first + ""::"" + p.second + "" namespace"").c_str() );

	//pybind11::class_<std::shared_ptr<void>>(M(""""), ""_encapsulated_data_"");

	bind_T32_call_guard(M);

}

// Source list file: TEST/T32_call_guard.sources
// T32_call_guard.cpp
// T32_call_guard.cpp

// Modules list file: TEST/T32_call_guard.modules
// 
".
Example t32 : writes t32_w t32_visits = updated t32_ref.
Proof. vm_compute. reflexivity. Qed.

(** /repo/test/T15.copy.hpp and T15.copy.ref.cpp *)
Definition t15c_name (r : nat) : str := nth r [$"POD1"; $"POD2"; $"POD3"; $"POD4"; $"POD5"; $"POD6"; $"Data1"] [].
Definition t15c_inc : str := $"<T15.copy.hpp>".
Definition t15c_mem (r : nat) (a : access) (n : str) : named := member_of r a (nm n (t15c_name r ++ $"::" ++ n) t15c_inc).
Definition t15c_copy (r : nat) : fn := ctor_of (t15c_mem r Public (t15c_name r)) [arg (TLRef (TRec true r []))] (mkctor false (Some true) false) false.
Definition t15c_move (r : nat) : fn := ctor_of (t15c_mem r Public (t15c_name r)) [arg (TRRef (TRec false r []))] (mkctor false None true) false.
Definition t15c_field (r : nat) (a : access) : member := MField (mkfield (t15c_mem r a $"a") int false).
Definition t15c_fns : list fn := [
  t15c_copy 1; t15c_copy 2; t15c_copy 3; t15c_move 4; t15c_move 5; t15c_copy 6].
Definition t15c_r (r : nat) (ms : list member) : record :=
  default_ctor false false (cls (nm (t15c_name r) (t15c_name r) t15c_inc) r [] ms).
Definition t15c_rs : list record := [
  struct_of (cls (nm $"POD1" $"POD1" t15c_inc) 0 [] []);
  struct_of (t15c_r 1 [MMethod 0]); struct_of (t15c_r 2 [MMethod 1]); struct_of (t15c_r 3 [t15c_field 3 Public; MMethod 2]);
  struct_of (t15c_r 4 [MMethod 3]); struct_of (t15c_r 5 [t15c_field 5 Public; MMethod 4]);
  t15c_r 6 [MMethod 5; t15c_field 6 Private]].
Definition t15c_w : world :=
  mkworld (unit_ t15c_rs t15c_fns [] (fun r => $"struct " ++ t15c_name r) (fun _ => [])) everything (test_options $"T15_copy").
Definition t15c_visits : list decl := map DRec [0; 1; 2; 3; 4; 5; 6].
Definition t15c_ref : str := $"// File: T15_copy.cpp
#include <T15.copy.hpp> // Data1
#include <T15.copy.hpp> // POD1
#include <T15.copy.hpp> // POD2
#include <T15.copy.hpp> // POD3
#include <T15.copy.hpp> // POD4
#include <T15.copy.hpp> // POD5
#include <T15.copy.hpp> // POD6
#include <sstream> // __str__

#include <functional>
#include <pybind11/pybind11.h>
#include <string>

#ifndef BINDER_PYBIND11_TYPE_CASTER
	#define BINDER_PYBIND11_TYPE_CASTER
	PYBIND11_DECLARE_HOLDER_TYPE(T, std::shared_ptr<T>)
	PYBIND11_DECLARE_HOLDER_TYPE(T, T*)
	PYBIND11_MAKE_OPAQUE(std::shared_ptr<void>)
#endif

void bind_T15_copy(std::function< pybind11::module &(std::string const &namespace_) > &M)
{
	{ // POD1 file:T15.copy.hpp line:
		pybind11::class_<POD1, std::shared_ptr<POD1>> cl(M(""""), ""POD1"", """");
		cl.def( pybind11::init( [](){ return new POD1(); } ) );
	}
	{ // POD2 file:T15.copy.hpp line:
		pybind11::class_<POD2, std::shared_ptr<POD2>> cl(M(""""), ""POD2"", """");
		cl.def( pybind11::init( [](POD2 const &o){ return new POD2(o); } ) );
	}
	{ // POD3 file:T15.copy.hpp line:
		pybind11::class_<POD3, std::shared_ptr<POD3>> cl(M(""""), ""POD3"", """");
		cl.def( pybind11::init( [](POD3 const &o){ return new POD3(o); } ) );
	}
	{ // POD4 file:T15.copy.hpp line:
		pybind11::class_<POD4, std::shared_ptr<POD4>> cl(M(""""), ""POD4"", """");
		cl.def( pybind11::init( [](POD4 const &o){ return new POD4(o); } ) );
		cl.def_readwrite(""a"", &POD4::a);
	}
	{ // POD5 file:T15.copy.hpp line:
		pybind11::class_<POD5, std::shared_ptr<POD5>> cl(M(""""), ""POD5"", """");
	}
	{ // POD6 file:T15.copy.hpp line:
		pybind11::class_<POD6, std::shared_ptr<POD6>> cl(M(""""), ""POD6"", """");
		cl.def_readwrite(""a"", &POD6::a);
	}
	{ // Data1 file:T15.copy.hpp line:
		pybind11::class_<Data1, std::shared_ptr<Data1>> cl(M(""""), ""Data1"", """");
		cl.def( pybind11::init( [](Data1 const &o){ return new Data1(o); } ) );
	}
}


#include <map>
#include <algorithm>
#include <functional>
#include <memory>
#include <stdexcept>
#include <string>

#include <pybind11/pybind11.h>

typedef std::function< pybind11::module & (std::string const &) > ModuleGetter;

void bind_T15_copy(std::function< pybind11::module &(std::string const &namespace_) > &M);


PYBIND11_MODULE(T15_copy, root_module) {
	root_module.doc() = ""T15_copy module"";

	std::map <std::string, pybind11::module> modules;
	ModuleGetter M = [&](std::string const &namespace_) -> pybind11::module & {
		auto it = modules.find(namespace_);
		if( it == modules.end() ) throw std::runtime_error(""Attempt to access pybind11::module for namespace "" + namespace_ + "" before it was created!!!"");
		return it->second;
	};

	modules[""""] = root_module;

	static std::vector<std::string> const reserved_python_words {""nonlocal"", ""global"", };

	auto mangle_namespace_name(
		[](std::string const &ns) -> std::string {
			if ( std::find(reserved_python_words.begin(), reserved_python_words.end(), ns) == reserved_python_words.end() ) return ns;
			else return ns+'_';
		}
	);

	std::vector< std::pair<std::string, std::string> > sub_modules {
	};
	for(auto &p : sub_modules ) modules[p.first.size() ? p.first+""::""+p.second : p.second] = modules[p.first].def_submodule( mangle_namespace_name(p.second).c_str(), (""Bindings for "" + p.first + ""::"" + p.second + "" namespace"").c_str() );

	//pybind11::class_<std::shared_ptr<void>>(M(""""), ""_encapsulated_data_"");

	bind_T15_copy(M);

}

// Source list file: TEST/T15_copy.sources
// T15_copy.cpp
// T15_copy.cpp

// Modules list file: TEST/T15_copy.modules
// 
".
Example t15c : writes t15c_w t15c_visits = updated t15c_ref.
Proof. vm_compute. reflexivity. Qed.

(** /repo/test/T17.anonymous.hpp and T17.anonymous.ref.cpp *)
Definition t17_inc : str := $"<T17.anonymous.hpp>".
Definition t17_mem (p : nat) (name qname : str) : named := member_of p Public (nm name qname t17_inc).
Definition t17_field (p : nat) (n q : str) (t : qty) (anon : bool) : member := MField (mkfield (t17_mem p n (q ++ $"::" ++ n)) t anon).
Definition t17_injected (p : nat) (name qname : str) : record :=
  mkrecord (t17_mem p name (qname ++ $"::" ++ name)) None true false false false false None true false true false false false
           false false None [] [].
(** [linkage]: hasNameForLinkage(); [anon]: isAnonymousStructOrUnion() *)
Definition t17_rec (n : named) (self : nat) (linkage anon anon_ns : bool) (ms : list member) : record :=
  mkrecord n None true false false true true (Some self) true anon_ns linkage anon false false true true None [] ms.
(** classes: S 0, its anonymous structure 1, the structure typedef'd FL_not_binded 2, that of B_not_binded 3, that of C_not_binded 4,
    _D 5, _S2 6, Anonymous 7, its union 8, the structure in the union 9, S_not_binded 10, that of object 11, injected names 12-15 *)
Definition t17_rs : list record := [
  t17_rec (nm $"S" $"S" t17_inc) 0 true false false
    [MRec 12; t17_field 0 $"a" $"S" int false; MRec 1; t17_field 0 [] $"S" (TRec false 1 []) true; MRec 2;
     t17_field 0 $"fl" $"S" (TSugar false $"FL_not_binded" (TRec false 2 [])) false;
     MRec 3; t17_field 0 $"B_not_binded" $"S" (TArray false (TRec false 3 [])) false;
     MRec 4; t17_field 0 $"C_not_binded" $"S" (TRec false 4 []) false; MRec 5];
  t17_rec (t17_mem 0 [] $"S::(anonymous)") 1 false true false [t17_field 1 $"b" $"S::(anonymous)" int false];
  t17_rec (t17_mem 0 [] $"S::(anonymous)") 2 true false false [t17_field 2 $"c_not_binded" $"S::(anonymous)" float_ false];
  t17_rec (t17_mem 0 [] $"S::(anonymous)") 3 false false false [t17_field 3 $"b4" $"S::(anonymous)" float_ false];
  t17_rec (t17_mem 0 [] $"S::(anonymous)") 4 false false false [t17_field 4 $"c" $"S::(anonymous)" int false];
  t17_rec (t17_mem 0 $"_D" $"S::_D") 5 true false false [MRec 13; t17_field 5 $"d" $"S::_D" int false];
  t17_rec (nm $"_S2" $"_S2" t17_inc) 6 true false false [MRec 14; t17_field 6 $"a" $"_S2" int false];
  t17_rec (nm $"Anonymous" $"Anonymous" t17_inc) 7 true false false [MRec 15; MRec 8; t17_field 7 [] $"Anonymous" (TRec false 8 []) true];
  t17_rec (t17_mem 7 [] $"Anonymous::(anonymous)") 8 false true false
    [t17_field 8 $"coord" $"Anonymous::(anonymous)" (TArray false double_) false; MRec 9; t17_field 8 [] $"Anonymous::(anonymous)" (TRec false 9 []) true];
  t17_rec (t17_mem 8 [] $"Anonymous::(anonymous union)::(anonymous)") 9 false true false
    [t17_field 9 $"x" $"Anonymous" double_ false; t17_field 9 $"y" $"Anonymous" double_ false];
  t17_rec (nm $"S_not_binded" $"(anonymous namespace)::S_not_binded" t17_inc) 10 true false true [];
  t17_rec (nm [] $"(anonymous)" t17_inc) 11 false false false [t17_field 11 $"a" $"(anonymous)" int false];
  t17_injected 0 $"S" $"S"; t17_injected 5 $"_D" $"S::_D"; t17_injected 6 $"_S2" $"_S2"; t17_injected 7 $"Anonymous" $"Anonymous"].
Definition t17_w : world :=
  mkworld (unit_ t17_rs [fn0 (nm $"foo" $"foo" t17_inc) void []] []
             (fun r => $"struct " ++ n_qname (r_decl (nth r t17_rs norec))) (fun _ => [])) everything (test_options $"T17_anonymous").
Definition t17_visits : list decl :=
  [DRec 10; DRec 11; DFun 0; DRec 0; DRec 1; DRec 2; DRec 3; DRec 4; DRec 5; DRec 6; DRec 7; DRec 8; DRec 9].
Definition t17_ref : str := $"// File: T17_anonymous.cpp
#include <T17.anonymous.hpp> // Anonymous
#include <T17.anonymous.hpp> // Anonymous::(anonymous)
#include <T17.anonymous.hpp> // S
#include <T17.anonymous.hpp> // S::_D
#include <T17.anonymous.hpp> // _S2
#include <T17.anonymous.hpp> // foo
#include <sstream> // __str__

#include <functional>
#include <pybind11/pybind11.h>
#include <string>

#ifndef BINDER_PYBIND11_TYPE_CASTER
	#define BINDER_PYBIND11_TYPE_CASTER
	PYBIND11_DECLARE_HOLDER_TYPE(T, std::shared_ptr<T>)
	PYBIND11_DECLARE_HOLDER_TYPE(T, T*)
	PYBIND11_MAKE_OPAQUE(std::shared_ptr<void>)
#endif

void bind_T17_anonymous(std::function< pybind11::module &(std::string const &namespace_) > &M)
{
	// foo() file:T17.anonymous.hpp line:
	M("""").def(""foo"", (void (*)()) &foo, ""C++: foo() --> void"");

	{ // S file:T17.anonymous.hpp line:
		pybind11::class_<S, std::shared_ptr<S>> cl(M(""""), ""S"", """");
		cl.def( pybind11::init( [](){ return new S(); } ) );
		cl.def_readwrite(""a"", &S::a);

		{ // S::(anonymous) file:T17.anonymous.hpp line:
			cl.def_readwrite(""b"", &S::b);
		}

		{ // S::_D file:T17.anonymous.hpp line:
			auto & enclosing_class = cl;
			pybind11::class_<S::_D, std::shared_ptr<S::_D>> cl(enclosing_class, ""_D"", """");
			cl.def( pybind11::init( [](){ return new S::_D(); } ) );
			cl.def_readwrite(""d"", &S::_D::d);
		}

	}
	{ // _S2 file:T17.anonymous.hpp line:
		pybind11::class_<_S2, std::shared_ptr<_S2>> cl(M(""""), ""_S2"", """");
		cl.def( pybind11::init( [](){ return new _S2(); } ) );
		cl.def_readwrite(""a"", &_S2::a);
	}
	{ // Anonymous file:T17.anonymous.hpp line:
		pybind11::class_<Anonymous, std::shared_ptr<Anonymous>> cl(M(""""), ""Anonymous"", """");
		cl.def( pybind11::init( [](){ return new Anonymous(); } ) );

		{ // Anonymous::(anonymous) file:T17.anonymous.hpp line:

			{ // Anonymous::(anonymous union)::(anonymous) file:T17.anonymous.hpp line:
				cl.def_readwrite(""x"", &Anonymous::x);
				cl.def_readwrite(""y"", &Anonymous::y);
			}

		}

	}
}


#include <map>
#include <algorithm>
#include <functional>
#include <memory>
#include <stdexcept>
#include <string>

#include <pybind11/pybind11.h>

typedef std::function< pybind11::module & (std::string const &) > ModuleGetter;

void bind_T17_anonymous(std::function< pybind11::module &(std::string const &namespace_) > &M);


PYBIND11_MODULE(T17_anonymous, root_module) {
	root_module.doc() = ""T17_anonymous module"";

	std::map <std::string, pybind11::module> modules;
	ModuleGetter M = [&](std::string const &namespace_) -> pybind11::module & {
		auto it = modules.find(namespace_);
		if( it == modules.end() ) throw std::runtime_error(""Attempt to access pybind11::module for namespace "" + namespace_ + "" before it was created!!!"");
		return it->second;
	};

	modules[""""] = root_module;

	static std::vector<std::string> const reserved_python_words {""nonlocal"", ""global"", };

	auto mangle_namespace_name(
		[](std::string const &ns) -> std::string {
			if ( std::find(reserved_python_words.begin(), reserved_python_words.end(), ns) == reserved_python_words.end() ) return ns;
			else return ns+'_';
		}
	);

	std::vector< std::pair<std::string, std::string> > sub_modules {
	};
	for(auto &p : sub_modules ) modules[p.first.size() ? p.first+""::""+p.second : p.second] = modules[p.first].def_submodule( mangle_namespace_name(p.second).c_str(), (""Bindings for "" + p.first + ""::"" + p.second + "" namespace"").c_str() );

	//pybind11::class_<std::shared_ptr<void>>(M(""""), ""_encapsulated_data_"");

	bind_T17_anonymous(M);

}

// Source list file: TEST/T17_anonymous.sources
// T17_anonymous.cpp
// T17_anonymous.cpp

// Modules list file: TEST/T17_anonymous.modules
// 
".
Example t17 : writes t17_w t17_visits = updated t17_ref.
Proof. vm_compute. reflexivity. Qed.

(** /repo/test/T33.buffer_protocol.hpp and T33.buffer_protocol.ref.cpp *)
Definition t33_w : world :=
  mkworld (unit_ [struct_of (cls (nm $"A" $"A" $"<T33.buffer_protocol.hpp>") 0 [] [])] [] [] (fun _ => $"struct A") (fun _ => []))
          (config_of $"T33.buffer_protocol.config" $"+buffer_protocol A
") (test_options $"T33_buffer_protocol").
Definition t33_visits : list decl := [DRec 0].
Definition t33_ref : str := $"// File: T33_buffer_protocol.cpp
#include <T33.buffer_protocol.hpp> // A
#include <sstream> // __str__

#include <functional>
#include <pybind11/pybind11.h>
#include <string>

#ifndef BINDER_PYBIND11_TYPE_CASTER
	#define BINDER_PYBIND11_TYPE_CASTER
	PYBIND11_DECLARE_HOLDER_TYPE(T, std::shared_ptr<T>)
	PYBIND11_DECLARE_HOLDER_TYPE(T, T*)
	PYBIND11_MAKE_OPAQUE(std::shared_ptr<void>)
#endif

void bind_T33_buffer_protocol(std::function< pybind11::module &(std::string const &namespace_) > &M)
{
	{ // A file:T33.buffer_protocol.hpp line:
		pybind11::class_<A, std::shared_ptr<A>> cl(M(""""), ""A"", """", pybind11::buffer_protocol());
		cl.def( pybind11::init( [](){ return new A(); } ) );
	}
}


#include <map>
#include <algorithm>
#include <functional>
#include <memory>
#include <stdexcept>
#include <string>

#include <pybind11/pybind11.h>

typedef std::function< pybind11::module & (std::string const &) > ModuleGetter;

void bind_T33_buffer_protocol(std::function< pybind11::module &(std::string const &namespace_) > &M);


PYBIND11_MODULE(T33_buffer_protocol, root_module) {
	root_module.doc() = ""T33_buffer_protocol module"";

	std::map <std::string, pybind11::module> modules;
	ModuleGetter M = [&](std::string const &namespace_) -> pybind11::module & {
		auto it = modules.find(namespace_);
		if( it == modules.end() ) throw std::runtime_error(""Attempt to access pybind11::module for namespace "" + namespace_ + "" before it was created!!!"");
		return it->second;
	};

	modules[""""] = root_module;

	static std::vector<std::string> const reserved_python_words {""nonlocal"", ""global"", };

	auto mangle_namespace_name(
		[](std::string const &ns) -> std::string {
			if ( std::find(reserved_python_words.begin(), reserved_python_words.end(), ns) == reserved_python_words.end() ) return ns;
			else return ns+'_';
		}
	);

	std::vector< std::pair<std::string, std::string> > sub_modules {
	};
	for(auto &p : sub_modules ) modules[p.first.size() ? p.first+""::""+p.second : p.second] = modules[p.first].def_submodule( mangle_namespace_name(p.second).c_str(), (""Bindings for "" + p.first + ""::"" + p.second + "" namespace"").c_str() );

	//pybind11::class_<std::shared_ptr<void>>(M(""""), ""_encapsulated_data_"");

	bind_T33_buffer_protocol(M);

}

// Source list file: TEST/T33_buffer_protocol.sources
// T33_buffer_protocol.cpp
// T33_buffer_protocol.cpp

// Modules list file: TEST/T33_buffer_protocol.modules
// 
".
Example t33 : writes t33_w t33_visits = updated t33_ref.
Proof. vm_compute. reflexivity. Qed.

(** /repo/test/T50.add_on_binder.hpp and T50.add_on_binder.ref.cpp *)
Definition t50a_args : list targ := [Targ (KType int) $"int"].
Definition t50a_w : world :=
  mkworld (unit_ [struct_of (special_of t50a_args (cls (nm $"Matrix" $"Matrix" $"<T50.add_on_binder.hpp>") 0 [] []))] [] []
                 (fun _ => $"struct Matrix<int>") (fun _ => []))
          (config_of $"T50.add_on_binder.config" $"+add_on_binder Matrix details::matrix_add_on_binder
") (test_options $"T50_add_on_binder").
Definition t50a_visits : list decl := [DRec 0].
Definition t50a_ref : str := $"// File: T50_add_on_binder.cpp
#include <T50.add_on_binder.hpp> // Matrix
#include <sstream> // __str__

#include <functional>
#include <pybind11/pybind11.h>
#include <string>

#ifndef BINDER_PYBIND11_TYPE_CASTER
	#define BINDER_PYBIND11_TYPE_CASTER
	PYBIND11_DECLARE_HOLDER_TYPE(T, std::shared_ptr<T>)
	PYBIND11_DECLARE_HOLDER_TYPE(T, T*)
	PYBIND11_MAKE_OPAQUE(std::shared_ptr<void>)
#endif

void bind_T50_add_on_binder(std::function< pybind11::module &(std::string const &namespace_) > &M)
{
	{ // Matrix file:T50.add_on_binder.hpp line:
		pybind11::class_<Matrix<int>, std::shared_ptr<Matrix<int>>> cl(M(""""), ""Matrix_int_t"", """");
		cl.def( pybind11::init( [](){ return new Matrix<int>(); } ) );

		details::matrix_add_on_binder(cl);
	}
}


#include <map>
#include <algorithm>
#include <functional>
#include <memory>
#include <stdexcept>
#include <string>

#include <pybind11/pybind11.h>

typedef std::function< pybind11::module & (std::string const &) > ModuleGetter;

void bind_T50_add_on_binder(std::function< pybind11::module &(std::string const &namespace_) > &M);


PYBIND11_MODULE(T50_add_on_binder, root_module) {
	root_module.doc() = ""T50_add_on_binder module"";

	std::map <std::string, pybind11::module> modules;
	ModuleGetter M = [&](std::string const &namespace_) -> pybind11::module & {
		auto it = modules.find(namespace_);
		if( it == modules.end() ) throw std::runtime_error(""Attempt to access pybind11::module for namespace "" + namespace_ + "" before it was created!!!"");
		return it->second;
	};

	modules[""""] = root_module;

	static std::vector<std::string> const reserved_python_words {""nonlocal"", ""global"", };

	auto mangle_namespace_name(
		[](std::string const &ns) -> std::string {
			if ( std::find(reserved_python_words.begin(), reserved_python_words.end(), ns) == reserved_python_words.end() ) return ns;
			else return ns+'_';
		}
	);

	std::vector< std::pair<std::string, std::string> > sub_modules {
	};
	for(auto &p : sub_modules ) modules[p.first.size() ? p.first+""::""+p.second : p.second] = modules[p.first].def_submodule( mangle_namespace_name(p.second).c_str(), (""Bindings for "" + p.first + ""::"" + p.second + "" namespace"").c_str() );

	//pybind11::class_<std::shared_ptr<void>>(M(""""), ""_encapsulated_data_"");

	bind_T50_add_on_binder(M);

}

// Source list file: TEST/T50_add_on_binder.sources
// T50_add_on_binder.cpp
// T50_add_on_binder.cpp

// Modules list file: TEST/T50_add_on_binder.modules
// 
".
Example t50a : writes t50a_w t50a_visits = updated t50a_ref.
Proof. vm_compute. reflexivity. Qed.

(** /repo/test/T50.namespace_binder.hpp and T50.namespace_binder.ref.cpp; the input is that of Samples.v *)
Definition t50_ref : str := $"// File: T50_namespace_binder.cpp
#include <T50.namespace_binder.hpp> // foo_root

#include <functional>
#include <pybind11/pybind11.h>
#include <string>

#ifndef BINDER_PYBIND11_TYPE_CASTER
	#define BINDER_PYBIND11_TYPE_CASTER
	PYBIND11_DECLARE_HOLDER_TYPE(T, std::shared_ptr<T>)
	PYBIND11_DECLARE_HOLDER_TYPE(T, T*)
	PYBIND11_MAKE_OPAQUE(std::shared_ptr<void>)
#endif

void bind_T50_namespace_binder(std::function< pybind11::module &(std::string const &namespace_) > &M)
{
	// foo_root() file:T50.namespace_binder.hpp line:
	M("""").def(""foo_root"", (void (*)()) &foo_root, ""C++: foo_root() --> void"");

}


// File: T50_namespace_binder_1.cpp
#include <T50.namespace_binder.a.1.include>
#include <T50.namespace_binder.a.2.include>
#include <T50.namespace_binder.hpp> // aaaa::foo_aaaa

#include <functional>
#include <pybind11/pybind11.h>
#include <string>

#ifndef BINDER_PYBIND11_TYPE_CASTER
	#define BINDER_PYBIND11_TYPE_CASTER
	PYBIND11_DECLARE_HOLDER_TYPE(T, std::shared_ptr<T>)
	PYBIND11_DECLARE_HOLDER_TYPE(T, T*)
	PYBIND11_MAKE_OPAQUE(std::shared_ptr<void>)
#endif

void bind_T50_namespace_binder_1(std::function< pybind11::module &(std::string const &namespace_) > &M)
{

	add_on_binder_for_aaaa(M(""aaaa""));
	// aaaa::foo_aaaa() file:T50.namespace_binder.hpp line:
	M(""aaaa"").def(""foo_aaaa"", (void (*)()) &aaaa::foo_aaaa, ""C++: aaaa::foo_aaaa() --> void"");

}


// File: T50_namespace_binder_2.cpp
#include <T50.namespace_binder.a.b.include>

#include <functional>
#include <pybind11/pybind11.h>
#include <string>

#ifndef BINDER_PYBIND11_TYPE_CASTER
	#define BINDER_PYBIND11_TYPE_CASTER
	PYBIND11_DECLARE_HOLDER_TYPE(T, std::shared_ptr<T>)
	PYBIND11_DECLARE_HOLDER_TYPE(T, T*)
	PYBIND11_MAKE_OPAQUE(std::shared_ptr<void>)
#endif

void bind_T50_namespace_binder_2(std::function< pybind11::module &(std::string const &namespace_) > &M)
{

	binder_for_aaaa_bbbb(M(""aaaa::bbbb""));
}


#include <map>
#include <algorithm>
#include <functional>
#include <memory>
#include <stdexcept>
#include <string>

#include <pybind11/pybind11.h>

typedef std::function< pybind11::module & (std::string const &) > ModuleGetter;

void bind_T50_namespace_binder(std::function< pybind11::module &(std::string const &namespace_) > &M);
void bind_T50_namespace_binder_1(std::function< pybind11::module &(std::string const &namespace_) > &M);
void bind_T50_namespace_binder_2(std::function< pybind11::module &(std::string const &namespace_) > &M);


PYBIND11_MODULE(T50_namespace_binder, root_module) {
	root_module.doc() = ""T50_namespace_binder module"";

	std::map <std::string, pybind11::module> modules;
	ModuleGetter M = [&](std::string const &namespace_) -> pybind11::module & {
		auto it = modules.find(namespace_);
		if( it == modules.end() ) throw std::runtime_error(""Attempt to access pybind11::module for namespace "" + namespace_ + "" before it was created!!!"");
		return it->second;
	};

	modules[""""] = root_module;

	static std::vector<std::string> const reserved_python_words {""nonlocal"", ""global"", };

	auto mangle_namespace_name(
		[](std::string const &ns) -> std::string {
			if ( std::find(reserved_python_words.begin(), reserved_python_words.end(), ns) == reserved_python_words.end() ) return ns;
			else return ns+'_';
		}
	);

	std::vector< std::pair<std::string, std::string> > sub_modules {
		{"""", ""aaaa""},
		{""aaaa"", ""bbbb""},
	};
	for(auto &p : sub_modules ) modules[p.first.size() ? p.first+""::""+p.second : p.second] = modules[p.first].def_submodule( mangle_namespace_name(p.second).c_str(), (""Bindings for "" + p.first + ""::"" + p.second + "" namespace"").c_str() );

	//pybind11::class_<std::shared_ptr<void>>(M(""""), ""_encapsulated_data_"");

	bind_T50_namespace_binder(M);
	bind_T50_namespace_binder_1(M);
	bind_T50_namespace_binder_2(M);

}

// Source list file: TEST/T50_namespace_binder.sources
// T50_namespace_binder.cpp
// T50_namespace_binder.cpp
// T50_namespace_binder_1.cpp
// T50_namespace_binder_2.cpp

// Modules list file: TEST/T50_namespace_binder.modules
// aaaa aaaa.bbbb 
".
Example t50 : writes t50_w t50_visits = updated t50_ref.
Proof. vm_compute. reflexivity. Qed.

(** /repo/test/T60.custom_shared.hpp and T60.custom_shared.ref.cpp *)
Definition t60_inc : str := $"<T60.custom_shared.hpp>".
Definition t60_enums : list enum :=
  let at_top (name : str) (scoped class_tag : bool) (self : nat) (values : list (str * str)) :=
    mkenum (mknamed name name (Some t60_inc) (nth self [21; 23; 24] 0) false Public false None None) scoped class_tag false true values (Some self) in
  let inner (a : access) (name : str) (scoped class_tag : bool) (self : nat) (values : list (str * str)) :=
    mkenum (member_of 0 a (nm name ($"A::" ++ name) t60_inc)) scoped class_tag false true values (Some self) in [
  at_top $"E1" false false 0 [($"E1_V0", $"E1_V0"); ($"E1_V1", $"E1_V1")];
  at_top $"E2_struct" true false 1 [($"V0", $"E2_struct::V0"); ($"V1", $"E2_struct::V1")];
  at_top $"E3_class" true true 2 [($"V0", $"E3_class::V0"); ($"V1", $"E3_class::V1")];
  inner Public $"AE1" false false 3 [($"AE1_V0", $"A::AE1_V0"); ($"AE1_V1", $"A::AE1_V1")];
  inner Public $"AE2_struct" true false 4 [($"AE3_V0", $"A::AE2_struct::AE3_V0"); ($"AE3_V1", $"A::AE2_struct::AE3_V1")];
  inner Public $"AE3_class" true true 5 [($"AE2_V0", $"A::AE3_class::AE2_V0"); ($"AE2_V1", $"A::AE3_class::AE2_V1")];
  inner Protected $"AE3_not_binded" false false 6 [($"AE3_V0_not_binded", $"A::AE3_V0_not_binded")];
  inner Private $"AE6_not_binded" true true 7 [($"AE6_V0_not_binded", $"A::AE6_V0_not_binded")]].

Definition t60_w : world :=
  mkworld (unit_ [cls (nm $"A" $"A" t60_inc) 0 [] [MEnum 3; MEnum 4; MEnum 5; MEnum 6; MEnum 7]] [] t60_enums (fun _ => $"class A") (fun _ => []))
          (config_of $"T60.custom_shared.config" $"+custom_shared my_shared_ptr") (test_options $"T60_custom_shared").
Definition t60_visits : list decl := [DEnum 0; DEnum 1; DEnum 2; DRec 0].
Definition t60_ref : str := $"// File: T60_custom_shared.cpp
#include <T60.custom_shared.hpp> // A
#include <T60.custom_shared.hpp> // E1
#include <T60.custom_shared.hpp> // E2_struct
#include <T60.custom_shared.hpp> // E3_class
#include <sstream> // __str__

#include <functional>
#include <pybind11/pybind11.h>
#include <string>

#ifndef BINDER_PYBIND11_TYPE_CASTER
	#define BINDER_PYBIND11_TYPE_CASTER
	PYBIND11_DECLARE_HOLDER_TYPE(T, my_shared_ptr<T>)
	PYBIND11_DECLARE_HOLDER_TYPE(T, T*)
	PYBIND11_MAKE_OPAQUE(my_shared_ptr<void>)
#endif

void bind_T60_custom_shared(std::function< pybind11::module &(std::string const &namespace_) > &M)
{
	// E1 file:T60.custom_shared.hpp line:
	pybind11::enum_<E1>(M(""""), ""E1"", pybind11::arithmetic(), """")
		.value(""E1_V0"", E1_V0)
		.value(""E1_V1"", E1_V1)
		.export_values();

;

	// E2_struct file:T60.custom_shared.hpp line:
	pybind11::enum_<E2_struct>(M(""""), ""E2_struct"", """")
		.value(""V0"", E2_struct::V0)
		.value(""V1"", E2_struct::V1)
		.export_values();

;

	// E3_class file:T60.custom_shared.hpp line:
	pybind11::enum_<E3_class>(M(""""), ""E3_class"", """")
		.value(""V0"", E3_class::V0)
		.value(""V1"", E3_class::V1);

;

	{ // A file:T60.custom_shared.hpp line:
		pybind11::class_<A, my_shared_ptr<A>> cl(M(""""), ""A"", """");
		cl.def( pybind11::init( [](){ return new A(); } ) );

		pybind11::enum_<A::AE1>(cl, ""AE1"", pybind11::arithmetic(), """")
			.value(""AE1_V0"", A::AE1_V0)
			.value(""AE1_V1"", A::AE1_V1)
			.export_values();


		pybind11::enum_<A::AE2_struct>(cl, ""AE2_struct"", """")
			.value(""AE3_V0"", A::AE2_struct::AE3_V0)
			.value(""AE3_V1"", A::AE2_struct::AE3_V1)
			.export_values();


		pybind11::enum_<A::AE3_class>(cl, ""AE3_class"", """")
			.value(""AE2_V0"", A::AE3_class::AE2_V0)
			.value(""AE2_V1"", A::AE3_class::AE2_V1);

	}
}


#include <map>
#include <algorithm>
#include <functional>
#include <memory>
#include <stdexcept>
#include <string>

#include <pybind11/pybind11.h>

typedef std::function< pybind11::module & (std::string const &) > ModuleGetter;

void bind_T60_custom_shared(std::function< pybind11::module &(std::string const &namespace_) > &M);


PYBIND11_MODULE(T60_custom_shared, root_module) {
	root_module.doc() = ""T60_custom_shared module"";

	std::map <std::string, pybind11::module> modules;
	ModuleGetter M = [&](std::string const &namespace_) -> pybind11::module & {
		auto it = modules.find(namespace_);
		if( it == modules.end() ) throw std::runtime_error(""Attempt to access pybind11::module for namespace "" + namespace_ + "" before it was created!!!"");
		return it->second;
	};

	modules[""""] = root_module;

	static std::vector<std::string> const reserved_python_words {""nonlocal"", ""global"", };

	auto mangle_namespace_name(
		[](std::string const &ns) -> std::string {
			if ( std::find(reserved_python_words.begin(), reserved_python_words.end(), ns) == reserved_python_words.end() ) return ns;
			else return ns+'_';
		}
	);

	std::vector< std::pair<std::string, std::string> > sub_modules {
	};
	for(auto &p : sub_modules ) modules[p.first.size() ? p.first+""::""+p.second : p.second] = modules[p.first].def_submodule( mangle_namespace_name(p.second).c_str(), (""Bindings for "" + p.first + ""::"" + p.second + "" namespace"").c_str() );

	//pybind11::class_<std::shared_ptr<void>>(M(""""), ""_encapsulated_data_"");

	bind_T60_custom_shared(M);

}

// Source list file: TEST/T60_custom_shared.sources
// T60_custom_shared.cpp
// T60_custom_shared.cpp

// Modules list file: TEST/T60_custom_shared.modules
// 
".
Example t60 : writes t60_w t60_visits = updated t60_ref.
Proof. vm_compute. reflexivity. Qed.

(** /repo/test/T61.smart_holder.hpp and T61.smart_holder.ref *)
Definition t61_inc : str := $"<T61.smart_holder.hpp>".
Definition t61_enums : list enum :=
  let at_top (name : str) (scoped class_tag : bool) (self : nat) (values : list (str * str)) :=
    mkenum (mknamed name name (Some t61_inc) (nth self [21; 23; 24] 0) false Public false None None) scoped class_tag false true values (Some self) in
  let inner (a : access) (name : str) (scoped class_tag : bool) (self : nat) (values : list (str * str)) :=
    mkenum (member_of 0 a (nm name ($"A<int>::" ++ name) t61_inc)) scoped class_tag false true values (Some self) in [
  at_top $"E1" false false 0 [($"E1_V0", $"E1_V0"); ($"E1_V1", $"E1_V1")];
  at_top $"E2_struct" true false 1 [($"V0", $"E2_struct::V0"); ($"V1", $"E2_struct::V1")];
  at_top $"E3_class" true true 2 [($"V0", $"E3_class::V0"); ($"V1", $"E3_class::V1")];
  inner Public $"AE1" false false 3 [($"AE1_V0", $"A<int>::AE1_V0"); ($"AE1_V1", $"A<int>::AE1_V1")];
  inner Public $"AE2_struct" true false 4 [];
  inner Public $"AE3_class" true true 5 [];
  inner Protected $"AE3_not_binded" false false 6 [($"AE3_V0_not_binded", $"A::AE3_V0_not_binded")];
  inner Private $"AE6_not_binded" true true 7 [($"AE6_V0_not_binded", $"A::AE6_V0_not_binded")]].

Definition t61_args : list targ := [Targ (KType int) $"int"].
Definition t61_fn (name : str) (line : nat) (t : qty) : fn :=
  fn0 (mknamed name name (Some t61_inc) line false Public false None None) void [arg t].
Definition t61_fns : list fn := [
  t61_fn $"fi_instantiated_by_use_in_function" 44 (TRec false 0 t61_args);
  t61_fn $"fi" 47 (TLRef (TRec false 0 t61_args)); t61_fn $"fi" 50 (TPtr false (TRec false 0 t61_args))].
Definition t61_rec : record :=
  special_of t61_args (cls (mknamed $"A" $"A" (Some t61_inc) 28 false Public false None None) 0 []
                           [MEnum 3; MEnum 4; MEnum 5; MEnum 6; MEnum 7]).
(** The reference file of this test was written without --skip-line-number. *)
Definition t61_options : options :=
  mkoptions true false true false false false $"T61_smart_holder" 102400%N false $"TEST" true.
Definition t61_w : world :=
  mkworld (unit_ [t61_rec] t61_fns t61_enums (fun _ => $"class A<int>") (fun _ => []))
          (config_of $"T61.smart_holder.config" $"+custom_shared my_shared_ptr
+smart_holder A
+pybind11_include_file pybind11/smart_holder.h") t61_options.
Definition t61_visits : list decl := [DEnum 0; DEnum 1; DEnum 2; DRec 0; DFun 0; DFun 1; DFun 2].
Definition t61_ref : str := $"// File: T61_smart_holder.cpp
#include <T61.smart_holder.hpp> // A
#include <T61.smart_holder.hpp> // E1
#include <T61.smart_holder.hpp> // E2_struct
#include <T61.smart_holder.hpp> // E3_class
#include <T61.smart_holder.hpp> // fi
#include <T61.smart_holder.hpp> // fi_instantiated_by_use_in_function
#include <sstream> // __str__

#include <functional>
#include <pybind11/smart_holder.h>
#include <string>

#ifndef BINDER_PYBIND11_TYPE_CASTER
	#define BINDER_PYBIND11_TYPE_CASTER
	PYBIND11_DECLARE_HOLDER_TYPE(T, my_shared_ptr<T>)
	PYBIND11_DECLARE_HOLDER_TYPE(T, T*)
	PYBIND11_MAKE_OPAQUE(my_shared_ptr<void>)
#endif

void bind_T61_smart_holder(std::function< pybind11::module &(std::string const &namespace_) > &M)
{
	// E1 file:T61.smart_holder.hpp line:21
	pybind11::enum_<E1>(M(""""), ""E1"", pybind11::arithmetic(), """")
		.value(""E1_V0"", E1_V0)
		.value(""E1_V1"", E1_V1)
		.export_values();

;

	// E2_struct file:T61.smart_holder.hpp line:23
	pybind11::enum_<E2_struct>(M(""""), ""E2_struct"", """")
		.value(""V0"", E2_struct::V0)
		.value(""V1"", E2_struct::V1)
		.export_values();

;

	// E3_class file:T61.smart_holder.hpp line:24
	pybind11::enum_<E3_class>(M(""""), ""E3_class"", """")
		.value(""V0"", E3_class::V0)
		.value(""V1"", E3_class::V1);

;

	{ // A file:T61.smart_holder.hpp line:28
		PYBIND11_TYPE_CASTER_BASE_HOLDER(A<int> , my_shared_ptr<A<int>>)
		pybind11::class_<A<int>, my_shared_ptr<A<int>>> cl(M(""""), ""A_int_t"", """");
		cl.def( pybind11::init( [](){ return new A<int>(); } ) );

		pybind11::enum_<A<int>::AE1>(cl, ""AE1"", pybind11::arithmetic(), """")
			.value(""AE1_V0"", A<int>::AE1_V0)
			.value(""AE1_V1"", A<int>::AE1_V1)
			.export_values();


		pybind11::enum_<A<int>::AE2_struct>(cl, ""AE2_struct"", """")
			.export_values();


		pybind11::enum_<A<int>::AE3_class>(cl, ""AE3_class"", """");

	}
	// fi_instantiated_by_use_in_function(class A<int>) file:T61.smart_holder.hpp line:44
	M("""").def(""fi_instantiated_by_use_in_function"", (void (*)(class A<int>)) &fi_instantiated_by_use_in_function, ""C++: fi_instantiated_by_use_in_function(class A<int>) --> void"", pybind11::arg(""""));

	// fi(class A<int> &) file:T61.smart_holder.hpp line:47
	M("""").def(""fi"", (void (*)(class A<int> &)) &fi, ""C++: fi(class A<int> &) --> void"", pybind11::arg(""""));

	// fi(class A<int> *) file:T61.smart_holder.hpp line:50
	M("""").def(""fi"", (void (*)(class A<int> *)) &fi, ""C++: fi(class A<int> *) --> void"", pybind11::arg(""""));

}


#include <map>
#include <algorithm>
#include <functional>
#include <memory>
#include <stdexcept>
#include <string>

#include <pybind11/smart_holder.h>

typedef std::function< pybind11::module & (std::string const &) > ModuleGetter;

void bind_T61_smart_holder(std::function< pybind11::module &(std::string const &namespace_) > &M);


PYBIND11_MODULE(T61_smart_holder, root_module) {
	root_module.doc() = ""T61_smart_holder module"";

	std::map <std::string, pybind11::module> modules;
	ModuleGetter M = [&](std::string const &namespace_) -> pybind11::module & {
		auto it = modules.find(namespace_);
		if( it == modules.end() ) throw std::runtime_error(""Attempt to access pybind11::module for namespace "" + namespace_ + "" before it was created!!!"");
		return it->second;
	};

	modules[""""] = root_module;

	static std::vector<std::string> const reserved_python_words {""nonlocal"", ""global"", };

	auto mangle_namespace_name(
		[](std::string const &ns) -> std::string {
			if ( std::find(reserved_python_words.begin(), reserved_python_words.end(), ns) == reserved_python_words.end() ) return ns;
			else return ns+'_';
		}
	);

	std::vector< std::pair<std::string, std::string> > sub_modules {
	};
	for(auto &p : sub_modules ) modules[p.first.size() ? p.first+""::""+p.second : p.second] = modules[p.first].def_submodule( mangle_namespace_name(p.second).c_str(), (""Bindings for "" + p.first + ""::"" + p.second + "" namespace"").c_str() );

	//pybind11::class_<std::shared_ptr<void>>(M(""""), ""_encapsulated_data_"");

	bind_T61_smart_holder(M);

}

// Source list file: TEST/T61_smart_holder.sources
// T61_smart_holder.cpp
// T61_smart_holder.cpp

// Modules list file: TEST/T61_smart_holder.modules
// 
".
Example t61 : writes t61_w t61_visits = updated t61_ref.
Proof. vm_compute. reflexivity. Qed.

(** /repo/test/T70.module_local.hpp and T70.module_local.ref.cpp *)
Definition t70_inc : str := $"<T70.module_local.hpp>".
Definition t70_rs : list record := [
  cls (nm $"A" $"aaa::A" t70_inc) 0 [] [MMethod 0]; cls (nm $"B" $"bbb::B" t70_inc) 1 [] [MMethod 1]].
Definition t70_fns : list fn := [
  meth (member_of 0 Public (nm $"foo" $"aaa::A::foo" t70_inc)) void [] false false false false;
  meth (member_of 1 Public (nm $"foo" $"bbb::B::foo" t70_inc)) void [] false false false false].
Definition t70_enums : list enum := [mkenum (nm $"E1" $"aaa::E1" t70_inc) false false false true [($"E1_V0", $"aaa::E1_V0"); ($"E1_V1", $"aaa::E1_V1")] (Some 0)].

Definition t70_w : world :=
  mkworld (unit_ t70_rs t70_fns t70_enums (fun r => nth r [$"class aaa::A"; $"class bbb::B"] []) (fun _ => []))
          (config_of $"T70.module_local.config" $"+module_local_namespace @all_namespaces
-module_local_namespace bbb") (test_options $"T70_module_local").
Definition t70_visits : list decl := [DRec 0; DRec 1].
Definition t70_ref : str := $"// File: T70_module_local.cpp
#include <T70.module_local.hpp> // aaa::A
#include <sstream> // __str__

#include <functional>
#include <pybind11/pybind11.h>
#include <string>

#ifndef BINDER_PYBIND11_TYPE_CASTER
	#define BINDER_PYBIND11_TYPE_CASTER
	PYBIND11_DECLARE_HOLDER_TYPE(T, std::shared_ptr<T>)
	PYBIND11_DECLARE_HOLDER_TYPE(T, T*)
	PYBIND11_MAKE_OPAQUE(std::shared_ptr<void>)
#endif

void bind_T70_module_local(std::function< pybind11::module &(std::string const &namespace_) > &M)
{
	{ // aaa::A file:T70.module_local.hpp line:
		pybind11::class_<aaa::A, std::shared_ptr<aaa::A>> cl(M(""aaa""), ""A"", """", pybind11::module_local());
		cl.def( pybind11::init( [](){ return new aaa::A(); } ) );
		cl.def(""foo"", (void (aaa::A::*)()) &aaa::A::foo, ""C++: aaa::A::foo() --> void"");
	}
}


// File: T70_module_local_1.cpp
#include <T70.module_local.hpp> // bbb::B
#include <sstream> // __str__

#include <functional>
#include <pybind11/pybind11.h>
#include <string>

#ifndef BINDER_PYBIND11_TYPE_CASTER
	#define BINDER_PYBIND11_TYPE_CASTER
	PYBIND11_DECLARE_HOLDER_TYPE(T, std::shared_ptr<T>)
	PYBIND11_DECLARE_HOLDER_TYPE(T, T*)
	PYBIND11_MAKE_OPAQUE(std::shared_ptr<void>)
#endif

void bind_T70_module_local_1(std::function< pybind11::module &(std::string const &namespace_) > &M)
{
	{ // bbb::B file:T70.module_local.hpp line:
		pybind11::class_<bbb::B, std::shared_ptr<bbb::B>> cl(M(""bbb""), ""B"", """");
		cl.def( pybind11::init( [](){ return new bbb::B(); } ) );
		cl.def(""foo"", (void (bbb::B::*)()) &bbb::B::foo, ""C++: bbb::B::foo() --> void"");
	}
}


#include <map>
#include <algorithm>
#include <functional>
#include <memory>
#include <stdexcept>
#include <string>

#include <pybind11/pybind11.h>

typedef std::function< pybind11::module & (std::string const &) > ModuleGetter;

void bind_T70_module_local(std::function< pybind11::module &(std::string const &namespace_) > &M);
void bind_T70_module_local_1(std::function< pybind11::module &(std::string const &namespace_) > &M);


PYBIND11_MODULE(T70_module_local, root_module) {
	root_module.doc() = ""T70_module_local module"";

	std::map <std::string, pybind11::module> modules;
	ModuleGetter M = [&](std::string const &namespace_) -> pybind11::module & {
		auto it = modules.find(namespace_);
		if( it == modules.end() ) throw std::runtime_error(""Attempt to access pybind11::module for namespace "" + namespace_ + "" before it was created!!!"");
		return it->second;
	};

	modules[""""] = root_module;

	static std::vector<std::string> const reserved_python_words {""nonlocal"", ""global"", };

	auto mangle_namespace_name(
		[](std::string const &ns) -> std::string {
			if ( std::find(reserved_python_words.begin(), reserved_python_words.end(), ns) == reserved_python_words.end() ) return ns;
			else return ns+'_';
		}
	);

	std::vector< std::pair<std::string, std::string> > sub_modules {
		{"""", ""aaa""},
		{"""", ""bbb""},
	};
	for(auto &p : sub_modules ) modules[p.first.size() ? p.first+""::""+p.second : p.second] = modules[p.first].def_submodule( mangle_namespace_name(p.second).c_str(), (""Bindings for "" + p.first + ""::"" + p.second + "" namespace"").c_str() );

	//pybind11::class_<std::shared_ptr<void>>(M(""""), ""_encapsulated_data_"");

	bind_T70_module_local(M);
	bind_T70_module_local_1(M);

}

// Source list file: TEST/T70_module_local.sources
// T70_module_local.cpp
// T70_module_local.cpp
// T70_module_local_1.cpp

// Modules list file: TEST/T70_module_local.modules
// aaa bbb 
".
Example t70 : writes t70_w t70_visits = updated t70_ref.
Proof. vm_compute. reflexivity. Qed.

(** /repo/test/T71.module_local.hpp and T71.module_local.ref.cpp *)
Definition t71_inc : str := $"<T71.module_local.hpp>".
Definition t71_rs : list record := [
  cls (nm $"A" $"aaa::A" t71_inc) 0 [] [MMethod 0]; cls (nm $"B" $"bbb::B" t71_inc) 1 [] [MMethod 1]].
Definition t71_fns : list fn := [
  meth (member_of 0 Public (nm $"foo" $"aaa::A::foo" t71_inc)) void [] false false false false;
  meth (member_of 1 Public (nm $"foo" $"bbb::B::foo" t71_inc)) void [] false false false false].
Definition t71_enums : list enum := [mkenum (nm $"E1" $"aaa::E1" t71_inc) false false false true [($"E1_V0", $"aaa::E1_V0"); ($"E1_V1", $"aaa::E1_V1")] (Some 0)].

Definition t71_w : world :=
  mkworld (unit_ t71_rs t71_fns t71_enums (fun r => nth r [$"class aaa::A"; $"class bbb::B"] []) (fun _ => []))
          (config_of $"T71.module_local.config" $"+module_local_namespace aaa") (test_options $"T71_module_local").
Definition t71_visits : list decl := [DRec 0; DEnum 0; DRec 1].
Definition t71_ref : str := $"// File: T71_module_local.cpp
#include <T71.module_local.hpp> // aaa::A
#include <T71.module_local.hpp> // aaa::E1
#include <sstream> // __str__

#include <functional>
#include <pybind11/pybind11.h>
#include <string>

#ifndef BINDER_PYBIND11_TYPE_CASTER
	#define BINDER_PYBIND11_TYPE_CASTER
	PYBIND11_DECLARE_HOLDER_TYPE(T, std::shared_ptr<T>)
	PYBIND11_DECLARE_HOLDER_TYPE(T, T*)
	PYBIND11_MAKE_OPAQUE(std::shared_ptr<void>)
#endif

void bind_T71_module_local(std::function< pybind11::module &(std::string const &namespace_) > &M)
{
	{ // aaa::A file:T71.module_local.hpp line:
		pybind11::class_<aaa::A, std::shared_ptr<aaa::A>> cl(M(""aaa""), ""A"", """", pybind11::module_local());
		cl.def( pybind11::init( [](){ return new aaa::A(); } ) );
		cl.def(""foo"", (void (aaa::A::*)()) &aaa::A::foo, ""C++: aaa::A::foo() --> void"");
	}
	// aaa::E1 file:T71.module_local.hpp line:
	pybind11::enum_<aaa::E1>(M(""aaa""), ""E1"", pybind11::arithmetic(), """", pybind11::module_local())
		.value(""E1_V0"", aaa::E1_V0)
		.value(""E1_V1"", aaa::E1_V1)
		.export_values();

;

}


// File: T71_module_local_1.cpp
#include <T71.module_local.hpp> // bbb::B
#include <sstream> // __str__

#include <functional>
#include <pybind11/pybind11.h>
#include <string>

#ifndef BINDER_PYBIND11_TYPE_CASTER
	#define BINDER_PYBIND11_TYPE_CASTER
	PYBIND11_DECLARE_HOLDER_TYPE(T, std::shared_ptr<T>)
	PYBIND11_DECLARE_HOLDER_TYPE(T, T*)
	PYBIND11_MAKE_OPAQUE(std::shared_ptr<void>)
#endif

void bind_T71_module_local_1(std::function< pybind11::module &(std::string const &namespace_) > &M)
{
	{ // bbb::B file:T71.module_local.hpp line:
		pybind11::class_<bbb::B, std::shared_ptr<bbb::B>> cl(M(""bbb""), ""B"", """");
		cl.def( pybind11::init( [](){ return new bbb::B(); } ) );
		cl.def(""foo"", (void (bbb::B::*)()) &bbb::B::foo, ""C++: bbb::B::foo() --> void"");
	}
}


#include <map>
#include <algorithm>
#include <functional>
#include <memory>
#include <stdexcept>
#include <string>

#include <pybind11/pybind11.h>

typedef std::function< pybind11::module & (std::string const &) > ModuleGetter;

void bind_T71_module_local(std::function< pybind11::module &(std::string const &namespace_) > &M);
void bind_T71_module_local_1(std::function< pybind11::module &(std::string const &namespace_) > &M);


PYBIND11_MODULE(T71_module_local, root_module) {
	root_module.doc() = ""T71_module_local module"";

	std::map <std::string, pybind11::module> modules;
	ModuleGetter M = [&](std::string const &namespace_) -> pybind11::module & {
		auto it = modules.find(namespace_);
		if( it == modules.end() ) throw std::runtime_error(""Attempt to access pybind11::module for namespace "" + namespace_ + "" before it was created!!!"");
		return it->second;
	};

	modules[""""] = root_module;

	static std::vector<std::string> const reserved_python_words {""nonlocal"", ""global"", };

	auto mangle_namespace_name(
		[](std::string const &ns) -> std::string {
			if ( std::find(reserved_python_words.begin(), reserved_python_words.end(), ns) == reserved_python_words.end() ) return ns;
			else return ns+'_';
		}
	);

	std::vector< std::pair<std::string, std::string> > sub_modules {
		{"""", ""aaa""},
		{"""", ""bbb""},
	};
	for(auto &p : sub_modules ) modules[p.first.size() ? p.first+""::""+p.second : p.second] = modules[p.first].def_submodule( mangle_namespace_name(p.second).c_str(), (""Bindings for "" + p.first + ""::"" + p.second + "" namespace"").c_str() );

	//pybind11::class_<std::shared_ptr<void>>(M(""""), ""_encapsulated_data_"");

	bind_T71_module_local(M);
	bind_T71_module_local_1(M);

}

// Source list file: TEST/T71_module_local.sources
// T71_module_local.cpp
// T71_module_local.cpp
// T71_module_local_1.cpp

// Modules list file: TEST/T71_module_local.modules
// aaa bbb 
".
Example t71 : writes t71_w t71_visits = updated t71_ref.
Proof. vm_compute. reflexivity. Qed.

(** /repo/test/T70.options.hpp and T70.options.ref.cpp *)
Definition t70o_inc : str := $"<T70.options.hpp>".
Definition t70o_cls (ns name : str) (self : nat) (ms : list member) : record := struct_of (cls (nm name (ns ++ $"::" ++ name) t70o_inc) self [] ms).
Definition t70o_fn (ns name : str) : fn := fn0 (nm name (ns ++ $"::" ++ name) t70o_inc) void [].
Definition t70o_rs : list record := [
  t70o_cls $"aaaa" $"AAAA" 0 [MMethod 0; MMethod 1]; t70o_cls $"aaaa::cccc" $"CCCC" 1 [];
  t70o_cls $"aaaa::bbbb" $"BBBB" 2 []; t70o_cls $"aaaa::bbbb" $"BBBB_not_binded" 3 []].
Definition t70o_fns : list fn := [
  meth (member_of 0 Public (nm $"foo" $"aaaa::AAAA::foo" t70o_inc)) void [] false false false false;
  meth (member_of 0 Public (nm $"foo" $"aaaa::AAAA::foo" t70o_inc)) void [arg int] true false false false;
  t70o_fn $"aaaa" $"foo_aaaa"; t70o_fn $"aaaa::cccc" $"foo_CCCC"; t70o_fn $"aaaa::bbbb" $"foo_bbbb"; t70o_fn $"aaaa::bbbb" $"foo_bbbb_not_binded"].
Definition t70o_enums : list enum := [mkenum (nm $"E1" $"aaaa::E1" t70o_inc) false false false true [($"E1_V0", $"aaaa::E1_V0"); ($"E1_V1", $"aaaa::E1_V1")] (Some 0)].
Definition t70o_w : world :=
  mkworld (unit_ t70o_rs t70o_fns t70o_enums (fun r => $"struct " ++ n_qname (r_decl (nth r t70o_rs norec))) (fun _ => []))
          (config_of $"T70.options.config" $"+prefix_for_static_member_functions static_

+namespace aaaa
-namespace aaaa::bbbb

+class aaaa::bbbb::BBBB
+function aaaa::bbbb::foo_bbbb
") (test_options $"T70_options").
Definition t70o_visits : list decl :=
  [DRec 0; DFun 2; DEnum 0; DRec 1; DFun 3; DRec 2; DFun 4; DRec 3; DFun 5].
Definition t70o_ref : str := $"// File: T70_options.cpp
#include <T70.options.hpp> // aaaa::AAAA
#include <T70.options.hpp> // aaaa::E1
#include <T70.options.hpp> // aaaa::foo_aaaa
#include <sstream> // __str__

#include <functional>
#include <pybind11/pybind11.h>
#include <string>

#ifndef BINDER_PYBIND11_TYPE_CASTER
	#define BINDER_PYBIND11_TYPE_CASTER
	PYBIND11_DECLARE_HOLDER_TYPE(T, std::shared_ptr<T>)
	PYBIND11_DECLARE_HOLDER_TYPE(T, T*)
	PYBIND11_MAKE_OPAQUE(std::shared_ptr<void>)
#endif

void bind_T70_options(std::function< pybind11::module &(std::string const &namespace_) > &M)
{
	{ // aaaa::AAAA file:T70.options.hpp line:
		pybind11::class_<aaaa::AAAA, std::shared_ptr<aaaa::AAAA>> cl(M(""aaaa""), ""AAAA"", """");
		cl.def( pybind11::init( [](){ return new aaaa::AAAA(); } ) );
		cl.def(""foo"", (void (aaaa::AAAA::*)()) &aaaa::AAAA::foo, ""C++: aaaa::AAAA::foo() --> void"");
		cl.def_static(""static_foo"", (void (*)(int)) &aaaa::AAAA::foo, ""C++: aaaa::AAAA::foo(int) --> void"", pybind11::arg(""""));
	}
	// aaaa::foo_aaaa() file:T70.options.hpp line:
	M(""aaaa"").def(""foo_aaaa"", (void (*)()) &aaaa::foo_aaaa, ""C++: aaaa::foo_aaaa() --> void"");

	// aaaa::E1 file:T70.options.hpp line:
	pybind11::enum_<aaaa::E1>(M(""aaaa""), ""E1"", pybind11::arithmetic(), """")
		.value(""E1_V0"", aaaa::E1_V0)
		.value(""E1_V1"", aaaa::E1_V1)
		.export_values();

;

}


// File: T70_options_1.cpp
#include <T70.options.hpp> // aaaa::cccc::CCCC
#include <T70.options.hpp> // aaaa::cccc::foo_CCCC
#include <sstream> // __str__

#include <functional>
#include <pybind11/pybind11.h>
#include <string>

#ifndef BINDER_PYBIND11_TYPE_CASTER
	#define BINDER_PYBIND11_TYPE_CASTER
	PYBIND11_DECLARE_HOLDER_TYPE(T, std::shared_ptr<T>)
	PYBIND11_DECLARE_HOLDER_TYPE(T, T*)
	PYBIND11_MAKE_OPAQUE(std::shared_ptr<void>)
#endif

void bind_T70_options_1(std::function< pybind11::module &(std::string const &namespace_) > &M)
{
	{ // aaaa::cccc::CCCC file:T70.options.hpp line:
		pybind11::class_<aaaa::cccc::CCCC, std::shared_ptr<aaaa::cccc::CCCC>> cl(M(""aaaa::cccc""), ""CCCC"", """");
		cl.def( pybind11::init( [](){ return new aaaa::cccc::CCCC(); } ) );
	}
	// aaaa::cccc::foo_CCCC() file:T70.options.hpp line:
	M(""aaaa::cccc"").def(""foo_CCCC"", (void (*)()) &aaaa::cccc::foo_CCCC, ""C++: aaaa::cccc::foo_CCCC() --> void"");

}


// File: T70_options_2.cpp
#include <T70.options.hpp> // aaaa::bbbb::BBBB
#include <T70.options.hpp> // aaaa::bbbb::foo_bbbb
#include <sstream> // __str__

#include <functional>
#include <pybind11/pybind11.h>
#include <string>

#ifndef BINDER_PYBIND11_TYPE_CASTER
	#define BINDER_PYBIND11_TYPE_CASTER
	PYBIND11_DECLARE_HOLDER_TYPE(T, std::shared_ptr<T>)
	PYBIND11_DECLARE_HOLDER_TYPE(T, T*)
	PYBIND11_MAKE_OPAQUE(std::shared_ptr<void>)
#endif

void bind_T70_options_2(std::function< pybind11::module &(std::string const &namespace_) > &M)
{
	{ // aaaa::bbbb::BBBB file:T70.options.hpp line:
		pybind11::class_<aaaa::bbbb::BBBB, std::shared_ptr<aaaa::bbbb::BBBB>> cl(M(""aaaa::bbbb""), ""BBBB"", """");
		cl.def( pybind11::init( [](){ return new aaaa::bbbb::BBBB(); } ) );
	}
	// aaaa::bbbb::foo_bbbb() file:T70.options.hpp line:
	M(""aaaa::bbbb"").def(""foo_bbbb"", (void (*)()) &aaaa::bbbb::foo_bbbb, ""C++: aaaa::bbbb::foo_bbbb() --> void"");

}


#include <map>
#include <algorithm>
#include <functional>
#include <memory>
#include <stdexcept>
#include <string>

#include <pybind11/pybind11.h>

typedef std::function< pybind11::module & (std::string const &) > ModuleGetter;

void bind_T70_options(std::function< pybind11::module &(std::string const &namespace_) > &M);
void bind_T70_options_1(std::function< pybind11::module &(std::string const &namespace_) > &M);
void bind_T70_options_2(std::function< pybind11::module &(std::string const &namespace_) > &M);


PYBIND11_MODULE(T70_options, root_module) {
	root_module.doc() = ""T70_options module"";

	std::map <std::string, pybind11::module> modules;
	ModuleGetter M = [&](std::string const &namespace_) -> pybind11::module & {
		auto it = modules.find(namespace_);
		if( it == modules.end() ) throw std::runtime_error(""Attempt to access pybind11::module for namespace "" + namespace_ + "" before it was created!!!"");
		return it->second;
	};

	modules[""""] = root_module;

	static std::vector<std::string> const reserved_python_words {""nonlocal"", ""global"", };

	auto mangle_namespace_name(
		[](std::string const &ns) -> std::string {
			if ( std::find(reserved_python_words.begin(), reserved_python_words.end(), ns) == reserved_python_words.end() ) return ns;
			else return ns+'_';
		}
	);

	std::vector< std::pair<std::string, std::string> > sub_modules {
		{"""", ""aaaa""},
		{""aaaa"", ""bbbb""},
		{""aaaa"", ""cccc""},
	};
	for(auto &p : sub_modules ) modules[p.first.size() ? p.first+""::""+p.second : p.second] = modules[p.first].def_submodule( mangle_namespace_name(p.second).c_str(), (""Bindings for "" + p.first + ""::"" + p.second + "" namespace"").c_str() );

	//pybind11::class_<std::shared_ptr<void>>(M(""""), ""_encapsulated_data_"");

	bind_T70_options(M);
	bind_T70_options_1(M);
	bind_T70_options_2(M);

}

// Source list file: TEST/T70_options.sources
// T70_options.cpp
// T70_options.cpp
// T70_options_1.cpp
// T70_options_2.cpp

// Modules list file: TEST/T70_options.modules
// aaaa aaaa.bbbb aaaa.cccc 
".
Example t70o : writes t70o_w t70o_visits = updated t70o_ref.
Proof. vm_compute. reflexivity. Qed.

(** /repo/test/T80.custom_trampoline.hpp and T80.custom_trampoline.ref.cpp *)
Definition t80_args : list targ := [Targ (KType double_) $"double"].
Definition t80_a : qty := TRec false 0 t80_args.
Definition t80_inc : str := $"<T80.custom_trampoline.hpp>".
Definition t80_mem (n : str) : named := member_of 0 Public (nm n ($"aaa::A<double>::" ++ n) t80_inc).
Definition t80_assign : fn :=
  mkfn (t80_mem $"operator=") (TLRef t80_a) [arg (TLRef (TRec true 0 t80_args))] true false false false false false false false
       true false false None TK_NonTemplate None 0 true.

Definition t80_fns : list fn := [
  meth (t80_mem $"foo") t80_a [] false false true false; t80_assign;
  ctor_of (t80_mem $"A<double>") [] (mkctor true None false) false;
  ctor_of (t80_mem $"A<double>") [arg (TLRef (TRec true 0 t80_args))] (mkctor false (Some true) false) false;
  ctor_of (t80_mem $"A<double>") [arg (TRRef t80_a)] (mkctor false None true) false].
Definition t80_w : world :=
  mkworld (unit_ [default_ctor true false (special_of t80_args (cls (nm $"A" $"aaa::A" t80_inc) 0 [] [MMethod 0; MMethod 1; MMethod 2; MMethod 3; MMethod 4]))] t80_fns []
                 (fun _ => $"class aaa::A<double>") (fun _ => []))
          (config_of $"T80.custom_trampoline.config" $"+include_for_class aaa::A <T80.custom_trampoline.include>
+trampoline_member_function_binder aaa::A::foo myFoo") (test_options $"T80_custom_trampoline").
Definition t80_visits : list decl := [DRec 0].
Definition t80_ref : str := $"// File: T80_custom_trampoline.cpp
#include <T80.custom_trampoline.hpp> // aaa::A
#include <T80.custom_trampoline.include> // +include_for_class
#include <sstream> // __str__

#include <functional>
#include <pybind11/pybind11.h>
#include <string>

#ifndef BINDER_PYBIND11_TYPE_CASTER
	#define BINDER_PYBIND11_TYPE_CASTER
	PYBIND11_DECLARE_HOLDER_TYPE(T, std::shared_ptr<T>)
	PYBIND11_DECLARE_HOLDER_TYPE(T, T*)
	PYBIND11_MAKE_OPAQUE(std::shared_ptr<void>)
#endif

// aaa::A file:T80.custom_trampoline.hpp line:
struct PyCallBack_aaa_A_double_t : public aaa::A<double> {
	using aaa::A<double>::A;

	class aaa::A<double> foo() override {
		return myFoo<A,PyCallBack_aaa_A_double_t>(this, ""aaa::A<double>"", ""foo"");
	}
};

void bind_T80_custom_trampoline(std::function< pybind11::module &(std::string const &namespace_) > &M)
{
	{ // aaa::A file:T80.custom_trampoline.hpp line:
		pybind11::class_<aaa::A<double>, std::shared_ptr<aaa::A<double>>, PyCallBack_aaa_A_double_t> cl(M(""aaa""), ""A_double_t"", """");
		cl.def( pybind11::init( [](){ return new aaa::A<double>(); }, [](){ return new PyCallBack_aaa_A_double_t(); } ) );
		cl.def( pybind11::init( [](PyCallBack_aaa_A_double_t const &o){ return new PyCallBack_aaa_A_double_t(o); } ) );
		cl.def( pybind11::init( [](aaa::A<double> const &o){ return new aaa::A<double>(o); } ) );
		cl.def(""foo"", (class aaa::A<double> (aaa::A<double>::*)()) &aaa::A<double>::foo, ""C++: aaa::A<double>::foo() --> class aaa::A<double>"");
		cl.def(""assign"", (class aaa::A<double> & (aaa::A<double>::*)(const class aaa::A<double> &)) &aaa::A<double>::operator=, ""C++: aaa::A<double>::operator=(const class aaa::A<double> &) --> class aaa::A<double> &"", pybind11::return_value_policy::automatic, pybind11::arg(""""));
	}
}


#include <map>
#include <algorithm>
#include <functional>
#include <memory>
#include <stdexcept>
#include <string>

#include <pybind11/pybind11.h>

typedef std::function< pybind11::module & (std::string const &) > ModuleGetter;

void bind_T80_custom_trampoline(std::function< pybind11::module &(std::string const &namespace_) > &M);


PYBIND11_MODULE(T80_custom_trampoline, root_module) {
	root_module.doc() = ""T80_custom_trampoline module"";

	std::map <std::string, pybind11::module> modules;
	ModuleGetter M = [&](std::string const &namespace_) -> pybind11::module & {
		auto it = modules.find(namespace_);
		if( it == modules.end() ) throw std::runtime_error(""Attempt to access pybind11::module for namespace "" + namespace_ + "" before it was created!!!"");
		return it->second;
	};

	modules[""""] = root_module;

	static std::vector<std::string> const reserved_python_words {""nonlocal"", ""global"", };

	auto mangle_namespace_name(
		[](std::string const &ns) -> std::string {
			if ( std::find(reserved_python_words.begin(), reserved_python_words.end(), ns) == reserved_python_words.end() ) return ns;
			else return ns+'_';
		}
	);

	std::vector< std::pair<std::string, std::string> > sub_modules {
		{"""", ""aaa""},
	};
	for(auto &p : sub_modules ) modules[p.first.size() ? p.first+""::""+p.second : p.second] = modules[p.first].def_submodule( mangle_namespace_name(p.second).c_str(), (""Bindings for "" + p.first + ""::"" + p.second + "" namespace"").c_str() );

	//pybind11::class_<std::shared_ptr<void>>(M(""""), ""_encapsulated_data_"");

	bind_T80_custom_trampoline(M);

}

// Source list file: TEST/T80_custom_trampoline.sources
// T80_custom_trampoline.cpp
// T80_custom_trampoline.cpp

// Modules list file: TEST/T80_custom_trampoline.modules
// aaa 
".
Example t80 : writes t80_w t80_visits = updated t80_ref.
Proof. vm_compute. reflexivity. Qed.

(** /repo/test/T00.basic.hpp and T00.basic.ref.cpp *)
Definition t00_inc : str := $"<T00.basic.hpp>".
Definition t00_fn (ns name : str) (ret : qty) (ps : list param) : fn := fn0 (nm name (ns ++ name) t00_inc) ret ps.
Definition t00_three (name : str) (ret t : qty) : list fn := map (fun t => t00_fn [] name ret [arg t]) [t; TLRef t; TPtr false t].
Definition t00_voidp (c : bool) : qty := TSugar c $"VoidP" (TPtr false void).
Definition t00_fns : list fn :=
  [t00_fn [] $"foo" void []] ++
  t00_three $"foo_char" int (TBuiltin false $"char") ++ t00_three $"foo_int" int int ++
  t00_three $"foo_float" float_ float_ ++ t00_three $"foo_double" double_ double_ ++
  map (fun t => t00_fn [] $"foo_void_p" (t00_voidp false) [arg t]) [t00_voidp false; TLRef (t00_voidp true); TLRef (t00_voidp false)] ++
  [t00_fn $"global::" $"foo" void []; t00_fn $"nonlocal::" $"foo" void []].
Definition t00_w : world :=
  mkworld (unit_ [] t00_fns [] (fun _ => []) (fun _ => [])) everything (test_options $"T00_basic").
Definition t00_visits : list decl := map DFun (seq 0 (length t00_fns)).
Definition t00_ref : str := $"// File: T00_basic.cpp
#include <T00.basic.hpp> // foo
#include <T00.basic.hpp> // foo_char
#include <T00.basic.hpp> // foo_double
#include <T00.basic.hpp> // foo_float
#include <T00.basic.hpp> // foo_int
#include <T00.basic.hpp> // foo_void_p

#include <functional>
#include <pybind11/pybind11.h>
#include <string>

#ifndef BINDER_PYBIND11_TYPE_CASTER
	#define BINDER_PYBIND11_TYPE_CASTER
	PYBIND11_DECLARE_HOLDER_TYPE(T, std::shared_ptr<T>)
	PYBIND11_DECLARE_HOLDER_TYPE(T, T*)
	PYBIND11_MAKE_OPAQUE(std::shared_ptr<void>)
#endif

void bind_T00_basic(std::function< pybind11::module &(std::string const &namespace_) > &M)
{
	// foo() file:T00.basic.hpp line:
	M("""").def(""foo"", (void (*)()) &foo, ""C++: foo() --> void"");

	// foo_char(char) file:T00.basic.hpp line:
	M("""").def(""foo_char"", (int (*)(char)) &foo_char, ""C++: foo_char(char) --> int"", pybind11::arg(""""));

	// foo_char(char &) file:T00.basic.hpp line:
	M("""").def(""foo_char"", (int (*)(char &)) &foo_char, ""C++: foo_char(char &) --> int"", pybind11::arg(""""));

	// foo_char(char *) file:T00.basic.hpp line:
	M("""").def(""foo_char"", (int (*)(char *)) &foo_char, ""C++: foo_char(char *) --> int"", pybind11::arg(""""));

	// foo_int(int) file:T00.basic.hpp line:
	M("""").def(""foo_int"", (int (*)(int)) &foo_int, ""C++: foo_int(int) --> int"", pybind11::arg(""""));

	// foo_int(int &) file:T00.basic.hpp line:
	M("""").def(""foo_int"", (int (*)(int &)) &foo_int, ""C++: foo_int(int &) --> int"", pybind11::arg(""""));

	// foo_int(int *) file:T00.basic.hpp line:
	M("""").def(""foo_int"", (int (*)(int *)) &foo_int, ""C++: foo_int(int *) --> int"", pybind11::arg(""""));

	// foo_float(float) file:T00.basic.hpp line:
	M("""").def(""foo_float"", (float (*)(float)) &foo_float, ""C++: foo_float(float) --> float"", pybind11::arg(""""));

	// foo_float(float &) file:T00.basic.hpp line:
	M("""").def(""foo_float"", (float (*)(float &)) &foo_float, ""C++: foo_float(float &) --> float"", pybind11::arg(""""));

	// foo_float(float *) file:T00.basic.hpp line:
	M("""").def(""foo_float"", (float (*)(float *)) &foo_float, ""C++: foo_float(float *) --> float"", pybind11::arg(""""));

	// foo_double(double) file:T00.basic.hpp line:
	M("""").def(""foo_double"", (double (*)(double)) &foo_double, ""C++: foo_double(double) --> double"", pybind11::arg(""""));

	// foo_double(double &) file:T00.basic.hpp line:
	M("""").def(""foo_double"", (double (*)(double &)) &foo_double, ""C++: foo_double(double &) --> double"", pybind11::arg(""""));

	// foo_double(double *) file:T00.basic.hpp line:
	M("""").def(""foo_double"", (double (*)(double *)) &foo_double, ""C++: foo_double(double *) --> double"", pybind11::arg(""""));

	// foo_void_p(void *) file:T00.basic.hpp line:
	M("""").def(""foo_void_p"", (void * (*)(void *)) &foo_void_p, ""C++: foo_void_p(void *) --> void *"", pybind11::return_value_policy::automatic, pybind11::arg(""""));

	// foo_void_p(void *const &) file:T00.basic.hpp line:
	M("""").def(""foo_void_p"", (void * (*)(void *const &)) &foo_void_p, ""C++: foo_void_p(void *const &) --> void *"", pybind11::return_value_policy::automatic, pybind11::arg(""""));

	// foo_void_p(void *&) file:T00.basic.hpp line:
	M("""").def(""foo_void_p"", (void * (*)(void *&)) &foo_void_p, ""C++: foo_void_p(void *&) --> void *"", pybind11::return_value_policy::automatic, pybind11::arg(""""));

}


// File: T00_basic_1.cpp
#include <T00.basic.hpp> // global::foo

#include <functional>
#include <pybind11/pybind11.h>
#include <string>

#ifndef BINDER_PYBIND11_TYPE_CASTER
	#define BINDER_PYBIND11_TYPE_CASTER
	PYBIND11_DECLARE_HOLDER_TYPE(T, std::shared_ptr<T>)
	PYBIND11_DECLARE_HOLDER_TYPE(T, T*)
	PYBIND11_MAKE_OPAQUE(std::shared_ptr<void>)
#endif

void bind_T00_basic_1(std::function< pybind11::module &(std::string const &namespace_) > &M)
{
	// global::foo() file:T00.basic.hpp line:
	M(""global"").def(""foo"", (void (*)()) &global::foo, ""C++: global::foo() --> void"");

}


// File: T00_basic_2.cpp
#include <T00.basic.hpp> // nonlocal::foo

#include <functional>
#include <pybind11/pybind11.h>
#include <string>

#ifndef BINDER_PYBIND11_TYPE_CASTER
	#define BINDER_PYBIND11_TYPE_CASTER
	PYBIND11_DECLARE_HOLDER_TYPE(T, std::shared_ptr<T>)
	PYBIND11_DECLARE_HOLDER_TYPE(T, T*)
	PYBIND11_MAKE_OPAQUE(std::shared_ptr<void>)
#endif

void bind_T00_basic_2(std::function< pybind11::module &(std::string const &namespace_) > &M)
{
	// nonlocal::foo() file:T00.basic.hpp line:
	M(""nonlocal"").def(""foo"", (void (*)()) &nonlocal::foo, ""C++: nonlocal::foo() --> void"");

}


#include <map>
#include <algorithm>
#include <functional>
#include <memory>
#include <stdexcept>
#include <string>

#include <pybind11/pybind11.h>

typedef std::function< pybind11::module & (std::string const &) > ModuleGetter;

void bind_T00_basic(std::function< pybind11::module &(std::string const &namespace_) > &M);
void bind_T00_basic_1(std::function< pybind11::module &(std::string const &namespace_) > &M);
void bind_T00_basic_2(std::function< pybind11::module &(std::string const &namespace_) > &M);


PYBIND11_MODULE(T00_basic, root_module) {
	root_module.doc() = ""T00_basic module"";

	std::map <std::string, pybind11::module> modules;
	ModuleGetter M = [&](std::string const &namespace_) -> pybind11::module & {
		auto it = modules.find(namespace_);
		if( it == modules.end() ) throw std::runtime_error(""Attempt to access pybind11::module for namespace "" + namespace_ + "" before it was created!!!"");
		return it->second;
	};

	modules[""""] = root_module;

	static std::vector<std::string> const reserved_python_words {""nonlocal"", ""global"", };

	auto mangle_namespace_name(
		[](std::string const &ns) -> std::string {
			if ( std::find(reserved_python_words.begin(), reserved_python_words.end(), ns) == reserved_python_words.end() ) return ns;
			else return ns+'_';
		}
	);

	std::vector< std::pair<std::string, std::string> > sub_modules {
		{"""", ""global""},
		{"""", ""nonlocal""},
	};
	for(auto &p : sub_modules ) modules[p.first.size() ? p.first+""::""+p.second : p.second] = modules[p.first].def_submodule( mangle_namespace_name(p.second).c_str(), (""Bindings for "" + p.first + ""::"" + p.second + "" namespace"").c_str() );

	//pybind11::class_<std::shared_ptr<void>>(M(""""), ""_encapsulated_data_"");

	bind_T00_basic(M);
	bind_T00_basic_1(M);
	bind_T00_basic_2(M);

}

// Source list file: TEST/T00_basic.sources
// T00_basic.cpp
// T00_basic.cpp
// T00_basic_1.cpp
// T00_basic_2.cpp

// Modules list file: TEST/T00_basic.modules
// global nonlocal 
".
Example t00 : writes t00_w t00_visits = updated t00_ref.
Proof. vm_compute. reflexivity. Qed.

(** /repo/test/T07.class.hpp and T07.class.ref.cpp *)
Definition t07_inc : str := $"<T07.class.hpp>".
Definition t07_names : list str :=
  [$"Integral"; $"Floating_point"; $"Arrays"; $"Pointers_and_References"; $"Consts"; $"Enums"; $"Access"; $"ConstOverload"].
Definition t07_name (r : nat) : str := nth r t07_names [].
Definition t07_mem (r : nat) (a : access) (n : str) : named := member_of r a (nm n (t07_name r ++ $"::" ++ n) t07_inc).
Definition t07_field (r : nat) (a : access) (n : str) (t : qty) : member := MField (mkfield (t07_mem r a n) t false).
Definition t07_b (n : str) : qty := TBuiltin false n.
Definition t07_ctor (r : nat) (ps : list param) (k : ctor) (deleted : bool) : fn := ctor_of (t07_mem r Public (t07_name r)) ps k deleted.
Definition t07_fns : list fn := [
  t07_ctor 0 [arg (TLRef (TRec true 0 []))] (mkctor false (Some true) false) false;
  t07_ctor 0 [arg (TRRef (TRec false 0 []))] (mkctor false None true) false;
  t07_ctor 0 [] (mkctor true None false) false;
  assign_of (t07_mem 0 Public $"operator=") 0;
  t07_ctor 3 [] (mkctor true None false) true;
  t07_ctor 4 [] (mkctor true None false) false;
  t07_ctor 4 [arg (TLRef (TRec true 4 []))] (mkctor false (Some true) false) false;
  meth (t07_mem 6 Public $"foo_public") void [] false false false false;
  meth (t07_mem 6 Public $"foo") float_ [arg double_] true false false false;
  meth (t07_mem 6 Protected $"foo_protected_not_binded") void [] false false false false;
  meth (t07_mem 6 Private $"foo_private_not_binded") void [] false false false false;
  meth (t07_mem 7 Public $"foo") void [arg int] false false false false;
  meth (t07_mem 7 Public $"foo") void [arg int] false true false false].
Definition t07_enum (a : access) (name : str) (scoped : bool) (self : nat) (values : list (str * str)) : enum :=
  mkenum (t07_mem 5 a name) scoped scoped false true values (Some self).
Definition t07_enums : list enum := [
  t07_enum Public $"E1" false 0 [($"E1V", $"Enums::E1V")]; t07_enum Public $"E2" true 1 [($"E2V", $"Enums::E2::E2V")];
  t07_enum Public $"E3" true 2 []; t07_enum Protected $"EP0_not_binded" false 3 [($"EP0V", $"Enums::EP0V")];
  t07_enum Private $"EP1_not_binded" false 4 [($"EP1V", $"Enums::EP1V")]].
Definition t07_r (r : nat) (ms : list member) : record := cls (nm (t07_name r) (t07_name r) t07_inc) r [] ms.
Definition t07_array (t : qty) : qty := TArray false t.
Definition t07_rs : list record := [
  struct_of (default_ctor true false (t07_r 0
    [t07_field 0 Public $"i" int; t07_field 0 Public $"ui" (t07_b $"unsigned int"); t07_field 0 Public $"l" (t07_b $"long");
     t07_field 0 Public $"ul" (t07_b $"unsigned long"); MMethod 0; MMethod 1; MMethod 2; MMethod 3]));
  struct_of (t07_r 1 [t07_field 1 Public $"f" float_; t07_field 1 Public $"d" double_; t07_field 1 Public $"ld" (t07_b $"long double")]);
  struct_of (t07_r 2
    [t07_field 2 Public $"i__not_binded" (t07_array int); t07_field 2 Public $"ii_not_binded" (t07_array (t07_array int));
     t07_field 2 Public $"f__not_binded" (t07_array float_)]);
  struct_of (default_ctor true false (t07_r 3
    [MMethod 4; t07_field 3 Public $"ip_not_binded" (TPtr false int); t07_field 3 Public $"i_r" (TLRef int)]));
  default_ctor true false (t07_r 4
    [t07_field 4 Private $"private_int_not_binded" const_int; t07_field 4 Public $"public_Integral" (TRec true 0 []);
     t07_field 4 Public $"public_int" const_int; t07_field 4 Public $"ip_not_binded" (TPtr false const_int); MMethod 5; MMethod 6]);
  t07_r 5 [MEnum 0; MEnum 1; MEnum 2; MEnum 3; MEnum 4];
  t07_r 6
    [t07_field 6 Public $"i" int; MMethod 7; MMethod 8; t07_field 6 Protected $"i_protected_not_binded" int; MMethod 9;
     t07_field 6 Private $"i_not_binded" int; MMethod 10];
  struct_of (t07_r 7 [MMethod 11; MMethod 12])].
Definition t07_w : world :=
  mkworld (unit_ t07_rs t07_fns t07_enums (fun r => (if r_struct (nth r t07_rs norec) then $"struct " else $"class ") ++ t07_name r) (fun _ => []))
          everything (test_options $"T07_class").
Definition t07_visits : list decl := map DRec (seq 0 (length t07_rs)).
Definition t07_ref : str := $"// File: T07_class.cpp
#include <T07.class.hpp> // Access
#include <T07.class.hpp> // Arrays
#include <T07.class.hpp> // ConstOverload
#include <T07.class.hpp> // Consts
#include <T07.class.hpp> // Enums
#include <T07.class.hpp> // Floating_point
#include <T07.class.hpp> // Integral
#include <T07.class.hpp> // Pointers_and_References
#include <sstream> // __str__

#include <functional>
#include <pybind11/pybind11.h>
#include <string>

#ifndef BINDER_PYBIND11_TYPE_CASTER
	#define BINDER_PYBIND11_TYPE_CASTER
	PYBIND11_DECLARE_HOLDER_TYPE(T, std::shared_ptr<T>)
	PYBIND11_DECLARE_HOLDER_TYPE(T, T*)
	PYBIND11_MAKE_OPAQUE(std::shared_ptr<void>)
#endif

void bind_T07_class(std::function< pybind11::module &(std::string const &namespace_) > &M)
{
	{ // Integral file:T07.class.hpp line:
		pybind11::class_<Integral, std::shared_ptr<Integral>> cl(M(""""), ""Integral"", """");
		cl.def( pybind11::init( [](Integral const &o){ return new Integral(o); } ) );
		cl.def( pybind11::init( [](){ return new Integral(); } ) );
		cl.def_readwrite(""i"", &Integral::i);
		cl.def_readwrite(""ui"", &Integral::ui);
		cl.def_readwrite(""l"", &Integral::l);
		cl.def_readwrite(""ul"", &Integral::ul);
		cl.def(""assign"", (struct Integral & (Integral::*)(const struct Integral &)) &Integral::operator=, ""C++: Integral::operator=(const struct Integral &) --> struct Integral &"", pybind11::return_value_policy::automatic, pybind11::arg(""""));
	}
	{ // Floating_point file:T07.class.hpp line:
		pybind11::class_<Floating_point, std::shared_ptr<Floating_point>> cl(M(""""), ""Floating_point"", """");
		cl.def( pybind11::init( [](){ return new Floating_point(); } ) );
		cl.def_readwrite(""f"", &Floating_point::f);
		cl.def_readwrite(""d"", &Floating_point::d);
		cl.def_readwrite(""ld"", &Floating_point::ld);
	}
	{ // Arrays file:T07.class.hpp line:
		pybind11::class_<Arrays, std::shared_ptr<Arrays>> cl(M(""""), ""Arrays"", """");
		cl.def( pybind11::init( [](){ return new Arrays(); } ) );
	}
	{ // Pointers_and_References file:T07.class.hpp line:
		pybind11::class_<Pointers_and_References, std::shared_ptr<Pointers_and_References>> cl(M(""""), ""Pointers_and_References"", """");
	}
	{ // Consts file:T07.class.hpp line:
		pybind11::class_<Consts, std::shared_ptr<Consts>> cl(M(""""), ""Consts"", """");
		cl.def( pybind11::init( [](){ return new Consts(); } ) );
		cl.def( pybind11::init( [](Consts const &o){ return new Consts(o); } ) );
		cl.def_readonly(""public_Integral"", &Consts::public_Integral);
		cl.def_readonly(""public_int"", &Consts::public_int);
	}
	{ // Enums file:T07.class.hpp line:
		pybind11::class_<Enums, std::shared_ptr<Enums>> cl(M(""""), ""Enums"", """");
		cl.def( pybind11::init( [](){ return new Enums(); } ) );

		pybind11::enum_<Enums::E1>(cl, ""E1"", pybind11::arithmetic(), """")
			.value(""E1V"", Enums::E1V)
			.export_values();


		pybind11::enum_<Enums::E2>(cl, ""E2"", """")
			.value(""E2V"", Enums::E2::E2V);


		pybind11::enum_<Enums::E3>(cl, ""E3"", """");

	}
	{ // Access file:T07.class.hpp line:
		pybind11::class_<Access, std::shared_ptr<Access>> cl(M(""""), ""Access"", """");
		cl.def( pybind11::init( [](){ return new Access(); } ) );
		cl.def_readwrite(""i"", &Access::i);
		cl.def(""foo_public"", (void (Access::*)()) &Access::foo_public, ""C++: Access::foo_public() --> void"");
		cl.def_static(""foo"", (float (*)(double)) &Access::foo, ""C++: Access::foo(double) --> float"", pybind11::arg(""""));
	}
	{ // ConstOverload file:T07.class.hpp line:
		pybind11::class_<ConstOverload, std::shared_ptr<ConstOverload>> cl(M(""""), ""ConstOverload"", """");
		cl.def( pybind11::init( [](){ return new ConstOverload(); } ) );
		cl.def(""foo"", (void (ConstOverload::*)(int)) &ConstOverload::foo, ""C++: ConstOverload::foo(int) --> void"", pybind11::arg(""""));
	}
}


#include <map>
#include <algorithm>
#include <functional>
#include <memory>
#include <stdexcept>
#include <string>

#include <pybind11/pybind11.h>

typedef std::function< pybind11::module & (std::string const &) > ModuleGetter;

void bind_T07_class(std::function< pybind11::module &(std::string const &namespace_) > &M);


PYBIND11_MODULE(T07_class, root_module) {
	root_module.doc() = ""T07_class module"";

	std::map <std::string, pybind11::module> modules;
	ModuleGetter M = [&](std::string const &namespace_) -> pybind11::module & {
		auto it = modules.find(namespace_);
		if( it == modules.end() ) throw std::runtime_error(""Attempt to access pybind11::module for namespace "" + namespace_ + "" before it was created!!!"");
		return it->second;
	};

	modules[""""] = root_module;

	static std::vector<std::string> const reserved_python_words {""nonlocal"", ""global"", };

	auto mangle_namespace_name(
		[](std::string const &ns) -> std::string {
			if ( std::find(reserved_python_words.begin(), reserved_python_words.end(), ns) == reserved_python_words.end() ) return ns;
			else return ns+'_';
		}
	);

	std::vector< std::pair<std::string, std::string> > sub_modules {
	};
	for(auto &p : sub_modules ) modules[p.first.size() ? p.first+""::""+p.second : p.second] = modules[p.first].def_submodule( mangle_namespace_name(p.second).c_str(), (""Bindings for "" + p.first + ""::"" + p.second + "" namespace"").c_str() );

	//pybind11::class_<std::shared_ptr<void>>(M(""""), ""_encapsulated_data_"");

	bind_T07_class(M);

}

// Source list file: TEST/T07_class.sources
// T07_class.cpp
// T07_class.cpp

// Modules list file: TEST/T07_class.modules
// 
".
Example t07 : writes t07_w t07_visits = updated t07_ref.
Proof. vm_compute. reflexivity. Qed.
