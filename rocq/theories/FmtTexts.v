(** What each format string of the sources stands for. *)
From Coq Require Import Ascii String Bool Arith NArith.
From Coq Require Import List.
From Verif Require Import Str Util Fmt FmtStrings.
Import ListNotations.
Local Ltac text := vm_compute; reflexivity.
Local Ltac text_last a := rewrite <- (app_nil_r a) at 2; text.
Lemma text_readonly a b c : format fs_readonly [a; b; c] = Ok ($".def_readonly(""" ++ a ++ $""", &" ++ b ++ $"::" ++ c ++ $")").
Proof. text. Qed.
Lemma text_readwrite a b c : format fs_readwrite [a; b; c] = Ok ($".def_readwrite(""" ++ a ++ $""", &" ++ b ++ $"::" ++ c ++ $")").
Proof. text. Qed.
Lemma text_alias a b : format fs_alias [a; b] = Ok ($"	using " ++ a ++ $" = " ++ b ++ $";
").
Proof. text. Qed.
Lemma text_overrider a b c d e : format fs_overrider [a; b; c; d; e] = Ok ($"	" ++ a ++ $" " ++ b ++ $"(" ++ c ++ $")" ++ d ++ $" " ++ e ++ $"override {").
Proof. text. Qed.
Lemma text_pure_call a b : format fs_pure_call [a; b] = Ok ($"		pybind11::pybind11_fail(""Tried to call pure virtual function \""" ++ a ++ $"::" ++ b ++ $"\"""");
").
Proof. text. Qed.
Lemma text_base_call a b c : format fs_base_call [a; b; c] = Ok ($"		return " ++ a ++ $"::" ++ b ++ $"(" ++ c ++ $");
").
Proof. text. Qed.
Lemma text_custom_call a b c d e : format fs_custom_call [a; b; c; d; e] = Ok ($"
		return " ++ a ++ $"<" ++ b ++ $"," ++ c ++ $">(this, """ ++ d ++ $""", """ ++ e ++ $"""").
Proof. text. Qed.
Lemma text_custom_args a : format fs_custom_args [a] = Ok ($", " ++ a).
Proof. text_last a. Qed.
Lemma text_structure a b c : format fs_structure [a; b; c] = Ok ($"struct " ++ a ++ $" : public " ++ b ++ $" {
	using " ++ b ++ $"::" ++ c ++ $";

").
Proof. text. Qed.
Lemma text_base_class a : format fs_base_class [a] = Ok ($", " ++ a).
Proof. text_last a. Qed.
Lemma text_init a : format fs_init [a] = Ok ($"	cl.def( pybind11::init<" ++ a ++ $">()").
Proof. text. Qed.
Lemma text_ctor_arg a : format fs_ctor_arg [a] = Ok ($", pybind11::arg(""" ++ a ++ $""")").
Proof. text. Qed.
Lemma text_ctor_arg2 a : format fs_ctor_arg2 [a] = Ok ($", pybind11::arg(""" ++ a ++ $""")").
Proof. text. Qed.
Lemma text_default_abstract a : format fs_default_abstract [a] = Ok ($"	cl.def( pybind11::init( [](){ return new " ++ a ++ $"(); } ) );
").
Proof. text. Qed.
Lemma text_default_trampoline a b : format fs_default_trampoline [a; b] = Ok ($"	cl.def( pybind11::init( [](){ return new " ++ a ++ $"(); }, [](){ return new " ++ b ++ $"(); } ) );
").
Proof. text. Qed.
Lemma text_default_plain a : format fs_default_plain [a] = Ok ($"	cl.def( pybind11::init( [](){ return new " ++ a ++ $"(); } ) );
").
Proof. text. Qed.
Lemma text_copy_abstract a b : format fs_copy_abstract [a; b] = Ok ($"	cl.def(pybind11::init<" ++ a ++ b ++ $" &>());
").
Proof. text. Qed.
Lemma text_copy_trampoline a b : format fs_copy_trampoline [a; b] = Ok ($"	cl.def( pybind11::init( [](" ++ a ++ b ++ $" &o){ return new " ++ a ++ $"(o); } ) );
").
Proof. text. Qed.
Lemma text_copy_class a b : format fs_copy_class [a; b] = Ok ($"	cl.def( pybind11::init( [](" ++ a ++ b ++ $" &o){ return new " ++ a ++ $"(o); } ) );
").
Proof. text. Qed.
Lemma text_copy_plain a b : format fs_copy_plain [a; b] = Ok ($"	cl.def( pybind11::init( [](" ++ a ++ b ++ $" &o){ return new " ++ a ++ $"(o); } ) );
").
Proof. text. Qed.
Lemma text_using_namespace a : format fs_using_namespace [a] = Ok ($" using namespace " ++ a ++ $";").
Proof. text. Qed.
Lemma text_str_function a b : format fs_str_function [a; b] = Ok ($"
	cl.def(""__str__"", [](" ++ a ++ $" const &o) -> std::string { std::ostringstream s;" ++ b ++ $" s << o; return s.str(); } );
").
Proof. text. Qed.
Lemma text_holder a b : format fs_holder [a; b] = Ok ($", " ++ a ++ $"<" ++ b ++ $">").
Proof. text. Qed.
Lemma text_holder_smart a b : format fs_holder_smart [a; b] = Ok ($", " ++ a ++ $"<" ++ b ++ $">").
Proof. text. Qed.
Lemma text_caster a b : format fs_caster [a; b] = Ok ($"PYBIND11_TYPE_CASTER_BASE_HOLDER(" ++ a ++ $" " ++ b ++ $")").
Proof. text. Qed.
Lemma text_class_ a b c d e f g h : format fs_class_ [a; b; c; d; e; f; g; h] = Ok ($"pybind11::class_<" ++ a ++ b ++ c ++ d ++ $"> cl(" ++ e ++ $", """ ++ f ++ $""", """ ++ g ++ $"""" ++ h ++ $");").
Proof. text. Qed.
Lemma text_add_on a : format fs_add_on [a] = Ok ($"
	" ++ a ++ $"(cl);
").
Proof. text. Qed.
Lemma text_namespace_binder a b : format fs_namespace_binder [a; b] = Ok ($"
	" ++ a ++ $"(M(""" ++ b ++ $"""));
").
Proof. text. Qed.
Lemma text_namespace_add_on a b : format fs_namespace_add_on [a; b] = Ok ($"
	" ++ a ++ $"(M(""" ++ b ++ $"""));
").
Proof. text. Qed.
Lemma text_namespace_pair a b : format fs_namespace_pair [a; b] = Ok ($"		{""" ++ a ++ $""", """ ++ b ++ $"""},
").
Proof. text. Qed.
Lemma text_enum a b c d e f : format fs_enum [a; b; c; d; e; f] = Ok ($"	pybind11::enum_<" ++ a ++ $">(" ++ b ++ $", """ ++ c ++ $"""" ++ d ++ $", """ ++ e ++ $"""" ++ f ++ $")
").
Proof. text. Qed.
Lemma text_enum_value a b : format fs_enum_value [a; b] = Ok ($"		.value(""" ++ a ++ $""", " ++ b ++ $")
").
Proof. text. Qed.
Lemma text_enum_value_old a b : format fs_enum_value_old [a; b] = Ok ($"		.value(""" ++ a ++ $""", " ++ b ++ $")
").
Proof. text. Qed.
Lemma text_pointer a : format fs_pointer [a] = Ok ($" (" ++ a ++ $"*)(").
Proof. text. Qed.
Lemma text_function a b c : format fs_function [a; b; c] = Ok ($"(" ++ a ++ $") &" ++ b ++ c).
Proof. text_last c. Qed.
Lemma text_lambda_member a b c d e : format fs_lambda_member [a; b; c; d; e] = Ok ($"[](" ++ a ++ b ++ $") -> " ++ c ++ $" { return o." ++ d ++ $"(" ++ e ++ $"); }").
Proof. text. Qed.
Lemma text_lambda a b c d : format fs_lambda [a; b; c; d] = Ok ($"[](" ++ a ++ $") -> " ++ b ++ $" { return " ++ c ++ $"(" ++ d ++ $"); }").
Proof. text. Qed.
Lemma text_def a b c d e : format fs_def [a; b; c; d; e] = Ok ($".def" ++ a ++ $"(""" ++ b ++ $""", " ++ c ++ $", """ ++ d ++ $"""" ++ e).
Proof. text_last e. Qed.
Lemma text_arg a : format fs_arg [a] = Ok ($", pybind11::arg(""" ++ a ++ $""")").
Proof. text. Qed.
Lemma text_call_back a b c d : format fs_call_back [a; b; c; d] = Ok ($"
pybind11::gil_scoped_acquire gil;
pybind11::function overload = pybind11::get_overload(static_cast<const " ++ a ++ $" *>(this), """ ++ b ++ $""");
if (overload) {
	auto o = overload.operator()<pybind11::return_value_policy::reference>(" ++ c ++ $");
	if (pybind11::detail::cast_is_temporary_value_reference<" ++ d ++ $">::value) {
		static pybind11::detail::override_caster_t<" ++ d ++ $"> caster;
		return pybind11::detail::cast_ref<" ++ d ++ $">(std::move(o), caster);
	}
	return pybind11::detail::cast_safe<" ++ d ++ $">(std::move(o));
}
").
Proof. text. Qed.
Lemma text_main_module a b c d e : format fs_main_module [a; b; c; d; e] = Ok ($"#include <map>
#include <algorithm>
#include <functional>
#include <memory>
#include <stdexcept>
#include <string>

" ++ a ++ $"

using ModuleGetter = std::function< pybind11::module & (std::string const &) >;

" ++ b ++ $"

PYBIND11_MODULE(" ++ c ++ $", root_module) {
	root_module.doc() = """ ++ c ++ $" module"";

	std::map <std::string, pybind11::module> modules;
	ModuleGetter M = [&](std::string const &namespace_) -> pybind11::module & {
		auto it = modules.find(namespace_);
		if( it == modules.end() ) throw std::runtime_error(""Attempt to access pybind11::module for namespace "" + namespace_ + "" before it was created!!!"");
		return it->second;
	};

	modules[""""] = root_module;

	static std::vector<std::string> const reserved_python_words {""nonlocal"", ""global"", };

	auto mangle_namespace_name(
		[](std::string const &ns) -> std::string {
			if ( std::find(reserved_python_words.begin(), reserved_python_words.end(), ns) == reserved_python_words.end() ) return ns;
			return ns+'_';
		}
	);

	std::vector< std::pair<std::string, std::string> > sub_modules {
" ++ d ++ $"	};
	for(auto &p : sub_modules ) modules[ p.first.empty() ? p.second :  p.first+""::""+p.second ] = modules[p.first].def_submodule( mangle_namespace_name(p.second).c_str(), (""Bindings for "" + p.first + ""::"" + p.second + "" namespace"").c_str() );

	//pybind11::class_<std::shared_ptr<void>>(M(""""), ""_encapsulated_data_"");

" ++ e ++ $"
}
").
Proof. text. Qed.
Lemma text_module_header a b c d : format fs_module_header [a; b; c; d] = Ok ($"
#include <functional>
" ++ a ++ $"
#include <string>
" ++ b ++ $"
#ifndef BINDER_PYBIND11_TYPE_CASTER
	#define BINDER_PYBIND11_TYPE_CASTER
	" ++ c ++ $"
	PYBIND11_DECLARE_HOLDER_TYPE(T, T*, false)
	" ++ d ++ $"
#endif

").
Proof. text. Qed.
Lemma text_ctor_abstract a b c : format fs_ctor_abstract [a; b; c] = Ok ($"	cl.def( pybind11::init( [](" ++ a ++ $"){ return new " ++ c ++ $"(" ++ b ++ $"); } ), ""doc"");").
Proof. text. Qed.
Lemma text_ctor_plain a b c d : format fs_ctor_plain [a; b; c; d] = Ok ($"	cl.def( pybind11::init( [](" ++ a ++ $"){ return new " ++ c ++ $"(" ++ b ++ $"); } ), ""doc"" " ++ d ++ $");").
Proof. text. Qed.
Lemma text_ctor_trampoline a b c d : format fs_ctor_trampoline [a; b; c; d] = Ok ($"	cl.def( pybind11::init( [](" ++ a ++ $"){ return new " ++ c ++ $"(" ++ b ++ $"); }, [](" ++ a ++ $"){ return new " ++ d ++ $"(" ++ b ++ $"); } ), ""doc"");").
Proof. text. Qed.
