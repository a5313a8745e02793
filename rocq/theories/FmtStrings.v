(** The format strings of the sources, copied character by character.  Each is
    the argument of [fmt::format] or of the operator [_format] at the cited
    place; C++ escapes are resolved. *)
From Coq Require Import Ascii String.
From Coq Require Import List.
From Verif Require Import Str.
Import ListNotations.

(** class.cpp:165 *)
Definition fs_readonly : str := $".def_readonly(""{}"", &{}::{})".
(** class.cpp:166 *)
Definition fs_readwrite : str := $".def_readwrite(""{}"", &{}::{})".
(** class.cpp:756 *)
Definition fs_alias : str := $"	using {} = {};
".
(** class.cpp:770 *)
Definition fs_overrider : str := $"	{} {}({}){} {}override {{".
(** class.cpp:781 *)
Definition fs_pure_call : str := $"		pybind11::pybind11_fail(""Tried to call pure virtual function \""{}::{}\"""");
".
(** class.cpp:783 *)
Definition fs_base_call : str := $"		return {}::{}({});
".
(** class.cpp:787 *)
Definition fs_custom_call : str := $"
		return {}<{},{}>(this, ""{}"", ""{}""".
(** class.cpp:789 *)
Definition fs_custom_args : str := $", {}".
(** class.cpp:832 *)
Definition fs_structure : str := $"struct {0} : public {1} {{
	using {1}::{2};

".
(** class.cpp:965 *)
Definition fs_base_class : str := $", {}".
(** class.cpp:1043 *)
Definition fs_init : str := $"	cl.def( pybind11::init<{}>()".
(** class.cpp:1046 *)
Definition fs_ctor_arg : str := $", pybind11::arg(""{}"")".
(** class.cpp:1060 *)
Definition fs_ctor_arg2 : str := $", pybind11::arg(""{}"")".
(** class.cpp:1096 *)
Definition fs_default_abstract : str := $"	cl.def( pybind11::init( [](){{ return new {0}(); }} ) );
".
(** class.cpp:1097 *)
Definition fs_default_trampoline : str := $"	cl.def( pybind11::init( [](){{ return new {0}(); }}, [](){{ return new {1}(); }} ) );
".
(** class.cpp:1098 *)
Definition fs_default_plain : str := $"	cl.def( pybind11::init( [](){{ return new {0}(); }} ) );
".
(** class.cpp:1141 *)
Definition fs_copy_abstract : str := $"	cl.def(pybind11::init<{}{} &>());
".
(** class.cpp:1146 *)
Definition fs_copy_trampoline : str := $"	cl.def( pybind11::init( []({0}{1} &o){{ return new {0}(o); }} ) );
".
(** class.cpp:1147 *)
Definition fs_copy_class : str := $"	cl.def( pybind11::init( []({0}{1} &o){{ return new {0}(o); }} ) );
".
(** class.cpp:1150 *)
Definition fs_copy_plain : str := $"	cl.def( pybind11::init( []({0}{1} &o){{ return new {0}(o); }} ) );
".
(** class.cpp:1185 *)
Definition fs_using_namespace : str := $" using namespace {};".
(** class.cpp:1188 *)
Definition fs_str_function : str := $"
	cl.def(""__str__"", []({} const &o) -> std::string {{ std::ostringstream s;{} s << o; return s.str(); }} );
".
(** class.cpp:1282 *)
Definition fs_holder : str := $", {}<{}>".
(** class.cpp:1285 *)
Definition fs_holder_smart : str := $", {}<{}>".
(** class.cpp:1307 *)
Definition fs_caster : str := $"PYBIND11_TYPE_CASTER_BASE_HOLDER({} {})".
(** class.cpp:1311 *)
Definition fs_class_ : str := $"pybind11::class_<{}{}{}{}> cl({}, ""{}"", ""{}""{});".
(** class.cpp:1411 *)
Definition fs_add_on : str := $"
	{}(cl);
".
(** context.cpp:386 *)
Definition fs_namespace_binder : str := $"
	{}(M(""{}""));
".
(** context.cpp:392 *)
Definition fs_namespace_add_on : str := $"
	{}(M(""{}""));
".
(** context.cpp:457 *)
Definition fs_namespace_pair : str := $"		{{""{}"", ""{}""}},
".
(** enum.cpp:129 *)
Definition fs_enum : str := $"	pybind11::enum_<{}>({}, ""{}""{}, ""{}""{})
".
(** enum.cpp:135 *)
Definition fs_enum_value : str := $"		.value(""{}"", {})
".
(** enum.cpp:137 *)
Definition fs_enum_value_old : str := $"		.value(""{}"", {})
".
(** function.cpp:260 *)
Definition fs_pointer : str := $" ({}*)(".
(** function.cpp:381 *)
Definition fs_function : str := $"({}) &{}{}".
(** function.cpp:411 *)
Definition fs_lambda_member : str := $"[]({}{}) -> {} {{ return o.{}({}); }}".
(** function.cpp:414 *)
Definition fs_lambda : str := $"[]({}) -> {} {{ return {}({}); }}".
(** function.cpp:431 *)
Definition fs_def : str := $".def{}(""{}"", {}, ""{}""{}".
(** function.cpp:436 *)
Definition fs_arg : str := $", pybind11::arg(""{}"")".
(** class.cpp:694-705 *)
Definition fs_call_back : str := $"
pybind11::gil_scoped_acquire gil;
pybind11::function overload = pybind11::get_overload(static_cast<const {0} *>(this), ""{1}"");
if (overload) {{
	auto o = overload.operator()<pybind11::return_value_policy::reference>({2});
	if (pybind11::detail::cast_is_temporary_value_reference<{3}>::value) {{
		static pybind11::detail::override_caster_t<{3}> caster;
		return pybind11::detail::cast_ref<{3}>(std::move(o), caster);
	}}
	return pybind11::detail::cast_safe<{3}>(std::move(o));
}}
".
(** context.cpp:83-125 *)
Definition fs_main_module : str := $"#include <map>
#include <algorithm>
#include <functional>
#include <memory>
#include <stdexcept>
#include <string>

{0}

using ModuleGetter = std::function< pybind11::module & (std::string const &) >;

{1}

PYBIND11_MODULE({2}, root_module) {{
	root_module.doc() = ""{2} module"";

	std::map <std::string, pybind11::module> modules;
	ModuleGetter M = [&](std::string const &namespace_) -> pybind11::module & {{
		auto it = modules.find(namespace_);
		if( it == modules.end() ) throw std::runtime_error(""Attempt to access pybind11::module for namespace "" + namespace_ + "" before it was created!!!"");
		return it->second;
	}};

	modules[""""] = root_module;

	static std::vector<std::string> const reserved_python_words {{""nonlocal"", ""global"", }};

	auto mangle_namespace_name(
		[](std::string const &ns) -> std::string {{
			if ( std::find(reserved_python_words.begin(), reserved_python_words.end(), ns) == reserved_python_words.end() ) return ns;
			return ns+'_';
		}}
	);

	std::vector< std::pair<std::string, std::string> > sub_modules {{
{3}	}};
	for(auto &p : sub_modules ) modules[ p.first.empty() ? p.second :  p.first+""::""+p.second ] = modules[p.first].def_submodule( mangle_namespace_name(p.second).c_str(), (""Bindings for "" + p.first + ""::"" + p.second + "" namespace"").c_str() );

	//pybind11::class_<std::shared_ptr<void>>(M(""""), ""_encapsulated_data_"");

{4}
}}
".
(** context.cpp:127-139 *)
Definition fs_module_header : str := $"
#include <functional>
{0}
#include <string>
{1}
#ifndef BINDER_PYBIND11_TYPE_CASTER
	#define BINDER_PYBIND11_TYPE_CASTER
	{2}
	PYBIND11_DECLARE_HOLDER_TYPE(T, T*, false)
	{3}
#endif

".
(** class.cpp:1020 *)
Definition fs_ctor_abstract : str := $"	cl.def( pybind11::init( []({0}){{ return new {2}({1}); }} ), ""doc"");".
(** class.cpp:1021 *)
Definition fs_ctor_plain : str := $"	cl.def( pybind11::init( []({0}){{ return new {2}({1}); }} ), ""doc"" {3});".
(** class.cpp:1022 *)
Definition fs_ctor_trampoline : str := $"	cl.def( pybind11::init( []({0}){{ return new {2}({1}); }}, []({0}){{ return new {3}({1}); }} ), ""doc"");".
