{"id": "C01", "title": "Namespace selection is decided by the longest matching prefix", "statement": "For a namespace N, binding is requested exactly when the longest --bind/+namespace entry that is a prefix of N is longer than the longest --skip/-namespace entry that is a prefix of N (or when an empty bind entry exists and no non-empty entry of either kind matches). Skipping is requested exactly when the longest matching skip entry is longer than the longest matching bind entry (an empty skip entry has no effect). A run-time error is raised exactly when both longest matches are non-empty and of equal length.", "quantifier": "every list of bind entries, every list of skip entries, every namespace string", "why_tests_cant": "the decision depends on the relative lengths of arbitrarily many overlapping entries; a test fixes one configuration", "anchors": ["source/config.cpp: Config::is_namespace_binding_requested", "source/config.cpp: Config::is_namespace_skipping_requested"]}
{"id": "C02", "title": "A namespace is never both bound and skipped, and both queries agree on conflicts", "statement": "For every configuration and namespace, 'binding requested' and 'skipping requested' are never both true, and one query reports the bind/skip conflict error exactly when the other one does.", "quantifier": "every configuration, every namespace", "why_tests_cant": "two independently written loops must agree on all inputs", "anchors": ["source/config.cpp: Config::is_namespace_binding_requested", "source/config.cpp: Config::is_namespace_skipping_requested"]}
{"id": "C03", "title": "Namespace decisions do not depend on the order or repetition of directives", "statement": "Reordering or repeating the bind and skip entries never changes the answer (or the error) for any namespace.", "quantifier": "every permutation and every multiplicity of the entries, every namespace", "why_tests_cant": "tests use one order", "anchors": ["source/config.cpp: Config::is_namespace_binding_requested", "source/config.cpp: Config::is_namespace_skipping_requested"]}
{"id": "C04", "title": "A namespace directive applies to the namespace and its descendants only (refuted)", "statement": "Documentation: '+namespace root' / '-namespace root::a' act on that namespace and everything nested in it. Full statement: an entry E influences the decision for N only if N = E or N starts with E followed by '::'.", "quantifier": "every configuration and namespace", "why_tests_cant": "needs a search over name pairs; the test-suite has no sibling namespaces sharing a textual prefix", "anchors": ["source/config.cpp: Config::is_namespace_binding_requested", "documentation/config.rst"]}
{"id": "C05", "title": "Config file parsing: accepted lines, rejected lines, and their effect", "statement": "A config file is processed line by line; blank lines and lines starting with '#' have no effect; any other line must start with '+' or '-', contain a space and name a known directive with well-formed arguments, otherwise the run aborts with an error; an accepted line changes exactly the setting it names and nothing else.", "quantifier": "every file content and every prior configuration", "why_tests_cant": "unbounded input language", "anchors": ["source/config.cpp: Config::read", "source/config.cpp: split_in_two"]}
{"id": "C06", "title": "Config files compose: reading a concatenation is reading the parts in sequence", "statement": "Reading two files one after the other gives the same configuration as reading their concatenation (first file ending in a newline), and a file is rejected exactly when one of its lines is rejected.", "quantifier": "every pair of files, every initial configuration", "why_tests_cant": "universally quantified over file contents", "anchors": ["source/config.cpp: Config::read"]}
{"id": "C07", "title": "Windows line endings do not change the meaning of a config file", "statement": "Replacing every LF by CR LF in a config file yields the same configuration or the same rejection (up to the CR-free text of the offending line).", "quantifier": "every file content without CR", "why_tests_cant": "unbounded input language", "anchors": ["source/config.cpp: Config::read"]}
{"id": "C08", "title": "Class and function directives are matched modulo spaces", "statement": "After reading +class/-class/+function/-function X, a query for a name Y is answered positively exactly when some directive's X equals Y after removing all spaces from both.", "quantifier": "every directive text and every queried name", "why_tests_cant": "all placements of spaces", "anchors": ["source/config.cpp: Config::is_class_binding_requested", "source/config.cpp: Config::is_class_skipping_requested", "source/config.cpp: Config::is_function_binding_requested", "source/config.cpp: Config::is_function_skipping_requested"]}
{"id": "C09", "title": "A -field or enum directive can never select a name that contains a space", "statement": "Field and enum directives are stored without spaces but compared with the raw name: no config file whatsoever can skip a field, or bind/skip an enum, whose qualified name contains a space (e.g. a member of A<int, long>). The user expectation that '-field N' skips the field named N is refuted for such N.", "quantifier": "every config file, every name containing a space", "why_tests_cant": "a negative universal statement over all config files", "anchors": ["source/config.cpp: Config::read", "source/config.cpp: Config::is_field_skipping_requested", "source/config.cpp: Config::is_enum_skipping_requested", "source/class.cpp: binding_public_data_members"]}
{"id": "C10", "title": "python_builtin removal overrides every other source", "statement": "A type named by -python_builtin is never treated as a Python builtin, whatever +python_builtin lines, built-in tables or the --include-pybind11-stl option say; otherwise a name in the +python_builtin list or the fixed table is always a builtin.", "quantifier": "every configuration, name and option setting", "why_tests_cant": "interaction of four independent sources over all names", "anchors": ["source/type.cpp: is_python_builtin", "documentation/config.rst"]}
{"id": "C11", "title": "module_local decision", "statement": "With +module_local_namespace @all_namespaces a namespace is module-local unless it is listed under -module_local_namespace; without it, exactly the listed namespaces are module-local, and a namespace listed under both raises an error.", "quantifier": "every configuration, every namespace", "why_tests_cant": "all combinations of list membership", "anchors": ["source/config.cpp: Config::is_module_local_requested"]}
{"id": "C12", "title": "Generated include block is sorted, duplicate-free and honours -include", "statement": "The #include lines emitted for a file are strictly increasing in byte order, contain every requested include that no -include prefix matches, and nothing else.", "quantifier": "every multiset of requested includes, every -include list", "why_tests_cant": "all sets, orders and prefixes", "anchors": ["source/context.cpp: generate_include_directives", "source/config.cpp: Config::is_include_skipping_requested"]}
{"id": "C13", "title": "Text replacement replaces exactly the leftmost non-overlapping occurrences", "statement": "replace(s, from, to) with a non-empty 'from' terminates and rewrites exactly the leftmost-first non-overlapping occurrences of 'from', leaving all other text unchanged; inserted text is never rescanned. With an empty 'from' it never terminates.", "quantifier": "every text, pattern and replacement", "why_tests_cant": "termination and rescanning behaviour over all texts", "anchors": ["source/util.cpp: replace", "source/util.cpp: replace_"]}
{"id": "C14", "title": "Line splitting and indentation preserve the text", "statement": "Indenting a block of code prefixes every non-empty line with the indentation, leaves empty lines empty, ends the result with a newline, keeps the number of lines, and removing the prefix gives the original lines back.", "quantifier": "every text and indentation string", "why_tests_cant": "all texts", "anchors": ["source/util.cpp: split", "source/util.cpp: indent"]}
{"id": "C15", "title": "split with a one-character separator is exact; with a longer separator it is not (refuted)", "statement": "For a one-character separator, joining the pieces with the separator gives back the text (up to one trailing separator) and no piece contains the separator. For separators of two or more characters the same claim is false: the tail of the separator leaks into the next piece.", "quantifier": "every text and separator", "why_tests_cant": "all texts; the function is only exercised with one-character separators", "anchors": ["source/util.cpp: split"]}
{"id": "C16", "title": "trim removes exactly the surrounding blanks", "statement": "trim(s) is the unique factor of s obtained by dropping the maximal leading and trailing runs of spaces and tabs; it is idempotent.", "quantifier": "every string", "why_tests_cant": "all strings", "anchors": ["source/util.cpp: trim"]}
{"id": "C17", "title": "Documentation strings survive the trip through a C++ string literal", "statement": "The text emitted between quotes for a doxygen comment contains no raw newline and no unescaped quote, and a C++ compiler reading the literal gets back the comment text with leading blanks/newlines removed.", "quantifier": "every comment text", "why_tests_cant": "all texts: quoting order bugs show up only on particular character combinations", "anchors": ["source/util.cpp: generate_documentation_string_for_declaration"]}
{"id": "C18", "title": "Mangled Python names contain no C++ punctuation", "statement": "The mangled name of a type contains none of space, '<', '>', ',' and ':', and for template names none of '*' and '&'; names without these characters are unchanged.", "quantifier": "every type name", "why_tests_cant": "all names", "anchors": ["source/util.cpp: mangle_type_name"]}
{"id": "C19", "title": "Different classes get different Python names (refuted)", "statement": "Full statement: two different C++ class names never receive the same Python name. False: A<B<C>> and A<B, C> both become A_B_C_t.", "quantifier": "every pair of class names", "why_tests_cant": "needs a pair search", "anchors": ["source/util.cpp: mangle_type_name", "source/class.cpp: python_class_name"]}
{"id": "C20", "title": "Namespace decomposition", "statement": "For a nested namespace N the pair (enclosing namespace, last component) recombines to N with '::'; the last component contains no '::'; climbing to the enclosing namespace terminates at the global namespace.", "quantifier": "every namespace string", "why_tests_cant": "all strings, termination", "anchors": ["source/util.cpp: base_namespace", "source/util.cpp: last_namespace"]}
{"id": "C21", "title": "_Bool is rewritten to bool only as a whole word, and exhaustively", "statement": "Every occurrence of _Bool not adjacent to a letter or digit becomes bool, all other text is unchanged, and repeating the rewrite changes nothing. The stronger claim that identifiers are never altered is refuted (my__Bool is changed to my_bool).", "quantifier": "every type string", "why_tests_cant": "all strings", "anchors": ["source/util.cpp: fix_boolean_types"]}
{"id": "C22", "title": "Output files are written only when their content changes, and a rerun writes nothing", "statement": "After updating a source file its content is the generated code (an absent file stays absent only if the code is empty); a file whose content already matches is not written; generating the same code twice performs no write the second time.", "quantifier": "every file system state, path and content", "why_tests_cant": "all histories", "anchors": ["source/util.cpp: update_source_file"]}
{"id": "C23", "title": "An interrupted write is repaired by the next run", "statement": "If a run is killed at any point while writing a file (leaving the file truncated or partially written), the next run with the same inputs restores exactly the generated content.", "quantifier": "every crash point, every content", "why_tests_cant": "crash points cannot be enumerated by unit tests", "anchors": ["source/util.cpp: update_source_file"]}
{"id": "C24", "title": "Each C++ entity is collected at most once, first declaration wins", "statement": "However often and in whatever order declarations are visited, the list of collected items contains no two items with the same identity, keeps first-visit order, and never loses an item.", "quantifier": "every visit sequence", "why_tests_cant": "all histories of visits", "anchors": ["source/context.cpp: Context::add", "source/main.cpp: BinderVisitor"]}
{"id": "C25", "title": "The binding phase terminates", "statement": "The repeat-until-no-change binding loop stops after at most (number of items + 1) passes for every input, and binds every item at most once.", "quantifier": "every set of items, every request graph (including cyclic ones)", "why_tests_cant": "termination for all inputs", "anchors": ["source/context.cpp: Context::bind"]}
{"id": "C26", "title": "The binding phase reaches a dependency-closed result", "statement": "When the binding phase ends, every bindable item that was requested (by namespace, by name or by a bound item mentioning its type) has been bound. The phase succeeds exactly when the configuration answers every question about the items and code can be generated for every item that has to be bound.", "quantifier": "every set of items and request graph", "why_tests_cant": "closure under an unbounded relation", "anchors": ["source/context.cpp: Context::bind", "source/context.cpp: Context::request_bindings", "source/type.cpp: request_bindings"]}
{"id": "C27", "title": "Skipped items are never bound; system-header items only on demand", "statement": "No item for which the configuration requests skipping is bound, however it is referenced. An item declared in a system header is bound only if some bound item mentions its type.", "quantifier": "every configuration, item set and request graph", "why_tests_cant": "an invariant over every execution of the binding loop", "anchors": ["source/context.cpp: Context::bind", "source/context.cpp: Context::request_bindings", "source/class.cpp: ClassBinder::bindable"]}
{"id": "C28", "title": "Base classes are registered before derived classes", "statement": "After sorting, every class item is preceded by an item for each base class it was bound with (python builtins excepted), so importing the generated module never meets an unregistered base. (Finding: the bases of classes nested in another class are not taken into account, so for nested classes the claim is false.)", "quantifier": "every item list and dependency relation", "why_tests_cant": "all orders and graphs", "anchors": ["source/context.cpp: Context::sort_binders"]}
{"id": "C29", "title": "Sorting loses and duplicates nothing", "statement": "The sorted list is a permutation of the collected items.", "quantifier": "every item list and dependency relation", "why_tests_cant": "all inputs", "anchors": ["source/context.cpp: Context::sort_binders"]}
{"id": "C30", "title": "Sorting terminates for acyclic dependencies and fails only on a missing base", "statement": "For every acyclic dependency relation the rotate-and-restart loop ends; it ends with an error exactly when some bound class depends on a non-builtin class that has no item (for instance a nested class used as a base).", "quantifier": "every item list with acyclic dependencies", "why_tests_cant": "termination of a restart loop over all inputs", "anchors": ["source/context.cpp: Context::sort_binders"]}
{"id": "C31", "title": "Every bound item is written to exactly one file, in sorted order", "statement": "For a positive maximum file size, concatenating the items of the generated files in generation order gives exactly the sorted list of bound items (items of a namespace with a custom namespace binder excluded), each once.", "quantifier": "every sorted item list, code sizes, namespaces, size limit > 0", "why_tests_cant": "index arithmetic of nested loops over all inputs", "anchors": ["source/context.cpp: Context::generate"]}
{"id": "C32", "title": "File writing terminates exactly when the size limit is not zero", "statement": "The file-writing loop terminates for every input when max-file-size > 0, and never terminates for max-file-size = 0 when something is bound.", "quantifier": "every item list and size limit", "why_tests_cant": "termination", "anchors": ["source/context.cpp: Context::generate", "source/options.cpp: O_max_file_size"]}
{"id": "C33", "title": "Every generated file holds items of a single namespace and respects the size limit up to one item", "statement": "All items of a file belong to one namespace, and the generated body without its last item is shorter than the limit.", "quantifier": "every input", "why_tests_cant": "all inputs", "anchors": ["source/context.cpp: Context::generate"]}
{"id": "C34", "title": "A namespace binder or add-on binder is called exactly once", "statement": "If at least one item of namespace N is bound and a binder (or, when N has no replacing binder, an add-on binder) is configured for N, then the generated code calls it exactly once, before any other code of that namespace. (Finding: with both configured, the add-on binder is never called.)", "quantifier": "every input", "why_tests_cant": "N's items may be spread over arbitrarily many files", "anchors": ["source/context.cpp: Context::generate"]}
{"id": "C35", "title": "Generated file names and function names are unique in flat mode", "statement": "With --flat all generated files have different names, different from the root module file, and all bind_ functions have different names.", "quantifier": "every input", "why_tests_cant": "number formatting for all counts", "anchors": ["source/context.cpp: Context::generate"]}
{"id": "C36", "title": "Generated file names are unique (refuted in the default mode)", "statement": "Full statement: two generated files never have the same name and two bind_ functions never have the same name. False in the default mode: a.hh with two files and a_1.hh with one both produce a_1.cpp; a/b.hh and a_b.hh both produce bind_a_b. It holds whenever no header prefix ends in _<digits> and prefixes stay different after replacing / by _.", "quantifier": "every input", "why_tests_cant": "needs a pair search / all inputs", "anchors": ["source/context.cpp: Context::generate", "source/context.cpp: file_name_prefix_for_binder"]}
{"id": "C37", "title": "Every module used by generated code exists when the root module is imported", "statement": "In the generated root module the submodule list contains, for every bound item, its namespace and all enclosing namespaces, each after its parent and each once; hence no M(\"ns\") lookup fails at import.", "quantifier": "every set of bound items", "why_tests_cant": "all namespaces, ordering for all sets", "anchors": ["source/context.cpp: Context::create_all_nested_namespaces", "source/context.cpp: Context::generate", "source/context.cpp: main_module_header"]}
{"id": "C38", "title": "Each generated function is declared and called exactly once, in file order", "statement": "The root module declares and calls the bind_ function of every generated file in generation order, and the .sources list names the root file followed by these files.", "quantifier": "every input", "why_tests_cant": "all inputs", "anchors": ["source/context.cpp: Context::generate"]}
{"id": "C39", "title": "Trace lines are unique", "statement": "All trace lines generated in a run carry different numbers, increasing from 0.", "quantifier": "every sequence of calls", "why_tests_cant": "all histories", "anchors": ["source/context.cpp: Context::trace_line"]}
{"id": "C40", "title": "Include collection terminates on cyclic declarations and keeps the minimum level", "statement": "Collecting the includes needed by a declaration terminates even when types refer to each other cyclically; each declaration is revisited only at a strictly smaller depth.", "quantifier": "every finite (possibly cyclic) declaration graph", "why_tests_cant": "termination on all graphs", "anchors": ["source/binder.cpp: IncludeSet::add_decl", "source/class.cpp: add_relevant_includes", "source/function.cpp: add_relevant_includes", "source/type.cpp: add_relevant_includes"]}
{"id": "C41", "title": "Remembering answers never changes them (refuted across source files for classes and functions)", "statement": "While one source file is processed, every question about a name, a type, a class or a function (its normalised name, whether it is a Python builtin, banned or bindable) gets, after every sequence of earlier questions, the answer that would be computed from nothing. When several source files are processed by one run this remains true for names. It is false for classes and functions: their answers are remembered by the address of the declaration, which a later source file may reuse for another declaration.", "quantifier": "every translation unit, every sequence of questions of every kind, every sequence of translation units", "why_tests_cant": "the answer must not depend on any of the unboundedly many histories of calls", "anchors": ["source/type.cpp: standard_name", "source/type.cpp: simplify_std_class_name", "source/class.cpp: is_bindable", "source/function.cpp: is_bindable"]}
{"id": "C42", "title": "Default arguments: one Python overload per callable arity", "statement": "For a function with n parameters of which the first default is at position k, exactly the overloads with k, k+1, ..., n arguments are generated, each once and in this order; when a parameter has function type only the full arity is generated.", "quantifier": "every parameter list", "why_tests_cant": "all parameter counts", "anchors": ["source/function.cpp: bind_function", "source/class.cpp: bind_constructor"]}
{"id": "C43", "title": "Generated lambdas forward their arguments in order", "statement": "A generated lambda for m arguments declares m distinct parameters and passes exactly these, in order, to the wrapped function; the Python argument names are the first m C++ parameter names.", "quantifier": "every function and m", "why_tests_cant": "all arities", "anchors": ["source/function.cpp: function_arguments_for_lambda", "source/function.cpp: function_arguments_for_py_overload", "source/function.cpp: bind_function"]}
{"id": "C44", "title": "Operators map to the documented Python methods, by arity", "statement": "A member operator is bound under the one Python name listed for its spelling and number of parameters; an operator without an entry, or a non-member operator, is never bound. (Finding: the table has a single name for operator&, so the unary address-of operator is offered to Python as __and__.)", "quantifier": "every function declaration", "why_tests_cant": "all operators and arities", "anchors": ["source/function.cpp: cpp_python_operator", "source/function.cpp: is_bindable_raw"]}
{"id": "C45", "title": "Functions with types pybind11 cannot handle are never bound", "statement": "A function is bound only if it is not deleted, not a template pattern, not a conversion operator, not an operator without Python name, not inside an unnamed entity or an internal of the standard library, and its return type (as written) and the canonical types of its parameters are not, and do not point or refer to, a pointer to pointer, function pointer, array, rvalue reference, dependent type, or private, protected, incomplete or otherwise unbindable class or enum; exactly these conditions decide. (Finding: template arguments are not examined, so a private class used as a template argument is accepted.)", "quantifier": "every function declaration", "why_tests_cant": "all type structures", "anchors": ["source/type.cpp: is_bindable", "source/function.cpp: is_bindable_raw"]}
{"id": "C46", "title": "Bindability of a return type does not depend on how it is spelled (refuted)", "statement": "Full statement: replacing a return type by a typedef of the same type does not change whether a function is bound. False: a typedef of int** is accepted while int** itself is rejected (parameters are desugared first, return types are not). True for parameters: only their canonical types matter.", "quantifier": "every function declaration", "why_tests_cant": "pair search", "anchors": ["source/type.cpp: is_bindable", "source/function.cpp: is_bindable_raw"]}
{"id": "C47", "title": "Function selection precedence: full signature, then name, then namespace and types", "statement": "A function is skipped if its full signature is listed for skipping; otherwise bound if its full signature is listed for binding; otherwise the same for its name; otherwise it is skipped if its namespace, its template-class member name or any type it mentions is to be skipped.", "quantifier": "every function, every configuration", "why_tests_cant": "all combinations", "anchors": ["source/function.cpp: is_skipping_requested", "source/function.cpp: is_binding_requested"]}
{"id": "C48", "title": "Class selection precedence: specialisation, then template name, then namespace and template arguments", "statement": "A class is skipped if its exact specialisation is listed for skipping; otherwise not skipped if it is listed for binding; otherwise the same for the template name; otherwise it is skipped if its namespace or any of its template type arguments (recursively) is to be skipped.", "quantifier": "every class, every configuration", "why_tests_cant": "all combinations, unbounded template nesting", "anchors": ["source/class.cpp: is_skipping_requested", "source/class.cpp: is_binding_requested", "source/type.cpp: is_skipping_requested"]}
{"id": "C49", "title": "Exactly the public, bindable, unskipped members are exposed", "statement": "The member functions exposed by a class binding are exactly its public, bindable, not-skipped, non-constructor, non-destructor methods that are not const-overloads of another method, plus those lifted by public using declarations and instantiated member templates; data members are exactly the public, bindable, not-skipped ones, read-only when const or not assignable.", "quantifier": "every class declaration and configuration", "why_tests_cant": "all classes", "anchors": ["source/class.cpp: binding_public_member_functions", "source/class.cpp: binding_public_data_members", "source/class.cpp: bind_data_member"]}
{"id": "C50", "title": "A trampoline overrides each virtual signature at most once, nearest class first", "statement": "In a generated call-back structure no two overriders have the same name, parameter list and constness, and each overrider belongs to the most derived class that offers a bindable version, provided no class occurs twice in the hierarchy. (Finding: if a class is inherited along two paths, an overrider can belong to that class although a class derived from it offers a version.)", "quantifier": "every inheritance hierarchy", "why_tests_cant": "unbounded hierarchies", "anchors": ["source/class.cpp: bind_member_functions_for_call_back"]}
{"id": "C51", "title": "A trampoline never overrides a final method (refuted in general)", "statement": "Full statement: no overrider is generated for a signature that is final in the class or a base. True when the final method is itself eligible; false when the final method is skipped or private while a base version is eligible (the generated code does not compile).", "quantifier": "every inheritance hierarchy and configuration", "why_tests_cant": "unbounded hierarchies", "anchors": ["source/class.cpp: bind_member_functions_for_call_back"]}
{"id": "C52", "title": "Abstract classes get constructors only when the call-back structure is constructible", "statement": "A class that is not anonymous gets constructors exactly when it is not abstract or a call-back structure is generated for it; one is generated exactly when the class or a non-private base has a bindable, non-private virtual method, no class on the way is final or has a pure const overload, and no abstract class in the hierarchy has a pure method that is private, unbindable or skipped, or a private abstract base. For abstract classes the constructed object is always the call-back structure, which overrides every pure virtual method that is not a const overload (unless its first eligible version is final). (Finding: a pure method of a base that is a const overload of another method is not overridden, so the structure stays abstract and the generated code does not compile.)", "quantifier": "every class hierarchy", "why_tests_cant": "unbounded hierarchies", "anchors": ["source/class.cpp: is_callback_structure_needed", "source/class.cpp: is_callback_structure_constructible", "source/class.cpp: ClassBinder::bind"]}
{"id": "C53", "title": "Holder type selection", "statement": "A class is held by the configured smart pointer unless its destructor is declared non-public and it does not derive (directly or indirectly) from std::enable_shared_from_this, in which case a raw pointer holder is used.", "quantifier": "every class hierarchy", "why_tests_cant": "unbounded hierarchies", "anchors": ["source/class.cpp: ClassBinder::bind", "source/class.cpp: is_inherited_from_enable_shared_from_this"]}
{"id": "C54", "title": "Enums export every enumerator, once and in order", "statement": "An enum binding lists every enumerator exactly once, in declaration order, under its own name, and exports the values into the enclosing scope exactly when the enum is not declared with 'enum class'.", "quantifier": "every enum declaration", "why_tests_cant": "any number of enumerators", "anchors": ["source/enum.cpp: bind_enum"]}
{"id": "C55", "title": "Standard-name normalisation is idempotent (refuted)", "statement": "Full statement: standardising an already standard name changes nothing. False: nullptr_t becomes std::nullptr_t and then std::std::nullptr_t. The simplification of standard library names ends for every name and is idempotent; names outside std without table words are unchanged.", "quantifier": "every name", "why_tests_cant": "all names, termination", "anchors": ["source/type.cpp: standard_name_raw", "source/type.cpp: simplify_std_class_name_raw"]}
{"id": "C56", "title": "Include extraction reads only the include directive", "statement": "The include recorded for a declaration is the <...> text of the directive that included its file, up to the first '>', and empty for quoted includes.", "quantifier": "every source buffer content", "why_tests_cant": "all buffers", "anchors": ["source/type.cpp: relevant_include"]}
{"id": "C57", "title": "Template specialisation text", "statement": "The specialisation suffix of a class lists its non-empty template arguments separated by commas between '<' and '>'; for a class whose only argument is an empty pack the text is malformed (refuted: the result is a lone '>').", "quantifier": "every template argument list", "why_tests_cant": "all lists", "anchors": ["source/class.cpp: template_specialization"]}
{"id": "C58", "title": "Re-reading the config file for each source file does not change any decision", "statement": "Config is one process-wide object and the config file is read again for every source file given on the command line: after any accepted reading, reading the same file again is accepted and every query (namespace, class, function, enum, field, module_local, buffer protocol, smart holder, include skipping, custom trampoline, binders, scalar settings) is answered as before. The text of the +include block is not preserved (each +include line is repeated).", "quantifier": "every config text, every --bind/--skip list, every queried name", "why_tests_cant": "universally quantified over config files and queries; tests run one source file", "anchors": ["source/main.cpp: BinderVisitor", "source/config.cpp: Config::get, Config::read, Config::includes_code"]}
{"id": "C59", "title": "A whole run terminates", "statement": "For every finite translation unit whose inheritance and nesting relations are acyclic (as C++ guarantees) and every positive maximum file size, collecting, binding, sorting and writing come to an end, however the declarations refer to each other.", "quantifier": "every finite translation unit, configuration, option set and order of visits", "why_tests_cant": "termination over all, possibly cyclic, declaration graphs", "anchors": ["source/context.cpp: Context::generate, Context::bind, Context::sort_binders", "source/class.cpp: bind_repr, add_relevant_includes"]}
{"id": "C60", "title": "Abbreviating a standard library name only drops default template arguments (refuted for multiset)", "statement": "The simplification of a standard library class name either replaces a name of the typedef table, or repeatedly replaces a container written with its default template arguments by the same container without them, wherever it occurs in the name. False for multisets: multiset<int,std::less<void>,std::allocator<int>> becomes multiset<int *>, another type.", "quantifier": "every name, every conforming regular expression engine", "why_tests_cant": "all names, unbounded nesting", "anchors": ["source/type.cpp: simplify_std_class_name_raw"]}
{"id": "C61", "title": "Enum selection precedence: name, then namespace", "statement": "An enum is skipped if its normalised name is listed for skipping, otherwise not skipped if that name is listed for binding, otherwise skipped iff its namespace is; it is requested if its name as written is listed for binding or its namespace is requested. So an enum of a namespace that is left out is bound on request only if both names are listed (refuted: that one line is enough). No enum that is to be skipped is bound by a run. Unnamed enums and internals of the standard library are never bound.", "quantifier": "every enum, every configuration", "why_tests_cant": "all combinations", "anchors": ["source/enum.cpp: is_binding_requested", "source/enum.cpp: is_skipping_requested"]}
{"id": "C62", "title": "The header written for a declaration is the public one", "statement": "The header recorded for a declaration is the one known for exactly its name, else the one known for a prefix of its name, else the public header replacing the internal header that brought it in, else the include directive itself; these rules never conflict, and an internal header with a known public replacement is never written.", "quantifier": "every declaration name and include directive", "why_tests_cant": "all names and headers", "anchors": ["source/type.cpp: add_relevant_include_for_decl"]}
{"id": "C63", "title": "Binding a function requests the types of its signature", "statement": "When a function is bound, exactly the classes and enums that are reached through pointers and references from its return type and its parameter types are requested for binding, except that types to be skipped are not entered; incomplete classes are requested only if they are template specialisations.", "quantifier": "every function, every configuration, every depth of pointers and references", "why_tests_cant": "all signatures", "anchors": ["source/function.cpp: bind_function", "source/type.cpp: request_bindings"]}
{"id": "C64", "title": "Form of a function definition and its return value policy", "statement": "Every generated definition has the Python name of the function (with the configured prefix for static member functions), a pointer to the function or a lambda, its documentation, the configured return value policy of its kind (member or static; pointer, lvalue or rvalue reference; none for values), the Python argument names and the configured call guard, in this order.", "quantifier": "every function, arity and configuration", "why_tests_cant": "all combinations", "anchors": ["source/function.cpp: bind_function", "source/config.cpp: Config::read"]}
{"id": "C65", "title": "Prefix and suffix tests are exact", "statement": "A string is reported to begin (end) with another exactly if it is that string followed (preceded) by some text, including the cases where they are equal or the second is longer.", "quantifier": "every pair of strings", "why_tests_cant": "all strings", "anchors": ["source/util.cpp: begins_with", "source/util.cpp: ends_with"]}
{"id": "C66", "title": "Layout of a generated file", "statement": "Every generated source file consists of the include directives of what its items need minus the configured exclusions, each once and in byte order, the fixed and configured includes and holder declarations, the file-level code of its items, and one function with the configured namespace call and the code of its items in order.", "quantifier": "every run, every generated file", "why_tests_cant": "all inputs and configurations; file boundaries depend on sizes", "anchors": ["source/context.cpp: Context::generate", "source/context.cpp: generate_include_directives", "source/config.cpp: Config::includes_code"]}
{"id": "C67", "title": "Form of the whole text generated for a class", "statement": "A class that is a Python type gives no code; one with a configured binder gives the call of that binder; every other one gives one block with the class statement (holder, call-back structure, bound bases, Python name, documentation, module-local and buffer options), the constructors, nested enums, data members, methods, members of template bases, the string conversion, the call of the configured add-on binder, and the blocks of nested classes, in this order; before it, at file level, its call-back structure and those of nested classes. The operator that prints a class is the last one met of the fitting type. (Finding: operator templates are looked up by the unqualified name of the class, so a class can get the operator of a class of the same name in another namespace.)", "quantifier": "every class, hierarchy, nesting depth and configuration", "why_tests_cant": "all classes and configurations", "anchors": ["source/class.cpp: ClassBinder::bind", "source/class.cpp: bind_nested_classes", "source/class.cpp: bind_with"]}
{"id": "C68", "title": "Every written item is the binding of a declaration that passed the filters", "statement": "Every item with code in a generated file is the complete text specified for its function, enumeration or class, with a comment giving the header and line of the declaration.", "quantifier": "every run, every item", "why_tests_cant": "all inputs", "anchors": ["source/context.cpp: Context::bind", "source/function.cpp: FunctionBinder::bind", "source/enum.cpp: EnumBinder::bind", "source/class.cpp: ClassBinder::bind"]}
{"id": "C69", "title": "Names of the generated files and functions", "statement": "A generated file is named after the header of its first item without the extension (in a directory std for namespace std), numbered if the header already gave files, or after the root module and a counter in flat mode; its function is bind_ and that name with underscores for slashes.", "quantifier": "every run, every generated file", "why_tests_cant": "all header names and file sequences", "anchors": ["source/context.cpp: file_name_prefix_for_binder", "source/context.cpp: Context::generate"]}
{"id": "C70", "title": "The disk at every moment of a run", "statement": "At every moment of a run, whatever the buffering, and whether it ends well, fails or is killed: every generated file is as before or a prefix of its new text, at most one of them is incomplete, files already up to date and files that are not output are untouched, the lists of sources and modules are only touched once every file is complete, and a run that cannot bind its input touches nothing. Repeating an interrupted run gives the same files as an uninterrupted one. (The root file is not covered by the order: it can still be empty when the list of sources is complete.)", "quantifier": "every input, configuration, previous disk content, crash point, failing directory or file, and buffering of the streams", "why_tests_cant": "crash points, failures and buffer schedules cannot be enumerated", "anchors": ["source/context.cpp: Context::generate", "source/util.cpp: update_source_file"]}
{"id": "C71", "title": "Python names of containers bound with the supplied binders", "statement": "A std::map bound with the supplied map binder is called map_<key>_<value> in Python when its comparator and allocator are the defaults, and the comparator and the allocator are appended when they are not, for every key and value type written without template arguments. (Not so for keys that are themselves templates: the defaults are then not recognised and appear in the name. A std::vector is called vector_<type> whatever its allocator, so two vectors that differ in the allocator only get the same name.)", "quantifier": "every key and value type name, comparator and allocator", "why_tests_cant": "all type names", "anchors": ["source/stl_binders.hpp: vector_binder", "source/stl_binders.hpp: map_binder"]}
{"id": "C72", "title": "Several source files in one invocation", "statement": "When one invocation is given several source files, each is processed with settings equivalent to those of a fresh start, so that the output for it is what an invocation on that file alone gives, except that the +include lines appear once more with every source file; the files are processed in order until one fails, which then fails because of the config file, as it would alone, or in writing; a generated file stays unless a later source file writes one of the same name. (Not every generated file is listed: the root file and the list of sources are those of the last source file.)", "quantifier": "every list of source files, options, config file and disk content", "why_tests_cant": "all sequences of inputs and all histories of the settings", "anchors": ["source/main.cpp: BinderVisitor", "source/main.cpp: main", "source/config.cpp: Config::read", "source/context.cpp: Context::generate"]}
{"id": "C73", "title": "Order and repetition of config lines", "statement": "The whole output depends on the config file only through the set of its directives: reordering or repeating lines, comments, blank lines and line ends change nothing but the order and repetition of the +include lines, as long as no two lines give different values to one single-valued setting; otherwise the last value counts. A file with the same lines is accepted or rejected alike.", "quantifier": "every pair of config files with the same directives, every input and options", "why_tests_cant": "all permutations and repetitions of all config files, for all inputs", "anchors": ["source/config.cpp: Config::read", "source/config.hpp: Config", "source/context.cpp: Context::generate"]}
{"id": "C74", "title": "Layout options do not change what is bound", "statement": "The options --annotate-includes, --single-file, --trace, --flat, --root-module, --max-file-size and --prefix do not change which declarations are bound, the code generated for each of them, their order or the Python modules they are put in; without --trace the generated code of all files together is the same text. --prefix and --single-file change none of the generated source texts.", "quantifier": "every input, config and pair of options that agree on the other options", "why_tests_cant": "all pairs of option settings on all inputs", "anchors": ["source/context.cpp: Context::generate", "source/context.cpp: Context::bind", "source/options.hpp", "source/main.cpp: main"]}
{"id": "C75", "title": "--annotate-includes only adds comments", "statement": "Switching --annotate-includes on changes nothing but comments after the include directives: the run has the same outcome, the same files under the same names with the same code, each including the same headers. (With settings read from a config file this holds always; settings made otherwise could hold a header prefix with a space in it.)", "quantifier": "every input, config and other options", "why_tests_cant": "all inputs; sets of headers are compared with their annotation text", "anchors": ["source/type.cpp: add_relevant_include_for_decl", "source/context.cpp: generate_include_directives", "source/config.cpp: Config::is_include_skipping_requested"]}
{"id": "C76", "title": "The order of declarations does not change what is bound", "statement": "When the same declarations are met in another order, or some of them more often, the same declarations are bound with the same code, includes and dependencies, and planning the output succeeds for one order exactly when it does for the other, provided that different declarations have different names and that no two printing operators have the same type. (Finding: with two operator<< of the same type in different namespaces, the order decides which one a class is printed by.)", "quantifier": "every input, config, and pair of visit orders of the same declarations", "why_tests_cant": "all permutations of all inputs", "anchors": ["source/main.cpp: BinderVisitor", "source/context.cpp: Context::add", "source/context.cpp: Context::bind", "source/context.cpp: Context::add_insertion_operator", "source/context.cpp: Context::sort_binders"]}
{"id": "C77", "title": "What is bound follows from the declarations", "statement": "Binding a class requests exactly the classes and enums found behind the pointers and references of: its bases that are named in the binding, the parameters of its constructors Python can call (except copies and those with an ellipsis), the signatures of its bound methods and of the methods of the bases folded into it, and of whatever its bound member classes need; nothing if a configured binder or Python provides the class. So the declarations bound in a run are those the configuration asks for and, repeatedly, those found in the types needed by what is bound. (Findings: the types of data members and of the parameters of constructors with an ellipsis are never requested, although Python code needs them.)", "quantifier": "every input, config and visit order", "why_tests_cant": "all class hierarchies, member lists and reference graphs", "anchors": ["source/class.cpp: ClassBinder::bind", "source/class.cpp: ClassBinder::request_bindings_and_skipping", "source/class.cpp: ClassBinder::maybe_base_classes", "source/class.cpp: bind_constructor", "source/function.cpp: FunctionBinder", "source/type.cpp: request_bindings", "source/context.cpp: Context::bind"]}
{"id": "C78", "title": "Generated C++ text is lexically well formed", "statement": "If the types and names of the bound declarations contain no quotes, comments, backslashes, line ends or preprocessor characters and close their brackets, and the names in the config file do so too, then in every generated file, in the file of the root module and in the single file of single-file mode every string literal, comment and bracket is closed, on the line where it has to be. This holds whatever the documentation comments of the declarations contain. (Finding: a template argument that is the character for a double quote is proper C++, but it ends the documentation literal of each function that mentions the type.)", "quantifier": "every input with such names, every config, option and visit order", "why_tests_cant": "all documentation texts, types, numbers of parameters, class hierarchies and file layouts", "anchors": ["source/function.cpp: bind_function", "source/class.cpp: ClassBinder::bind", "source/class.cpp: bind_constructor", "source/enum.cpp: bind_enum", "source/context.cpp: Context::generate", "source/context.cpp: generate_root_module", "source/util.cpp: generate_documentation_string_for_declaration"]}
{"id": "C79", "title": "The generated module can be imported", "statement": "Importing the generated module performs one registration after the other, in the order of the generated code: a class or enum in a module or in a class, a function in a module, or a call of a configured binder. If no base class is known to Python already, no nested class is left to a configured binder or has a base outside what its enclosing class has registered, no namespace is replaced by an add-on, and no two objects get the same name in the same place, then pybind11 accepts every one of them: the module or class it is put in exists, the type is not registered yet, its bases are, and the name is free. The code of each item contains the statements for its registrations in this order, each with its place and name. (Findings: a base class that the config file declares a Python builtin is named but never registered; a binder configured for a nested class is given a module that does not exist.)", "quantifier": "every input with proper nesting, every config, option and visit order", "why_tests_cant": "all class hierarchies, nestings, namespaces and orders of declarations", "anchors": ["source/context.cpp: Context::generate", "source/context.cpp: Context::sort_binders", "source/context.cpp: generate_root_module", "source/class.cpp: ClassBinder::bind", "source/class.cpp: ClassBinder::bind_nested_classes", "source/enum.cpp: bind_enum", "source/function.cpp: bind_function"]}
{"id": "C80", "title": "Names of call-back structures", "statement": "The call-back structure of a class is called PyCallBack followed by the parts of the class's namespace and its Python name, joined by underscores; if the parts are identifiers so is the name. Classes with different names get structures with different names as long as no part contains an underscore. (False in general: n::A_B and n_A::B get the same name; a class nested in an instance of a class template for a pointer type gets a name that is not an identifier.)", "quantifier": "every class, namespace and template argument", "why_tests_cant": "all names and pairs of names", "anchors": ["source/class.cpp: callback_structure_name", "source/util.cpp: mangle_type_name"]}
{"id": "C81", "title": "Overriders keep the promise not to throw", "statement": "The function of a call-back structure that overrides a method declared noexcept or throw() has an exception specification that promises the same, and the one that overrides a method without exception specification has none. (False for noexcept(true): the overrider has none and does not compile; false for noexcept(false): the overrider promises not to throw, so an exception from Python ends the program.)", "quantifier": "every class hierarchy and exception specification", "why_tests_cant": "all hierarchies", "anchors": ["source/class.cpp: bind_member_functions_for_call_back"]}
{"id": "C82", "title": "Enumerators are named so that C++ finds them", "statement": "Built with LLVM 5 or older, the generated code has one line for each enumerator of an enum in named namespaces and ordinary classes, in order, with its own name and a qualified name that C++ lookup from the global scope resolves to that enumerator. (False for enums in an unnamed namespace inside another, in a specialisation of a class template, in an extern block inside a namespace, and local to a function.)", "quantifier": "every program, every nesting of scopes, every enum", "why_tests_cant": "all nestings", "anchors": ["source/enum.cpp: getQualifiedNameAsStringLLVM5Fix", "source/enum.cpp: bind_enum"]}
{"id": "C83", "title": "Settings on the form of the code do not change what is bound", "statement": "Return value policies, the call guard, the prefix of static member functions, the pybind11 header, smart holders, buffer protocols, add-on binders, binders of namespaces, trampoline function binders, include directives and the names of replacing functions change the text of the bindings only: the same declarations are bound, in the same order, in the same modules, with the same dependencies and includes, and the run fails in the same way if it fails. The same holds for the options on the layout. (The holder type is different: a class of its name is no longer bound.)", "quantifier": "every program, every pair of configurations or config files that agree on what selects, all other options", "why_tests_cant": "all pairs of configurations on all programs", "anchors": ["source/config.cpp: Config::read", "source/context.cpp: Context::generate, Context::bind, sort_binders", "source/class.cpp: ClassBinder::bind", "source/function.cpp: FunctionBinder::bind", "source/type.cpp: is_python_builtin"]}
{"id": "C84", "title": "Asking for more never removes a binding", "statement": "If +namespace, +class, +function or +enum directives, --bind or --bind-class-template-specialization are added, or -namespace, -class, -function, -enum or -field directives or --skip options are taken out, and both runs succeed, then everything that was bound is still bound, and no class loses a member function, constructor, data member, base, member enum, member class, its conversion to a string or the structure through which Python classes override its functions. (+python_builtin is different: it removes bindings; and a namespace listed both ways stops the program.)", "quantifier": "every program, every pair of configurations one of which asks for more, every pair of config files and options", "why_tests_cant": "all pairs of configurations on all programs; an added directive reaches other declarations through precedence, namespaces, template arguments and requested types", "anchors": ["source/config.cpp: Config::read, is_namespace_binding_requested, is_namespace_skipping_requested", "source/context.cpp: Context::generate, Context::bind, request_bindings", "source/class.cpp: is_binding_requested, is_skipping_requested, ClassBinder::bind", "source/function.cpp: is_binding_requested, is_skipping_requested", "source/type.cpp: is_skipping_requested, request_bindings"]}
{"id": "C85", "title": "Adding declarations never removes a binding", "statement": "If the program is given further declarations (another header, another class, more instantiations) and both runs succeed, then everything that was bound before is still bound; the code, the prefix code and the includes of a function or enum are unchanged, and so are those of a class unless further operators << were added.", "quantifier": "every program, every configuration, every list of declarations and every larger one in any order", "why_tests_cant": "the new declarations take part in the sort, in the rounds of requests and in the map from type names to binders; all ways of adding declarations at all places cannot be enumerated", "anchors": ["source/context.cpp: Context::add, Context::generate, Context::bind, Context::add_insertion_operator, Context::sort_binders", "source/class.cpp: ClassBinder::bind, bind_code", "source/function.cpp: FunctionBinder::bind", "source/enum.cpp: EnumBinder::bind"]}
{"id": "C86", "title": "Names are put into the generated text as they are", "statement": "The formatting library gives, for every format string made of text, {} and {n}, exactly the text with each field replaced by its argument, unchanged whatever it contains (also braces); it throws if an argument is missing or the two ways to number are mixed, accepts no other string, and its two loops (for short and long strings) agree. No format string used to generate code refers to a missing argument or is malformed, so generating text never fails for any name, type or documentation.", "quantifier": "every format string, every list of arguments, every declaration of every program", "why_tests_cant": "names, types, default values and documentation come from the user's program and can contain braces; two different loops are chosen by the length of the format string", "anchors": ["source/fmt/format.h: parse_format_string, parse_replacement_field, parse_arg_id, parse_nonnegative_int", "source/fmt/core.h: next_arg_id, check_arg_id", "source/class.cpp: bind_data_member, bind_member_functions_for_call_back, bind_constructor, bind_copy_constructor, ClassBinder::bind", "source/function.cpp: bind_function", "source/enum.cpp: bind_enum", "source/context.cpp: Context::generate"]}
{"id": "C87", "title": "Definitions in a class do not clash", "statement": "The code of a class defines, in the Python class and in this order, its enums with the enumerators they export, its data members, its functions (once per number of arguments), those of folded template bases, the conversion to a string and its nested classes, and the text contains the statement for each. If every name has one meaning in C++, and further the class is no template instance, has no anonymous members, no nested enum struct, no data member or type named like the Python name of an operator, no function that is overloaded static and not static, and none that hides a data member of a base, then pybind11 accepts every definition when the module is imported and none replaces another. A prefix for static member functions that no other Python name begins with makes the condition on static functions true. Each of the further conditions is needed (refuted without).", "quantifier": "every class of every program and configuration", "why_tests_cant": "clashes only show when the generated module is imported, for particular combinations of members; the claim ranges over all classes", "anchors": ["source/class.cpp: ClassBinder::bind, binding_public_data_members, binding_public_member_functions, binding_template_bases, bind_repr", "source/function.cpp: bind_function", "source/enum.cpp: bind_enum", "source/config.cpp: prefix_for_static_member_functions"]}
{"id": "C88", "title": "The modules of Python and their list", "statement": "On import the generated root module makes one Python module for every namespace that has or encloses a bound declaration, placed below the root module as the namespaces are nested, and no other. The file <root>.modules (with --single-file a comment at the end of the root module) has the dotted C++ name of each, in order, each followed by a blank. If no namespace is called nonlocal or global, the words of the list are exactly the names of the Python modules made; if none is called nonlocal_ or global_, different namespaces have different modules. Both conditions are needed (refuted without).", "quantifier": "every program and configuration, every set of nested namespaces", "why_tests_cant": "the claim is about all sets of namespaces and all nestings, and about names that collide only for particular namespaces", "anchors": ["source/context.cpp: Context::generate (modules, namespace_pairs)", "source/context.cpp: main_module_header (mangle_namespace_name, sub_modules)", "documentation/basics.rst: list of the generated files"]}
{"id": "C89", "title": "Positional and keyword arguments", "statement": "The definitions generated for a function with differently named parameters together take exactly the Python calls that give values to its first n parameters and nothing else, for some n from the position of the first default argument to the number of parameters (only the full number if a parameter is a function), by position or by the C++ name of the parameter. Each parameter gets the value the call gives to it and exactly one of the definitions takes the call. For constructors the same holds, except that a class with a call-back structure takes keywords only if all arguments are given. A call cannot leave out a default argument and give a later one by name (both refuted).", "quantifier": "every function and constructor of every program, every call with any number of positional and keyword arguments, values of any type", "why_tests_cant": "the claim ranges over all signatures and all ways to distribute arguments over positions and keywords", "anchors": ["source/function.cpp: bind_function (args_to_bind, pybind11::arg)", "source/class.cpp: ConstructorBindingInfo, bind_constructor", "source/function.cpp: function_arguments_for_lambda"]}
{"id": "C90", "title": "Which C++ types the module has", "statement": "The classes that the generated module has as Python types are exactly those bound as items and those nested publicly, at any depth, in a class whose code is generated, unless Python has the type already or it is anonymous. Its enums are the enums bound as items and the public, named, not skipped enums of such classes. A class or enum that is a member of a class is never bound for itself. So the options -class and +class do not act on nested classes: a listed nested class is bound all the same with its enclosing class, and a requested one is not bound unless its enclosing class is (both refuted).", "quantifier": "every program, configuration and order of declarations; nesting of any depth", "why_tests_cant": "the claim ranges over all programs and configurations and over nesting of any depth", "anchors": ["source/class.cpp: ClassBinder::bind_nested_classes, for_public_nested_classes, bind", "source/enum.cpp: is_bindable, bind", "source/context.cpp: Context::generate", "source/binder.cpp: visitors"]}
{"id": "C91", "title": "Headers of the types in a definition are included", "statement": "The file in which a function is bound includes, at its beginning, the header of the function and the header of every class and enum from which the types of its parameters, its result and its template arguments are made, through pointers, references and template arguments at any depth, unless the configuration says to leave out the header. The same holds for a bound class and every class nested publicly in it, with the types of their public methods and constructors and instances of method templates; for the methods, own or inherited, that the call-back structure of the class overrides; and for the operator that prints it. It does not hold for a pointer hidden in an alias, for the types of data members, and for the inherited methods that the structure of a nested class overrides (refuted).", "quantifier": "every program, configuration, item and type; template arguments of any depth", "why_tests_cant": "the claim ranges over all programs and over types of any depth", "anchors": ["source/type.cpp: add_relevant_includes, add_relevant_include_for_decl", "source/function.cpp: add_relevant_includes", "source/class.cpp: add_relevant_includes, ClassBinder::add_relevant_includes, bind_nested_classes", "source/context.cpp: Context::generate"]}
{"id": "C92", "title": "Sequences of runs in one directory", "statement": "After any sequence of runs into the same or different directories, with any settings, inputs and permissions, each ended by itself, by an error or by a kill, every file is as it was in the beginning or holds a text, or the first part of a text, that one of these runs writes there. When the last run has finished, every file that it writes holds exactly the text of that run and every other file is as it was before that run; so the past of a directory has no influence on the files of the last run. The directory is not only what the last run made: files of earlier runs remain (refuted).", "quantifier": "every sequence of runs of any length, every moment at which each ends, every initial content of the disk", "why_tests_cant": "the claim ranges over all histories and all crash points", "anchors": ["source/context.cpp: Context::generate", "source/util.cpp: update_source_file"]}
{"id": "C93", "title": "Which generated files a change touches", "statement": "A generated file ends only when its function has reached the size limit or when the declaration that follows in the order of writing belongs to another namespace. If declarations are appended to a program in which base classes are visited before the classes derived from them, and nothing changes in which of the earlier declarations are bound and in the stream operators, then every generated file but the last is the same, with the same name and the same text, and the last one begins with the same definitions. Without the condition on the order an appended declaration may land in an earlier file (refuted); and files of one namespace may follow each other although the first is not full, because a declaration that is not bound ends a file too (refuted).", "quantifier": "every program, configuration, option and list of appended declarations", "why_tests_cant": "the claim compares two runs, for all programs and all extensions of them", "anchors": ["source/context.cpp: Context::generate, Context::sort_binders"]}
{"id": "C94", "title": "What the program reports", "statement": "With -v, a run that succeeds reports the source file, the config file, the passes numbered from 1, in them every declaration that is bound exactly once and nothing else, and one line for every generated file, which says 'Writing' exactly when the directory had something else in its place and 'up-to-date' otherwise; every pass but the last has bound something and the last one nothing. Without -v the same lines are printed without those on single declarations and files, and the files are the same. A second run reports every generated file as up to date. That every write is reported is false: the source of the root module and the two lists are written silently in every run.", "quantifier": "every program, configuration, option, previous content of the directory and outcome of the calls of the operating system", "why_tests_cant": "the report is compared with the effects of the run for all programs and all previous contents of the directory", "anchors": ["source/context.cpp: Context::bind, Context::sort_binders, Context::generate", "source/util.cpp: update_source_file", "source/config.cpp: Config::read", "source/main.cpp: BinderFrontendAction::CreateASTConsumer"]}
{"id": "C95", "title": "Why a run fails", "statement": "A run ends by an exception only because a namespace is named by directives of opposite sign (to bind and to skip, or to be module-local and not), because the config file cannot be read or has a line that is no directive, or because the disk refuses the file of the root module, a directory or a generated file; it ends by exit only because a base class that a binding has to name is neither among the declarations nor known to Python; the message says which. No run has undefined behaviour. So on a complete translation unit without these causes every run succeeds and generates the whole output.", "quantifier": "every program, order of visits, configuration, config file, command line and outcome of the calls of the operating system", "why_tests_cant": "a test shows that one input succeeds or fails; that there is no further cause is a statement about all programs and configurations", "anchors": ["source/config.cpp: Config::is_namespace_binding_requested, Config::is_namespace_skipping_requested, Config::is_module_local_requested, Config::read", "source/context.cpp: Context::bind, Context::sort_binders, Context::generate", "source/class.cpp: ClassBinder::bind", "source/util.cpp: update_source_file"]}
{"id": "C96", "title": "Line numbers", "statement": "With --skip-line-number the output is independent of the lines on which the declarations are: moving declarations within their headers, e.g. by adding comments or blank lines elsewhere, leaves every generated file, every failure and the state of the disk unchanged. Without the option at most the texts differ; what is bound, in which order, what it depends on and what it includes stays the same.", "quantifier": "every program, every change of the line numbers of its declarations, order of visits, configuration, command line and list of source files", "why_tests_cant": "a test compares the output for one pair of headers; that no decision and no text depends on a line is a statement about all programs and all code paths", "anchors": ["source/util.cpp: line_number, generate_comment_for_declaration", "source/options.cpp: O_skip_line_number", "source/function.cpp: bind_function, FunctionBinder::bind", "source/class.cpp: ClassBinder::bind, bind_forward_declaration, bind_default_constructor", "source/enum.cpp: EnumBinder::bind"]}
{"id": "C97", "title": "Directives about absent things", "statement": "A directive of the config file about something that the program does not contain changes nothing: adding or removing a line that names a class, function, enum, field or builtin type that no declaration of the program has, that sets a binder, include or trampoline for such a class, namespace or method, or whose namespace is the beginning of the name of no namespace of the program, leaves every generated file and every failure as it is, wherever the line stands in the file. So a config file can be shared by several projects.", "quantifier": "every program, configuration, config file, position of the line, directive of every kind except the scalar settings and includes, order of visits, command line and list of source files", "why_tests_cant": "a test adds one line to one config file; that no lookup anywhere in the program is affected by an entry that no declaration matches is a statement about all programs and all code paths that consult the settings", "anchors": ["source/config.cpp: Config::read, Config::is_namespace_binding_requested, Config::is_function_binding_requested, Config::is_class_binding_requested", "source/class.cpp: is_binding_requested, is_skipping_requested, ClassBinder::bind", "source/function.cpp: is_binding_requested, is_skipping_requested", "source/type.cpp: is_python_builtin", "source/context.cpp: Context::generate"]}
{"id": "C98", "title": "Template arguments of functions", "statement": "When a function template instance is bound, the address passed to the binding names exactly this instance: the arguments follow the name between angle brackets, each once and in order, a pack contributes its elements without the extra brackets, an empty pack contributes nothing, and there are no brackets when nothing is contributed or the function is not an instance of a template.", "quantifier": "every function, every list of template arguments of every kind, any number and sizes of packs", "why_tests_cant": "a test instantiates a handful of templates; the lists of arguments, the mixtures of packs and the texts of arguments are unbounded", "anchors": ["source/function.cpp: template_specialization, function_qualified_name, bind_function", "source/util.cpp: template_argument_to_string, fix_boolean_types"]}
{"id": "C99", "title": "Comments", "statement": "Editing the documentation comments of a library, and moving its declarations to other lines, changes only the documentation in the bindings: the same declarations are bound, in the same order, in the same modules, with the same headers, and with --skip-line-number the text of every binding is the same outside the documentation literals. Comments that are only laid out in another way change nothing at all.", "quantifier": "every program, every change of the comments and lines of its classes, functions and enums, all settings and options", "why_tests_cant": "a test compares one program with one edited version; the programs, the comments and the ways to edit them are unbounded", "anchors": ["source/util.cpp: generate_documentation_string_for_declaration, get_text", "source/function.cpp: bind_function", "source/class.cpp: ClassBinder::bind", "source/enum.cpp: bind_enum", "source/context.cpp: Context::generate"]}
{"id": "C100", "title": "Declarations that are not bound", "statement": "Declarations of a program that are not bound leave no trace in the bindings: if some of them (none a printing operator) are removed, e.g. because a header is no longer included, the same bindings are written with the same code and in the same order, for the same Python modules. Only how the bindings are spread over files may change: a declaration of another namespace ends a file even if it is not bound.", "quantifier": "every program, every set of its declarations none of which is bound, all settings and options", "why_tests_cant": "the removed declarations, their place among the others and the rotations of the sorting phase are unbounded", "anchors": ["source/context.cpp: Context::add, Context::bind, Context::sort_binders, Context::generate"]}
{"id": "C101", "title": "From the config file to the generated files", "statement": "What the text of the config file says about a class, a namespace or a value reaches the generated files. For binders and single values the last line counts (for values without key whatever its sign), without a line there is none or the default; headers accumulate. A header asked for a class is included by the file that binds the class (also for nested classes), one asked for a namespace by every file of the namespace, unless a -include line leaves it out. A class with a binder has the call of it as its whole code, one with an add-on binder contains the call; a namespace with a binder consists of the call, in its first file only, and one with an add-on binder begins with it.", "quantifier": "every config text that is accepted, all classes, namespaces, headers and binders, every program and all options", "why_tests_cant": "the number, order and repetition of lines and the declarations they apply to are unbounded", "anchors": ["source/config.cpp: Config::read", "source/class.cpp: bind, ClassBinder::bind, add_relevant_includes", "source/context.cpp: Context::generate"]}
{"id": "C102", "title": "Leaving out by name removes only what is named", "statement": "Adding -function, -enum and -field lines anywhere in an accepted config file gives an accepted config file. Of two successful runs, the one with the added lines binds nothing that the other one does not bind; it still binds every function that no added line names (by its name with parameters, its name, or for members of template instances the template's name), and every class and enum that the configuration itself asks for and that no added line names. A class that only a function left out needed is no longer bound.", "quantifier": "every accepted config text, all positions and numbers of added lines, every program, all options and visits", "why_tests_cant": "whether a declaration is bound depends on all others through what they need; texts and programs are unbounded", "anchors": ["source/config.cpp: Config::read, Config::is_function_skipping_requested, Config::is_enum_skipping_requested", "source/function.cpp: is_skipping_requested", "source/enum.cpp: is_skipping_requested", "source/context.cpp: Context::bind"]}
{"id": "C103", "title": "A rejected config file is explained by its first bad line", "statement": "If a config file is not accepted, the program ends, before it deals with any source file, with one message, which is that of the first line that is not accepted: no sign at its beginning, no space, an unknown directive, an include_for_ directive with -, or a directive that needs two parts with only one. The message is determined by the line alone, whatever was read before, and quotes the line without a carriage return, except for include_for_ directives with -, where only the directive is named.", "quantifier": "every text of the config file, all settings read before it, all command lines and lists of source files", "why_tests_cant": "texts, the number of lines before the bad one and the ways a line can be wrong are unbounded", "anchors": ["source/config.cpp: Config::read, split_in_two", "source/main.cpp: main"]}
{"id": "C104", "title": "--bind and --skip are namespace lines of the config file", "statement": "Names given with --bind and --skip can be moved to +namespace and -namespace lines at any place of the config file, or to a new config file: the file is accepted as before or rejected with the same message, all settings are equivalent, and every run gives the same output.", "quantifier": "all lists of names on the command line, every config text, all positions of the lines, every program and all options", "why_tests_cant": "the texts, the positions of the lines and the programs are unbounded", "anchors": ["source/main.cpp: BinderVisitor::BinderVisitor", "source/config.cpp: Config::read"]}
{"id": "C105", "title": "Where a class that the config file leaves out can still appear", "statement": "A class that is left out (named on a -class line, by itself or by its template, or in a namespace that is left out) is never bound as an item of its own (a public nested class is bound with its enclosing class, see C90), is never named as a base of a bound class, and its members are not folded into classes that derive from it. A function, a method or a constructor declared by a bound class that takes or returns it, by value or by a pointer or reference written as such, is bound only if a +function line names that function. The same is false of data members of the class's type, of constructors brought in by using declarations, of functions that take a pointer or reference to it by a typedef, and of functions that take an enum that is left out: these are bound.", "quantifier": "every program, every config text and option, every run that ends normally, every function, member and type", "why_tests_cant": "the programs, the types and the config files are unbounded", "anchors": ["source/type.cpp: is_skipping_requested(QualType)", "source/function.cpp: is_skipping_requested", "source/class.cpp: is_skipping_requested, bind_data_member, ClassBinder::bind"]}
{"id": "C106", "title": "Which functions are bound", "statement": "A run binds exactly those functions outside classes that are the first met with their signature, can be bound, are not from a system header, have no name known to Python, are not to be left out, and are asked for: by a +function line with or without parameters, by their namespace, or because a class in their signature (by value, or by a pointer or reference written as such) is asked for. So a +class line, which is there to pick one class, also binds the functions of any namespace that take it, but not those that take a pointer to it by a typedef. A +function line with the parameters binds a function whatever is said about its name, namespace and types, unless a -function line with the parameters says otherwise. A +function line with the name alone does not always: in a namespace that is left out, a function such as std::__1::mix needs two lines. Whether a function is bound does not depend on the other declarations of the program: two runs with the same configuration that both meet it first agree.", "quantifier": "every program, every configuration, every run that ends normally, every function", "why_tests_cant": "the programs, configurations and signatures are unbounded", "anchors": ["source/function.cpp: is_binding_requested, is_skipping_requested", "source/type.cpp: is_binding_requested(QualType)", "source/context.cpp: Context::bind", "documentation/config.rst: class"]}
{"id": "C107", "title": "Which classes and enums are bound", "statement": "A run binds exactly those collected classes that can be bound, are not to be left out, have no name known to Python, and are either asked for and not from a system header, or in use: a declaration that is bound uses a type that names them. The same holds for enums. A +class line with the template arguments is therefore enough to bind a class that is not from a system header, unless a -class line says the same words, whatever is said about the template, its namespace and its arguments. A +enum line is enough in the same way for an enum whose name has no inline namespace of the standard library in it. For a class from a system header no line is enough: it is bound only if something bound uses it. Whether a class or an enum is bound can depend on the other declarations only if it is not asked for or comes from a system header.", "quantifier": "every program, every configuration, every run that ends normally, every class and enum", "why_tests_cant": "the programs, configurations and chains of use are unbounded", "anchors": ["source/context.cpp: Context::bind, Context::request_bindings", "source/class.cpp: is_bindable, is_binding_requested, is_skipping_requested", "source/enum.cpp: is_bindable, is_binding_requested, is_skipping_requested", "source/binder.cpp: Binder::is_in_system_header", "source/type.cpp: is_python_builtin"]}
{"id": "C108", "title": "Where bindings come from", "statement": "Whatever a run binds is reached from a declaration that is bound too, that the configuration asks for and that does not come from a system header, by a chain in which each declaration uses a type that names the next one. So a run whose configuration has no line that asks for a function, a class, an enum or a namespace, and no --bind, binds nothing.", "quantifier": "every program, every configuration, every run that ends normally, every declaration that is bound", "why_tests_cant": "the programs and the lengths of the chains are unbounded", "anchors": ["source/context.cpp: Context::bind, Context::request_bindings", "source/type.cpp: request_bindings", "documentation/config.rst"]}
