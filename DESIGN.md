# Formal model of binder (RosettaCommons/binder) in Rocq

The source in `/repo/source` is read as text; nothing is compiled or executed.
The model is in `rocq/theories` (logical name `Verif`).

## 1. What is modelled, and how

binder is a clang tool: it walks a translation unit, collects functions,
classes and enums, decides from a config which of them to bind, generates
pybind11 C++ text for each of them, sorts the results by class dependencies and
writes them to files.  The model follows this pipeline, function by function;
each definition cites the lines it models.

| model file | /repo/source file(s) | contents |
|---|---|---|
| `Str.v` | (C++ standard library) | `std::string`, `std::set<string>`, `std::map<string,_>` operations used by the sources |
| `Util.v` | `util.cpp` | split, replace, trim, indent, escaping, mangling, namespaces, documentation text, file update |
| `Config.v` | `config.cpp`, `config.hpp`, `main.cpp` (set-up of the settings) | config record, config file reader, all queries |
| `Ast.v` | (clang AST) | the *inputs*: declarations and types with the answers of the clang queries binder makes |
| `Types.v` | `type.cpp`, decisions of `class.cpp` | names, tables, bindable / skipped / requested for types and classes, standard names |
| `Regex.v` | `type.cpp` (regular expressions), `llvm::Regex` | the expressions verbatim, what `sub` does (relation), one engine that does it |
| `Func.v` | `function.cpp` | decisions and code for functions |
| `Enum.v` | `enum.cpp` | decisions and code for enums |
| `Scope.v` | `enum.cpp` | names of enumerators before LLVM 6 |
| `Includes.v` | `type.cpp`, `function.cpp`, `enum.cpp`, `class.cpp` (`add_relevant_includes`) | collection of headers |
| `Class.v` | `class.cpp` | members, call-back structures, constructors, base classes, printing, custom binders, whole text of a class |
| `Context.v` | `context.cpp`, `main.cpp` (visitor) | collect / bind / sort / write |
| `Disk.v` | `context.cpp`, `util.cpp` (`update_source_file`) | the same writing, operation by operation, with buffers, failures and kills |
| `Memo.v` | the four static caches | the functions of `Types.v` and `Func.v` with their caches |
| `StlBinders.v` | `stl_binders.hpp` | Python names given by the supplied container binders |
| `Program.v` | `main.cpp` | one invocation on several source files |
| `Reference.v` | `/repo/test/*.ref.cpp` | 20 of the project's reference outputs: the model writes exactly these texts |

`Spec*.v` hold the specifications (small, independent of the model's helpers
where possible; inductive relations and set-theoretic definitions).
`*Facts.v` hold the proofs.  `Properties*.v` hold the theorems `Cnn_...`, each
followed by `Print Assumptions`, and the `Cnn_case` examples that meet the
hypotheses on a concrete, non-trivial input.  `Samples.v` holds those inputs.

Conventions.

* Strings are `list ascii`; `std::set<string>` is the strictly sorted list of
  its elements; `std::map` is an association list.
* C++ exceptions (`Throw`), `std::exit(1)` (`Exit1`), undefined behaviour
  (`Undefined`) and non-termination (`Diverges`) are distinct outcomes of a
  result type, never normal values.
* Loops whose termination is not structural are modelled with fuel; running out
  of fuel is the outcome `Diverges`, and a theorem excludes it (C13, C20, C21,
  C25, C30, C32, C40, C55, C59) or shows that it is unavoidable
  (`C13_replace_empty_diverges`, `C32_zero_limit_never_ends`).
* clang is outside the model: a declaration is a record whose fields are the
  answers of the clang queries the code makes (`getQualifiedNameAsString`,
  `isDeleted`, ...), and theorems quantify over all such records.  Printing of
  types (`QualType::getAsString`) and `llvm::Regex::sub` are oracles
  (parameters of the world), constrained only where a theorem says so.
* A statement that is false of the code is kept in view in `properties.jsonl`,
  refuted by a theorem `..._refuted` with a concrete witness checked by
  computation, and accompanied by the strongest positive theorem found.

## 2. Trusted base

* Coq 8.16.1's kernel (and its `vm_compute`, used for examples and witnesses).
* No axioms.  `Print Assumptions` prints "Closed under the global context" for
  every theorem `Cnn_...`; the commands are in the `Properties*.v` files and run
  with the build.  The checker of the whole library also lists
  `Coq.ssr.ssrunder.Under_rel.*` (seven constants): these belong to a sealed
  module of Coq's own standard library that is loaded with it; no theorem here
  depends on them.
* The hand translation from C++ to Gallina, with the simplifications stated in
  the comment of each definition and in section 3.

* `Reference.v` tests this translation: for 20 of the project's own tests the
  input is written down by hand as clang reports it, and the text written by the
  model is compared, byte for byte, with the verbatim reference file.  The
  reference files are older than the sources, so a list of reworded fixed
  fragments (`reworded`) is applied to them first.

## 3. What is not modelled, and simplifications

* clang's parser and AST construction, and the traversal order of
  `RecursiveASTVisitor`: the sequence of visited declarations is an input and
  theorems quantify over it.
* pybind11 and the compilation of the generated text.  C37 interprets the one
  loop of the root module that creates the submodules, C17 the escapes of string
  literals, C43 parameter lists; everything else speaks about text.
* Option parsing: option values are inputs.
* Integer overflow of 32-bit counters, for inputs with more than 2^31 elements.
* The operating system beyond an abstract map from paths to contents.  `mkdir`
  and the opening of a file succeed or fail as given by arbitrary functions;
  a write to an open stream does not fail (a full disk is not modelled);
  directories are not part of the state.
* `Context.v` computes all texts before the first write; `Disk.v` interleaves
  them as the code does, and `C70_as_one_step` connects the two.
* `llvm::Regex`: assumed to implement POSIX leftmost-longest matching with
  back-references, as `sub_spec` in `Regex.v` says; theorems that need it take
  it as a hypothesis about the engine of the world, and `Regex.v` has an
  executable engine that meets it.
* `QualType::getAsString`: a parameter.  `keyword_dropped` (C64) says nothing
  about types printed with two elaborated type keywords.
* C67 assumes that only member functions are const (`const_is_method`) and C41
  that a class type carries the template arguments of the class it refers to
  (`from_clang`); both hold of every C++ program.  The printing of
  specialisations with an empty list of template arguments is left open in C67.
* Output on stderr, and the report on stdout of a run that fails (`Console.v` has
  that of a run that succeeds).
* The format specifications and named arguments of the fmt library: the code uses
  only plain and numbered replacement fields.
* Dead code, not modelled: `add_relevant_includes_cached`,
  `bind_forward_declaration`, `is_forward_needed`/`add_to_binded` beyond the one
  use in sorting, `generate_opaque_declaration_if_needed`, `expresion_to_string`,
  `wrap_CXXRecordDecl`, `is_overloadable` (constant true), `ClassVisitor`,
  `replace_reverse`, `operator<<` of `Binder` (debugging output).
* `NamedDecl::getQualifiedNameAsString` (clang): qualified names are inputs,
  except those of enumerators before LLVM 6 (`Scope.v`).

## 4. Findings: statements that are false of the code

Each has a witness in the named theorem.

| theorem | finding |
|---|---|
| `C04_component_wise_refuted` | a namespace directive also applies to namespaces whose name merely begins with the same letters |
| `C15_split_multichar_refuted` | `split` with a separator of several characters leaves part of the separator in the pieces |
| `C19_distinct_names_refuted` | different classes can get the same Python name |
| `C21_identifiers_kept_refuted` | an identifier that ends in `__Bool` is rewritten (the underscore counts as a word boundary) |
| `C28_nested_bases_refuted` | bases needed by nested classes are not registered first |
| `C32_zero_limit_never_ends` | `--max-file-size 0` never ends |
| `C34_add_on_called_refuted` | an add-on binder is not called if the namespace also has a replacing binder |
| `C36_distinct_names_refuted` | two generated files (or functions) can have the same name in the default mode |
| `C41_across_units_refuted` | with several source files, remembered decisions on classes and functions are wrong |
| `C44_unary_and_refuted` | the address-of operator is bound as `__and__` |
| `C45_private_template_argument_refuted` | a private class as template argument does not prevent binding |
| `C46_return_spelling_refuted` | bindability depends on the spelling of the return type |
| `C50_most_derived_refuted` | with a repeated base, a trampoline overrides an outdated version |
| `C51_final_refuted` | a trampoline can override a final method |
| `C52_every_pure_refuted` | a trampoline can miss a pure method (const overloads) |
| `C54_scoped_refuted` | the enumerators of an `enum struct` are exported |
| `C55_idempotent_refuted` | standard-name normalisation is not idempotent |
| `C57_empty_pack_refuted` | an empty pack gives an unbalanced template argument list |
| `C58_include_block_grows` | re-reading the config file repeats the `+include` block |
| `C60_multiset_refuted` | the rule for `multiset` turns `multiset<int>` into `multiset<int *>` and accepts any comparator and allocator arguments |
| `C70_root_last_refuted` | the list of sources can be complete while the root file is empty |
| `C71_template_key_refuted`, `C71_distinct_vectors_refuted` | container names: default comparator of template keys not recognised, allocator of vectors ignored |
| `C72_all_files_listed_refuted` | with several source files, the root file and the list of sources are those of the last one only |
| `C73_any_order_refuted` | contradicting lines of the config file: the last one counts, so their order matters |
| `C76_any_operators_refuted` | two `operator<<` of the same type in different namespaces: the last one met prints the class |
| `C67_own_operator_refuted` | operator templates are looked up by the unqualified class name: n::V<int> is printed by the operator of m::V |
| `C77_fields_refuted` | the types of exposed data members are never requested: reading such a member fails in Python unless something else binds its class |
| `C77_ellipsis_refuted` | the parameter types of constructors with an ellipsis are never requested |
| `C78_character_argument_refuted` | a template argument that is the character for a double quote ends the documentation literal early: the generated file does not compile |
| `C79_builtin_base_refuted` | a base class that is declared `+python_builtin` is named in `class_<…>` but never registered: the import fails |
| `C79_nested_binder_refuted` | the binder configured for a nested class is called with `M("n::A")`, the enclosing class as if it were a namespace: the import fails |
| `C80_distinct_refuted` | `n::A_B` and `n_A::B` get call-back structures of the same name: two definitions of one class in one program |
| `C80_identifier_refuted` | the structure of a class nested in `A<int *>` is called `PyCallBack_n_A_int_*__B`: does not compile |
| `C81_noexcept_true_refuted` | overrider of a `noexcept(true)` method has no exception specification (the flags are tested with a bitwise and): does not compile |
| `C81_noexcept_false_refuted` | overrider of a `noexcept(false)` method is declared `throw()`: a Python exception ends the program |
| `C82_unnamed_namespace_refuted` | (LLVM ≤ 5) enumerators of an unnamed namespace inside `n` are written `n::::x` |
| `C82_template_arguments_refuted` | (LLVM ≤ 5) enumerators of enums in `K<int>` are written `K::x` |
| `C82_linkage_refuted` | (LLVM ≤ 5) enumerators in an `extern` block lose the names of the namespaces around it |
| `C82_local_refuted` | enums local to functions are visited and bound, though no name denotes them outside |
| `C83_holder_refuted` | a class with the name given by `+custom_shared` counts as a Python builtin and is no longer bound |
| `C84_python_builtin_refuted` | a + directive that removes bindings: `+python_builtin` |
| `C84_both_ways_refuted` | adding `+namespace` for a namespace with a `-namespace` directive can stop the program |
| C87 `C87_clashes_refuted` | a class with a static and a non-static function of the same name gives a module that cannot be imported (pybind11 refuses to overload them), unless `prefix_for_static_member_functions` is set; so do a nested `enum struct` with an enumerator that is also the name of a function (its enumerators are exported), a data member called like the Python name of an operator (`assign`, `plus_plus`, ...) beside the operator, and a function that hides a data member of a bound base. In an instance of a class template, a function that hides a data member of a template base is silently replaced by it. |
| C88 `C88_names_refuted` | the list `<root>.modules` names the C++ namespaces, so a namespace `global` or `nonlocal` is listed under a name that no module has (the module is `global_`); namespaces `global` and `global_` share one Python module; namespaces named like the other keywords of Python (`in`, `is`, `from`, `lambda`, ...) keep their names, so no `import` statement can name their modules. |
| C89 `C89_any_keyword_refuted` | for `f(a, b = 1, c = 2)` the Python call `f(7, c=9)` is refused, since default values are turned into shorter overloads; for a class with a call-back structure, the overloads of a constructor with fewer arguments have no argument names, so `T(a=7)` is refused although `T(7)` works. |
| C90 `C90_skipping_nested_refuted`, `C90_requesting_nested_refuted` | `-class n::A::In` does not keep the public nested class `n::A::In` of a bound class from being bound, as `bind_nested_classes` never asks whether the class is to be skipped; `+class n::A::In` alone does not bind it either, as members of classes are not collected as items. |
| C91 `C91_alias_refuted`, `C91_data_members_refuted`, `C91_nested_structures_refuted` | the header of a class can be missing from the file that uses it: `typedef A *AP; void h(AP)` does not lead to the header of `A`, as aliases of pointers are not looked through; the types of data members are not looked at, so with a data member `V<A>` the header of `A` is missing if the class's own header only declares it; `bind_nested_classes` keeps the code of the call-back structures of nested classes but drops their `prefix_includes_`. |
| C92 `C92_directory_is_the_last_run_refuted` | the program removes nothing: a file of an earlier run stays in the output directory although the lists of sources no longer name it; a build that compiles `*.cpp` takes it in. |
| C93 `C93_files_are_filled_refuted`, `C93_any_order_refuted` | the loop that fills a file stops at a declaration of another namespace even if that declaration is not bound, so unbound declarations cause more and smaller files; `std::rotate` moves everything behind a derived class, so that a declaration appended at the end of the input can change an early file. |
| C94 `C94_every_write_reported_refuted` | `generate` opens the source of the root module and the lists of sources and modules directly, not with `update_source_file`: they are written in every run, also when nothing has changed, and -v does not mention them. |
| C96_lines_refuted | without --skip-line-number the generated text depends on the lines of the declarations. |
| C97_namespace_named_refuted | a namespace directive that names no namespace of the program still matters when it is a textual beginning of one. |
| C62_prefix_refuted | headers known for a name are also written for longer names that only begin like it: std::set_terminate gets <set>. |
| C99_layout_refuted | longer comments can spread the items over more files: documentation counts for the size limit of files. |
| C10_bytearray_refuted | the table of pybind11 classes has `pybind11::bytesarray`; the class is called `bytearray`, so it is not taken for a Python class. |
| C100_files_refuted | a declaration that is not bound ends a generated file if it belongs to another namespace. |
| C102_unnamed_refuted | leaving out a function also removes the classes that nothing else needs, although no line names them |
| C103_quotes_the_line | the message for -include_for_class and -include_for_namespace does not say which line is wrong |
| C61_one_line_refuted | `+enum` is compared with the name as written to request and with the normalised name not to skip: an enum such as std::__1::order in a namespace that is left out needs two lines |
| C105_fields_refuted | a data member whose type is a class left out with `-class` is still exposed, although the class is not registered |
| C105_used_constructors_refuted | constructors brought in with `using` are not tested for being left out, by name or by parameter type |
| C105_typedef_refuted | a function that takes a pointer to a left-out class by a typedef is bound: the test looks through pointers only as written |
| C105_enums_refuted | `-enum` leaves out the enum but not the functions that take it: the test of a type looks at classes only |
| C106_cherry_pick_refuted | `+class n::K` also binds the functions of any namespace that take a `K`, although the directive is documented to pick a class |
| C106_typedef_refuted | but not those that take a pointer to it by a typedef |
| C106_one_line_refuted | `+function` with a name is compared as written to request and normalised not to skip: a function such as std::__1::mix in a namespace that is left out needs two lines, or one with its parameters |
| C107_system_refuted | `+class` and `+namespace` do not bind a class from a system header that nothing bound uses |
| C107_alone_refuted | a class from a system header is bound in the company of a class that uses it, and not on its own |

## 5. Plan per property

C01-C03 namespace decision: model the two loops literally, prove equivalence to
"length of the longest matching prefix", derive exclusivity, agreement on
errors, invariance under permutation/duplication.
C04 refutation by a concrete configuration, plus a positive theorem for names
that are not textual extensions.
C05-C07 config reader as a fold over lines; spec as an inductive relation
between a line and its effect.  C08-C11 query functions against set-theoretic
specs.  C12 `set_of`/filter: sortedness, membership.
C13-C21, C65 string functions: loop models with indices and fuel, proved equal
to structural specs by induction.
C22-C23 file system as a map plus a log of writes; crash = any prefix written.
C24-C27, C68 state machine over the list of binders with invariants; measure =
number of unbound items.
C28-C30 the rotate/restart loop with fuel; invariants (permutation, sorted
prefix), measure (unsorted suffix, height of its head).
C31-C36, C38-C39, C66, C69 the write loop as a state machine over the remaining
items; relate the chunks to a declarative partition.
C37 sorted set of namespaces and the evaluation of the generated submodule loop.
C40 include collection over an arbitrary finite graph; measure argument.
C41 state monad over the four caches; invariant "every entry is the answer",
preserved by every function by mutual induction.
C42-C45, C47-C54, C56-C57, C61-C64, C67 functions over the AST model against
declarative specs (inductive relations giving the exact text).
C46, C55, C60 (and the refuted parts of others) witnesses by computation.
C58 idempotence of the set-up of the settings up to the answers of all queries.
C59 composition of C25, C30, C32, C40.
C70 small-step semantics of the list of file operations, with nondeterministic
flushing and kills; invariant per path by projection onto one path.
C71 mangling of concatenations.
C72 fold over the source files; invariant: the settings stay equivalent to those
of the first set-up (C58, C73).
C73 congruence: every function of the model gives the same result under
equivalent settings, up to the block of `+include` lines; per-line effects of
the config file as sets.
C74, C75 congruence again, now in the options: phase by phase the same items and
code; includes related by "equal up to a comment".
C76 the items, the answers about printing operators and the needed items are
characterised without reference to positions, then compared.
C77 the requests of each part of a class as a set of types (`asked`), joined; the needed items then no longer mention the generated code.
C78 a scanner for literals, comments and brackets (SpecLex.v); each piece of text keeps the mode and the stack of open brackets; the texts of items and files are put together from the specifications of C67, C68 and C66.  LexCheck.v decides the hypotheses for concrete inputs.
C79 registrations of a class, an item and a run (SpecImport.v, by the same cases as the text of C67 and C68); pybind11's rules as a predicate on a registration and the ones before it; C28 gives the bases, C37 the modules, unique nesting the rest.  C79_statements ties registrations to the text.
C80 replace and mangle_type_name on joined identifiers; injectivity of joining.
C81 from C50 and the specification of an overrider.
C82 `Scope.v` models the walk over declaration contexts; `SpecScope.v` defines C++ lookup of qualified names; induction over the nesting.
C83 Two runs in lock step: items related by equality of everything but the text (`SpecStyle.v`), through binding, requesting and sorting (`StyleFacts.v`, `StyleRun.v`); config files line by line (`StyleConfig.v`).
C84 Every specification of what is left out is antitone in the lists, every specification of what is asked for or needed is monotone (`MonotoneFacts.v`, by induction on the specifications); with C77 this gives the items (`PropertiesMonotone.v`); config files line by line (`MonotoneConfig.v`).
C85 The requested types do not depend on positions if type names are unambiguous; by induction on `required` every item required among the few declarations is required among the many; C77 turns this into bindings; the code of an item is a function of the declaration and of the registered operators (`PropertiesGrowth.v`).
C86 `Fmt.v` models the parser of the bundled library with both loops; both are equal to one scan (`FmtFacts.v`, by induction on the length), which is related to pieces by induction; `FmtStrings.v` has the format strings copied from the sources by a script, `Formatted.v` the text functions with the calls of `format`, proved equal to the functions of the model (`PropertiesFmt.v`).
C87 `SpecAttributes.v` lists the definitions of a class from the declarations, independently of the text, and states what pybind11 accepts; `AttributeFacts.v` shows by induction on the nesting that the text has the statements; acceptance follows from the names being a subsequence of those declared (`PropertiesAttributes.v`).
C88 `SpecModules.v` states what the loop over `sub_modules` in the template of the root module does; `ModuleFacts.v` shows by induction that every parent is made before it is used and that replacing `::` in the list gives the dotted names (`PropertiesModules.v`).
C89 `SpecCalls.v` specifies when pybind11 takes a call and what a call gives; the names in the text follow from C42, and the equivalence from induction over the lists (`PropertiesCalls.v`).
C90 `SpecNested.v` says which types a module offers; induction over the nesting of classes (`actions_ind`) for the registrations of one item, then C31 for those of a run (`PropertiesNested.v`).
C91 `SpecHeaders.v` says which classes a type is made from; each is reached in the collection of headers (induction over the type), and what is reached is in the include block (C12, C40) (`PropertiesHeaders.v`).
C92 `SpecHistory.v` defines sequences of runs, each ended at any moment, and what a run writes at a path; induction over the sequence with C70 for each run (`PropertiesHistory.v`).
C93 The loop that fills the files looks only at what it has not yet written: two lists of items of which one begins with the other are cut the same way up to the last file (induction over the loop; `PropertiesStable.v`).
C94 `Console.v` has the loops of the program again, with the lines they print; erasing the lines gives the functions of `Context.v` and `Program.v`, and the lines are those of the log of bound items and of the comparison with the disk (inductions over the loops; `ConsoleFacts.v`, `PropertiesConsole.v`).
C95 a predicate on results (no undefined behaviour, no exit, exceptions only with the given messages) is proved for every function of the binding phase, bottom up along the calls (inductions on types, fuel and lists; `FailFacts.v`); with the specifications of sorting and writing and the termination theorem C59 this gives the causes and the success theorem (`SpecFail.v`, `PropertiesFail.v`).
C96 two environments that differ only in line numbers are related pointwise (`SpecLines.v`); for every function of the model that looks at declarations, bottom up, it is proved that it gives the same result in both (`LinesFacts.v`), so `run`, `plan` and `write_output` do; the decisions without the option follow with C83 (`PropertiesLines.v`).
C97 two configurations that answer alike for all names of the program (`same_for_program` in `SpecAbsent.v`) are related; for every function of the model that consults the settings, bottom up, the result is the same (`AbsentFacts.v`); reading further lines keeps the relation and an idle line establishes it (`AbsentRead.v`), so the run and the program are the same (`PropertiesAbsent.v`).
C98 the loop over the template arguments is shown to append the pieces that `contributes` (in `SpecSpelling.v`) assigns to each argument; with the specification of fix_boolean_types (C21) and of names outside the library (C55) this gives the exact text (`PropertiesSpelling.v`). The same file strengthens C45 (what mentions a template parameter), C55 and C60 (the tables of library names against an independent list) and C62 (headers from the tables are public).
C99 the lemmas of `LinesFacts.v` are parametrised by what may happen to comments; for arbitrary comments each function that generates text is shown to give texts related by `but_documentation` (`SpecLines.v`), which concatenation and indentation preserve (`DocText.v`), and the binding and sorting phases keep such items related (`PropertiesLines.v`).
C100 sorting commutes with leaving out items that nothing kept depends on (`UnboundFacts.v`: scan by scan, since rotations commute with filtering); what is bound is taken from the characterisation of C77 and the code from C85 (`PropertiesUnbound.v`).
C101 induction over the lines with the effects of C05 gives the settings as a function of the text (`SpecDirectives.v`, `PropertiesDirectives.v`); the files follow from C12, C26, C34 and C67.
C102 a relation between the settings is kept line by line; decisions about declarations that are not named are equal in both settings (`SkipsFacts.v`), so the requirement of C77 carries over (`SpecSkips.v`, `PropertiesSkips.v`).
C103 the five ways to reject a line are a relation between line and message (`SpecReject.v`); it is shown to be the outcome of reading the line, then induction over the lines (`PropertiesReject.v`).
C104 a relation between the two settings, up to the lines still to come, is kept line by line; equivalent settings give the same run by C73 (`SpecOptionLines.v`, `PropertiesOptionLines.v`).
C105 the rules that decide on functions, methods, constructors and bases, instantiated for a class that is listed; three wider statements refuted by one program (`SpecLeftOut.v`, `PropertiesLeftOut.v`).
C106 functions are never bound because something else needs them, so C77 reduces to the decisions of the configuration (C47), for which a run that ends normally has answers (`SpecFunctions.v`, `PropertiesFunctions.v`).
C107 C77 with the decisions of C45, C48 and C61 put in for classes and enums, and with `in_use` as the only other reason (`SpecBoundTypes.v`, `PropertiesBoundTypes.v`).
C108 induction on the reasons of C77; without + lines and --bind no declaration is asked for, so there is no chain (`SpecOrigin.v`, `PropertiesOrigin.v`).
