{
 "claims": [
  {
   "property": "C01",
   "status": "proved",
   "theorems": [
    "C01_binding_requested",
    "C01_skipping_requested",
    "C01_longest_match_exists"
   ],
   "note": "Both queries, all three outcomes, for every configuration and namespace."
  },
  {
   "property": "C02",
   "status": "proved",
   "theorems": [
    "C02_never_both_and_same_conflicts"
   ],
   "note": ""
  },
  {
   "property": "C03",
   "status": "proved",
   "theorems": [
    "C03_order_and_repetition"
   ],
   "note": ""
  },
  {
   "property": "C04",
   "status": "proved",
   "theorems": [
    "C04_component_wise_refuted",
    "C04_component_wise"
   ],
   "note": "The full statement is refuted (C04_component_wise_refuted); C04_component_wise is the positive part: without textual-only prefixes the decision is component-wise."
  },
  {
   "property": "C05",
   "status": "proved",
   "theorems": [
    "C05_blank_and_comment_lines",
    "C05_accepted_line",
    "C05_rejected_line"
   ],
   "note": "Table of the 27 directives in SpecConfig.v; effect with frame conditions; rejected iff neither ignored nor valid."
  },
  {
   "property": "C06",
   "status": "proved",
   "theorems": [
    "C06_concatenation",
    "C06_file_rejected_iff_a_line_is",
    "C06_read_total"
   ],
   "note": ""
  },
  {
   "property": "C07",
   "status": "proved",
   "theorems": [
    "C07_crlf"
   ],
   "note": ""
  },
  {
   "property": "C08",
   "status": "proved",
   "theorems": [
    "C08_class_and_function_directives"
   ],
   "note": "Stated from the text of the config file to the answer of the query."
  },
  {
   "property": "C09",
   "status": "proved",
   "theorems": [
    "C09_names_with_spaces_not_selectable",
    "C09_names_without_spaces"
   ],
   "note": ""
  },
  {
   "property": "C10",
   "status": "proved",
   "theorems": [
    "C10_python_builtin",
    "C10_from_config_text",
    "C10_known_classes",
    "C10_user_classes",
    "C10_bytearray_refuted"
   ],
   "note": "Over the configuration text and over declarations; C10_known_classes states the two tables independently (known_class, converted_container in SpecSpelling.v), C10_user_classes: no class outside std, pybind11 and __gnu_cxx is taken for a Python class by default."
  },
  {
   "property": "C11",
   "status": "proved",
   "theorems": [
    "C11_module_local"
   ],
   "note": ""
  },
  {
   "property": "C12",
   "status": "proved",
   "theorems": [
    "C12_include_block",
    "C12_file_includes"
   ],
   "note": "Both the rendered block (sorted, no duplicates, nothing skipped) and its exact content per file."
  },
  {
   "property": "C13",
   "status": "proved",
   "theorems": [
    "C13_replace_exact",
    "C13_replace_value",
    "C13_replace_empty_diverges"
   ],
   "note": "replace terminates for non-empty from and equals the leftmost-first specification; diverges for empty from"
  },
  {
   "property": "C14",
   "status": "proved",
   "theorems": [
    "C14_indent_text",
    "C14_indent_lines"
   ],
   "note": ""
  },
  {
   "property": "C15",
   "status": "proved",
   "theorems": [
    "C15_split_exact",
    "C15_split_join",
    "C15_split_multichar_refuted"
   ],
   "note": "one-character separators exact; the multi-character claim is refuted by C15_split_multichar_refuted"
  },
  {
   "property": "C16",
   "status": "proved",
   "theorems": [
    "C16_trim_exact",
    "C16_trim_idempotent"
   ],
   "note": ""
  },
  {
   "property": "C17",
   "status": "proved",
   "theorems": [
    "C17_documentation_round_trip",
    "C17_comment_text",
    "C17_all_text",
    "C17_no_comment"
   ],
   "note": "literal reader covers the escapes that can occur; trigraphs are not modelled"
  },
  {
   "property": "C18",
   "status": "proved",
   "theorems": [
    "C18_mangle_charset",
    "C18_mangle_template_charset",
    "C18_mangle_identity",
    "C18_mangle_keeps_text"
   ],
   "note": ""
  },
  {
   "property": "C19",
   "status": "proved",
   "theorems": [
    "C19_distinct_names_refuted",
    "C19_distinct_plain_names"
   ],
   "note": "the full statement is false of the code: refuted by C19_distinct_names_refuted; names without punctuation stay distinct"
  },
  {
   "property": "C20",
   "status": "proved",
   "theorems": [
    "C20_nested_recombines",
    "C20_top_level",
    "C20_climbing_terminates",
    "C20_namespace_of_declaration"
   ],
   "note": ""
  },
  {
   "property": "C21",
   "status": "proved",
   "theorems": [
    "C21_bool_words",
    "C21_terminates",
    "C21_idempotent",
    "C21_identifiers_kept_refuted"
   ],
   "note": "the identifier claim is refuted by C21_identifiers_kept_refuted; characters above 127 count as not alphanumeric"
  },
  {
   "property": "C22",
   "status": "proved",
   "theorems": [
    "C22_update_effect",
    "C22_update_succeeds_iff",
    "C22_rerun_writes_nothing",
    "C22_rerun_writes_nothing_needs_distinct_names"
   ],
   "note": "whole-run statement needs distinct file names (see C35, C36)"
  },
  {
   "property": "C23",
   "status": "proved",
   "theorems": [
    "C23_rerun_repairs",
    "C23_system_calls_adequate"
   ],
   "note": "crash = any prefix of the sequence truncate, append, append ..."
  },
  {
   "property": "C24",
   "status": "proved",
   "theorems": [
    "C24_collected_once"
   ],
   "note": "Declarations are kept once, in first-visit order, whatever the visit sequence."
  },
  {
   "property": "C25",
   "status": "proved",
   "theorems": [
    "C25_binding_terminates",
    "C25_loop_ends",
    "C25_bound_at_most_once"
   ],
   "note": "The repeat-until-stable loop ends and binds each item at most once."
  },
  {
   "property": "C26",
   "status": "proved",
   "theorems": [
    "C26_bound_iff_needed",
    "C26_code_of_declaration",
    "C26_succeeds_iff"
   ],
   "note": "An item is bound exactly when eligible or needed by a bound one; the code is that of the declaration."
  },
  {
   "property": "C27",
   "status": "proved",
   "theorems": [
    "C27_skipped_never_bound",
    "C27_system_only_on_demand"
   ],
   "note": "Skipped items are never bound; system items only on demand."
  },
  {
   "property": "C28",
   "status": "proved",
   "theorems": [
    "C28_bases_first",
    "C28_nested_bases_refuted"
   ],
   "note": "Direct bases come first; the property fails for bases used through nested classes (C28_nested_bases_refuted)."
  },
  {
   "property": "C29",
   "status": "proved",
   "theorems": [
    "C29_sorting_is_a_permutation",
    "C29_any_items"
   ],
   "note": "Permutation, and stability with respect to the dependency constraints."
  },
  {
   "property": "C30",
   "status": "proved",
   "theorems": [
    "C30_sorting_ends",
    "C30_fails_iff_missing",
    "C30_dependencies_are_acyclic"
   ],
   "note": "Fails exactly when a dependency is not bound; the dependency relation is acyclic when the class hierarchy is."
  },
  {
   "property": "C31",
   "status": "proved",
   "theorems": [
    "C31_every_bound_item_in_one_file",
    "C31_code_in_order",
    "C31_body_is_in_the_text"
   ],
   "note": "Every bound item with code goes to exactly one file, in the sorted order, verbatim."
  },
  {
   "property": "C32",
   "status": "proved",
   "theorems": [
    "C32_writing_ends",
    "C32_any_items",
    "C32_zero_limit_never_ends"
   ],
   "note": "Total for a positive limit; with a limit of zero the loop never ends (proved)."
  },
  {
   "property": "C33",
   "status": "proved",
   "theorems": [
    "C33_one_namespace_and_size"
   ],
   "note": "One namespace per file, and the limit can be exceeded only by the last item."
  },
  {
   "property": "C34",
   "status": "proved",
   "theorems": [
    "C34_namespace_binder_called_once",
    "C34_call_comes_first",
    "C34_add_on_called_refuted"
   ],
   "note": "Called exactly once and first; false for an add-on when the namespace also has a replacing binder (refuted with a witness)."
  },
  {
   "property": "C35",
   "status": "proved",
   "theorems": [
    "C35_flat_names_distinct"
   ],
   "note": "Flat mode: all names different."
  },
  {
   "property": "C36",
   "status": "proved",
   "theorems": [
    "C36_distinct_names_refuted",
    "C36_file_names_distinct",
    "C36_function_names_distinct"
   ],
   "note": "The property as stated is false in the default mode: three witnesses in C36_distinct_names_refuted; true under explicit conditions on the prefixes."
  },
  {
   "property": "C37",
   "status": "proved",
   "theorems": [
    "C37_namespaces_listed",
    "C37_modules_exist"
   ],
   "note": "Every enclosing namespace listed once, parents first; running the list creates the module of every bound item."
  },
  {
   "property": "C38",
   "status": "proved",
   "theorems": [
    "C38_files_on_disk",
    "C38_root_module"
   ],
   "note": "Shape of the root module for all files and namespaces, .sources content and the effect on the file system."
  },
  {
   "property": "C39",
   "status": "proved",
   "theorems": [
    "C39_trace_lines",
    "C39_lines_differ"
   ],
   "note": "The trace lines carry 0,1,2,... over all files; different numbers give different lines."
  },
  {
   "property": "C40",
   "status": "proved",
   "theorems": [
    "C40_collection_ends",
    "C40_revisits_only_closer",
    "C40_exactly_the_needed_headers"
   ],
   "note": "Termination on cyclic graphs, strictly decreasing revisits and exactness of the collected headers."
  },
  {
   "property": "C41",
   "status": "proved",
   "theorems": [
    "C41_same_answers",
    "C41_order_irrelevant",
    "C41_names_across_units",
    "C41_across_units_refuted"
   ],
   "note": "Memo.v models the four caches call by call. Types are assumed to carry the template arguments of the class they refer to, as clang guarantees. C41_across_units_refuted is the witness for several source files."
  },
  {
   "property": "C42",
   "status": "proved",
   "theorems": [
    "C42_arity_exists",
    "C42_overloads",
    "C42_constructor_overloads"
   ],
   "note": "Exact text of every overload of functions and constructors."
  },
  {
   "property": "C43",
   "status": "proved",
   "theorems": [
    "C43_lambdas_forward",
    "C43_factories_forward",
    "C43_overriders_forward"
   ],
   "note": "Lambdas, constructor factories and overriders."
  },
  {
   "property": "C44",
   "status": "proved",
   "theorems": [
    "C44_operator_name",
    "C44_one_name",
    "C44_unlisted_never_bound",
    "C44_unary_and_refuted"
   ],
   "note": "Exact correspondence with the listed names; C44_unary_and_refuted records that address-of is bound as __and__."
  },
  {
   "property": "C45",
   "status": "proved",
   "theorems": [
    "C45_template_parameters",
    "C45_dependent_types",
    "C45_functions",
    "C45_types",
    "C45_classes",
    "C45_unsupported_never_bound",
    "C45_hidden_class_never_bound",
    "C45_private_template_argument_refuted"
   ],
   "note": "Exact decision (iff) for types, classes and functions, plus the explicit list for every function bound by a run; C45_private_template_argument_refuted shows that template arguments are not examined."
  },
  {
   "property": "C46",
   "status": "proved",
   "theorems": [
    "C46_return_spelling_refuted",
    "C46_parameter_spelling",
    "C46_canonical_return"
   ],
   "note": "The property as stated is false (C46_return_spelling_refuted); it holds for parameters."
  },
  {
   "property": "C47",
   "status": "proved",
   "theorems": [
    "C47_skipped",
    "C47_requested",
    "C47_decided",
    "C47_never_bound"
   ],
   "note": "Exact decision whenever one is made, and always one unless a namespace is listed both ways; linked to whole runs."
  },
  {
   "property": "C48",
   "status": "proved",
   "theorems": [
    "C48_skipped",
    "C48_requested",
    "C48_decided",
    "C48_never_bound"
   ],
   "note": "Exact decision, recursive in the template arguments; linked to whole runs."
  },
  {
   "property": "C49",
   "status": "proved",
   "theorems": [
    "C49_members",
    "C49_exactly_the_chosen",
    "C49_exactly_the_fields"
   ],
   "note": "Exactly the chosen members, in order of declaration."
  },
  {
   "property": "C50",
   "status": "proved",
   "theorems": [
    "C50_structure",
    "C50_no_structure",
    "C50_most_derived",
    "C50_most_derived_refuted"
   ],
   "note": "Uniqueness always; the most derived version only if no class occurs twice in the hierarchy (C50_most_derived), false otherwise (C50_most_derived_refuted)."
  },
  {
   "property": "C51",
   "status": "proved",
   "theorems": [
    "C51_final_blocks",
    "C51_final_refuted"
   ],
   "note": "The property as stated is false (C51_final_refuted); it holds if the first eligible version is final (C51_final_blocks)."
  },
  {
   "property": "C52",
   "status": "proved",
   "theorems": [
    "C52_constructors",
    "C52_abstract_builds_the_structure",
    "C52_pure_methods_overridden",
    "C52_every_pure_refuted"
   ],
   "note": "Exact decision. The statement that every pure method is overridden fails for const overloads (C52_every_pure_refuted) and final versions."
  },
  {
   "property": "C53",
   "status": "proved",
   "theorems": [
    "C53_holder"
   ],
   "note": ""
  },
  {
   "property": "C54",
   "status": "proved",
   "theorems": [
    "C54_every_enumerator_once",
    "C54_scoped_refuted"
   ],
   "note": "Exact text. Enumerators of enum struct are exported although it is scoped (C54_scoped_refuted)."
  },
  {
   "property": "C55",
   "status": "proved",
   "theorems": [
    "C55_only_known_spellings",
    "C55_library_types",
    "C55_simplification_ends",
    "C55_simplification_idempotent",
    "C55_idempotent_refuted",
    "C55_other_names_unchanged"
   ],
   "note": "Idempotence of the whole normalisation is false (C55_idempotent_refuted); termination and idempotence of the simplification hold for every conforming engine."
  },
  {
   "property": "C56",
   "status": "proved",
   "theorems": [
    "C56_include",
    "C56_nothing_else",
    "C56_quoted"
   ],
   "note": "Exact text; quoted and missing includes give nothing."
  },
  {
   "property": "C57",
   "status": "proved",
   "theorems": [
    "C57_specialization",
    "C57_no_template",
    "C57_empty_pack_refuted",
    "C57_bare_bracket"
   ],
   "note": "Exact text; the malformed case is exactly that of no non-empty argument (C57_empty_pack_refuted, C57_bare_bracket)."
  },
  {
   "property": "C58",
   "status": "proved",
   "theorems": [
    "C58_config_read_once_per_source_file",
    "C58_same_answers",
    "C58_include_block_grows"
   ],
   "note": "Includes the refutation of textual stability of the +include block."
  },
  {
   "property": "C59",
   "status": "proved",
   "theorems": [
    "C59_run_terminates"
   ],
   "note": "End to end: collecting, binding, sorting and writing end for every acyclic hierarchy."
  },
  {
   "property": "C60",
   "status": "proved",
   "theorems": [
    "C60_typedefs",
    "C60_only_defaults_dropped",
    "C60_multiset_refuted"
   ],
   "note": "The property as stated is false for multiset (C60_multiset_refuted); every other change drops default arguments."
  },
  {
   "property": "C61",
   "status": "proved",
   "theorems": [
    "C61_names_needed",
    "C61_one_line_refuted",
    "C61_decided",
    "C61_never_bound",
    "C61_can_be_bound",
    "C61_internals_never_bound"
   ],
   "note": "C61_names_needed (iff) in PropertiesEnums.v; C61_one_line_refuted: for an enum whose normalised name differs from its name no single +enum line has an effect if its namespace is left out."
  },
  {
   "property": "C62",
   "status": "proved",
   "theorems": [
    "C62_public_headers",
    "C62_prefix_refuted",
    "C62_header",
    "C62_added",
    "C62_name_used",
    "C62_never_internal"
   ],
   "note": ""
  },
  {
   "property": "C63",
   "status": "proved",
   "theorems": [
    "C63_signature_types_requested"
   ],
   "note": ""
  },
  {
   "property": "C64",
   "status": "proved",
   "theorems": [
    "C64_definition",
    "C64_policy"
   ],
   "note": "Nothing is said about return types printed with two elaborated type keywords."
  },
  {
   "property": "C65",
   "status": "proved",
   "theorems": [
    "C65_begins_with",
    "C65_ends_with"
   ],
   "note": ""
  },
  {
   "property": "C66",
   "status": "proved",
   "theorems": [
    "C66_layout"
   ],
   "note": ""
  },
  {
   "property": "C67",
   "status": "proved",
   "theorems": [
    "C67_class_binding",
    "C67_last_operator_counts",
    "C67_own_operator_refuted"
   ],
   "note": "Under the hypothesis that only member functions are const (const_is_method), which holds of every C++ program. C67_own_operator_refuted: operator templates are looked up by unqualified class name."
  },
  {
   "property": "C68",
   "status": "proved",
   "theorems": [
    "C68_every_item"
   ],
   "note": ""
  },
  {
   "property": "C69",
   "status": "proved",
   "theorems": [
    "C69_file_names"
   ],
   "note": ""
  },
  {
   "property": "C70",
   "status": "proved",
   "theorems": [
    "C70_any_moment",
    "C70_up_to_date",
    "C70_finished",
    "C70_repeated",
    "C70_early_failure",
    "C70_goes_on",
    "C70_as_one_step",
    "C70_single_file",
    "C70_root_last_refuted"
   ],
   "note": "Assumes distinct generated file names (C35, C36). C70_root_last_refuted: the root file may be empty while the list of sources is complete."
  },
  {
   "property": "C71",
   "status": "proved",
   "theorems": [
    "C71_default_map",
    "C71_other_map",
    "C71_template_key_refuted",
    "C71_distinct_vectors_refuted"
   ],
   "note": "Template keys and allocator of vectors are refuted with witnesses."
  },
  {
   "property": "C72",
   "status": "proved",
   "theorems": [
    "C72_as_if_alone",
    "C72_include_lines_repeated",
    "C72_how_it_ends",
    "C72_root_of_last_source",
    "C72_files_stay",
    "C72_all_files_listed_refuted"
   ],
   "note": "Decisions remembered across source files (C41) are left out. C72_all_files_listed_refuted: the root file and the list of sources are those of the last source file."
  },
  {
   "property": "C73",
   "status": "proved",
   "theorems": [
    "C73_equivalent_settings",
    "C73_equivalent_settings_same_includes",
    "C73_order_of_config_lines",
    "C73_same_lines_accepted_alike",
    "C73_last_value_counts",
    "C73_last_keyed_value_counts",
    "C73_any_order_refuted"
   ],
   "note": "The block of +include lines keeps order and repetition. C73_any_order_refuted: for contradicting lines the order matters; the last one counts."
  },
  {
   "property": "C74",
   "status": "proved",
   "theorems": [
    "C74_content_independent_of_layout",
    "C74_same_items_and_code",
    "C74_prefix_and_single_file"
   ],
   "note": ""
  },
  {
   "property": "C75",
   "status": "proved",
   "theorems": [
    "C75_only_comments_added",
    "C75_with_a_config_file"
   ],
   "note": "C75_only_comments_added assumes that no header prefix of the settings contains a space; C75_with_a_config_file discharges that for every config file."
  },
  {
   "property": "C76",
   "status": "proved",
   "theorems": [
    "C76_same_bindings",
    "C76_same_success",
    "C76_any_operators_refuted"
   ],
   "note": "C76_any_operators_refuted: two printing operators of one type.  Success is stated for collecting, binding and sorting (plan); writing is C32."
  },
  {
   "property": "C77",
   "status": "proved",
   "theorems": [
    "C77_requests",
    "C77_bound_iff_required",
    "C77_fields_refuted",
    "C77_ellipsis_refuted"
   ],
   "note": "C77_fields_refuted, C77_ellipsis_refuted: types that are needed but never requested.  const_is_method: only methods are const, which C++ guarantees."
  },
  {
   "property": "C78",
   "status": "proved",
   "theorems": [
    "C78_items",
    "C78_files",
    "C78_on_disk",
    "C78_character_argument_refuted"
   ],
   "note": "C78_character_argument_refuted: why quotes in types are excluded.  The scanner of SpecLex.v knows literals with escapes, line comments, preprocessor lines and brackets, not raw strings; block comments are rejected."
  },
  {
   "property": "C79",
   "status": "proved",
   "theorems": [
    "C79_actions_exist",
    "C79_import",
    "C79_statements",
    "C79_builtin_base_refuted",
    "C79_nested_binder_refuted"
   ],
   "note": "C79_builtin_base_refuted, C79_nested_binder_refuted (and C28_nested_bases_refuted): why the hypotheses on bases and nested classes are needed.  What pybind11 accepts is a specification (accepted in SpecImport.v), not a model of pybind11."
  },
  {
   "property": "C80",
   "status": "proved",
   "theorems": [
    "C80_name",
    "C80_distinct",
    "C80_distinct_refuted",
    "C80_identifier_refuted"
   ],
   "note": "C80_distinct_refuted and C80_identifier_refuted show where the general statement fails."
  },
  {
   "property": "C81",
   "status": "proved",
   "theorems": [
    "C81_exceptions",
    "C81_noexcept_true_refuted",
    "C81_noexcept_false_refuted"
   ],
   "note": "C81_noexcept_true_refuted, C81_noexcept_false_refuted.  Numbers of exception specifications are those of LLVM 9 and later."
  },
  {
   "property": "C82",
   "status": "proved",
   "theorems": [
    "C82_enumerators_found",
    "C82_text",
    "C82_unnamed_namespace_refuted",
    "C82_template_arguments_refuted",
    "C82_linkage_refuted",
    "C82_local_refuted"
   ],
   "note": "With newer LLVM the names come from clang and are inputs of the model.  C82_unnamed_namespace_refuted, C82_template_arguments_refuted, C82_linkage_refuted, C82_local_refuted show that the restriction to ordinary scopes is needed."
  },
  {
   "property": "C83",
   "status": "proved",
   "theorems": [
    "C83_same_decisions",
    "C83_same_items",
    "C83_config_files",
    "C83_with_config_files",
    "C83_holder_refuted"
   ],
   "note": "Includes are those the item itself requests; what include_for_class and include_for_namespace add to a file is C32 and C73.  C83_holder_refuted: +custom_shared is not a matter of form."
  },
  {
   "property": "C84",
   "status": "proved",
   "theorems": [
    "C84_bound_stays_bound",
    "C84_members_stay",
    "C84_settings",
    "C84_python_builtin_refuted",
    "C84_both_ways_refuted"
   ],
   "note": "The new configuration lists no namespace both ways.  C84_python_builtin_refuted: +python_builtin removes bindings.  C84_both_ways_refuted: with a namespace listed both ways the run can fail."
  },
  {
   "property": "C85",
   "status": "proved",
   "theorems": [
    "C85_bound_stays_bound",
    "C85_same_code"
   ],
   "note": "Among the larger list of declarations no two different ones have the same identity and no two items have a common type name; for the code of classes, operators << are told apart by the name under which they are registered."
  },
  {
   "property": "C86",
   "status": "proved",
   "theorems": [
    "C86_exactly",
    "C86_otherwise",
    "C86_only_pieces",
    "C86_two_loops",
    "C86_functions",
    "C86_enums",
    "C86_classes",
    "C86_files"
   ],
   "note": "Arguments are strings, as everywhere in binder; format specifications ({:...}) are not modelled and do not occur in the sources.  At most 2^31-1 arguments."
  },
  {
   "property": "C87",
   "status": "proved",
   "theorems": [
    "C87_statements",
    "C87_separate",
    "C87_class",
    "C87_prefix",
    "C87_clashes_refuted"
   ],
   "note": "What pybind11 accepts is specified in SpecAttributes.v after its source (class_::def, def_static, def_property, generic_type::initialize, enum_base::export_values); constructors and what an add-on binder does are left out.  C87_clashes_refuted gives five classes that are correct C++ and whose module cannot be imported or loses a function."
  },
  {
   "property": "C88",
   "status": "proved",
   "theorems": [
    "C88_modules_made",
    "C88_listed",
    "C88_list_of_modules",
    "C88_modules_differ",
    "C88_names_refuted"
   ],
   "note": "The namespaces have to be C++ names: non-empty components without colons (an item outside of any namespace is allowed).  What the C++ text of the root module does on import is specified in SpecModules.v after the template main_module_header.  C88_names_refuted: namespaces called global, global_ and other keywords of Python."
  },
  {
   "property": "C89",
   "status": "proved",
   "theorems": [
    "C89_functions",
    "C89_constructors",
    "C89_any_keyword_refuted"
   ],
   "note": "The dispatch of pybind11 (not part of /repo) is specified in SpecCalls.v; conversion of values is not modelled, and the statement is about the definitions of one C++ function (overloads of the same Python name differ in their types).  That the definition with n parameters passes its arguments on in order is C43.  C89_any_keyword_refuted: two calls that C++ defaults would allow but no definition takes."
  },
  {
   "property": "C90",
   "status": "proved",
   "theorems": [
    "C90_classes",
    "C90_enums",
    "C90_members_through_class",
    "C90_skipping_nested_refuted",
    "C90_requesting_nested_refuted"
   ],
   "note": "The registrations are those of SpecImport.v (C79_statements ties them to the text).  Hypothesis: no namespace binder replaces the contents of a namespace.  C90_skipping_nested_refuted and C90_requesting_nested_refuted show that -class and +class do not act on nested classes."
  },
  {
   "property": "C91",
   "status": "proved",
   "theorems": [
    "C91_own_header",
    "C91_functions",
    "C91_classes",
    "C91_structures",
    "C91_printing",
    "C91_alias_refuted",
    "C91_data_members_refuted",
    "C91_nested_structures_refuted"
   ],
   "note": "Rests on C12_file_includes and C40; SpecHeaders.v defines when a type mentions a class.  Three refuted variants show types whose headers are missing although the generated code needs them: C91_alias_refuted, C91_data_members_refuted, C91_nested_structures_refuted."
  },
  {
   "property": "C92",
   "status": "proved",
   "theorems": [
    "C92_every_file_has_an_origin",
    "C92_last_run_counts",
    "C92_past_does_not_matter",
    "C92_directory_is_the_last_run_refuted"
   ],
   "note": "For runs in the default (not single-file) mode whose file names differ (SpecHistory.regular; C31 and C69 say when names differ).  By induction over the history, with C70_any_moment for each step."
  },
  {
   "property": "C93",
   "status": "proved",
   "theorems": [
    "C93_earlier_files_stay",
    "C93_appended_declarations",
    "C93_new_file",
    "C93_files_are_filled_refuted",
    "C93_any_order_refuted"
   ],
   "note": "C93_earlier_files_stay is the general form (the items of the second run begin with those of the first), C93_appended_declarations the one for appended declarations."
  },
  {
   "property": "C94",
   "status": "proved",
   "theorems": [
    "C94_same_run",
    "C94_report",
    "C94_quiet",
    "C94_second_run",
    "C94_every_write_reported_refuted"
   ],
   "note": "C94_same_run ties the model with the report (Console.v) to the model without it (Program.v); nothing is said about the report of a run that fails."
  },
  {
   "property": "C95",
   "status": "proved",
   "theorems": [
    "C95_failures",
    "C95_succeeds",
    "C95_program_failures",
    "C95_program_succeeds"
   ],
   "note": "C95_failures and C95_program_failures list the causes, C95_succeeds and C95_program_succeeds say that without them a run succeeds."
  },
  {
   "property": "C96",
   "status": "proved",
   "theorems": [
    "C96_same_output",
    "C96_same_program",
    "C96_same_decisions",
    "C96_lines_refuted"
   ],
   "note": "C96_same_output (whole result of a run), C96_same_program (disk after every source file and the way the program ends), C96_same_decisions (without the option); C96_lines_refuted shows that without the option the texts do depend on lines."
  },
  {
   "property": "C97",
   "status": "proved",
   "theorems": [
    "C97_same_output",
    "C97_line",
    "C97_program",
    "C97_namespace_named_refuted"
   ],
   "note": "C97_same_output (settings that agree on everything the program contains give the same run), C97_line (one line more in the config file), C97_program (several source files, the disk and the way the program ends); C97_namespace_named_refuted shows that a namespace directive matters already when it is the beginning of the name of a namespace."
  },
  {
   "property": "C98",
   "status": "proved",
   "theorems": [
    "C98_arguments",
    "C98_text",
    "C98_no_arguments",
    "C98_address"
   ],
   "note": "C98_arguments (with the normalisation of names), C98_text (exact text), C98_no_arguments, C98_address (in the expression of the binding). The texts of the single arguments are those clang prints."
  },
  {
   "property": "C99",
   "status": "proved",
   "theorems": [
    "C99_only_documentation",
    "C99_same_decisions",
    "C99_same_items",
    "C99_layout_refuted"
   ],
   "note": "C99_only_documentation (texts and decisions, with --skip-line-number), C99_same_decisions (any options), C99_same_items (contents of the files of two successful runs). C99_layout_refuted: comments count for the size of files, so longer comments may spread the items over more files. C96_same_output: comments with the same documentation text give the same output."
  },
  {
   "property": "C100",
   "status": "proved",
   "theorems": [
    "C100_same_bindings",
    "C100_same_modules",
    "C100_same_statements",
    "C100_files_refuted"
   ],
   "note": "C100_same_bindings (code, order), C100_same_modules, C100_same_statements (text of the functions, without trace lines). C100_files_refuted: the split into files does depend on unbound declarations. Both runs are assumed to succeed."
  },
  {
   "property": "C101",
   "status": "proved",
   "theorems": [
    "C101_last_value_counts",
    "C101_headers_accumulate",
    "C101_last_setting_counts",
    "C101_header_for_class",
    "C101_header_for_namespace",
    "C101_binder_for_class",
    "C101_add_on_for_class",
    "C101_binder_for_namespace"
   ],
   "note": "Settings: C101_last_value_counts, C101_headers_accumulate, C101_last_setting_counts (iff, for every directive of the kind). Files: C101_header_for_class, C101_header_for_namespace, C101_binder_for_class, C101_add_on_for_class, C101_binder_for_namespace."
  },
  {
   "property": "C102",
   "status": "proved",
   "theorems": [
    "C102_settings",
    "C102_nothing_new",
    "C102_still_bound",
    "C102_functions",
    "C102_unnamed_refuted"
   ],
   "note": "C102_settings (text to settings, with acceptance), C102_nothing_new, C102_still_bound (iff), C102_functions (iff). C102_unnamed_refuted: without the condition that the configuration itself asks for the declaration the claim is false; a class that only a left out function needed goes with it."
  },
  {
   "property": "C103",
   "status": "proved",
   "theorems": [
    "C103_message",
    "C103_one_message",
    "C103_quotes_the_line",
    "C103_first_line",
    "C103_program"
   ],
   "note": "C103_message (iff, per line), C103_one_message, C103_quotes_the_line, C103_first_line (iff, per file), C103_program."
  },
  {
   "property": "C104",
   "status": "proved",
   "theorems": [
    "C104_lines_for_options",
    "C104_file_for_options"
   ],
   "note": "C104_lines_for_options, C104_file_for_options; equality of runs by C73."
  },
  {
   "property": "C105",
   "status": "proved",
   "theorems": [
    "C105_not_bound",
    "C105_functions",
    "C105_methods",
    "C105_constructors",
    "C105_bases",
    "C105_classes",
    "C105_fields_refuted",
    "C105_used_constructors_refuted",
    "C105_typedef_refuted",
    "C105_enums_refuted"
   ],
   "note": "C105_not_bound, C105_functions and C105_classes are about runs; C105_methods, C105_constructors, C105_bases are the parts of C105_classes; the exceptions are C105_fields_refuted, C105_used_constructors_refuted, C105_typedef_refuted, C105_enums_refuted and C90_skipping_nested_refuted."
  },
  {
   "property": "C106",
   "status": "proved",
   "theorems": [
    "C106_functions",
    "C106_cherry_pick_refuted",
    "C106_typedef_refuted",
    "C106_signature_line",
    "C106_one_line_refuted",
    "C106_independent"
   ],
   "note": "C106_functions (both directions), C106_signature_line and C106_independent; the reading of +class as picking the class only is C106_cherry_pick_refuted, C106_typedef_refuted shows that aliases of pointers are not seen, and C106_one_line_refuted that the name alone is not enough."
  },
  {
   "property": "C107",
   "status": "proved",
   "theorems": [
    "C107_classes",
    "C107_enums",
    "C107_class_line",
    "C107_enum_line",
    "C107_system_refuted",
    "C107_independent",
    "C107_independent_enums",
    "C107_alone_refuted"
   ],
   "note": "C107_classes and C107_enums (both directions), C107_class_line, C107_enum_line, C107_independent and C107_independent_enums (C107_alone_refuted: not for classes that are only in use); that a line is enough for a class from a system header is refuted by C107_system_refuted. The declaration at position i of the collected ones is found by its type string (in_use)."
  },
  {
   "property": "C108",
   "status": "proved",
   "theorems": [
    "C108_origin",
    "C108_start",
    "C108_nothing"
   ],
   "note": "C108_origin (with C108_start: both ends of the chain are bound) and C108_nothing."
  }
 ]
}