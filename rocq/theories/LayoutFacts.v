(** The layout options are not observed before the files are written: every
    function of the model up to that point gives the same result for two sets of
    options that agree on the others. *)
From Coq Require Import Ascii String Bool Arith NArith.
From Coq Require Import List.
From Verif Require Import Str StrFacts Util Config SpecConfig ConfigFacts Ast Types Func Enum Includes Class Context SpecLayout SettingsFacts.
Import ListNotations.

Set Default Proof Using "All".
Section Same.
Variables (e : env) (c : config) (o o' : options).
Hypothesis H : same_content_options o o'.
Local Notation w := (mkworld e c o).
Local Notation w' := (mkworld e c o').

Lemma f_wenv : wenv w' = wenv w.
Proof. reflexivity. Qed.
Lemma f_wcfg : wcfg w' = wcfg w.
Proof. reflexivity. Qed.
Lemma f_line : skip_line_number (wopt w') = skip_line_number (wopt w).
Proof. apply H. Qed.
Lemma f_stl : include_pybind11_stl (wopt w') = include_pybind11_stl (wopt w).
Proof. apply H. Qed.
Lemma f_specializations : bind_class_template_specialization (wopt w') = bind_class_template_specialization (wopt w).
Proof. apply H. Qed.
Lemma f_annotated : annotate_functions (wopt w') = annotate_functions (wopt w).
Proof. apply H. Qed.
Hint Rewrite f_wenv f_wcfg f_line f_stl f_specializations f_annotated : opt.
Ltac opt_rw := autorewrite with opt.

Lemma f_rec_ : rec_ w' = rec_ w.
Proof. unfold rec_. autorewrite with opt. reflexivity. Qed.
Hint Rewrite f_rec_ : opt. Local Opaque rec_.
Lemma f_fun_ : fun_ w' = fun_ w.
Proof. unfold fun_. autorewrite with opt. reflexivity. Qed.
Hint Rewrite f_fun_ : opt. Local Opaque fun_.
Lemma f_enum_ : enum_ w' = enum_ w.
Proof. unfold enum_. autorewrite with opt. reflexivity. Qed.
Hint Rewrite f_enum_ : opt. Local Opaque enum_.
Lemma f_rec_type : rec_type w' = rec_type w.
Proof. unfold rec_type. autorewrite with opt. reflexivity. Qed.
Hint Rewrite f_rec_type : opt. Local Opaque rec_type.
Lemma f_standard_name : standard_name w' = standard_name w.
Proof. unfold standard_name. autorewrite with opt. reflexivity. Qed.
Hint Rewrite f_standard_name : opt. Local Opaque standard_name.
Lemma f_standard_name_q : standard_name_q w' = standard_name_q w.
Proof. unfold standard_name_q. autorewrite with opt. reflexivity. Qed.
Hint Rewrite f_standard_name_q : opt. Local Opaque standard_name_q.
Lemma f_namespace_from_named_decl : namespace_from_named_decl w' = namespace_from_named_decl w.
Proof. unfold namespace_from_named_decl. autorewrite with opt. reflexivity. Qed.
Hint Rewrite f_namespace_from_named_decl : opt. Local Opaque namespace_from_named_decl.
Lemma f_typename_from_rec : typename_from_rec w' = typename_from_rec w.
Proof. unfold typename_from_rec. autorewrite with opt. reflexivity. Qed.
Hint Rewrite f_typename_from_rec : opt. Local Opaque typename_from_rec.
Lemma f_typename_from_enum : typename_from_enum w' = typename_from_enum w.
Proof. unfold typename_from_enum. autorewrite with opt. reflexivity. Qed.
Hint Rewrite f_typename_from_enum : opt. Local Opaque typename_from_enum.
Lemma f_line_number : line_number w' = line_number w.
Proof. unfold line_number. autorewrite with opt. reflexivity. Qed.
Hint Rewrite f_line_number : opt. Local Opaque line_number.
Lemma f_generate_comment_for_declaration : generate_comment_for_declaration w' = generate_comment_for_declaration w.
Proof. unfold generate_comment_for_declaration. autorewrite with opt. reflexivity. Qed.
Hint Rewrite f_generate_comment_for_declaration : opt. Local Opaque generate_comment_for_declaration.
Lemma f_qname_of_parent : qname_of_parent w' = qname_of_parent w.
Proof. unfold qname_of_parent. autorewrite with opt. reflexivity. Qed.
Hint Rewrite f_qname_of_parent : opt. Local Opaque qname_of_parent.
Lemma f_include_name : include_name w' = include_name w.
Proof. unfold include_name. autorewrite with opt. reflexivity. Qed.
Hint Rewrite f_include_name : opt. Local Opaque include_name.
Lemma f_is_banned_symbol : is_banned_symbol w' = is_banned_symbol w.
Proof. unfold is_banned_symbol. autorewrite with opt. reflexivity. Qed.
Hint Rewrite f_is_banned_symbol : opt. Local Opaque is_banned_symbol.
Lemma f_class_qualified_name : class_qualified_name w' = class_qualified_name w.
Proof. unfold class_qualified_name. autorewrite with opt. reflexivity. Qed.
Hint Rewrite f_class_qualified_name : opt. Local Opaque class_qualified_name.
Lemma f_class_name : class_name w' = class_name w.
Proof. unfold class_name. autorewrite with opt. reflexivity. Qed.
Hint Rewrite f_class_name : opt. Local Opaque class_name.
Lemma f_python_class_name : python_class_name w' = python_class_name w.
Proof. unfold python_class_name. autorewrite with opt. reflexivity. Qed.
Hint Rewrite f_python_class_name : opt. Local Opaque python_class_name.
Lemma f_request_name : request_name w' = request_name w.
Proof. unfold request_name. autorewrite with opt. reflexivity. Qed.
Hint Rewrite f_request_name : opt. Local Opaque request_name.
Lemma f_function_arguments : function_arguments w' = function_arguments w.
Proof. unfold function_arguments. autorewrite with opt. reflexivity. Qed.
Hint Rewrite f_function_arguments : opt. Local Opaque function_arguments.
Lemma f_lambda_param : lambda_param w' = lambda_param w.
Proof. unfold lambda_param. autorewrite with opt. reflexivity. Qed.
Hint Rewrite f_lambda_param : opt. Local Opaque lambda_param.
Lemma f_function_arguments_for_lambda : function_arguments_for_lambda w' = function_arguments_for_lambda w.
Proof. unfold function_arguments_for_lambda. autorewrite with opt. reflexivity. Qed.
Hint Rewrite f_function_arguments_for_lambda : opt. Local Opaque function_arguments_for_lambda.
Lemma f_function_arguments_for_py_overload : function_arguments_for_py_overload w' = function_arguments_for_py_overload w.
Proof. unfold function_arguments_for_py_overload. autorewrite with opt. reflexivity. Qed.
Hint Rewrite f_function_arguments_for_py_overload : opt. Local Opaque function_arguments_for_py_overload.
Lemma f_fun_specialization : fun_specialization w' = fun_specialization w.
Proof. unfold fun_specialization. autorewrite with opt. reflexivity. Qed.
Hint Rewrite f_fun_specialization : opt. Local Opaque fun_specialization.
Lemma f_function_pointer_type : function_pointer_type w' = function_pointer_type w.
Proof. unfold function_pointer_type. autorewrite with opt. reflexivity. Qed.
Hint Rewrite f_function_pointer_type : opt. Local Opaque function_pointer_type.
Lemma f_function_qualified_name : function_qualified_name w' = function_qualified_name w.
Proof. unfold function_qualified_name. autorewrite with opt. reflexivity. Qed.
Hint Rewrite f_function_qualified_name : opt. Local Opaque function_qualified_name.
Lemma f_lambda_return_type : lambda_return_type w' = lambda_return_type w.
Proof. unfold lambda_return_type. autorewrite with opt. reflexivity. Qed.
Hint Rewrite f_lambda_return_type : opt. Local Opaque lambda_return_type.
Lemma f_bound_name : bound_name w' = bound_name w.
Proof. unfold bound_name. autorewrite with opt. reflexivity. Qed.
Hint Rewrite f_bound_name : opt. Local Opaque bound_name.
Lemma f_function_expression : function_expression w' = function_expression w.
Proof. unfold function_expression. autorewrite with opt. reflexivity. Qed.
Hint Rewrite f_function_expression : opt. Local Opaque function_expression.
Lemma f_annotation : annotation w' = annotation w.
Proof. unfold annotation. autorewrite with opt. reflexivity. Qed.
Hint Rewrite f_annotation : opt. Local Opaque annotation.
Lemma f_fun_id : fun_id w' = fun_id w.
Proof. unfold fun_id. autorewrite with opt. reflexivity. Qed.
Hint Rewrite f_fun_id : opt. Local Opaque fun_id.
Lemma f_enum_bindable : enum_bindable w' = enum_bindable w.
Proof. unfold enum_bindable. autorewrite with opt. reflexivity. Qed.
Hint Rewrite f_enum_bindable : opt. Local Opaque enum_bindable.
Lemma f_fun_actions : fun_actions w' = fun_actions w.
Proof. unfold fun_actions. autorewrite with opt. reflexivity. Qed.
Hint Rewrite f_fun_actions : opt. Local Opaque fun_actions.
Lemma f_enum_actions : enum_actions w' = enum_actions w.
Proof. unfold enum_actions. autorewrite with opt. reflexivity. Qed.
Hint Rewrite f_enum_actions : opt. Local Opaque enum_actions.
Lemma f_ctors : ctors w' = ctors w.
Proof. unfold ctors. autorewrite with opt. reflexivity. Qed.
Hint Rewrite f_ctors : opt. Local Opaque ctors.
Lemma f_is_field_assignable : is_field_assignable w' = is_field_assignable w.
Proof. unfold is_field_assignable. autorewrite with opt. reflexivity. Qed.
Hint Rewrite f_is_field_assignable : opt. Local Opaque is_field_assignable.
Lemma f_bind_data_member : bind_data_member w' = bind_data_member w.
Proof. unfold bind_data_member. autorewrite with opt. reflexivity. Qed.
Hint Rewrite f_bind_data_member : opt. Local Opaque bind_data_member.
Lemma f_is_const_overload : is_const_overload w' = is_const_overload w.
Proof. unfold is_const_overload. autorewrite with opt. reflexivity. Qed.
Hint Rewrite f_is_const_overload : opt. Local Opaque is_const_overload.
Lemma f_decl_candidates : decl_candidates w' = decl_candidates w.
Proof. unfold decl_candidates. autorewrite with opt. reflexivity. Qed.
Hint Rewrite f_decl_candidates : opt. Local Opaque decl_candidates.
Lemma f_callback_structure_name : callback_structure_name w' = callback_structure_name w.
Proof. unfold callback_structure_name. autorewrite with opt. reflexivity. Qed.
Hint Rewrite f_callback_structure_name : opt. Local Opaque callback_structure_name.
Lemma f_callback_key : callback_key w' = callback_key w.
Proof. unfold callback_key. autorewrite with opt. reflexivity. Qed.
Hint Rewrite f_callback_key : opt. Local Opaque callback_key.
Lemma f_bind_default_constructor : bind_default_constructor w' = bind_default_constructor w.
Proof. unfold bind_default_constructor. autorewrite with opt. reflexivity. Qed.
Hint Rewrite f_bind_default_constructor : opt. Local Opaque bind_default_constructor.
Lemma f_bind_copy_constructor : bind_copy_constructor w' = bind_copy_constructor w.
Proof. unfold bind_copy_constructor. autorewrite with opt. reflexivity. Qed.
Hint Rewrite f_bind_copy_constructor : opt. Local Opaque bind_copy_constructor.
Lemma f_lifted_ctors : lifted_ctors w' = lifted_ctors w.
Proof. unfold lifted_ctors. autorewrite with opt. reflexivity. Qed.
Hint Rewrite f_lifted_ctors : opt. Local Opaque lifted_ctors.
Lemma f_bind_with : bind_with w' = bind_with w.
Proof. unfold bind_with. autorewrite with opt. reflexivity. Qed.
Hint Rewrite f_bind_with : opt. Local Opaque bind_with.
Lemma f_insertion_operator_key : insertion_operator_key w' = insertion_operator_key w.
Proof. unfold insertion_operator_key. autorewrite with opt. reflexivity. Qed.
Hint Rewrite f_insertion_operator_key : opt. Local Opaque insertion_operator_key.
Lemma f_insertion_operator_template_key : insertion_operator_template_key w' = insertion_operator_template_key w.
Proof. unfold insertion_operator_template_key. autorewrite with opt. reflexivity. Qed.
Hint Rewrite f_insertion_operator_template_key : opt. Local Opaque insertion_operator_template_key.
Lemma f_global_insertion_operator : global_insertion_operator w' = global_insertion_operator w.
Proof. unfold global_insertion_operator. autorewrite with opt. reflexivity. Qed.
Hint Rewrite f_global_insertion_operator : opt. Local Opaque global_insertion_operator.
Lemma f_nested_classes : nested_classes w' = nested_classes w.
Proof. unfold nested_classes. autorewrite with opt. reflexivity. Qed.
Hint Rewrite f_nested_classes : opt. Local Opaque nested_classes.
Lemma f_public_enums : public_enums w' = public_enums w.
Proof. unfold public_enums. autorewrite with opt. reflexivity. Qed.
Hint Rewrite f_public_enums : opt. Local Opaque public_enums.
Lemma f_decl_id : decl_id w' = decl_id w.
Proof. unfold decl_id. autorewrite with opt. reflexivity. Qed.
Hint Rewrite f_decl_id : opt. Local Opaque decl_id.
Lemma f_type_names : type_names w' = type_names w.
Proof. unfold type_names. autorewrite with opt. reflexivity. Qed.
Hint Rewrite f_type_names : opt. Local Opaque type_names.
Lemma f_add : add w' = add w.
Proof. unfold add. autorewrite with opt. reflexivity. Qed.
Hint Rewrite f_add : opt. Local Opaque add.
Lemma f_add_insertion_operator : add_insertion_operator w' = add_insertion_operator w.
Proof. unfold add_insertion_operator. autorewrite with opt. reflexivity. Qed.
Hint Rewrite f_add_insertion_operator : opt. Local Opaque add_insertion_operator.
Lemma f_named_decl : named_decl w' = named_decl w.
Proof. unfold named_decl. autorewrite with opt. reflexivity. Qed.
Hint Rewrite f_named_decl : opt. Local Opaque named_decl.
Lemma f_binder_namespace : binder_namespace w' = binder_namespace w.
Proof. unfold binder_namespace. autorewrite with opt. reflexivity. Qed.
Hint Rewrite f_binder_namespace : opt. Local Opaque binder_namespace.
Lemma f_file_name_prefix : file_name_prefix w' = file_name_prefix w.
Proof. unfold file_name_prefix. autorewrite with opt. reflexivity. Qed.
Hint Rewrite f_file_name_prefix : opt. Local Opaque file_name_prefix.
Lemma f_nested_namespaces : nested_namespaces w' = nested_namespaces w.
Proof. unfold nested_namespaces. autorewrite with opt. reflexivity. Qed.
Hint Rewrite f_nested_namespaces : opt. Local Opaque nested_namespaces.

(** ** Types and classes *)
Lemma s_builtin_name x : builtin_name w' x = builtin_name w x.
Proof. unfold builtin_name. opt_rw. reflexivity. Qed.
Hint Rewrite s_builtin_name : opt. Local Opaque builtin_name.
Lemma s_is_python_builtin n : is_python_builtin w' n = is_python_builtin w n.
Proof. unfold is_python_builtin. opt_rw. reflexivity. Qed.
Hint Rewrite s_is_python_builtin : opt. Local Opaque is_python_builtin.
Lemma s_rec_bindable_raw r b : rec_bindable_raw w' r b = rec_bindable_raw w r b.
Proof. unfold rec_bindable_raw. opt_rw. reflexivity. Qed.
Hint Rewrite s_rec_bindable_raw : opt. Local Opaque rec_bindable_raw.
Fixpoint s_bindable_type s t {struct t} : bindable_type w' s t = bindable_type w s t.
Proof.
  destruct t as [| b p | p | p | | | b r args | | b n p |]; cbn [bindable_type]; opt_rw; try reflexivity; rewrite ?s_bindable_type; try reflexivity.
  f_equal. f_equal. f_equal.
  induction args as [|a args IH]; cbn [forallb]; [reflexivity|]. f_equal; [|exact IH].
  destruct a as [k text]. destruct k as [t|t|d|d [[ret ps]|]|n|]; try reflexivity.
  rewrite s_bindable_type. f_equal. induction ps as [|p ps IHps]; cbn [forallb]; [reflexivity|]. rewrite s_bindable_type. f_equal. exact IHps.
Qed.
Hint Rewrite s_bindable_type : opt. Local Opaque bindable_type.
Lemma s_is_bindable_q t : is_bindable_q w' t = is_bindable_q w t.
Proof. apply s_bindable_type. Qed.
Hint Rewrite s_is_bindable_q : opt. Local Opaque is_bindable_q.
Lemma s_is_std_function_bindable args : is_std_function_bindable w' args = is_std_function_bindable w args.
Proof.
  apply forallb_eq. intros [[| | |d [[ret ps]|]| |] text]; try reflexivity. opt_rw. f_equal. apply forallb_eq. intros; apply s_bindable_type.
Qed.
Hint Rewrite s_is_std_function_bindable : opt. Local Opaque is_std_function_bindable.
Lemma s_is_bindable_rec r : is_bindable_rec w' r = is_bindable_rec w r.
Proof. unfold is_bindable_rec. opt_rw. reflexivity. Qed.
Hint Rewrite s_is_bindable_rec : opt. Local Opaque is_bindable_rec.
Lemma s_skip_rec_with r deps : skip_rec_with w' r deps = skip_rec_with w r deps.
Proof. unfold skip_rec_with. opt_rw. reflexivity. Qed.
Hint Rewrite s_skip_rec_with : opt. Local Opaque skip_rec_with.
Fixpoint s_skip_type s t {struct t} : skip_type w' s t = skip_type w s t.
Proof.
  destruct t as [| b p | p | p | | | b r args | | b n p |]; cbn [skip_type]; try reflexivity; try (rewrite s_skip_type; reflexivity).
  opt_rw. f_equal. induction args as [|[k text] args IH]; cbn [flat_map]; [reflexivity|]. f_equal; [|exact IH].
  destruct k; try reflexivity. rewrite s_skip_type. reflexivity.
Qed.
Hint Rewrite s_skip_type : opt. Local Opaque skip_type.
Lemma s_is_skipping_requested_q t : is_skipping_requested_q w' t = is_skipping_requested_q w t.
Proof. apply s_skip_type. Qed.
Hint Rewrite s_is_skipping_requested_q : opt. Local Opaque is_skipping_requested_q.
Lemma s_is_skipping_requested_rec r : is_skipping_requested_rec w' r = is_skipping_requested_rec w r.
Proof. unfold is_skipping_requested_rec. opt_rw. f_equal. apply map_ext. intros; apply s_is_skipping_requested_q. Qed.
Hint Rewrite s_is_skipping_requested_rec : opt. Local Opaque is_skipping_requested_rec.
Lemma s_is_binding_requested_rec r : is_binding_requested_rec w' r = is_binding_requested_rec w r.
Proof.
  unfold is_binding_requested_rec. opt_rw. apply if_eq; [reflexivity|reflexivity|]. apply if_eq; [reflexivity|reflexivity|].
  apply bind_r_eq; [reflexivity|]. intros a. apply bind_r_eq; [|reflexivity]. f_equal. apply map_ext. intros; apply s_is_skipping_requested_q.
Qed.
Hint Rewrite s_is_binding_requested_rec : opt. Local Opaque is_binding_requested_rec.
Lemma s_bind_type s t : bind_type w' s t = bind_type w s t.
Proof. revert s. induction t; intros s; cbn [bind_type]; opt_rw; try reflexivity; try (destruct s; [reflexivity|]); auto. Qed.
Hint Rewrite s_bind_type : opt. Local Opaque bind_type.
Lemma s_is_binding_requested_q t : is_binding_requested_q w' t = is_binding_requested_q w t.
Proof. apply s_bind_type. Qed.
Hint Rewrite s_is_binding_requested_q : opt. Local Opaque is_binding_requested_q.
Lemma s_request_type t : request_type w' t = request_type w t.
Proof. induction t; cbn [request_type]; opt_rw; try reflexivity; rewrite IHt; reflexivity. Qed.
Hint Rewrite s_request_type : opt. Local Opaque request_type.
Lemma s_request_types l : request_types w' l = request_types w l.
Proof. induction l as [|t l IH]; cbn [request_types]; [reflexivity|]. opt_rw. rewrite IH. reflexivity. Qed.
Hint Rewrite s_request_types : opt. Local Opaque request_types.

(** ** Functions and enums *)
Lemma s_is_binding_requested_fun F : is_binding_requested_fun w' F = is_binding_requested_fun w F.
Proof.
  unfold is_binding_requested_fun. opt_rw.
  apply if_eq; [reflexivity|reflexivity|]. apply bind_r_eq; [reflexivity|]. intros a. f_equal. apply map_ext. intros; apply s_is_binding_requested_q.
Qed.
Hint Rewrite s_is_binding_requested_fun : opt. Local Opaque is_binding_requested_fun.
Lemma s_is_skipping_requested_fun F : is_skipping_requested_fun w' F = is_skipping_requested_fun w F.
Proof.
  unfold is_skipping_requested_fun. opt_rw. cbv zeta.
  do 4 (apply if_eq; [reflexivity|reflexivity|]).
  apply bind_r_eq; [reflexivity|]. intros a. opt_rw. f_equal. apply map_ext. intros; apply s_is_skipping_requested_q.
Qed.
Hint Rewrite s_is_skipping_requested_fun : opt. Local Opaque is_skipping_requested_fun.
Lemma s_is_bindable_fun F : is_bindable_fun w' F = is_bindable_fun w F.
Proof.
  unfold is_bindable_fun. opt_rw. f_equal. f_equal. apply forallb_eq. intros; apply s_is_bindable_q.
Qed.
Hint Rewrite s_is_bindable_fun : opt. Local Opaque is_bindable_fun.
Lemma s_return_policy F : return_policy w' F = return_policy w F.
Proof. unfold return_policy. cbv zeta. opt_rw. reflexivity. Qed.
Hint Rewrite s_return_policy : opt. Local Opaque return_policy.
Lemma s_bind_overload F n q p a : bind_overload w' F n q p a = bind_overload w F n q p a.
Proof. unfold bind_overload. cbv zeta. opt_rw. reflexivity. Qed.
Hint Rewrite s_bind_overload : opt. Local Opaque bind_overload.
Lemma s_bind_function m F p a : bind_function w' m F p a = bind_function w m F p a.
Proof.
  unfold bind_function. opt_rw. apply bind_r_eq; [|reflexivity]. apply emit_map_eq. intros n. opt_rw. reflexivity.
Qed.
Hint Rewrite s_bind_function : opt. Local Opaque bind_function.
Lemma s_bind_fun F : bind_fun w' F = bind_fun w F.
Proof. unfold bind_fun. opt_rw. reflexivity. Qed.
Hint Rewrite s_bind_fun : opt. Local Opaque bind_fun.
Lemma s_is_binding_requested_enum x : is_binding_requested_enum w' x = is_binding_requested_enum w x.
Proof. unfold is_binding_requested_enum. opt_rw. reflexivity. Qed.
Hint Rewrite s_is_binding_requested_enum : opt. Local Opaque is_binding_requested_enum.
Lemma s_is_skipping_requested_enum x : is_skipping_requested_enum w' x = is_skipping_requested_enum w x.
Proof. unfold is_skipping_requested_enum. opt_rw. reflexivity. Qed.
Hint Rewrite s_is_skipping_requested_enum : opt. Local Opaque is_skipping_requested_enum.
Lemma s_bind_enum m x : bind_enum w' m x = bind_enum w m x.
Proof. unfold bind_enum. opt_rw. reflexivity. Qed.
Hint Rewrite s_bind_enum : opt. Local Opaque bind_enum.
Lemma s_bind_enum_binder x : bind_enum_binder w' x = bind_enum_binder w x.
Proof. unfold bind_enum_binder. opt_rw. reflexivity. Qed.
Hint Rewrite s_bind_enum_binder : opt. Local Opaque bind_enum_binder.

(** ** Classes *)
Lemma s_holder r : holder w' r = holder w r.
Proof.
  assert (E : forall n r, inherits_enable_shared n w' r = inherits_enable_shared n w r).
  { induction n as [|n IH]; intros x; cbn [inherits_enable_shared]; opt_rw; [reflexivity|]. apply if_eq; [reflexivity|reflexivity|]. apply if_eq; [reflexivity| |reflexivity].
    apply exists_r_eq. intros b. destruct (base_record b); [apply IH|reflexivity]. }
  unfold holder. opt_rw. rewrite E. reflexivity.
Qed.
Hint Rewrite s_holder : opt. Local Opaque holder.
Lemma s_is_bindable_field f : is_bindable_field w' f = is_bindable_field w f.
Proof. unfold is_bindable_field. opt_rw. reflexivity. Qed.
Hint Rewrite s_is_bindable_field : opt. Local Opaque is_bindable_field.
Lemma s_exposed_fields C : exposed_fields w' C = exposed_fields w C.
Proof. unfold exposed_fields. opt_rw. f_equal; apply filter_eq; intros f; opt_rw; reflexivity. Qed.
Hint Rewrite s_exposed_fields : opt. Local Opaque exposed_fields.
Lemma s_binding_public_data_members r : binding_public_data_members w' r = binding_public_data_members w r.
Proof. unfold binding_public_data_members. opt_rw. reflexivity. Qed.
Hint Rewrite s_binding_public_data_members : opt. Local Opaque binding_public_data_members.
Lemma s_plain_method_ok F : plain_method_ok w' F = plain_method_ok w F.
Proof. unfold plain_method_ok. opt_rw. reflexivity. Qed.
Hint Rewrite s_plain_method_ok : opt. Local Opaque plain_method_ok.
Lemma s_candidate_ok x : candidate_ok w' x = candidate_ok w x.
Proof. unfold candidate_ok, public_method_ok. opt_rw. destruct x as [f [p|]]; opt_rw; reflexivity. Qed.
Hint Rewrite s_candidate_ok : opt. Local Opaque candidate_ok.
Lemma s_binding_public_member_functions r : binding_public_member_functions w' r = binding_public_member_functions w r.
Proof.
  unfold binding_public_member_functions, exposed_methods. opt_rw. apply bind_r_eq; [apply filter_r_eq; apply s_candidate_ok|].
  intros l. apply emit_map_eq. intros [f p]. unfold bind_member. opt_rw. reflexivity.
Qed.
Hint Rewrite s_binding_public_member_functions : opt. Local Opaque binding_public_member_functions.
Lemma s_binding_template_bases n : forall r, binding_template_bases n w' r = binding_template_bases n w r.
Proof.
  induction n as [|n IH]; intros r; cbn [binding_template_bases]; opt_rw; [reflexivity|]. apply if_eq; [reflexivity| |reflexivity].
  apply emit_map_eq. intros b. apply if_eq; [reflexivity| |reflexivity]. destruct (base_record b); [|reflexivity]. opt_rw. rewrite IH. reflexivity.
Qed.
Hint Rewrite s_binding_template_bases : opt. Local Opaque binding_template_bases.
Lemma s_is_callback_structure_needed n : forall r, is_callback_structure_needed n w' r = is_callback_structure_needed n w r.
Proof.
  induction n as [|n IH]; intros r; cbn [is_callback_structure_needed]; opt_rw;
    (apply if_eq; [reflexivity|reflexivity|]; apply if_eq; [reflexivity|reflexivity|]; apply if_eq; [apply existsb_eq; intros m; cbv zeta; opt_rw; reflexivity|reflexivity|]).
  - reflexivity.
  - apply exists_r_eq. intros b. apply if_eq; [reflexivity|reflexivity|]. destruct (base_record b); [apply IH|reflexivity].
Qed.
Hint Rewrite s_is_callback_structure_needed : opt. Local Opaque is_callback_structure_needed.
Lemma s_blocking_method M : blocking_method w' M = blocking_method w M.
Proof. unfold blocking_method. opt_rw. reflexivity. Qed.
Hint Rewrite s_blocking_method : opt. Local Opaque blocking_method.
Lemma s_is_callback_structure_constructible n : forall r, is_callback_structure_constructible n w' r = is_callback_structure_constructible n w r.
Proof.
  induction n as [|n IH]; intros r; cbn [is_callback_structure_constructible]; opt_rw; (apply if_eq; [reflexivity| |reflexivity]);
    (apply bind_r_eq; [apply exists_r_eq; intros m; apply s_blocking_method|]); intros b; (apply if_eq; [reflexivity|reflexivity|]); [reflexivity|].
  apply bind_r_eq; [|reflexivity]. apply exists_r_eq. intros x. destruct (base_record x); [rewrite IH|]; reflexivity.
Qed.
Hint Rewrite s_is_callback_structure_constructible : opt. Local Opaque is_callback_structure_constructible.
Lemma s_callback_candidate M : callback_candidate w' M = callback_candidate w M.
Proof. unfold callback_candidate. opt_rw. reflexivity. Qed.
Hint Rewrite s_callback_candidate : opt. Local Opaque callback_candidate.
Lemma s_overrider_text r m n i : overrider_text w' r m n i = overrider_text w r m n i.
Proof.
  unfold overrider_text. opt_rw. cbv zeta. destruct (function_arguments_for_py_overload w (fun_ w m)) as [typed names].
  destruct (contains_char "," _); opt_rw; reflexivity.
Qed.
Hint Rewrite s_overrider_text : opt. Local Opaque overrider_text.
Lemma s_callback_methods r n l : forall st, callback_methods w' r n l st = callback_methods w r n l st.
Proof.
  induction l as [|m l IH]; intros st; cbn [callback_methods]; [reflexivity|]. opt_rw. apply bind_r_eq; [reflexivity|]. intros ok. cbv zeta.
  apply if_eq; [reflexivity| |apply IH]. apply if_eq; [reflexivity|apply IH|]. opt_rw. destruct (overrider_text w r m n _) as [text i]. rewrite IH. reflexivity.
Qed.
Hint Rewrite s_callback_methods : opt. Local Opaque callback_methods.
Lemma s_callback_overriders n : forall r name st, callback_overriders n w' r name st = callback_overriders n w r name st.
Proof.
  induction n as [|n IH]; intros r name st; cbn [callback_overriders]; opt_rw; [reflexivity|]. apply bind_r_eq; [reflexivity|]. intros [own st1].
  apply bind_r_eq; [|reflexivity]. revert st1. induction (r_bases (rec_ w r)) as [|b l IHl]; intros st1; [reflexivity|].
  apply bind_r_eq; [apply if_eq; [reflexivity|reflexivity|]; destruct (base_record b); [apply IH|reflexivity]|]. intros [os st2]. rewrite IHl. reflexivity.
Qed.
Hint Rewrite s_callback_overriders : opt. Local Opaque callback_overriders.
Lemma s_generate_prefix_code r : generate_prefix_code w' r = generate_prefix_code w r.
Proof. unfold generate_prefix_code. opt_rw. reflexivity. Qed.
Hint Rewrite s_generate_prefix_code : opt. Local Opaque generate_prefix_code.
Lemma s_base_default_available n : forall r, base_default_available n w' r = base_default_available n w r.
Proof.
  induction n as [|n IH]; intros r; cbn [base_default_available]; opt_rw; [reflexivity|]. apply bind_r_eq; [|reflexivity]. apply exists_r_eq. intros b.
  destruct (base_record b); [|reflexivity]. cbv zeta. rewrite IH. reflexivity.
Qed.
Hint Rewrite s_base_default_available : opt. Local Opaque base_default_available.
Lemma s_bind_ctor_overload ci T n q : bind_ctor_overload w' ci T n q = bind_ctor_overload w ci T n q.
Proof. unfold bind_ctor_overload. opt_rw. reflexivity. Qed.
Hint Rewrite s_bind_ctor_overload : opt. Local Opaque bind_ctor_overload.
Lemma s_bind_constructor ci T : bind_constructor w' ci T = bind_constructor w ci T.
Proof. unfold bind_constructor. apply emit_map_eq. intros n. opt_rw. reflexivity. Qed.
Hint Rewrite s_bind_constructor : opt. Local Opaque bind_constructor.
Lemma s_ctor_ok T : ctor_ok w' T = ctor_ok w T.
Proof. unfold ctor_ok. opt_rw. reflexivity. Qed.
Hint Rewrite s_ctor_ok : opt. Local Opaque ctor_ok.
Lemma s_bind_declared_ctor ci T : bind_declared_ctor w' ci T = bind_declared_ctor w ci T.
Proof. unfold bind_declared_ctor. opt_rw. reflexivity. Qed.
Hint Rewrite s_bind_declared_ctor : opt. Local Opaque bind_declared_ctor.
Lemma s_bind_lifted_ctor ci T : bind_lifted_ctor w' ci T = bind_lifted_ctor w ci T.
Proof. unfold bind_lifted_ctor. opt_rw. reflexivity. Qed.
Hint Rewrite s_bind_lifted_ctor : opt. Local Opaque bind_lifted_ctor.
Lemma s_bind_ctors r ci : bind_ctors w' r ci = bind_ctors w r ci.
Proof.
  unfold bind_ctors. opt_rw. apply bind_r_eq; [apply filter_r_eq; intros t; apply s_ctor_ok|]. intros own.
  apply bind_r_eq; [apply emit_map_eq; intros t; apply s_bind_declared_ctor|]. intros [s1 q1].
  apply bind_r_eq; [apply emit_map_eq; intros t; apply s_bind_lifted_ctor|]. intros [s2 q2].
  cbv zeta. opt_rw. reflexivity.
Qed.
Hint Rewrite s_bind_ctors : opt. Local Opaque bind_ctors.
Lemma s_bound_bases C : bound_bases w' C = bound_bases w C.
Proof.
  unfold bound_bases. apply filter_r_eq. intros b. unfold base_ok. apply if_eq; [reflexivity| |reflexivity]. destruct (base_record b); [|reflexivity]. opt_rw. reflexivity.
Qed.
Hint Rewrite s_bound_bases : opt. Local Opaque bound_bases.
Lemma s_bind_repr ops r : bind_repr w' ops r = bind_repr w ops r.
Proof. unfold bind_repr. opt_rw. reflexivity. Qed.
Hint Rewrite s_bind_repr : opt. Local Opaque bind_repr.
Lemma s_bound_nested C : bound_nested w' C = bound_nested w C.
Proof. unfold bound_nested. opt_rw. apply flat_map_eq. intros r. cbv zeta. apply if_eq; [reflexivity|reflexivity|]. opt_rw. reflexivity. Qed.
Hint Rewrite s_bound_nested : opt. Local Opaque bound_nested.
Lemma s_bind_enums l : bind_enums w' l = bind_enums w l.
Proof. induction l as [|x l IH]; cbn [bind_enums]; [reflexivity|]. opt_rw. rewrite IH. reflexivity. Qed.
Hint Rewrite s_bind_enums : opt. Local Opaque bind_enums.
Lemma s_class_head r h t b m x : class_head w' r h t b m x = class_head w r h t b m x.
Proof. unfold class_head. opt_rw. reflexivity. Qed.
Hint Rewrite s_class_head : opt. Local Opaque class_head.
Lemma s_bind_class n : forall ops r, bind_class n w' ops r = bind_class n w ops r.
Proof.
  induction n as [|n IH]; intros ops r; cbn [bind_class]; opt_rw; (apply if_eq; [reflexivity|reflexivity|]); (destruct (lookup _ (maps (wcfg w) Config.binders)); [reflexivity|]);
  (apply bind_r_eq; [reflexivity|]); intros callback; opt_rw; (apply bind_r_eq; [reflexivity|]); intros trampoline; (apply bind_r_eq; [reflexivity|]); intros [prefix0 incl0];
  cbv zeta; (apply bind_r_eq; [reflexivity|]); intros hold; opt_rw; (apply bind_r_eq; [reflexivity|]); intros local; opt_rw;
  (apply bind_r_eq; [apply if_eq; [reflexivity| |reflexivity]; apply bind_r_eq; [reflexivity|]; intros bs; opt_rw; reflexivity|]); intros [[head deps] q0];
  (apply bind_r_eq; [reflexivity|]); intros [s1 q1]; (apply bind_r_eq; [reflexivity|]); intros s2; opt_rw; (apply bind_r_eq; [reflexivity|]); intros [s3 q3];
  (apply bind_r_eq; [reflexivity|]); intros [s4 q4]; opt_rw; destruct (bind_repr w ops r) as [s5 incl5]; opt_rw.
  - reflexivity.
  - apply bind_r_eq; [|reflexivity]. destruct (bound_nested w (rec_ w r)) as [|x l]; [reflexivity|].
    assert (Z : forall l, (fix over (l : list nat) : result (str * str * list str) :=
                   match l with
                   | [] => Ok ([], [], [])
                   | i :: l' => do b <- bind_class n w' ops i; do (s, p, q) <- over l'; Ok (cb_code b ++ [nl] ++ s, cb_prefix b ++ p, cb_req b ++ q)
                   end) l = (fix over (l : list nat) : result (str * str * list str) :=
                   match l with
                   | [] => Ok ([], [], [])
                   | i :: l' => do b <- bind_class n w ops i; do (s, p, q) <- over l'; Ok (cb_code b ++ [nl] ++ s, cb_prefix b ++ p, cb_req b ++ q)
                   end) l) by (induction l0 as [|i l0 IHl]; [reflexivity|]; rewrite IH, IHl; reflexivity).
    apply (Z (x :: l)).
Qed.
Hint Rewrite s_bind_class : opt. Local Opaque bind_class.
End Same.
