(** Functions of the model that do not read the lists of what is wanted and
    unwanted. *)
From Coq Require Import Ascii String Bool Arith NArith.
From Coq Require Import List.
From Verif Require Import Str StrFacts Util Config SpecConfig ConfigFacts Ast Types Func Enum Includes Class Context SpecSettings SpecStyle SpecMonotone SettingsFacts ContextFacts.
Import ListNotations.

Set Default Proof Using "All".
Section More.
Variables (e : env) (c c' : config) (o o' : options).
Hypothesis H : asks_for_more c c'.
Hypothesis Ho : options_for_more o o'.
Local Notation w := (mkworld e c o).
Local Notation w' := (mkworld e c' o').

Lemma q_holder : strs c' holder_type = strs c holder_type.
Proof. apply H. Qed.
Lemma q_builtins : lists c' python_builtins = lists c python_builtins.
Proof. apply H. Qed.
Lemma q_not_builtins : lists c' not_python_builtins = lists c not_python_builtins.
Proof. apply H. Qed.
Lemma f_wenv : wenv w' = wenv w.
Proof. reflexivity. Qed.
Lemma f_wcfg : wcfg w' = c'.
Proof. reflexivity. Qed.
Lemma f_wcfg0 : wcfg w = c.
Proof. reflexivity. Qed.
Lemma f_stl : include_pybind11_stl (wopt w') = include_pybind11_stl (wopt w).
Proof. apply Ho. Qed.
Hint Rewrite f_wenv f_stl f_wcfg f_wcfg0 : mon.
Hint Rewrite q_holder q_builtins q_not_builtins : mon.
Local Opaque is_namespace_binding_requested is_namespace_skipping_requested is_module_local_requested is_function_binding_requested is_function_skipping_requested is_class_binding_requested is_class_skipping_requested is_enum_binding_requested is_enum_skipping_requested is_field_skipping_requested is_buffer_protocol_requested is_smart_holder_requested is_include_skipping_requested is_custom_trampoline_function_requested.
Ltac mon_rw := autorewrite with mon.

Lemma f_rec_ : rec_ w' = rec_ w.
Proof. unfold rec_. autorewrite with mon. reflexivity. Qed.
Hint Rewrite f_rec_ : mon. Local Opaque rec_.
Lemma f_fun_ : fun_ w' = fun_ w.
Proof. unfold fun_. autorewrite with mon. reflexivity. Qed.
Hint Rewrite f_fun_ : mon. Local Opaque fun_.
Lemma f_enum_ : enum_ w' = enum_ w.
Proof. unfold enum_. autorewrite with mon. reflexivity. Qed.
Hint Rewrite f_enum_ : mon. Local Opaque enum_.
Lemma f_rec_type : rec_type w' = rec_type w.
Proof. unfold rec_type. autorewrite with mon. reflexivity. Qed.
Hint Rewrite f_rec_type : mon. Local Opaque rec_type.
Lemma f_standard_name : standard_name w' = standard_name w.
Proof. unfold standard_name. autorewrite with mon. reflexivity. Qed.
Hint Rewrite f_standard_name : mon. Local Opaque standard_name.
Lemma f_standard_name_q : standard_name_q w' = standard_name_q w.
Proof. unfold standard_name_q. autorewrite with mon. reflexivity. Qed.
Hint Rewrite f_standard_name_q : mon. Local Opaque standard_name_q.
Lemma f_namespace_from_named_decl : namespace_from_named_decl w' = namespace_from_named_decl w.
Proof. unfold namespace_from_named_decl. autorewrite with mon. reflexivity. Qed.
Hint Rewrite f_namespace_from_named_decl : mon. Local Opaque namespace_from_named_decl.
Lemma f_typename_from_rec : typename_from_rec w' = typename_from_rec w.
Proof. unfold typename_from_rec. autorewrite with mon. reflexivity. Qed.
Hint Rewrite f_typename_from_rec : mon. Local Opaque typename_from_rec.
Lemma f_typename_from_enum : typename_from_enum w' = typename_from_enum w.
Proof. unfold typename_from_enum. autorewrite with mon. reflexivity. Qed.
Hint Rewrite f_typename_from_enum : mon. Local Opaque typename_from_enum.
Lemma f_qname_of_parent : qname_of_parent w' = qname_of_parent w.
Proof. unfold qname_of_parent. autorewrite with mon. reflexivity. Qed.
Hint Rewrite f_qname_of_parent : mon. Local Opaque qname_of_parent.
Lemma f_include_name : include_name w' = include_name w.
Proof. unfold include_name. autorewrite with mon. reflexivity. Qed.
Hint Rewrite f_include_name : mon. Local Opaque include_name.
Lemma f_is_banned_symbol : is_banned_symbol w' = is_banned_symbol w.
Proof. unfold is_banned_symbol. autorewrite with mon. reflexivity. Qed.
Hint Rewrite f_is_banned_symbol : mon. Local Opaque is_banned_symbol.
Lemma f_class_qualified_name : class_qualified_name w' = class_qualified_name w.
Proof. unfold class_qualified_name. autorewrite with mon. reflexivity. Qed.
Hint Rewrite f_class_qualified_name : mon. Local Opaque class_qualified_name.
Lemma f_class_name : class_name w' = class_name w.
Proof. unfold class_name. autorewrite with mon. reflexivity. Qed.
Hint Rewrite f_class_name : mon. Local Opaque class_name.
Lemma f_python_class_name : python_class_name w' = python_class_name w.
Proof. unfold python_class_name. autorewrite with mon. reflexivity. Qed.
Hint Rewrite f_python_class_name : mon. Local Opaque python_class_name.
Lemma f_request_name : request_name w' = request_name w.
Proof. unfold request_name. autorewrite with mon. reflexivity. Qed.
Hint Rewrite f_request_name : mon. Local Opaque request_name.
Lemma f_function_arguments : function_arguments w' = function_arguments w.
Proof. unfold function_arguments. autorewrite with mon. reflexivity. Qed.
Hint Rewrite f_function_arguments : mon. Local Opaque function_arguments.
Lemma f_lambda_param : lambda_param w' = lambda_param w.
Proof. unfold lambda_param. autorewrite with mon. reflexivity. Qed.
Hint Rewrite f_lambda_param : mon. Local Opaque lambda_param.
Lemma f_function_arguments_for_lambda : function_arguments_for_lambda w' = function_arguments_for_lambda w.
Proof. unfold function_arguments_for_lambda. autorewrite with mon. reflexivity. Qed.
Hint Rewrite f_function_arguments_for_lambda : mon. Local Opaque function_arguments_for_lambda.
Lemma f_function_arguments_for_py_overload : function_arguments_for_py_overload w' = function_arguments_for_py_overload w.
Proof. unfold function_arguments_for_py_overload. autorewrite with mon. reflexivity. Qed.
Hint Rewrite f_function_arguments_for_py_overload : mon. Local Opaque function_arguments_for_py_overload.
Lemma f_fun_specialization : fun_specialization w' = fun_specialization w.
Proof. unfold fun_specialization. autorewrite with mon. reflexivity. Qed.
Hint Rewrite f_fun_specialization : mon. Local Opaque fun_specialization.
Lemma f_function_pointer_type : function_pointer_type w' = function_pointer_type w.
Proof. unfold function_pointer_type. autorewrite with mon. reflexivity. Qed.
Hint Rewrite f_function_pointer_type : mon. Local Opaque function_pointer_type.
Lemma f_function_qualified_name : function_qualified_name w' = function_qualified_name w.
Proof. unfold function_qualified_name. autorewrite with mon. reflexivity. Qed.
Hint Rewrite f_function_qualified_name : mon. Local Opaque function_qualified_name.
Lemma f_lambda_return_type : lambda_return_type w' = lambda_return_type w.
Proof. unfold lambda_return_type. autorewrite with mon. reflexivity. Qed.
Hint Rewrite f_lambda_return_type : mon. Local Opaque lambda_return_type.
Lemma f_bound_name : bound_name w' = bound_name w.
Proof. unfold bound_name. autorewrite with mon. reflexivity. Qed.
Hint Rewrite f_bound_name : mon. Local Opaque bound_name.
Lemma f_function_expression : function_expression w' = function_expression w.
Proof. unfold function_expression. autorewrite with mon. reflexivity. Qed.
Hint Rewrite f_function_expression : mon. Local Opaque function_expression.
Lemma f_fun_id : fun_id w' = fun_id w.
Proof. unfold fun_id. autorewrite with mon. reflexivity. Qed.
Hint Rewrite f_fun_id : mon. Local Opaque fun_id.
Lemma f_enum_bindable : enum_bindable w' = enum_bindable w.
Proof. unfold enum_bindable. autorewrite with mon. reflexivity. Qed.
Hint Rewrite f_enum_bindable : mon. Local Opaque enum_bindable.
Lemma f_ctors : ctors w' = ctors w.
Proof. unfold ctors. autorewrite with mon. reflexivity. Qed.
Hint Rewrite f_ctors : mon. Local Opaque ctors.
Lemma f_is_field_assignable : is_field_assignable w' = is_field_assignable w.
Proof. unfold is_field_assignable. autorewrite with mon. reflexivity. Qed.
Hint Rewrite f_is_field_assignable : mon. Local Opaque is_field_assignable.
Lemma f_is_const_overload : is_const_overload w' = is_const_overload w.
Proof. unfold is_const_overload. autorewrite with mon. reflexivity. Qed.
Hint Rewrite f_is_const_overload : mon. Local Opaque is_const_overload.
Lemma f_decl_candidates : decl_candidates w' = decl_candidates w.
Proof. unfold decl_candidates. autorewrite with mon. reflexivity. Qed.
Hint Rewrite f_decl_candidates : mon. Local Opaque decl_candidates.
Lemma f_callback_structure_name : callback_structure_name w' = callback_structure_name w.
Proof. unfold callback_structure_name. autorewrite with mon. reflexivity. Qed.
Hint Rewrite f_callback_structure_name : mon. Local Opaque callback_structure_name.
Lemma f_callback_key : callback_key w' = callback_key w.
Proof. unfold callback_key. autorewrite with mon. reflexivity. Qed.
Hint Rewrite f_callback_key : mon. Local Opaque callback_key.
Lemma f_lifted_ctors : lifted_ctors w' = lifted_ctors w.
Proof. unfold lifted_ctors. autorewrite with mon. reflexivity. Qed.
Hint Rewrite f_lifted_ctors : mon. Local Opaque lifted_ctors.
Lemma f_insertion_operator_key : insertion_operator_key w' = insertion_operator_key w.
Proof. unfold insertion_operator_key. autorewrite with mon. reflexivity. Qed.
Hint Rewrite f_insertion_operator_key : mon. Local Opaque insertion_operator_key.
Lemma f_insertion_operator_template_key : insertion_operator_template_key w' = insertion_operator_template_key w.
Proof. unfold insertion_operator_template_key. autorewrite with mon. reflexivity. Qed.
Hint Rewrite f_insertion_operator_template_key : mon. Local Opaque insertion_operator_template_key.
Lemma f_global_insertion_operator : global_insertion_operator w' = global_insertion_operator w.
Proof. unfold global_insertion_operator. autorewrite with mon. reflexivity. Qed.
Hint Rewrite f_global_insertion_operator : mon. Local Opaque global_insertion_operator.
Lemma f_nested_classes : nested_classes w' = nested_classes w.
Proof. unfold nested_classes. autorewrite with mon. reflexivity. Qed.
Hint Rewrite f_nested_classes : mon. Local Opaque nested_classes.
Lemma f_public_enums : public_enums w' = public_enums w.
Proof. unfold public_enums. autorewrite with mon. reflexivity. Qed.
Hint Rewrite f_public_enums : mon. Local Opaque public_enums.
Lemma f_decl_id : decl_id w' = decl_id w.
Proof. unfold decl_id. autorewrite with mon. reflexivity. Qed.
Hint Rewrite f_decl_id : mon. Local Opaque decl_id.
Lemma f_type_names : type_names w' = type_names w.
Proof. unfold type_names. autorewrite with mon. reflexivity. Qed.
Hint Rewrite f_type_names : mon. Local Opaque type_names.
Lemma f_add : add w' = add w.
Proof. unfold add. autorewrite with mon. reflexivity. Qed.
Hint Rewrite f_add : mon. Local Opaque add.
Lemma f_add_insertion_operator : add_insertion_operator w' = add_insertion_operator w.
Proof. unfold add_insertion_operator. autorewrite with mon. reflexivity. Qed.
Hint Rewrite f_add_insertion_operator : mon. Local Opaque add_insertion_operator.
Lemma f_named_decl : named_decl w' = named_decl w.
Proof. unfold named_decl. autorewrite with mon. reflexivity. Qed.
Hint Rewrite f_named_decl : mon. Local Opaque named_decl.
Lemma f_binder_namespace : binder_namespace w' = binder_namespace w.
Proof. unfold binder_namespace. autorewrite with mon. reflexivity. Qed.
Hint Rewrite f_binder_namespace : mon. Local Opaque binder_namespace.
Lemma f_nested_namespaces : nested_namespaces w' = nested_namespaces w.
Proof. unfold nested_namespaces. autorewrite with mon. reflexivity. Qed.
Hint Rewrite f_nested_namespaces : mon. Local Opaque nested_namespaces.

(** ** Types and classes *)
Lemma s_builtin_name x : builtin_name w' x = builtin_name w x.
Proof. unfold builtin_name. mon_rw. reflexivity. Qed.
Hint Rewrite s_builtin_name : mon. Local Opaque builtin_name.
Lemma s_is_python_builtin n : is_python_builtin w' n = is_python_builtin w n.
Proof. unfold is_python_builtin. mon_rw. reflexivity. Qed.
Hint Rewrite s_is_python_builtin : mon. Local Opaque is_python_builtin.
Lemma s_rec_bindable_raw r b : rec_bindable_raw w' r b = rec_bindable_raw w r b.
Proof. unfold rec_bindable_raw. mon_rw. reflexivity. Qed.
Hint Rewrite s_rec_bindable_raw : mon. Local Opaque rec_bindable_raw.
Fixpoint s_bindable_type s t {struct t} : bindable_type w' s t = bindable_type w s t.
Proof.
  destruct t as [| b p | p | p | | | b r args | | b n p |]; cbn [bindable_type]; mon_rw; try reflexivity; rewrite ?s_bindable_type; try reflexivity.
  f_equal. f_equal. f_equal.
  induction args as [|a args IH]; cbn [forallb]; [reflexivity|]. f_equal; [|exact IH].
  destruct a as [k text]. destruct k as [t|t|d|d [[ret ps]|]|n|]; try reflexivity.
  rewrite s_bindable_type. f_equal. induction ps as [|p ps IHps]; cbn [forallb]; [reflexivity|]. rewrite s_bindable_type. f_equal. exact IHps.
Qed.
Hint Rewrite s_bindable_type : mon. Local Opaque bindable_type.
Lemma s_is_bindable_q t : is_bindable_q w' t = is_bindable_q w t.
Proof. apply s_bindable_type. Qed.
Hint Rewrite s_is_bindable_q : mon. Local Opaque is_bindable_q.
Lemma s_is_std_function_bindable args : is_std_function_bindable w' args = is_std_function_bindable w args.
Proof.
  apply forallb_eq. intros [[| | |d [[ret ps]|]| |] text]; try reflexivity. mon_rw. f_equal. apply forallb_eq. intros; apply s_bindable_type.
Qed.
Hint Rewrite s_is_std_function_bindable : mon. Local Opaque is_std_function_bindable.
Lemma s_is_bindable_rec r : is_bindable_rec w' r = is_bindable_rec w r.
Proof. unfold is_bindable_rec. mon_rw. reflexivity. Qed.
Hint Rewrite s_is_bindable_rec : mon. Local Opaque is_bindable_rec.
Lemma s_is_bindable_fun F : is_bindable_fun w' F = is_bindable_fun w F.
Proof.
  unfold is_bindable_fun. mon_rw. f_equal. f_equal. apply forallb_eq. intros; apply s_is_bindable_q.
Qed.
Hint Rewrite s_is_bindable_fun : mon. Local Opaque is_bindable_fun.
End More.
