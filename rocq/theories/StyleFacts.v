(** The settings on the form of the generated code are not observed by the
    decisions: every function of the model that decides gives the same result
    for two configurations that agree on the others, and every function that
    generates text makes the same requests. *)
From Coq Require Import Ascii String Bool Arith NArith.
From Coq Require Import List.
From Verif Require Import Str StrFacts Util Config SpecConfig ConfigFacts Ast Types Func Enum Includes Class Context SpecSettings SpecStyle SettingsFacts ContextFacts.
Import ListNotations.

(** Outcomes that make the same requests: emitted text, texts. *)
Definition same_requests (a b : emitted) : Prop := snd b = snd a.
Definition any {A} (a b : A) : Prop := True.
Lemma so_bind {A B} (R : A -> A -> Prop) (Q : B -> B -> Prop) (x y : result A) (f g : A -> result B) :
  same_outcome R x y -> (forall a b, R a b -> same_outcome Q (f a) (g b)) -> same_outcome Q (bind_r x f) (bind_r y g).
Proof. intros E K. destruct x, y; cbn in *; try contradiction; try discriminate; try (injection E as ->); auto. Qed.
Lemma so_refl {A} (R : A -> A -> Prop) (x : result A) : (forall a, R a a) -> same_outcome R x x.
Proof. intros F. destruct x; cbn; auto. Qed.
Lemma so_if {A} (R : A -> A -> Prop) (b : bool) (x x' y y' : result A) :
  same_outcome R x x' -> same_outcome R y y' -> same_outcome R (if b then x else y) (if b then x' else y').
Proof. destruct b; auto. Qed.
Lemma so_eq {A B} (Q : B -> B -> Prop) (x : result A) (f g : A -> result B) :
  (forall a, same_outcome Q (f a) (g a)) -> same_outcome Q (bind_r x f) (bind_r x g).
Proof. intros F. destruct x; cbn; auto. Qed.
Lemma so_emit {A} (f g : A -> result emitted) l : (forall x, same_outcome same_requests (f x) (g x)) ->
  same_outcome same_requests (emit_all (map f l)) (emit_all (map g l)).
Proof.
  intros F. induction l as [|x l IH]; cbn [map emit_all]; [reflexivity|].
  apply (so_bind same_requests); [apply F|]. intros [s q] [s' q'] E. apply (so_bind same_requests); [exact IH|].
  intros [t p] [t' p'] E'. cbn in *. unfold same_requests in *. cbn in *. congruence.
Qed.

Set Default Proof Using "All".
Section Same.
Variables (e : env) (c c' : config) (o o' : options).
Hypothesis H : same_selection c c'.
Hypothesis Ho : same_selecting_options o o'.
Local Notation w := (mkworld e c o).
Local Notation w' := (mkworld e c' o').

Lemma q_list k : In k selecting -> lists c' k = lists c k.
Proof. apply H. Qed.
Ltac listed := rewrite q_list by (unfold selecting; repeat (try (left; reflexivity); right)).
Lemma q_ns_bind n : is_namespace_binding_requested c' n = is_namespace_binding_requested c n.
Proof. unfold is_namespace_binding_requested. do 2 listed. reflexivity. Qed.
Lemma q_ns_skip n : is_namespace_skipping_requested c' n = is_namespace_skipping_requested c n.
Proof. unfold is_namespace_skipping_requested. do 2 listed. reflexivity. Qed.
Lemma q_local n : is_module_local_requested c' n = is_module_local_requested c n.
Proof. unfold is_module_local_requested. do 2 listed. reflexivity. Qed.
Lemma q_fun_bind n : is_function_binding_requested c' n = is_function_binding_requested c n.
Proof. unfold is_function_binding_requested. listed. reflexivity. Qed.
Lemma q_fun_skip n : is_function_skipping_requested c' n = is_function_skipping_requested c n.
Proof. unfold is_function_skipping_requested. listed. reflexivity. Qed.
Lemma q_class_bind n : is_class_binding_requested c' n = is_class_binding_requested c n.
Proof. unfold is_class_binding_requested. listed. reflexivity. Qed.
Lemma q_class_skip n : is_class_skipping_requested c' n = is_class_skipping_requested c n.
Proof. unfold is_class_skipping_requested. listed. reflexivity. Qed.
Lemma q_enum_bind n : is_enum_binding_requested c' n = is_enum_binding_requested c n.
Proof. unfold is_enum_binding_requested. listed. reflexivity. Qed.
Lemma q_enum_skip n : is_enum_skipping_requested c' n = is_enum_skipping_requested c n.
Proof. unfold is_enum_skipping_requested. listed. reflexivity. Qed.
Lemma q_field n : is_field_skipping_requested c' n = is_field_skipping_requested c n.
Proof. unfold is_field_skipping_requested. listed. reflexivity. Qed.
Lemma q_holder : strs c' holder_type = strs c holder_type.
Proof. apply H. Qed.
Lemma q_builtins : lists c' python_builtins = lists c python_builtins.
Proof. listed. reflexivity. Qed.
Lemma q_not_builtins : lists c' not_python_builtins = lists c not_python_builtins.
Proof. listed. reflexivity. Qed.
Lemma f_wenv : wenv w' = wenv w.
Proof. reflexivity. Qed.
Lemma f_wcfg : wcfg w' = c'.
Proof. reflexivity. Qed.
Lemma f_wcfg0 : wcfg w = c.
Proof. reflexivity. Qed.
Lemma f_stl : include_pybind11_stl (wopt w') = include_pybind11_stl (wopt w).
Proof. apply Ho. Qed.
Lemma f_specializations : bind_class_template_specialization (wopt w') = bind_class_template_specialization (wopt w).
Proof. apply Ho. Qed.
Hint Rewrite f_wenv f_stl f_specializations f_wcfg f_wcfg0 : sty.
Hint Rewrite q_ns_bind q_ns_skip q_local q_fun_bind q_fun_skip q_class_bind q_class_skip q_enum_bind q_enum_skip q_field q_holder q_builtins q_not_builtins : sty.
Local Opaque is_namespace_binding_requested is_namespace_skipping_requested is_module_local_requested is_function_binding_requested is_function_skipping_requested is_class_binding_requested is_class_skipping_requested is_enum_binding_requested is_enum_skipping_requested is_field_skipping_requested is_buffer_protocol_requested is_smart_holder_requested is_include_skipping_requested is_custom_trampoline_function_requested.
Ltac sty_rw := autorewrite with sty.

Lemma f_rec_ : rec_ w' = rec_ w.
Proof. unfold rec_. autorewrite with sty. reflexivity. Qed.
Hint Rewrite f_rec_ : sty. Local Opaque rec_.
Lemma f_fun_ : fun_ w' = fun_ w.
Proof. unfold fun_. autorewrite with sty. reflexivity. Qed.
Hint Rewrite f_fun_ : sty. Local Opaque fun_.
Lemma f_enum_ : enum_ w' = enum_ w.
Proof. unfold enum_. autorewrite with sty. reflexivity. Qed.
Hint Rewrite f_enum_ : sty. Local Opaque enum_.
Lemma f_rec_type : rec_type w' = rec_type w.
Proof. unfold rec_type. autorewrite with sty. reflexivity. Qed.
Hint Rewrite f_rec_type : sty. Local Opaque rec_type.
Lemma f_standard_name : standard_name w' = standard_name w.
Proof. unfold standard_name. autorewrite with sty. reflexivity. Qed.
Hint Rewrite f_standard_name : sty. Local Opaque standard_name.
Lemma f_standard_name_q : standard_name_q w' = standard_name_q w.
Proof. unfold standard_name_q. autorewrite with sty. reflexivity. Qed.
Hint Rewrite f_standard_name_q : sty. Local Opaque standard_name_q.
Lemma f_namespace_from_named_decl : namespace_from_named_decl w' = namespace_from_named_decl w.
Proof. unfold namespace_from_named_decl. autorewrite with sty. reflexivity. Qed.
Hint Rewrite f_namespace_from_named_decl : sty. Local Opaque namespace_from_named_decl.
Lemma f_typename_from_rec : typename_from_rec w' = typename_from_rec w.
Proof. unfold typename_from_rec. autorewrite with sty. reflexivity. Qed.
Hint Rewrite f_typename_from_rec : sty. Local Opaque typename_from_rec.
Lemma f_typename_from_enum : typename_from_enum w' = typename_from_enum w.
Proof. unfold typename_from_enum. autorewrite with sty. reflexivity. Qed.
Hint Rewrite f_typename_from_enum : sty. Local Opaque typename_from_enum.
Lemma f_qname_of_parent : qname_of_parent w' = qname_of_parent w.
Proof. unfold qname_of_parent. autorewrite with sty. reflexivity. Qed.
Hint Rewrite f_qname_of_parent : sty. Local Opaque qname_of_parent.
Lemma f_include_name : include_name w' = include_name w.
Proof. unfold include_name. autorewrite with sty. reflexivity. Qed.
Hint Rewrite f_include_name : sty. Local Opaque include_name.
Lemma f_is_banned_symbol : is_banned_symbol w' = is_banned_symbol w.
Proof. unfold is_banned_symbol. autorewrite with sty. reflexivity. Qed.
Hint Rewrite f_is_banned_symbol : sty. Local Opaque is_banned_symbol.
Lemma f_class_qualified_name : class_qualified_name w' = class_qualified_name w.
Proof. unfold class_qualified_name. autorewrite with sty. reflexivity. Qed.
Hint Rewrite f_class_qualified_name : sty. Local Opaque class_qualified_name.
Lemma f_class_name : class_name w' = class_name w.
Proof. unfold class_name. autorewrite with sty. reflexivity. Qed.
Hint Rewrite f_class_name : sty. Local Opaque class_name.
Lemma f_python_class_name : python_class_name w' = python_class_name w.
Proof. unfold python_class_name. autorewrite with sty. reflexivity. Qed.
Hint Rewrite f_python_class_name : sty. Local Opaque python_class_name.
Lemma f_request_name : request_name w' = request_name w.
Proof. unfold request_name. autorewrite with sty. reflexivity. Qed.
Hint Rewrite f_request_name : sty. Local Opaque request_name.
Lemma f_function_arguments : function_arguments w' = function_arguments w.
Proof. unfold function_arguments. autorewrite with sty. reflexivity. Qed.
Hint Rewrite f_function_arguments : sty. Local Opaque function_arguments.
Lemma f_lambda_param : lambda_param w' = lambda_param w.
Proof. unfold lambda_param. autorewrite with sty. reflexivity. Qed.
Hint Rewrite f_lambda_param : sty. Local Opaque lambda_param.
Lemma f_function_arguments_for_lambda : function_arguments_for_lambda w' = function_arguments_for_lambda w.
Proof. unfold function_arguments_for_lambda. autorewrite with sty. reflexivity. Qed.
Hint Rewrite f_function_arguments_for_lambda : sty. Local Opaque function_arguments_for_lambda.
Lemma f_function_arguments_for_py_overload : function_arguments_for_py_overload w' = function_arguments_for_py_overload w.
Proof. unfold function_arguments_for_py_overload. autorewrite with sty. reflexivity. Qed.
Hint Rewrite f_function_arguments_for_py_overload : sty. Local Opaque function_arguments_for_py_overload.
Lemma f_fun_specialization : fun_specialization w' = fun_specialization w.
Proof. unfold fun_specialization. autorewrite with sty. reflexivity. Qed.
Hint Rewrite f_fun_specialization : sty. Local Opaque fun_specialization.
Lemma f_function_pointer_type : function_pointer_type w' = function_pointer_type w.
Proof. unfold function_pointer_type. autorewrite with sty. reflexivity. Qed.
Hint Rewrite f_function_pointer_type : sty. Local Opaque function_pointer_type.
Lemma f_function_qualified_name : function_qualified_name w' = function_qualified_name w.
Proof. unfold function_qualified_name. autorewrite with sty. reflexivity. Qed.
Hint Rewrite f_function_qualified_name : sty. Local Opaque function_qualified_name.
Lemma f_lambda_return_type : lambda_return_type w' = lambda_return_type w.
Proof. unfold lambda_return_type. autorewrite with sty. reflexivity. Qed.
Hint Rewrite f_lambda_return_type : sty. Local Opaque lambda_return_type.
Lemma f_bound_name : bound_name w' = bound_name w.
Proof. unfold bound_name. autorewrite with sty. reflexivity. Qed.
Hint Rewrite f_bound_name : sty. Local Opaque bound_name.
Lemma f_function_expression : function_expression w' = function_expression w.
Proof. unfold function_expression. autorewrite with sty. reflexivity. Qed.
Hint Rewrite f_function_expression : sty. Local Opaque function_expression.
Lemma f_fun_id : fun_id w' = fun_id w.
Proof. unfold fun_id. autorewrite with sty. reflexivity. Qed.
Hint Rewrite f_fun_id : sty. Local Opaque fun_id.
Lemma f_enum_bindable : enum_bindable w' = enum_bindable w.
Proof. unfold enum_bindable. autorewrite with sty. reflexivity. Qed.
Hint Rewrite f_enum_bindable : sty. Local Opaque enum_bindable.
Lemma f_ctors : ctors w' = ctors w.
Proof. unfold ctors. autorewrite with sty. reflexivity. Qed.
Hint Rewrite f_ctors : sty. Local Opaque ctors.
Lemma f_is_field_assignable : is_field_assignable w' = is_field_assignable w.
Proof. unfold is_field_assignable. autorewrite with sty. reflexivity. Qed.
Hint Rewrite f_is_field_assignable : sty. Local Opaque is_field_assignable.
Lemma f_is_const_overload : is_const_overload w' = is_const_overload w.
Proof. unfold is_const_overload. autorewrite with sty. reflexivity. Qed.
Hint Rewrite f_is_const_overload : sty. Local Opaque is_const_overload.
Lemma f_decl_candidates : decl_candidates w' = decl_candidates w.
Proof. unfold decl_candidates. autorewrite with sty. reflexivity. Qed.
Hint Rewrite f_decl_candidates : sty. Local Opaque decl_candidates.
Lemma f_callback_structure_name : callback_structure_name w' = callback_structure_name w.
Proof. unfold callback_structure_name. autorewrite with sty. reflexivity. Qed.
Hint Rewrite f_callback_structure_name : sty. Local Opaque callback_structure_name.
Lemma f_callback_key : callback_key w' = callback_key w.
Proof. unfold callback_key. autorewrite with sty. reflexivity. Qed.
Hint Rewrite f_callback_key : sty. Local Opaque callback_key.
Lemma f_lifted_ctors : lifted_ctors w' = lifted_ctors w.
Proof. unfold lifted_ctors. autorewrite with sty. reflexivity. Qed.
Hint Rewrite f_lifted_ctors : sty. Local Opaque lifted_ctors.
Lemma f_insertion_operator_key : insertion_operator_key w' = insertion_operator_key w.
Proof. unfold insertion_operator_key. autorewrite with sty. reflexivity. Qed.
Hint Rewrite f_insertion_operator_key : sty. Local Opaque insertion_operator_key.
Lemma f_insertion_operator_template_key : insertion_operator_template_key w' = insertion_operator_template_key w.
Proof. unfold insertion_operator_template_key. autorewrite with sty. reflexivity. Qed.
Hint Rewrite f_insertion_operator_template_key : sty. Local Opaque insertion_operator_template_key.
Lemma f_global_insertion_operator : global_insertion_operator w' = global_insertion_operator w.
Proof. unfold global_insertion_operator. autorewrite with sty. reflexivity. Qed.
Hint Rewrite f_global_insertion_operator : sty. Local Opaque global_insertion_operator.
Lemma f_nested_classes : nested_classes w' = nested_classes w.
Proof. unfold nested_classes. autorewrite with sty. reflexivity. Qed.
Hint Rewrite f_nested_classes : sty. Local Opaque nested_classes.
Lemma f_public_enums : public_enums w' = public_enums w.
Proof. unfold public_enums. autorewrite with sty. reflexivity. Qed.
Hint Rewrite f_public_enums : sty. Local Opaque public_enums.
Lemma f_decl_id : decl_id w' = decl_id w.
Proof. unfold decl_id. autorewrite with sty. reflexivity. Qed.
Hint Rewrite f_decl_id : sty. Local Opaque decl_id.
Lemma f_type_names : type_names w' = type_names w.
Proof. unfold type_names. autorewrite with sty. reflexivity. Qed.
Hint Rewrite f_type_names : sty. Local Opaque type_names.
Lemma f_add : add w' = add w.
Proof. unfold add. autorewrite with sty. reflexivity. Qed.
Hint Rewrite f_add : sty. Local Opaque add.
Lemma f_add_insertion_operator : add_insertion_operator w' = add_insertion_operator w.
Proof. unfold add_insertion_operator. autorewrite with sty. reflexivity. Qed.
Hint Rewrite f_add_insertion_operator : sty. Local Opaque add_insertion_operator.
Lemma f_named_decl : named_decl w' = named_decl w.
Proof. unfold named_decl. autorewrite with sty. reflexivity. Qed.
Hint Rewrite f_named_decl : sty. Local Opaque named_decl.
Lemma f_binder_namespace : binder_namespace w' = binder_namespace w.
Proof. unfold binder_namespace. autorewrite with sty. reflexivity. Qed.
Hint Rewrite f_binder_namespace : sty. Local Opaque binder_namespace.
Lemma f_nested_namespaces : nested_namespaces w' = nested_namespaces w.
Proof. unfold nested_namespaces. autorewrite with sty. reflexivity. Qed.
Hint Rewrite f_nested_namespaces : sty. Local Opaque nested_namespaces.

(** ** Types and classes *)
Lemma s_builtin_name x : builtin_name w' x = builtin_name w x.
Proof. unfold builtin_name. sty_rw. reflexivity. Qed.
Hint Rewrite s_builtin_name : sty. Local Opaque builtin_name.
Lemma s_is_python_builtin n : is_python_builtin w' n = is_python_builtin w n.
Proof. unfold is_python_builtin. sty_rw. reflexivity. Qed.
Hint Rewrite s_is_python_builtin : sty. Local Opaque is_python_builtin.
Lemma s_rec_bindable_raw r b : rec_bindable_raw w' r b = rec_bindable_raw w r b.
Proof. unfold rec_bindable_raw. sty_rw. reflexivity. Qed.
Hint Rewrite s_rec_bindable_raw : sty. Local Opaque rec_bindable_raw.
Fixpoint s_bindable_type s t {struct t} : bindable_type w' s t = bindable_type w s t.
Proof.
  destruct t as [| b p | p | p | | | b r args | | b n p |]; cbn [bindable_type]; sty_rw; try reflexivity; rewrite ?s_bindable_type; try reflexivity.
  f_equal. f_equal. f_equal.
  induction args as [|a args IH]; cbn [forallb]; [reflexivity|]. f_equal; [|exact IH].
  destruct a as [k text]. destruct k as [t|t|d|d [[ret ps]|]|n|]; try reflexivity.
  rewrite s_bindable_type. f_equal. induction ps as [|p ps IHps]; cbn [forallb]; [reflexivity|]. rewrite s_bindable_type. f_equal. exact IHps.
Qed.
Hint Rewrite s_bindable_type : sty. Local Opaque bindable_type.
Lemma s_is_bindable_q t : is_bindable_q w' t = is_bindable_q w t.
Proof. apply s_bindable_type. Qed.
Hint Rewrite s_is_bindable_q : sty. Local Opaque is_bindable_q.
Lemma s_is_std_function_bindable args : is_std_function_bindable w' args = is_std_function_bindable w args.
Proof.
  apply forallb_eq. intros [[| | |d [[ret ps]|]| |] text]; try reflexivity. sty_rw. f_equal. apply forallb_eq. intros; apply s_bindable_type.
Qed.
Hint Rewrite s_is_std_function_bindable : sty. Local Opaque is_std_function_bindable.
Lemma s_is_bindable_rec r : is_bindable_rec w' r = is_bindable_rec w r.
Proof. unfold is_bindable_rec. sty_rw. reflexivity. Qed.
Hint Rewrite s_is_bindable_rec : sty. Local Opaque is_bindable_rec.
Lemma s_skip_rec_with r deps : skip_rec_with w' r deps = skip_rec_with w r deps.
Proof. unfold skip_rec_with. sty_rw. reflexivity. Qed.
Hint Rewrite s_skip_rec_with : sty. Local Opaque skip_rec_with.
Fixpoint s_skip_type s t {struct t} : skip_type w' s t = skip_type w s t.
Proof.
  destruct t as [| b p | p | p | | | b r args | | b n p |]; cbn [skip_type]; try reflexivity; try (rewrite s_skip_type; reflexivity).
  sty_rw. f_equal. induction args as [|[k text] args IH]; cbn [flat_map]; [reflexivity|]. f_equal; [|exact IH].
  destruct k; try reflexivity. rewrite s_skip_type. reflexivity.
Qed.
Hint Rewrite s_skip_type : sty. Local Opaque skip_type.
Lemma s_is_skipping_requested_q t : is_skipping_requested_q w' t = is_skipping_requested_q w t.
Proof. apply s_skip_type. Qed.
Hint Rewrite s_is_skipping_requested_q : sty. Local Opaque is_skipping_requested_q.
Lemma s_is_skipping_requested_rec r : is_skipping_requested_rec w' r = is_skipping_requested_rec w r.
Proof. unfold is_skipping_requested_rec. sty_rw. f_equal. apply map_ext. intros; apply s_is_skipping_requested_q. Qed.
Hint Rewrite s_is_skipping_requested_rec : sty. Local Opaque is_skipping_requested_rec.
Lemma s_is_binding_requested_rec r : is_binding_requested_rec w' r = is_binding_requested_rec w r.
Proof.
  unfold is_binding_requested_rec. sty_rw. apply if_eq; [reflexivity|reflexivity|]. apply if_eq; [reflexivity|reflexivity|].
  apply bind_r_eq; [reflexivity|]. intros a. apply bind_r_eq; [|reflexivity]. f_equal. apply map_ext. intros; apply s_is_skipping_requested_q.
Qed.
Hint Rewrite s_is_binding_requested_rec : sty. Local Opaque is_binding_requested_rec.
Lemma s_bind_type s t : bind_type w' s t = bind_type w s t.
Proof. revert s. induction t; intros s; cbn [bind_type]; sty_rw; try reflexivity; try (destruct s; [reflexivity|]); auto. Qed.
Hint Rewrite s_bind_type : sty. Local Opaque bind_type.
Lemma s_is_binding_requested_q t : is_binding_requested_q w' t = is_binding_requested_q w t.
Proof. apply s_bind_type. Qed.
Hint Rewrite s_is_binding_requested_q : sty. Local Opaque is_binding_requested_q.
Lemma s_request_type t : request_type w' t = request_type w t.
Proof. induction t; cbn [request_type]; sty_rw; try reflexivity; rewrite IHt; reflexivity. Qed.
Hint Rewrite s_request_type : sty. Local Opaque request_type.
Lemma s_request_types l : request_types w' l = request_types w l.
Proof. induction l as [|t l IH]; cbn [request_types]; [reflexivity|]. sty_rw. rewrite IH. reflexivity. Qed.
Hint Rewrite s_request_types : sty. Local Opaque request_types.

(** ** Functions and enums *)
Lemma s_is_binding_requested_fun F : is_binding_requested_fun w' F = is_binding_requested_fun w F.
Proof.
  unfold is_binding_requested_fun. sty_rw.
  apply if_eq; [reflexivity|reflexivity|]. apply bind_r_eq; [reflexivity|]. intros a. f_equal. apply map_ext. intros; apply s_is_binding_requested_q.
Qed.
Hint Rewrite s_is_binding_requested_fun : sty. Local Opaque is_binding_requested_fun.
Lemma s_is_skipping_requested_fun F : is_skipping_requested_fun w' F = is_skipping_requested_fun w F.
Proof.
  unfold is_skipping_requested_fun. sty_rw. cbv zeta.
  do 4 (apply if_eq; [reflexivity|reflexivity|]).
  apply bind_r_eq; [reflexivity|]. intros a. sty_rw. f_equal. apply map_ext. intros; apply s_is_skipping_requested_q.
Qed.
Hint Rewrite s_is_skipping_requested_fun : sty. Local Opaque is_skipping_requested_fun.
Lemma s_is_bindable_fun F : is_bindable_fun w' F = is_bindable_fun w F.
Proof.
  unfold is_bindable_fun. sty_rw. f_equal. f_equal. apply forallb_eq. intros; apply s_is_bindable_q.
Qed.
Hint Rewrite s_is_bindable_fun : sty. Local Opaque is_bindable_fun.

(** ** Texts of functions and enums *)
Lemma r_bind_overload F n q p a : same_outcome same_requests (bind_overload w F n q p a) (bind_overload w' F n q p a).
Proof.
  unfold bind_overload. cbv zeta. rewrite f_function_expression. destruct (function_expression w F n p a) as [x y]. sty_rw.
  apply so_eq. intros qs. reflexivity.
Qed.
Local Opaque bind_overload.
Lemma r_bind_function m F p a : same_outcome same_requests (bind_function w m F p a) (bind_function w' m F p a).
Proof.
  unfold bind_function. apply (so_bind same_requests).
  - apply so_emit. intros n. apply (so_bind same_requests); [apply r_bind_overload|]. intros [s q] [s' q'] E. exact E.
  - intros [s q] [s' q'] E. exact E.
Qed.
Local Opaque bind_function.
Lemma r_bind_fun F : same_outcome same_requests (bind_fun w F) (bind_fun w' F).
Proof.
  unfold bind_fun. sty_rw. apply (so_bind same_requests); [apply r_bind_function|]. intros [s q] [s' q'] E. exact E.
Qed.
Local Opaque bind_fun.
Lemma s_is_binding_requested_enum x : is_binding_requested_enum w' x = is_binding_requested_enum w x.
Proof. unfold is_binding_requested_enum. sty_rw. reflexivity. Qed.
Hint Rewrite s_is_binding_requested_enum : sty. Local Opaque is_binding_requested_enum.
Lemma s_is_skipping_requested_enum x : is_skipping_requested_enum w' x = is_skipping_requested_enum w x.
Proof. unfold is_skipping_requested_enum. sty_rw. reflexivity. Qed.
Hint Rewrite s_is_skipping_requested_enum : sty. Local Opaque is_skipping_requested_enum.
Lemma s_bind_enum m x : bind_enum w' m x = bind_enum w m x.
Proof. unfold bind_enum. sty_rw. reflexivity. Qed.
Hint Rewrite s_bind_enum : sty. Local Opaque bind_enum.
Lemma r_bind_enum_binder x : same_outcome any (bind_enum_binder w x) (bind_enum_binder w' x).
Proof. unfold bind_enum_binder. sty_rw. apply so_eq. intros s. exact Logic.I. Qed.
Local Opaque bind_enum_binder.

(** ** Classes *)
Lemma s_holder r : holder w' r = holder w r.
Proof.
  assert (E : forall n r, inherits_enable_shared n w' r = inherits_enable_shared n w r).
  { induction n as [|n IH]; intros x; cbn [inherits_enable_shared]; sty_rw; [reflexivity|]. apply if_eq; [reflexivity|reflexivity|]. apply if_eq; [reflexivity| |reflexivity].
    apply exists_r_eq. intros b. destruct (base_record b); [apply IH|reflexivity]. }
  unfold holder. sty_rw. rewrite E. reflexivity.
Qed.
Hint Rewrite s_holder : sty. Local Opaque holder.
Lemma s_plain_method_ok F : plain_method_ok w' F = plain_method_ok w F.
Proof. unfold plain_method_ok. sty_rw. reflexivity. Qed.
Hint Rewrite s_plain_method_ok : sty. Local Opaque plain_method_ok.
Lemma s_candidate_ok x : candidate_ok w' x = candidate_ok w x.
Proof. unfold candidate_ok, public_method_ok. sty_rw. destruct x as [f [p|]]; sty_rw; reflexivity. Qed.
Hint Rewrite s_candidate_ok : sty. Local Opaque candidate_ok.
Lemma s_exposed_methods r : exposed_methods w' r = exposed_methods w r.
Proof. unfold exposed_methods. cbv zeta. sty_rw. apply filter_r_eq. apply s_candidate_ok. Qed.
Hint Rewrite s_exposed_methods : sty. Local Opaque exposed_methods.
Lemma r_bind_member x : same_outcome same_requests (bind_member w x) (bind_member w' x).
Proof. unfold bind_member. destruct x as [f p]. rewrite f_fun_. apply r_bind_function. Qed.
Local Opaque bind_member.
Lemma r_binding_public_member_functions r : same_outcome same_requests (binding_public_member_functions w r) (binding_public_member_functions w' r).
Proof.
  unfold binding_public_member_functions. rewrite s_exposed_methods. apply so_eq. intros l. apply so_emit. apply r_bind_member.
Qed.
Local Opaque binding_public_member_functions.
Lemma r_binding_template_bases n : forall r, same_outcome same_requests (binding_template_bases n w r) (binding_template_bases n w' r).
Proof.
  induction n as [|n IH]; intros r; cbn [binding_template_bases]; sty_rw; (apply so_if; [|reflexivity]); [apply so_refl; reflexivity|].
  apply so_emit. intros b. apply so_if; [|reflexivity]. destruct (base_record b); [|reflexivity]. sty_rw. apply so_eq. intros skip. apply so_if; [reflexivity|].
  apply (so_bind same_requests); [apply r_binding_public_member_functions|]. intros [s1 q1] [s1' q1'] E1.
  apply (so_bind same_requests); [apply IH|]. intros [s2 q2] [s2' q2'] E2. unfold same_requests in *. cbn in *. congruence.
Qed.
Local Opaque binding_template_bases.
Lemma s_is_callback_structure_needed n : forall r, is_callback_structure_needed n w' r = is_callback_structure_needed n w r.
Proof.
  induction n as [|n IH]; intros r; cbn [is_callback_structure_needed]; sty_rw;
    (apply if_eq; [reflexivity|reflexivity|]; apply if_eq; [reflexivity|reflexivity|]; apply if_eq; [apply existsb_eq; intros m; cbv zeta; sty_rw; reflexivity|reflexivity|]).
  - reflexivity.
  - apply exists_r_eq. intros b. apply if_eq; [reflexivity|reflexivity|]. destruct (base_record b); [apply IH|reflexivity].
Qed.
Hint Rewrite s_is_callback_structure_needed : sty. Local Opaque is_callback_structure_needed.
Lemma s_blocking_method M : blocking_method w' M = blocking_method w M.
Proof. unfold blocking_method. sty_rw. reflexivity. Qed.
Hint Rewrite s_blocking_method : sty. Local Opaque blocking_method.
Lemma s_is_callback_structure_constructible n : forall r, is_callback_structure_constructible n w' r = is_callback_structure_constructible n w r.
Proof.
  induction n as [|n IH]; intros r; cbn [is_callback_structure_constructible]; sty_rw; (apply if_eq; [reflexivity| |reflexivity]);
    (apply bind_r_eq; [apply exists_r_eq; intros m; apply s_blocking_method|]); intros b; (apply if_eq; [reflexivity|reflexivity|]); [reflexivity|].
  apply bind_r_eq; [|reflexivity]. apply exists_r_eq. intros x. destruct (base_record x); [rewrite IH|]; reflexivity.
Qed.
Hint Rewrite s_is_callback_structure_constructible : sty. Local Opaque is_callback_structure_constructible.
Lemma s_callback_candidate M : callback_candidate w' M = callback_candidate w M.
Proof. unfold callback_candidate. sty_rw. reflexivity. Qed.
Hint Rewrite s_callback_candidate : sty. Local Opaque callback_candidate.
Lemma r_overrider_text r m n i : snd (overrider_text w' r m n i) = snd (overrider_text w r m n i).
Proof.
  unfold overrider_text. sty_rw. cbv zeta. destruct (function_arguments_for_py_overload w (fun_ w m)) as [typed names].
  destruct (contains_char "," _); reflexivity.
Qed.
Local Opaque overrider_text.
Local Opaque overrider_text.
Definition same_overriders (a b : list overrider * cb_state) : Prop := map o_method (fst b) = map o_method (fst a) /\ snd b = snd a.
Lemma r_callback_methods r n l : forall st, same_outcome same_overriders (callback_methods w r n l st) (callback_methods w' r n l st).
Proof.
  induction l as [|m l IH]; intros st; cbn [callback_methods]; [split; reflexivity|]. sty_rw. apply so_eq. intros ok. cbv zeta.
  apply so_if; [|apply IH]. apply so_if; [apply IH|]. pose proof (r_overrider_text r m n (cb_ret (mkcb (callback_key w (fun_ w m) :: cb_keys st) (cb_ret st)))) as E.
  destruct (overrider_text w r m n _) as [text i], (overrider_text w' r m n _) as [text' i']. cbn [snd] in E. subst i'.
  apply (so_bind same_overriders); [apply IH|]. intros [os st2] [os' st2'] [E1 E2]. cbn in *. split; cbn; congruence.
Qed.
Local Opaque callback_methods.
Local Opaque callback_methods.
Lemma r_callback_overriders n : forall r name st, same_outcome same_overriders (callback_overriders n w r name st) (callback_overriders n w' r name st).
Proof.
  induction n as [|n IH]; intros r name st; cbn [callback_overriders]; sty_rw; (apply (so_bind same_overriders); [apply r_callback_methods|]); intros [own st1] [own' st1'] [E1 E2];
    cbn [fst snd] in E1, E2; subst st1'.
  - destruct (r_bases (rec_ w r)); [split; [exact E1|reflexivity]|reflexivity].
  - apply (so_bind same_overriders).
    + clear E1. revert st1. induction (r_bases (rec_ w r)) as [|b l IHl]; intros st1; [split; reflexivity|].
      apply (so_bind same_overriders); [apply so_if; [split; reflexivity|]; destruct (base_record b); [apply IH|split; reflexivity]|].
      intros [os st2] [os' st2'] [F1 F2]. cbn [fst snd] in F1, F2. subst st2'. apply (so_bind same_overriders); [apply IHl|].
      intros [os2 st3] [os2' st3'] [G1 G2]. cbn [fst snd] in G1, G2. split; cbn [fst snd]; [rewrite !map_app; congruence|exact G2].
    + intros [os st2] [os' st2'] [F1 F2]. cbn [fst snd] in F1, F2. split; cbn [fst snd]; [rewrite !map_app; congruence|exact F2].
Qed.
Local Opaque callback_overriders.
Local Opaque callback_overriders.
Definition same_included (a b : str * list nat) : Prop := snd b = snd a.
Lemma r_generate_prefix_code r : same_outcome same_included (generate_prefix_code w r) (generate_prefix_code w' r).
Proof.
  unfold generate_prefix_code. cbv zeta. sty_rw. apply (so_bind same_overriders); [apply r_callback_overriders|]. intros [os st] [os' st'] [E1 E2]. exact E1.
Qed.
Local Opaque generate_prefix_code.
Local Opaque generate_prefix_code.
Lemma s_base_default_available n : forall r, base_default_available n w' r = base_default_available n w r.
Proof.
  induction n as [|n IH]; intros r; cbn [base_default_available]; sty_rw; [reflexivity|]. apply bind_r_eq; [|reflexivity]. apply exists_r_eq. intros b.
  destruct (base_record b); [|reflexivity]. cbv zeta. rewrite IH. reflexivity.
Qed.
Hint Rewrite s_base_default_available : sty. Local Opaque base_default_available.
Lemma r_bind_ctor_overload ci T n q : same_outcome same_requests (bind_ctor_overload w ci T n q) (bind_ctor_overload w' ci T n q).
Proof.
  unfold bind_ctor_overload. apply so_if.
  - sty_rw. apply so_eq. intros qs. reflexivity.
  - rewrite f_function_arguments_for_lambda. destruct (function_arguments_for_lambda w T n) as [typed names]. reflexivity.
Qed.
Local Opaque bind_ctor_overload.
Lemma r_bind_constructor ci T : same_outcome same_requests (bind_constructor w ci T) (bind_constructor w' ci T).
Proof.
  unfold bind_constructor. apply so_emit. intros n. apply (so_bind same_requests); [apply r_bind_ctor_overload|]. intros [s q] [s' q'] E. exact E.
Qed.
Local Opaque bind_constructor.
Lemma s_ctor_ok T : ctor_ok w' T = ctor_ok w T.
Proof. unfold ctor_ok. sty_rw. reflexivity. Qed.
Hint Rewrite s_ctor_ok : sty. Local Opaque ctor_ok.
Lemma r_bind_declared_ctor ci T : same_outcome same_requests (bind_declared_ctor w ci T) (bind_declared_ctor w' ci T).
Proof. unfold bind_declared_ctor. apply so_if; [reflexivity|]. apply so_if; [reflexivity|apply r_bind_constructor]. Qed.
Local Opaque bind_declared_ctor.
Lemma r_bind_lifted_ctor ci T : same_outcome same_requests (bind_lifted_ctor w ci T) (bind_lifted_ctor w' ci T).
Proof. unfold bind_lifted_ctor. sty_rw. apply so_if; [reflexivity|]. apply so_if; [reflexivity|]. apply so_if; [reflexivity|apply r_bind_constructor]. Qed.
Local Opaque bind_lifted_ctor.
Lemma r_bind_ctors r ci : same_outcome same_requests (bind_ctors w r ci) (bind_ctors w' r ci).
Proof.
  unfold bind_ctors. sty_rw. rewrite (filter_r_eq (fun t => ctor_ok w' (fun_ w t)) (fun t => ctor_ok w (fun_ w t)) _ (fun t => s_ctor_ok (fun_ w t))).
  apply so_eq. intros own.
  apply (so_bind same_requests); [apply so_emit; intros t; apply r_bind_declared_ctor|]. intros [s1 q1] [s1' q1'] E1.
  apply (so_bind same_requests); [apply so_emit; intros t; apply r_bind_lifted_ctor|]. intros [s2 q2] [s2' q2'] E2.
  cbv zeta. sty_rw. apply so_eq. intros i. unfold same_requests in *. cbn in *. congruence.
Qed.
Local Opaque bind_ctors.
Lemma s_bound_bases C : bound_bases w' C = bound_bases w C.
Proof.
  unfold bound_bases. apply filter_r_eq. intros b. unfold base_ok. apply if_eq; [reflexivity| |reflexivity]. destruct (base_record b); [|reflexivity]. sty_rw. reflexivity.
Qed.
Hint Rewrite s_bound_bases : sty. Local Opaque bound_bases.
Lemma s_bind_repr ops r : bind_repr w' ops r = bind_repr w ops r.
Proof. unfold bind_repr. sty_rw. reflexivity. Qed.
Hint Rewrite s_bind_repr : sty. Local Opaque bind_repr.
Lemma s_bound_nested C : bound_nested w' C = bound_nested w C.
Proof. unfold bound_nested. sty_rw. apply flat_map_eq. intros r. cbv zeta. apply if_eq; [reflexivity|reflexivity|]. sty_rw. reflexivity. Qed.
Hint Rewrite s_bound_nested : sty. Local Opaque bound_nested.
Lemma s_bind_enums l : bind_enums w' l = bind_enums w l.
Proof. induction l as [|x l IH]; cbn [bind_enums]; [reflexivity|]. sty_rw. rewrite IH. reflexivity. Qed.
Hint Rewrite s_bind_enums : sty. Local Opaque bind_enums.

Definition same_bound (a b : cbound) : Prop :=
  cb_incl b = cb_incl a /\ cb_deps b = cb_deps a /\ cb_req b = cb_req a /\ (cb_code b = [] <-> cb_code a = []).
Lemma both_neq (s t : str) : s <> [] -> t <> [] -> (t = [] <-> s = []).
Proof. tauto. Qed.
Lemma bound_mk s s' p p' i d q : s <> [] -> s' <> [] -> same_bound (mkcbound s p i d q) (mkcbound s' p' i d q).
Proof. intros A B. split; [reflexivity|]. split; [reflexivity|]. split; [reflexivity|]. exact (both_neq s s' A B). Qed.
Lemma bind_with_neq v r b : bind_with v r b <> [].
Proof. unfold bind_with. apply app_cons_neq. Qed.
Definition same_heads (a b : str * list nat * list str) : Prop := snd (fst b) = snd (fst a) /\ snd b = snd a.
Definition same_nested (a b : str * str * list str) : Prop := snd b = snd a.
Lemma r_bind_class n : forall ops r, same_outcome same_bound (bind_class n w ops r) (bind_class n w' ops r).
Proof.
  induction n as [|n IH]; intros ops r; cbn [bind_class]; sty_rw;
  (apply so_if; [split; [reflexivity|split; [reflexivity|split; [reflexivity|tauto]]]|]);
  (pose proof (proj1 (proj2 H) (standard_name w (n_qname (r_decl (rec_ w r))))) as HB;
   destruct (lookup _ (maps c Config.binders)) as [b1|], (lookup _ (maps c' Config.binders)) as [b2|];
   [apply bound_mk; apply bind_with_neq|discriminate (proj1 HB eq_refl)|discriminate (proj2 HB eq_refl)|]);
  apply so_eq; intros callback; apply so_eq; intros trampoline;
  (apply (so_bind same_included); [apply so_if; [apply r_generate_prefix_code|reflexivity]|]); intros [prefix0 incl0] [prefix0' incl0'] E0;
  unfold same_included in E0; cbn [snd] in E0; subst incl0'; cbv zeta;
  apply so_eq; intros hold; apply so_eq; intros local;
  (apply (so_bind same_heads); [apply so_if; [apply so_eq; intros bs; rewrite s_request_types; apply so_eq; intros q; split; reflexivity|split; reflexivity]|]);
  intros [[head deps] q0] [[head' deps'] q0'] [E1 E2]; cbn [fst snd] in E1, E2; subst deps' q0';
  (apply (so_bind same_requests); [apply so_if; [apply r_bind_ctors|reflexivity]|]); intros [s1 q1] [s1' q1'] E1; unfold same_requests in E1; cbn [snd] in E1; subst q1';
  apply so_eq; intros s2;
  (apply (so_bind same_requests); [apply r_binding_public_member_functions|]); intros [s3 q3] [s3' q3'] E3; unfold same_requests in E3; cbn [snd] in E3; subst q3';
  (apply (so_bind same_requests); [apply r_binding_template_bases|]); intros [s4 q4] [s4' q4'] E4; unfold same_requests in E4; cbn [snd] in E4; subst q4';
  destruct (bind_repr w ops r) as [s5 incl5];
  (apply (so_bind same_nested); [|intros [[s7 p7] q7] [[s7' p7'] q7'] E7; unfold same_nested in E7; cbn [snd] in E7; subst q7';
     apply bound_mk; apply indent_nonempty, brace_neq]).
  - apply so_refl. intros a. reflexivity.
  - destruct (bound_nested w (rec_ w r)) as [|x l]; [reflexivity|].
    assert (Z : forall l, same_outcome same_nested
                 ((fix over (l : list nat) : result (str * str * list str) :=
                   match l with
                   | [] => Ok ([], [], [])
                   | i :: l' => do b <- bind_class n w ops i; do (s, p, q) <- over l'; Ok (cb_code b ++ [nl] ++ s, cb_prefix b ++ p, cb_req b ++ q)
                   end) l)
                 ((fix over (l : list nat) : result (str * str * list str) :=
                   match l with
                   | [] => Ok ([], [], [])
                   | i :: l' => do b <- bind_class n w' ops i; do (s, p, q) <- over l'; Ok (cb_code b ++ [nl] ++ s, cb_prefix b ++ p, cb_req b ++ q)
                   end) l)).
    { clear -IH. induction l as [|i l IHl]; [reflexivity|].
      apply (so_bind same_bound); [apply IH|]. intros b b' (_&_&B&_).
      apply (so_bind same_nested); [exact IHl|]. intros [[s p] q] [[s' p'] q'] E. unfold same_outcome, same_nested in *. cbn [snd] in *. congruence. }
    apply (Z (x :: l)).
Qed.
Local Opaque bind_class.

(** ** Items *)
Lemma r_generate_code ops d : same_outcome same_bound (generate_code w ops d) (generate_code w' ops d).
Proof.
  destruct d as [f|r|i]; cbn [generate_code]; sty_rw.
  - assert (K : same_outcome (fun a b => snd b = snd a /\ fst a <> [] /\ fst b <> []) (bind_fun w (fun_ w f)) (bind_fun w' (fun_ w f))).
    { pose proof (r_bind_fun (fun_ w f)) as K.
      Local Transparent bind_fun. unfold bind_fun in *. Local Opaque bind_fun.
      destruct (bind_function w _ _ _ _) as [[s q]| | | |], (bind_function w' _ _ _ _) as [[s' q']| | | |]; cbn in K |- *; try contradiction; try exact K.
      split; [exact K|]. split; discriminate. }
    apply (so_bind _ same_bound _ _ _ _ K). intros [s q] [s' q'] (E&A&B). cbn [fst snd] in *. subst q'. apply bound_mk; assumption.
  - apply r_bind_class.
  - Local Transparent bind_enum_binder. unfold bind_enum_binder. Local Opaque bind_enum_binder. sty_rw.
    destruct (bind_enum w _ _) as [s| | | |]; try reflexivity. apply bound_mk; discriminate.
Qed.
Local Opaque generate_code.

End Same.
