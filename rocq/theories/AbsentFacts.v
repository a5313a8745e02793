(** Settings that say the same about the program give the same results. *)
From Coq Require Import Ascii String Bool Arith NArith.
From Coq Require Import List.
From Verif Require Import Str StrFacts SpecUtil Util Config SpecConfig ConfigFacts Ast Types Func Enum Includes Class Context SpecContext SettingsFacts SettingsRun IncludesFacts LinesFacts SpecAbsent.
Import ListNotations.

Section Absent.
Variables (e : env) (o : options) (c c' : config).
Local Notation w := (mkworld e c o).
Local Notation w' := (mkworld e c' o).
Hypothesis H : same_for_program w c c'.

Lemma q_in k v : concerns w k v -> mem v (lists c' k) = mem v (lists c k).
Proof. intros C. apply mem_eq. exact (proj1 H k v C). Qed.
Lemma q_map k x : concerns_key w k x -> lookup x (maps c' k) = lookup x (maps c k).
Proof. exact (proj1 (proj2 (proj2 H)) k x). Qed.
Lemma q_vec k x : concerns_include w k x ->
  match lookup x (vecs c' k) with Some l => l | None => [] end = match lookup x (vecs c k) with Some l => l | None => [] end.
Proof. exact (proj1 (proj2 (proj2 (proj2 H))) k x). Qed.
Lemma q_str k : strs c' k = strs c k.
Proof. apply H. Qed.
Lemma q_add : lists c' includes_to_add = lists c includes_to_add.
Proof. apply H. Qed.
Lemma q_bind ns : in_namespace w ns -> is_namespace_binding_requested c' ns = is_namespace_binding_requested c ns.
Proof.
  intros I. apply namespace_relevant; intros v P; apply (proj1 H); exists ns; split; assumption.
Qed.
Lemma q_skip ns : in_namespace w ns -> is_namespace_skipping_requested c' ns = is_namespace_skipping_requested c ns.
Proof.
  intros I. apply namespace_relevant; intros v P; apply (proj1 H); exists ns; split; assumption.
Qed.
Lemma q_local ns : in_namespace w ns -> is_module_local_requested c' ns = is_module_local_requested c ns.
Proof.
  intros I. unfold is_module_local_requested. rewrite !q_in; [reflexivity| | |]; cbn; auto.
Qed.
Lemma in_r r : in_namespace w (namespace_from_named_decl w (r_decl (rec_ w r))). Proof. exact (InNamespace w (DRec r)). Qed.
Lemma in_f f : in_namespace w (namespace_from_named_decl w (f_decl (fun_ w f))). Proof. exact (InNamespace w (DFun f)). Qed.
Lemma in_e n : in_namespace w (namespace_from_named_decl w (e_decl (enum_ w n))). Proof. exact (InNamespace w (DEnum n)). Qed.
Lemma in_d d : in_namespace w (namespace_from_named_decl w (named_of e d)). Proof. exact (InNamespace w d). Qed.

Lemma l_opt : wopt w' = wopt w. Proof. reflexivity. Qed.
Lemma l_env : wenv w' = wenv w. Proof. reflexivity. Qed.
Lemma l_cfg : wcfg w' = c'. Proof. reflexivity. Qed.
Lemma l_cfg0 : wcfg w = c. Proof. reflexivity. Qed.
Lemma l_fun f : fun_ w' f = fun_ w f. Proof. reflexivity. Qed.
Lemma l_enum f : enum_ w' f = enum_ w f. Proof. reflexivity. Qed.
Lemma l_rec r : rec_ w' r = rec_ w r. Proof. reflexivity. Qed.

Local Opaque standard_name class_qualified_name namespace_from_named_decl function_qualified_name.
(** The questions asked about declarations. *)
Lemma q_class_bind n : class_in w n -> is_class_binding_requested c' n = is_class_binding_requested c n.
Proof. intros K. unfold is_class_binding_requested. apply q_in. exists n. split; [exact K|reflexivity]. Qed.
Lemma q_class_skip n : class_in w n -> is_class_skipping_requested c' n = is_class_skipping_requested c n.
Proof. intros K. unfold is_class_skipping_requested. apply q_in. exists n. split; [exact K|reflexivity]. Qed.
Lemma q_buffer n : plain_class w n -> is_buffer_protocol_requested c' n = is_buffer_protocol_requested c n.
Proof. intros K. unfold is_buffer_protocol_requested. apply q_in. exists n. split; [exact K|reflexivity]. Qed.
Lemma q_smart n : plain_class w n -> is_smart_holder_requested c' n = is_smart_holder_requested c n.
Proof. intros K. unfold is_smart_holder_requested. apply q_in. exists n. split; [exact K|reflexivity]. Qed.
Lemma n_bind_r r : is_namespace_binding_requested c' (namespace_from_named_decl w (r_decl (rec_ w r))) = is_namespace_binding_requested c (namespace_from_named_decl w (r_decl (rec_ w r))).
Proof. apply q_bind. apply in_r. Qed.
Lemma n_bind_f r : is_namespace_binding_requested c' (namespace_from_named_decl w (f_decl (fun_ w r))) = is_namespace_binding_requested c (namespace_from_named_decl w (f_decl (fun_ w r))).
Proof. apply q_bind. apply in_f. Qed.
Lemma n_bind_e r : is_namespace_binding_requested c' (namespace_from_named_decl w (e_decl (enum_ w r))) = is_namespace_binding_requested c (namespace_from_named_decl w (e_decl (enum_ w r))).
Proof. apply q_bind. apply in_e. Qed.
Lemma n_skip_r r : is_namespace_skipping_requested c' (namespace_from_named_decl w (r_decl (rec_ w r))) = is_namespace_skipping_requested c (namespace_from_named_decl w (r_decl (rec_ w r))).
Proof. apply q_skip, in_r. Qed.
Lemma n_skip_f r : is_namespace_skipping_requested c' (namespace_from_named_decl w (f_decl (fun_ w r))) = is_namespace_skipping_requested c (namespace_from_named_decl w (f_decl (fun_ w r))).
Proof. apply q_skip, in_f. Qed.
Lemma n_skip_e r : is_namespace_skipping_requested c' (namespace_from_named_decl w (e_decl (enum_ w r))) = is_namespace_skipping_requested c (namespace_from_named_decl w (e_decl (enum_ w r))).
Proof. apply q_skip, in_e. Qed.
Lemma n_local_r r : is_module_local_requested c' (namespace_from_named_decl w (r_decl (rec_ w r))) = is_module_local_requested c (namespace_from_named_decl w (r_decl (rec_ w r))).
Proof. apply q_local, in_r. Qed.
Lemma n_local_e r : is_module_local_requested c' (namespace_from_named_decl w (e_decl (enum_ w r))) = is_module_local_requested c (namespace_from_named_decl w (e_decl (enum_ w r))).
Proof. apply q_local, in_e. Qed.
Lemma c_bind_q r : is_class_binding_requested c' (class_qualified_name w r) = is_class_binding_requested c (class_qualified_name w r).
Proof. apply q_class_bind, ClassWithArguments. Qed.
Lemma c_skip_q r : is_class_skipping_requested c' (class_qualified_name w r) = is_class_skipping_requested c (class_qualified_name w r).
Proof. apply q_class_skip, ClassWithArguments. Qed.
Lemma c_bind_p r : is_class_binding_requested c' (standard_name w (n_qname (r_decl (rec_ w r)))) = is_class_binding_requested c (standard_name w (n_qname (r_decl (rec_ w r)))).
Proof. apply q_class_bind, ClassPlain, PlainClass. Qed.
Lemma c_skip_p r : is_class_skipping_requested c' (standard_name w (n_qname (r_decl (rec_ w r)))) = is_class_skipping_requested c (standard_name w (n_qname (r_decl (rec_ w r)))).
Proof. apply q_class_skip, ClassPlain, PlainClass. Qed.
Lemma c_buffer r : is_buffer_protocol_requested c' (standard_name w (n_qname (r_decl (rec_ w r)))) = is_buffer_protocol_requested c (standard_name w (n_qname (r_decl (rec_ w r)))).
Proof. apply q_buffer, PlainClass. Qed.
Lemma c_smart r : is_smart_holder_requested c' (standard_name w (n_qname (r_decl (rec_ w r)))) = is_smart_holder_requested c (standard_name w (n_qname (r_decl (rec_ w r)))).
Proof. apply q_smart, PlainClass. Qed.
Lemma f_bind n : function_in w n -> is_function_binding_requested c' n = is_function_binding_requested c n.
Proof. intros K. unfold is_function_binding_requested. apply q_in. exists n. split; [exact K|reflexivity]. Qed.
Lemma f_skip n : function_in w n -> is_function_skipping_requested c' n = is_function_skipping_requested c n.
Proof. intros K. unfold is_function_skipping_requested. apply q_in. exists n. split; [exact K|reflexivity]. Qed.
Lemma f_bind1 f : is_function_binding_requested c' (n_qname (f_decl (fun_ w f))) = is_function_binding_requested c (n_qname (f_decl (fun_ w f))).
Proof. apply f_bind, FunPlain. Qed.
Lemma f_bind2 f : is_function_binding_requested c' (function_qualified_name w (fun_ w f) true) = is_function_binding_requested c (function_qualified_name w (fun_ w f) true).
Proof. apply f_bind, FunFull. Qed.
Lemma f_bind3 f : is_function_binding_requested c' (standard_name w (n_qname (f_decl (fun_ w f)))) = is_function_binding_requested c (standard_name w (n_qname (f_decl (fun_ w f)))).
Proof. apply f_bind, FunStandard. Qed.
Lemma f_skip2 f : is_function_skipping_requested c' (function_qualified_name w (fun_ w f) true) = is_function_skipping_requested c (function_qualified_name w (fun_ w f) true).
Proof. apply f_skip, FunFull. Qed.
Lemma f_skip3 f : is_function_skipping_requested c' (standard_name w (n_qname (f_decl (fun_ w f)))) = is_function_skipping_requested c (standard_name w (n_qname (f_decl (fun_ w f)))).
Proof. apply f_skip, FunStandard. Qed.
Lemma f_skip4 f : is_function_skipping_requested c' (standard_name w (n_qname (r_decl (rec_ w (parent_of (fun_ w f)))) ++ $"::" ++ n_name (f_decl (fun_ w f)))) =
  is_function_skipping_requested c (standard_name w (n_qname (r_decl (rec_ w (parent_of (fun_ w f)))) ++ $"::" ++ n_name (f_decl (fun_ w f)))).
Proof. apply f_skip, FunOfTemplate. Qed.
Lemma f_skip5 r : is_function_skipping_requested c' (class_qualified_name w r ++ $"::__str__") = is_function_skipping_requested c (class_qualified_name w r ++ $"::__str__").
Proof. apply f_skip, FunStr. Qed.
Lemma f_skip6 r : is_function_skipping_requested c' (standard_name w (n_qname (r_decl (rec_ w r)) ++ $"::__str__")) = is_function_skipping_requested c (standard_name w (n_qname (r_decl (rec_ w r)) ++ $"::__str__")).
Proof. apply f_skip, FunStrPlain. Qed.
Lemma e_bind n : is_enum_binding_requested c' (n_qname (e_decl (enum_ w n))) = is_enum_binding_requested c (n_qname (e_decl (enum_ w n))).
Proof. unfold is_enum_binding_requested. apply q_in. exists n. left. reflexivity. Qed.
Lemma e_skip n : is_enum_skipping_requested c' (n_qname (e_decl (enum_ w n))) = is_enum_skipping_requested c (n_qname (e_decl (enum_ w n))).
Proof. unfold is_enum_skipping_requested. apply q_in. exists n. left. reflexivity. Qed.
Lemma e_bind2 n : is_enum_binding_requested c' (standard_name w (n_qname (e_decl (enum_ w n)))) = is_enum_binding_requested c (standard_name w (n_qname (e_decl (enum_ w n)))).
Proof. unfold is_enum_binding_requested. apply q_in. exists n. right. reflexivity. Qed.
Lemma e_skip2 n : is_enum_skipping_requested c' (standard_name w (n_qname (e_decl (enum_ w n)))) = is_enum_skipping_requested c (standard_name w (n_qname (e_decl (enum_ w n)))).
Proof. unfold is_enum_skipping_requested. apply q_in. exists n. right. reflexivity. Qed.
Lemma m_custom r m : is_custom_trampoline_function_requested c'
    ((match namespace_from_named_decl w (r_decl (rec_ w r)) with [] => [] | _ => namespace_from_named_decl w (r_decl (rec_ w r)) ++ $"::" end) ++ n_name (r_decl (rec_ w r)) ++ $"::" ++ n_name (f_decl (fun_ w m))) =
  is_custom_trampoline_function_requested c
    ((match namespace_from_named_decl w (r_decl (rec_ w r)) with [] => [] | _ => namespace_from_named_decl w (r_decl (rec_ w r)) ++ $"::" end) ++ n_name (r_decl (rec_ w r)) ++ $"::" ++ n_name (f_decl (fun_ w m))).
Proof.
  unfold is_custom_trampoline_function_requested. rewrite q_map; [reflexivity|]. cbn [concerns_key].
  pose proof (MethodIn w r m) as K. destruct (namespace_from_named_decl w (r_decl (rec_ w r))); exact K.
Qed.
Lemma m_binder r : lookup (standard_name w (n_qname (r_decl (rec_ w r)))) (maps c' binders) = lookup (standard_name w (n_qname (r_decl (rec_ w r)))) (maps c binders).
Proof. apply q_map, PlainClass. Qed.
Lemma m_add_on r : lookup (standard_name w (n_qname (r_decl (rec_ w r)))) (maps c' add_on_binders) = lookup (standard_name w (n_qname (r_decl (rec_ w r)))) (maps c add_on_binders).
Proof. apply q_map, PlainClass. Qed.
Lemma v_class r : match lookup (standard_name w (n_qname (r_decl (rec_ w r)))) (vecs c' class_includes) with Some l => l | None => [] end =
  match lookup (standard_name w (n_qname (r_decl (rec_ w r)))) (vecs c class_includes) with Some l => l | None => [] end.
Proof. apply q_vec, PlainClass. Qed.
Lemma i_skip i : is_include_skipping_requested c' i = is_include_skipping_requested c i.
Proof.
  unfold is_include_skipping_requested. apply Bool.eq_iff_eq_true. rewrite !existsb_exists. split; intros (v & I & B); exists v; split; try exact B; apply (proj1 H includes_to_skip v Logic.I); exact I.
Qed.
Lemma i_code b : includes_code c' b = includes_code c b.
Proof. unfold includes_code. rewrite q_add. reflexivity. Qed.
Lemma b_name d : builtin_name w' (standard_name w (n_qname (named_of e d))) = builtin_name w (standard_name w (n_qname (named_of e d))).
Proof.
  unfold builtin_name. cbn [wcfg wopt]. rewrite q_str, !q_in; [reflexivity| |]; exists d; reflexivity.
Qed.
Local Transparent standard_name class_qualified_name namespace_from_named_decl function_qualified_name.
Local Opaque rec_ fun_ enum_ named_of.
Ltac norm := idtac.
Ltac congr := match goal with
  | |- bind_r _ _ = bind_r _ _ => apply bind_r_eq; [|intros ?]
  | |- (if _ then _ else _) = _ => apply if_eq
  | |- filter_r _ _ = _ => apply filter_r_eq; intros ?
  | |- exists_r _ _ = _ => apply exists_r_eq; intros ?
  | |- existsb _ _ = _ => apply existsb_eq; intros ?
  | |- forallb _ _ = _ => apply forallb_eq; intros ?
  | |- filter _ _ = _ => apply filter_eq; intros ?
  | |- flat_map _ _ = _ => apply flat_map_eq; intros ?
  | |- map_r _ _ = _ => apply map_r_eq; intros ?
  | |- map _ _ = _ => apply map_ext; intros ?
  | |- (match ?y with _ => _ end) = _ => destruct y
  | |- ?f ?a = ?g ?b => first [constr_eq f g; apply (f_equal f) | constr_eq a b; apply (head_eq a) | apply app_eq]
  end.
Ltac same := match goal with |- ?a = ?b => constr_eq a b; reflexivity end.
Ltac go := intros; cbv beta zeta; norm; first [same | congr; go | reflexivity].
Ltac goh H := intros; cbv beta zeta; norm; rewrite ?H; first [same | congr; goh H | reflexivity].

(** ** Ast *)
Ltac norm ::= repeat progress rewrite ?l_rec.
Lemma w_rec_type : rec_type w' = rec_type w.
Proof. unfold rec_type. norm. reflexivity. Qed.
Local Opaque rec_type.

(** ** Types *)
Ltac norm ::= repeat progress rewrite ?l_env.
Lemma w_standard_name : standard_name w' = standard_name w.
Proof. unfold standard_name. norm. reflexivity. Qed.
Local Opaque standard_name.
Ltac norm ::= repeat progress rewrite ?l_env, ?w_standard_name.
Lemma w_standard_name_q : standard_name_q w' = standard_name_q w.
Proof. unfold standard_name_q. norm. reflexivity. Qed.
Local Opaque standard_name_q.
Ltac norm ::= repeat progress rewrite ?w_standard_name.
Lemma w_namespace_from_named_decl : namespace_from_named_decl w' = namespace_from_named_decl w.
Proof. unfold namespace_from_named_decl. norm. reflexivity. Qed.
Local Opaque namespace_from_named_decl.
Ltac norm ::= repeat progress rewrite ?l_env, ?w_rec_type, ?w_standard_name.
Lemma w_typename_from_rec : typename_from_rec w' = typename_from_rec w.
Proof. unfold typename_from_rec. norm. reflexivity. Qed.
Local Opaque typename_from_rec.
Ltac norm ::= repeat progress rewrite ?l_env, ?w_standard_name.
Lemma w_typename_from_enum : typename_from_enum w' = typename_from_enum w.
Proof. unfold typename_from_enum. norm. reflexivity. Qed.
Local Opaque typename_from_enum.
Ltac norm ::= repeat progress rewrite ?l_opt.
Lemma w_line_number : line_number w' = line_number w.
Proof. unfold line_number. norm. reflexivity. Qed.
Local Opaque line_number.
Ltac norm ::= repeat progress rewrite ?w_line_number, ?w_standard_name.
Lemma w_generate_comment_for_declaration : generate_comment_for_declaration w' = generate_comment_for_declaration w.
Proof. unfold generate_comment_for_declaration. norm. reflexivity. Qed.
Local Opaque generate_comment_for_declaration.
Ltac norm ::= repeat progress rewrite ?l_rec.
Lemma w_qname_of_parent : qname_of_parent w' = qname_of_parent w.
Proof. unfold qname_of_parent. norm. reflexivity. Qed.
Local Opaque qname_of_parent.
Ltac norm ::= repeat progress rewrite ?l_fun, ?l_rec, ?l_env, ?w_qname_of_parent.
Lemma w_include_name : include_name w' = include_name w.
Proof. unfold include_name. norm. reflexivity. Qed.
Local Opaque include_name.
Ltac norm ::= repeat progress rewrite ?l_opt, ?l_env, ?w_include_name, ?w_standard_name.
Lemma w_add_relevant_include_for_decl : add_relevant_include_for_decl w' = add_relevant_include_for_decl w.
Proof. unfold add_relevant_include_for_decl. norm. reflexivity. Qed.
Local Opaque add_relevant_include_for_decl.
Ltac norm ::= repeat progress rewrite ?w_standard_name.
Lemma l_is_python_builtin d : is_python_builtin w' (named_of e d) = is_python_builtin w (named_of e d).
Proof. unfold is_python_builtin. rewrite w_standard_name. apply b_name. Qed.
Lemma l_is_python_builtin_r r : is_python_builtin w' (r_decl (rec_ w r)) = is_python_builtin w (r_decl (rec_ w r)).
Proof. assert (D : r_decl (rec_ w r) = named_of e (DRec r)) by reflexivity. rewrite D. apply l_is_python_builtin. Qed.
Local Opaque is_python_builtin.
Ltac norm ::= repeat progress rewrite ?w_standard_name.
Lemma w_is_banned_symbol : is_banned_symbol w' = is_banned_symbol w.
Proof. unfold is_banned_symbol. norm. reflexivity. Qed.
Local Opaque is_banned_symbol.
Ltac norm ::= repeat progress rewrite ?l_rec, ?w_standard_name.
Lemma w_class_qualified_name : class_qualified_name w' = class_qualified_name w.
Proof. unfold class_qualified_name. norm. reflexivity. Qed.
Local Opaque class_qualified_name.
Ltac norm ::= repeat progress rewrite ?l_rec, ?l_env, ?w_namespace_from_named_decl, ?w_standard_name.
Lemma w_class_name : class_name w' = class_name w.
Proof. unfold class_name. norm. reflexivity. Qed.
Local Opaque class_name.
Ltac norm ::= repeat progress rewrite ?w_class_name.
Lemma w_python_class_name : python_class_name w' = python_class_name w.
Proof. unfold python_class_name. norm. reflexivity. Qed.
Local Opaque python_class_name.
Ltac norm ::= repeat progress rewrite ?l_rec, ?w_is_banned_symbol, ?l_is_python_builtin, ?l_is_python_builtin_r.
Lemma l_rec_bindable_raw r std_function_ok : rec_bindable_raw w' r std_function_ok = rec_bindable_raw w r std_function_ok.
Proof. unfold rec_bindable_raw. go. Qed.
Local Opaque rec_bindable_raw.
Ltac norm ::= repeat progress rewrite ?l_enum, ?l_rec, ?l_env, ?l_rec_bindable_raw, ?w_standard_name.
Fixpoint l_bindable_type s t {struct t} : bindable_type w' s t = bindable_type w s t.
Proof.
  destruct t as [| b p | p | p | | | b r args | | b n p |]; cbn [bindable_type]; norm; try reflexivity; rewrite ?l_bindable_type; try reflexivity.
  f_equal. f_equal. f_equal.
  induction args as [|a args IH]; cbn [forallb]; [reflexivity|]. f_equal; [|exact IH].
  destruct a as [k text]. destruct k as [t|t|d|d [[ret ps]|]|n|]; try reflexivity.
  rewrite l_bindable_type. f_equal. induction ps as [|p ps IHps]; cbn [forallb]; [reflexivity|]. rewrite l_bindable_type. f_equal. exact IHps.
Qed.
Local Opaque bindable_type.
Ltac norm ::= repeat progress rewrite ?l_bindable_type.
Lemma l_is_bindable_q t : is_bindable_q w' t = is_bindable_q w t.
Proof. unfold is_bindable_q. go. Qed.
Local Opaque is_bindable_q.
Ltac norm ::= repeat progress rewrite ?l_bindable_type.
Lemma l_is_std_function_bindable args : is_std_function_bindable w' args = is_std_function_bindable w args.
Proof. unfold is_std_function_bindable. go. Qed.
Local Opaque is_std_function_bindable.
Ltac norm ::= repeat progress rewrite ?l_rec, ?l_is_std_function_bindable, ?l_rec_bindable_raw.
Lemma l_is_bindable_rec r : is_bindable_rec w' r = is_bindable_rec w r.
Proof. unfold is_bindable_rec. go. Qed.
Local Opaque is_bindable_rec.
Ltac norm ::= repeat progress rewrite ?l_rec, ?l_cfg, ?l_cfg0, ?w_class_qualified_name, ?w_namespace_from_named_decl, ?w_standard_name, ?n_skip_r, ?n_skip_f, ?n_skip_e, ?c_bind_q, ?c_bind_p, ?c_skip_q, ?c_skip_p.
Lemma l_skip_rec_with r deps : skip_rec_with w' r deps = skip_rec_with w r deps.
Proof. unfold skip_rec_with. go. Qed.
Local Opaque skip_rec_with.
Ltac norm ::= repeat progress rewrite ?l_skip_rec_with.
Fixpoint l_skip_type s t {struct t} : skip_type w' s t = skip_type w s t.
Proof.
  destruct t as [| b p | p | p | | | b r args | | b n p |]; cbn [skip_type]; norm; try reflexivity; try (rewrite l_skip_type; reflexivity).
  f_equal. induction args as [|[k text] args IH]; cbn [flat_map]; [reflexivity|]. f_equal; [|exact IH].
  destruct k; try reflexivity. rewrite l_skip_type. reflexivity.
Qed.
Local Opaque skip_type.
Ltac norm ::= repeat progress rewrite ?l_skip_type.
Lemma l_is_skipping_requested_q t : is_skipping_requested_q w' t = is_skipping_requested_q w t.
Proof. unfold is_skipping_requested_q. go. Qed.
Local Opaque is_skipping_requested_q.
Ltac norm ::= repeat progress rewrite ?l_rec, ?l_is_skipping_requested_q, ?l_skip_rec_with.
Lemma l_is_skipping_requested_rec r : is_skipping_requested_rec w' r = is_skipping_requested_rec w r.
Proof. unfold is_skipping_requested_rec. go. Qed.
Local Opaque is_skipping_requested_rec.
Ltac norm ::= repeat progress rewrite ?l_rec, ?l_cfg, ?l_cfg0, ?l_opt, ?w_class_qualified_name, ?l_is_skipping_requested_q, ?w_namespace_from_named_decl, ?w_standard_name, ?n_bind_r, ?n_bind_f, ?n_bind_e, ?c_bind_q, ?c_bind_p.
Lemma l_is_binding_requested_rec r : is_binding_requested_rec w' r = is_binding_requested_rec w r.
Proof. unfold is_binding_requested_rec. go. Qed.
Local Opaque is_binding_requested_rec.
Ltac norm ::= repeat progress rewrite ?l_is_binding_requested_rec.
Lemma l_bind_type s t : bind_type w' s t = bind_type w s t.
Proof. revert s. induction t; intros s; cbn [bind_type]; norm; try reflexivity; try (destruct s; [reflexivity|]); auto. Qed.
Local Opaque bind_type.
Ltac norm ::= repeat progress rewrite ?l_bind_type.
Lemma l_is_binding_requested_q t : is_binding_requested_q w' t = is_binding_requested_q w t.
Proof. unfold is_binding_requested_q. go. Qed.
Local Opaque is_binding_requested_q.
Ltac norm ::= repeat progress rewrite ?l_enum, ?l_rec, ?w_typename_from_enum, ?w_typename_from_rec.
Lemma w_request_name : request_name w' = request_name w.
Proof. unfold request_name. norm. reflexivity. Qed.
Local Opaque request_name.
Ltac norm ::= repeat progress rewrite ?l_is_skipping_requested_q, ?w_request_name.
Lemma l_request_type t : request_type w' t = request_type w t.
Proof. induction t; cbn [request_type]; try (goh IHt); go. Qed.
Local Opaque request_type.

(** ** Func *)
Ltac norm ::= repeat progress rewrite ?w_standard_name_q.
Lemma w_function_arguments : function_arguments w' = function_arguments w.
Proof. unfold function_arguments. norm. reflexivity. Qed.
Local Opaque function_arguments.
Ltac norm ::= repeat progress rewrite ?w_standard_name_q.
Lemma w_lambda_param : lambda_param w' = lambda_param w.
Proof. unfold lambda_param. norm. reflexivity. Qed.
Local Opaque lambda_param.
Ltac norm ::= repeat progress rewrite ?w_lambda_param.
Lemma w_function_arguments_for_lambda : function_arguments_for_lambda w' = function_arguments_for_lambda w.
Proof. unfold function_arguments_for_lambda. norm. reflexivity. Qed.
Local Opaque function_arguments_for_lambda.
Ltac norm ::= repeat progress rewrite ?w_standard_name_q.
Lemma w_function_arguments_for_py_overload : function_arguments_for_py_overload w' = function_arguments_for_py_overload w.
Proof. unfold function_arguments_for_py_overload. norm. reflexivity. Qed.
Local Opaque function_arguments_for_py_overload.
Ltac norm ::= repeat progress rewrite ?w_standard_name.
Lemma w_fun_specialization : fun_specialization w' = fun_specialization w.
Proof. unfold fun_specialization. norm. reflexivity. Qed.
Local Opaque fun_specialization.
Ltac norm ::= repeat progress rewrite ?w_class_qualified_name, ?w_function_arguments, ?w_standard_name_q.
Lemma w_function_pointer_type : function_pointer_type w' = function_pointer_type w.
Proof. unfold function_pointer_type. norm. reflexivity. Qed.
Local Opaque function_pointer_type.
Ltac norm ::= repeat progress rewrite ?w_fun_specialization, ?w_function_arguments, ?w_standard_name, ?w_standard_name_q.
Lemma w_function_qualified_name : function_qualified_name w' = function_qualified_name w.
Proof. unfold function_qualified_name. norm. reflexivity. Qed.
Local Opaque function_qualified_name.
Ltac norm ::= repeat progress rewrite ?l_cfg, ?l_cfg0, ?w_function_qualified_name, ?l_is_binding_requested_q, ?w_namespace_from_named_decl, ?n_bind_r, ?n_bind_f, ?n_bind_e, ?f_bind1, ?f_bind2, ?f_bind3.
Lemma l_is_binding_requested_fun F : is_binding_requested_fun w' (fun_ w F) = is_binding_requested_fun w (fun_ w F).
Proof. unfold is_binding_requested_fun. go. Qed.
Local Opaque is_binding_requested_fun.
Ltac norm ::= repeat progress rewrite ?l_rec, ?l_cfg, ?l_cfg0, ?w_function_qualified_name, ?l_is_skipping_requested_q, ?w_namespace_from_named_decl, ?w_standard_name, ?n_skip_r, ?n_skip_f, ?n_skip_e, ?f_bind1, ?f_bind2, ?f_bind3, ?f_skip2, ?f_skip3, ?f_skip4, ?f_skip5, ?f_skip6.
Lemma l_is_skipping_requested_fun F : is_skipping_requested_fun w' (fun_ w F) = is_skipping_requested_fun w (fun_ w F).
Proof. unfold is_skipping_requested_fun. go. Qed.
Local Opaque is_skipping_requested_fun.
Ltac norm ::= repeat progress rewrite ?w_standard_name_q.
Lemma w_lambda_return_type : lambda_return_type w' = lambda_return_type w.
Proof. unfold lambda_return_type. norm. reflexivity. Qed.
Local Opaque lambda_return_type.
Ltac norm ::= repeat progress rewrite ?l_cfg, ?l_cfg0, ?q_str.
Lemma l_return_policy F : return_policy w' (fun_ w F) = return_policy w (fun_ w F).
Proof. unfold return_policy. go. Qed.
Local Opaque return_policy.
Ltac norm ::= repeat progress rewrite ?l_request_type.
Lemma l_request_types l : request_types w' l = request_types w l.
Proof. induction l as [|t l IH]; cbn [request_types]; [reflexivity|]. norm. rewrite IH. reflexivity. Qed.
Local Opaque request_types.
Ltac norm ::= repeat progress rewrite ?w_class_qualified_name, ?w_standard_name.
Lemma w_bound_name : bound_name w' = bound_name w.
Proof. unfold bound_name. norm. reflexivity. Qed.
Local Opaque bound_name.
Ltac norm ::= repeat progress rewrite ?w_bound_name, ?w_class_qualified_name, ?w_fun_specialization, ?w_function_arguments, ?w_function_arguments_for_lambda, ?w_function_pointer_type, ?w_lambda_return_type, ?w_standard_name, ?w_standard_name_q.
Lemma w_function_expression : function_expression w' = function_expression w.
Proof. unfold function_expression. norm. reflexivity. Qed.
Local Opaque function_expression.
Ltac norm ::= repeat progress rewrite ?l_cfg, ?l_cfg0, ?w_function_expression, ?l_request_types, ?l_return_policy, ?q_str.
Lemma l_bind_overload F args_to_bind request parent always_use_lambda : bind_overload w' (fun_ w F) args_to_bind request parent always_use_lambda = bind_overload w (fun_ w F) args_to_bind request parent always_use_lambda.
Proof. unfold bind_overload. go. Qed.
Local Opaque bind_overload.
Ltac norm ::= repeat progress rewrite ?l_opt, ?w_function_arguments, ?w_function_qualified_name, ?w_line_number.
Lemma w_annotation : annotation w' = annotation w.
Proof. unfold annotation. norm. reflexivity. Qed.
Local Opaque annotation.
Ltac norm ::= repeat progress rewrite ?w_annotation, ?l_bind_overload.
Lemma l_bind_function module F parent always_use_lambda : bind_function w' module (fun_ w F) parent always_use_lambda = bind_function w module (fun_ w F) parent always_use_lambda.
Proof. unfold bind_function. go. Qed.
Local Opaque bind_function.
Ltac norm ::= repeat progress rewrite ?w_function_qualified_name.
Lemma w_fun_id : fun_id w' = fun_id w.
Proof. unfold fun_id. norm. reflexivity. Qed.
Local Opaque fun_id.
Ltac norm ::= repeat progress rewrite ?w_is_banned_symbol, ?l_is_bindable_q.
Lemma l_is_bindable_fun F : is_bindable_fun w' (fun_ w F) = is_bindable_fun w (fun_ w F).
Proof. unfold is_bindable_fun. go. Qed.
Local Opaque is_bindable_fun.
Ltac norm ::= repeat progress rewrite ?l_bind_function, ?w_function_arguments, ?w_line_number, ?w_namespace_from_named_decl.
Lemma l_bind_fun F : bind_fun w' (fun_ w F) = bind_fun w (fun_ w F).
Proof. unfold bind_fun. go. Qed.
Local Opaque bind_fun.

(** ** Enum *)
Ltac norm ::= repeat progress rewrite ?l_cfg, ?l_cfg0, ?w_namespace_from_named_decl, ?n_bind_r, ?n_bind_f, ?n_bind_e, ?e_bind, ?e_bind2.
Lemma l_is_binding_requested_enum e0 : is_binding_requested_enum w' (enum_ w e0) = is_binding_requested_enum w (enum_ w e0).
Proof. unfold is_binding_requested_enum. go. Qed.
Local Opaque is_binding_requested_enum.
Ltac norm ::= repeat progress rewrite ?l_cfg, ?l_cfg0, ?w_namespace_from_named_decl, ?w_standard_name, ?n_skip_r, ?n_skip_f, ?n_skip_e, ?e_bind, ?e_bind2, ?e_skip, ?e_skip2.
Lemma l_is_skipping_requested_enum e0 : is_skipping_requested_enum w' (enum_ w e0) = is_skipping_requested_enum w (enum_ w e0).
Proof. unfold is_skipping_requested_enum. go. Qed.
Local Opaque is_skipping_requested_enum.
Ltac norm ::= repeat progress rewrite ?l_enum, ?l_cfg, ?l_cfg0, ?w_namespace_from_named_decl, ?n_local_r, ?n_local_e.
Lemma l_bind_enum module e0 : bind_enum w' module (enum_ w e0) = bind_enum w module (enum_ w e0).
Proof. unfold bind_enum. go. Qed.
Local Opaque bind_enum.
Ltac norm ::= repeat progress rewrite ?w_is_banned_symbol.
Lemma w_enum_bindable : enum_bindable w' = enum_bindable w.
Proof. unfold enum_bindable. norm. reflexivity. Qed.
Local Opaque enum_bindable.
Ltac norm ::= repeat progress rewrite ?l_bind_enum, ?w_generate_comment_for_declaration, ?w_namespace_from_named_decl.
Lemma l_bind_enum_binder e0 : bind_enum_binder w' (enum_ w e0) = bind_enum_binder w (enum_ w e0).
Proof. unfold bind_enum_binder. go. Qed.
Local Opaque bind_enum_binder.

(** ** Includes *)
Ltac norm ::= repeat progress rewrite ?l_fun.
Lemma w_fun_actions : fun_actions w' = fun_actions w.
Proof. unfold fun_actions. norm. reflexivity. Qed.
Local Opaque fun_actions.
Ltac norm ::= repeat progress rewrite ?l_enum.
Lemma w_enum_actions : enum_actions w' = enum_actions w.
Proof. unfold enum_actions. norm. reflexivity. Qed.
Local Opaque enum_actions.
Ltac norm ::= repeat progress rewrite ?l_is_bindable_fun, ?l_is_skipping_requested_fun.
Lemma l_member_ok F : member_ok w' (fun_ w F) = member_ok w (fun_ w F).
Proof. unfold member_ok. go. Qed.
Local Opaque member_ok.
Ltac norm ::= repeat progress rewrite ?l_fun, ?l_member_ok.
Lemma l_spec_actions level l : spec_actions w' level l = spec_actions w level l.
Proof. induction l as [|f l IH]; cbn [spec_actions]; [reflexivity|]. norm. rewrite IH. reflexivity. Qed.
Local Opaque spec_actions.
Ltac norm ::= repeat progress rewrite ?l_fun, ?l_rec, ?l_is_bindable_fun, ?l_spec_actions.
Lemma l_rec_actions r level : rec_actions w' r level = rec_actions w r level.
Proof. unfold rec_actions. go. Qed.
Local Opaque rec_actions.
Ltac norm ::= repeat progress rewrite ?w_enum_actions, ?w_fun_actions, ?l_rec_actions.
Lemma l_actions d level : actions w' d level = actions w d level.
Proof. unfold actions. go. Qed.
Local Opaque actions.
Ltac norm ::= repeat progress rewrite ?l_actions, ?w_add_relevant_include_for_decl.
Lemma l_run_with fuel l : (forall d n s, add_includes fuel w' d n s = add_includes fuel w d n s) -> forall s, run_actions fuel w' l s = run_actions fuel w l s.
Proof.
  intros K. induction l as [|[d|d n] l IH]; intros s; [reflexivity| |].
  - rewrite !run_header. norm. apply IH.
  - rewrite !run_visit, K. apply bind_r_eq; [reflexivity|exact IH].
Qed.
Lemma l_add_includes fuel : forall d level s, add_includes fuel w' d level s = add_includes fuel w d level s.
Proof.
  induction fuel as [|fuel IH]; intros d level s; [reflexivity|]. rewrite !add_includes_eq. destruct (add_decl d level s); [|reflexivity]. norm.
  apply bind_r_eq; [reflexivity|]. intros acts. apply l_run_with. exact IH.
Qed.
Local Opaque add_includes.
Ltac norm ::= repeat progress rewrite ?l_add_includes, ?w_add_relevant_include_for_decl.
Lemma l_run_actions fuel l s : run_actions fuel w' l s = run_actions fuel w l s.
Proof. apply l_run_with. apply l_add_includes. Qed.
Local Opaque run_actions.
(** ** Class *)
Ltac norm ::= repeat progress rewrite ?l_fun.
Lemma w_ctors : ctors w' = ctors w.
Proof. unfold ctors. norm. reflexivity. Qed.
Local Opaque ctors.
Ltac norm ::= repeat progress rewrite ?l_rec.
Lemma l_inherits_enable_shared n : forall r, inherits_enable_shared n w' r = inherits_enable_shared n w r.
Proof.
  induction n as [|n IH]; intros r; cbn [inherits_enable_shared]; norm; [reflexivity|]. apply if_eq; [reflexivity|reflexivity|]. apply if_eq; [reflexivity| |reflexivity].
    apply exists_r_eq. intros b. destruct (base_record b); [apply IH|reflexivity].
Qed.
Local Opaque inherits_enable_shared.
Ltac norm ::= repeat progress rewrite ?l_rec, ?l_cfg, ?l_cfg0, ?l_env, ?w_class_qualified_name, ?l_inherits_enable_shared, ?q_str.
Lemma l_holder r : holder w' r = holder w r.
Proof. unfold holder. go. Qed.
Local Opaque holder.
Ltac norm ::= repeat progress rewrite ?l_fun, ?l_rec.
Lemma w_is_field_assignable : is_field_assignable w' = is_field_assignable w.
Proof. unfold is_field_assignable. norm. reflexivity. Qed.
Local Opaque is_field_assignable.
Ltac norm ::= repeat progress rewrite ?l_is_bindable_q.
Lemma l_is_bindable_field f : is_bindable_field w' f = is_bindable_field w f.
Proof. unfold is_bindable_field. go. Qed.
Local Opaque is_bindable_field.
Ltac norm ::= repeat progress rewrite ?w_class_qualified_name, ?w_is_field_assignable.
Lemma w_bind_data_member : bind_data_member w' = bind_data_member w.
Proof. unfold bind_data_member. norm. reflexivity. Qed.
Local Opaque bind_data_member.
Ltac norm ::= repeat progress rewrite ?l_cfg, ?l_cfg0, ?l_is_bindable_field.
Lemma l_exposed_fields C : exposed_fields w' (rec_ w C) = exposed_fields w (rec_ w C).
Proof.
  unfold exposed_fields. norm. f_equal.
  - apply filter_ext_in. intros f I. norm. f_equal. f_equal. unfold is_field_skipping_requested. apply q_in. unfold lifted_fields in I.
    apply in_flat_map in I. destruct I as (m & M & I). destruct m as [| | | |a ts| |]; try contradiction. destruct a; try contradiction.
    apply in_flat_map in I. destruct I as (t & T & I). destruct t as [|g]; [contradiction|]. destruct I as [->|[]]. exact (FieldLifted w C Public ts f M T).
  - apply filter_ext_in. intros f I. norm. f_equal. f_equal. unfold is_field_skipping_requested. apply q_in. unfold own_fields in I.
    apply in_flat_map in I. destruct I as (m & M & I). destruct m as [g| | | | | |]; try contradiction. destruct I as [->|[]]. exact (FieldOwn w C f M).
Qed.
Local Opaque exposed_fields.
Ltac norm ::= repeat progress rewrite ?l_rec, ?w_bind_data_member, ?w_class_qualified_name, ?l_exposed_fields.
Lemma l_binding_public_data_members r : binding_public_data_members w' r = binding_public_data_members w r.
Proof. unfold binding_public_data_members. go. Qed.
Local Opaque binding_public_data_members.
Ltac norm ::= repeat progress rewrite ?l_fun, ?l_rec, ?w_function_qualified_name.
Lemma w_is_const_overload : is_const_overload w' = is_const_overload w.
Proof. unfold is_const_overload. norm. reflexivity. Qed.
Local Opaque is_const_overload.
Ltac norm ::= repeat progress rewrite ?l_is_bindable_fun, ?w_is_const_overload, ?l_is_skipping_requested_fun.
Lemma l_plain_method_ok F : plain_method_ok w' (fun_ w F) = plain_method_ok w (fun_ w F).
Proof. unfold plain_method_ok. go. Qed.
Local Opaque plain_method_ok.
Ltac norm ::= repeat progress rewrite ?l_plain_method_ok.
Lemma l_public_method_ok F : public_method_ok w' (fun_ w F) = public_method_ok w (fun_ w F).
Proof. unfold public_method_ok. go. Qed.
Local Opaque public_method_ok.
Ltac norm ::= repeat progress rewrite ?l_fun.
Lemma w_decl_candidates : decl_candidates w' = decl_candidates w.
Proof. unfold decl_candidates. norm. reflexivity. Qed.
Local Opaque decl_candidates.
Ltac norm ::= repeat progress rewrite ?l_fun, ?l_plain_method_ok, ?l_public_method_ok.
Lemma l_candidate_ok c0 : candidate_ok w' c0 = candidate_ok w c0.
Proof. unfold candidate_ok. go. Qed.
Local Opaque candidate_ok.
Ltac norm ::= repeat progress rewrite ?l_rec, ?l_candidate_ok, ?w_decl_candidates.
Lemma l_exposed_methods r : exposed_methods w' r = exposed_methods w r.
Proof. unfold exposed_methods. go. Qed.
Local Opaque exposed_methods.
Ltac norm ::= repeat progress rewrite ?l_fun, ?l_bind_function.
Lemma l_bind_member c0 : bind_member w' c0 = bind_member w c0.
Proof. unfold bind_member. go. Qed.
Local Opaque bind_member.
Ltac norm ::= repeat progress rewrite ?l_bind_member, ?l_exposed_methods.
Lemma l_binding_public_member_functions r : binding_public_member_functions w' r = binding_public_member_functions w r.
Proof. unfold binding_public_member_functions. go. Qed.
Local Opaque binding_public_member_functions.
Ltac norm ::= repeat progress rewrite ?l_rec, ?l_binding_public_data_members, ?l_binding_public_member_functions, ?l_is_skipping_requested_rec.
Lemma l_binding_template_bases n : forall r, binding_template_bases n w' r = binding_template_bases n w r.
Proof.
  induction n as [|n IH]; intros r; cbn [binding_template_bases]; norm; [reflexivity|]. apply if_eq; [reflexivity| |reflexivity].
  apply emit_map_eq. intros b. apply if_eq; [reflexivity| |reflexivity]. destruct (base_record b); [|reflexivity]. norm. rewrite IH. reflexivity.
Qed.
Local Opaque binding_template_bases.
Ltac norm ::= repeat progress rewrite ?l_rec, ?w_namespace_from_named_decl, ?w_python_class_name.
Lemma w_callback_structure_name : callback_structure_name w' = callback_structure_name w.
Proof. unfold callback_structure_name. norm. reflexivity. Qed.
Local Opaque callback_structure_name.
Ltac norm ::= repeat progress rewrite ?l_fun, ?l_rec, ?l_is_bindable_fun, ?w_is_const_overload.
Lemma l_is_callback_structure_needed n : forall r, is_callback_structure_needed n w' r = is_callback_structure_needed n w r.
Proof. induction n as [|n IH]; intros r; cbn [is_callback_structure_needed]; goh IH. Qed.
Local Opaque is_callback_structure_needed.
Ltac norm ::= repeat progress rewrite ?l_is_bindable_fun, ?l_is_skipping_requested_fun.
Lemma l_blocking_method M : blocking_method w' (fun_ w M) = blocking_method w (fun_ w M).
Proof. unfold blocking_method. go. Qed.
Local Opaque blocking_method.
Ltac norm ::= repeat progress rewrite ?l_fun, ?l_rec, ?l_blocking_method.
Lemma l_is_callback_structure_constructible n : forall r, is_callback_structure_constructible n w' r = is_callback_structure_constructible n w r.
Proof. induction n as [|n IH]; intros r; cbn [is_callback_structure_constructible]; goh IH. Qed.
Local Opaque is_callback_structure_constructible.
Ltac norm ::= repeat progress rewrite ?w_function_arguments_for_py_overload.
Lemma w_callback_key : callback_key w' = callback_key w.
Proof. unfold callback_key. norm. reflexivity. Qed.
Local Opaque callback_key.
Ltac norm ::= repeat progress rewrite ?l_is_bindable_fun, ?w_is_const_overload, ?l_is_skipping_requested_fun.
Lemma l_callback_candidate M : callback_candidate w' (fun_ w M) = callback_candidate w (fun_ w M).
Proof. unfold callback_candidate. go. Qed.
Local Opaque callback_candidate.
Ltac norm ::= repeat progress rewrite ?l_fun, ?l_rec, ?l_cfg, ?l_cfg0, ?w_callback_structure_name, ?w_class_name, ?w_function_arguments_for_py_overload, ?w_namespace_from_named_decl, ?w_standard_name_q, ?m_custom.
Lemma l_overrider_text r m class_name ret_id : overrider_text w' r m class_name ret_id = overrider_text w r m class_name ret_id.
Proof.
  unfold overrider_text. norm. cbv zeta. destruct (function_arguments_for_py_overload w (fun_ w m)) as [typed names].
  destruct (contains_char "," _); norm; reflexivity.
Qed.
Local Opaque overrider_text.
Ltac norm ::= repeat progress rewrite ?l_fun, ?l_callback_candidate, ?w_callback_key, ?w_class_name, ?l_overrider_text.
Lemma l_callback_methods r n l : forall st, callback_methods w' r n l st = callback_methods w r n l st.
Proof.
  induction l as [|m l IH]; intros st; cbn [callback_methods]; [reflexivity|]. norm. apply bind_r_eq; [reflexivity|]. intros ok. cbv zeta. norm.
  apply if_eq; [reflexivity| |apply IH]. apply if_eq; [reflexivity|apply IH|]. norm. destruct (overrider_text w r m n _) as [text i]. rewrite IH. reflexivity.
Qed.
Local Opaque callback_methods.
Ltac norm ::= repeat progress rewrite ?l_rec, ?l_callback_methods, ?w_class_name.
Lemma l_callback_overriders n : forall r name st, callback_overriders n w' r name st = callback_overriders n w r name st.
Proof.
  induction n as [|n IH]; intros r name st; cbn [callback_overriders]; norm; [reflexivity|]. apply bind_r_eq; [reflexivity|]. intros [own st1].
  apply bind_r_eq; [|reflexivity]. revert st1. induction (r_bases (rec_ w r)) as [|b l IHl]; intros st1; [reflexivity|].
  apply bind_r_eq; [apply if_eq; [reflexivity|reflexivity|]; destruct (base_record b); [apply IH|reflexivity]|]. intros [os st2]. rewrite IHl. reflexivity.
Qed.
Local Opaque callback_overriders.
Ltac norm ::= repeat progress rewrite ?l_rec, ?l_env, ?l_callback_overriders, ?w_callback_structure_name, ?w_class_qualified_name, ?w_generate_comment_for_declaration.
Lemma l_generate_prefix_code r : generate_prefix_code w' r = generate_prefix_code w r.
Proof. unfold generate_prefix_code. go. Qed.
Local Opaque generate_prefix_code.
Ltac norm ::= repeat progress rewrite ?l_fun, ?l_rec, ?w_ctors.
Lemma l_base_default_available n : forall r, base_default_available n w' r = base_default_available n w r.
Proof. induction n as [|n IH]; intros r; cbn [base_default_available]; goh IH. Qed.
Local Opaque base_default_available.
Ltac norm ::= repeat progress rewrite ?l_rec, ?w_annotation, ?w_function_arguments, ?w_function_arguments_for_lambda, ?l_request_types.
Lemma l_bind_ctor_overload ci T args_to_bind request : bind_ctor_overload w' ci (fun_ w T) args_to_bind request = bind_ctor_overload w ci (fun_ w T) args_to_bind request.
Proof. unfold bind_ctor_overload. go. Qed.
Local Opaque bind_ctor_overload.
Ltac norm ::= repeat progress rewrite ?l_bind_ctor_overload.
Lemma l_bind_constructor ci T : bind_constructor w' ci (fun_ w T) = bind_constructor w ci (fun_ w T).
Proof. unfold bind_constructor. go. Qed.
Local Opaque bind_constructor.
Ltac norm ::= repeat progress rewrite ?l_rec, ?l_opt, ?w_annotation.
Lemma w_bind_default_constructor : bind_default_constructor w' = bind_default_constructor w.
Proof. unfold bind_default_constructor. norm. reflexivity. Qed.
Local Opaque bind_default_constructor.
Ltac norm ::= repeat progress rewrite ?l_rec, ?w_annotation.
Lemma w_bind_copy_constructor : bind_copy_constructor w' = bind_copy_constructor w.
Proof. unfold bind_copy_constructor. norm. reflexivity. Qed.
Local Opaque bind_copy_constructor.
Ltac norm ::= repeat progress rewrite ?l_is_bindable_fun, ?l_is_skipping_requested_fun.
Lemma l_ctor_ok T : ctor_ok w' (fun_ w T) = ctor_ok w (fun_ w T).
Proof. unfold ctor_ok. go. Qed.
Local Opaque ctor_ok.
Ltac norm ::= repeat progress rewrite ?l_bind_constructor, ?w_bind_copy_constructor, ?w_bind_default_constructor.
Lemma l_bind_declared_ctor ci T : bind_declared_ctor w' ci (fun_ w T) = bind_declared_ctor w ci (fun_ w T).
Proof. unfold bind_declared_ctor. go. Qed.
Local Opaque bind_declared_ctor.
Ltac norm ::= repeat progress rewrite ?l_fun.
Lemma w_lifted_ctors : lifted_ctors w' = lifted_ctors w.
Proof. unfold lifted_ctors. norm. reflexivity. Qed.
Local Opaque lifted_ctors.
Ltac norm ::= repeat progress rewrite ?l_bind_constructor, ?w_bind_default_constructor, ?l_is_bindable_fun.
Lemma l_bind_lifted_ctor ci T : bind_lifted_ctor w' ci (fun_ w T) = bind_lifted_ctor w ci (fun_ w T).
Proof. unfold bind_lifted_ctor. go. Qed.
Local Opaque bind_lifted_ctor.
Ltac norm ::= repeat progress rewrite ?l_fun, ?l_rec, ?l_env, ?l_base_default_available, ?l_bind_declared_ctor, ?w_bind_default_constructor, ?l_bind_lifted_ctor, ?l_ctor_ok, ?w_ctors, ?w_lifted_ctors.
Lemma l_bind_ctors r ci : bind_ctors w' r ci = bind_ctors w r ci.
Proof. unfold bind_ctors. go. Qed.
Local Opaque bind_ctors.
Ltac norm ::= repeat progress rewrite ?l_rec, ?l_is_bindable_rec, ?l_is_skipping_requested_rec, ?w_standard_name.
Lemma l_base_ok b : base_ok w' b = base_ok w b.
Proof. unfold base_ok. go. Qed.
Local Opaque base_ok.
Ltac norm ::= repeat progress rewrite ?l_base_ok.
Lemma l_bound_bases C : bound_bases w' (rec_ w C) = bound_bases w (rec_ w C).
Proof. unfold bound_bases. go. Qed.
Local Opaque bound_bases.
Ltac norm ::= repeat progress rewrite ?l_rec, ?w_generate_comment_for_declaration, ?w_namespace_from_named_decl, ?w_standard_name.
Lemma w_bind_with : bind_with w' = bind_with w.
Proof. unfold bind_with. norm. reflexivity. Qed.
Local Opaque bind_with.
Ltac norm ::= repeat progress rewrite ?l_rec, ?w_class_qualified_name.
Lemma w_insertion_operator_key : insertion_operator_key w' = insertion_operator_key w.
Proof. unfold insertion_operator_key. norm. reflexivity. Qed.
Local Opaque insertion_operator_key.
Ltac norm ::= repeat progress rewrite ?l_rec, ?w_standard_name.
Lemma w_insertion_operator_template_key : insertion_operator_template_key w' = insertion_operator_template_key w.
Proof. unfold insertion_operator_template_key. norm. reflexivity. Qed.
Local Opaque insertion_operator_template_key.
Ltac norm ::= repeat progress rewrite ?l_rec, ?w_insertion_operator_key, ?w_insertion_operator_template_key.
Lemma w_global_insertion_operator : global_insertion_operator w' = global_insertion_operator w.
Proof. unfold global_insertion_operator. norm. reflexivity. Qed.
Local Opaque global_insertion_operator.
Ltac norm ::= repeat progress rewrite ?l_fun, ?l_rec, ?l_cfg, ?l_cfg0, ?w_class_qualified_name, ?w_global_insertion_operator, ?w_namespace_from_named_decl, ?w_standard_name, ?f_skip2, ?f_skip3, ?f_skip4, ?f_skip5, ?f_skip6.
Lemma l_bind_repr ops r : bind_repr w' ops r = bind_repr w ops r.
Proof. unfold bind_repr. go. Qed.
Local Opaque bind_repr.
Ltac norm ::= repeat progress rewrite ?l_rec.
Lemma w_nested_classes : nested_classes w' = nested_classes w.
Proof. unfold nested_classes. norm. reflexivity. Qed.
Local Opaque nested_classes.
Ltac norm ::= repeat progress rewrite ?l_rec, ?l_is_bindable_rec, ?w_nested_classes.
Lemma l_bound_nested C : bound_nested w' (rec_ w C) = bound_nested w (rec_ w C).
Proof. unfold bound_nested. go. Qed.
Local Opaque bound_nested.
Ltac norm ::= repeat progress rewrite ?l_enum.
Lemma w_public_enums : public_enums w' = public_enums w.
Proof. unfold public_enums. norm. reflexivity. Qed.
Local Opaque public_enums.
Ltac norm ::= repeat progress rewrite ?l_enum, ?l_bind_enum, ?l_is_skipping_requested_enum.
Lemma l_bind_enums l : bind_enums w' l = bind_enums w l.
Proof. induction l as [|y l IH]; cbn [bind_enums]; [reflexivity|]. norm. rewrite IH. reflexivity. Qed.
Local Opaque bind_enums.
Ltac norm ::= repeat progress rewrite ?l_rec, ?l_cfg, ?l_cfg0, ?w_class_qualified_name, ?w_python_class_name, ?w_standard_name, ?c_smart.
Lemma l_class_head r hold trampoline_text bases_text module_var extra : class_head w' r hold trampoline_text bases_text module_var extra = class_head w r hold trampoline_text bases_text module_var extra.
Proof. unfold class_head. go. Qed.
Local Opaque class_head.
Ltac norm ::= repeat progress rewrite ?l_rec, ?l_cfg, ?l_cfg0, ?l_env, ?l_bind_ctors, ?l_bind_enums, ?l_bind_repr, ?w_bind_with, ?l_binding_public_data_members, ?l_binding_public_member_functions, ?l_binding_template_bases, ?l_bound_bases, ?l_bound_nested, ?w_callback_structure_name, ?l_class_head, ?w_class_qualified_name, ?w_generate_comment_for_declaration, ?l_generate_prefix_code, ?l_holder, ?l_is_callback_structure_constructible, ?l_is_callback_structure_needed, ?l_is_python_builtin, ?w_namespace_from_named_decl, ?w_public_enums, ?l_request_types, ?w_standard_name, ?l_is_python_builtin_r, ?n_local_r, ?n_local_e, ?c_buffer, ?m_binder, ?m_add_on.
Lemma l_bind_class n : forall ops r, bind_class n w' ops r = bind_class n w ops r.
Proof.
  assert (O1 : forall {A B} (y z : option A) (f g : A -> B) p q, y = z -> (forall a, f a = g a) -> p = q ->
     match y with Some a => f a | None => p end = match z with Some a => g a | None => q end) by (intros ? ? ? [?|] ? ? ? ? -> ? ->; auto).
  assert (O2 : forall {A B C} (y z : A * B) (f g : A -> B -> C), y = z -> (forall a b, f a b = g a b) -> (let (a, b) := y in f a b) = (let (a, b) := z in g a b))
    by (intros ? ? ? ? [? ?] ? ? -> ?; auto).
  induction n as [|n IH]; intros ops r; cbn [bind_class]; cbv zeta.
  all: apply if_eq; [norm; same|norm; same|].
  all: apply O1; [norm; same|intros ?; norm; same|].
  all: (apply bind_r_eq; [norm; same|]); intros callback.
  all: (apply bind_r_eq; [norm; same|]); intros trampoline; (apply bind_r_eq; [norm; same|]); intros [prefix0 incl0].
  all: (apply bind_r_eq; [norm; same|]); intros hold; (apply bind_r_eq; [norm; same|]); intros local.
  all: (apply bind_r_eq; [apply if_eq; [norm; same| |norm; same]; apply bind_r_eq; [norm; same|]; intros bs; go|]); intros [[head deps] q0].
  all: (apply bind_r_eq; [norm; same|]); intros [s1 q1]; (apply bind_r_eq; [norm; same|]); intros s2; (apply bind_r_eq; [norm; same|]); intros [s3 q3].
  all: (apply bind_r_eq; [norm; same|]); intros [s4 q4]; apply O2; [norm; same|]; intros s5 incl5.
  all: apply bind_r_eq; [|intros [[s7 prefix7] q7]; norm; same].
  - norm. same.
  - rewrite l_rec, l_bound_nested. destruct (bound_nested w (rec_ w r)) as [|y l]; [same|]. rewrite IH. apply bind_r_eq; [same|]. intros b. apply bind_r_eq; [|intros; same].
    induction l as [|i l IHl]; [reflexivity|]. rewrite IH, IHl. reflexivity.
Qed.
Local Opaque bind_class.
Ltac norm ::= repeat progress rewrite ?l_rec, ?l_cfg, ?l_cfg0, ?l_opt, ?w_nested_classes, ?l_run_actions, ?w_standard_name, ?v_class.
Lemma l_class_includes_rec fuel n : forall r incl s, class_includes_rec fuel n w' r incl s = class_includes_rec fuel n w r incl s.
Proof.
  induction fuel as [|fuel IH]; intros r incl s; cbn [class_includes_rec]; cbv zeta; norm; (apply bind_r_eq; [|intros s1; norm; reflexivity]);
    destruct (nested_classes w (rec_ w r)) as [|y l]; try reflexivity.
  match goal with |- context [fold_left ?f ?l0 s] => generalize (fold_left f l0 s) end. intros s0.
  apply bind_r_eq; [apply IH|]. induction l as [|z l IHl]; intros s2; [reflexivity|]. apply bind_r_eq; [apply IH|]. exact IHl.
Qed.
Local Opaque class_includes_rec.

(** ** Context *)
Ltac norm ::= repeat progress rewrite ?l_fun, ?l_enum, ?w_class_qualified_name, ?w_fun_id.
Lemma w_decl_id : decl_id w' = decl_id w.
Proof. unfold decl_id. norm. reflexivity. Qed.
Local Opaque decl_id.
Ltac norm ::= repeat progress rewrite ?w_typename_from_enum, ?w_typename_from_rec.
Lemma w_type_names : type_names w' = type_names w.
Proof. unfold type_names. norm. reflexivity. Qed.
Local Opaque type_names.
Ltac norm ::= repeat progress rewrite ?w_decl_id, ?w_type_names.
Lemma w_add : add w' = add w.
Proof. unfold add. norm. reflexivity. Qed.
Local Opaque add.
Ltac norm ::= repeat progress rewrite ?l_fun, ?w_function_pointer_type.
Lemma w_add_insertion_operator : add_insertion_operator w' = add_insertion_operator w.
Proof. unfold add_insertion_operator. norm. reflexivity. Qed.
Local Opaque add_insertion_operator.
Ltac norm ::= repeat progress rewrite ?l_fun, ?l_enum, ?l_rec, ?w_add, ?w_add_insertion_operator, ?l_is_bindable_fun, ?l_is_bindable_rec.
Lemma l_visit d c0 : visit w' d c0 = visit w d c0.
Proof. unfold visit. go. Qed.
Local Opaque visit.
Ltac norm ::= repeat progress rewrite ?l_visit.
Lemma l_collect l : collect w' l = collect w l.
Proof.
  unfold collect. generalize empty_context. induction l as [|d l IH]; intros y; cbn [fold_left]; [reflexivity|]. norm. apply IH.
Qed.
Local Opaque collect.
Ltac norm ::= repeat progress rewrite ?l_fun, ?l_enum, ?w_enum_bindable, ?l_is_bindable_fun, ?l_is_bindable_rec.
Lemma l_bindable b : bindable w' b = bindable w b.
Proof. unfold bindable. go. Qed.
Local Opaque bindable.
Ltac norm ::= repeat progress rewrite ?l_env.
Lemma w_named_decl : named_decl w' = named_decl w.
Proof. reflexivity. Qed.
Ltac norm ::= repeat progress rewrite ?l_is_python_builtin, ?w_named_decl, ?l_is_python_builtin_r.
Lemma l_builtin b : builtin w' b = builtin w b.
Proof. unfold builtin, named_decl. cbn [wenv]. apply l_is_python_builtin. Qed.
Local Opaque builtin.
Ltac norm ::= repeat progress rewrite ?l_builtin.
Lemma l_is_binded b : is_binded w' b = is_binded w b.
Proof. unfold is_binded. go. Qed.
Local Opaque is_binded.
Ltac norm ::= repeat progress rewrite ?l_fun, ?l_enum, ?l_is_skipping_requested_enum, ?l_is_skipping_requested_fun, ?l_is_skipping_requested_rec.
Lemma l_skip_decl d : skip_decl w' d = skip_decl w d.
Proof. unfold skip_decl. go. Qed.
Local Opaque skip_decl.
Ltac norm ::= repeat progress rewrite ?l_fun, ?l_enum, ?l_is_binding_requested_enum, ?l_is_binding_requested_fun, ?l_is_binding_requested_rec.
Lemma l_bind_decl d : bind_decl w' d = bind_decl w d.
Proof. unfold bind_decl. go. Qed.
Local Opaque bind_decl.
Ltac norm ::= repeat progress rewrite ?l_bind_decl, ?l_bindable, ?w_named_decl, ?l_skip_decl.
Lemma l_initial_request b : initial_request w' b = initial_request w b.
Proof. unfold initial_request. go. Qed.
Local Opaque initial_request.
Ltac norm ::= repeat progress rewrite ?l_bindable, ?l_builtin, ?l_is_binded.
Lemma l_request types name l : request w' types name l = request w types name l.
Proof. unfold request. destruct (lookup name types); [|reflexivity]. apply update_nth_eq. intros b. norm. reflexivity. Qed.
Local Opaque request.
Ltac norm ::= repeat progress rewrite ?l_fun, ?l_enum, ?l_env, ?l_bind_class, ?l_bind_enum_binder, ?l_bind_fun.
Lemma l_generate_code ops d : generate_code w' ops d = generate_code w ops d.
Proof. unfold generate_code. go. Qed.
Local Opaque generate_code.
Ltac norm ::= repeat progress rewrite ?l_bindable, ?l_is_binded.
Lemma l_wants_binding b : wants_binding w' b = wants_binding w b.
Proof. unfold wants_binding. go. Qed.
Local Opaque wants_binding.
Ltac norm ::= repeat progress rewrite ?l_generate_code, ?l_request, ?l_wants_binding.
Lemma l_bind_pass y todo : forall l log, bind_pass w' y todo l log = bind_pass w y todo l log.
Proof.
  induction todo as [|i todo IH]; intros l log; cbn [bind_pass]; [reflexivity|]. destruct (nth_error l i) as [b|]; [|reflexivity]. norm.
  apply if_eq; [reflexivity| |apply IH]. apply bind_r_eq; [reflexivity|]. intros g. cbv zeta.
  assert (E : forall q l, fold_left (fun l n => request w' (x_types y) n l) q l = fold_left (fun l n => request w (x_types y) n l) q l).
  { induction q as [|n q IHq]; intros m; cbn [fold_left]; [reflexivity|]. rewrite l_request. apply IHq. }
  rewrite E. apply IH.
Qed.
Local Opaque bind_pass.
Ltac norm ::= repeat progress rewrite ?l_bind_pass.
Lemma l_bind_loop n : forall y l log, bind_loop n w' y l log = bind_loop n w y l log.
Proof.
  induction n as [|n IH]; intros y l log; cbn [bind_loop]; [reflexivity|]. norm. apply bind_r_eq; [reflexivity|]. intros [l1 log1]. rewrite IH. reflexivity.
Qed.
Local Opaque bind_loop.
Ltac norm ::= repeat progress rewrite ?l_bind_loop, ?l_initial_request.
Lemma l_bind_all c0 : bind_all w' c0 = bind_all w c0.
Proof. unfold bind_all. go. Qed.
Local Opaque bind_all.
Ltac norm ::= repeat progress rewrite ?l_rec, ?w_class_qualified_name, ?l_is_python_builtin, ?l_is_python_builtin_r.
Lemma l_sort_binders l : sort_binders w' l = sort_binders w l.
Proof. unfold sort_binders. apply sort_loop_ext; intros n; norm; reflexivity. Qed.
Local Opaque sort_binders.
Ltac norm ::= repeat progress rewrite ?w_named_decl, ?w_namespace_from_named_decl.
Lemma w_binder_namespace : binder_namespace w' = binder_namespace w.
Proof. unfold binder_namespace. norm. reflexivity. Qed.
Lemma in_b b : in_namespace w (binder_namespace w b).
Proof. unfold binder_namespace, named_decl. cbn [wenv]. apply in_d. Qed.
Local Opaque binder_namespace.
Ltac norm ::= repeat progress rewrite ?w_binder_namespace, ?w_named_decl.
Lemma w_file_name_prefix : file_name_prefix w' = file_name_prefix w.
Proof. unfold file_name_prefix. norm. reflexivity. Qed.
Local Opaque file_name_prefix.
Ltac norm ::= repeat progress rewrite ?l_cfg, ?l_cfg0, ?i_skip.
Lemma l_generate_include_directives s : generate_include_directives w' s = generate_include_directives w s.
Proof. unfold generate_include_directives. go. Qed.
Local Opaque generate_include_directives.
Ltac norm ::= repeat progress rewrite ?l_env, ?l_add_includes, ?l_class_includes_rec.
Lemma l_binder_includes b s : binder_includes w' b s = binder_includes w b s.
Proof. unfold binder_includes. go. Qed.
Local Opaque binder_includes.
Ltac norm ::= repeat progress rewrite ?l_opt, ?l_binder_includes, ?w_decl_id.
Lemma l_add_item b st : add_item w' b st = add_item w b st.
Proof. unfold add_item. go. Qed.
Local Opaque add_item.
Ltac norm ::= repeat progress rewrite ?l_opt.
Lemma w_fits : fits w' = fits w.
Proof. unfold fits. norm. reflexivity. Qed.
Local Opaque fits.
Ltac norm ::= repeat progress rewrite ?l_add_item, ?w_binder_namespace, ?w_fits.
Lemma l_fill ns skip rest : forall st, fill w' ns skip rest st = fill w ns skip rest st.
Proof.
  induction rest as [|b rest IH]; intros st; cbn [fill]; [reflexivity|]. norm. apply if_eq; [reflexivity| |reflexivity]. apply bind_r_eq; [reflexivity|].
  intros st1. rewrite IH. reflexivity.
Qed.
Local Opaque fill.
Ltac norm ::= repeat progress rewrite ?l_cfg, ?l_cfg0.
Lemma l_first_code ns n : in_namespace w ns -> first_code w' ns n = first_code w ns n.
Proof. intros I. unfold first_code. cbn [wcfg]. rewrite !q_map; [reflexivity|exact I|exact I]. Qed.
Local Opaque first_code.
Ltac norm ::= repeat progress rewrite ?l_opt, ?w_file_name_prefix.
Lemma w_name_prefix : name_prefix w' = name_prefix w.
Proof. unfold name_prefix. norm. reflexivity. Qed.
Local Opaque name_prefix.
Ltac norm ::= repeat progress rewrite ?l_opt.
Lemma w_file_stem : file_stem w' = file_stem w.
Proof. unfold file_stem. norm. reflexivity. Qed.
Local Opaque file_stem.
Ltac norm ::= repeat progress rewrite ?l_cfg, ?l_cfg0, ?q_str.
Lemma l_pybind11_include_line  : pybind11_include_line w' = pybind11_include_line w.
Proof. unfold pybind11_include_line. go. Qed.
Local Opaque pybind11_include_line.
Ltac norm ::= repeat progress rewrite ?l_cfg, ?l_cfg0, ?l_opt, ?l_generate_include_directives, ?l_holder, ?l_pybind11_include_line, ?i_code, ?q_str.
Lemma l_file_text fname st : file_text w' fname st = file_text w fname st.
Proof. unfold file_text. go. Qed.
Local Opaque file_text.
Ltac norm ::= repeat progress rewrite ?l_cfg, ?l_cfg0, ?w_binder_namespace, ?w_file_stem, ?l_file_text, ?l_fill, ?w_name_prefix.
Lemma l_write_loop n : forall rest fnames entrance tc, write_loop n w' rest fnames entrance tc = write_loop n w rest fnames entrance tc.
Proof.
  induction n as [|n IH]; intros [|b rest] fnames entrance tc; [reflexivity|reflexivity|reflexivity|]. cbn [write_loop]. apply if_eq; [reflexivity|apply IH|]. cbv zeta.
  assert (I : in_namespace w (binder_namespace w b)) by apply in_b.
  rewrite w_binder_namespace, w_name_prefix, w_file_stem, l_cfg, l_cfg0, (q_vec namespace_includes _ I), (l_first_code _ _ I).
  destruct (first_code w (binder_namespace w b) _) as [call skip]. rewrite l_fill. apply bind_r_eq; [same|]. intros [[t l] st]. rewrite IH, l_file_text. same.
Qed.
Local Opaque write_loop.
Ltac norm ::= repeat progress rewrite ?l_write_loop.
Lemma l_write_files l : write_files w' l = write_files w l.
Proof. unfold write_files. go. Qed.
Local Opaque write_files.
Ltac norm ::= repeat progress rewrite ?w_binder_namespace.
Lemma w_nested_namespaces : nested_namespaces w' = nested_namespaces w.
Proof. unfold nested_namespaces. norm. reflexivity. Qed.
Local Opaque nested_namespaces.
Ltac norm ::= repeat progress rewrite ?l_opt, ?l_pybind11_include_line.
Lemma l_root_text namespaces files : root_text w' namespaces files = root_text w namespaces files.
Proof. unfold root_text. go. Qed.
Local Opaque root_text.
Ltac norm ::= repeat progress rewrite ?l_opt.
Lemma w_root_file_name : root_file_name w' = root_file_name w.
Proof. unfold root_file_name. norm. reflexivity. Qed.
Local Opaque root_file_name.
Ltac norm ::= repeat progress rewrite ?w_root_file_name.
Lemma w_source_names : source_names w' = source_names w.
Proof. unfold source_names. norm. reflexivity. Qed.
Local Opaque source_names.
Ltac norm ::= repeat progress rewrite ?l_bind_all, ?w_nested_namespaces, ?l_sort_binders, ?l_write_files.
Lemma l_generate c0 : generate w' c0 = generate w c0.
Proof. unfold generate. go. Qed.
Local Opaque generate.
Ltac norm ::= repeat progress rewrite ?l_opt.
Lemma w_root_path : root_path w' = root_path w.
Proof. unfold root_path. norm. reflexivity. Qed.
Local Opaque root_path.
Ltac norm ::= repeat progress rewrite ?w_root_path, ?l_root_text, ?w_source_names.
Lemma l_single_file_text o0 : single_file_text w' o0 = single_file_text w o0.
Proof. unfold single_file_text. go. Qed.
Local Opaque single_file_text.
Ltac norm ::= repeat progress rewrite ?l_opt, ?w_root_file_name, ?w_root_path, ?l_root_text, ?l_single_file_text, ?w_source_names.
Lemma l_write_output mkdir_ok can_open o0 f : write_output mkdir_ok can_open w' o0 f = write_output mkdir_ok can_open w o0 f.
Proof. unfold write_output. go. Qed.
Local Opaque write_output.
Ltac norm ::= repeat progress rewrite ?l_collect, ?l_generate.
Lemma l_run visits : run w' visits = run w visits.
Proof. unfold run. norm. same. Qed.
End Absent.
