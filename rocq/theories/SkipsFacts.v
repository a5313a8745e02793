(** Leaving out further functions, enums and data members by name changes no
    decision about anything else. *)
From Coq Require Import Ascii String Bool Arith NArith.
From Coq Require Import List.
From Verif Require Import Str StrFacts SpecUtil Util Config SpecConfig ConfigFacts Ast Types Func Enum Includes Class Context SpecContext SettingsFacts SettingsRun IncludesFacts LinesFacts SpecSkips.
Import ListNotations.

Section Skips.
Variables (e : env) (o : options) (c c' : config).
Local Notation w := (mkworld e c o).
Local Notation w' := (mkworld e c' o).
Hypothesis H : forall k, ~ In k left_out_by_name -> lists c' k = lists c k.
Hypothesis Hs : strs c' holder_type = strs c holder_type.

Ltac other := unfold left_out_by_name; cbn [In map snd skip_tokens]; intuition discriminate.
Lemma n_bind ns : is_namespace_binding_requested c' ns = is_namespace_binding_requested c ns.
Proof. apply namespace_relevant; intros v _; rewrite H by other; reflexivity. Qed.
Lemma n_skip ns : is_namespace_skipping_requested c' ns = is_namespace_skipping_requested c ns.
Proof. apply namespace_relevant; intros v _; rewrite H by other; reflexivity. Qed.
Lemma c_bind n : is_class_binding_requested c' n = is_class_binding_requested c n.
Proof. unfold is_class_binding_requested. rewrite H by other. reflexivity. Qed.
Lemma c_skip n : is_class_skipping_requested c' n = is_class_skipping_requested c n.
Proof. unfold is_class_skipping_requested. rewrite H by other. reflexivity. Qed.
Lemma f_bind n : is_function_binding_requested c' n = is_function_binding_requested c n.
Proof. unfold is_function_binding_requested. rewrite H by other. reflexivity. Qed.
Lemma e_bind n : is_enum_binding_requested c' n = is_enum_binding_requested c n.
Proof. unfold is_enum_binding_requested. rewrite H by other. reflexivity. Qed.
Lemma b_name n : builtin_name w' n = builtin_name w n.
Proof. unfold builtin_name. cbn [wcfg wopt]. rewrite Hs, !H by other. reflexivity. Qed.

Lemma l_opt : wopt w' = wopt w. Proof. reflexivity. Qed.
Lemma l_env : wenv w' = wenv w. Proof. reflexivity. Qed.
Lemma l_cfg : wcfg w' = c'. Proof. reflexivity. Qed.
Lemma l_cfg0 : wcfg w = c. Proof. reflexivity. Qed.
Lemma l_fun f : fun_ w' f = fun_ w f. Proof. reflexivity. Qed.
Lemma l_enum f : enum_ w' f = enum_ w f. Proof. reflexivity. Qed.
Lemma l_rec r : rec_ w' r = rec_ w r. Proof. reflexivity. Qed.
Local Opaque rec_ fun_ enum_ named_of.
Ltac norm := idtac.
Ltac congr := match goal with
  | |- bind_r _ _ = bind_r _ _ => apply bind_r_eq; [|intros ?]
  | |- (if _ then _ else _) = _ => apply if_eq
  | |- filter_r _ _ = _ => apply filter_r_eq; intros ?
  | |- exists_r _ _ = _ => apply exists_r_eq; intros ?
  | |- existsb _ _ = _ => apply existsb_eq; intros ?
  | |- forallb _ _ = _ => apply forallb_eq; intros ?
  | |- filter _ _ = _ => apply filter_eq; intros ?
  | |- flat_map _ _ = _ => apply flat_map_eq; intros ?
  | |- map_r _ _ = _ => apply map_r_eq; intros ?
  | |- map _ _ = _ => apply map_ext; intros ?
  | |- (match ?y with _ => _ end) = _ => destruct y
  | |- ?f ?a = ?g ?b => first [constr_eq f g; apply (f_equal f) | constr_eq a b; apply (head_eq a) | apply app_eq]
  end.
Ltac same := match goal with |- ?a = ?b => constr_eq a b; reflexivity end.
Ltac go := intros; cbv beta zeta; norm; first [same | congr; go | reflexivity].
Ltac goh H := intros; cbv beta zeta; norm; rewrite ?H; first [same | congr; goh H | reflexivity].

(** ** Ast *)
Ltac norm ::= repeat progress rewrite ?l_rec, ?n_bind, ?n_skip, ?c_bind, ?c_skip, ?f_bind, ?e_bind.
Lemma w_rec_type : rec_type w' = rec_type w.
Proof. unfold rec_type. norm. reflexivity. Qed.
Local Opaque rec_type.

(** ** Types *)
Ltac norm ::= repeat progress rewrite ?l_env, ?n_bind, ?n_skip, ?c_bind, ?c_skip, ?f_bind, ?e_bind.
Lemma w_standard_name : standard_name w' = standard_name w.
Proof. unfold standard_name. norm. reflexivity. Qed.
Local Opaque standard_name.
Ltac norm ::= repeat progress rewrite ?l_env, ?w_standard_name, ?n_bind, ?n_skip, ?c_bind, ?c_skip, ?f_bind, ?e_bind.
Lemma w_standard_name_q : standard_name_q w' = standard_name_q w.
Proof. unfold standard_name_q. norm. reflexivity. Qed.
Local Opaque standard_name_q.
Ltac norm ::= repeat progress rewrite ?w_standard_name, ?n_bind, ?n_skip, ?c_bind, ?c_skip, ?f_bind, ?e_bind.
Lemma w_namespace_from_named_decl : namespace_from_named_decl w' = namespace_from_named_decl w.
Proof. unfold namespace_from_named_decl. norm. reflexivity. Qed.
Local Opaque namespace_from_named_decl.
Ltac norm ::= repeat progress rewrite ?l_env, ?w_rec_type, ?w_standard_name, ?n_bind, ?n_skip, ?c_bind, ?c_skip, ?f_bind, ?e_bind.
Lemma w_typename_from_rec : typename_from_rec w' = typename_from_rec w.
Proof. unfold typename_from_rec. norm. reflexivity. Qed.
Local Opaque typename_from_rec.
Ltac norm ::= repeat progress rewrite ?l_env, ?w_standard_name, ?n_bind, ?n_skip, ?c_bind, ?c_skip, ?f_bind, ?e_bind.
Lemma w_typename_from_enum : typename_from_enum w' = typename_from_enum w.
Proof. unfold typename_from_enum. norm. reflexivity. Qed.
Local Opaque typename_from_enum.
Ltac norm ::= repeat progress rewrite ?w_standard_name, ?n_bind, ?n_skip, ?c_bind, ?c_skip, ?f_bind, ?e_bind.
Lemma l_is_python_builtin d : is_python_builtin w' (named_of e d) = is_python_builtin w (named_of e d).
Proof. unfold is_python_builtin. rewrite w_standard_name. apply b_name. Qed.
Lemma l_is_python_builtin_r r : is_python_builtin w' (r_decl (rec_ w r)) = is_python_builtin w (r_decl (rec_ w r)).
Proof. assert (D : r_decl (rec_ w r) = named_of e (DRec r)) by reflexivity. rewrite D. apply l_is_python_builtin. Qed.
Local Opaque is_python_builtin.
Ltac norm ::= repeat progress rewrite ?w_standard_name, ?n_bind, ?n_skip, ?c_bind, ?c_skip, ?f_bind, ?e_bind.
Lemma w_is_banned_symbol : is_banned_symbol w' = is_banned_symbol w.
Proof. unfold is_banned_symbol. norm. reflexivity. Qed.
Local Opaque is_banned_symbol.
Ltac norm ::= repeat progress rewrite ?l_rec, ?w_standard_name, ?n_bind, ?n_skip, ?c_bind, ?c_skip, ?f_bind, ?e_bind.
Lemma w_class_qualified_name : class_qualified_name w' = class_qualified_name w.
Proof. unfold class_qualified_name. norm. reflexivity. Qed.
Local Opaque class_qualified_name.
Ltac norm ::= repeat progress rewrite ?l_rec, ?w_is_banned_symbol, ?l_is_python_builtin, ?l_is_python_builtin_r, ?n_bind, ?n_skip, ?c_bind, ?c_skip, ?f_bind, ?e_bind.
Lemma l_rec_bindable_raw r std_function_ok : rec_bindable_raw w' r std_function_ok = rec_bindable_raw w r std_function_ok.
Proof. unfold rec_bindable_raw. go. Qed.
Local Opaque rec_bindable_raw.
Ltac norm ::= repeat progress rewrite ?l_enum, ?l_rec, ?l_env, ?l_rec_bindable_raw, ?w_standard_name, ?n_bind, ?n_skip, ?c_bind, ?c_skip, ?f_bind, ?e_bind.
Fixpoint l_bindable_type s t {struct t} : bindable_type w' s t = bindable_type w s t.
Proof.
  destruct t as [| b p | p | p | | | b r args | | b n p |]; cbn [bindable_type]; norm; try reflexivity; rewrite ?l_bindable_type; try reflexivity.
  f_equal. f_equal. f_equal.
  induction args as [|a args IH]; cbn [forallb]; [reflexivity|]. f_equal; [|exact IH].
  destruct a as [k text]. destruct k as [t|t|d|d [[ret ps]|]|n|]; try reflexivity.
  rewrite l_bindable_type. f_equal. induction ps as [|p ps IHps]; cbn [forallb]; [reflexivity|]. rewrite l_bindable_type. f_equal. exact IHps.
Qed.
Local Opaque bindable_type.
Ltac norm ::= repeat progress rewrite ?l_bindable_type, ?n_bind, ?n_skip, ?c_bind, ?c_skip, ?f_bind, ?e_bind.
Lemma l_is_bindable_q t : is_bindable_q w' t = is_bindable_q w t.
Proof. unfold is_bindable_q. go. Qed.
Local Opaque is_bindable_q.
Ltac norm ::= repeat progress rewrite ?l_bindable_type, ?n_bind, ?n_skip, ?c_bind, ?c_skip, ?f_bind, ?e_bind.
Lemma l_is_std_function_bindable args : is_std_function_bindable w' args = is_std_function_bindable w args.
Proof. unfold is_std_function_bindable. go. Qed.
Local Opaque is_std_function_bindable.
Ltac norm ::= repeat progress rewrite ?l_rec, ?l_is_std_function_bindable, ?l_rec_bindable_raw, ?n_bind, ?n_skip, ?c_bind, ?c_skip, ?f_bind, ?e_bind.
Lemma l_is_bindable_rec r : is_bindable_rec w' r = is_bindable_rec w r.
Proof. unfold is_bindable_rec. go. Qed.
Local Opaque is_bindable_rec.
Ltac norm ::= repeat progress rewrite ?l_rec, ?l_cfg, ?l_cfg0, ?w_class_qualified_name, ?w_namespace_from_named_decl, ?w_standard_name, ?n_bind, ?n_skip, ?c_bind, ?c_skip, ?f_bind, ?e_bind.
Lemma l_skip_rec_with r deps : skip_rec_with w' r deps = skip_rec_with w r deps.
Proof. unfold skip_rec_with. go. Qed.
Local Opaque skip_rec_with.
Ltac norm ::= repeat progress rewrite ?l_skip_rec_with, ?n_bind, ?n_skip, ?c_bind, ?c_skip, ?f_bind, ?e_bind.
Fixpoint l_skip_type s t {struct t} : skip_type w' s t = skip_type w s t.
Proof.
  destruct t as [| b p | p | p | | | b r args | | b n p |]; cbn [skip_type]; norm; try reflexivity; try (rewrite l_skip_type; reflexivity).
  f_equal. induction args as [|[k text] args IH]; cbn [flat_map]; [reflexivity|]. f_equal; [|exact IH].
  destruct k; try reflexivity. rewrite l_skip_type. reflexivity.
Qed.
Local Opaque skip_type.
Ltac norm ::= repeat progress rewrite ?l_skip_type, ?n_bind, ?n_skip, ?c_bind, ?c_skip, ?f_bind, ?e_bind.
Lemma l_is_skipping_requested_q t : is_skipping_requested_q w' t = is_skipping_requested_q w t.
Proof. unfold is_skipping_requested_q. go. Qed.
Local Opaque is_skipping_requested_q.
Ltac norm ::= repeat progress rewrite ?l_rec, ?l_is_skipping_requested_q, ?l_skip_rec_with, ?n_bind, ?n_skip, ?c_bind, ?c_skip, ?f_bind, ?e_bind.
Lemma l_is_skipping_requested_rec r : is_skipping_requested_rec w' r = is_skipping_requested_rec w r.
Proof. unfold is_skipping_requested_rec. go. Qed.
Local Opaque is_skipping_requested_rec.
Ltac norm ::= repeat progress rewrite ?l_rec, ?l_cfg, ?l_cfg0, ?l_opt, ?w_class_qualified_name, ?l_is_skipping_requested_q, ?w_namespace_from_named_decl, ?w_standard_name, ?n_bind, ?n_skip, ?c_bind, ?c_skip, ?f_bind, ?e_bind.
Lemma l_is_binding_requested_rec r : is_binding_requested_rec w' r = is_binding_requested_rec w r.
Proof. unfold is_binding_requested_rec. go. Qed.
Local Opaque is_binding_requested_rec.
Ltac norm ::= repeat progress rewrite ?l_is_binding_requested_rec, ?n_bind, ?n_skip, ?c_bind, ?c_skip, ?f_bind, ?e_bind.
Lemma l_bind_type s t : bind_type w' s t = bind_type w s t.
Proof. revert s. induction t; intros s; cbn [bind_type]; norm; try reflexivity; try (destruct s; [reflexivity|]); auto. Qed.
Local Opaque bind_type.
Ltac norm ::= repeat progress rewrite ?l_bind_type, ?n_bind, ?n_skip, ?c_bind, ?c_skip, ?f_bind, ?e_bind.
Lemma l_is_binding_requested_q t : is_binding_requested_q w' t = is_binding_requested_q w t.
Proof. unfold is_binding_requested_q. go. Qed.
Local Opaque is_binding_requested_q.
Ltac norm ::= repeat progress rewrite ?w_standard_name_q, ?n_bind, ?n_skip, ?c_bind, ?c_skip, ?f_bind, ?e_bind.
Lemma w_function_arguments : function_arguments w' = function_arguments w.
Proof. unfold function_arguments. norm. reflexivity. Qed.
Local Opaque function_arguments.
Ltac norm ::= repeat progress rewrite ?w_standard_name, ?n_bind, ?n_skip, ?c_bind, ?c_skip, ?f_bind, ?e_bind.
Lemma w_fun_specialization : fun_specialization w' = fun_specialization w.
Proof. unfold fun_specialization. norm. reflexivity. Qed.
Local Opaque fun_specialization.
Ltac norm ::= repeat progress rewrite ?w_fun_specialization, ?w_function_arguments, ?w_standard_name, ?w_standard_name_q, ?n_bind, ?n_skip, ?c_bind, ?c_skip, ?f_bind, ?e_bind.
Lemma w_function_qualified_name : function_qualified_name w' = function_qualified_name w.
Proof. unfold function_qualified_name. norm. reflexivity. Qed.
Local Opaque function_qualified_name.
Ltac norm ::= repeat progress rewrite ?l_cfg, ?l_cfg0, ?w_function_qualified_name, ?l_is_binding_requested_q, ?w_namespace_from_named_decl, ?n_bind, ?n_skip, ?c_bind, ?c_skip, ?f_bind, ?e_bind.
Lemma l_is_binding_requested_fun F : is_binding_requested_fun w' (fun_ w F) = is_binding_requested_fun w (fun_ w F).
Proof. unfold is_binding_requested_fun. go. Qed.
Local Opaque is_binding_requested_fun.
Ltac norm ::= repeat progress rewrite ?w_is_banned_symbol, ?l_is_bindable_q, ?n_bind, ?n_skip, ?c_bind, ?c_skip, ?f_bind, ?e_bind.
Lemma l_is_bindable_fun F : is_bindable_fun w' (fun_ w F) = is_bindable_fun w (fun_ w F).
Proof. unfold is_bindable_fun. go. Qed.
Local Opaque is_bindable_fun.
Ltac norm ::= repeat progress rewrite ?l_cfg, ?l_cfg0, ?w_namespace_from_named_decl, ?n_bind, ?n_skip, ?c_bind, ?c_skip, ?f_bind, ?e_bind.
Lemma l_is_binding_requested_enum e0 : is_binding_requested_enum w' (enum_ w e0) = is_binding_requested_enum w (enum_ w e0).
Proof. unfold is_binding_requested_enum. go. Qed.
Local Opaque is_binding_requested_enum.

Lemma l_bind_decl d : bind_decl w' d = bind_decl w d.
Proof. destruct d as [f|r|n]; cbn [bind_decl]; [rewrite l_fun; apply l_is_binding_requested_fun|apply l_is_binding_requested_rec|rewrite l_enum; apply l_is_binding_requested_enum]. Qed.
Lemma l_can_bind d : can_bind w' d = can_bind w d.
Proof. destruct d as [f|r|n]; cbn [can_bind]; [rewrite l_fun; apply l_is_bindable_fun|apply l_is_bindable_rec|]. rewrite l_enum. unfold enum_bindable. rewrite w_is_banned_symbol. reflexivity. Qed.

Variable new : list (list_key * str).
Hypothesis Hi : forall k, incl (lists c k) (lists c' k).
Hypothesis Hn : forall k v, In v (lists c' k) -> In v (lists c k) \/ In (k, v) new.
Lemma l_listed k v : ~ In (k, v) new -> mem v (lists c' k) = mem v (lists c k).
Proof.
  intros N. apply Bool.eq_iff_eq_true. rewrite !mem_In. split; [|apply Hi]. intros X. destruct (Hn k v X) as [Y|Y]; [exact Y|contradiction].
Qed.
Lemma l_skip_decl d : ~ newly_named w new d -> skip_decl w' d = skip_decl w d.
Proof.
  intros N. destruct d as [f|r|n]; cbn [skip_decl].
  - rewrite l_fun. unfold is_skipping_requested_fun. cbv zeta. rewrite l_cfg, l_cfg0, w_function_qualified_name, w_standard_name, w_namespace_from_named_decl, !f_bind, n_skip.
    unfold is_function_skipping_requested.
    rewrite (l_listed _ (remove_char sp (function_qualified_name w (fun_ w f) true))) by (intros X; apply N; exists functions_to_skip; eexists; split; [apply Called_full|exact X]).
    rewrite (l_listed _ (remove_char sp (standard_name w (n_qname (f_decl (fun_ w f)))))) by (intros X; apply N; exists functions_to_skip; eexists; split; [apply Called_plain|exact X]).
    rewrite l_rec, (map_ext _ _ l_is_skipping_requested_q).
    assert (E : f_method (fun_ w f) && is_specialization (rec_ w (parent_of (fun_ w f))) &&
        mem (remove_char sp (standard_name w (n_qname (r_decl (rec_ w (parent_of (fun_ w f)))) ++ $"::" ++ n_name (f_decl (fun_ w f))))) (lists c' functions_to_skip) =
      f_method (fun_ w f) && is_specialization (rec_ w (parent_of (fun_ w f))) &&
        mem (remove_char sp (standard_name w (n_qname (r_decl (rec_ w (parent_of (fun_ w f)))) ++ $"::" ++ n_name (f_decl (fun_ w f))))) (lists c functions_to_skip)).
    { destruct (f_method (fun_ w f)) eqn:M; [|reflexivity]. destruct (is_specialization _) eqn:S; [|reflexivity]. cbn [andb].
      apply l_listed. intros X. apply N. exists functions_to_skip. eexists. split; [apply (Called_member w f M S)|exact X]. }
    rewrite E. reflexivity.
  - apply l_is_skipping_requested_rec.
  - rewrite l_enum. unfold is_skipping_requested_enum. cbv zeta. rewrite l_cfg, l_cfg0, w_standard_name, w_namespace_from_named_decl, e_bind, n_skip.
    unfold is_enum_skipping_requested.
    rewrite l_listed by (intros X; apply N; exists enums_to_skip; eexists; split; [apply Called_enum|exact X]). reflexivity.
Qed.
End Skips.
