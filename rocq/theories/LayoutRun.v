(** Runs that differ in the layout options only. *)
From Coq Require Import Ascii String Bool Arith NArith.
From Coq Require Import List.
From Verif Require Import Str StrFacts Util Config SpecConfig ConfigFacts Ast Types Func Enum Includes Class Context SpecContext SpecSettings SpecLayout SettingsFacts SettingsRun LayoutFacts IncludesFacts.
Import ListNotations.

Section Run.
Local Opaque add_relevant_include_for_decl is_bindable_fun is_skipping_requested_fun rec_ fun_ enum_ fun_actions enum_actions standard_name nested_classes.
Variables (e : env) (c : config) (o o' : options).
Hypothesis H : same_content_options o o'.
Local Notation w := (mkworld e c o).
Local Notation w' := (mkworld e c o').

Lemma spec_actions_same n l : spec_actions w' n l = spec_actions w n l.
Proof.
  induction l as [|f l IH]; cbn [spec_actions]; [reflexivity|]. rewrite IH. unfold member_ok.
  rewrite (s_is_bindable_fun e c o o' H), (s_is_skipping_requested_fun e c o o' H). rewrite !(f_fun_ e c o o' H). reflexivity.
Qed.
Local Opaque spec_actions.
Lemma actions_same d n : actions w' d n = actions w d n.
Proof.
  destruct d as [f|r|x]; cbn [actions].
  - rewrite (f_fun_actions e c o o' H). reflexivity.
  - unfold rec_actions. cbv zeta. rewrite spec_actions_same, !(f_rec_ e c o o' H). apply bind_r_eq; [reflexivity|]. intros specs.
    assert (E : flat_map (fun f => let F := fun_ w' f in if is_public (f_decl F) && is_bindable_fun w' F && negb (f_dtor F) then [Visit (DFun f) (S n)] else []) (methods (rec_ w r))
              = flat_map (fun f => let F := fun_ w f in if is_public (f_decl F) && is_bindable_fun w F && negb (f_dtor F) then [Visit (DFun f) (S n)] else []) (methods (rec_ w r))).
    { apply flat_map_eq. intros f. cbv zeta. rewrite (f_fun_ e c o o' H), (s_is_bindable_fun e c o o' H). reflexivity. }
    cbv zeta in E. rewrite E. reflexivity.
  - rewrite (f_enum_actions e c o o' H). reflexivity.
Qed.
Local Opaque actions spec_actions.
(** ** Collection and binding *)
Local Opaque decl_id type_names add add_insertion_operator is_bindable_rec named_decl is_python_builtin enum_bindable bindable class_qualified_name
  is_skipping_requested_rec is_skipping_requested_enum is_binding_requested_rec is_binding_requested_enum is_binding_requested_fun bind_fun bind_class bind_enum_binder.
Lemma visit_same d x : visit w' d x = visit w d x.
Proof.
  destruct d as [f|r|i]; cbn [visit]; rewrite ?(f_fun_ e c o o' H), ?(f_rec_ e c o o' H), ?(f_enum_ e c o o' H), ?(f_add e c o o' H), ?(f_add_insertion_operator e c o o' H),
    ?(s_is_bindable_fun e c o o' H), ?(s_is_bindable_rec e c o o' H); reflexivity.
Qed.
Lemma collect_same l : collect w' l = collect w l.
Proof.
  unfold collect. generalize empty_context. induction l as [|d l IH]; intros x; cbn [fold_left]; [reflexivity|]. rewrite visit_same. apply IH.
Qed.
Local Transparent bindable.
Lemma bindable_same b : bindable w' b = bindable w b.
Proof.
  unfold bindable. destruct (b_decl b); rewrite ?(f_fun_ e c o o' H), ?(f_enum_ e c o o' H), ?(s_is_bindable_fun e c o o' H), ?(s_is_bindable_rec e c o o' H), ?(f_enum_bindable e c o o' H); reflexivity.
Qed.
Local Opaque bindable.
Lemma builtin_same b : builtin w' b = builtin w b.
Proof. unfold builtin. rewrite (f_named_decl e c o o' H), (s_is_python_builtin e c o o' H). reflexivity. Qed.
Local Opaque builtin.
Lemma is_binded_same b : is_binded w' b = is_binded w b.
Proof. unfold is_binded. rewrite builtin_same. reflexivity. Qed.
Local Opaque is_binded.
Lemma skip_decl_same d : skip_decl w' d = skip_decl w d.
Proof.
  destruct d; cbn [skip_decl]; rewrite ?(f_fun_ e c o o' H), ?(f_enum_ e c o o' H), ?(s_is_skipping_requested_fun e c o o' H), ?(s_is_skipping_requested_rec e c o o' H), ?(s_is_skipping_requested_enum e c o o' H); reflexivity.
Qed.
Local Opaque skip_decl.
Lemma bind_decl_same d : bind_decl w' d = bind_decl w d.
Proof.
  destruct d; cbn [bind_decl]; rewrite ?(f_fun_ e c o o' H), ?(f_enum_ e c o o' H), ?(s_is_binding_requested_fun e c o o' H), ?(s_is_binding_requested_rec e c o o' H), ?(s_is_binding_requested_enum e c o o' H); reflexivity.
Qed.
Local Opaque bind_decl.
Lemma initial_request_same b : initial_request w' b = initial_request w b.
Proof. unfold initial_request. rewrite bindable_same, skip_decl_same, bind_decl_same, (f_named_decl e c o o' H). reflexivity. Qed.
Local Opaque initial_request.
Lemma update_nth_eq {A} (f g : A -> A) : (forall x, f x = g x) -> forall l n, update_nth n f l = update_nth n g l.
Proof. intros E. induction l as [|x l IH]; intros [|n]; cbn [update_nth]; [reflexivity|reflexivity|rewrite E; reflexivity|rewrite IH; reflexivity]. Qed.
Lemma request_same types n l : request w' types n l = request w types n l.
Proof.
  unfold request. destruct (lookup n types); [|reflexivity]. apply update_nth_eq. intros b. rewrite is_binded_same, bindable_same, builtin_same. reflexivity.
Qed.
Local Opaque request.
Lemma generate_code_same ops d : generate_code w' ops d = generate_code w ops d.
Proof.
  destruct d; cbn [generate_code]; cbn [wenv]; rewrite ?(f_fun_ e c o o' H), ?(f_enum_ e c o o' H), ?(s_bind_fun e c o o' H), ?(s_bind_class e c o o' H), ?(s_bind_enum_binder e c o o' H); reflexivity.
Qed.
Local Opaque generate_code.
Lemma wants_same b : wants_binding w' b = wants_binding w b.
Proof. unfold wants_binding. rewrite is_binded_same, bindable_same. reflexivity. Qed.
Local Opaque wants_binding.
Lemma bind_pass_same x todo : forall l log, bind_pass w' x todo l log = bind_pass w x todo l log.
Proof.
  induction todo as [|i todo IH]; intros l log; cbn [bind_pass]; [reflexivity|]. destruct (nth_error l i) as [b|]; [|reflexivity]. rewrite wants_same.
  apply if_eq; [reflexivity| |apply IH]. rewrite generate_code_same. apply bind_r_eq; [reflexivity|]. intros g. cbv zeta.
  assert (E : forall q l, fold_left (fun l n => request w' (x_types x) n l) q l = fold_left (fun l n => request w (x_types x) n l) q l).
  { induction q as [|n q IHq]; intros m; cbn [fold_left]; [reflexivity|]. rewrite request_same. apply IHq. }
  rewrite E. apply IH.
Qed.
Local Opaque bind_pass.
Lemma bind_loop_same n : forall x l log, bind_loop n w' x l log = bind_loop n w x l log.
Proof.
  induction n as [|n IH]; intros x l log; cbn [bind_loop]; [reflexivity|]. rewrite bind_pass_same. apply bind_r_eq; [reflexivity|]. intros [l1 log1]. rewrite IH. reflexivity.
Qed.
Local Opaque bind_loop.
Lemma bind_all_same x : bind_all w' x = bind_all w x.
Proof. unfold bind_all. apply bind_r_eq; [apply map_r_eq; apply initial_request_same|]. intros l. apply bind_loop_same. Qed.
Local Opaque bind_all.
(** ** Sorting *)
Lemma sort_same l : sort_binders w' l = sort_binders w l.
Proof.
  unfold sort_binders. rewrite (f_class_qualified_name e c o o' H). apply sort_loop_known. intros n. rewrite (f_rec_ e c o o' H), (s_is_python_builtin e c o o' H). reflexivity.
Qed.
Local Opaque sort_binders.
Lemma plan_same visits : plan w' visits = plan w visits.
Proof.
  unfold plan. rewrite collect_same, bind_all_same. apply bind_r_eq; [reflexivity|]. intros [l log]. rewrite sort_same. reflexivity.
Qed.
Lemma namespaces_same l : nested_namespaces w' l = nested_namespaces w l.
Proof. rewrite (f_nested_namespaces e c o o' H). reflexivity. Qed.

End Run.

(** ** Writing *)
Section Write.
Local Opaque add_relevant_include_for_decl is_bindable_fun is_skipping_requested_fun rec_ fun_ enum_ fun_actions enum_actions standard_name nested_classes actions spec_actions.
Variables (e : env) (c : config) (o o' : options).
Hypothesis H : same_content_options o o'.
Hypothesis Htrace : trace o' = trace o.
Hypothesis Hflat : flat o' = flat o.
Hypothesis Hroot : root_module o' = root_module o.
Hypothesis Hmax : max_file_size o' = max_file_size o.
Local Notation w := (mkworld e c o).
Local Notation w' := (mkworld e c o').
(** How the include texts of the two runs are related. *)
Variable rel : str -> str -> Prop.
Hypothesis rel_same : forall i, rel i i.
Hypothesis rel_note : forall h x, rel (if annotate_includes o then h ++ $" // " ++ x else h) (if annotate_includes o' then h ++ $" // " ++ x else h).
Hypothesis rel_skip : forall i j, rel i j -> is_include_skipping_requested c j = is_include_skipping_requested c i.

Definition simr (s s' : include_set) : Prop := stack s' = stack s /\ Forall2 rel (incs s) (incs s').
Lemma simr_refl s : simr s s.
Proof. split; [reflexivity|]. induction (incs s); constructor; auto. Qed.
Lemma simr_add i j s s' : rel i j -> simr s s' -> simr (add_include i s) (add_include j s').
Proof. intros R [A B]. split; [exact A|]. cbn [add_include incs]. apply Forall2_app; [exact B|]. constructor; [exact R|constructor]. Qed.
Lemma simr_add_all (f g : str -> str) l : (forall i, rel (f i) (g i)) -> forall s s', simr s s' ->
  simr (fold_left (fun s i => add_include (f i) s) l s) (fold_left (fun s i => add_include (g i) s) l s').
Proof. intros R. induction l as [|i l IH]; intros s s' S; cbn [fold_left]; [exact S|]. apply IH. apply simr_add; [apply R|exact S]. Qed.
Lemma headers_same d s s' : simr s s' -> simr (add_relevant_include_for_decl w d s) (add_relevant_include_for_decl w' d s').
Proof.
  intros S. Local Transparent add_relevant_include_for_decl. unfold add_relevant_include_for_decl. Local Opaque add_relevant_include_for_decl. cbv zeta.
  rewrite (f_standard_name e c o o' H), (f_include_name e c o o' H). cbn [wenv wopt]. destruct (header_of _ _) as [|a h]; [exact S|].
  apply simr_add; [apply (rel_note (a :: h))|exact S].
Qed.
Lemma note_same d n s s' : simr s s' ->
  match add_decl d n s, add_decl d n s' with Some a, Some b => simr a b | None, None => True | _, _ => False end.
Proof.
  intros [A B]. unfold add_decl. rewrite A. destruct (stack_find d (stack s)) as [k|]; [destruct (k <=? n)|]; try exact I; (split; [cbn [stack]; congruence|exact B]).
Qed.
Lemma acting_same fuel l :
  (forall d n s s', simr s s' -> same_outcome simr (add_includes fuel w d n s) (add_includes fuel w' d n s')) ->
  forall s s', simr s s' -> same_outcome simr (run_actions fuel w l s) (run_actions fuel w' l s').
Proof.
  intros K. induction l as [|[d|d n] l IH]; intros s s' S.
  - exact S.
  - rewrite !run_header. apply IH. apply headers_same. exact S.
  - rewrite !run_visit. eapply outcome_bind; [apply K; exact S|]. intros a b Q. apply IH. exact Q.
Qed.
Local Opaque run_actions.
Lemma includes_same fuel : forall d n s s', simr s s' -> same_outcome simr (add_includes fuel w d n s) (add_includes fuel w' d n s').
Proof.
  induction fuel as [|fuel IH]; intros d n s s' S.
  - cbn [add_includes]. pose proof (note_same d n s s' S) as A.
    destruct (add_decl d n s) as [s1|], (add_decl d n s') as [s1'|]; try contradiction; [reflexivity|exact S].
  - rewrite !add_includes_eq. pose proof (note_same d n s s' S) as A.
    destruct (add_decl d n s) as [s1|], (add_decl d n s') as [s1'|]; try contradiction; [|exact S].
    rewrite (actions_same e c o o' H). apply (outcome_bind eq); [apply outcome_refl; reflexivity|]. intros acts ? <-.
    apply (acting_same fuel acts IH s1 s1' A).
Qed.
Local Opaque add_includes.
Lemma classes_same fuel n : forall r incl s s', simr s s' ->
  same_outcome simr (class_includes_rec fuel n w r incl s) (class_includes_rec fuel n w' r incl s').
Proof.
  assert (V : forall r s s', simr s s' ->
    simr (fold_left (fun s i => add_include (if annotate_includes (wopt w) then i ++ $" // +include_for_class" else i) s)
             (match lookup (standard_name w (n_qname (r_decl (rec_ w r)))) (vecs (wcfg w) class_includes) with Some l => l | None => [] end) s)
        (fold_left (fun s i => add_include (if annotate_includes (wopt w') then i ++ $" // +include_for_class" else i) s)
             (match lookup (standard_name w' (n_qname (r_decl (rec_ w' r)))) (vecs (wcfg w') class_includes) with Some l => l | None => [] end) s')).
  { intros r s s' S. cbn [wopt wcfg]. rewrite (f_standard_name e c o o' H), (f_rec_ e c o o' H).
    apply (simr_add_all (fun i => if annotate_includes o then i ++ $" // +include_for_class" else i) (fun i => if annotate_includes o' then i ++ $" // +include_for_class" else i)); [|exact S].
    intros i. apply (rel_note i $"+include_for_class"). }
  assert (G : forall r incl s s', simr s s' ->
    same_outcome simr (do s <- run_actions n w (map (fun f => Visit (DFun f) 0) incl ++ [Visit (DRec r) 0]) s; Ok (add_include $"<sstream> // __str__" s))
                     (do s <- run_actions n w' (map (fun f => Visit (DFun f) 0) incl ++ [Visit (DRec r) 0]) s'; Ok (add_include $"<sstream> // __str__" s))).
  { intros r incl s s' S. eapply outcome_bind; [apply acting_same; [apply includes_same|exact S]|]. intros a b Q. apply simr_add; [apply rel_same|exact Q]. }
  induction fuel as [|fuel IH]; intros r incl s s' S; cbn [class_includes_rec]; cbv zeta; specialize (V r s s' S);
    match type of V with simr ?a ?b => generalize dependent a; generalize dependent b end; intros b a V;
    rewrite (f_nested_classes e c o o' H), (f_rec_ e c o o' H); destruct (nested_classes w (rec_ w r)) as [|x l];
    try (cbn [bind_r]; apply G; exact V); [reflexivity|].
  apply (outcome_bind simr); [|intros; apply G; assumption]. eapply outcome_bind; [apply IH; exact V|]. clear a b V. revert l. induction l as [|y l IHl]; intros a b V; [exact V|].
  eapply outcome_bind; [apply IH; exact V|]. intros; apply IHl; assumption.
Qed.
Lemma item_includes_same b s s' : simr s s' -> same_outcome simr (binder_includes w b s) (binder_includes w' b s').
Proof. intros S. unfold binder_includes. cbn [wenv]. destruct (b_decl b); [apply includes_same|apply classes_same|apply includes_same]; exact S. Qed.

Definition simr_state (a b : file_state) : Prop :=
  s_code b = s_code a /\ s_prefix b = s_prefix a /\ simr (s_incs a) (s_incs b) /\ s_tc b = s_tc a.
Local Opaque binder_includes binder_namespace name_prefix file_stem decl_id.
Lemma item_same b st st' : simr_state st st' -> same_outcome simr_state (add_item w b st) (add_item w' b st').
Proof.
  intros (A&B&C&D). unfold add_item. cbn [wopt]. rewrite (f_decl_id e c o o' H), A, D, B, Htrace. cbv zeta.
  apply (outcome_bind simr).
  - assert (Q : simr (if trace o then add_include (if annotate_includes o then $"<iostream> // --trace" else $"<iostream>") (s_incs st) else s_incs st)
                     (if trace o then add_include (if annotate_includes o' then $"<iostream> // --trace" else $"<iostream>") (s_incs st') else s_incs st')).
    { destruct (trace o); [|exact C]. apply simr_add; [apply (rel_note $"<iostream>" $"--trace")|exact C]. }
    destruct (has_code b); [apply item_includes_same|]; exact Q.
  - intros i i' S. cbn. repeat split; cbn; try reflexivity; apply S.
Qed.
Definition simr_fill (a b : list binder * list binder * file_state) : Prop :=
  fst (fst b) = fst (fst a) /\ snd (fst b) = snd (fst a) /\ simr_state (snd a) (snd b).
Local Opaque add_item.
Lemma fits_same x : fits w' x = fits w x.
Proof. unfold fits. cbn [wopt]. rewrite Hmax. reflexivity. Qed.
Local Opaque fits.
Lemma filling_same ns skip rest : forall st st', simr_state st st' -> same_outcome simr_fill (fill w ns skip rest st) (fill w' ns skip rest st').
Proof.
  induction rest as [|b rest IH]; intros st st' S; cbn [fill].
  - repeat split; apply S.
  - rewrite (f_binder_namespace e c o o' H), fits_same. rewrite (proj1 S). destruct (fits w (s_code st) && streqb ns (binder_namespace w b)).
    + apply (outcome_bind simr_state); [destruct skip; [exact S|apply item_same; exact S]|]. intros a a' Q.
      apply (outcome_bind simr_fill); [apply IH; exact Q|]. intros [[t l] x] [[t' l'] x'] (P1&P2&P3). cbn [fst snd] in *. subst t' l'. repeat split; apply P3.
    + repeat split; apply S.
Qed.
Local Opaque fill.
Definition same_file_rel (g g' : gen_file) : Prop :=
  g_name g' = g_name g /\ g_fun g' = g_fun g /\ g_ns g' = g_ns g /\ g_call g' = g_call g /\
  g_skip g' = g_skip g /\ g_items g' = g_items g /\ g_body g' = g_body g /\
  exists l l' rest, Forall2 rel l l' /\ g_text g = include_lines (set_of l) ++ rest /\ g_text g' = include_lines (set_of l') ++ rest.
Lemma filter_rel l l' : Forall2 rel l l' ->
  Forall2 rel (filter (fun i => negb (is_include_skipping_requested c i)) l) (filter (fun i => negb (is_include_skipping_requested c i)) l').
Proof.
  induction 1 as [|i j l l' R _ IH]; cbn [filter]; [constructor|]. rewrite (rel_skip i j R). destruct (is_include_skipping_requested c i); cbn [negb]; [exact IH|constructor; assumption].
Qed.
Lemma filter_set (f : str -> bool) l : filter f (set_of l) = set_of (filter f l).
Proof.
  apply sorted_ext.
  - pose proof (set_of_sorted l) as S. induction S as [|x m S IH Hx]; cbn [filter]; [constructor|].
    destruct (f x); [|exact IH]. constructor; [exact IH|]. apply Forall_forall; intros y Hy; apply filter_In in Hy; rewrite Forall_forall in Hx; apply Hx, Hy.
  - apply set_of_sorted.
  - intros x. rewrite filter_In, !set_of_In, filter_In. tauto.
Qed.
Lemma text_same f st st' : simr_state st st' ->
  exists l l' rest, Forall2 rel l l' /\ file_text w f st = include_lines (set_of l) ++ rest /\ file_text w' f st' = include_lines (set_of l') ++ rest.
Proof.
  intros (A&B&[_ C]&D). unfold file_text, generate_include_directives. cbv zeta. rewrite A, B. unfold pybind11_include_line. cbn [wcfg wopt].
  assert (Y : include_pybind11_stl o' = include_pybind11_stl o) by apply H. rewrite Y. rewrite !filter_set.
  eexists _, _, _. split; [exact (filter_rel _ _ C)|]. split; reflexivity.
Qed.
Local Opaque file_text.
Lemma first_same ns n : first_code w' ns n = first_code w ns n.
Proof. reflexivity. Qed.
Lemma prefix_same b : name_prefix w' b = name_prefix w b.
Proof. Local Transparent name_prefix. unfold name_prefix. Local Opaque name_prefix. rewrite (f_file_name_prefix e c o o' H). cbn [wopt]. rewrite Hflat, Hroot. reflexivity. Qed.
Lemma stem_same x n : file_stem w' x n = file_stem w x n.
Proof. Local Transparent file_stem. unfold file_stem. Local Opaque file_stem. cbn [wopt]. rewrite Hflat. reflexivity. Qed.
Local Opaque first_code.
Lemma loop_same n : forall rest fnames entrance tc,
  same_outcome (Forall2 same_file_rel) (write_loop n w rest fnames entrance tc) (write_loop n w' rest fnames entrance tc).
Proof.
  induction n as [|n IH]; intros [|b rest] fnames entrance tc; cbn [write_loop]; [constructor|reflexivity|constructor|].
  destruct (has_code b); cbn [negb]; [|apply IH]. cbv zeta.
  rewrite prefix_same, stem_same, (f_binder_namespace e c o o' H), first_same.
  destruct (first_code w (binder_namespace w b) (count (binder_namespace w b) entrance)) as [call skip]. cbn [wcfg].
  apply (outcome_bind simr_fill).
  - apply filling_same. split; [reflexivity|split; [reflexivity|split; [|reflexivity]]]. apply simr_refl.
  - intros [[t l] st] [[t' l'] st'] (P1&P2&P3). cbn [fst snd] in *. subst t' l'. rewrite (proj1 P3), (proj2 (proj2 (proj2 P3))).
    apply (outcome_bind (Forall2 same_file_rel)); [apply IH|]. intros gs gs' G. cbn. constructor; [|exact G].
    unfold same_file_rel. repeat (split; [reflexivity|]). cbn [g_text]. apply text_same. exact P3.
Qed.
Local Opaque nested_namespaces collect bind_all sort_binders.
Theorem run_rel visits : same_outcome (fun x x' => out_log x' = out_log x /\ out_sorted x' = out_sorted x /\ out_namespaces x' = out_namespaces x /\
    Forall2 same_file_rel (out_files x) (out_files x')) (run w visits) (run w' visits).
Proof.
  unfold run, generate. rewrite (collect_same e c o o' H), (bind_all_same e c o o' H). destruct (bind_all w (collect w visits)) as [[l log]| | | |]; cbn [bind_r]; try reflexivity.
  rewrite (sort_same e c o o' H). apply (outcome_bind eq); [apply outcome_refl; reflexivity|]. intros s ? <-. rewrite (namespaces_same e c o o' H).
  apply (outcome_bind (Forall2 same_file_rel)); [apply loop_same|]. intros gs gs' G. cbn. repeat split; try reflexivity. exact G.
Qed.
End Write.
