(** Runs with equivalent settings: collection, binding, sorting and writing. *)
From Coq Require Import Ascii String Bool Arith NArith.
From Coq Require Import List.
From Verif Require Import Str StrFacts Util Config SpecConfig ConfigFacts Ast Types Func Enum Includes Class Context SpecContext SpecSettings SettingsFacts IncludesFacts.
Import ListNotations.

Definition sim (s s' : include_set) : Prop := stack s' = stack s /\ forall x, In x (incs s') <-> In x (incs s).
Lemma sim_refl s : sim s s.
Proof. split; [reflexivity|tauto]. Qed.
Lemma sim_add i s s' : sim s s' -> sim (add_include i s) (add_include i s').
Proof. intros [A B]. split; [exact A|]. intros x. cbn [add_include incs]. rewrite !in_app_iff, B. tauto. Qed.
Lemma outcome_bind {A B} (R : A -> A -> Prop) (Q : B -> B -> Prop) x y f g :
  same_outcome R x y -> (forall a b, R a b -> same_outcome Q (f a) (g b)) -> same_outcome Q (bind_r x f) (bind_r y g).
Proof. intros E K. destruct x, y; cbn in *; try contradiction; try discriminate; try (injection E as ->); auto. Qed.
Lemma outcome_refl {A} (R : A -> A -> Prop) x : (forall a, R a a) -> same_outcome R x x.
Proof. intros K. destruct x; cbn; auto. Qed.
Lemma sim_add_all (f : str -> str) l l' s s' : sim s s' -> (forall i, In i l' <-> In i l) ->
  sim (fold_left (fun s i => add_include (f i) s) l s) (fold_left (fun s i => add_include (f i) s) l' s').
Proof.
  intros [A B] E.
  assert (K : forall l s, stack (fold_left (fun s i => add_include (f i) s) l s) = stack s /\
                          forall x, In x (incs (fold_left (fun s i => add_include (f i) s) l s)) <-> In x (incs s) \/ exists i, In i l /\ x = f i).
  { clear. induction l as [|i l IH]; intros s; cbn [fold_left].
    - split; [reflexivity|]. intros x. split; [auto|]. intros [X|[i [[] _]]]; exact X.
    - destruct (IH (add_include (f i) s)) as [P Q]. split; [exact P|]. intros x. rewrite Q. cbn [add_include incs]. rewrite in_app_iff. cbn [In].
      split; [intros [[X|[<-|[]]]|[j [X ->]]]|intros [X|[j [[<-|X] ->]]]]; eauto 6. }
  destruct (K l s) as [P Q], (K l' s') as [P' Q']. split; [congruence|]. intros x. rewrite Q, Q', B.
  split; (intros [X|[i [X Y]]]; [auto|right; exists i; split; [apply E; exact X|exact Y]]).
Qed.
Lemma sim_set s s' : sim s s' -> set_of (incs s') = set_of (incs s).
Proof. intros [_ B]. apply set_of_ext. exact B. Qed.

Section Run.
Local Opaque add_relevant_include_for_decl is_bindable_fun is_skipping_requested_fun rec_ fun_ enum_ fun_actions enum_actions standard_name nested_classes.
Variables (e : env) (o : options) (c c' : config).
Hypothesis H : same_settings c c'.
Local Notation w := (mkworld e c o).
Local Notation w' := (mkworld e c' o).

Lemma header_same d s s' : sim s s' -> sim (add_relevant_include_for_decl w d s) (add_relevant_include_for_decl w' d s').
Proof.
  intros S. rewrite (f_add_relevant_include_for_decl e o c c'). Local Transparent add_relevant_include_for_decl. unfold add_relevant_include_for_decl. Local Opaque add_relevant_include_for_decl. cbv zeta.
  destruct (header_of _ _); [exact S|apply sim_add; exact S].
Qed.
Lemma spec_actions_same n l : spec_actions w' n l = spec_actions w n l.
Proof.
  induction l as [|f l IH]; cbn [spec_actions]; [reflexivity|]. rewrite IH. unfold member_ok.
  rewrite (s_is_bindable_fun e o c c' H), (s_is_skipping_requested_fun e o c c' H). rewrite !(f_fun_ e o c c'). reflexivity.
Qed.
Local Opaque spec_actions.
Lemma actions_same d n : actions w' d n = actions w d n.
Proof.
  destruct d as [f|r|x]; cbn [actions].
  - rewrite (f_fun_actions e o c c'). reflexivity.
  - unfold rec_actions. cbv zeta. rewrite spec_actions_same, !(f_rec_ e o c c'). apply bind_r_eq; [reflexivity|]. intros specs.
    assert (E : flat_map (fun f => let F := fun_ w' f in if is_public (f_decl F) && is_bindable_fun w' F && negb (f_dtor F) then [Visit (DFun f) (S n)] else []) (methods (rec_ w r))
              = flat_map (fun f => let F := fun_ w f in if is_public (f_decl F) && is_bindable_fun w F && negb (f_dtor F) then [Visit (DFun f) (S n)] else []) (methods (rec_ w r))).
    { apply flat_map_eq. intros f. cbv zeta. rewrite (f_fun_ e o c c'), (s_is_bindable_fun e o c c' H). reflexivity. }
    cbv zeta in E. rewrite E. reflexivity.
  - rewrite (f_enum_actions e o c c'). reflexivity.
Qed.
Local Opaque actions spec_actions.
Lemma add_decl_same d n s s' : sim s s' ->
  match add_decl d n s, add_decl d n s' with Some a, Some b => sim a b | None, None => True | _, _ => False end.
Proof.
  intros [A B]. unfold add_decl. rewrite A. destruct (stack_find d (stack s)) as [k|]; [destruct (k <=? n)|]; try exact I; (split; [cbn [stack]; congruence|exact B]).
Qed.
Lemma run_actions_same fuel l :
  (forall d n s s', sim s s' -> same_outcome sim (add_includes fuel w d n s) (add_includes fuel w' d n s')) ->
  forall s s', sim s s' -> same_outcome sim (run_actions fuel w l s) (run_actions fuel w' l s').
Proof.
  intros K. induction l as [|[d|d n] l IH]; intros s s' S.
  - exact S.
  - rewrite !run_header. apply IH. apply header_same. exact S.
  - rewrite !run_visit. eapply outcome_bind; [apply K; exact S|]. intros a b Q. apply IH. exact Q.
Qed.
Local Opaque run_actions.
Lemma add_includes_same fuel : forall d n s s', sim s s' -> same_outcome sim (add_includes fuel w d n s) (add_includes fuel w' d n s').
Proof.
  induction fuel as [|fuel IH]; intros d n s s' S.
  - cbn [add_includes]. pose proof (add_decl_same d n s s' S) as A.
    destruct (add_decl d n s) as [s1|], (add_decl d n s') as [s1'|]; try contradiction; [reflexivity|exact S].
  - rewrite !add_includes_eq. pose proof (add_decl_same d n s s' S) as A.
    destruct (add_decl d n s) as [s1|], (add_decl d n s') as [s1'|]; try contradiction; [|exact S].
    rewrite actions_same. apply (outcome_bind eq); [apply outcome_refl; reflexivity|]. intros acts ? <-.
    apply (run_actions_same fuel acts IH s1 s1' A).
Qed.
Local Opaque add_includes.
Lemma class_includes_same fuel n : forall r incl s s', sim s s' ->
  same_outcome sim (class_includes_rec fuel n w r incl s) (class_includes_rec fuel n w' r incl s').
Proof.
  assert (V : forall r s s', sim s s' ->
    sim (fold_left (fun s i => add_include (if annotate_includes (wopt w) then i ++ $" // +include_for_class" else i) s)
             (match lookup (standard_name w (n_qname (r_decl (rec_ w r)))) (vecs (wcfg w) class_includes) with Some l => l | None => [] end) s)
        (fold_left (fun s i => add_include (if annotate_includes (wopt w') then i ++ $" // +include_for_class" else i) s)
             (match lookup (standard_name w' (n_qname (r_decl (rec_ w' r)))) (vecs (wcfg w') class_includes) with Some l => l | None => [] end) s')).
  { intros r s s' S. cbn [wopt wcfg]. rewrite (f_standard_name e o c c'), (f_rec_ e o c c').
    apply (sim_add_all (fun i => if annotate_includes o then i ++ $" // +include_for_class" else i)); [exact S|]. intros i. apply (proj2 (proj2 (proj2 H))). }
  assert (G : forall r incl s s', sim s s' ->
    same_outcome sim (do s <- run_actions n w (map (fun f => Visit (DFun f) 0) incl ++ [Visit (DRec r) 0]) s; Ok (add_include $"<sstream> // __str__" s))
                     (do s <- run_actions n w' (map (fun f => Visit (DFun f) 0) incl ++ [Visit (DRec r) 0]) s'; Ok (add_include $"<sstream> // __str__" s))).
  { intros r incl s s' S. eapply outcome_bind; [apply run_actions_same; [apply add_includes_same|exact S]|]. intros a b Q. apply sim_add. exact Q. }
  induction fuel as [|fuel IH]; intros r incl s s' S; cbn [class_includes_rec]; cbv zeta; specialize (V r s s' S);
    match type of V with sim ?a ?b => generalize dependent a; generalize dependent b end; intros b a V;
    rewrite (f_nested_classes e o c c'), (f_rec_ e o c c'); destruct (nested_classes w (rec_ w r)) as [|x l];
    try (cbn [bind_r]; apply G; exact V); [reflexivity|].
  apply (outcome_bind sim); [|intros; apply G; assumption]. eapply outcome_bind; [apply IH; exact V|]. clear a b V. revert l. induction l as [|y l IHl]; intros a b V; [exact V|].
  eapply outcome_bind; [apply IH; exact V|]. intros; apply IHl; assumption.
Qed.
Lemma binder_includes_same b s s' : sim s s' -> same_outcome sim (binder_includes w b s) (binder_includes w' b s').
Proof. intros S. unfold binder_includes. cbn [wenv]. destruct (b_decl b); [apply add_includes_same|apply class_includes_same|apply add_includes_same]; exact S. Qed.

(** ** Collection and binding *)
Local Opaque decl_id type_names add add_insertion_operator is_bindable_rec named_decl is_python_builtin enum_bindable bindable class_qualified_name
  is_skipping_requested_rec is_skipping_requested_enum is_binding_requested_rec is_binding_requested_enum is_binding_requested_fun bind_fun bind_class bind_enum_binder.
Lemma visit_same d x : visit w' d x = visit w d x.
Proof.
  destruct d as [f|r|i]; cbn [visit]; rewrite ?(f_fun_ e o c c'), ?(f_rec_ e o c c'), ?(f_enum_ e o c c'), ?(f_add e o c c'), ?(f_add_insertion_operator e o c c'),
    ?(s_is_bindable_fun e o c c' H), ?(s_is_bindable_rec e o c c' H); reflexivity.
Qed.
Lemma collect_same l : collect w' l = collect w l.
Proof.
  unfold collect. generalize empty_context. induction l as [|d l IH]; intros x; cbn [fold_left]; [reflexivity|]. rewrite visit_same. apply IH.
Qed.
Local Transparent bindable.
Lemma bindable_same b : bindable w' b = bindable w b.
Proof.
  unfold bindable. destruct (b_decl b); rewrite ?(f_fun_ e o c c'), ?(f_enum_ e o c c'), ?(s_is_bindable_fun e o c c' H), ?(s_is_bindable_rec e o c c' H), ?(f_enum_bindable e o c c'); reflexivity.
Qed.
Local Opaque bindable.
Lemma builtin_same b : builtin w' b = builtin w b.
Proof. unfold builtin. rewrite (f_named_decl e o c c'), (s_is_python_builtin e o c c' H). reflexivity. Qed.
Local Opaque builtin.
Lemma is_binded_same b : is_binded w' b = is_binded w b.
Proof. unfold is_binded. rewrite builtin_same. reflexivity. Qed.
Local Opaque is_binded.
Lemma skip_decl_same d : skip_decl w' d = skip_decl w d.
Proof.
  destruct d; cbn [skip_decl]; rewrite ?(f_fun_ e o c c'), ?(f_enum_ e o c c'), ?(s_is_skipping_requested_fun e o c c' H), ?(s_is_skipping_requested_rec e o c c' H), ?(s_is_skipping_requested_enum e o c c' H); reflexivity.
Qed.
Local Opaque skip_decl.
Lemma bind_decl_same d : bind_decl w' d = bind_decl w d.
Proof.
  destruct d; cbn [bind_decl]; rewrite ?(f_fun_ e o c c'), ?(f_enum_ e o c c'), ?(s_is_binding_requested_fun e o c c' H), ?(s_is_binding_requested_rec e o c c' H), ?(s_is_binding_requested_enum e o c c' H); reflexivity.
Qed.
Local Opaque bind_decl.
Lemma initial_request_same b : initial_request w' b = initial_request w b.
Proof. unfold initial_request. rewrite bindable_same, skip_decl_same, bind_decl_same, (f_named_decl e o c c'). reflexivity. Qed.
Local Opaque initial_request.
Lemma update_nth_eq {A} (f g : A -> A) : (forall x, f x = g x) -> forall l n, update_nth n f l = update_nth n g l.
Proof. intros E. induction l as [|x l IH]; intros [|n]; cbn [update_nth]; [reflexivity|reflexivity|rewrite E; reflexivity|rewrite IH; reflexivity]. Qed.
Lemma request_same types n l : request w' types n l = request w types n l.
Proof.
  unfold request. destruct (lookup n types); [|reflexivity]. apply update_nth_eq. intros b. rewrite is_binded_same, bindable_same, builtin_same. reflexivity.
Qed.
Local Opaque request.
Lemma generate_code_same ops d : generate_code w' ops d = generate_code w ops d.
Proof.
  destruct d; cbn [generate_code]; cbn [wenv]; rewrite ?(f_fun_ e o c c'), ?(f_enum_ e o c c'), ?(s_bind_fun e o c c' H), ?(s_bind_class e o c c' H), ?(s_bind_enum_binder e o c c' H); reflexivity.
Qed.
Local Opaque generate_code.
Lemma wants_same b : wants_binding w' b = wants_binding w b.
Proof. unfold wants_binding. rewrite is_binded_same, bindable_same. reflexivity. Qed.
Local Opaque wants_binding.
Lemma bind_pass_same x todo : forall l log, bind_pass w' x todo l log = bind_pass w x todo l log.
Proof.
  induction todo as [|i todo IH]; intros l log; cbn [bind_pass]; [reflexivity|]. destruct (nth_error l i) as [b|]; [|reflexivity]. rewrite wants_same.
  apply if_eq; [reflexivity| |apply IH]. rewrite generate_code_same. apply bind_r_eq; [reflexivity|]. intros g. cbv zeta.
  assert (E : forall q l, fold_left (fun l n => request w' (x_types x) n l) q l = fold_left (fun l n => request w (x_types x) n l) q l).
  { induction q as [|n q IHq]; intros m; cbn [fold_left]; [reflexivity|]. rewrite request_same. apply IHq. }
  rewrite E. apply IH.
Qed.
Local Opaque bind_pass.
Lemma bind_loop_same n : forall x l log, bind_loop n w' x l log = bind_loop n w x l log.
Proof.
  induction n as [|n IH]; intros x l log; cbn [bind_loop]; [reflexivity|]. rewrite bind_pass_same. apply bind_r_eq; [reflexivity|]. intros [l1 log1]. rewrite IH. reflexivity.
Qed.
Local Opaque bind_loop.
Lemma bind_all_same x : bind_all w' x = bind_all w x.
Proof. unfold bind_all. apply bind_r_eq; [apply map_r_eq; apply initial_request_same|]. intros l. apply bind_loop_same. Qed.
Local Opaque bind_all.
(** ** Sorting *)
Section Known.
Variables (key : nat -> str) (known known' : nat -> bool).
Hypothesis K : forall n, known' n = known n.
Lemma move_deps_known binded deps : forall suffix again, move_deps key known' binded deps suffix again = move_deps key known binded deps suffix again.
Proof.
  induction deps as [|d deps IH]; intros suffix again; cbn [move_deps]; [reflexivity|]. rewrite K.
  destruct (mem (key d) binded || known d); [apply IH|]. destruct (index_of (is_node d) suffix); [apply IH|]. destruct again; [apply IH|reflexivity].
Qed.
Lemma scan_known rest : forall before binded, scan key known' before binded rest = scan key known before binded rest.
Proof.
  induction rest as [|b rest IH]; intros before binded; cbn [scan]; [reflexivity|]. destruct (node b); [|apply IH]. rewrite move_deps_known.
  apply bind_r_eq; [reflexivity|]. intros [suffix again]. destruct again; [reflexivity|apply IH].
Qed.
Lemma sort_loop_known n : forall l, sort_loop n key known' l = sort_loop n key known l.
Proof.
  induction n as [|n IH]; intros l; cbn [sort_loop]; [reflexivity|]. rewrite scan_known. apply bind_r_eq; [reflexivity|]. intros [a|a]; [apply IH|reflexivity].
Qed.
End Known.
Lemma sort_same l : sort_binders w' l = sort_binders w l.
Proof.
  unfold sort_binders. rewrite (f_class_qualified_name e o c c'). apply sort_loop_known. intros n. rewrite (f_rec_ e o c c'), (s_is_python_builtin e o c c' H). reflexivity.
Qed.
Local Opaque sort_binders.
(** ** Writing *)
Definition sim_state (a b : file_state) : Prop :=
  s_code b = s_code a /\ s_prefix b = s_prefix a /\ sim (s_incs a) (s_incs b) /\ s_tc b = s_tc a.
Local Opaque binder_includes binder_namespace name_prefix file_stem.
Lemma add_item_same b st st' : sim_state st st' -> same_outcome sim_state (add_item w b st) (add_item w' b st').
Proof.
  intros (A&B&C&D). unfold add_item. cbn [wopt]. rewrite (f_decl_id e o c c'), A, D, B. cbv zeta.
  apply (outcome_bind sim).
  - destruct (has_code b); [apply binder_includes_same|]; (destruct (trace o); [apply sim_add|]; exact C).
  - intros i i' S. cbn. repeat split; cbn; try reflexivity; apply S.
Qed.
Definition sim_fill (a b : list binder * list binder * file_state) : Prop :=
  fst (fst b) = fst (fst a) /\ snd (fst b) = snd (fst a) /\ sim_state (snd a) (snd b).
Local Opaque add_item.
Lemma fill_same ns skip rest : forall st st', sim_state st st' -> same_outcome sim_fill (fill w ns skip rest st) (fill w' ns skip rest st').
Proof.
  induction rest as [|b rest IH]; intros st st' S; cbn [fill].
  - repeat split; apply S.
  - rewrite (f_binder_namespace e o c c'), (f_fits e o c c'). rewrite (proj1 S). destruct (fits w (s_code st) && streqb ns (binder_namespace w b)).
    + apply (outcome_bind sim_state); [destruct skip; [exact S|apply add_item_same; exact S]|]. intros a a' Q.
      apply (outcome_bind sim_fill); [apply IH; exact Q|]. intros [[t l] x] [[t' l'] x'] (P1&P2&P3). cbn [fst snd] in *. subst t' l'. repeat split; apply P3.
    + repeat split; apply S.
Qed.
Local Opaque fill.
Lemma first_code_same ns n : first_code w' ns n = first_code w ns n.
Proof. unfold first_code. cbn [wcfg]. rewrite !(q_maps c c' H). reflexivity. Qed.
Lemma directives_same s s' : sim s s' -> generate_include_directives w' s' = generate_include_directives w s.
Proof.
  intros S. unfold generate_include_directives. cbn [wcfg]. rewrite (sim_set s s' S). f_equal. f_equal. apply filter_eq. intros i. rewrite (q_include c c' H). reflexivity.
Qed.
Local Opaque first_code.
Definition block : str := includes_code c (include_pybind11_stl o).
Definition block' : str := includes_code c' (include_pybind11_stl o).
Lemma file_text_same f st st' : sim_state st st' ->
  exists front back, file_text w f st = front ++ block ++ back /\ file_text w' f st' = front ++ block' ++ back.
Proof.
  intros (A&B&C&D). unfold file_text. cbv zeta. rewrite (directives_same _ _ C), A, B. unfold pybind11_include_line. cbn [wcfg wopt].
  rewrite !(q_strs c c' H). fold block block'. unfold module_header_text.
  match goal with |- exists front back, ?p ++ (?a ++ ?inc ++ ?b ++ block ++ ?t) ++ ?r = _ /\ _ => exists (p ++ a ++ inc ++ b), (t ++ r) end.
  split; rewrite <- !app_assoc; reflexivity.
Qed.
Local Opaque file_text.
Lemma write_same n : forall rest fnames entrance tc,
  same_outcome (Forall2 (same_file_but block block')) (write_loop n w rest fnames entrance tc) (write_loop n w' rest fnames entrance tc).
Proof.
  induction n as [|n IH]; intros [|b rest] fnames entrance tc; cbn [write_loop]; [constructor|reflexivity|constructor|].
  destruct (has_code b); cbn [negb]; [|apply IH]. cbv zeta.
  rewrite (f_name_prefix e o c c'), (f_file_stem e o c c'), (f_binder_namespace e o c c'), first_code_same.
  destruct (first_code w (binder_namespace w b) (count (binder_namespace w b) entrance)) as [call skip]. cbn [wcfg].
  apply (outcome_bind sim_fill).
  - apply fill_same. repeat split; try reflexivity.
    + apply (sim_add_all (fun i => i)); [apply sim_refl|]. apply (proj2 (proj2 (proj2 H))).
    + intros X. apply (sim_add_all (fun i => i) _ _ _ _ (sim_refl _) (fun i => proj2 (proj2 (proj2 H)) namespace_includes (binder_namespace w b) i)). exact X.
    + intros X. apply (sim_add_all (fun i => i) _ _ _ _ (sim_refl _) (fun i => proj2 (proj2 (proj2 H)) namespace_includes (binder_namespace w b) i)). exact X.
  - intros [[t l] st] [[t' l'] st'] (P1&P2&P3). cbn [fst snd] in *. subst t' l'. rewrite (proj1 P3), (proj2 (proj2 (proj2 P3))).
    apply (outcome_bind (Forall2 (same_file_but block block'))); [apply IH|]. intros gs gs' G. cbn. constructor; [|exact G].
    repeat split; try reflexivity. cbn [g_text]. apply file_text_same. exact P3.
Qed.
Lemma namespaces_same l : nested_namespaces w' l = nested_namespaces w l.
Proof. rewrite (f_nested_namespaces e o c c'). reflexivity. Qed.
Local Opaque nested_namespaces collect.
Theorem run_same visits : same_outcome (same_output_but block block') (run w visits) (run w' visits).
Proof.
  unfold run, generate. rewrite collect_same, bind_all_same. destruct (bind_all w (collect w visits)) as [[l log]| | | |]; cbn [bind_r]; try reflexivity.
  rewrite sort_same. apply (outcome_bind eq); [apply outcome_refl; reflexivity|]. intros s ? <-. rewrite namespaces_same.
  apply (outcome_bind (Forall2 (same_file_but block block'))); [apply write_same|]. intros gs gs' G. cbn. repeat split; try reflexivity. exact G.
Qed.
End Run.
