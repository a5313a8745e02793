(** Properties C01-C09, C11 and C58: the config file and its queries. *)
From Coq Require Import Ascii String Bool Arith Lia.
From Coq Require Import List.
From Verif Require Import Str Util SpecUtil Config SpecConfig StrFacts UtilFacts ConfigFacts.
Import ListNotations.

(** C01 *)
Theorem C01_binding_requested : forall c ns b s,
  longest_match (lists c namespaces_to_bind) ns b -> longest_match (lists c namespaces_to_skip) ns s ->
  (is_namespace_binding_requested c ns = Ok true <-> s < b \/ (b = 0 /\ s = 0 /\ In [] (lists c namespaces_to_bind))) /\
  (is_namespace_binding_requested c ns = Ok false <-> b < s \/ (b = 0 /\ s = 0 /\ ~ In [] (lists c namespaces_to_bind))) /\
  ((exists m, is_namespace_binding_requested c ns = Throw m) <-> b = s /\ 0 < b).
Proof. exact binding_spec. Qed.
Print Assumptions C01_binding_requested.
Theorem C01_skipping_requested : forall c ns b s,
  longest_match (lists c namespaces_to_bind) ns b -> longest_match (lists c namespaces_to_skip) ns s ->
  (is_namespace_skipping_requested c ns = Ok true <-> b < s) /\
  (is_namespace_skipping_requested c ns = Ok false <-> s < b \/ (b = 0 /\ s = 0)) /\
  ((exists m, is_namespace_skipping_requested c ns = Throw m) <-> b = s /\ 0 < b).
Proof. exact skipping_spec. Qed.
Print Assumptions C01_skipping_requested.
(** The longest match always exists, so the two theorems cover every query. *)
Theorem C01_longest_match_exists : forall entries ns, exists k, longest_match entries ns k.
Proof. exact longest_exists. Qed.
Print Assumptions C01_longest_match_exists.
Definition example_config (bind skip : list str) : config :=
  assign_list namespaces_to_skip skip (assign_list namespaces_to_bind bind default_config).
Example C01_case :
  let c := example_config [$"a"; $"a::b::c"] [$"a::b"; $"z"] in
  longest_match (lists c namespaces_to_bind) $"a::b::c::d" 7 /\ longest_match (lists c namespaces_to_skip) $"a::b::c::d" 4 /\
  is_namespace_binding_requested c $"a::b::c::d" = Ok true /\ is_namespace_skipping_requested c $"a::b::x" = Ok true /\
  is_namespace_binding_requested (example_config [$"a"] [$"a"]) $"a::x" = Throw (conflict_text $"a::x").
Proof.
  cbv zeta; split; [|split]; [split|split|repeat split].
  - cbn; intros e [<-|[<-|[]]] _; cbn; lia.
  - right; exists $"a::b::c"; split; [cbn; auto|split; [exists $"::d"; reflexivity|reflexivity]].
  - cbn; intros e [<-|[<-|[]]] _; cbn; lia.
  - right; exists $"a::b"; split; [cbn; auto|split; [exists $"::c::d"; reflexivity|reflexivity]].
Qed.

(** C02 *)
Theorem C02_never_both_and_same_conflicts : forall c ns,
  ~ (is_namespace_binding_requested c ns = Ok true /\ is_namespace_skipping_requested c ns = Ok true) /\
  (forall m, is_namespace_binding_requested c ns = Throw m <-> is_namespace_skipping_requested c ns = Throw m).
Proof. exact never_both. Qed.
Print Assumptions C02_never_both_and_same_conflicts.

(** C03 *)
Theorem C03_order_and_repetition : forall c1 c2 ns,
  (forall x, In x (lists c1 namespaces_to_bind) <-> In x (lists c2 namespaces_to_bind)) ->
  (forall x, In x (lists c1 namespaces_to_skip) <-> In x (lists c2 namespaces_to_skip)) ->
  is_namespace_binding_requested c1 ns = is_namespace_binding_requested c2 ns /\
  is_namespace_skipping_requested c1 ns = is_namespace_skipping_requested c2 ns.
Proof. exact namespace_ext. Qed.
Print Assumptions C03_order_and_repetition.
Example C03_case :
  (forall x, In x [$"a"; $"b"; $"a"] <-> In x [$"b"; $"a"]) /\
  is_namespace_binding_requested (example_config [$"a"; $"b"; $"a"] []) $"a::c" = Ok true /\
  is_namespace_binding_requested (example_config [$"b"; $"a"] []) $"a::c" = Ok true.
Proof. split; [intros x; simpl; tauto|split; reflexivity]. Qed.

(** C04: the full statement is false: [+namespace root] also binds [rootless]. *)
Theorem C04_component_wise_refuted : exists c ns e,
  lists c namespaces_to_bind = [e] /\ lists c namespaces_to_skip = [] /\ e <> [] /\
  ~ component_prefix e ns /\ is_namespace_binding_requested c ns = Ok true.
Proof.
  exists (example_config [$"root"] []), $"rootless", $"root"; split; [reflexivity|split; [reflexivity|split; [discriminate|split; [|reflexivity]]]].
  intros [H|[H|[r H]]]; discriminate.
Qed.
Print Assumptions C04_component_wise_refuted.
(** What holds: entries that are no textual prefix have no influence; so when
    no entry is a proper textual, but not component-wise, prefix of the queried
    namespace, two configurations with the same component-wise relevant entries agree. *)
Theorem C04_component_wise : forall c1 c2 ns,
  (forall c k x, In c [c1; c2] -> In k [namespaces_to_bind; namespaces_to_skip] -> In x (lists c k) ->
     is_prefix x ns -> component_prefix x ns) ->
  (forall k x, In k [namespaces_to_bind; namespaces_to_skip] -> component_prefix x ns ->
     (In x (lists c1 k) <-> In x (lists c2 k))) ->
  is_namespace_binding_requested c1 ns = is_namespace_binding_requested c2 ns /\
  is_namespace_skipping_requested c1 ns = is_namespace_skipping_requested c2 ns.
Proof.
  intros c1 c2 ns Hp Hs; apply namespace_relevant; intros x Hx; split; intros Hi.
  1, 3: eapply Hs; [| |exact Hi]; [simpl; auto|]; eapply (Hp c1); [simpl; auto| |exact Hi|exact Hx]; simpl; auto.
  all: eapply Hs; [| |exact Hi]; [simpl; auto|]; eapply (Hp c2); [simpl; auto| |exact Hi|exact Hx]; simpl; auto.
Qed.
Print Assumptions C04_component_wise.
Example C04_case :
  let c1 := example_config [$"root"; $"other"] [$"root::a"] in let c2 := example_config [$"root"] [$"root::a"; $"zzz"] in
  (forall c k x, In c [c1; c2] -> In k [namespaces_to_bind; namespaces_to_skip] -> In x (lists c k) ->
     is_prefix x $"root::b" -> component_prefix x $"root::b") /\
  (forall k x, In k [namespaces_to_bind; namespaces_to_skip] -> component_prefix x $"root::b" ->
     (In x (lists c1 k) <-> In x (lists c2 k))) /\
  is_namespace_binding_requested c1 $"root::b" = Ok true.
Proof.
  cbv zeta; split; [|split; [|reflexivity]].
  - intros c k x [<-|[<-|[]]] [<-|[<-|[]]] Hi [r Hr]; cbn in Hi;
      repeat (destruct Hi as [<-|Hi]; [solve [right; right; eexists; reflexivity | discriminate]|]); destruct Hi.
  - intros k x [<-|[<-|[]]] Hc; cbn; split; intros Hi;
      repeat (destruct Hi as [<-|Hi]; [solve [auto | destruct Hc as [H|[H|[r H]]]; discriminate]|]); destruct Hi.
Qed.

(** C05 *)
Theorem C05_blank_and_comment_lines : forall c line, ignored_line line -> read_line c line = Ok c.
Proof. exact read_line_ignored. Qed.
Print Assumptions C05_blank_and_comment_lines.
Theorem C05_accepted_line : forall c line bind token arg k,
  says line bind token arg -> In (token, k) directives -> accepted k bind arg ->
  exists c', read_line c line = Ok c' /\ effect k bind arg c c'.
Proof. exact line_effect. Qed.
Print Assumptions C05_accepted_line.
Theorem C05_rejected_line : forall line,
  ((forall c, exists m, read_line c line = Throw m) <-> ~ ignored_line line /\ ~ valid_line line) /\
  (forall c, (exists m, read_line c line = Throw m) \/ exists c', read_line c line = Ok c').
Proof. exact line_reject_iff. Qed.
Print Assumptions C05_rejected_line.
Example C05_case :
  says $"+binder  std::vector  my::binder " true $"binder" $" std::vector  my::binder " /\
  says ($"-class A<int, int>" ++ [cr]) false $"class" $"A<int, int>" /\
  In ($"class", Names classes_to_bind classes_to_skip) directives /\
  (exists c', read_line default_config $"-class A<int, int>" = Ok c' /\ lists c' classes_to_skip = [$"A<int,int>"]) /\
  (exists c', read_line default_config $"+binder std::vector  my::binder " = Ok c' /\ lookup $"std::vector" (maps c' binders) = Some $"my::binder") /\
  (exists m, read_line default_config $"+klass A" = Throw m) /\ (exists m, read_line default_config $"+binder A" = Throw m) /\
  (exists m, read_line default_config $"-include_for_class A <b>" = Throw m).
Proof.
  repeat split; try (intros r H; discriminate); try (eexists; split; reflexivity); try (eexists; reflexivity).
  - right; split; [reflexivity|intros t' H]; apply (f_equal (@rev ascii)) in H; rewrite rev_unit in H; discriminate.
  - simpl; intuition discriminate.
  - left; reflexivity.
  - simpl; intuition discriminate.
  - right; left; reflexivity.
Qed.

(** C06 *)
Theorem C06_concatenation : forall c a b,
  read_text c (a ++ [nl] ++ b) = bind_r (read_text c (a ++ [nl])) (fun c' => read_text c' b).
Proof. exact read_concat. Qed.
Print Assumptions C06_concatenation.
Theorem C06_file_rejected_iff_a_line_is : forall text c, (exists m, read_text c text = Throw m) <->
  exists ls line, pieces_of nl text ls /\ In line ls /\ ~ ignored_line line /\ ~ valid_line line.
Proof. exact read_text_reject. Qed.
Print Assumptions C06_file_rejected_iff_a_line_is.
Theorem C06_read_total : forall text c, (exists m, read_text c text = Throw m) \/ exists c', read_text c text = Ok c'.
Proof. intros text c; exact (read_lines_total (split text [nl]) c). Qed.
Print Assumptions C06_read_total.
Example C06_case :
  (exists c, read_text default_config ($"+class A" ++ [nl] ++ $"# no" ++ [nl; nl] ++ $"-class B") = Ok c /\
             lists c classes_to_bind = [$"A"] /\ lists c classes_to_skip = [$"B"]) /\
  (exists m, read_text default_config ($"+class A" ++ [nl] ++ $"class B") = Throw m).
Proof. split; eexists; repeat split; reflexivity. Qed.

(** C07 *)
Theorem C07_crlf : forall c text, ~ In cr text -> read_text c (with_crlf text) = read_text c text.
Proof. exact read_with_crlf. Qed.
Print Assumptions C07_crlf.
Example C07_case : let text := $"+class A" ++ [nl; nl] ++ $"-class B" ++ [nl] in
  ~ In cr text /\ with_crlf text <> text /\ exists c, read_text default_config (with_crlf text) = Ok c /\ lists c classes_to_skip = [$"B"].
Proof. cbv zeta; split; [simpl; intuition discriminate|split; [discriminate|eexists; split; reflexivity]]. Qed.

(** C08: every run of the tool starts from [setup]. *)
Theorem C08_class_and_function_directives : forall bind skip file text c name,
  file <> [] -> setup default_config bind skip file (Some text) = Ok c ->
  (is_class_binding_requested c name = true <-> listed text true $"class" (nospace name)) /\
  (is_class_skipping_requested c name = true <-> listed text false $"class" (nospace name)) /\
  (is_function_binding_requested c name = true <-> listed text true $"function" (nospace name)) /\
  (is_function_skipping_requested c name = true <-> listed text false $"function" (nospace name)).
Proof.
  intros bind skip file text c name Hf E; unfold is_class_binding_requested, is_class_skipping_requested,
    is_function_binding_requested, is_function_skipping_requested; rewrite !mem_In.
  repeat split; intros H; (eapply setup_other_lists in H || (eapply setup_other_lists)); eauto; (reflexivity || discriminate).
Qed.
Print Assumptions C08_class_and_function_directives.
Example C08_case : exists c, setup default_config [] [] $"cfg" (Some ($"+class A< int,  long >" ++ [nl])) = Ok c /\
  is_class_binding_requested c $"A<int, long>" = true /\ is_class_binding_requested c $"A<int>" = false.
Proof. eexists; repeat split; reflexivity. Qed.

(** C09 *)
Theorem C09_names_with_spaces_not_selectable : forall bind skip file text c name,
  In sp name -> setup default_config bind skip file (Some text) = Ok c ->
  is_field_skipping_requested c name = false /\ is_enum_binding_requested c name = false /\ is_enum_skipping_requested c name = false.
Proof.
  intros bind skip file text c name Hs E; unfold is_field_skipping_requested, is_enum_binding_requested, is_enum_skipping_requested; rewrite !mem_false.
  destruct file as [|ch file]; [injection E as <-; repeat split; intros []|].
  repeat split; intros H; eapply setup_other_lists in H; try exact E; try reflexivity; try discriminate; exact (listed_no_space _ _ _ _ H Hs).
Qed.
Print Assumptions C09_names_with_spaces_not_selectable.
(** The names without spaces are selected exactly by the directives. *)
Theorem C09_names_without_spaces : forall bind skip file text c name,
  file <> [] -> setup default_config bind skip file (Some text) = Ok c ->
  (is_field_skipping_requested c name = true <-> listed text false $"field" name) /\
  (is_enum_binding_requested c name = true <-> listed text true $"enum" name) /\
  (is_enum_skipping_requested c name = true <-> listed text false $"enum" name).
Proof.
  intros bind skip file text c name Hf E; unfold is_field_skipping_requested, is_enum_binding_requested, is_enum_skipping_requested; rewrite !mem_In.
  repeat split; intros H; (eapply setup_other_lists in H || (eapply setup_other_lists)); eauto; (reflexivity || discriminate).
Qed.
Print Assumptions C09_names_without_spaces.
Example C09_case : In sp $"A<int, long>::x" /\ exists c,
  setup default_config [] [] $"cfg" (Some ($"-field A<int, long>::x" ++ [nl] ++ $"-field B::y")) = Ok c /\
  is_field_skipping_requested c $"A<int, long>::x" = false /\ is_field_skipping_requested c $"B::y" = true.
Proof. split; [simpl; tauto|eexists; repeat split; reflexivity]. Qed.

(** C11 *)
Theorem C11_module_local : forall bind skip file text c ns,
  file <> [] -> setup default_config bind skip file (Some text) = Ok c ->
  let all := listed text true $"module_local_namespace" $"@all_namespaces" in
  let added := listed text true $"module_local_namespace" ns in
  let removed := listed text false $"module_local_namespace" ns in
  (is_module_local_requested c ns = Ok true <-> (all \/ added) /\ ~ removed) /\
  (is_module_local_requested c ns = Ok false <-> all /\ removed \/ ~ all /\ ~ added) /\
  ((exists m, is_module_local_requested c ns = Throw m) <-> ~ all /\ added /\ removed).
Proof.
  intros bind skip file text c ns Hf E all added removed.
  assert (Ha : In $"@all_namespaces" (lists c module_local_namespaces_to_add) <-> all) by (eapply setup_other_lists; eauto; (reflexivity || discriminate)).
  assert (Hb : In ns (lists c module_local_namespaces_to_add) <-> added) by (eapply setup_other_lists; eauto; (reflexivity || discriminate)).
  assert (Hc : In ns (lists c module_local_namespaces_to_skip) <-> removed) by (eapply setup_other_lists; eauto; (reflexivity || discriminate)).
  rewrite <- mem_In in Ha, Hb, Hc; unfold is_module_local_requested.
  assert (Hthrow : forall (b : bool), (exists m, @Ok bool b = Throw m) <-> False) by (intros b; split; [intros [m H]; discriminate|tauto]).
  destruct (mem $"@all_namespaces" _), (mem ns (lists c module_local_namespaces_to_add)), (mem ns (lists c module_local_namespaces_to_skip));
    cbn [negb]; rewrite ?Hthrow; rewrite <- Ha, <- Hb, <- Hc; (split; [|split]); (split; [intros H|intros H]);
    try (intuition discriminate); try reflexivity; try (destruct H as [m H]; discriminate); try (eexists; reflexivity).
Qed.
Print Assumptions C11_module_local.
Example C11_case : exists c, setup default_config [] [] $"cfg" (Some ($"+module_local_namespace @all_namespaces" ++ [nl] ++ $"-module_local_namespace a")) = Ok c /\
  is_module_local_requested c $"a" = Ok false /\ is_module_local_requested c $"b" = Ok true.
Proof. eexists; repeat split; reflexivity. Qed.

(** C58: several source files, one process. *)
Theorem C58_config_read_once_per_source_file : forall bind skip file text c,
  setup default_config bind skip file (Some text) = Ok c ->
  exists c', setup c bind skip file (Some text) = Ok c' /\ same_settings c c'.
Proof. exact setup_again. Qed.
Print Assumptions C58_config_read_once_per_source_file.
Theorem C58_same_answers : forall c c', same_settings c c' -> forall n,
  is_namespace_binding_requested c' n = is_namespace_binding_requested c n /\
  is_namespace_skipping_requested c' n = is_namespace_skipping_requested c n /\
  is_module_local_requested c' n = is_module_local_requested c n /\
  is_function_binding_requested c' n = is_function_binding_requested c n /\
  is_function_skipping_requested c' n = is_function_skipping_requested c n /\
  is_class_binding_requested c' n = is_class_binding_requested c n /\
  is_class_skipping_requested c' n = is_class_skipping_requested c n /\
  is_enum_binding_requested c' n = is_enum_binding_requested c n /\
  is_enum_skipping_requested c' n = is_enum_skipping_requested c n /\
  is_field_skipping_requested c' n = is_field_skipping_requested c n /\
  is_buffer_protocol_requested c' n = is_buffer_protocol_requested c n /\
  is_smart_holder_requested c' n = is_smart_holder_requested c n /\
  is_include_skipping_requested c' n = is_include_skipping_requested c n /\
  is_custom_trampoline_function_requested c' n = is_custom_trampoline_function_requested c n.
Proof. exact same_queries. Qed.
Print Assumptions C58_same_answers.
(** The generated text is not preserved: every +include line is emitted once
    more for each further source file. *)
Theorem C58_include_block_grows : exists text c c',
  setup default_config [] [] $"cfg" (Some text) = Ok c /\ setup c [] [] $"cfg" (Some text) = Ok c' /\
  includes_code c false <> includes_code c' false.
Proof.
  exists $"+include <a>"; do 2 eexists; split; [reflexivity|split; [reflexivity|]]; vm_compute; discriminate.
Qed.
Print Assumptions C58_include_block_grows.
Example C58_case : exists c, setup default_config [$"a"] [] $"cfg" (Some ($"+include <a>" ++ [nl] ++ $"+binder A f")) = Ok c /\
  lookup $"A" (maps c binders) = Some $"f" /\ is_namespace_binding_requested c $"a" = Ok true.
Proof. eexists; repeat split; reflexivity. Qed.
