(** Properties C10, C12, C24-C40 and C59: collecting, binding, sorting and
    writing, for every translation unit, configuration and set of options. *)
From Coq Require Import Ascii String Bool Arith NArith Lia Sorted Relations Permutation.
From Coq Require Import List.
From Verif Require Import Str StrFacts SpecUtil Util UtilFacts Config SpecConfig ConfigFacts Ast Types Func Enum Includes Class Context SpecContext SpecIncludes ContextFacts SortFacts WriteFacts TotalFacts IncludesFacts RunFacts Samples.
Import ListNotations.

(** The result of a run on a concrete input. *)
Definition out_of (w : world) (visits : list decl) : output :=
  match run w visits with Ok o => o | _ => mkout [] [] [] [] end.

(** C10 *)
Theorem C10_python_builtin : forall w name,
  builtin_name w name = true <->
  ~ In name (lists (wcfg w) not_python_builtins) /\
  (In name (lists (wcfg w) python_builtins) \/ name = strs (wcfg w) holder_type \/ In name known_builtin \/
   (include_pybind11_stl (wopt w) = true /\ In name stl_builtin)).
Proof.
  intros w name; unfold builtin_name. destruct (mem name (lists (wcfg w) not_python_builtins)) eqn:E.
  - apply mem_In in E. split; [discriminate|intros [N _]; contradiction].
  - assert (N : ~ In name (lists (wcfg w) not_python_builtins)) by (intros X; apply mem_In in X; rewrite X in E; discriminate).
    destruct (mem name (lists (wcfg w) python_builtins) || mem name (strs (wcfg w) holder_type :: known_builtin)) eqn:E2.
    + split; [intros _; split; [exact N|]|reflexivity]. apply orb_prop in E2; destruct E2 as [X|X]; apply mem_In in X; [left; exact X|].
      destruct X as [<-|X]; [right; left; reflexivity|right; right; left; exact X].
    + rewrite andb_true_iff, mem_In. apply orb_false_iff in E2; destruct E2 as [X Y]. split; [intros H; split; [exact N|auto]|].
      intros [_ [H|[H|[H|H]]]]; [apply mem_In in H; rewrite H in X; discriminate| | |exact H].
      * assert (T : mem name (strs (wcfg w) holder_type :: known_builtin) = true) by (apply mem_In; left; symmetry; exact H). rewrite T in Y; discriminate.
      * assert (T : mem name (strs (wcfg w) holder_type :: known_builtin) = true) by (apply mem_In; right; exact H). rewrite T in Y; discriminate.
Qed.
Print Assumptions C10_python_builtin.
(** From the text of the config file: [-python_builtin name] always wins. *)
Theorem C10_from_config_text : forall e o bind skip file text c name,
  file <> [] -> setup default_config bind skip file (Some text) = Ok c ->
  (listed text false $"python_builtin" name -> builtin_name (mkworld e c o) name = false) /\
  (listed text true $"python_builtin" name -> ~ listed text false $"python_builtin" name -> builtin_name (mkworld e c o) name = true).
Proof.
  intros e o bind skip file text c name Hf E.
  pose proof (setup_other_lists _ _ _ _ _ not_python_builtins false $"python_builtin" Hf E eq_refl ltac:(discriminate) ltac:(discriminate) name) as N.
  pose proof (setup_other_lists _ _ _ _ _ python_builtins true $"python_builtin" Hf E eq_refl ltac:(discriminate) ltac:(discriminate) name) as P.
  split.
  - intros L. destruct (builtin_name (mkworld e c o) name) eqn:B; [|reflexivity]. apply C10_python_builtin in B. destruct B as [B _].
    exfalso; apply B, N, L.
  - intros L1 L2. apply C10_python_builtin. cbn [wcfg]. split; [intros X; apply L2, N, X|left; apply P, L1].
Qed.
Print Assumptions C10_from_config_text.
Example C10_case :
  let c := match setup default_config [] [] $"f" (Some ($"+python_builtin A" ++ [nl] ++ $"-python_builtin A" ++ [nl] ++ $"-python_builtin std::string" ++ [nl] ++ $"+python_builtin B" ++ [nl])) with Ok c => c | _ => default_config end in
  let w := mkworld mix_env c (mix_options false false 1%N) in
  map (builtin_name w) [$"A"; $"B"; $"std::string"; $"C"; $"std::shared_ptr"] = [false; true; false; false; true].
Proof. vm_compute; reflexivity. Qed.

(** C12 *)
Theorem C12_include_block : forall w s, exists l,
  generate_include_directives w s = concat (map (fun i => $"#include " ++ i ++ [nl]) l) /\
  StronglySorted byte_less l /\
  forall i, In i l <-> In i (incs s) /\ ~ exists p r, In p (lists (wcfg w) includes_to_skip) /\ i = p ++ r.
Proof.
  intros w s. exists (filter (fun i => negb (is_include_skipping_requested (wcfg w) i)) (set_of (incs s))).
  split; [reflexivity|split].
  - apply sorted_byte. pose proof (set_of_sorted (incs s)) as S. induction S as [|x l S IH Hx]; cbn [filter]; [constructor|].
    destruct (negb _); [|exact IH]. constructor; [exact IH|]. apply Forall_forall; intros y Hy; apply filter_In in Hy; rewrite Forall_forall in Hx; apply Hx, Hy.
  - intros i; rewrite filter_In, set_of_In, negb_true_iff. apply and_iff_compat_l.
    unfold is_include_skipping_requested. split.
    + intros F [p [r [Hp ->]]]. assert (T : existsb (begins_with (p ++ r)) (lists (wcfg w) includes_to_skip) = true); [|rewrite T in F; discriminate].
      apply existsb_exists; exists p; split; [exact Hp|]. apply begins_with_iff; exists r; reflexivity.
    + intros N. destruct (existsb _ _) eqn:E; [|reflexivity]. apply existsb_exists in E; destruct E as [p [Hp B]]. exfalso; apply N.
      apply begins_with_iff in B; destruct B as [r ->]; exists p, r; auto.
Qed.
Print Assumptions C12_include_block.
Example C12_case :
  let w := mkworld mix_env (match setup default_config [] [] $"f" (Some ($"-include <b" ++ [nl])) with Ok c => c | _ => default_config end) (mix_options false false 1%N) in
  generate_include_directives w (mkis [$"<c>"; $"<a>"; $"<bits/x>"; $"<c>"] []) = $"#include <a>" ++ [nl] ++ $"#include <c>" ++ [nl].
Proof. vm_compute; reflexivity. Qed.
(** The include block of every generated file: exactly the headers it needs
    (its namespace's, the trace header, those of its items; see SpecIncludes.v). *)
Theorem C12_file_includes : forall w visits o g, run w visits = Ok o -> In g (out_files o) ->
  exists l body, g_text g = concat (map (fun i => $"#include " ++ i ++ [nl]) l) ++ body /\
    StronglySorted byte_less l /\
    forall i, In i l <-> file_needs w g i /\ ~ exists p r, In p (lists (wcfg w) includes_to_skip) /\ i = p ++ r.
Proof.
  intros w visits o g H Hg. destruct (run_inv _ _ _ H) as [l [_ [_ [W _]]]].
  destruct (wrote_includes _ _ _ _ _ _ W g Hg) as [inc [body [S [I T]]]]. exists inc, body.
  split; [exact T|split; [exact (sorted_byte _ S)|]]. intros i; rewrite I. apply and_iff_compat_l.
  unfold is_include_skipping_requested. split.
  - intros F [p [r [Hp ->]]]. assert (X : existsb (begins_with (p ++ r)) (lists (wcfg w) includes_to_skip) = true); [|rewrite X in F; discriminate].
    apply existsb_exists; exists p; split; [exact Hp|]. apply begins_with_iff; exists r; reflexivity.
  - intros N. destruct (existsb _ _) eqn:E; [|reflexivity]. apply existsb_exists in E; destruct E as [p [Hp B]]. exfalso; apply N.
    apply begins_with_iff in B; destruct B as [r ->]; exists p, r; auto.
Qed.
Print Assumptions C12_file_includes.

(** The mixed sample of Samples.v runs, with and without tracing and --flat,
    and gives several files. *)
Definition sizes (o : output) : list (str * nat) := map (fun g => (g_name g, length (g_items g))) (out_files o).
Example mix_runs :
  run (mix_w true false 300) mix_visits = Ok (out_of (mix_w true false 300) mix_visits) /\
  run (mix_w false true 300) mix_visits = Ok (out_of (mix_w false true 300) mix_visits) /\
  run t10_w t10_visits = Ok (out_of t10_w t10_visits) /\
  run t50_w t50_visits = Ok (out_of t50_w t50_visits).
Proof. vm_compute; repeat split; reflexivity. Qed.

(** C24 *)
Theorem C24_collected_once : forall w visits,
  NoDup (map (decl_id w) (collected_items w visits)) /\
  sublist (collected_items w visits) visits /\
  (forall d, In d (collected_items w visits) <-> first_visit w visits d) /\
  (forall d, In d visits -> collectible w d -> exists d', In d' (collected_items w visits) /\ decl_id w d' = decl_id w d).
Proof.
  intros w visits; pose proof (collected_all w visits) as C.
  split; [exact (col_nodup _ _ _ C)|split; [exact (col_sub _ _ _ C)|split; [exact (col_first _ _ _ C)|]]].
  intros d Hd Hc. destruct (first_exists w visits d Hd Hc) as [d' [F E]]. exists d'; split; [apply (col_first _ _ _ C), F|exact E].
Qed.
Print Assumptions C24_collected_once.
Example C24_case : collected_items (mix_w true false 300) mix_visits = [DFun 0; DFun 1; DRec 1; DRec 0; DEnum 0; DRec 2; DRec 3; DRec 4] /\
  length mix_visits = 9.
Proof. vm_compute; split; reflexivity. Qed.

(** C25.  [bind_all] makes at most one pass more than there are items (the
    fuel of Context.v); it fails to end only if the generation of a single item
    does, which never happens for a translation unit without cycles. *)
Theorem C25_binding_terminates : forall w U visits, translation_unit w U -> hierarchy_acyclic w -> nesting_acyclic w ->
  bind_all w (collect w visits) <> Diverges.
Proof.
  intros w U visits T HA NA H. apply bind_all_total in H. destruct H as [d [_ H]].
  exact (fine_generate w (unit_bases w U T HA) (unit_nested w U T NA) _ d H).
Qed.
Print Assumptions C25_binding_terminates.
Theorem C25_loop_ends : forall w visits, (forall d, generate_code w (operators w visits) d <> Diverges) ->
  bind_all w (collect w visits) <> Diverges.
Proof. intros w visits G H. apply bind_all_total in H. destruct H as [d [_ H]]. exact (G d H). Qed.
Print Assumptions C25_loop_ends.
Theorem C25_bound_at_most_once : forall w visits o, run w visits = Ok o -> NoDup (out_log o).
Proof. intros w visits o H; destruct (run_inv _ _ _ H) as [l [E _]]. exact (proj1 (proj2 (bind_all_spec _ _ _ _ E))). Qed.
Print Assumptions C25_bound_at_most_once.

(** C26 *)
Theorem C26_bound_iff_needed : forall w visits o i d, run w visits = Ok o -> nth_error (collected_items w visits) i = Some d ->
  (bound o d <-> needed w (operators w visits) (collected_items w visits) i) /\
  (In i (out_log o) <-> needed w (operators w visits) (collected_items w visits) i).
Proof.
  intros w visits o i d H Hd; split; [exact (bound_iff _ _ _ _ _ H Hd)|].
  destruct (run_inv _ _ _ H) as [l [E _]]. exact (proj1 (proj2 (proj2 (bind_all_spec _ _ _ _ E))) i).
Qed.
Print Assumptions C26_bound_iff_needed.
(** What is bound has the code of its declaration. *)
Theorem C26_code_of_declaration : forall w visits o b, run w visits = Ok o -> In b (out_sorted o) -> b_code b <> [] ->
  exists g, generate_code w (operators w visits) (b_decl b) = Ok g /\ b_code b = cb_code g /\ b_prefix b = cb_prefix g /\
    b_incl b = cb_incl g /\ b_deps b = cb_deps g.
Proof. intros w visits o b H Hb N. destruct (run_item _ _ _ _ H Hb) as [i [_ [_ G]]]. exact (G N). Qed.
Print Assumptions C26_code_of_declaration.
(** In the sample the system class S (position 5) is bound because f mentions
    it; f itself (position 0) is skipped because it mentions the skipped K. *)
Example C26_case : out_log (out_of (mix_w true false 300) mix_visits) = [1; 2; 3; 4; 5] /\
  nth_error (collected_items (mix_w true false 300) mix_visits) 5 = Some (DRec 2).
Proof. vm_compute; split; reflexivity. Qed.

(** C27 *)
Theorem C27_skipped_never_bound : forall w visits o d, run w visits = Ok o -> bound o d ->
  skip_decl w d = Ok false /\ is_python_builtin w (named_of (wenv w) d) = false /\ can_bind w d = true.
Proof.
  intros w visits o d H B. pose proof B as B'. destruct B' as [b [Hb [Eb _]]]. destruct (run_item _ _ _ _ H Hb) as [i [Hi _]]. rewrite Eb in Hi.
  apply (bound_iff _ _ _ _ _ H Hi) in B. destruct (needed_eligible _ _ _ _ _ B Hi) as [E1 [E2 E3]]. auto.
Qed.
Print Assumptions C27_skipped_never_bound.
Theorem C27_system_only_on_demand : forall w visits o i d, run w visits = Ok o -> nth_error (collected_items w visits) i = Some d ->
  bound o d -> n_system (named_of (wenv w) d) = true ->
  exists d' name, bound o d' /\ mentions w (operators w visits) d' name /\ named_item w (collected_items w visits) name i.
Proof.
  intros w visits o i d H Hi B S. apply (bound_iff _ _ _ _ _ H Hi) in B.
  destruct B as [i d' E El Sy Bd|i j d' dj name E El N Ej M Nm].
  - rewrite Hi in E; injection E as <-. rewrite S in Sy; discriminate.
  - exists dj, name. split; [exact (proj2 (bound_iff _ _ _ _ _ H Ej) N)|auto].
Qed.
Print Assumptions C27_system_only_on_demand.
Example C27_case :
  let w := mix_w true false 300 in
  skip_decl w (DRec 3) = Ok true /\ skip_decl w (DFun 0) = Ok true /\ skip_decl w (DFun 1) = Ok false /\
  n_system (named_of (wenv w) (DRec 2)) = true /\ existsb (fun b => has_code b && match b_decl b with DRec 2 => true | _ => false end) (out_sorted (out_of w mix_visits)) = true.
Proof. vm_compute; repeat split; reflexivity. Qed.

(** C28 *)
Theorem C28_bases_first : forall w visits o, bases_consistent w -> run w visits = Ok o ->
  forall s1 b r s2 c, out_sorted o = s1 ++ b :: s2 -> b_decl b = DRec r -> b_code b <> [] ->
    custom_binder w r = false -> r_anon (rec_ w r) = false -> bound_base w r c ->
    is_python_builtin w (r_decl (rec_ w c)) = false ->
    exists b1 r1, In b1 s1 /\ b_decl b1 = DRec r1 /\ class_qualified_name w r1 = class_qualified_name w c /\
      (names_distinct w (collected_items w visits) -> types_distinct w (collected_items w visits) -> r1 = c /\ b_code b1 <> []).
Proof.
  intros w visits o BC H s1 b r s2 c E Eb Nb Cb An Bb Py. destruct (run_inv _ _ _ H) as [l [E1 [E2 _]]].
  destruct (base_bound_first w visits l (out_log o) (out_sorted o) BC E1 E2 s1 b r s2 c E Eb (proj2 (has_code_iff b) Nb) Cb An Bb Py) as [b1 [r1 [H1 [H2 [H3 H4]]]]].
  exists b1, r1; split; [exact H1|split; [exact H2|split; [exact H3|]]]. intros D1 D2. destruct (H4 D1 D2) as [X Y]. split; [exact X|apply has_code_iff, Y].
Qed.
Print Assumptions C28_bases_first.
(** In the sample the derived class (DRec 1) was visited before its base (DRec 0). *)
Example C28_case : map b_decl (out_sorted (out_of (mix_w true false 300) mix_visits)) = [DFun 0; DFun 1; DRec 0; DEnum 0; DRec 2; DRec 3; DRec 4; DRec 1].
Proof. vm_compute; reflexivity. Qed.
Ltac small_nat r k := destruct r as [|r]; [k|].
Lemma mix_bases : forall t f m r b, In b (r_bases (rec_ (mix_w t f m) r)) -> r = 1 /\ b = mkbase Public false (TRec false 0 []).
Proof.
  intros t f m r b; do 6 (destruct r as [|r]; [intros H; cbn in H; try (destruct H as [<-|[]]; auto); try (destruct H; fail); destruct H|]).
  intros H; cbn in H. destruct r; destruct H.
Qed.
Example C28_hypotheses : bases_consistent (mix_w true false 300) /\ bound_base (mix_w true false 300) 1 0 /\
  custom_binder (mix_w true false 300) 1 = false /\ r_anon (rec_ (mix_w true false 300) 1) = false /\ is_python_builtin (mix_w true false 300) (r_decl (rec_ (mix_w true false 300) 0)) = false.
Proof.
  split; [|split; [|split; [|split]]]; try (vm_compute; reflexivity).
  - intros r b c k args H E. destruct (mix_bases _ _ _ _ _ H) as [-> ->]. cbn in E; injection E as <- <- <-; reflexivity.
  - exists (mkbase Public false (TRec false 0 [])). split; [left; reflexivity|split; [reflexivity|split; [reflexivity|split]]].
    + intros X. apply mem_In in X; vm_compute in X; discriminate.
    + split; vm_compute; reflexivity.
Qed.

(** C29 *)
Theorem C29_sorting_is_a_permutation : forall w visits o, run w visits = Ok o ->
  Permutation (map b_decl (out_sorted o)) (collected_items w visits).
Proof. exact run_perm. Qed.
Print Assumptions C29_sorting_is_a_permutation.
(** For any list of items, whatever their dependencies. *)
Theorem C29_any_items : forall w l s, sort_binders w l = Ok s -> Permutation s l.
Proof. intros w l s H. pose proof (sort_binders_spec w l) as S; cbv zeta in S; rewrite H in S. exact (proj1 S). Qed.
Print Assumptions C29_any_items.

(** C30 *)
Theorem C30_sorting_ends : forall w l, acyclic l -> sort_binders w l <> Diverges.
Proof. intros w l A H. pose proof (sort_binders_spec w l) as S; cbv zeta in S; rewrite H in S. exact (S A). Qed.
Print Assumptions C30_sorting_ends.
Theorem C30_fails_iff_missing : forall w l, acyclic l ->
  (forall b r c r', In b l -> b_decl b = DRec r -> depends l r' c -> class_qualified_name w r = class_qualified_name w c -> r = c) ->
  let known := fun c => is_python_builtin w (r_decl (rec_ w c)) in
  ((exists s, sort_binders w l = Ok s) <-> forall c, ~ missing known l c) /\
  ((exists msg, sort_binders w l = Exit1 msg) <-> exists c, missing known l c).
Proof. exact sort_fails_iff. Qed.
Print Assumptions C30_fails_iff_missing.
(** The dependencies of bound classes are base classes, so C++ makes them acyclic. *)
Theorem C30_dependencies_are_acyclic : forall w visits l log, hierarchy_acyclic w -> bind_all w (collect w visits) = Ok (l, log) -> acyclic l.
Proof. exact bound_acyclic. Qed.
Print Assumptions C30_dependencies_are_acyclic.
(** A nested class is no item: a class derived from one makes the run fail. *)
Example C30_case : run nest_w [DRec 0; DRec 1; DRec 2; DRec 3] = Exit1 $"ERROR: Could not find binder for type: A::In!" /\
  missing (fun c => is_python_builtin nest_w (r_decl (rec_ nest_w c))) [mkbinder (DRec 3) true false $"x" [] [] [1]; new_binder (DRec 0)] 1.
Proof.
  split; [vm_compute; reflexivity|]. split; [vm_compute; reflexivity|split].
  - exists 3; exists (mkbinder (DRec 3) true false $"x" [] [] [1]); split; [left; reflexivity|split; [reflexivity|left; reflexivity]].
  - intros b [<-|[<-|[]]]; discriminate.
Qed.
(** The order of C28 does not extend to the bases of nested classes: the
    binding of A contains that of A::In, which names the base B, and B is
    registered after A. *)
Theorem C28_nested_bases_refuted : exists w visits o outer inner b,
  run w visits = Ok o /\ bound o (DRec outer) /\ In inner (bound_nested w (rec_ w outer)) /\
  bound_base w inner b /\ is_python_builtin w (r_decl (rec_ w b)) = false /\
  map b_decl (out_sorted o) = [DRec outer; DRec b] /\
  (exists x y, In x (out_sorted o) /\ b_decl x = DRec outer /\ occurs y (b_code x) /\
     y = $"pybind11::class_<" ++ class_qualified_name w inner ++ $", std::shared_ptr<" ++ class_qualified_name w inner ++ $">, " ++ class_qualified_name w b ++ $">").
Proof.
  exists nest_w, [DRec 0; DRec 1; DRec 2], (out_of nest_w [DRec 0; DRec 1; DRec 2]), 0, 1, 2.
  assert (O : exists x, In x (out_sorted (out_of nest_w [DRec 0; DRec 1; DRec 2])) /\ b_decl x = DRec 0 /\ has_code x = true /\
              find0 $"pybind11::class_<A::In, std::shared_ptr<A::In>, B>" (b_code x) <> None).
  { eexists; split; [vm_compute; left; reflexivity|split; [reflexivity|split; [reflexivity|vm_compute; discriminate]]]. }
  destruct O as [x [O1 [O2 [O3 O4]]]].
  split; [vm_compute; reflexivity|split; [exists x; split; [exact O1|split; [exact O2|apply has_code_iff, O3]]|]].
  split; [vm_compute; left; reflexivity|split; [|split; [vm_compute; reflexivity|split; [vm_compute; reflexivity|]]]].
  - exists (mkbase Public false (TRec false 2 [])). split; [left; reflexivity|split; [reflexivity|split; [reflexivity|split]]].
    + intros X. apply mem_In in X; vm_compute in X; discriminate.
    + split; vm_compute; reflexivity.
  - exists x, ($"pybind11::class_<A::In, std::shared_ptr<A::In>, B>"); split; [exact O1|split; [exact O2|split; [|vm_compute; reflexivity]]].
    destruct (find0 $"pybind11::class_<A::In, std::shared_ptr<A::In>, B>" (b_code x)) as [i|] eqn:F; [|destruct (O4 eq_refl)].
    apply find0_some_first in F. destruct F as [a [b [E [L _]]]]. exists i, a, b; split; [exact E|exact L].
Qed.
Print Assumptions C28_nested_bases_refuted.

(** C31 *)
Theorem C31_every_bound_item_in_one_file : forall w visits o, run w visits = Ok o ->
  filter has_code (flat_map g_items (out_files o)) = filter has_code (out_sorted o) /\
  filter has_code (written (out_files o)) = filter (fun b => has_code b && negb (replaced_namespace w (binder_namespace w b))) (out_sorted o) /\
  NoDup (map b_decl (flat_map g_items (out_files o))).
Proof.
  intros w visits o H; destruct (run_inv _ _ _ H) as [l [_ [_ [W _]]]].
  split; [exact (wrote_items _ _ _ _ _ _ W)|split; [exact (written_items _ _ _ _ _ _ W)|]].
  assert (ND : NoDup (map b_decl (out_sorted o))) by (apply (Permutation_NoDup (Permutation_sym (run_perm _ _ _ H))), items_nodup).
  pose proof (wrote_sub _ _ _ _ _ _ W) as S. clear - S ND. induction S as [|x a b S IH|x a b S IH]; [constructor| |].
  - inversion ND; apply IH; assumption.
  - cbn [map] in *; inversion ND as [|? ? N ND']; constructor; [|apply IH; assumption].
    intros X; apply N. apply in_map_iff in X; destruct X as [y [<- Hy]]. apply in_map, (sublist_In _ _ _ S), Hy.
Qed.
Print Assumptions C31_every_bound_item_in_one_file.
(** The code of the items written is exactly the text of the function bodies
    (after the call of a namespace binder), trace lines included. *)
Theorem C31_code_in_order : forall w visits o, run w visits = Ok o ->
  concat (map (fun g => skipn (length (g_call g)) (g_body g)) (out_files o)) = texts w 0 (written (out_files o)).
Proof. intros w visits o H; destruct (run_inv _ _ _ H) as [l [_ [_ [W _]]]]. exact (bodies_texts _ _ _ (wrote_bodies _ _ _ _ _ _ W)). Qed.
Print Assumptions C31_code_in_order.
(** The body is what stands between the braces of the function of the file. *)
Theorem C31_body_is_in_the_text : forall w visits o g, run w visits = Ok o -> In g (out_files o) ->
  exists before, g_text g = before ++ $"void " ++ g_fun g ++ $"(std::function< pybind11::module &(std::string const &namespace_) > &M)" ++ [nl] ++ $"{" ++ [nl] ++ g_body g ++ $"}" ++ [nl].
Proof.
  intros w visits o g H Hg; destruct (run_inv _ _ _ H) as [l [_ [_ [W _]]]]. revert Hg.
  clear H. induction W as [|b rest fnames entrance tc gs Hh W IH|b rest fnames entrance tc taken later st gs Hh E W IH]; intros Hg; [destruct Hg|exact (IH Hg)|].
  destruct Hg as [<-|Hg]; [|exact (IH Hg)]. unfold made_file; cbv zeta; cbn [g_text g_fun g_body]. unfold file_text; cbv zeta.
  eexists. rewrite !app_assoc; reflexivity.
Qed.
Print Assumptions C31_body_is_in_the_text.
Example C31_case :
  sizes (out_of (mix_w true false 300) mix_visits) = [($"a.cpp", 1); ($"a_1.cpp", 2); ($"s.cpp", 1); ($"b.cpp", 1)] /\
  length (filter has_code (out_sorted (out_of (mix_w true false 300) mix_visits))) = 5.
Proof. vm_compute; split; reflexivity. Qed.

(** C32 *)
Theorem C32_writing_ends : forall w U visits l log s, translation_unit w U -> hierarchy_acyclic w -> nesting_acyclic w -> incl visits U ->
  (0 < max_file_size (wopt w))%N -> bind_all w (collect w visits) = Ok (l, log) -> sort_binders w l = Ok s ->
  write_files w s <> Diverges.
Proof.
  intros w U visits l log s T HA NA V M E1 E2 D. apply (generate_terminates w U visits T HA NA V M).
  unfold generate. rewrite E1. cbn [bind_r]. rewrite E2. cbn [bind_r]. rewrite D. reflexivity.
Qed.
Print Assumptions C32_writing_ends.
(** For any list of items: with a positive limit the loop takes at most two
    rounds per item, so it only fails to end inside the collection of includes. *)
Theorem C32_any_items : forall w s, (0 < max_file_size (wopt w))%N ->
  (forall b i, In b s -> binder_includes w b i <> Diverges) -> write_files w s <> Diverges.
Proof.
  intros w s M B D. destruct (write_loop_total w (write_fuel s) M s [] [] 0) as [b [i [Hb Hd]]]; [left; unfold write_fuel; lia|exact D|].
  exact (B b i Hb Hd).
Qed.
Print Assumptions C32_any_items.
(** With a limit of zero no number of rounds is enough. *)
Theorem C32_zero_limit_never_ends : forall w s, max_file_size (wopt w) = 0%N -> (exists b, In b s /\ b_code b <> []) ->
  forall rounds, write_loop rounds w s [] [] 0 = Diverges.
Proof.
  intros w s M [b [Hb N]] rounds. apply write_loop_stuck; [exact M|]. apply existsb_exists; exists b; split; [exact Hb|apply has_code_iff, N].
Qed.
Print Assumptions C32_zero_limit_never_ends.
Example C32_case : run (mix_w false false 0) mix_visits = Diverges /\ exists o, run (mix_w false false 1) mix_visits = Ok o /\ length (out_files o) = 6.
Proof. split; [vm_compute; reflexivity|]. exists (out_of (mix_w false false 1) mix_visits); vm_compute; split; reflexivity. Qed.

(** C33 *)
Theorem C33_one_namespace_and_size : forall w visits o g, run w visits = Ok o -> In g (out_files o) ->
  (forall b, In b (g_items g) -> binder_namespace w b = g_ns g) /\
  ((g_items g = [] /\ g_body g = g_call g) \/
   exists p x before k, g_items g = p ++ [x] /\ (N.of_nat (length before) < max_file_size (wopt w))%N /\
     g_body g = before ++ (if g_skip g then []
                           else (if trace (wopt w) then trace_line k (decl_id w (b_decl x)) else []) ++ b_code x)).
Proof.
  intros w visits o g H Hg; destruct (run_inv _ _ _ H) as [l [_ [_ [W _]]]]. pose proof (wrote_files_ok _ _ _ _ _ _ W) as F.
  rewrite Forall_forall in F. destruct (F g Hg) as [A B]. rewrite Forall_forall in A. split; [exact A|exact B].
Qed.
Print Assumptions C33_one_namespace_and_size.

(** C34 *)
Theorem C34_namespace_binder_called_once : forall w visits o ns, run w visits = Ok o ->
  (exists b, In b (out_sorted o) /\ b_code b <> [] /\ binder_namespace w b = ns) ->
  exists g gs, files_of ns (out_files o) = g :: gs /\ g_call g = configured_call w ns /\ (forall g', In g' gs -> g_call g' = []).
Proof.
  intros w visits o ns H [b [Hb [Nb Eb]]]; destruct (run_inv _ _ _ H) as [l [_ [_ [W _]]]].
  destruct (wrote_ns_file _ _ _ _ _ _ b W Hb (proj2 (has_code_iff b) Nb)) as [g [G1 [_ G3]]].
  pose proof (wrote_calls w ns _ _ _ _ _ W) as C. change (count ns []) with 0 in C.
  assert (F : In g (files_of ns (out_files o))) by (apply filter_In; split; [exact G1|apply streqb_eq; congruence]).
  destruct (files_of ns (out_files o)) as [|g0 gs]; [destruct F|]. exists g0, gs; split; [reflexivity|].
  cbn [map] in C. injection C as C1 C2. split; [exact C1|]. intros g' Hg'.
  apply in_map with (f := g_call) in Hg'. rewrite C2 in Hg'. apply in_map_iff in Hg'. destruct Hg' as [x [<- _]]; reflexivity.
Qed.
Print Assumptions C34_namespace_binder_called_once.
(** The call comes first in the body, and no other file of the namespace has one. *)
Theorem C34_call_comes_first : forall w visits o g, run w visits = Ok o -> In g (out_files o) ->
  (exists k, g_body g = g_call g ++ (if g_skip g then [] else texts w k (g_items g))) /\ g_skip g = replaced_namespace w (g_ns g).
Proof.
  intros w visits o g H Hg; destruct (run_inv _ _ _ H) as [l [_ [_ [W _]]]]. split.
  - pose proof (wrote_bodies _ _ _ _ _ _ W) as B. revert B Hg. generalize 0. generalize (out_files o). clear.
    induction l as [|x l IH]; intros n B Hg; [destruct Hg|]. destruct B as [B1 B2]. destruct Hg as [<-|Hg]; [exists n; exact B1|exact (IH _ B2 Hg)].
  - pose proof (wrote_skip _ _ _ _ _ _ W) as K. rewrite Forall_forall in K; exact (K g Hg).
Qed.
Print Assumptions C34_call_comes_first.
Example C34_case : let w := mix_w true false 300 in configured_call w $"n" = [nl; tab] ++ $"add_n(M(""n""));" ++ [nl] /\
  map g_call (files_of $"n" (out_files (out_of w mix_visits))) = [[nl; tab] ++ $"add_n(M(""n""));" ++ [nl]; []].
Proof. vm_compute; split; reflexivity. Qed.
Lemma not_found : forall p s, (match find0 p s with Some _ => false | None => true end) = true -> ~ occurs p s.
Proof. intros p s E; apply find0_none_occurs. destruct (find0 p s); [discriminate|reflexivity]. Qed.
(** When both are configured for one namespace the add-on binder is not called. *)
Theorem C34_add_on_called_refuted : exists w visits o ns b a,
  run w visits = Ok o /\ (exists x, In x (out_sorted o) /\ b_code x <> [] /\ binder_namespace w x = ns) /\
  lookup ns (maps (wcfg w) binder_for_namespaces) = Some b /\ lookup ns (maps (wcfg w) add_on_binder_for_namespaces) = Some a /\
  forall g, In g (out_files o) -> ~ occurs a (g_text g).
Proof.
  set (w := fns_w [flat_fn $"n" $"f" $"<a.hh>"] (mix_options false false 1000%N) ($"+binder_for_namespace n bnd" ++ [nl] ++ $"+add_on_binder_for_namespace n extra" ++ [nl])).
  exists w, [DFun 0], (out_of w [DFun 0]), $"n", $"bnd", $"extra".
  split; [vm_compute; reflexivity|split; [|split; [vm_compute; reflexivity|split; [vm_compute; reflexivity|]]]].
  - eexists; split; [vm_compute; left; reflexivity|split; [vm_compute; discriminate|vm_compute; reflexivity]].
  - assert (A : forallb (fun g => match find0 $"extra" (g_text g) with Some _ => false | None => true end) (out_files (out_of w [DFun 0])) = true) by (vm_compute; reflexivity).
    intros g Hg. exact (not_found _ _ (proj1 (forallb_forall _ _) A g Hg)).
Qed.
Print Assumptions C34_add_on_called_refuted.

(** C35 *)
Theorem C35_flat_names_distinct : forall w visits o, run w visits = Ok o -> flat (wopt w) = true ->
  NoDup ((root_module (wopt w) ++ $".cpp") :: map g_name (out_files o)) /\ NoDup (map g_fun (out_files o)) /\
  map g_name (out_files o) = map (fun k => root_module (wopt w) ++ $"_" ++ dec k ++ $".cpp") (seq 0 (length (out_files o))).
Proof.
  intros w visits o H Fl; destruct (run_inv _ _ _ H) as [l [_ [_ [W _]]]]. destruct (flat_names _ _ _ Fl W) as [A B].
  split; [exact A|split; [exact B|exact (proj1 (wrote_flat _ _ _ _ _ _ Fl W))]].
Qed.
Print Assumptions C35_flat_names_distinct.
Example C35_case : map g_name (out_files (out_of (mix_w false true 300) mix_visits)) = [$"root_0.cpp"; $"root_1.cpp"; $"root_2.cpp"; $"root_3.cpp"].
Proof. vm_compute; reflexivity. Qed.

(** C36: false in the default mode, in three ways. *)
Theorem C36_distinct_names_refuted :
  (exists w visits o, run w visits = Ok o /\ flat (wopt w) = false /\ ~ NoDup (map g_name (out_files o))) /\
  (exists w visits o, run w visits = Ok o /\ flat (wopt w) = false /\ NoDup (map g_name (out_files o)) /\ ~ NoDup (map g_fun (out_files o))) /\
  (exists w visits o, run w visits = Ok o /\ flat (wopt w) = false /\ In (root_module (wopt w) ++ $".cpp") (map g_name (out_files o))).
Proof.
  split; [|split].
  - set (w := fns_w [flat_fn $"n" $"f" $"<a.hh>"; flat_fn $"m" $"g" $"<a.hh>"; flat_fn $"k" $"h" $"<a_1.hh>"] (mix_options false false 1000%N) []).
    exists w, [DFun 0; DFun 1; DFun 2], (out_of w [DFun 0; DFun 1; DFun 2]). split; [vm_compute; reflexivity|split; [reflexivity|]].
    assert (E : map g_name (out_files (out_of w [DFun 0; DFun 1; DFun 2])) = [$"a.cpp"; $"a_1.cpp"; $"a_1.cpp"]) by (vm_compute; reflexivity).
    rewrite E; intros N; inversion N as [|? ? _ N2]; inversion N2 as [|? ? X _]; apply X; left; reflexivity.
  - set (w := fns_w [flat_fn $"n" $"f" $"<a/b.hh>"; flat_fn $"m" $"g" $"<a_b.hh>"] (mix_options false false 1000%N) []).
    exists w, [DFun 0; DFun 1], (out_of w [DFun 0; DFun 1]). split; [vm_compute; reflexivity|split; [reflexivity|]].
    assert (E : map g_name (out_files (out_of w [DFun 0; DFun 1])) = [$"a/b.cpp"; $"a_b.cpp"]) by (vm_compute; reflexivity).
    assert (F : map g_fun (out_files (out_of w [DFun 0; DFun 1])) = [$"bind_a_b"; $"bind_a_b"]) by (vm_compute; reflexivity).
    rewrite E, F; split; [constructor; [intros [X|[]]; discriminate|constructor; [intros []|constructor]]|].
    intros N; inversion N as [|? ? X _]; apply X; left; reflexivity.
  - set (w := fns_w [flat_fn $"n" $"f" $"<root.hh>"] (mix_options false false 1000%N) []).
    exists w, [DFun 0], (out_of w [DFun 0]). split; [vm_compute; reflexivity|split; [reflexivity|]]. vm_compute; left; reflexivity.
Qed.
Print Assumptions C36_distinct_names_refuted.
Theorem C36_file_names_distinct : forall w visits o, run w visits = Ok o -> flat (wopt w) = false ->
  (forall b b' k, In b (out_sorted o) -> In b' (out_sorted o) -> b_code b <> [] -> b_code b' <> [] ->
     file_name_prefix w b <> file_name_prefix w b' ++ $"_" ++ dec k) ->
  NoDup (map g_name (out_files o)).
Proof.
  intros w visits o H Fl N; destruct (run_inv _ _ _ H) as [l [_ [_ [W _]]]]. apply (prefix_names w (out_sorted o) _ Fl W).
  intros b b' k H1 H2 H3 H4; apply N; [exact H1|exact H2|apply has_code_iff, H3|apply has_code_iff, H4].
Qed.
Print Assumptions C36_file_names_distinct.
Theorem C36_function_names_distinct : forall w visits o, run w visits = Ok o -> flat (wopt w) = false ->
  let stem b := map (fun c => if Ascii.eqb c "/" then "_"%char else c) (file_name_prefix w b) in
  (forall b b' k, In b (out_sorted o) -> In b' (out_sorted o) -> b_code b <> [] -> b_code b' <> [] -> stem b <> stem b' ++ $"_" ++ dec k) ->
  (forall b b', In b (out_sorted o) -> In b' (out_sorted o) -> b_code b <> [] -> b_code b' <> [] ->
     stem b = stem b' -> file_name_prefix w b = file_name_prefix w b') ->
  NoDup (map g_fun (out_files o)).
Proof.
  intros w visits o H Fl stem N1 N2; destruct (run_inv _ _ _ H) as [l [_ [_ [W _]]]]. apply (prefix_functions w (out_sorted o) _ Fl W).
  - intros b b' k H1 H2 H3 H4; apply N1; [exact H1|exact H2|apply has_code_iff, H3|apply has_code_iff, H4].
  - intros b b' H1 H2 H3 H4; apply N2; [exact H1|exact H2|apply has_code_iff, H3|apply has_code_iff, H4].
Qed.
Print Assumptions C36_function_names_distinct.
Example C36_case : map (file_name_prefix (mix_w true false 300)) (filter has_code (out_sorted (out_of (mix_w true false 300) mix_visits))) = [$"a"; $"a"; $"a"; $"s"; $"b"].
Proof. vm_compute; reflexivity. Qed.

(** C37 *)
Theorem C37_namespaces_listed : forall w visits o, run w visits = Ok o ->
  StronglySorted byte_less (out_namespaces o) /\
  (forall x, In x (out_namespaces o) <-> exists b, In b (out_sorted o) /\ b_code b <> [] /\ encloses (binder_namespace w b) x) /\
  (forall n inner x, In n (out_namespaces o) -> last_separator n inner x -> inner <> [] -> before (out_namespaces o) inner n).
Proof.
  intros w visits o H; destruct (run_inv _ _ _ H) as [l [_ [_ [_ ->]]]].
  assert (S : StronglySorted strlt (nested_namespaces w (out_sorted o))) by apply set_of_sorted.
  split; [exact (sorted_byte _ S)|split].
  - intros x; split.
    + intros Hx. apply nested_namespaces_In in Hx. destruct Hx as [b [H1 [H2 H3]]]. exists b; split; [exact H1|split; [apply has_code_iff, H2|exact H3]].
    + intros [b [H1 [H2 H3]]]. apply nested_namespaces_In. exists b; split; [exact H1|split; [apply has_code_iff, H2|exact H3]].
  - intros n inner x Hn L Hi. apply sorted_before; [exact S|exact (nested_namespaces_closed _ _ _ _ _ Hn L Hi)|exact Hn|].
    destruct L as [-> _]. apply strlt_prefix. discriminate.
Qed.
Print Assumptions C37_namespaces_listed.
(** Running the list in the generated module: every parent exists when it is
    used, and afterwards the namespace of every bound item is a module. *)
Theorem C37_modules_exist : forall w visits o, run w visits = Ok o ->
  (forall b, In b (out_sorted o) -> b_code b <> [] -> ~ exists r, binder_namespace w b = $"::" ++ r) ->
  exists modules, run_submodules (map (fun n => (base_namespace n, last_namespace n)) (out_namespaces o)) [[]] = Some modules /\
    forall b, In b (out_sorted o) -> b_code b <> [] -> In (binder_namespace w b) modules.
Proof.
  intros w visits o H N; destruct (run_inv _ _ _ H) as [l [_ [_ [_ ->]]]].
  destruct (modules_exist w (out_sorted o)) as [m [M1 M2]].
  - intros b Hb Hc. apply has_code_iff in Hc. destruct (prefixb $"::" (binder_namespace w b)) eqn:E; [|reflexivity].
    exfalso; apply (N b Hb Hc). apply prefixb_iff in E. destruct E as [r E]; exists r; exact E.
  - exists m; split; [exact M1|]. intros b Hb Hc; apply M2; [exact Hb|apply has_code_iff, Hc].
Qed.
Print Assumptions C37_modules_exist.
Example C37_case : out_namespaces (out_of (mix_w true false 300) mix_visits) = [$"n"; $"n::m"] /\
  run_submodules (map (fun n => (base_namespace n, last_namespace n)) [$"n"; $"n::m"]) [[]] = Some [$"n::m"; $"n"; []].
Proof. vm_compute; split; reflexivity. Qed.

(** What a run leaves on disk when it writes its files, provided their names
    are different (C35, C36). *)
Theorem C38_files_on_disk : forall mkdir_ok can_open w visits o before_ after_, run w visits = Ok o -> single_file (wopt w) = false ->
  write_output mkdir_ok can_open w o before_ = Ok after_ ->
  NoDup ((root_module (wopt w) ++ $".cpp") :: map g_name (out_files o)) ->
  let dir := prefix (wopt w) ++ $"/" in
  (forall g, In g (out_files o) -> content after_ (dir ++ g_name g) = g_text g) /\
  content after_ (dir ++ root_module (wopt w) ++ $".cpp") = root_text w (out_namespaces o) (out_files o) /\
  (can_open (dir ++ root_module (wopt w) ++ $".sources") = true -> content after_ (dir ++ root_module (wopt w) ++ $".sources") =
     concat (map (fun name => name ++ [nl]) ((root_module (wopt w) ++ $".cpp") :: map g_name (out_files o)))) /\
  (forall q, ~ In q (map (fun name => dir ++ name) ((root_module (wopt w) ++ $".cpp") :: map g_name (out_files o))) ->
     q <> dir ++ root_module (wopt w) ++ $".sources" -> q <> dir ++ root_module (wopt w) ++ $".modules" ->
     lookup q (files after_) = lookup q (files before_)).
Proof.
  intros mkdir_ok can_open w visits o f f' H S E N dir; destruct (run_inv _ _ _ H) as [l [_ [_ [W _]]]].
  destruct (write_output_effect _ _ _ _ _ _ S E N (wrote_cpp _ _ _ _ _ _ W)) as [A [B [C [_ D]]]]. unfold path_of in A, B, D.
  assert (P : forall x, dir ++ x = prefix (wopt w) ++ $"/" ++ x) by (intros x; unfold dir; rewrite <- app_assoc; reflexivity).
  assert (R : forall x, dir ++ root_module (wopt w) ++ x = root_path w ++ x) by (intros x; unfold dir, root_path; rewrite <- !app_assoc; reflexivity).
  split; [intros g Hg; rewrite P; exact (A g Hg)|split; [rewrite P; exact B|split]].
  - intros K; rewrite R in *. exact (C K).
  - intros q Q1 Q2 Q3. rewrite R in Q2, Q3. apply D; [|exact Q2|exact Q3]. intros X; apply Q1.
    rewrite (map_ext _ (fun name => prefix (wopt w) ++ $"/" ++ name) P). exact X.
Qed.
Print Assumptions C38_files_on_disk.
Example C38_case : let w := mix_w true false 300 in let o := out_of w mix_visits in
  single_file (wopt w) = false /\
  match write_output (fun _ => true) (fun _ => true) w o (mkfs [] []) with
  | Ok f => content f ($"out/root.sources") = $"root.cpp" ++ [nl] ++ $"a.cpp" ++ [nl] ++ $"a_1.cpp" ++ [nl] ++ $"s.cpp" ++ [nl] ++ $"b.cpp" ++ [nl] /\ length (files f) = 7
  | _ => False
  end.
Proof. vm_compute. repeat split. Qed.

(** C39 *)
Theorem C39_trace_lines : forall w visits o, run w visits = Ok o -> trace (wopt w) = true ->
  let items := written (out_files o) in
  concat (map (fun g => skipn (length (g_call g)) (g_body g)) (out_files o)) =
  concat (map (fun p => trace_line (fst p) (decl_id w (b_decl (snd p))) ++ b_code (snd p)) (combine (seq 0 (length items)) items)).
Proof.
  intros w visits o H T items; destruct (run_inv _ _ _ H) as [l [_ [_ [W _]]]]. rewrite (bodies_texts _ _ _ (wrote_bodies _ _ _ _ _ _ W)).
  exact (texts_trace w 0 _ T).
Qed.
Print Assumptions C39_trace_lines.
Lemma first_char_split (c : ascii) x y a b : ~ In c x -> ~ In c y -> x ++ c :: a = y ++ c :: b -> x = y.
Proof.
  revert y a b. induction x as [|d x IH]; intros [|e y] a b Hx Hy E; cbn in E; [reflexivity| | |].
  - injection E as -> _. exfalso; apply Hy; left; reflexivity.
  - injection E as -> _. exfalso; apply Hx; left; reflexivity.
  - injection E as -> E. f_equal. apply (IH y a b); [intros H; apply Hx; right; exact H|intros H; apply Hy; right; exact H|exact E].
Qed.
Theorem C39_lines_differ : forall n m id id', trace_line n id = trace_line m id' -> n = m.
Proof.
  intros n m id id' E. unfold trace_line in E. injection E as E. apply dec_inj.
  apply (first_char_split "_" (dec n) (dec m) (("["%char :: id) ++ $"]"" << std::endl;" ++ [nl]) (("["%char :: id') ++ $"]"" << std::endl;" ++ [nl]));
    [apply dec_no_char; reflexivity|apply dec_no_char; reflexivity|exact E].
Qed.
Print Assumptions C39_lines_differ.

(** C40 *)
Theorem C40_collection_ends : forall w U d, closed_unit w U -> In d U -> length U <= e_fuel (wenv w) ->
  add_includes (e_fuel (wenv w)) w d 0 (mkis [] []) <> Diverges.
Proof.
  intros w U d C Hd L. apply (proj1 (includes_fine w U C (e_fuel (wenv w))) d 0 (mkis [] []) []);
    [exact Hd|constructor|intros x []|intros x []|cbn [length]; lia].
Qed.
Print Assumptions C40_collection_ends.
Theorem C40_revisits_only_closer : forall w d s, add_includes (e_fuel (wenv w)) w d 0 (mkis [] []) = Ok s -> revisits_smaller (stack s).
Proof. intros w d s E; apply (revisits_kept _ _ _ _ _ _ E). intros later x n earlier m H; destruct later; discriminate. Qed.
Print Assumptions C40_revisits_only_closer.
Theorem C40_exactly_the_needed_headers : forall w d s, add_includes (e_fuel (wenv w)) w d 0 (mkis [] []) = Ok s ->
  forall i, In i (incs s) <-> needs_header w (fun d' level => d' = d /\ level = 0) i.
Proof.
  intros w d s E i. split.
  - intros Hi.
    assert (S : sound w (fun d' level => d' = d /\ level = 0) (fun _ => False) s).
    { apply (proj1 (sound_all w _ _ _) _ _ _ _ E); [apply R_start; split; reflexivity|]. split; [intros x []|intros x l []]. }
    destruct (proj1 S i Hi) as [[]|N]; exact N.
  - destruct (proj1 (pending_all w _) _ _ _ _ [] E) as [P B]; [intros x l []|].
    apply (needed_collected w _ s i P). intros x l [-> ->]; exact B.
Qed.
Print Assumptions C40_exactly_the_needed_headers.
(** A unit with a cycle: P mentions Q and Q mentions P. *)
Ltac one_of H := match type of H with False => destruct H | _ \/ _ => destruct H as [H|H]; [|one_of H] | _ => idtac end.
Ltac visits_inside H :=
  match type of H with
  | looks_at ?w ?d ?n ?a =>
      let E := fresh in
      eassert (E : actions w d n = Ok _) by (vm_compute; reflexivity);
      apply (proj2 (actions_spec _ _ _ _ E a)) in H; cbn [In] in H; one_of H; try discriminate H; injection H as <- <-; cbn; tauto
  end.
Lemma cyc_closed : closed_unit cyc_w cyc_unit.
Proof.
  intros d level d' level' Hd H. unfold cyc_unit in Hd. cbn [In] in Hd.
  destruct level as [|[|level]]; one_of Hd; subst d; visits_inside H.
Qed.
Example C40_case : closed_unit cyc_w cyc_unit /\ In (DRec 0) cyc_unit /\ length cyc_unit <= e_fuel (wenv cyc_w) /\
  exists s, add_includes (e_fuel (wenv cyc_w)) cyc_w (DRec 0) 0 (mkis [] []) = Ok s /\
    incs s = [$"<P.hh>"; $"<P.hh>"; $"<Q.hh>"; $"<Q.hh>"] /\ stack s = [(DFun 1, 2); (DRec 1, 1); (DFun 0, 1); (DRec 0, 0)].
Proof.
  split; [exact cyc_closed|split; [left; reflexivity|split; [vm_compute; lia|]]].
  eexists; split; [vm_compute; reflexivity|split; vm_compute; reflexivity].
Qed.

(** C59 *)
Theorem C59_run_terminates : forall w U visits, translation_unit w U -> hierarchy_acyclic w -> nesting_acyclic w -> incl visits U ->
  (0 < max_file_size (wopt w))%N -> run w visits <> Diverges.
Proof. exact generate_terminates. Qed.
Print Assumptions C59_run_terminates.
(** The mixed sample is such a unit. *)
Definition mix_unit : list decl := [DFun 0; DFun 1; DRec 0; DRec 1; DRec 2; DRec 3; DRec 4; DEnum 0].
Lemma mix_inherits : forall t f m r c, inherits (mix_w t f m) r c -> r = 1 /\ c = 0.
Proof. intros t f m r c [b [H E]]. destruct (mix_bases _ _ _ _ _ H) as [-> ->]. cbn in E. injection E as <-; split; reflexivity. Qed.
Lemma mix_nested : forall t f m r i, ~ public_nested (mix_w t f m) r i.
Proof. intros t f m r i H. apply nested_classes_In in H. destruct r as [|[|[|[|[|[|r]]]]]]; vm_compute in H; tauto. Qed.
Lemma mix_nests : forall t f m r i, ~ nests (mix_w t f m) r i.
Proof. intros t f m r i [H|[j [H _]]]; exact (mix_nested _ _ _ _ _ H). Qed.
Lemma mix_is_unit : forall tracing flat_names max, translation_unit (mix_w tracing flat_names max) mix_unit.
Proof.
  intros tracing flat_names max. split.
  - intros d level d' level' Hd H. unfold mix_unit in Hd. cbn [In] in Hd.
    destruct level as [|[|level]]; one_of Hd; subst d; visits_inside H.
  - intros r c H. destruct (mix_inherits _ _ _ _ _ H) as [-> ->]. cbn; tauto.
  - intros r i H. destruct (mix_nests _ _ _ _ _ H).
  - intros r f H1 H2. unfold mix_unit in H1; cbn [In] in H1. one_of H1; try discriminate H1; injection H1 as <-; apply in_methods in H2; vm_compute in H2; tauto.
  - vm_compute; lia.
Qed.
Example C59_case : forall tracing flat_names max, (0 < max)%N -> run (mix_w tracing flat_names max) mix_visits <> Diverges.
Proof.
  intros tracing flat_names max M. apply (C59_run_terminates _ mix_unit); [apply mix_is_unit| | | |exact M].
  - intros r H. assert (X : r = 1 /\ r = 0).
    { assert (G : forall a b, Relation_Operators.clos_trans nat (inherits (mix_w tracing flat_names max)) a b -> a = 1 /\ b = 0).
      { clear. intros a b H. induction H as [a b H|a b c _ [A1 A2] _ [B1 B2]]; [exact (mix_inherits _ _ _ _ _ H)|split; assumption]. }
      exact (G r r H). }
    destruct X as [-> X]; discriminate X.
  - intros r H. apply Operators_Properties.clos_trans_t1n in H.
    destruct H as [y H|y z H _]; exact (mix_nests _ _ _ _ _ H).
  - intros d Hd. unfold mix_visits in Hd; cbn [In] in Hd; one_of Hd; subst d; cbn; tauto.
Qed.
