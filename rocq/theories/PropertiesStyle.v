(** C83: settings on the form of the code do not change what is bound. *)
From Coq Require Import Ascii String Bool Arith NArith.
From Coq Require Import List.
From Verif Require Import Str StrFacts SpecUtil Util Config SpecConfig ConfigFacts Ast Types Func Enum Includes Class Context SpecContext SpecOutput SpecSettings SpecLayout
  SpecStyle StyleConfig StyleRun ContextFacts RunFacts WriteFacts Samples PropertiesContext PropertiesLayout.
Import ListNotations.

Local Opaque binder_namespace nested_namespaces plan run.
(** Every decision of the two runs is the same: what is bound, in which order,
    what it depends on, what it includes, and how the run fails if it does. *)
Theorem C83_same_decisions : forall e c c' o o' visits, same_selection c c' -> same_selecting_options o o' ->
  same_outcome (fun p p' => Forall2 same_item (fst p) (fst p') /\ snd p' = snd p) (plan (mkworld e c o) visits) (plan (mkworld e c' o') visits).
Proof. intros e c c' o o' visits H Ho. exact (StyleRun.plan_same e c c' o o' H Ho visits). Qed.
Print Assumptions C83_same_decisions.
(** The files of two successful runs bind the same declarations in the same
    order and in the same modules. *)
Theorem C83_same_items : forall e c c' o o' visits x x', same_selection c c' -> same_selecting_options o o' ->
  run (mkworld e c o) visits = Ok x -> run (mkworld e c' o') visits = Ok x' ->
  out_log x' = out_log x /\ Forall2 same_item (out_sorted x) (out_sorted x') /\ out_namespaces x' = out_namespaces x /\
  map b_decl (filter has_code (flat_map g_items (out_files x'))) = map b_decl (filter has_code (flat_map g_items (out_files x))).
Proof.
  intros e c c' o o' visits x x' H Ho R R'. destruct (run_plan _ _ _ R) as [P N], (run_plan _ _ _ R') as [P' N'].
  pose proof (C83_same_decisions e c c' o o' visits H Ho) as K. rewrite P, P' in K. destruct K as [A B]. cbn [fst snd] in A, B.
  destruct (C31_every_bound_item_in_one_file _ _ _ R) as [I1 _], (C31_every_bound_item_in_one_file _ _ _ R') as [I2 _].
  split; [exact B|split; [exact A|split; [rewrite N, N'; exact (StyleRun.namespaces_same e c c' o o' H Ho _ _ A)|]]].
  rewrite I1, I2. apply sims_decls, sims_filter. exact A.
Qed.
Print Assumptions C83_same_items.
(** Two config files that differ only in directives on the form of the code
    (and in comments, and in the functions that +binder directives name) give
    settings that select the same. *)
Theorem C83_config_files : forall bind skip file text text' c c', same_but_style (split text [nl]) (split text' [nl]) ->
  setup default_config bind skip file (Some text) = Ok c -> setup default_config bind skip file (Some text') = Ok c' -> same_selection c c'.
Proof.
  intros bind skip file text text' c c' S. unfold setup. cbv zeta. destruct file as [|ch f].
  - intros X Y. apply Ok_inj in X. apply Ok_inj in Y. subst. apply sel_refl.
  - unfold read, read_text. intros X Y. exact (read_lines_style _ _ S _ _ _ _ (sel_refl _) X Y).
Qed.
Print Assumptions C83_config_files.
Theorem C83_with_config_files : forall bind skip file text text' c c' e o o' visits x x', same_but_style (split text [nl]) (split text' [nl]) ->
  setup default_config bind skip file (Some text) = Ok c -> setup default_config bind skip file (Some text') = Ok c' -> same_selecting_options o o' ->
  run (mkworld e c o) visits = Ok x -> run (mkworld e c' o') visits = Ok x' ->
  map b_decl (filter has_code (flat_map g_items (out_files x'))) = map b_decl (filter has_code (flat_map g_items (out_files x))).
Proof.
  intros bind skip file text text' c c' e o o' visits x x' S C C' Ho R R'.
  exact (proj2 (proj2 (proj2 (C83_same_items e c c' o o' visits x x' (C83_config_files _ _ _ _ _ _ _ S C C') Ho R R')))).
Qed.
Print Assumptions C83_with_config_files.

(** Two config files that differ in the call guard, in the prefix of static
    member functions, in an add-on, in a comment and in the name of a replacing
    function: other code for the same five items. *)
Definition plain_text : str := $"-class n::K" ++ [nl] ++ $"+binder n::A bind_a" ++ [nl].
Definition styled_text : str :=
  $"# style" ++ [nl] ++ $"+default_call_guard py::gil_scoped_release" ++ [nl] ++ $"-class n::K" ++ [nl] ++ $"+binder n::A my_bind_a" ++ [cr; nl] ++
  $"+add_on_binder n::m::B more" ++ [nl] ++ $"+prefix_for_static_member_functions s_" ++ [nl].
Definition text_config (text : str) : config :=
  match setup default_config [$"n"; []] [] $"c" (Some text) with Ok c => c | _ => default_config end.
Example C83_case : same_but_style (split plain_text [nl]) (split styled_text [nl]) /\
  same_selecting_options (mix_options false false 300) layout_options /\
  (exists c c', setup default_config [$"n"; []] [] $"c" (Some plain_text) = Ok c /\ setup default_config [$"n"; []] [] $"c" (Some styled_text) = Ok c') /\
  (exists x x', run (mkworld mix_env (text_config plain_text) (mix_options false false 300)) mix_visits = Ok x /\
     run (mkworld mix_env (text_config styled_text) layout_options) mix_visits = Ok x' /\
     map b_decl (filter has_code (flat_map g_items (out_files x))) = [DFun 1; DRec 0; DEnum 0; DRec 2; DRec 1] /\
     map b_code (out_sorted x) <> map b_code (out_sorted x')).
Proof.
  split; [|split; [split; reflexivity|split]].
  - change (split plain_text [nl]) with [$"-class n::K"; $"+binder n::A bind_a"].
    change (split styled_text [nl]) with [$"# style"; $"+default_call_guard py::gil_scoped_release"; $"-class n::K"; $"+binder n::A my_bind_a" ++ [cr];
      $"+add_on_binder n::m::B more"; $"+prefix_for_static_member_functions s_"].
    assert (Sp : forall l : str, existsb (Ascii.eqb sp) l = false -> ~ In sp l).
    { intros l F X. assert (T : existsb (Ascii.eqb sp) l = true) by (apply existsb_exists; exists sp; split; [exact X|apply Ascii.eqb_refl]). congruence. }
    assert (Ln : forall l : str, match rev l with c :: _ => Ascii.eqb c cr | [] => false end = false -> line_text l l).
    { intros l F. right. split; [reflexivity|]. intros t ->. rewrite rev_unit, Ascii.eqb_refl in F. discriminate. }
    apply sb_second; [left; right; left; exists $" style"; reflexivity|].
    apply sb_second; [right; exists true, $"default_call_guard", $"py::gil_scoped_release"; split; [split; [discriminate|split; [apply Ln; reflexivity|apply Sp; reflexivity]]|unfold style_tokens; cbn [In]; tauto]|].
    apply sb_same. apply (sb_binder _ _ $"n::A" $"n::A bind_a" $"bind_a" $"n::A my_bind_a" $"my_bind_a").
    + split; [discriminate|split; [apply Ln; reflexivity|apply Sp; reflexivity]].
    + exists sp. split; [left; reflexivity|split; [reflexivity|]]. intros ch X. cbn [In] in X. repeat (destruct X as [<-|X]; [intros [Y|Y]; discriminate Y|]). contradiction.
    + split; [discriminate|split; [left; reflexivity|apply Sp; reflexivity]].
    + exists sp. split; [left; reflexivity|split; [reflexivity|]]. intros ch X. cbn [In] in X. repeat (destruct X as [<-|X]; [intros [Y|Y]; discriminate Y|]). contradiction.
    + apply sb_second; [right; exists true, $"add_on_binder", $"n::m::B more"; split; [split; [discriminate|split; [apply Ln; reflexivity|apply Sp; reflexivity]]|unfold style_tokens; cbn [In]; tauto]|].
      apply sb_second; [right; exists true, $"prefix_for_static_member_functions", $"s_"; split; [split; [discriminate|split; [apply Ln; reflexivity|apply Sp; reflexivity]]|unfold style_tokens; cbn [In]; tauto]|].
      apply sb_end.
  - eexists _, _. split; reflexivity.
  - Local Transparent run. eexists _, _. split; [vm_compute; reflexivity|split; [vm_compute; reflexivity|]]. vm_compute. split; [reflexivity|discriminate].
Qed.
(** The holder type is not a matter of form: a class of that name counts as
    known to Python and is no longer bound. *)
Theorem C83_holder_refuted : ~ (forall e c c' o visits x x', (forall k, lists c' k = lists c k) -> (forall k, maps c' k = maps c k) ->
  run (mkworld e c o) visits = Ok x -> run (mkworld e c' o) visits = Ok x' -> out_log x' = out_log x).
Proof.
  intros K.
  destruct (run (mkworld mix_env mix_config (mix_options false false 300)) mix_visits) as [x| | | |] eqn:R; try (vm_compute in R; discriminate R).
  destruct (run (mkworld mix_env (assign holder_type $"S" mix_config) (mix_options false false 300)) mix_visits) as [x'| | | |] eqn:R'; try (vm_compute in R'; discriminate R').
  specialize (K mix_env mix_config (assign holder_type $"S" mix_config) _ _ _ _ (fun k => eq_refl) (fun k => eq_refl) R R').
  vm_compute in R. apply Ok_inj in R. vm_compute in R'. apply Ok_inj in R'. subst x x'. discriminate K.
Qed.
Print Assumptions C83_holder_refuted.
