(** C74 and C75: the layout options. *)
From Coq Require Import Ascii String Bool Arith NArith.
From Coq Require Import List.
From Verif Require Import Str StrFacts SpecUtil Util Config SpecConfig ConfigFacts Ast Types Func Enum Includes Class Context SpecContext SpecOutput SpecSettings SpecLayout
  RunFacts WriteFacts SettingsRun LayoutRun Samples PropertiesContext.
Import ListNotations.

Local Opaque binder_namespace nested_namespaces plan run.
(** C74: what is bound, with which code and in which order, is decided before
    any layout option is looked at; this includes every way to fail. *)
Theorem C74_content_independent_of_layout : forall e c o o' visits, same_content_options o o' ->
  plan (mkworld e c o') visits = plan (mkworld e c o) visits.
Proof. intros e c o o' visits H. exact (plan_same e c o o' H visits). Qed.
Print Assumptions C74_content_independent_of_layout.

Lemma run_plan w visits x : run w visits = Ok x -> plan w visits = Ok (out_sorted x, out_log x) /\ out_namespaces x = nested_namespaces w (out_sorted x).
Proof.
  Local Transparent run plan. unfold run, generate, plan. Local Opaque run plan. destruct (bind_all w (collect w visits)) as [[l log]| | | |]; cbn [bind_r]; try discriminate.
  destruct (sort_binders w l) as [s| | | |]; cbn [bind_r]; try discriminate. destruct (write_files w s); cbn [bind_r]; try discriminate.
  intros X. injection X as <-. split; reflexivity.
Qed.
Lemma texts_silent w : trace (wopt w) = false -> forall l n, texts w n l = concat (map b_code (filter has_code l)).
Proof.
  intros T. induction l as [|b l IH]; intros n; cbn [texts filter]; [reflexivity|]. rewrite T. rewrite IH. cbn [app].
  destruct (has_code b) eqn:E; cbn [map concat]; [reflexivity|]. unfold has_code in E. destruct (b_code b); [reflexivity|discriminate].
Qed.
(** The files of two successful runs hold the same items and modules; without
    --trace the same code, in the same order. *)
Theorem C74_same_items_and_code : forall e c o o' visits x x', same_content_options o o' ->
  run (mkworld e c o) visits = Ok x -> run (mkworld e c o') visits = Ok x' ->
  out_log x' = out_log x /\ out_sorted x' = out_sorted x /\ out_namespaces x' = out_namespaces x /\
  filter has_code (flat_map g_items (out_files x')) = filter has_code (flat_map g_items (out_files x)) /\
  filter has_code (written (out_files x')) = filter has_code (written (out_files x)) /\
  (trace o = false -> trace o' = false ->
   concat (map (fun g => skipn (length (g_call g)) (g_body g)) (out_files x')) = concat (map (fun g => skipn (length (g_call g)) (g_body g)) (out_files x))).
Proof.
  intros e c o o' visits x x' H R R'. destruct (run_plan _ _ _ R) as [P N], (run_plan _ _ _ R') as [P' N'].
  rewrite (plan_same e c o o' H visits), P in P'. injection P' as S L.
  destruct (C31_every_bound_item_in_one_file _ _ _ R) as [A [B _]], (C31_every_bound_item_in_one_file _ _ _ R') as [A' [B' _]].
  assert (W : filter has_code (written (out_files x')) = filter has_code (written (out_files x))).
  { rewrite B, B', <- S, (LayoutFacts.f_binder_namespace e c o o' H). reflexivity. }
  split; [exact (eq_sym L)|split; [exact (eq_sym S)|split; [rewrite N', N, <- S; apply (namespaces_same e c o o' H)|split; [rewrite A', A, S; reflexivity|split; [exact W|]]]]].
  intros T T'. rewrite (C31_code_in_order _ _ _ R), (C31_code_in_order _ _ _ R').
  rewrite (texts_silent (mkworld e c o) T), (texts_silent (mkworld e c o') T'), W. reflexivity.
Qed.
Print Assumptions C74_same_items_and_code.
(** Where the files go (--prefix) and whether they are joined (--single-file)
    changes nothing in them; only root module, size limit, --flat, --trace and
    --annotate-includes do. *)
Theorem C74_prefix_and_single_file : forall e c o o' visits, same_content_options o o' ->
  annotate_includes o' = annotate_includes o -> trace o' = trace o -> flat o' = flat o -> root_module o' = root_module o ->
  max_file_size o' = max_file_size o ->
  run (mkworld e c o') visits = run (mkworld e c o) visits.
Proof.
  intros e c o o' visits H An Tr Fl Ro Ma.
  pose proof (run_rel e c o o' H Tr Fl Ro Ma eq (fun i => eq_refl)) as K. rewrite An in K.
  specialize (K (fun h x => eq_refl) (fun i j E => f_equal _ (eq_sym E)) visits).
  destruct (run (mkworld e c o) visits) as [x| | | |], (run (mkworld e c o') visits) as [x'| | | |]; cbn in K; try contradiction; try (symmetry; exact K).
  destruct K as (A&B&C&D). destruct x as [l s f n], x' as [l' s' f' n']; cbn [out_log out_sorted out_files out_namespaces] in *. subst l' s' n'. f_equal. f_equal. clear -D.
  induction D as [|g g' f f' G D IH]; [reflexivity|]. f_equal; [|exact IH]. destruct G as (A1&A2&A3&A4&A5&A6&A7&k&k'&rest&F&T&T').
  assert (E : k' = k) by (clear -F; induction F; [reflexivity|congruence]). subst k'.
  rewrite <- T in T'.
  destruct g as [x1 x2 x3 x4 x5 x6 x7 x8], g' as [y1 y2 y3 y4 y5 y6 y7 y8]; cbn [g_name g_fun g_ns g_call g_skip g_items g_body g_text] in *. subst. reflexivity.
Qed.
Print Assumptions C74_prefix_and_single_file.

(** C75: --annotate-includes only adds comments to include lines. *)
Lemma prefix_before_comment p h comment : ~ In sp p -> begins_with (h ++ $" // " ++ comment) p = begins_with h p.
Proof.
  intros N. assert (K : is_prefix p (h ++ $" // " ++ comment) <-> is_prefix p h).
  { split; [|intros [r ->]; exists (r ++ $" // " ++ comment); rewrite <- app_assoc; reflexivity].
    revert h N. induction p as [|a p IH]; intros h N [r E]; [exists h; reflexivity|]. destruct h as [|b h].
    - exfalso. apply N. left. change ([] ++ $" // " ++ comment) with (sp :: $"// " ++ comment) in E. cbn [app] in E. injection E as E _. symmetry. exact E.
    - cbn [app] in E. injection E as <- E. destruct (IH h) as [q ->]; [intros X; apply N; right; exact X|exists r; exact E|]. exists q. reflexivity. }
  rewrite <- !begins_with_iff in K. destruct (begins_with (h ++ $" // " ++ comment) p), (begins_with h p); try reflexivity; destruct K as [K1 K2].
  - symmetry. apply K1. reflexivity.
  - apply K2. reflexivity.
Qed.
Theorem C75_only_comments_added : forall e c o o' visits,
  same_content_options o o' -> trace o' = trace o -> flat o' = flat o -> root_module o' = root_module o -> max_file_size o' = max_file_size o ->
  annotate_includes o = true -> annotate_includes o' = false ->
  (forall p, In p (lists c includes_to_skip) -> ~ In sp p) ->
  same_outcome same_output_but_comments (run (mkworld e c o) visits) (run (mkworld e c o') visits).
Proof.
  intros e c o o' visits H Tr Fl Ro Ma An An' Sp.
  pose proof (run_rel e c o o' H Tr Fl Ro Ma annotated (fun i => or_introl eq_refl)) as K. rewrite An, An' in K.
  specialize (K (fun h x => or_intror (ex_intro _ x eq_refl))).
  assert (Sk : forall i j, annotated i j -> is_include_skipping_requested c j = is_include_skipping_requested c i).
  { intros i j [->|[comment ->]]; [reflexivity|]. unfold is_include_skipping_requested. revert Sp. generalize (lists c includes_to_skip). intros l Sp.
    induction l as [|p l IH]; [reflexivity|]. cbn [existsb]. rewrite prefix_before_comment; [|apply Sp; left; reflexivity]. f_equal. apply IH. intros q Hq. apply Sp. right. exact Hq. }
  specialize (K Sk visits).
  destruct (run (mkworld e c o) visits) as [x| | | |], (run (mkworld e c o') visits) as [x'| | | |]; cbn in K |- *; try exact K.
  destruct K as (A&B&C&D). split; [exact A|split; [exact B|split; [exact C|]]]. clear -D. induction D as [|g g' f f' G D IH]; constructor; [|exact IH]. revert G. clear.
  intros (A1&A2&A3&A4&A5&A6&A7&k&k'&rest&F&T&T'). repeat (split; [assumption|]). exists (set_of k), (set_of k'), rest. split; [exact T|split; [exact T'|]].
  clear -F. split.
  - intros i Hi. apply (set_of_In k) in Hi. revert i Hi. induction F as [|a b k k' R F IH]; intros i []; [subst; exists b; split; [apply set_of_In; left; reflexivity|exact R]|].
    destruct (IH i H) as [j [Hj Rj]]. exists j. split; [apply set_of_In; right; apply (set_of_In k'); exact Hj|exact Rj].
  - intros j Hj. apply (set_of_In k') in Hj. revert j Hj. induction F as [|a b k k' R F IH]; intros j []; [subst; exists a; split; [apply set_of_In; left; reflexivity|exact R]|].
    destruct (IH j H) as [i [Hi Ri]]. exists i. split; [apply set_of_In; right; apply (set_of_In k); exact Hi|exact Ri].
Qed.
Print Assumptions C75_only_comments_added.
(** A config file never puts a space in a -include entry. *)
Theorem C75_with_a_config_file : forall bind skip file text c e o o' visits, file <> [] -> setup default_config bind skip file (Some text) = Ok c ->
  same_content_options o o' -> trace o' = trace o -> flat o' = flat o -> root_module o' = root_module o -> max_file_size o' = max_file_size o ->
  annotate_includes o = true -> annotate_includes o' = false ->
  same_outcome same_output_but_comments (run (mkworld e c o) visits) (run (mkworld e c o') visits).
Proof.
  intros bind skip file text c e o o' visits Nf S. intros. apply C75_only_comments_added; auto. intros p Hp.
  apply (setup_other_lists bind skip file text c includes_to_skip false $"include" Nf S eq_refl) in Hp; [|discriminate|discriminate]. exact (listed_no_space _ _ _ _ Hp).
Qed.
Print Assumptions C75_with_a_config_file.

(** The mixed sample: other names, limits and tracing give other files with the
    same code; with annotated includes the same files up to comments. *)
Definition layout_options : options := mkoptions false false true true true false $"other" 100%N true $"elsewhere" false.
Definition noted_options : options := mkoptions true false false false false false $"root" 300%N true $"out" false.
Example C74_case : same_content_options (mix_options false false 300) layout_options /\
  (exists x x', run (mkworld mix_env mix_config (mix_options false false 300)) mix_visits = Ok x /\ run (mkworld mix_env mix_config layout_options) mix_visits = Ok x' /\
     map g_name (out_files x) <> map g_name (out_files x') /\ length (out_files x) <> length (out_files x') /\ 4 <= length (out_log x)).
Proof.
  split; [repeat split|]. eexists _, _. split; [vm_compute; reflexivity|split; [vm_compute; reflexivity|]]. vm_compute. repeat split; try discriminate.
  repeat constructor.
Qed.
Example C75_case : same_content_options noted_options (mix_options false false 300) /\ annotate_includes noted_options = true /\
  (exists x x', run (mkworld mix_env mix_config noted_options) mix_visits = Ok x /\ run (mkworld mix_env mix_config (mix_options false false 300)) mix_visits = Ok x' /\
     firstn 23 (g_text (nth 0 (out_files x) (mkfile [] [] [] [] false [] [] []))) = $"#include <a.hh> // n::A" /\
     firstn 16 (g_text (nth 0 (out_files x') (mkfile [] [] [] [] false [] [] []))) = $"#include <a.hh>" ++ [nl]).
Proof.
  split; [repeat split|split; [reflexivity|]]. eexists _, _. split; [vm_compute; reflexivity|split; [vm_compute; reflexivity|]]. vm_compute. split; reflexivity.
Qed.
