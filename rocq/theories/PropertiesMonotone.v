(** C84: asking for more never removes a binding. *)
From Coq Require Import Ascii String Bool Arith NArith.
From Coq Require Import List.
From Verif Require Import Str StrFacts SpecUtil Util Config SpecConfig ConfigFacts Ast Types Func Enum Includes Class Context SpecTypes SpecBind SpecClass ClassFacts SpecContext ContextFacts
  SpecRequests RunFacts OrderFacts RequestFacts PropertiesRequests SpecMonotone MonotoneConfig StyleConfig Samples.
From Verif Require MonotoneNames MonotoneFacts.
Import ListNotations.

Lemma visit_more e c c' o o' d x : asks_for_more c c' -> options_for_more o o' -> visit (mkworld e c' o') d x = visit (mkworld e c o) d x.
Proof.
  intros H Ho. destruct d as [f|r|i]; cbn [visit];
    rewrite ?(MonotoneNames.f_fun_ e c c' o o' H Ho), ?(MonotoneNames.f_rec_ e c c' o o' H Ho), ?(MonotoneNames.f_enum_ e c c' o o' H Ho),
      ?(MonotoneNames.f_add e c c' o o' H Ho), ?(MonotoneNames.f_add_insertion_operator e c c' o o' H Ho),
      ?(MonotoneNames.s_is_bindable_fun e c c' o o' H Ho), ?(MonotoneNames.s_is_bindable_rec e c c' o o' H Ho); reflexivity.
Qed.
Lemma collect_more e c c' o o' l : asks_for_more c c' -> options_for_more o o' -> collect (mkworld e c' o') l = collect (mkworld e c o) l.
Proof.
  intros H Ho. unfold collect. generalize empty_context. induction l as [|d l IH]; intros x; cbn [fold_left]; [reflexivity|]. rewrite (visit_more e c c' o o' d x H Ho). apply IH.
Qed.

(** Of two successful runs, the one that is asked for more binds all that the
    other one binds. *)
Theorem C84_bound_stays_bound : forall e c c' o o' visits x x' d, asks_for_more c c' -> options_for_more o o' ->
  const_is_method (mkworld e c o) -> namespaces_consistent (mkworld e c' o') ->
  run (mkworld e c o) visits = Ok x -> run (mkworld e c' o') visits = Ok x' -> bound x d -> bound x' d.
Proof.
  intros e c c' o o' visits x x' d H Ho Wf C R R' B.
  assert (I : In d (collected_items (mkworld e c o) visits)).
  { destruct B as (b&I&E&_). subst d. apply (Permutation.Permutation_in _ (run_perm _ _ _ R)). apply in_map, I. }
  apply In_nth_error in I. destruct I as [i Hi].
  assert (E : collected_items (mkworld e c' o') visits = collected_items (mkworld e c o) visits) by (unfold collected_items; rewrite (collect_more e c c' o o' visits H Ho); reflexivity).
  assert (Wf' : const_is_method (mkworld e c' o')) by exact Wf.
  pose proof (C77_bound_iff_required (mkworld e c o) visits x) as L. pose proof (C77_bound_iff_required (mkworld e c' o') visits x') as L'. rewrite E in L'.
  revert Hi L L'. destruct (run_inv _ _ _ R') as [l [G _]].
  pose proof (proj2 (proj1 (bind_all_succeeds_iff _ visits) (ex_intro _ (l, out_log x') G))) as D. pose proof (fun j dj => bound_iff (mkworld e c' o') visits x' j dj R') as N.
  rewrite E in D, N. revert D N. generalize (collected_items (mkworld e c o) visits). intros items D N Hi L L'.
  apply (L' i d Wf' R' Hi). apply (MonotoneFacts.required_grows e c c' o o' H Ho (operators (mkworld e c' o') visits) items Wf C).
  - intros j dj Q Hj. apply (D j dj); [|exact Hj]. apply (N j dj Hj). apply (L' j dj Wf' R' Hj). exact Q.
  - apply (L i d Wf R Hi). exact B.
Qed.
Print Assumptions C84_bound_stays_bound.

Lemma selection_grows {A} (P Q : A -> Prop) l a : selection P l a -> (forall x, P x -> Q x) -> forall b, selection Q l b -> sublist a b.
Proof.
  intros S I. induction S as [|x l a X S IH|x l a X S IH]; intros b T; inversion T as [|y m b' Y T'|y m b' Y T']; subst.
  - constructor.
  - apply SL_keep, IH, T'.
  - exfalso. exact (Y (I x X)).
  - apply SL_skip, IH, T'.
  - exact (IH _ T').
Qed.
Lemma sublist_app {A} (a a' b b' : list A) : sublist a a' -> sublist b b' -> sublist (a ++ b) (a' ++ b').
Proof. intros S T. induction S; cbn; [exact T|apply SL_skip, IHS|apply SL_keep, IHS]. Qed.
(** Nor does a class lose anything: member functions, constructors, data
    members, bases, member enums, member classes, the structure through which
    Python classes override its functions, or the conversion to a string. *)
Theorem C84_members_stay : forall e c c' o o' r, asks_for_more c c' -> options_for_more o o' -> const_is_method (mkworld e c o) ->
  let w := mkworld e c o in let w' := mkworld e c' o' in
  (generated w r <-> generated w' r) /\
  (forall l l', selection (chosen w) (candidates w r) l -> selection (chosen w') (candidates w' r) l' -> sublist l l') /\
  (forall l l', selection (bound_constructor w) (own_constructors w r) l -> selection (bound_constructor w') (own_constructors w' r) l' -> sublist l l') /\
  (forall l l', selection (used_constructor w) (used_constructors w r) l -> selection (used_constructor w') (used_constructors w' r) l' -> sublist l l') /\
  (constructible w r -> constructible w' r) /\
  (forall fs fs', exposed w (rec_ w r) fs -> exposed w' (rec_ w' r) fs' -> sublist fs fs') /\
  (forall l l', selection (named_base w) (r_bases (rec_ w r)) l -> selection (named_base w') (r_bases (rec_ w' r)) l' -> sublist l l') /\
  (forall l l', folded_bases w r l -> folded_bases w' r l' -> incl l l') /\
  (forall l l', selection (bound_enum w) (inner_enums w r) l -> selection (bound_enum w') (inner_enums w' r) l' -> sublist l l') /\
  (forall l l', selection (bound_inner w) (inner_classes w r) l -> selection (bound_inner w') (inner_classes w' r) l' -> sublist l l') /\
  (has_structure w r -> has_structure w' r) /\
  (no_printing w' r -> no_printing w r).
Proof.
  intros e c c' o o' r H Ho Wf w w'.
  split; [symmetry; exact (MonotoneFacts.generated_same e c c' o o' H Ho r)|].
  split; [intros l l' S S'; exact (selection_grows _ _ _ _ S (fun x => MonotoneFacts.chosen_grows e c c' o o' H Ho x Wf) _ S')|].
  split; [intros l l' S S'; exact (selection_grows _ _ _ _ S (MonotoneFacts.bound_constructor_grows e c c' o o' H Ho) _ S')|].
  split; [intros l l' S S'; exact (selection_grows _ _ _ _ S (fun x => proj2 (MonotoneFacts.used_constructor_same e c c' o o' H Ho x)) _ S')|].
  split; [exact (MonotoneFacts.constructible_grows e c c' o o' H Ho r Wf)|].
  split.
  { assert (X : forall f, exposable w f -> exposable w' f).
    { intros f (A&B&D). split; [exact A|]. split; [exact B|]. intros K. exact (D (proj1 (MonotoneFacts.m_rejected e c c' o o' H Ho _) K)). }
    assert (Y : forall f, ~ field_skipped w f -> ~ field_skipped w' f).
    { intros f N K. apply N. exact (proj1 (proj2 H) fields_to_skip (or_intror (or_intror (or_intror (or_intror (or_introl eq_refl))))) _ K). }
    intros fs fs' (u&d&->&U&D) (u'&d'&->&U'&D'). apply sublist_app.
    - refine (selection_grows _ _ _ _ U _ _ U'). intros f (A&B). exact (conj (Y f A) (X f B)).
    - refine (selection_grows _ _ _ _ D _ _ D'). intros f (A&P&B). exact (conj (Y f A) (conj P (X f B))). }
  split; [intros l l' S S'; exact (selection_grows _ _ _ _ S (MonotoneFacts.named_base_grows e c c' o o' H Ho) _ S')|].
  split; [intros l l' F F'; exact (MonotoneFacts.folded_grows e c c' o o' H Ho r l F l' F')|].
  split; [intros l l' S S'; exact (selection_grows _ _ _ _ S (MonotoneFacts.bound_enum_grows e c c' o o' H Ho) _ S')|].
  split; [intros l l' S S'; exact (selection_grows _ _ _ _ S (fun x => proj2 (MonotoneFacts.bound_inner_same e c c' o o' H Ho x)) _ S')|].
  split; [exact (MonotoneFacts.structure_grows e c c' o o' H Ho r Wf)|].
  unfold no_printing, w, w'. rewrite (MonotoneFacts.m_class e c c' o o' H Ho), (MonotoneFacts.m_name e c c' o o' H Ho), (MonotoneFacts.m_rec e c c' o o' H Ho).
  intros [K|K]; [left|right]; exact (MonotoneFacts.l_unwanted e c c' o o' H functions_to_skip _ (or_intror (or_intror (or_introl eq_refl))) K).
Qed.
Print Assumptions C84_members_stay.

(** Adding +namespace, +class, +function and +enum directives or --bind
    options, and taking out -namespace, -class, -function, -enum and -field
    directives or --skip options, asks for more. *)
Theorem C84_settings : forall bind bind' skip skip' file text text' c c', incl bind bind' -> incl skip' skip ->
  file_for_more (split text [nl]) (split text' [nl]) ->
  setup default_config bind skip file (Some text) = Ok c -> setup default_config bind' skip' file (Some text') = Ok c' -> asks_for_more c c'.
Proof.
  intros bind bind' skip skip' file text text' c c' B S F. unfold setup. cbv zeta. destruct file as [|ch f].
  - intros X Y. apply Ok_out in X. apply Ok_out in Y. subst. exact (assigned_more _ _ _ _ _ B S).
  - unfold read, read_text. intros X Y. exact (read_lines_more _ _ F _ _ _ _ (assigned_more _ _ _ _ _ B S) X Y).
Qed.
Print Assumptions C84_settings.

(** The first file leaves out class n::K; the second one does not, and asks for
    function n::f, which needs this class. *)
Definition less_text : str := $"-class n::K" ++ [nl] ++ $"+default_call_guard G" ++ [nl].
Definition more_text : str := $"+default_call_guard G" ++ [nl] ++ $"+function n::f" ++ [nl].
Definition case_config (bind : list str) (text : str) : config :=
  match setup default_config bind [] $"c" (Some text) with Ok c => c | _ => default_config end.
Definition less_w : world := mkworld mix_env (case_config [$"n::m"] less_text) (mix_options false false 300).
Definition more_w : world := mkworld mix_env (case_config [$"n::m"; $"o"] more_text) (mix_options false false 300).
Example C84_case : file_for_more (split less_text [nl]) (split more_text [nl]) /\ incl [$"n::m"] [$"n::m"; $"o"] /\
  (exists c c', setup default_config [$"n::m"] [] $"c" (Some less_text) = Ok c /\ setup default_config [$"n::m"; $"o"] [] $"c" (Some more_text) = Ok c') /\
  options_for_more (wopt less_w) (wopt more_w) /\ const_is_method less_w /\ namespaces_consistent more_w /\
  (exists x x', run less_w mix_visits = Ok x /\ run more_w mix_visits = Ok x' /\ map b_decl (filter has_code (out_sorted x)) = [DRec 0; DRec 1] /\
     map b_decl (filter has_code (out_sorted x')) = [DFun 0; DRec 0; DRec 2; DRec 3; DRec 1]).
Proof.
  split; [|split; [|split; [|split; [|split; [|split]]]]].
  - change (split less_text [nl]) with [$"-class n::K"; $"+default_call_guard G"].
    change (split more_text [nl]) with [$"+default_call_guard G"; $"+function n::f"].
    assert (Sp : forall l : str, existsb (Ascii.eqb sp) l = false -> ~ In sp l).
    { intros l F X. assert (T : existsb (Ascii.eqb sp) l = true) by (apply existsb_exists; exists sp; split; [exact X|apply Ascii.eqb_refl]). congruence. }
    assert (Ln : forall l : str, match rev l with c :: _ => Ascii.eqb c cr | [] => false end = false -> line_text l l).
    { intros l F. right. split; [reflexivity|]. intros t ->. rewrite rev_unit, Ascii.eqb_refl in F. discriminate. }
    apply fm_removed.
    { exists $"class", $"n::K". split; [split; [discriminate|split; [apply Ln; reflexivity|apply Sp; reflexivity]]|unfold unwanting_tokens; cbn [In]; tauto]. }
    apply fm_same. apply fm_added.
    { exists $"function", $"n::f". split; [split; [discriminate|split; [apply Ln; reflexivity|apply Sp; reflexivity]]|unfold wanting_tokens; cbn [In]; tauto]. }
    apply fm_end.
  - intros n [<-|[]]. left. reflexivity.
  - eexists _, _. split; reflexivity.
  - split; [reflexivity|]. intros K. exact K.
  - intros f. do 2 (destruct f as [|f]; [intros K; vm_compute in K; discriminate K|]). destruct f; intros K; vm_compute in K; discriminate K.
  - intros ns _ K. vm_compute in K. contradiction.
  - eexists _, _. split; [vm_compute; reflexivity|split; [vm_compute; reflexivity|]]. vm_compute. split; reflexivity.
Qed.

Lemma bound_listed x d : bound x d <-> In d (map b_decl (filter has_code (out_sorted x))).
Proof.
  rewrite in_map_iff. split.
  - intros (b&I&E&N). exists b. split; [exact E|]. apply filter_In. split; [exact I|]. unfold has_code. destruct (b_code b); [contradiction|reflexivity].
  - intros (b&E&I). apply filter_In in I. destruct I as [I N]. exists b. split; [exact I|]. split; [exact E|]. unfold has_code in N. destruct (b_code b); [discriminate N|discriminate].
Qed.
(** Not every + directive asks for more: a class that is declared to be known to
    Python is no longer bound. *)
Theorem C84_python_builtin_refuted : ~ (forall e c o visits x x' d n, run (mkworld e c o) visits = Ok x ->
  run (mkworld e (push python_builtins n c) o) visits = Ok x' -> bound x d -> bound x' d).
Proof.
  intros K. destruct (run less_w mix_visits) as [x| | | |] eqn:R; try (vm_compute in R; discriminate R).
  destruct (run (mkworld mix_env (push python_builtins $"n::A" (case_config [$"n::m"] less_text)) (mix_options false false 300)) mix_visits) as [x'| | | |] eqn:R'; try (vm_compute in R'; discriminate R').
  specialize (K mix_env (case_config [$"n::m"] less_text) (mix_options false false 300) mix_visits x x' (DRec 0) $"n::A" R R').
  rewrite !bound_listed in K.
  assert (P : map b_decl (filter has_code (out_sorted x)) = [DRec 0; DRec 1]) by (vm_compute in R; apply Ok_inj in R; subst x; vm_compute; reflexivity).
  assert (P' : map b_decl (filter has_code (out_sorted x')) = [DRec 1]) by (vm_compute in R'; apply Ok_inj in R'; subst x'; vm_compute; reflexivity).
  rewrite P, P' in K. destruct (K (or_introl eq_refl)) as [Q|[]]. discriminate Q.
Qed.
Print Assumptions C84_python_builtin_refuted.
(** Asking for more can stop the program: a namespace that is listed both ways. *)
Theorem C84_both_ways_refuted : ~ (forall e c c' o visits x, asks_for_more c c' -> run (mkworld e c o) visits = Ok x -> exists x', run (mkworld e c' o) visits = Ok x').
Proof.
  intros K. pose (c0 := assign_list namespaces_to_skip [$"n::m"] (assign_list namespaces_to_bind [$"n"] default_config)).
  pose (c1 := assign_list namespaces_to_skip [$"n::m"] (assign_list namespaces_to_bind [$"n"; $"n::m"] default_config)).
  destruct (run (mkworld mix_env c0 (mix_options false false 300)) mix_visits) as [x| | | |] eqn:R; try (vm_compute in R; discriminate R).
  destruct (K mix_env c0 c1 (mix_options false false 300) mix_visits x) as [x' R'].
  - apply assigned_more; [|apply incl_refl]. intros n [<-|[]]. left. reflexivity.
  - exact R.
  - vm_compute in R'. discriminate R'.
Qed.
Print Assumptions C84_both_ways_refuted.
