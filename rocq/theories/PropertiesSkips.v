(** C102: leaving out by name removes only what is named *)
From Coq Require Import Ascii String Bool Arith NArith.
From Coq Require Import List.
From Verif Require Import Str StrFacts SpecUtil Util Config SpecConfig ConfigFacts SpecSettings StyleConfig MonotoneConfig Ast Types Func Enum Includes Class Context SpecTypes SpecBind SpecClass ClassFacts SpecContext ContextFacts SpecRequests SpecStyle SpecMonotone PropertiesTypes RunFacts OrderFacts RequestFacts PropertiesRequests PropertiesMonotone SpecSkips SkipsFacts Samples.
Import ListNotations.

Local Notation lo := leaves_out.
Lemma lo_refl new c : lo new c c.
Proof. split; [intros k; apply incl_refl|split; [auto|split; [auto|split; [intros n; apply iff_refl|reflexivity]]]]. Qed.
Lemma lo_push new k v c c' : lo new c c' -> lo new (push k v c) (push k v c').
Proof.
  intros (A&B&D&F&G). split; [|split; [|split; [|split; [exact F|exact G]]]].
  - intros j. cbn [lists push]. destruct (list_key_eq j k); [apply incl_snoc, A|apply A].
  - intros j x. cbn [lists push]. destruct (list_key_eq j k); [|apply B]. rewrite !in_app_iff. intros [X|X]; [|auto]. destruct (B _ _ X); auto.
  - intros j J. cbn [lists push]. destruct (list_key_eq j k) as [->|]; rewrite D by exact J; reflexivity.
Qed.
Lemma lo_put new k x v c c' : lo new c c' -> lo new (put k x v c) (put k x v c').
Proof.
  intros (A&B&D&F&G). split; [exact A|split; [exact B|split; [exact D|split; [|exact G]]]].
  intros n. cbn [maps put]. destruct (map_key_eq binders k); [|apply F]. rewrite !lookup_update_none, F. reflexivity.
Qed.
Lemma lo_assign new k v c c' : lo new c c' -> lo new (assign k v c) (assign k v c').
Proof. intros (A&B&D&F&G). split; [exact A|split; [exact B|split; [exact D|split; [exact F|]]]]. cbn [strs assign]. rewrite G. reflexivity. Qed.
Lemma lo_put_vec new k x v c c' : lo new c c' -> lo new (put_vec k x v c) (put_vec k x v c').
Proof. intros (A&B&D&F&G). split; [exact A|split; [exact B|split; [exact D|split; [exact F|exact G]]]]. Qed.
Lemma lo_keyed new name line what form f g :
  (forall x v, lo new (f x v) (g x v)) -> same_outcome (lo new) (keyed name line what form f) (keyed name line what form g).
Proof. intros K. unfold keyed. destruct (split_in_two _ _) as [[x v]| | | |]; cbn; auto. Qed.
Lemma lo_if new (b : bool) x y x' y' : same_outcome (lo new) x x' -> same_outcome (lo new) y y' -> same_outcome (lo new) (if b then x else y) (if b then x' else y').
Proof. destruct b; auto. Qed.
Lemma lo_token new c c' bind token name line : lo new c c' -> same_outcome (lo new) (read_token c bind token name line) (read_token c' bind token name line).
Proof.
  intros E. unfold read_token. cbv zeta.
  repeat (apply lo_if; [first
    [ exact (lo_push _ _ _ _ _ E)
    | exact (lo_assign _ _ _ _ _ E)
    | destruct bind; first
        [ reflexivity | exact E | exact (lo_push _ _ _ _ _ E)
        | apply lo_keyed; intros x v; first [apply lo_put_vec | apply lo_put]; exact E ] ]|]).
  reflexivity.
Qed.
Lemma lo_line new c c' line : lo new c c' -> same_outcome (lo new) (read_line c line) (read_line c' line).
Proof.
  intros E. unfold read_line. destruct line as [|ch line]; [exact E|]. destruct (Ascii.eqb ch "#"); [exact E|]. cbv zeta.
  destruct (drop_cr (ch :: line)) as [|sign rest]; [exact E|]. destruct (_ && _); [reflexivity|].
  destruct (find_char _ _); [|reflexivity]. apply lo_token. exact E.
Qed.
Lemma lo_more new k v c c' : In k left_out_by_name -> In (k, v) new -> lo new c c' -> lo new c (push k v c').
Proof.
  intros K V (A&B&D&F&G). split; [|split; [|split; [|split; [exact F|exact G]]]].
  - intros j. cbn [lists push]. destruct (list_key_eq j k); [apply incl_appl, A|apply A].
  - intros j x. cbn [lists push]. destruct (list_key_eq j k) as [->|]; [|apply B]. rewrite in_app_iff. intros [X|[X|[]]]; [apply (B _ _ X)|]. subst x. auto.
  - intros j J. cbn [lists push]. destruct (list_key_eq j k) as [->|]; [contradiction|apply D, J].
Qed.
Lemma lo_added_line new c c' l token k arg : says l false token arg -> In (token, k) skip_tokens -> In (k, nospace arg) new -> lo new c c' ->
  exists d, read_line c' l = Ok d /\ lo new c d.
Proof.
  intros S T V M. destruct (read_line_says c' l _ _ _ S) as (u&_&E). rewrite E. clear E S. exists (push k (nospace arg) c').
  split; [|apply lo_more; [apply (in_map snd) in T; exact T|exact V|exact M]].
  unfold skip_tokens in T. cbn [In] in T.
  repeat (destruct T as [T|T]; [injection T as <- <-; unfold read_token; cbv zeta;
    repeat match goal with |- context[streqb ?a ?b] => let v := eval vm_compute in (streqb a b) in change (streqb a b) with v; cbv iota end; reflexivity|]).
  contradiction.
Qed.
Lemma lo_lines new ls ls' : file_leaves_out new ls ls' -> forall c c' d, lo new c c' -> read_lines c ls = Ok d ->
  exists d', read_lines c' ls' = Ok d' /\ lo new d d'.
Proof.
  intros R. induction R as [|l a b R IH|l token k arg a b S T V R IH]; intros c c' d E X; cbn [read_lines] in *.
  - apply Ok_out in X. subst. exists c'. auto.
  - pose proof (lo_line new c c' l E) as K. destruct (read_line c l) as [c1| | | |], (read_line c' l) as [c1'| | | |]; cbn [bind_r] in *; try discriminate; try contradiction.
    exact (IH _ _ _ K X).
  - destruct (lo_added_line new c c' l token k arg S T V E) as (d1&->&M). cbn [bind_r]. exact (IH _ _ _ M X).
Qed.

(** Further lines -function, -enum and -field are accepted wherever they stand
    in the config file, and the settings are those without them except for the
    names left out. *)
Theorem C102_settings : forall new bind skip file text text' c, file_leaves_out new (split text [nl]) (split text' [nl]) ->
  setup default_config bind skip file (Some text) = Ok c ->
  exists c', setup default_config bind skip file (Some text') = Ok c' /\ leaves_out new c c'.
Proof.
  intros new bind skip file text text' c F. unfold setup. cbv zeta. destruct file as [|ch f].
  - intros X. eexists. split; [reflexivity|]. apply Ok_out in X. subst. apply lo_refl.
  - unfold read, read_text. intros X. exact (lo_lines new _ _ F _ _ _ (lo_refl _ _) X).
Qed.
Print Assumptions C102_settings.

Lemma lo_asks new c c' : leaves_out new c c' -> asks_for_more c' c.
Proof.
  intros (A&B&D&F&G).
  assert (N : forall k, ~ In k left_out_by_name -> lists c k = lists c' k) by (intros k K; symmetry; apply D, K).
  split; [|split; [|split; [|split; [|split]]]].
  - intros k K. rewrite <- D; [apply incl_refl|]. unfold wanted, left_out_by_name in *. cbn [In map snd skip_tokens] in *.
    intros X. repeat (destruct X as [<-|X]; [repeat (destruct K as [K|K]; [discriminate K|]); contradiction|]). contradiction.
  - intros k _. apply A.
  - apply N. unfold left_out_by_name. cbn. intuition discriminate.
  - apply N. unfold left_out_by_name. cbn. intuition discriminate.
  - intros n. symmetry. apply F.
  - symmetry. exact G.
Qed.
Lemma same_options o : options_for_more o o.
Proof. split; auto. Qed.

(** Nothing is bound that was not bound before. *)
Theorem C102_nothing_new : forall new e c c' o visits x x' d, leaves_out new c c' -> const_is_method (mkworld e c o) ->
  namespaces_consistent (mkworld e c o) -> run (mkworld e c o) visits = Ok x -> run (mkworld e c' o) visits = Ok x' -> bound x' d -> bound x d.
Proof.
  intros new e c c' o visits x x' d L Wf C R R' B.
  exact (C84_bound_stays_bound e c' c o o visits x' x d (lo_asks _ _ _ L) (same_options o) Wf C R' R B).
Qed.
Print Assumptions C102_nothing_new.

Lemma stays new e c c' o visits x x' d : leaves_out new c c' -> const_is_method (mkworld e c o) ->
  run (mkworld e c o) visits = Ok x -> run (mkworld e c' o) visits = Ok x' -> bound x d ->
  n_system (named_of e d) = false -> bind_decl (mkworld e c o) d = Ok true -> ~ newly_named (mkworld e c o) new d -> bound x' d.
Proof.
  intros L Wf R R' B S Q N.
  assert (I : In d (collected_items (mkworld e c o) visits)).
  { destruct B as (b&I&E&_). subst d. apply (Permutation.Permutation_in _ (run_perm _ _ _ R)). apply in_map, I. }
  destruct (bound_eligible _ _ _ _ R B) as (E1&E2&E3).
  assert (E : collected_items (mkworld e c o) visits = collected_items (mkworld e c' o) visits)
    by (unfold collected_items; rewrite (collect_more e c' c o o visits (lo_asks _ _ _ L) (same_options o)); reflexivity).
  rewrite E in I. apply In_nth_error in I. destruct I as [i Hi].
  assert (Wf' : const_is_method (mkworld e c' o)) by exact Wf.
  apply (proj2 (C77_bound_iff_required (mkworld e c' o) visits x' i d Wf' R' Hi)).
  destruct L as (A&B'&D&F&G).
  apply (RQ_config _ _ i d Hi); [|exact S|].
  - split; [|split].
    + rewrite (l_can_bind e o c c' D G d). exact E1.
    + rewrite (l_skip_decl e o c c' D new A B' d N). exact E2.
    + exact (eq_trans (l_is_python_builtin e o c c' D G d) E3).
  - rewrite (l_bind_decl e o c c' D d). exact Q.
Qed.
(** What the configuration itself asks for is still bound, unless one of the
    new lines names it. *)
Theorem C102_still_bound : forall new e c c' o visits x x' d, leaves_out new c c' -> const_is_method (mkworld e c o) ->
  namespaces_consistent (mkworld e c o) -> run (mkworld e c o) visits = Ok x -> run (mkworld e c' o) visits = Ok x' ->
  asked_for (mkworld e c o) d -> ~ newly_named (mkworld e c o) new d -> (bound x' d <-> bound x d).
Proof.
  intros new e c c' o visits x x' d L Wf C R R' [S Q] N. split; [exact (C102_nothing_new new e c c' o visits x x' d L Wf C R R')|].
  intros B. refine (stays new e c c' o visits x x' d L Wf R R' B S _ N).
  destruct d as [f|r|n]; cbn [bind_decl].
  - exact (proj2 (proj1 (proj2 (proj2 (C47_decided _ _ C)))) Q).
  - exact (proj2 (proj1 (proj2 (proj2 (C48_decided _ _ C)))) Q).
  - exact (proj2 (proj1 (proj2 (proj2 (C61_decided _ _ C)))) Q).
Qed.
Print Assumptions C102_still_bound.
(** Functions outside classes are bound as before unless a new line names them. *)
Theorem C102_functions : forall new e c c' o visits x x' f, leaves_out new c c' -> const_is_method (mkworld e c o) ->
  namespaces_consistent (mkworld e c o) -> run (mkworld e c o) visits = Ok x -> run (mkworld e c' o) visits = Ok x' ->
  ~ newly_named (mkworld e c o) new (DFun f) -> (bound x' (DFun f) <-> bound x (DFun f)).
Proof.
  intros new e c c' o visits x x' f L Wf C R R' N. split; [exact (C102_nothing_new new e c c' o visits x x' (DFun f) L Wf C R R')|].
  intros B.
  assert (I : In (DFun f) (collected_items (mkworld e c o) visits)).
  { destruct B as (b&I&E&_). rewrite <- E. apply (Permutation.Permutation_in _ (run_perm _ _ _ R)). apply in_map, I. }
  apply In_nth_error in I. destruct I as [i Hi].
  pose proof (proj1 (C77_bound_iff_required _ visits x i _ Wf R Hi) B) as Q.
  inversion Q as [i' d Hd El Sy Bd|i' j d dj t name Hd El Rq Hj U An (d'&Hd'&Nm&_)]; subst i'; rewrite Hi in *.
  - injection Hd as <-. exact (stays new e c c' o visits x x' (DFun f) L Wf R R' B Sy Bd N).
  - injection Hd' as <-. destruct Nm.
Qed.
Print Assumptions C102_functions.

(** The second file names function n::f and the member n::A::x; the
    classes 2 and 3 are bound only because the function needs them. *)
Definition fewer_text : str := $"-field n::A::x" ++ [nl] ++ $"+default_call_guard G" ++ [nl] ++ $"-function n::f" ++ [nl] ++ $"+function n::f" ++ [nl].
Definition fewer_names : list (list_key * str) := [(fields_to_skip, $"n::A::x"); (functions_to_skip, $"n::f")].
Definition fewer_w : world := mkworld mix_env (case_config [$"n::m"; $"o"] fewer_text) (mix_options false false 300).
Example C102_case : file_leaves_out fewer_names (split more_text [nl]) (split fewer_text [nl]) /\
  setup default_config [$"n::m"; $"o"] [] $"c" (Some more_text) = Ok (wcfg more_w) /\
  setup default_config [$"n::m"; $"o"] [] $"c" (Some fewer_text) = Ok (wcfg fewer_w) /\
  const_is_method more_w /\ namespaces_consistent more_w /\
  (exists x x', run more_w mix_visits = Ok x /\ run fewer_w mix_visits = Ok x' /\
     map b_decl (filter has_code (out_sorted x)) = [DFun 0; DRec 0; DRec 2; DRec 3; DRec 1] /\
     map b_decl (filter has_code (out_sorted x')) = [DRec 0; DRec 1]) /\
  asked_for more_w (DRec 1) /\ ~ newly_named more_w fewer_names (DRec 1) /\ newly_named more_w fewer_names (DFun 0).
Proof.
  split; [|split; [|split; [|split; [|split; [|split; [|split; [|split]]]]]]].
  - change (split more_text [nl]) with [$"+default_call_guard G"; $"+function n::f"].
    change (split fewer_text [nl]) with [$"-field n::A::x"; $"+default_call_guard G"; $"-function n::f"; $"+function n::f"].
    assert (Sp : forall l : str, existsb (Ascii.eqb sp) l = false -> ~ In sp l).
    { intros l F X. assert (T : existsb (Ascii.eqb sp) l = true) by (apply existsb_exists; exists sp; split; [exact X|apply Ascii.eqb_refl]). congruence. }
    assert (Ln : forall l : str, match rev l with c :: _ => Ascii.eqb c cr | [] => false end = false -> line_text l l).
    { intros l F. right. split; [reflexivity|]. intros t ->. rewrite rev_unit, Ascii.eqb_refl in F. discriminate. }
    apply (lo_added _ _ $"field" fields_to_skip $"n::A::x").
    { split; [discriminate|split; [apply Ln; reflexivity|apply Sp; reflexivity]]. }
    { unfold skip_tokens; cbn [In]; tauto. }
    { left. reflexivity. }
    apply lo_same. apply (lo_added _ _ $"function" functions_to_skip $"n::f").
    { split; [discriminate|split; [apply Ln; reflexivity|apply Sp; reflexivity]]. }
    { unfold skip_tokens; cbn [In]; tauto. }
    { right. left. reflexivity. }
    apply lo_same. apply lo_end.
  - reflexivity.
  - reflexivity.
  - intros f. do 2 (destruct f as [|f]; [intros K; vm_compute in K; discriminate K|]). destruct f; intros K; vm_compute in K; discriminate K.
  - intros ns _ K. vm_compute in K. contradiction.
  - eexists _, _. split; [vm_compute; reflexivity|split; [vm_compute; reflexivity|]]. vm_compute. split; reflexivity.
  - split; [reflexivity|]. apply (C48_requested more_w 1 true); [vm_compute; reflexivity|reflexivity].
  - intros (k&v&K&_). inversion K.
  - exists functions_to_skip. eexists. split; [apply Called_plain|]. vm_compute. tauto.
Qed.

(** What nothing but a function needed that is now left out goes with it,
    although no line names it. *)
Theorem C102_unnamed_refuted : ~ (forall new e c c' o visits x x' d, leaves_out new c c' -> const_is_method (mkworld e c o) ->
  namespaces_consistent (mkworld e c o) -> run (mkworld e c o) visits = Ok x -> run (mkworld e c' o) visits = Ok x' ->
  ~ newly_named (mkworld e c o) new d -> bound x d -> bound x' d).
Proof.
  intros K. destruct C102_case as (F&Sc&Sc'&Wf&C&(x&x'&R&R'&P&P')&_).
  destruct (C102_settings _ _ _ _ _ _ _ F Sc) as (c'&E&L). rewrite Sc' in E. apply Ok_inj in E. subst c'.
  specialize (K fewer_names mix_env _ _ (mix_options false false 300) mix_visits x x' (DRec 2) L Wf C R R').
  rewrite !bound_listed, P, P' in K.
  assert (N : ~ newly_named more_w fewer_names (DRec 2)) by (intros (k&v&Q&_); inversion Q).
  specialize (K N (or_intror (or_intror (or_introl eq_refl)))). destruct K as [K|[K|[]]]; discriminate K.
Qed.
Print Assumptions C102_unnamed_refuted.
