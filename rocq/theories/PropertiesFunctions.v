(** C106: which functions are bound *)
From Coq Require Import Ascii String Bool Arith NArith.
From Coq Require Import List.
From Verif Require Import Str StrFacts SpecUtil Util Config SpecConfig ConfigFacts SpecSettings Ast Types Func Enum Includes Class Context SpecTypes TypesFacts SpecBind SpecClass ClassFacts SpecContext ContextFacts SpecRequests SpecStyle SpecOrder SpecMonotone PropertiesTypes RunFacts OrderFacts RequestFacts PropertiesRequests PropertiesMonotone PropertiesContext SpecLeftOut PropertiesLeftOut SpecFunctions Samples.
Import ListNotations.

Lemma type_requested_iff w t : type_requested w t <-> exists r, written_as r t /\ class_requested w r.
Proof.
  split.
  - intros H. induction H as [c t _ (r&W&C)|t _ (r&W&C)|t _ (r&W&C)|t c r args E C].
    + exists r. split; [exact (WA_pointer r c t W)|exact C].
    + exists r. split; [exact (WA_lvalue r t W)|exact C].
    + exists r. split; [exact (WA_rvalue r t W)|exact C].
    + exists r. split; [exact (WA_class r t c args E)|exact C].
  - intros (r&W&C). induction W as [t c args E|c t _ I|t _ I|t _ I].
    + exact (TR_class w t c r args E C).
    + exact (TR_pointer w c t I).
    + exact (TR_lvalue w t I).
    + exact (TR_rvalue w t I).
Qed.
Lemma requested_wanted w F : function_requested w F <-> wanted w F.
Proof.
  unfold function_requested. split.
  - intros [A|[A|[A|(t&S&T)]]]; [exact (WT_name w F A)|exact (WT_signature w F A)|exact (WT_namespace w F A)|].
    apply type_requested_iff in T. destruct T as (r&W&C). exact (WT_class w F t r S W C).
  - intros [A|A|A|t r S W C]; [right; left; exact A|left; exact A|right; right; left; exact A|].
    right. right. right. exists t. split; [exact S|]. apply type_requested_iff. exists r. split; [exact W|exact C].
Qed.
Lemma run_decided w visits o d : run w visits = Ok o -> In d (collected_items w visits) -> decided w d.
Proof.
  intros H I. destruct (run_inv _ _ _ H) as [l [E _]].
  exact (proj1 (proj1 (bind_all_succeeds_iff w visits) (ex_intro _ (l, out_log o) E)) d I).
Qed.
(** Exactly these functions are bound: those met first under their signature,
    that can be bound, do not come from a system header, are not to be left out
    and are asked for. *)
Theorem C106_functions : forall w visits o f, const_is_method w -> run w visits = Ok o ->
  (bound o (DFun f) <->
   first_visit w visits (DFun f) /\ ~ unbindable w (fun_ w f) /\ n_system (f_decl (fun_ w f)) = false /\ ~ python_type w (std_name w (f_decl (fun_ w f))) /\
   ~ function_skipped w (fun_ w f) /\ wanted w (fun_ w f)).
Proof.
  intros w visits o f Wf R. split.
  - intros B.
    assert (I : In (DFun f) (collected_items w visits)).
    { destruct B as (b&I&E&_). rewrite <- E. apply (Permutation.Permutation_in _ (run_perm _ _ _ R)). apply in_map, I. }
    split; [apply (proj1 (proj2 (proj2 (C24_collected_once w visits)))), I|].
    destruct (bound_eligible _ _ _ _ R B) as (E1&E2&E3).
    apply In_nth_error in I. destruct I as [i Hi].
    pose proof (proj1 (C77_bound_iff_required _ visits o i _ Wf R Hi) B) as Q.
    inversion Q as [i' d Hd El Sy Bd|i' j d dj t name Hd El Rq Hj U An (d'&Hd'&Nm&_)]; subst i'; rewrite Hi in *.
    2: { injection Hd' as <-. destruct Nm. }
    injection Hd as <-. split; [apply bindable_iff, E1|split; [exact Sy|split; [|split]]].
    + intros P. apply builtin_iff in P. cbn [named_of] in E3. unfold fun_ in P. rewrite P in E3. discriminate E3.
    + exact (C47_never_bound w visits o f R B).
    + apply requested_wanted. exact (proj1 (C47_requested w _ true Bd) eq_refl).
  - intros (V&U&Sy&P&S&W).
    apply (proj1 (proj2 (proj2 (C24_collected_once w visits)))) in V. pose proof V as I. apply In_nth_error in I. destruct I as [i Hi].
    apply (C77_bound_iff_required _ visits o i _ Wf R Hi).
    assert (Cb : can_bind w (DFun f) = true) by (apply bindable_iff, U).
    destruct (run_decided w visits o _ R V Cb) as (skip&Sk&Bd).
    assert (E : skip = false).
    { destruct skip; [|reflexivity]. exfalso. apply S. exact (proj1 (C47_skipped w _ true Sk) eq_refl). }
    subst skip. destruct (Bd eq_refl Sy) as (bind&Bd').
    assert (E : bind = true) by (apply (C47_requested w _ bind Bd'), requested_wanted, W). subst bind.
    refine (RQ_config w _ i (DFun f) Hi _ Sy Bd'). split; [exact Cb|split; [exact Sk|]].
    destruct (is_python_builtin w (named_of (wenv w) (DFun f))) eqn:Bu; [|reflexivity]. exfalso. apply P. apply builtin_iff. exact Bu.
Qed.
Print Assumptions C106_functions.

(** Class 0 is n::K; the functions 0 to 5 are o::f, which takes a pointer to K,
    o::g, which takes a pointer to K by a typedef, o::i(int), p::h, which a
    +function line names, q::j in a namespace that is to be bound, and q::l,
    which a -function line names. *)
Definition wf_fn (ns name : str) (t : qty) : fn := fn0 (nm name (ns ++ $"::" ++ name) $"<a.hh>") void [mkparam $"x" t false].
Definition wf_k : qty := TRec false 0 [].
Definition wf_env : env :=
  tu [cls (nm $"K" $"n::K" $"<a.hh>") 0 [] []]
     [wf_fn $"o" $"f" (TPtr false wf_k); wf_fn $"o" $"g" (TSugar false $"KP" (TPtr false wf_k)); wf_fn $"o" $"i" int; wf_fn $"p" $"h" int;
      wf_fn $"q" $"j" int; wf_fn $"q" $"l" int]
     [] (fun _ => $"class n::K") (fun _ => []).
Definition wf_text : str := $"+function p::h" ++ [nl] ++ $"-function q::l" ++ [nl].
Definition wf_config : config := case_config [$"q"] wf_text.
Definition wf_more : config := push classes_to_bind $"n::K" wf_config.
Definition wf_w : world := mkworld wf_env wf_config (mix_options false false 300).
Definition wf_w' : world := mkworld wf_env wf_more (mix_options false false 300).
Definition wf_visits : list decl := [DRec 0; DFun 0; DFun 1; DFun 2; DFun 3; DFun 4; DFun 5].
Lemma wf_const : const_is_method wf_w'.
Proof. intros f; do 6 (destruct f as [|f]; [intros K; vm_compute in K; discriminate K|]); destruct f; intros K; vm_compute in K; discriminate K. Qed.
Example C106_case : setup default_config [$"q"] [] $"c" (Some wf_text) = Ok wf_config /\
  setup default_config [$"q"] [] $"c" (Some (wf_text ++ $"+class n::K" ++ [nl])) = Ok wf_more /\ const_is_method wf_w' /\
  (exists x x', run wf_w wf_visits = Ok x /\ run wf_w' wf_visits = Ok x' /\
     map b_decl (filter has_code (out_sorted x)) = [DFun 3; DFun 4] /\
     map b_decl (filter has_code (out_sorted x')) = [DRec 0; DFun 0; DFun 3; DFun 4]) /\
  wanted wf_w' (fun_ wf_w' 0) /\ wanted wf_w' (fun_ wf_w' 3) /\ wanted wf_w' (fun_ wf_w' 4) /\ ~ wanted wf_w' (fun_ wf_w' 2) /\
  wanted wf_w' (fun_ wf_w' 5) /\ function_skipped wf_w' (fun_ wf_w' 5).
Proof.
  assert (D : forall f b, is_binding_requested_fun wf_w' (fun_ wf_w' f) = Ok b -> (b = true <-> wanted wf_w' (fun_ wf_w' f)))
    by (intros f b E; rewrite <- requested_wanted; exact (C47_requested wf_w' _ b E)).
  split; [vm_compute; reflexivity|]. split; [vm_compute; reflexivity|]. split; [exact wf_const|].
  split; [eexists _, _; split; [vm_compute; reflexivity|split; [vm_compute; reflexivity|vm_compute; split; reflexivity]]|].
  split; [apply (D 0 true); [vm_compute; reflexivity|reflexivity]|].
  split; [apply (D 3 true); [vm_compute; reflexivity|reflexivity]|].
  split; [apply (D 4 true); [vm_compute; reflexivity|reflexivity]|].
  split; [intros W; apply (D 2 false) in W; [discriminate W|vm_compute; reflexivity]|].
  split; [apply (D 5 true); [vm_compute; reflexivity|reflexivity]|].
  apply (C47_skipped wf_w' _ true); [vm_compute; reflexivity|reflexivity].
Qed.
(** A +class line is there to pick one class from a namespace that is not bound.
    It also brings in the functions of any namespace that take the class. *)
Theorem C106_cherry_pick_refuted : ~ (forall e c o visits x x' name f, run (mkworld e c o) visits = Ok x ->
  run (mkworld e (push classes_to_bind name c) o) visits = Ok x' -> bound x' (DFun f) -> bound x (DFun f)).
Proof.
  intros N. destruct C106_case as (_&_&_&(x&x'&R&R'&P&P')&_).
  specialize (N wf_env wf_config (mix_options false false 300) wf_visits x x' $"n::K" 0 R R'). rewrite !bound_listed, P, P' in N.
  destruct N as [K|[K|[]]]; [right; left; reflexivity|discriminate K..].
Qed.
Print Assumptions C106_cherry_pick_refuted.
(** It does not bring in those that take a pointer to it by a typedef. *)
Theorem C106_typedef_refuted : ~ (forall w visits o f t r, run w visits = Ok o -> first_visit w visits (DFun f) -> ~ unbindable w (fun_ w f) ->
  n_system (f_decl (fun_ w f)) = false -> ~ python_type w (std_name w (f_decl (fun_ w f))) -> ~ function_skipped w (fun_ w f) ->
  in_signature (fun_ w f) t -> stands_for r t -> class_requested w r -> bound o (DFun f)).
Proof.
  intros N. destruct C106_case as (_&_&_&(_&x'&_&R'&_&P')&_).
  assert (E0 : collected_items wf_w' wf_visits = wf_visits) by (vm_compute; reflexivity).
  assert (I0 : In (DFun 1) (collected_items wf_w' wf_visits)) by (rewrite E0; right; right; left; reflexivity).
  pose proof (proj1 (proj1 (proj2 (proj2 (C24_collected_once wf_w' wf_visits))) (DFun 1)) I0) as V.
  assert (U0 : is_bindable_fun wf_w' (fun_ wf_w' 1) = true) by (vm_compute; reflexivity).
  pose proof (proj1 (bindable_iff wf_w' (fun_ wf_w' 1)) U0) as U.
  assert (P : ~ python_type wf_w' (std_name wf_w' (f_decl (fun_ wf_w' 1)))).
  { intros P. pose proof (proj2 (builtin_iff wf_w' (f_decl (fun_ wf_w' 1))) P) as B. vm_compute in B. discriminate B. }
  assert (E : is_skipping_requested_fun wf_w' (fun_ wf_w' 1) = Ok false) by (vm_compute; reflexivity).
  assert (S : ~ function_skipped wf_w' (fun_ wf_w' 1)).
  { intros S. pose proof (proj2 (C47_skipped wf_w' _ false E) S) as K. discriminate K. }
  assert (I : in_signature (fun_ wf_w' 1) (TSugar false $"KP" (TPtr false wf_k))).
  { right. left. exists (mkparam $"x" (TSugar false $"KP" (TPtr false wf_k)) false). split; [left; reflexivity|reflexivity]. }
  assert (F : stands_for 0 (TSugar false $"KP" (TPtr false wf_k))).
  { exact (SF_typedef 0 false $"KP" _ (SF_written 0 _ (WA_pointer 0 false wf_k (WA_class 0 wf_k false [] eq_refl)))). }
  assert (E' : is_binding_requested_rec wf_w' 0 = Ok true) by (vm_compute; reflexivity).
  pose proof (proj1 (C48_requested wf_w' 0 true E') eq_refl) as C.
  assert (Sy : n_system (f_decl (fun_ wf_w' 1)) = false) by (vm_compute; reflexivity).
  pose proof (N wf_w' wf_visits x' 1 _ 0 R' V U Sy P S I F C) as B. apply bound_listed in B. rewrite P' in B.
  destruct B as [K|[K|[K|[K|[]]]]]; discriminate K.
Qed.
Print Assumptions C106_typedef_refuted.

(** A +function line with the parameters is enough, whatever else is said about
    the function's name, namespace and types; only a -function line with the
    parameters overrides it. *)
Theorem C106_signature_line : forall w visits o f, const_is_method w -> run w visits = Ok o ->
  listed_in w functions_to_bind (function_qualified_name w (fun_ w f) true) ->
  (bound o (DFun f) <->
   first_visit w visits (DFun f) /\ ~ unbindable w (fun_ w f) /\ n_system (f_decl (fun_ w f)) = false /\ ~ python_type w (std_name w (f_decl (fun_ w f))) /\
   ~ listed_in w functions_to_skip (function_qualified_name w (fun_ w f) true)).
Proof.
  intros w visits o f Wf R L. rewrite (C106_functions w visits o f Wf R).
  assert (S : function_skipped w (fun_ w f) <-> listed_in w functions_to_skip (function_qualified_name w (fun_ w f) true)).
  { unfold function_skipped, function_names. cbn [by_precedence]. split; [intros [A|(_&B&_)]; [exact A|destruct (B L)]|intros A; left; exact A]. }
  rewrite S. pose proof (WT_signature w (fun_ w f) L) as W. clear S L. tauto.
Qed.
Print Assumptions C106_signature_line.
(** The name alone is not enough in a namespace that is left out: it is compared
    as written to ask for the function and normalised not to leave it out. *)
Definition swap_fn : fn := fn0 (nm $"mix" $"std::__1::mix" $"<a.hh>") void [mkparam $"x" int false].
Definition swap_w (asked : list str) : world :=
  mkworld (tu [] [swap_fn] [] (fun _ => []) (fun _ => []))
    (assign_list functions_to_bind asked (assign_list namespaces_to_skip [$"std"] (assign_list namespaces_to_bind [] default_config))) (mix_options false false 1000).
Definition swap_bound (asked : list str) : option (list decl) :=
  match run (swap_w asked) [DFun 0] with Ok o => Some (map b_decl (filter has_code (out_sorted o))) | _ => None end.
Example C106_names_case :
  map swap_bound [[$"std::__1::mix"]; [$"std::mix"]; [$"std::mix"; $"std::__1::mix"]; [$"std::mix(int)"]] = [Some []; Some []; Some [DFun 0]; Some [DFun 0]].
Proof. vm_compute; reflexivity. Qed.
Theorem C106_one_line_refuted : ~ (forall w visits o f, run w visits = Ok o -> In (DFun f) visits -> is_bindable_fun w (fun_ w f) = true ->
  n_system (f_decl (fun_ w f)) = false -> lists (wcfg w) functions_to_skip = [] ->
  listed_in w functions_to_bind (n_qname (f_decl (fun_ w f))) \/ listed_in w functions_to_bind (std_name w (f_decl (fun_ w f))) ->
  bound o (DFun f)).
Proof.
  intros K. destruct (run (swap_w [$"std::__1::mix"]) [DFun 0]) as [o| | | |] eqn:E; try (vm_compute in E; discriminate E).
  specialize (K _ _ o 0 E (or_introl eq_refl) eq_refl eq_refl eq_refl (or_introl (or_introl eq_refl))).
  destruct K as (b&I&_&Nc). vm_compute in E. apply Ok_inj in E. rewrite <- E in I. destruct I as [<-|[]]. apply Nc. reflexivity.
Qed.
Print Assumptions C106_one_line_refuted.

(** So whether a function is bound does not depend on the other declarations:
    two runs with the same configuration that both meet it first agree. *)
Theorem C106_independent : forall w visits visits' o o' f, const_is_method w -> run w visits = Ok o -> run w visits' = Ok o' ->
  first_visit w visits (DFun f) -> first_visit w visits' (DFun f) -> (bound o (DFun f) <-> bound o' (DFun f)).
Proof.
  intros w visits visits' o o' f Wf R R' V V'. rewrite (C106_functions w visits o f Wf R), (C106_functions w visits' o' f Wf R').
  split; intros (_&H); split; assumption.
Qed.
Print Assumptions C106_independent.
