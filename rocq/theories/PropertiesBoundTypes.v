(** C107: which classes and enums are bound *)
From Coq Require Import Ascii String Bool Arith NArith.
From Coq Require Import List.
From Verif Require Import Str StrFacts SpecUtil Util Config SpecConfig ConfigFacts SpecSettings Ast Types Func Enum Includes Class Context SpecTypes TypesFacts SpecBind SpecClass ClassFacts SpecContext ContextFacts SpecRequests SpecStyle SpecOrder SpecMonotone PropertiesTypes RunFacts OrderFacts RequestFacts NamesFacts PropertiesRequests PropertiesMonotone PropertiesContext SpecLeftOut SpecFunctions PropertiesFunctions SpecBoundTypes Samples.
Import ListNotations.

Lemma bound_collected w visits o d : run w visits = Ok o -> bound o d -> In d (collected_items w visits).
Proof. intros R (b&I&E&_). rewrite <- E. apply (Permutation.Permutation_in _ (run_perm _ _ _ R)). apply in_map, I. Qed.
Lemma bound_unfold w visits o i d : const_is_method w -> run w visits = Ok o -> nth_error (collected_items w visits) i = Some d ->
  (bound o d <-> eligible w d /\ (n_system (named_of (wenv w) d) = false /\ bind_decl w d = Ok true \/ in_use w visits o i)).
Proof.
  intros Wf R Hi. rewrite (C77_bound_iff_required _ visits o i d Wf R Hi). split.
  - intros Q. inversion Q as [i' d' Hd El Sy Bd|i' j d' dj t name Hd El Rq Hj U An Ni]; subst i'; rewrite Hi in Hd; injection Hd as <-.
    + split; [exact El|left; split; [exact Sy|exact Bd]].
    + split; [exact El|right]. exists dj, t, name. split; [exact (proj2 (C77_bound_iff_required _ visits o j dj Wf R Hj) Rq)|split; [exact U|split; [exact An|exact Ni]]].
  - intros [El [[Sy Bd]|(dj&t&name&B&U&An&Ni)]]; [exact (RQ_config w _ i d Hi El Sy Bd)|].
    pose proof (bound_collected w visits o dj R B) as I. apply In_nth_error in I. destruct I as [j Hj].
    exact (RQ_used w _ i j d dj t name Hi El (proj1 (C77_bound_iff_required _ visits o j dj Wf R Hj) B) Hj U An Ni).
Qed.
(** Exactly these classes are bound as items of their own. *)
Theorem C107_classes : forall w visits o i r, const_is_method w -> run w visits = Ok o -> nth_error (collected_items w visits) i = Some (DRec r) ->
  (bound o (DRec r) <->
   ~ rejected_class w r (targs_of (rec_ w r)) /\ ~ class_skipped w r (targs_of (rec_ w r)) /\ ~ python_type w (std_name w (r_decl (rec_ w r))) /\
   (n_system (r_decl (rec_ w r)) = false /\ class_requested w r \/ in_use w visits o i)).
Proof.
  intros w visits o i r Wf R Hi. rewrite (bound_unfold w visits o i _ Wf R Hi).
  pose proof (run_decided w visits o _ R (nth_error_In _ _ Hi)) as Dc.
  pose proof (builtin_iff w (r_decl (rec_ w r))) as Bu. pose proof (C45_classes w r) as Ba.
  unfold eligible. unfold decided in Dc. cbn [can_bind skip_decl bind_decl named_of] in *.
  change (recs (wenv w) r) with (rec_ w r) in *. split.
  - intros [(E1&E2&E3) U]. split; [apply Ba, E1|split; [|split; [|destruct U as [[Sy Bd]|U]; [left; split; [exact Sy|]|right; exact U]]]].
    + intros S. pose proof (proj2 (C48_skipped w r false E2) S) as K. discriminate K.
    + intros P. apply Bu in P. rewrite P in E3. discriminate E3.
    + exact (proj1 (C48_requested w r true Bd) eq_refl).
  - intros (B&S&P&U). apply Ba in B. destruct (Dc B) as (skip&Sk&Bd).
    assert (E : skip = false) by (destruct skip; [exfalso; exact (S (proj1 (C48_skipped w r true Sk) eq_refl))|reflexivity]). subst skip.
    split; [split; [exact B|split; [exact Sk|]]|].
    + destruct (is_python_builtin w (r_decl (rec_ w r))) eqn:X; [exfalso; apply P, Bu; reflexivity|reflexivity].
    + destruct U as [[Sy Q]|U]; [left; split; [exact Sy|]|right; exact U]. destruct (Bd eq_refl Sy) as (bind&Bd').
      rewrite (proj2 (C48_requested w r bind Bd') Q) in Bd'. exact Bd'.
Qed.
Print Assumptions C107_classes.
(** Exactly these enums. *)
Theorem C107_enums : forall w visits o i e, const_is_method w -> run w visits = Ok o -> nth_error (collected_items w visits) i = Some (DEnum e) ->
  (bound o (DEnum e) <->
   (e_instance (enum_ w e) = false /\ ~ unnamed_enum (enum_ w e) /\ ~ banned_name (std_name w (e_decl (enum_ w e)))) /\
   ~ enum_skipped w (enum_ w e) /\ ~ python_type w (std_name w (e_decl (enum_ w e))) /\
   (n_system (e_decl (enum_ w e)) = false /\ enum_requested w (enum_ w e) \/ in_use w visits o i)).
Proof.
  intros w visits o i e Wf R Hi. rewrite (bound_unfold w visits o i _ Wf R Hi).
  pose proof (run_decided w visits o _ R (nth_error_In _ _ Hi)) as Dc.
  pose proof (builtin_iff w (e_decl (enum_ w e))) as Bu. pose proof (C61_can_be_bound w (enum_ w e)) as Ba.
  unfold eligible. unfold decided in Dc. cbn [can_bind skip_decl bind_decl named_of] in *.
  change (enums (wenv w) e) with (enum_ w e) in *. split.
  - intros [(E1&E2&E3) U]. split; [apply Ba, E1|split; [|split; [|destruct U as [[Sy Bd]|U]; [left; split; [exact Sy|]|right; exact U]]]].
    + intros S. pose proof (proj2 (skip_enum_iff w (enum_ w e) false E2) S) as K. discriminate K.
    + intros P. apply Bu in P. rewrite P in E3. discriminate E3.
    + exact (proj1 (bind_enum_iff w (enum_ w e) true Bd) eq_refl).
  - intros (B&S&P&U). apply Ba in B. destruct (Dc B) as (skip&Sk&Bd).
    assert (E : skip = false) by (destruct skip; [exfalso; exact (S (proj1 (skip_enum_iff w (enum_ w e) true Sk) eq_refl))|reflexivity]). subst skip.
    split; [split; [exact B|split; [exact Sk|]]|].
    + destruct (is_python_builtin w (e_decl (enum_ w e))) eqn:X; [exfalso; apply P, Bu; reflexivity|reflexivity].
    + destruct U as [[Sy Q]|U]; [left; split; [exact Sy|]|right; exact U]. destruct (Bd eq_refl Sy) as (bind&Bd').
      rewrite (proj2 (bind_enum_iff w (enum_ w e) bind Bd') Q) in Bd'. exact Bd'.
Qed.
Print Assumptions C107_enums.
(** A +class line with the template arguments is enough, whatever is said about
    the template, the namespace and the arguments. *)
Theorem C107_class_line : forall w visits o r, const_is_method w -> run w visits = Ok o -> first_visit w visits (DRec r) ->
  n_system (r_decl (rec_ w r)) = false -> ~ python_type w (std_name w (r_decl (rec_ w r))) ->
  listed_in w classes_to_bind (class_qualified_name w r) ->
  (bound o (DRec r) <-> ~ listed_in w classes_to_skip (class_qualified_name w r)).
Proof.
  intros w visits o r Wf R V Sy P L.
  assert (Ba : ~ rejected_class w r (targs_of (rec_ w r))) by (destruct V as (_&_&_&(_&B)&_); exact (proj1 (C45_classes w r) B)).
  pose proof (proj2 (proj1 (proj2 (proj2 (C24_collected_once w visits))) (DRec r)) V) as I. apply In_nth_error in I. destruct I as [i Hi].
  rewrite (C107_classes w visits o i r Wf R Hi).
  assert (Q : class_requested w r) by (refine (CR_listed w r (class_qualified_name w r) _ L); left; reflexivity).
  split.
  - intros (_&S&_) X. exact (S (CS_exact w r _ X)).
  - intros N. split; [exact Ba|split; [|split; [exact P|left; split; [exact Sy|exact Q]]]].
    intros S. inversion S as [r' a X|r' a X Y Z|r' a U Z|r' a t text U Z T]; subst.
    + exact (N X).
    + exact (Y L).
    + exact (proj2 (U _ (or_introl eq_refl)) L).
    + exact (proj2 (U _ (or_introl eq_refl)) L).
Qed.
Print Assumptions C107_class_line.

(** So is a +enum line, for an enum whose name has no inline namespace of the
    standard library in it (the name as written is the normalised one). *)
Theorem C107_enum_line : forall w visits o e, const_is_method w -> run w visits = Ok o -> first_visit w visits (DEnum e) ->
  e_instance (enum_ w e) = false /\ ~ unnamed_enum (enum_ w e) /\ ~ banned_name (std_name w (e_decl (enum_ w e))) ->
  n_system (e_decl (enum_ w e)) = false -> ~ python_type w (std_name w (e_decl (enum_ w e))) ->
  std_name w (e_decl (enum_ w e)) = n_qname (e_decl (enum_ w e)) -> In (n_qname (e_decl (enum_ w e))) (lists (wcfg w) enums_to_bind) ->
  (bound o (DEnum e) <-> ~ In (n_qname (e_decl (enum_ w e))) (lists (wcfg w) enums_to_skip)).
Proof.
  intros w visits o e Wf R V Ba Sy P N L.
  pose proof (proj2 (proj1 (proj2 (proj2 (C24_collected_once w visits))) (DEnum e)) V) as I. apply In_nth_error in I. destruct I as [i Hi].
  rewrite (C107_enums w visits o i e Wf R Hi). split.
  - intros (_&S&_) X. apply S, ES_listed. rewrite N. exact X.
  - intros X. split; [exact Ba|split; [|split; [exact P|left; split; [exact Sy|exact (ER_listed w _ L)]]]].
    intros S. destruct S as [S|_ S _]; rewrite N in S; [exact (X S)|exact (S L)].
Qed.
Print Assumptions C107_enum_line.

(** In the sample the system class S (position 5) is bound because it is in use;
    the enum (position 4) is bound too, and class 3 is not. *)
Example C107_case : const_is_method (mix_w true false 300) /\
  exists o, run (mix_w true false 300) mix_visits = Ok o /\
    map (nth_error (collected_items (mix_w true false 300) mix_visits)) [2; 5; 4] = [Some (DRec 1); Some (DRec 2); Some (DEnum 0)] /\
    n_system (r_decl (rec_ (mix_w true false 300) 2)) = true /\ in_use (mix_w true false 300) mix_visits o 5 /\
    bound o (DRec 2) /\ bound o (DEnum 0) /\ ~ bound o (DRec 3).
Proof.
  assert (Wf : const_is_method (mix_w true false 300)).
  { intros f; do 2 (destruct f as [|f]; [intros K; vm_compute in K; discriminate K|]); destruct f; intros K; vm_compute in K; discriminate K. }
  split; [exact Wf|]. destruct (run (mix_w true false 300) mix_visits) as [o| | | |] eqn:R; [|vm_compute in R; discriminate R..].
  exists o. split; [reflexivity|].
  assert (E : map (nth_error (collected_items (mix_w true false 300) mix_visits)) [2; 5; 4] = [Some (DRec 1); Some (DRec 2); Some (DEnum 0)]) by (vm_compute; reflexivity).
  assert (Sy : n_system (r_decl (rec_ (mix_w true false 300) 2)) = true) by (vm_compute; reflexivity).
  assert (B : map b_decl (filter has_code (out_sorted o)) = map b_decl (filter has_code (out_sorted (out_of (mix_w true false 300) mix_visits)))) by (unfold out_of; rewrite R; reflexivity).
  let v := eval vm_compute in (map b_decl (filter has_code (out_sorted (out_of (mix_w true false 300) mix_visits)))) in
    assert (Ev : map b_decl (filter has_code (out_sorted (out_of (mix_w true false 300) mix_visits))) = v) by (vm_compute; reflexivity).
  rewrite Ev in B.
  assert (B2 : bound o (DRec 2)) by (apply bound_listed; rewrite B; cbn [In]; tauto).
  split; [exact E|split; [exact Sy|split; [|split; [exact B2|split]]]].
  - assert (E5 : nth_error (collected_items (mix_w true false 300) mix_visits) 5 = Some (DRec 2)) by (vm_compute; reflexivity).
    pose proof (proj1 (C107_classes (mix_w true false 300) mix_visits o 5 2 Wf R E5) B2) as (_&_&_&[[X _]|U]); [exfalso; exact (diff_true_false (eq_trans (eq_sym Sy) X))|exact U].
  - apply bound_listed. rewrite B. cbn [In]. tauto.
  - intros K. apply bound_listed in K. rewrite B in K. repeat (destruct K as [K|K]; [discriminate K|]). destruct K.
Qed.

(** No line binds a class of a system header that nothing uses. *)
Definition sys_w : world :=
  mkworld (tu [cls (mknamed $"V" $"s::V" (Some $"<v>") 7 true Public false None None) 0 [] []] [] [] (fun _ => $"class s::V") (fun _ => []))
    (case_config [] ($"+class s::V" ++ [nl] ++ $"+namespace s" ++ [nl])) (mix_options false false 300).
Theorem C107_system_refuted : ~ (forall w visits o r, run w visits = Ok o -> first_visit w visits (DRec r) ->
  ~ python_type w (std_name w (r_decl (rec_ w r))) -> class_requested w r -> ~ class_skipped w r (targs_of (rec_ w r)) -> bound o (DRec r)).
Proof.
  intros N. destruct (run sys_w [DRec 0]) as [o| | | |] eqn:R; [|vm_compute in R; discriminate R..].
  assert (E0 : collected_items sys_w [DRec 0] = [DRec 0]) by (vm_compute; reflexivity).
  assert (I0 : In (DRec 0) (collected_items sys_w [DRec 0])) by (rewrite E0; left; reflexivity).
  pose proof (proj1 (proj1 (proj2 (proj2 (C24_collected_once sys_w [DRec 0]))) (DRec 0)) I0) as V.
  assert (P : ~ python_type sys_w (std_name sys_w (r_decl (rec_ sys_w 0)))).
  { intros P. pose proof (proj2 (builtin_iff sys_w (r_decl (rec_ sys_w 0))) P) as B. vm_compute in B. discriminate B. }
  assert (E : is_skipping_requested_rec sys_w 0 = Ok false) by (vm_compute; reflexivity).
  assert (S : ~ class_skipped sys_w 0 (targs_of (rec_ sys_w 0))).
  { intros S. pose proof (proj2 (C48_skipped sys_w 0 false E) S) as K. discriminate K. }
  assert (E' : is_binding_requested_rec sys_w 0 = Ok true) by (vm_compute; reflexivity).
  pose proof (proj1 (C48_requested sys_w 0 true E') eq_refl) as C.
  destruct (N sys_w [DRec 0] o 0 R V P C S) as (b&I&_&Nc).
  vm_compute in R. apply Ok_inj in R. rewrite <- R in I. destruct I as [<-|[]]. apply Nc. reflexivity.
Qed.
Print Assumptions C107_system_refuted.
(** A class and an enum of a namespace that is left out, with lines that say +. *)
Definition line_w : world :=
  mkworld (tu [cls (nm $"K" $"n::K" $"<a.hh>") 0 [] []] [] [mix_e] (fun _ => $"class n::K") (fun _ => $"enum n::E"))
    (case_config [] ($"+class n::K" ++ [nl] ++ $"+enum n::E" ++ [nl] ++ $"-namespace n" ++ [nl])) (mix_options false false 300).
Example C107_line_case : const_is_method line_w /\
  first_visit line_w [DRec 0; DEnum 0] (DRec 0) /\ n_system (r_decl (rec_ line_w 0)) = false /\ ~ python_type line_w (std_name line_w (r_decl (rec_ line_w 0))) /\
  listed_in line_w classes_to_bind (class_qualified_name line_w 0) /\ ~ listed_in line_w classes_to_skip (class_qualified_name line_w 0) /\
  namespace_skipped line_w $"n" /\
  first_visit line_w [DRec 0; DEnum 0] (DEnum 0) /\
  (e_instance (enum_ line_w 0) = false /\ ~ unnamed_enum (enum_ line_w 0) /\ ~ banned_name (std_name line_w (e_decl (enum_ line_w 0)))) /\
  n_system (e_decl (enum_ line_w 0)) = false /\ ~ python_type line_w (std_name line_w (e_decl (enum_ line_w 0))) /\
  std_name line_w (e_decl (enum_ line_w 0)) = n_qname (e_decl (enum_ line_w 0)) /\ In (n_qname (e_decl (enum_ line_w 0))) (lists (wcfg line_w) enums_to_bind) /\
  ~ In (n_qname (e_decl (enum_ line_w 0))) (lists (wcfg line_w) enums_to_skip) /\
  exists o, run line_w [DRec 0; DEnum 0] = Ok o /\ bound o (DRec 0) /\ bound o (DEnum 0).
Proof.
  assert (Wf : const_is_method line_w) by (intros f; destruct f as [|f]; [intros K; vm_compute in K; discriminate K|destruct f; intros K; vm_compute in K; discriminate K]).
  assert (E0 : collected_items line_w [DRec 0; DEnum 0] = [DRec 0; DEnum 0]) by (vm_compute; reflexivity).
  assert (V : forall d, In d [DRec 0; DEnum 0] -> first_visit line_w [DRec 0; DEnum 0] d).
  { intros d I. rewrite <- E0 in I at 1. exact (proj1 (proj1 (proj2 (proj2 (C24_collected_once line_w [DRec 0; DEnum 0]))) d) I). }
  assert (Vr := V (DRec 0) (or_introl eq_refl)). assert (Ve := V (DEnum 0) (or_intror (or_introl eq_refl))).
  assert (Sr : n_system (r_decl (rec_ line_w 0)) = false) by (vm_compute; reflexivity).
  assert (Se : n_system (e_decl (enum_ line_w 0)) = false) by (vm_compute; reflexivity).
  assert (Pr : ~ python_type line_w (std_name line_w (r_decl (rec_ line_w 0)))).
  { intros P. pose proof (proj2 (builtin_iff line_w (r_decl (rec_ line_w 0))) P) as B. vm_compute in B. discriminate B. }
  assert (Pe : ~ python_type line_w (std_name line_w (e_decl (enum_ line_w 0)))).
  { intros P. pose proof (proj2 (builtin_iff line_w (e_decl (enum_ line_w 0))) P) as B. vm_compute in B. discriminate B. }
  assert (Be : enum_bindable line_w (enum_ line_w 0) = true) by (vm_compute; reflexivity).
  pose proof (proj1 (C61_can_be_bound line_w (enum_ line_w 0)) Be) as Ba.
  assert (N : std_name line_w (e_decl (enum_ line_w 0)) = n_qname (e_decl (enum_ line_w 0))) by (vm_compute; reflexivity).
  assert (Le : In (n_qname (e_decl (enum_ line_w 0))) (lists (wcfg line_w) enums_to_bind)) by (vm_compute; left; reflexivity).
  assert (Ne : ~ In (n_qname (e_decl (enum_ line_w 0))) (lists (wcfg line_w) enums_to_skip)) by (vm_compute; intros []).
  assert (Lr : listed_in line_w classes_to_bind (class_qualified_name line_w 0)) by (vm_compute; left; reflexivity).
  assert (Nr : ~ listed_in line_w classes_to_skip (class_qualified_name line_w 0)) by (vm_compute; intros []).
  destruct (run line_w [DRec 0; DEnum 0]) as [o| | | |] eqn:R; [|vm_compute in R; discriminate R..].
  split; [exact Wf|split; [exact Vr|split; [exact Sr|split; [exact Pr|split; [exact Lr|split; [exact Nr|split; [|split; [exact Ve|
    split; [exact Ba|split; [exact Se|split; [exact Pe|split; [exact N|split; [exact Le|split; [exact Ne|exists o; split; [reflexivity|split]]]]]]]]]]]]]]].
  - assert (E : is_namespace_skipping_requested (wcfg line_w) $"n" = Ok true) by (vm_compute; reflexivity). exact (proj1 (ns_skip_iff line_w $"n" true E) eq_refl).
  - exact (proj2 (C107_class_line line_w _ o 0 Wf R Vr Sr Pr Lr) Nr).
  - exact (proj2 (C107_enum_line line_w _ o 0 Wf R Ve Ba Se Pe N Le) Ne).
Qed.

(** Whether a class is bound can depend on the other declarations only if it is
    not asked for or comes from a system header. *)
Theorem C107_independent : forall w visits visits' o o' r, const_is_method w -> run w visits = Ok o -> run w visits' = Ok o' ->
  first_visit w visits (DRec r) -> first_visit w visits' (DRec r) -> n_system (r_decl (rec_ w r)) = false -> class_requested w r ->
  (bound o (DRec r) <-> bound o' (DRec r)).
Proof.
  assert (H : forall w visits visits' o o' r, const_is_method w -> run w visits = Ok o -> run w visits' = Ok o' ->
    first_visit w visits (DRec r) -> first_visit w visits' (DRec r) -> n_system (r_decl (rec_ w r)) = false -> class_requested w r ->
    bound o (DRec r) -> bound o' (DRec r)).
  { intros w visits visits' o o' r Wf R R' V V' Sy C B.
    pose proof (proj2 (proj1 (proj2 (proj2 (C24_collected_once w visits))) (DRec r)) V) as I. apply In_nth_error in I. destruct I as [i Hi].
    pose proof (proj2 (proj1 (proj2 (proj2 (C24_collected_once w visits'))) (DRec r)) V') as I'. apply In_nth_error in I'. destruct I' as [i' Hi'].
    destruct (proj1 (C107_classes w visits o i r Wf R Hi) B) as (X&Y&Z&_).
    apply (C107_classes w visits' o' i' r Wf R' Hi'). split; [exact X|split; [exact Y|split; [exact Z|left; split; [exact Sy|exact C]]]]. }
  intros w visits visits' o o' r Wf R R' V V' Sy C. split; [exact (H w visits visits' o o' r Wf R R' V V' Sy C)|exact (H w visits' visits o' o r Wf R' R V' V Sy C)].
Qed.
Print Assumptions C107_independent.
(** Two runs that meet the same function and the same class in different company. *)
Example C107_independent_case : first_visit line_w [DRec 0; DEnum 0] (DRec 0) /\ first_visit line_w [DRec 0] (DRec 0) /\
  class_requested line_w 0 /\ n_system (r_decl (rec_ line_w 0)) = false /\
  first_visit (mix_w true false 300) mix_visits (DFun 0) /\ first_visit (mix_w true false 300) [DFun 0] (DFun 0) /\
  (exists o, run line_w [DRec 0; DEnum 0] = Ok o) /\ (exists o, run line_w [DRec 0] = Ok o) /\
  (exists o, run (mix_w true false 300) mix_visits = Ok o) /\ (exists o, run (mix_w true false 300) [DFun 0] = Ok o).
Proof.
  assert (V : forall w visits d, In d (collected_items w visits) -> first_visit w visits d)
    by (intros w visits d; exact (proj1 (proj1 (proj2 (proj2 (C24_collected_once w visits))) d))).
  assert (E1 : collected_items line_w [DRec 0; DEnum 0] = [DRec 0; DEnum 0]) by (vm_compute; reflexivity).
  assert (E2 : collected_items line_w [DRec 0] = [DRec 0]) by (vm_compute; reflexivity).
  assert (E3 : hd_error (collected_items (mix_w true false 300) mix_visits) = Some (DFun 0)) by (vm_compute; reflexivity).
  assert (E4 : collected_items (mix_w true false 300) [DFun 0] = [DFun 0]) by (vm_compute; reflexivity).
  assert (E5 : is_binding_requested_rec line_w 0 = Ok true) by (vm_compute; reflexivity).
  split; [apply V; rewrite E1; left; reflexivity|]. split; [apply V; rewrite E2; left; reflexivity|].
  split; [exact (proj1 (C48_requested line_w 0 true E5) eq_refl)|]. split; [vm_compute; reflexivity|].
  split; [apply V; destruct (collected_items (mix_w true false 300) mix_visits) as [|d l]; [discriminate E3|injection E3 as ->; left; reflexivity]|].
  split; [apply V; rewrite E4; left; reflexivity|].
  split; [|split; [|split]].
  - destruct (run line_w [DRec 0; DEnum 0]) as [o| | | |] eqn:R; [exists o; reflexivity|vm_compute in R; discriminate R..].
  - destruct (run line_w [DRec 0]) as [o| | | |] eqn:R; [exists o; reflexivity|vm_compute in R; discriminate R..].
  - destruct (run (mix_w true false 300) mix_visits) as [o| | | |] eqn:R; [exists o; reflexivity|vm_compute in R; discriminate R..].
  - destruct (run (mix_w true false 300) [DFun 0]) as [o| | | |] eqn:R; [exists o; reflexivity|vm_compute in R; discriminate R..].
Qed.
(** The same for enums. *)
Theorem C107_independent_enums : forall w visits visits' o o' e, const_is_method w -> run w visits = Ok o -> run w visits' = Ok o' ->
  first_visit w visits (DEnum e) -> first_visit w visits' (DEnum e) -> n_system (e_decl (enum_ w e)) = false -> enum_requested w (enum_ w e) ->
  (bound o (DEnum e) <-> bound o' (DEnum e)).
Proof.
  assert (H : forall w visits visits' o o' e, const_is_method w -> run w visits = Ok o -> run w visits' = Ok o' ->
    first_visit w visits (DEnum e) -> first_visit w visits' (DEnum e) -> n_system (e_decl (enum_ w e)) = false -> enum_requested w (enum_ w e) ->
    bound o (DEnum e) -> bound o' (DEnum e)).
  { intros w visits visits' o o' e Wf R R' V V' Sy C B.
    pose proof (proj2 (proj1 (proj2 (proj2 (C24_collected_once w visits))) (DEnum e)) V) as I. apply In_nth_error in I. destruct I as [i Hi].
    pose proof (proj2 (proj1 (proj2 (proj2 (C24_collected_once w visits'))) (DEnum e)) V') as I'. apply In_nth_error in I'. destruct I' as [i' Hi'].
    destruct (proj1 (C107_enums w visits o i e Wf R Hi) B) as (X&Y&Z&_).
    apply (C107_enums w visits' o' i' e Wf R' Hi'). split; [exact X|split; [exact Y|split; [exact Z|left; split; [exact Sy|exact C]]]]. }
  intros w visits visits' o o' e Wf R R' V V' Sy C. split; [exact (H w visits visits' o o' e Wf R R' V V' Sy C)|exact (H w visits' visits o' o e Wf R' R V' V Sy C)].
Qed.
Print Assumptions C107_independent_enums.
(** It does not hold for all classes: the system class of the sample is bound in
    the company of a class that uses it, and not on its own. *)
Theorem C107_alone_refuted : ~ (forall w visits visits' o o' r, const_is_method w -> run w visits = Ok o -> run w visits' = Ok o' ->
  first_visit w visits (DRec r) -> first_visit w visits' (DRec r) -> (bound o (DRec r) <-> bound o' (DRec r))).
Proof.
  intros N. destruct C107_case as (Wf&o&R&_&_&_&B&_).
  destruct (run (mix_w true false 300) [DRec 2]) as [o'| | | |] eqn:R'; [|vm_compute in R'; discriminate R'..].
  assert (V : forall visits d, In d (collected_items (mix_w true false 300) visits) -> first_visit (mix_w true false 300) visits d)
    by (intros visits d; exact (proj1 (proj1 (proj2 (proj2 (C24_collected_once (mix_w true false 300) visits))) d))).
  assert (E4 : collected_items (mix_w true false 300) [DRec 2] = [DRec 2]) by (vm_compute; reflexivity).
  assert (V2 : first_visit (mix_w true false 300) [DRec 2] (DRec 2)) by (apply V; rewrite E4; left; reflexivity).
  pose proof (V mix_visits (DRec 2) (bound_collected (mix_w true false 300) mix_visits o (DRec 2) R B)) as V1.
  destruct (proj1 (N (mix_w true false 300) mix_visits [DRec 2] o o' 2 Wf R R' V1 V2) B) as (b&I&_&Nc).
  vm_compute in R'. apply Ok_inj in R'. rewrite <- R' in I. destruct I as [<-|[]]. apply Nc. reflexivity.
Qed.
Print Assumptions C107_alone_refuted.
