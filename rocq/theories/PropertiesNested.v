(** Which types the generated module has.  The specification is in SpecNested.v. *)
From Coq Require Import Ascii String Bool Arith NArith Lia Relations Permutation.
From Coq Require Import List.
From Verif Require Import Str StrFacts Util Config Ast Types Func Enum Includes Class Context SpecTypes SpecBind SpecClass SpecContext SpecOutput SpecImport SpecNested
  TypesFacts BindFacts ClassFacts ContextFacts SortFacts WriteFacts RunFacts Samples PropertiesTypes PropertiesContext PropertiesOutput ImportFacts ImportText PropertiesImport.
Import ListNotations.

Local Opaque standard_name class_qualified_name python_class_name namespace_from_named_decl run.

(** ** C90: which types the module has *)

Lemma offered_top w (P Q : nat -> Prop) : (forall r, P r -> offered w Q r) -> forall r, offered w P r -> offered w Q r.
Proof. intros X. induction 1 as [r H|r j _ IH G I B]; [exact (X r H)|exact (OF_nested _ _ _ _ IH G I B)]. Qed.
(** Both directions for the actions of one class. *)
Definition fits (w : world) (r : nat) (l : list action) : Prop :=
  (forall i, In (EClass i) (registered l) <-> offered w (eq r) i /\ made w i) /\
  (forall e, In (EEnum e) (registered l) <-> offered_enum w (eq r) (fun _ => False) e).
Lemma offered_stuck w r i : ~ generated w r -> offered w (eq r) i -> i = r.
Proof. intros N H. induction H as [i ->|r' j _ IH G _ _]; [reflexivity|]. subst r'. contradiction. Qed.
Lemma enum_stuck w r e : ~ generated w r -> ~ offered_enum w (eq r) (fun _ => False) e.
Proof. intros N H. destruct H as [e []|r' e O G _ _]. apply (offered_stuck w r r' N) in O. subst r'. contradiction. Qed.
(** What is offered below [r]: itself, or offered by a nested class. *)
Lemma offered_split w r i : generated w r -> offered w (eq r) i ->
  i = r \/ exists j, In j (inner_classes w r) /\ bound_inner w j /\ offered w (eq (definition_of w j)) i.
Proof.
  intros G H. induction H as [i ->|r' j _ IH G' I B]; [left; reflexivity|]. right. destruct IH as [->|[k [I1 [B1 O]]]].
  - exists j. split; [exact I|]. split; [exact B|]. apply OF_top. reflexivity.
  - exists k. split; [exact I1|]. split; [exact B1|]. exact (OF_nested _ _ _ _ O G' I B).
Qed.
Lemma offered_join w r j i : generated w r -> In j (inner_classes w r) -> bound_inner w j -> offered w (eq (definition_of w j)) i -> offered w (eq r) i.
Proof. intros G I B. apply offered_top. intros x <-. exact (OF_nested _ _ _ _ (OF_top _ _ _ eq_refl) G I B). Qed.
Lemma forall2_left {A B} (R : A -> B -> Prop) l l' : Forall2 R l l' -> forall x, In x l -> exists y, In y l' /\ R x y.
Proof.
  induction 1 as [|a b l l' H F IH]; intros x I; [destruct I|]. destruct I as [<-|I]; [exists b; split; [left; reflexivity|exact H]|].
  destruct (IH x I) as [y [J Q]]. exists y. split; [right; exact J|exact Q].
Qed.
Lemma forall2_right {A B} (R : A -> B -> Prop) l l' : Forall2 R l l' -> forall y, In y l' -> exists x, In x l /\ R x y.
Proof.
  induction 1 as [|a b l l' H F IH]; intros x I; [destruct I|]. destruct I as [<-|I]; [exists a; split; [left; reflexivity|exact H]|].
  destruct (IH x I) as [y [J Q]]. exists y. split; [right; exact J|exact Q].
Qed.
Lemma actions_fit w s r l : class_actions w s r l -> fits w r l.
Proof.
  revert s r l. apply (actions_ind w (fun s r l => fits w r l)).
  - intros s r Py. assert (N : ~ generated w r) by (intros [G _]; contradiction). split.
    + intros i. split; [intros []|]. intros [O [M _]]. apply (offered_stuck w r i N) in O. subst i. exact (M Py).
    + intros e. split; [intros []|]. intros O. destruct (enum_stuck w r e N O).
  - intros s r binder NP L. assert (N : ~ generated w r) by (intros [_ G]; rewrite L in G; discriminate G). split.
    + intros i. split.
      * intros [X|[]]. injection X as <-. split; [apply OF_top; reflexivity|]. split; [exact NP|]. left. rewrite L. discriminate.
      * intros [O _]. apply (offered_stuck w r i N) in O. subst i. left. reflexivity.
    + intros e. split; [intros [X|[]]; discriminate X|]. intros O. destruct (enum_stuck w r e N O).
  - intros s s' r bases enums inner ia head G HD SE SI F. split.
    + intros i. rewrite !registered_app, !in_app_iff, enums_registered. split.
      * intros [I|[I|I]].
        -- destruct (r_anon (rec_ w r)) eqn:An; [destruct HD as [_ ->]; destruct I|]. destruct HD as [_ [_ ->]]. destruct I as [X|[]]. injection X as <-.
           split; [apply OF_top; reflexivity|]. split; [exact (proj1 G)|]. right. exact An.
        -- apply in_map_iff in I. destruct I as [e [X _]]. discriminate X.
        -- apply concat_registered in I. destruct I as [a [Ia I]]. destruct (forall2_right _ _ _ F a Ia) as [j [Ij [Q _]]].
           apply (selection_In _ _ _ SI) in Ij. destruct Ij as [Ij B]. apply Q in I. destruct I as [O M]. split; [|exact M]. exact (offered_join w r j i G Ij B O).
      * intros [O M]. destruct (offered_split w r i G O) as [->|[j [Ij [B Oj]]]].
        -- left. destruct M as [_ M]. destruct M as [M|M]; [exfalso; exact (M (proj2 G))|]. rewrite M in HD. destruct HD as [_ [_ ->]]. left. reflexivity.
        -- right. right. apply concat_registered. assert (J : In j inner) by (apply (selection_In _ _ _ SI); auto).
           destruct (forall2_left _ _ _ F j J) as [a [Ia [Q _]]]. exists a. split; [exact Ia|]. apply Q. auto.
    + intros e. rewrite !registered_app, !in_app_iff, enums_registered. split.
      * intros [I|[I|I]].
        -- destruct (r_anon (rec_ w r)) eqn:An; [destruct HD as [_ ->]; destruct I|]. destruct HD as [_ [_ ->]]. destruct I as [X|[]]. discriminate X.
        -- apply in_map_iff in I. destruct I as [e' [X I]]. injection X as ->. apply (selection_In _ _ _ SE) in I.
           exact (OE_member w _ _ r e (OF_top _ _ _ eq_refl) G (proj1 I) (proj2 I)).
        -- apply concat_registered in I. destruct I as [a [Ia I]]. destruct (forall2_right _ _ _ F a Ia) as [j [Ij [_ Q]]].
           apply (selection_In _ _ _ SI) in Ij. destruct Ij as [Ij B]. apply Q in I. destruct I as [e []|r' e O G' I' B'].
           exact (OE_member w _ _ r' e (offered_join w r j r' G Ij B O) G' I' B').
      * intros O. destruct O as [e []|r' e O G' I' B']. destruct (offered_split w r r' G O) as [->|[j [Ij [B Oj]]]].
        -- right. left. apply in_map. apply (selection_In _ _ _ SE). auto.
        -- right. right. apply concat_registered. assert (J : In j inner) by (apply (selection_In _ _ _ SI); auto).
           destruct (forall2_left _ _ _ F j J) as [a [Ia [_ Q]]]. exists a. split; [exact Ia|]. apply Q. exact (OE_member w _ _ r' e Oj G' I' B').
Qed.
Lemma offered_from w (P : nat -> Prop) i : offered w P i <-> exists r, P r /\ offered w (eq r) i.
Proof.
  split.
  - induction 1 as [r H|r j _ [t [T IH]] G I B]; [exists r; split; [exact H|apply OF_top; reflexivity]|]. exists t. split; [exact T|]. exact (OF_nested _ _ _ _ IH G I B).
  - intros [r [H O]]. revert O. apply offered_top. intros x <-. apply OF_top, H.
Qed.
(** The actions of a run are those of the items that are bound. *)
Lemma run_actions_of w visits o l : run w visits = Ok o -> (forall ns, replaced_namespace w ns = false) -> run_actions w o l ->
  (forall d, bound o d -> exists acts, In acts l /\ item_actions w d acts) /\
  (forall acts x, In acts l -> In x (registered acts) -> exists d, bound o d /\ item_actions w d acts).
Proof.
  intros H NR RA. destruct (C31_every_bound_item_in_one_file w visits o H) as [_ [W _]].
  assert (W' : filter has_code (written (out_files o)) = filter has_code (out_sorted o)).
  { rewrite W. apply filter_ext. intros b. rewrite NR. cbn [negb]. apply andb_true_r. }
  split.
  - intros d [b [I [D N]]]. assert (J : In b (filter has_code (written (out_files o)))) by (rewrite W'; apply filter_In; split; [exact I|apply has_code_iff, N]).
    apply filter_In in J. destruct (forall2_left _ _ _ RA b (proj1 J)) as [acts [Ia [[E _]|[_ A]]]]; [contradiction|]. exists acts. rewrite D in A. auto.
  - intros acts x Ia R. destruct (forall2_right _ _ _ RA acts Ia) as [b [Ib [[_ ->]|[N A]]]]; [destruct R|]. exists (b_decl b). split; [|exact A].
    exists b. split; [|auto]. assert (J : In b (filter has_code (written (out_files o)))) by (apply filter_In; split; [exact Ib|apply has_code_iff, N]).
    rewrite W' in J. apply filter_In in J. exact (proj1 J).
Qed.
(** The classes that the module has: those bound, and those nested in them. *)
Theorem C90_classes : forall w visits o l, run w visits = Ok o -> (forall ns, replaced_namespace w ns = false) -> run_actions w o l ->
  forall i, In (EClass i) (registered (concat l)) <-> offered w (fun r => bound o (DRec r)) i /\ made w i.
Proof.
  intros w visits o l H NR RA i. destruct (run_actions_of w visits o l H NR RA) as [X Y]. rewrite concat_registered. split.
  - intros [acts [Ia R]]. destruct (Y acts _ Ia R) as [d [B A]]. destruct A as [f name _|e|r acts C].
    + destruct R.
    + destruct R as [R|[]]. discriminate R.
    + apply (proj1 (actions_fit w _ _ _ C)) in R. destruct R as [O M]. split; [|exact M]. apply offered_from. exists r. auto.
  - intros [O M]. apply offered_from in O. destruct O as [r [B O]]. destruct (X _ B) as [acts [Ia A]]. exists acts. split; [exact Ia|].
    inversion A as [| |r' acts' C]; subst. apply (proj1 (actions_fit w _ _ _ C)). auto.
Qed.
Print Assumptions C90_classes.
(** The enums that the module has. *)
Theorem C90_enums : forall w visits o l, run w visits = Ok o -> (forall ns, replaced_namespace w ns = false) -> run_actions w o l ->
  forall e, In (EEnum e) (registered (concat l)) <-> offered_enum w (fun r => bound o (DRec r)) (fun x => bound o (DEnum x)) e.
Proof.
  intros w visits o l H NR RA e. destruct (run_actions_of w visits o l H NR RA) as [X Y]. rewrite concat_registered. split.
  - intros [acts [Ia R]]. destruct (Y acts _ Ia R) as [d [B A]]. destruct A as [f name _|e'|r acts C].
    + destruct R.
    + destruct R as [R|[]]. injection R as ->. apply OE_top, B.
    + apply (proj2 (actions_fit w _ _ _ C)) in R. destruct R as [e []|r' e O G I Be]. apply (OE_member w _ _ r'); try assumption. apply offered_from. exists r. auto.
  - intros [e' B|r e' O G I Be].
    + destruct (X _ B) as [acts [Ia A]]. exists acts. split; [exact Ia|]. inversion A; subst. left. reflexivity.
    + apply offered_from in O. destruct O as [t [B O]]. destruct (X _ B) as [acts [Ia A]]. exists acts. split; [exact Ia|].
      inversion A as [| |r' acts' C]; subst. apply (proj2 (actions_fit w _ _ _ C)). exact (OE_member w _ _ r e' O G I Be).
Qed.
Print Assumptions C90_enums.
(** A class or enum that is a member of a class is never bound for itself: the
    module has it only inside the class it is a member of. *)
Theorem C90_members_through_class : forall w visits o l, run w visits = Ok o -> (forall ns, replaced_namespace w ns = false) -> run_actions w o l ->
  (forall i, n_member (r_decl (rec_ w i)) = true -> In (EClass i) (registered (concat l)) ->
     exists r j, offered w (fun r => bound o (DRec r)) r /\ generated w r /\ In j (inner_classes w r) /\ bound_inner w j /\ definition_of w j = i) /\
  (forall e, n_member (e_decl (enum_ w e)) = true -> In (EEnum e) (registered (concat l)) ->
     exists r, offered w (fun r => bound o (DRec r)) r /\ generated w r /\ In e (inner_enums w r) /\ bound_enum w e).
Proof.
  intros w visits o l H NR RA.
  assert (CO : forall d, bound o d -> collectible w d).
  { intros d [b [Hb [<- _]]]. pose proof (in_map b_decl _ _ Hb) as J. apply (Permutation_in _ (C29_sorting_is_a_permutation w visits o H)) in J.
    destruct (C24_collected_once w visits) as [_ [_ [FV _]]]. apply FV in J. destruct J as [? [? [_ [C _]]]]. exact C. }
  split.
  - intros i M R. apply (C90_classes w visits o l H NR RA) in R. destruct R as [O _]. destruct O as [i B|r j O G I B].
    + apply CO in B. destruct B as [B _]. rewrite M in B. discriminate B.
    + exists r, j. auto.
  - intros e M R. apply (C90_enums w visits o l H NR RA) in R. destruct R as [e B|r e O G I B].
    + apply CO in B. cbn in B. rewrite M in B. discriminate B.
    + exists r. auto.
Qed.
Print Assumptions C90_members_through_class.

(** *** The hypotheses are met *)

Local Transparent standard_name class_qualified_name python_class_name namespace_from_named_decl run.
(** The class In, nested in n::A, is among the types of the sample of C79, and so
    is its enum Kind; neither is an item of its own. *)
Example C90_case :
  let w := imp_w [] in
  exists o, run w imp_visits = Ok o /\ (forall ns, replaced_namespace w ns = false) /\ run_actions w o imp_acts /\
    registered (concat imp_acts) = [EClass 0; EEnum 0; EClass 2; EEnum 1; EClass 1] /\
    n_member (r_decl (rec_ w 2)) = true /\ n_member (e_decl (enum_ w 0)) = true /\ In (DRec 2) imp_visits /\ In (DEnum 0) imp_visits.
Proof.
  destruct C79_case as [_ [_ [_ [_ [o [H [_ [NR [_ [_ [RA _]]]]]]]]]]]. exists o. split; [exact H|]. split; [exact NR|]. split; [exact RA|].
  repeat split; cbn; auto 10.
Qed.
(** What a user expects of the option -class does not hold for a nested class:
    it is bound although its name is listed. *)
Theorem C90_skipping_nested_refuted : exists w visits o l i,
  run w visits = Ok o /\ run_actions w o l /\ listed_in w classes_to_skip (class_qualified_name w i) /\ In (EClass i) (registered (concat l)).
Proof.
  exists (imp_w ($"-class n::A::In" ++ [nl])), imp_visits.
  destruct (run (imp_w ($"-class n::A::In" ++ [nl])) imp_visits) as [o| | | |] eqn:E; try (vm_compute in E; discriminate E). exists o.
  vm_compute in E. apply Ok_inj in E.
  assert (X : map b_decl (filter has_code (written (out_files o))) = [DRec 0; DEnum 1; DFun 0; DRec 1]) by (rewrite <- E; vm_compute; reflexivity).
  destruct (imp_enum_function ($"-class n::A::In" ++ [nl])) as [A1 A2]; [vm_compute; reflexivity|vm_compute; reflexivity|vm_compute; reflexivity|].
  assert (A0 : item_actions (imp_w ($"-class n::A::In" ++ [nl])) (DRec 0)
    [Register (EClass 0) [] imp_m $"A"; Register (EEnum 0) [] (InClass 0) $"Kind"; Register (EClass 2) [] (InClass 0) $"In"]).
  { apply AI_class, (class_acts_sound _ 5). vm_compute. reflexivity. }
  assert (A3 : item_actions (imp_w ($"-class n::A::In" ++ [nl])) (DRec 1) [Register (EClass 1) [0] imp_m $"D"]).
  { apply AI_class, (class_acts_sound _ 5). vm_compute. reflexivity. }
  destruct (actions_of_run _ o _ _ X (Forall2_cons _ _ A0 (Forall2_cons _ _ A1 (Forall2_cons _ _ A2 (Forall2_cons _ _ A3 (Forall2_nil _)))))) as [l [R1 R2]].
  exists l, 2. split; [reflexivity|]. split; [exact R1|]. split; [left; vm_compute; reflexivity|]. rewrite R2. right. right. left. reflexivity.
Qed.
Print Assumptions C90_skipping_nested_refuted.
(** Nor does what a user expects of +class: naming a nested class there does not
    make the module have it. *)
Definition nested_only : world :=
  mkworld (wenv (imp_w [])) (match setup default_config [] [] $"c" (Some ($"+class n::A::In" ++ [nl])) with Ok c => c | _ => default_config end) (wopt (imp_w [])).
Theorem C90_requesting_nested_refuted : exists w visits o i,
  run w visits = Ok o /\ In (DRec i) visits /\ In (class_qualified_name w i) (lists (wcfg w) classes_to_bind) /\ is_bindable_rec w i = true /\
  forall l, run_actions w o l -> ~ In (EClass i) (registered (concat l)).
Proof.
  exists nested_only, imp_visits.
  destruct (run nested_only imp_visits) as [o| | | |] eqn:E; try (vm_compute in E; discriminate E). exists o, 2.
  split; [reflexivity|]. split; [cbn; auto 10|]. split; [left; vm_compute; reflexivity|]. split; [vm_compute; reflexivity|].
  intros l RA R. assert (NR : forall ns, replaced_namespace nested_only ns = false) by (intros ns; reflexivity).
  assert (B : forall d, ~ bound o d).
  { intros d [b [I [_ N]]]. vm_compute in E. apply Ok_inj in E. assert (Z : forallb (fun b => match b_code b with [] => true | _ => false end) (out_sorted o) = true) by (rewrite <- E; vm_compute; reflexivity).
    rewrite forallb_forall in Z. specialize (Z b I). destruct (b_code b); [exact (N eq_refl)|discriminate Z]. }
  apply (C90_classes nested_only imp_visits o l E NR RA) in R. destruct R as [O _].
  clear - O B. induction O as [r H|r j _ IH _ _ _]; [exact (B _ H)|exact IH].
Qed.
Print Assumptions C90_requesting_nested_refuted.
