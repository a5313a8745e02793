(** Importing the generated module.  The specification is in SpecImport.v. *)
From Coq Require Import Ascii String Bool Arith NArith Lia Relations Permutation.
From Coq Require Import List.
From Verif Require Import Str StrFacts Util Config Ast Types Func Enum Includes Class Context SpecTypes SpecBind SpecClass SpecContext SpecOutput SpecImport
  TypesFacts BindFacts ClassFacts ContextFacts SortFacts WriteFacts RunFacts Samples PropertiesTypes PropertiesContext PropertiesOutput ImportFacts ImportText.
Import ListNotations.

Local Opaque standard_name class_qualified_name python_class_name namespace_from_named_decl run.

(** ** C79: the generated module can be imported *)

Lemma filter_split {A} (f : A -> bool) l : forall p x q, filter f l = p ++ x :: q -> exists l1 l2, l = l1 ++ x :: l2 /\ filter f l1 = p.
Proof.
  induction l as [|y l IH]; intros p x q H; [destruct p; discriminate H|]. cbn [filter] in H. destruct (f y) eqn:Fy.
  - destruct p as [|z p].
    + injection H as -> _. exists [], l. auto.
    + injection H as -> H. destruct (IH _ _ _ H) as [l1 [l2 [-> E]]]. exists (z :: l1), l2. split; [reflexivity|]. cbn. rewrite Fy, E. reflexivity.
  - destruct (IH _ _ _ H) as [l1 [l2 [-> E]]]. exists (y :: l1), l2. split; [reflexivity|]. cbn. rewrite Fy. exact E.
Qed.
Lemma class_item_actions w ops s r b : class_binding w ops r b -> exists l, class_actions w s r l.
Proof.
  revert r b s. fix IH 4. intros r b s H. destruct H as [r Py|r binder NP L|r tramp st si hold local bases head ctors enums enum_texts data meths folded pt pi inner inner_bound req NP L _ _ _ HD _ SE _ _ _ _ _ SI F].
  - exists []. apply AC_python, Py.
  - eexists. exact (AC_binder w s r binder NP L).
  - set (s' := if r_anon (rec_ w r) then s else InClass r).
    assert (X : exists ia, Forall2 (fun i l => class_actions w s' (definition_of w i) l) inner ia).
    { clear - F IH. induction F as [|i b inner inner_bound H F IHF]; [exists []; constructor|]. destruct (IH _ _ s' H) as [l C]. destruct IHF as [ia X]. exists (l :: ia). constructor; assumption. }
    destruct X as [ia X]. eexists. apply (AC_class w s s' r bases enums inner ia (if r_anon (rec_ w r) then [] else [Register (EClass r) (base_classes bases) s (python_class_name w r)])).
    + split; assumption.
    + unfold s'. destruct (r_anon (rec_ w r)); [auto|]. destruct HD as [SB _]. auto.
    + exact SE.
    + exact SI.
    + exact X.
Qed.
Lemma item_name w ops f code pre : item_text w ops (DFun f) code pre -> exists name, python_name w (fun_ w f) name.
Proof.
  intros T. inversion T as [f' path line args k ls LO P K L DL| |]; subst.
  assert (Y : exists l0, nth_error ls 0 = Some l0).
  { destruct ls as [|l0 ls]; [|exists l0; reflexivity]. cbn in L. exfalso. assert (Q : k <= length (f_params (fun_ w f))).
    { destruct K as [[_ ->]|[_ [Q _]]]; [apply le_n|exact Q]. } lia. }
  destruct Y as [l0 Y]. pose proof (DL _ _ Y) as Z. inversion Z; subst. eexists. eassumption.
Qed.
Lemma item_class w ops r code pre : item_text w ops (DRec r) code pre -> exists b, class_binding w ops r b.
Proof. intros T. inversion T as [| |r' b' CB]; subst. exists b'. exact CB. Qed.
(** Every run has such a sequence of registrations. *)
Theorem C79_actions_exist : forall w visits o, const_is_method w -> run w visits = Ok o -> exists l, run_actions w o l.
Proof.
  intros w visits o CM H. unfold run_actions.
  assert (X : forall b, In b (written (out_files o)) -> exists acts, (b_code b = [] /\ acts = []) \/ (b_code b <> [] /\ item_actions w (b_decl b) acts)).
  { intros b I. assert (Dc : b_code b = [] \/ b_code b <> []) by (destruct (b_code b); [left; reflexivity|right; discriminate]).
    destruct Dc as [Ec|Nc]; [exists []; left; auto|].
    assert (Hb : In b (out_sorted o)).
    { destruct (C31_every_bound_item_in_one_file w visits o H) as [_ [W _]]. assert (J : In b (filter has_code (written (out_files o)))) by (apply filter_In; split; [exact I|apply has_code_iff, Nc]).
      rewrite W in J. apply filter_In in J. exact (proj1 J). }
    pose proof (C68_every_item w visits o b CM H Hb Nc) as T. destruct (b_decl b) as [f|r|e] eqn:D.
    - destruct (item_name w _ _ _ _ T) as [name N]. eexists. right. split; [exact Nc|]. apply AI_function. exact N.
    - destruct (item_class w _ _ _ _ T) as [b' CB]. destruct (class_item_actions w _ (InModule (namespace_from_named_decl w (r_decl (rec_ w r)))) _ _ CB) as [l C].
      exists l. right. split; [exact Nc|]. apply AI_class, C.
    - eexists. right. split; [exact Nc|]. apply AI_enum. }
  clear - X. induction (written (out_files o)) as [|b l IH]; [exists []; constructor|].
  destruct (X b (or_introl eq_refl)) as [a A]. destruct IH as [l' L]; [intros c I; exact (X c (or_intror I))|]. exists (a :: l'). constructor; assumption.
Qed.
Print Assumptions C79_actions_exist.

Lemma item_modules w modules d acts : item_actions w d acts -> In (namespace_from_named_decl w (named_of (wenv w) d)) modules ->
  forall pre p a q, acts = p ++ a :: q -> match a with Register _ _ sc _ | Define sc _ => exists_after modules (pre ++ p) sc | Delegate _ _ => True end.
Proof.
  intros H M pre p a q E. destruct H as [f name N|e|r l C].
  - destruct p as [|x p]; [injection E as <- _; exact M|destruct p; discriminate E].
  - destruct p as [|x p]; [injection E as <- _; exact M|destruct p; discriminate E].
  - exact (actions_scope w modules _ r l C pre M p a q E).
Qed.
(** The type that an item is about, or that is nested in it. *)
Definition belongs (w : world) (d : decl) (x : entity) : Prop :=
  match d with DFun _ => False | DEnum e => x = EEnum e | DRec r => under w x r end.
Lemma item_belongs w d acts : item_actions w d acts -> forall x, In x (registered acts) -> belongs w d x.
Proof.
  intros H x I. destruct H as [f name N|e|r l C]; cbn [belongs].
  - destruct I.
  - destruct I as [<-|[]]. reflexivity.
  - exact (actions_under w _ _ _ C x I).
Qed.
Lemma belongs_once w d1 d2 x : proper_nesting w -> collectible w d1 -> collectible w d2 -> belongs w d1 x -> belongs w d2 x -> d1 = d2.
Proof.
  intros PN C1 C2 B1 B2. destruct d1 as [f1|r1|e1]; [destruct B1| |]; (destruct d2 as [f2|r2|e2]; [destruct B2| |]); cbn [belongs collectible] in *.
  - f_equal. exact (under_top w PN x r1 r2 B1 B2 (proj1 C1) (proj1 C2)).
  - subst x. destruct (under_enum w _ _ B1) as [r0 [I _]]. rewrite (pn_enum _ PN _ _ I) in C2. discriminate C2.
  - subst x. destruct (under_enum w _ _ B2) as [r0 [I _]]. rewrite (pn_enum _ PN _ _ I) in C1. discriminate C1.
  - subst x. injection B2 as ->. reflexivity.
Qed.
Lemma item_nodup w d acts : proper_nesting w -> item_actions w d acts -> NoDup (registered acts).
Proof.
  intros PN H. destruct H as [f name N|e|r l C]; [constructor|cbn; constructor; [intros []|constructor]|exact (actions_nodup w PN _ _ _ C)].
Qed.
Definition action_of (w : world) (b : binder) (acts : list action) : Prop :=
  (b_code b = [] /\ acts = []) \/ (b_code b <> [] /\ item_actions w (b_decl b) acts).
Lemma all_nodup w bs l : proper_nesting w -> (forall b, In b bs -> collectible w (b_decl b)) -> NoDup (map b_decl bs) -> Forall2 (action_of w) bs l -> NoDup (registered (concat l)).
Proof.
  intros PN C N F. induction F as [|b a bs l Hb F IH]; [constructor|]. cbn [concat]. rewrite registered_app. cbn [map] in N. inversion N as [|? ? N1 N2]; subst.
  apply nodup_app.
  - destruct Hb as [[_ ->]|[_ Hb]]; [constructor|exact (item_nodup w _ _ PN Hb)].
  - apply IH; [intros c I; apply C; right; exact I|exact N2].
  - intros x I J. destruct Hb as [[_ ->]|[_ Hb]]; [destruct I|]. pose proof (item_belongs w _ _ Hb x I) as B1.
    apply concat_registered in J. destruct J as [a' [Ia J]].
    assert (Y : exists b', In b' bs /\ belongs w (b_decl b') x).
    { clear - F Ia J. induction F as [|b' a2 bs l H F IH]; [destruct Ia|]. destruct Ia as [<-|Ia].
      - exists b'. split; [left; reflexivity|]. destruct H as [[_ ->]|[_ H]]; [destruct J|exact (item_belongs w _ _ H x J)].
      - destruct (IH Ia) as [b2 [I B]]. exists b2. split; [right; exact I|exact B]. }
    destruct Y as [b' [Ib B2]]. apply N1. rewrite (belongs_once w _ _ x PN (C b (or_introl eq_refl)) (C b' (or_intror Ib)) B1 B2). apply in_map, Ib.
Qed.
Lemma class_registers w s c l : class_actions w s c l -> ~ python_type w (class_name w c) -> r_anon (rec_ w c) = false -> In (EClass c) (registered l).
Proof.
  intros H NP An. destruct H as [s r Py|s r binder _ _|s s' r bases enums inner ia head G HD SE SI F]; [contradiction|left; reflexivity|].
  rewrite An in HD. destruct HD as [_ [_ ->]]. left. reflexivity.
Qed.
(** Bases of an item are registered by the items before it. *)
Lemma bases_known w visits o l : bases_consistent w -> names_distinct w (collected_items w visits) -> types_distinct w (collected_items w visits) -> proper_nesting w ->
  run w visits = Ok o -> (forall ns, replaced_namespace w ns = false) ->
  (forall r c, bound o (DRec r) -> bound_base w r c -> ~ python_type w (class_name w c)) -> run_actions w o l ->
  forall W1 b W2 l1 r c, written (out_files o) = W1 ++ b :: W2 -> Forall2 (action_of w) W1 l1 -> b_decl b = DRec r -> b_code b <> [] ->
    generated w r -> r_anon (rec_ w r) = false -> bound_base w r c -> In (EClass c) (registered (concat l1)).
Proof.
  intros BC ND TD PN H NR NPB RA W1 b W2 l1 r c EW F1 Db Nb G An BB.
  destruct (C31_every_bound_item_in_one_file w visits o H) as [_ [W _]].
  rewrite EW in W. rewrite filter_app in W. cbn [filter] in W. rewrite (proj2 (has_code_iff b) Nb) in W.
  assert (W' : filter has_code (out_sorted o) = filter has_code W1 ++ b :: filter has_code W2).
  { rewrite W. apply filter_ext. intros x. rewrite NR. cbn [negb]. rewrite andb_true_r. reflexivity. }
  destruct (filter_split _ _ _ _ _ W') as [s1 [s2 [Es Ef]]].
  assert (Bo : bound o (DRec r)) by (exists b; split; [rewrite Es; apply in_elt|auto]).
  pose proof (NPB r c Bo BB) as NP.
  assert (PB : is_python_builtin w (r_decl (rec_ w c)) = false).
  { destruct (is_python_builtin w (r_decl (rec_ w c))) eqn:E; [|reflexivity]. exfalso. apply NP. apply builtin_iff in E. exact E. }
  assert (CB : custom_binder w r = false).
  { unfold custom_binder. destruct G as [_ G]. unfold class_name in G. rewrite G. reflexivity. }
  destruct (C28_bases_first w visits o BC H s1 b r s2 c Es Db Nb CB An BB PB) as [b1 [r1 [I1 [D1 [_ X]]]]]. destruct (X ND TD) as [-> N1].
  assert (J : In b1 W1).
  { assert (K : In b1 (filter has_code s1)) by (apply filter_In; split; [exact I1|apply has_code_iff, N1]). rewrite Ef in K. apply filter_In in K. exact (proj1 K). }
  apply concat_registered. clear - F1 J D1 N1 NP PN BB. induction F1 as [|b' a W1 l1 Hb F1 IH]; [destruct J|]. destruct J as [->|J].
  - exists a. split; [left; reflexivity|]. destruct Hb as [[E _]|[_ Hb]]; [contradiction|]. rewrite D1 in Hb. inversion Hb as [| |r' l' C]; subst.
    apply (class_registers w _ c a C NP). exact (pn_base _ PN _ _ (bound_base_inherits _ _ _ BB)).
  - destruct (IH J) as [a' [I R]]. exists a'. split; [right; exact I|exact R].
Qed.
Lemma class_generated w s r l : class_actions w s r l -> forall a, In a l -> (forall ns i, a <> Delegate ns i) -> generated w r.
Proof. intros C a I N. destruct C as [s r Py|s r binder _ _|s s' r bases enums inner ia head G HD SE SI F]; [destruct I|destruct I as [<-|[]]; exfalso; exact (N _ _ eq_refl)|exact G]. Qed.
Lemma named_bound w ops r g bs c : generate_code w ops (DRec r) = Ok g -> generated w r -> r_anon (rec_ w r) = false ->
  selection (named_base w) (r_bases (rec_ w r)) bs -> In c (base_classes bs) -> bound_base w r c.
Proof.
  intros GC [NP G] An SB I. cbn [generate_code] in GC.
  assert (PB : is_python_builtin w (r_decl (rec_ w r)) = false).
  { destruct (is_python_builtin w (r_decl (rec_ w r))) eqn:E; [|reflexivity]. exfalso. apply NP. apply builtin_iff in E. exact E. }
  assert (CB : custom_binder w r = false) by (unfold custom_binder; unfold class_name in G; rewrite G; reflexivity).
  destruct (bind_class_deps_part _ _ _ _ _ GC PB CB An) as [bs' [q [B _]]]. pose proof (bases_spec _ _ _ B) as S'. rewrite (selection_unique _ _ _ _ SB S') in I.
  apply (bound_bases_In _ _ _ _ B). exact I.
Qed.
Theorem C79_import : forall w visits o l,
  bases_consistent w -> names_distinct w (collected_items w visits) -> types_distinct w (collected_items w visits) -> proper_nesting w ->
  run w visits = Ok o ->
  (forall b, In b (out_sorted o) -> b_code b <> [] -> ~ exists r, binder_namespace w b = $"::" ++ r) ->
  (forall ns, replaced_namespace w ns = false) ->
  (forall r c, bound o (DRec r) -> bound_base w r c -> ~ python_type w (class_name w c)) ->
  (forall r acts, bound o (DRec r) -> item_actions w (DRec r) acts -> simple_nesting w r acts) ->
  run_actions w o l -> names_free (concat l) ->
  exists modules, run_submodules (map (fun n => (base_namespace n, last_namespace n)) (out_namespaces o)) [[]] = Some modules /\ importable modules (concat l).
Proof.
  intros w visits o l BC ND TD PN H NS NR NPB SN RA NF.
  destruct (C37_modules_exist w visits o H NS) as [modules [M1 M2]]. exists modules. split; [exact M1|].
  destruct (C31_every_bound_item_in_one_file w visits o H) as [_ [WI _]].
  assert (InS : forall b, In b (written (out_files o)) -> b_code b <> [] -> In b (out_sorted o)).
  { intros b I N. assert (J : In b (filter has_code (written (out_files o)))) by (apply filter_In; split; [exact I|apply has_code_iff, N]). rewrite WI in J. apply filter_In in J. exact (proj1 J). }
  assert (NoD : NoDup (registered (concat l))).
  { assert (X : NoDup (registered (concat l)) /\ True); [|exact (proj1 X)]. split; [|exact I].
    set (W := filter has_code (written (out_files o))).
    assert (F : exists l', Forall2 (action_of w) W l' /\ concat l' = concat l).
    { unfold W. clear - RA. unfold run_actions in RA. induction RA as [|b a bs l Hb F IH]; [exists []; split; [constructor|reflexivity]|]. destruct IH as [l' [F' E]]. cbn [filter concat].
      destruct (has_code b) eqn:C; [exists (a :: l'); split; [constructor; [exact Hb|exact F']|cbn; rewrite E; reflexivity]|].
      exists l'. split; [exact F'|]. destruct Hb as [[_ ->]|[N _]]; [exact E|]. apply has_code_iff in N. rewrite N in C. discriminate C. }
    destruct F as [l' [F E]]. rewrite <- E. apply (all_nodup w W l' PN); [| |exact F].
    - intros b J. unfold W in J. rewrite WI in J. apply filter_In in J. destruct J as [J _].
      apply (in_map b_decl) in J. apply (Permutation_in _ (C29_sorting_is_a_permutation w visits o H)) in J.
      destruct (C24_collected_once w visits) as [_ [_ [FV _]]]. apply FV in J. destruct J as [? [? [_ [C _]]]]. exact C.
    - unfold W. rewrite WI. assert (NDS : NoDup (map b_decl (out_sorted o))) by (apply (Permutation_NoDup (Permutation_sym (run_perm _ _ _ H))), items_nodup).
      clear - NDS. induction (out_sorted o) as [|b s IH]; [constructor|]. cbn [map] in NDS. inversion NDS as [|? ? A B]; subst. cbn [filter].
      destruct (has_code b && _); [|exact (IH B)]. cbn [map]. constructor; [|exact (IH B)]. intros J. apply A. apply in_map_iff in J. destruct J as [x [E J]]. apply filter_In in J.
      rewrite <- E. apply in_map, J. }
  intros before a after E.
  destruct (concat_split l before a after E) as [l1 [acts [l2 [p [El [Eb [q Ea]]]]]]].
  pose proof RA as RA'. unfold run_actions in RA'. rewrite El in RA'. destruct (forall2_split _ _ _ _ _ RA') as [W1 [b [W2 [EW [F1 [Hb _]]]]]].
  destruct Hb as [[_ Hb]|[Nb Hb]]; [rewrite Hb in Ea; destruct p; discriminate Ea|].
  assert (Ib : In b (out_sorted o)) by (apply InS; [rewrite EW; apply in_elt|exact Nb]).
  pose proof (M2 b Ib Nb) as Mb. unfold binder_namespace, named_decl in Mb.
  pose proof (item_modules w modules _ _ Hb Mb (concat l1) p a q Ea) as SC.
  assert (NN : forall x bases s name, a = Register x bases s name -> ~ In x (registered before)).
  { intros x bases s name -> J. rewrite E in NoD. rewrite registered_app in NoD. cbn in NoD. apply NoDup_remove_2 in NoD. apply NoD. apply in_app_iff. left. exact J. }
  assert (NM : forall c, In c before -> exists m1 m2, concat l = m1 ++ c :: m2 ++ a :: after).
  { intros c J. apply in_split in J. destruct J as [m1 [m2 ->]]. exists m1, m2. rewrite E, <- app_assoc. reflexivity. }
  destruct a as [x bases s name|s name|ns i]; cbn [accepted].
  - split; [rewrite Eb; exact SC|]. split; [exact (NN _ _ _ _ eq_refl)|]. split; [|split].
    + intros c Ic. destruct (b_decl b) as [f|r|e] eqn:Db; inversion Hb as [f' nm0 N EQ1 EQ2|e' EQ1 EQ2|r' l' C EQ1 EQ2].
      * rewrite <- EQ2 in Ea. destruct p as [|z p]; [discriminate Ea|destruct p; discriminate Ea].
      * subst r' l'. pose proof (action_kind w _ _ _ C (Register x bases s name)) as K. rewrite Ea in K at 1. specialize (K (in_elt _ _ _)).
        destruct x as [i|e]; [|subst bases; destruct Ic].
        destruct K as [G [An [bs [SB EB]]]].
        assert (Bo : bound o (DRec r)) by (exists b; auto).
        assert (GR : generated w r) by (apply (class_generated w _ r acts C (Register (EClass i) bases s name)); [rewrite Ea; apply in_elt|discriminate]).
        assert (Base : forall c', r_anon (rec_ w r) = false -> bound_base w r c' -> In (EClass c') (registered before)).
        { intros c' An' BB. rewrite Eb, registered_app. apply in_app_iff. left.
          exact (bases_known w visits o l BC ND TD PN H NR NPB RA W1 b W2 l1 r c' EW F1 Db Nb GR An' BB). }
        destruct (Nat.eq_dec i r) as [->|Ni].
        { apply (Base c An). subst bases. destruct (run_item _ _ _ _ H Ib) as [_ [_ [_ X]]]. destruct (X Nb) as [g [GC _]]. rewrite Db in GC.
          exact (named_bound w _ r g bs c GC G An SB Ic). }
        destruct (proj2 (SN r acts Bo Hb) p i bases s name q c Ea Ni Ic) as [[An' BB]|J]; [exact (Base c An' BB)|].
        rewrite Eb, registered_app. apply in_app_iff. right. exact J.
      * rewrite <- EQ2 in Ea. destruct p as [|z p]; [injection Ea as _ <- _ _ _; destruct Ic|destruct p; discriminate Ea].
    + intros y bs J. destruct (NM _ J) as [m1 [m2 Q]]. pose proof (NF _ _ _ _ _ Q) as X. cbn in X. apply X. reflexivity.
    + intros J. destruct (NM _ J) as [m1 [m2 Q]]. pose proof (NF _ _ _ _ _ Q) as X. cbn in X. apply X. reflexivity.
  - split; [rewrite Eb; exact SC|]. intros y bs J. destruct (NM _ J) as [m1 [m2 Q]]. pose proof (NF _ _ _ _ _ Q) as X. cbn in X. apply X. reflexivity.
  - destruct (b_decl b) as [f|r|e] eqn:Db; inversion Hb as [f' nm0 N EQ1 EQ2|e' EQ1 EQ2|r' l' C EQ1 EQ2].
    + rewrite <- EQ2 in Ea. destruct p as [|z p]; [discriminate Ea|destruct p; discriminate Ea].
    + subst r' l'. assert (Ia : In (Delegate ns i) acts) by (rewrite Ea; apply in_elt).
      pose proof (action_kind w _ _ _ C _ Ia) as K. cbn in K. assert (Bo : bound o (DRec r)) by (exists b; auto).
      rewrite (proj1 (SN r acts Bo Hb) ns i Ia) in K. rewrite K. exact Mb.
    + rewrite <- EQ2 in Ea. destruct p as [|z p]; [discriminate Ea|destruct p; discriminate Ea].
Qed.
Print Assumptions C79_import.
Lemma python_name_unique w F a b : python_name w F a -> python_name w F b -> a = b.
Proof.
  intros [x [-> Hx]] [y [-> Hy]]. f_equal. destruct Hx as [[O1 X]|[[O1 [-> X]]|[O1 ->]]]; destruct Hy as [[O2 Y]|[[O2 [-> Y]]|[O2 ->]]]; try reflexivity; try (rewrite O1 in O2; discriminate O2).
  - exact (C44_one_name _ _ _ _ X Y).
  - destruct (Y _ X).
  - destruct (X _ Y).
Qed.
Lemma item_actions_unique w d l l' : item_actions w d l -> item_actions w d l' -> l = l'.
Proof.
  intros H1 H2. destruct H1 as [f name N|e|r l C]; inversion H2 as [f' name' N'|e'|r' l2 C']; subst; [|reflexivity|].
  - rewrite (python_name_unique w _ _ _ N N'). reflexivity.
  - exact (actions_unique w _ _ _ C _ C').
Qed.
Lemma unlinked_unbound w r : r_linkage (rec_ w r) = false -> n_member (r_decl (rec_ w r)) = false -> is_bindable_rec w r = false.
Proof. intros L M. unfold is_bindable_rec, rec_bindable_raw. cbv zeta. rewrite L, M. destruct (r_anon_ns (rec_ w r)); reflexivity. Qed.
(** The code of an item has the statements for its registrations, in this
    order; each is put where, and under the name, that the registration says. *)
Theorem C79_statements : forall w visits o b acts, const_is_method w -> proper_nesting w -> run w visits = Ok o -> In b (out_sorted o) -> b_code b <> [] ->
  (forall r, r_anon (rec_ w r) = true -> r_linkage (rec_ w r) = false) ->
  item_actions w (b_decl b) acts ->
  exists ts, Forall2 (statement w) acts ts /\ ((forall t, In t ts -> ~ In nl t) -> in_order ts (b_code b)).
Proof.
  intros w visits o b acts CM PN H Hb Nc An IA. pose proof (C68_every_item w visits o b CM H Hb Nc) as T.
  assert (CO : collectible w (b_decl b)).
  { pose proof (in_map b_decl _ _ Hb) as J. apply (Permutation_in _ (C29_sorting_is_a_permutation w visits o H)) in J.
    destruct (C24_collected_once w visits) as [_ [_ [FV _]]]. apply FV in J. destruct J as [? [? [_ [C _]]]]. exact C. }
  destruct (item_statements w _ _ _ _ PN T) as [l [ts [A [B C]]]].
  - intros r D. rewrite D in CO. destruct CO as [M Bd]. split; [exact M|]. destruct (r_anon (rec_ w r)) eqn:A; [|reflexivity]. exfalso.
    rewrite (unlinked_unbound w r (An r A) M) in Bd. discriminate Bd.
  - rewrite (item_actions_unique w _ _ _ IA A). exists ts. auto.
Qed.
Print Assumptions C79_statements.

(** *** The hypotheses are met *)

(** n::A with the nested class A::In and the enum A::Kind; n::D derived from
    A, visited first; the function n::f and the enum n::E. *)
Definition imp_n (name : str) : named := nm name ($"n::" ++ name) $"<i.hh>".
Definition imp_mem (name : str) : named := member_of 0 Public (nm name ($"n::A::" ++ name) $"<i.hh>").
Definition imp_rs : list record := [
  cls (imp_n $"A") 0 [] [MRec 2; MEnum 0];
  cls (imp_n $"D") 1 [mkbase Public false (TRec false 0 [])] [];
  cls (imp_mem $"In") 2 [] []].
Definition imp_es : list enum := [
  mkenum (imp_mem $"Kind") false false false true [($"k1", $"n::A::k1")] (Some 0);
  mkenum (imp_n $"E") false false false true [($"e1", $"n::e1")] (Some 1)].
Definition imp_rname (r : nat) : str := nth r [$"class n::A"; $"class n::D"; $"class n::A::In"] [].
Definition imp_w (config : str) : world :=
  mkworld (tu imp_rs [fn0 (imp_n $"f") void []] imp_es imp_rname (fun e => nth e [$"enum n::A::Kind"; $"enum n::E"] []))
          (match setup default_config [$"n"] [] $"c" (Some config) with Ok c => c | _ => default_config end) (mix_options false false 1000%N).
Definition imp_visits : list decl := [DRec 1; DRec 0; DRec 2; DEnum 0; DEnum 1; DFun 0].
Definition imp_m : scope := InModule $"n".
Definition imp_acts : list (list action) := [
  [Register (EClass 0) [] imp_m $"A"; Register (EEnum 0) [] (InClass 0) $"Kind"; Register (EClass 2) [] (InClass 0) $"In"];
  [Register (EEnum 1) [] imp_m $"E"]; [Define imp_m $"f"];
  [Register (EClass 1) [0] imp_m $"D"]].
Lemma imp_inner config r j : In j (inner_classes (imp_w config) r) -> r = 0 /\ j = 2.
Proof. destruct r as [|[|[|r]]]; cbn; [intros [<-|[]]; auto|intros []|intros []|destruct r; intros []]. Qed.
Lemma imp_enums config r e : In e (inner_enums (imp_w config) r) -> r = 0 /\ e = 0.
Proof. destruct r as [|[|[|r]]]; cbn; [intros [<-|[]]; auto|intros []|intros []|destruct r; intros []]. Qed.
Lemma imp_bases config r b : In b (r_bases (rec_ (imp_w config) r)) -> r = 1 /\ b = mkbase Public false (TRec false 0 []).
Proof. destruct r as [|[|[|r]]]; cbn; [intros []|intros [<-|[]]; auto|intros []|destruct r; intros []]. Qed.
Lemma imp_nested config i r : nested_in (imp_w config) i r -> i = 2 /\ r = 0.
Proof. intros [j [I [_ <-]]]. apply imp_inner in I. destruct I as [-> ->]. auto. Qed.
Lemma imp_nesting config : proper_nesting (imp_w config).
Proof.
  split.
  - intros i r N. apply imp_nested in N. destruct N as [-> _]. reflexivity.
  - intros i r1 r2 N1 N2. apply imp_nested in N1. apply imp_nested in N2. destruct N1 as [_ ->]. destruct N2 as [_ ->]. reflexivity.
  - intros r. destruct r as [|[|[|r]]]; cbn; [repeat constructor; intros []|constructor|constructor|destruct r; constructor].
  - assert (X : forall a b, clos_trans nat (nested_in (imp_w config)) a b -> a = 2 /\ b = 0).
    { induction 1 as [a b N|a b c H1 IH1 H2 IH2]; [exact (imp_nested config a b N)|]. destruct IH1 as [_ E1]. destruct IH2 as [E2 _]. rewrite E1 in E2. discriminate E2. }
    intros r C. apply X in C. destruct C as [-> C]. discriminate C.
  - intros e r I. apply imp_enums in I. destruct I as [_ ->]. reflexivity.
  - intros e r1 r2 I1 I2. apply imp_enums in I1. apply imp_enums in I2. destruct I1 as [-> _]. destruct I2 as [-> _]. reflexivity.
  - intros r. destruct r as [|[|[|r]]]; cbn; [repeat constructor; intros []|constructor|constructor|destruct r; constructor].
  - intros r c [b [I E]]. apply imp_bases in I. destruct I as [_ ->]. injection E as <-. reflexivity.
Qed.
Local Transparent standard_name class_qualified_name python_class_name namespace_from_named_decl run.
Lemma imp_consistent config : bases_consistent (imp_w config).
Proof. intros r b c k args I E. apply imp_bases in I. destruct I as [-> ->]. cbn in E. injection E as <- <- <-. reflexivity. Qed.
Lemma imp_items : collected_items (imp_w []) imp_visits = [DRec 1; DRec 0; DEnum 1; DFun 0].
Proof. vm_compute. reflexivity. Qed.
Lemma imp_names : names_distinct (imp_w []) (collected_items (imp_w []) imp_visits).
Proof.
  rewrite imp_items. intros r c r' I1 I2 [b [Ib Eb]]. apply imp_bases in Ib. destruct Ib as [-> ->]. injection Eb as <-.
  destruct I1 as [I1|[I1|[I1|[I1|[]]]]]; try discriminate I1; injection I1 as <-; [|reflexivity]. intros E. vm_compute in E. discriminate E.
Qed.
Definition imp_type (d : decl) : str := match d with DRec 0 => $"class n::A" | DRec _ => $"class n::D" | _ => $"enum n::E" end.
Lemma imp_type_ok d n : In d [DRec 1; DRec 0; DEnum 1; DFun 0] -> In n (type_names (imp_w []) d) -> n = imp_type d /\ d <> DFun 0.
Proof.
  intros [<-|[<-|[<-|[<-|[]]]]] H; vm_compute in H; (destruct H as [H|[]] || destruct H); rewrite <- H; (split; [reflexivity|discriminate]).
Qed.
Lemma imp_types : types_distinct (imp_w []) (collected_items (imp_w []) imp_visits).
Proof.
  rewrite imp_items. intros d d' n I1 I2 H1 H2. destruct (imp_type_ok d n I1 H1) as [E1 N1]. destruct (imp_type_ok d' n I2 H2) as [E2 N2]. rewrite E1 in E2. clear - E2 I1 I2 N1 N2.
  destruct I1 as [<-|[<-|[<-|[<-|[]]]]]; [| | |destruct (N1 eq_refl)]; (destruct I2 as [<-|[<-|[<-|[<-|[]]]]]; [| | |destruct (N2 eq_refl)]); try reflexivity; discriminate E2.
Qed.
Lemma imp_free : names_free (concat imp_acts).
Proof.
  intros l1 a l2 b l3 X.
  assert (Y : forall n m x y, n < m -> nth_error (concat imp_acts) n = Some x -> nth_error (concat imp_acts) m = Some y ->
    match x, y with
    | Register _ _ s name, Register _ _ s' name' | Register _ _ s name, Define s' name' | Define s name, Register _ _ s' name' => (s, name) <> (s', name')
    | _, _ => True
    end).
  { clear. intros n m x y Lt A B. assert (Hn : n < length (concat imp_acts)) by (apply nth_error_Some; rewrite A; discriminate). assert (Hm : m < length (concat imp_acts)) by (apply nth_error_Some; rewrite B; discriminate). cbn in Hn, Hm.
    do 6 (destruct n as [|n]; [do 6 (destruct m as [|m]; [try (exfalso; lia); cbn in A, B; injection A as <-; injection B as <-; try exact I; intros Z; discriminate Z|]); exfalso; lia|]). exfalso; lia. }
  apply (Y (length l1) (length l1 + S (length l2))); [lia| |].
  - rewrite X, nth_error_app2, Nat.sub_diag by lia. reflexivity.
  - rewrite X, nth_error_app2 by lia. replace (length l1 + S (length l2) - length l1) with (S (length l2)) by lia. cbn [nth_error].
    rewrite nth_error_app2, Nat.sub_diag by lia. reflexivity.
Qed.
Lemma imp_simple r acts : In r [0; 1] -> item_actions (imp_w []) (DRec r) acts -> simple_nesting (imp_w []) r acts.
Proof.
  intros R IA. inversion IA as [| |r' l' C]; subst r' l'.
  assert (U : forall l, class_acts 5 (imp_w []) (InModule (namespace_from_named_decl (imp_w []) (r_decl (rec_ (imp_w []) r)))) r = Ok l -> acts = l).
  { intros l X. exact (actions_unique _ _ _ _ C _ (class_acts_sound _ _ _ _ _ X)). }
  destruct R as [<-|[<-|[]]].
  - rewrite (U (nth 0 imp_acts [])) by (vm_compute; reflexivity). cbn [nth imp_acts]. split.
    + intros ns i [X|[X|[X|[]]]]; discriminate X.
    + intros p i bases s name q c X _ Ic. exfalso. assert (J : In (Register (EClass i) bases s name) (nth 0 imp_acts [])) by (cbn [nth imp_acts]; rewrite X; apply in_elt).
      destruct J as [J|[J|[J|[]]]]; [|discriminate J|]; injection J as _ <- _ _; destruct Ic.
  - rewrite (U (nth 3 imp_acts [])) by (vm_compute; reflexivity). cbn [nth imp_acts]. split.
    + intros ns i [X|[]]; discriminate X.
    + intros p i bases s name q c X N Ic. exfalso. assert (J : In (Register (EClass i) bases s name) (nth 3 imp_acts [])) by (cbn [nth imp_acts]; rewrite X; apply in_elt).
      destruct J as [J|[]]. injection J as <- _ _ _. apply N. reflexivity.
Qed.
Lemma imp_item_actions : Forall2 (item_actions (imp_w [])) [DRec 0; DEnum 1; DFun 0; DRec 1] imp_acts.
Proof.
  repeat apply Forall2_cons; try apply Forall2_nil.
  - apply AI_class, (class_acts_sound _ 5). vm_compute. reflexivity.
  - assert (E : InModule (namespace_from_named_decl (imp_w []) (e_decl (enum_ (imp_w []) 1))) = imp_m) by (vm_compute; reflexivity).
    pose proof (AI_enum (imp_w []) 1) as X. rewrite E in X. exact X.
  - assert (E : InModule (namespace_from_named_decl (imp_w []) (f_decl (fun_ (imp_w []) 0))) = imp_m) by (vm_compute; reflexivity).
    rewrite <- E. apply AI_function. exists $"f". split; [reflexivity|]. auto.
  - apply AI_class, (class_acts_sound _ 5). vm_compute. reflexivity.
Qed.
Example C79_case :
  let w := imp_w [] in
  bases_consistent w /\ names_distinct w (collected_items w imp_visits) /\ types_distinct w (collected_items w imp_visits) /\ proper_nesting w /\
  exists o, run w imp_visits = Ok o /\
    (forall b, In b (out_sorted o) -> b_code b <> [] -> ~ exists r, binder_namespace w b = $"::" ++ r) /\
    (forall ns, replaced_namespace w ns = false) /\
    (forall r c, bound o (DRec r) -> bound_base w r c -> ~ python_type w (class_name w c)) /\
    (forall r acts, bound o (DRec r) -> item_actions w (DRec r) acts -> simple_nesting w r acts) /\
    run_actions w o imp_acts /\ names_free (concat imp_acts).
Proof.
  split; [exact (imp_consistent [])|]. split; [exact imp_names|]. split; [exact imp_types|]. split; [exact (imp_nesting [])|].
  destruct (run (imp_w []) imp_visits) as [o| | | |] eqn:E; try (vm_compute in E; discriminate E). exists o. split; [reflexivity|].
  vm_compute in E. apply Ok_inj in E.
  split.
  { intros b I _ [r X]. assert (Y : forallb (fun b => negb (prefixb $"::" (binder_namespace (imp_w []) b))) (out_sorted o) = true) by (rewrite <- E; vm_compute; reflexivity).
    rewrite forallb_forall in Y. specialize (Y b I). rewrite X in Y. cbn in Y. discriminate Y. }
  split; [intros ns; reflexivity|].
  split.
  { intros r c _ [b [I [_ [Eb _]]]]. apply imp_bases in I. destruct I as [-> ->]. injection Eb as <-. intros Py. apply (builtin_iff (imp_w []) (r_decl (rec_ (imp_w []) 0))) in Py. vm_compute in Py. discriminate Py. }
  split.
  { intros r acts [b [I [D _]]]. apply imp_simple.
    assert (J : In (DRec r) (map b_decl (out_sorted o))) by (rewrite <- D; apply in_map, I). rewrite <- E in J. cbn in J.
    repeat (destruct J as [J|J]; [try discriminate J; injection J as <-; cbn; auto|]). destruct J. }
  split; [|exact imp_free].
  assert (X : map b_decl (written (out_files o)) = [DRec 0; DEnum 1; DFun 0; DRec 1]) by (rewrite <- E; vm_compute; reflexivity).
  assert (Y : Forall (fun b => b_code b <> []) (written (out_files o))) by (rewrite <- E; clear; vm_compute; repeat (apply Forall_cons; [discriminate|]); apply Forall_nil).
  clear E. pose proof imp_item_actions as Z. rewrite <- X in Z. unfold run_actions. revert Y Z. generalize imp_acts. generalize (written (out_files o)). clear.
  induction l as [|b l IH]; intros acts Y Z; cbn [map] in Z; inversion Z as [|d x l' acts' H1 H2 Ea Eb]; constructor.
  - right. split; [exact (Forall_inv Y)|exact H1].
  - apply IH; [exact (Forall_inv_tail Y)|exact H2].
Qed.
(** The statements of the first item of the sample. *)
Example C79_statements_case :
  const_is_method (imp_w []) /\ (forall r, r_anon (rec_ (imp_w []) r) = true -> r_linkage (rec_ (imp_w []) r) = false) /\
  exists o b ts, run (imp_w []) imp_visits = Ok o /\ In b (out_sorted o) /\ b_decl b = DRec 0 /\ b_code b <> [] /\
    item_actions (imp_w []) (b_decl b) (nth 0 imp_acts []) /\ Forall2 (statement (imp_w [])) (nth 0 imp_acts []) ts /\
    ts = [$"pybind11::class_<n::A, std::shared_ptr<n::A>> cl(M(""n""), ""A"""; $"pybind11::enum_<n::A::Kind>(cl, ""Kind"""; $"pybind11::class_<n::A::In, std::shared_ptr<n::A::In>> cl(enclosing_class, ""In"""].
Proof.
  split; [intros f; destruct f as [|[|f]]; cbn; discriminate|]. split; [intros r; destruct r as [|[|[|r]]]; cbn; try discriminate; destruct r; discriminate|].
  destruct (run (imp_w []) imp_visits) as [o| | | |] eqn:E; try (vm_compute in E; discriminate E). exists o.
  vm_compute in E. apply Ok_inj in E. destruct (out_sorted o) as [|b l] eqn:Eo; [rewrite <- E in Eo; discriminate Eo|].
  assert (D : b_decl b = DRec 0 /\ b_code b <> []) by (rewrite <- E in Eo; cbn in Eo; injection Eo as <- _; split; [reflexivity|discriminate]).
  exists b. eexists. split; [reflexivity|]. split; [left; reflexivity|]. split; [exact (proj1 D)|]. split; [exact (proj2 D)|]. rewrite (proj1 D).
  split; [pose proof imp_item_actions as X; inversion X as [|? ? ? ? X1 _]; exact X1|].
  split; [|reflexivity]. cbn [nth imp_acts].
  pose proof (SM_class (imp_w []) 0 [] imp_m $"A" $", std::shared_ptr<n::A>" []) as S1. pose proof (SM_enum (imp_w []) 0 (InClass 0) $"Kind") as S2. pose proof (SM_class (imp_w []) 2 [] (InClass 0) $"In" $", std::shared_ptr<n::A::In>" []) as S3.
  assert (E1 : class_qualified_name (imp_w []) 0 = $"n::A") by (vm_compute; reflexivity). assert (E2 : class_qualified_name (imp_w []) 2 = $"n::A::In") by (vm_compute; reflexivity).
  rewrite E1 in S1. rewrite E2 in S3.
  apply Forall2_cons; [exact S1|]. apply Forall2_cons; [exact S2|]. apply Forall2_cons; [exact S3|]. apply Forall2_nil.
Qed.
(** A base that Python has already (option +python_builtin) is named but never
    registered: the import fails whatever the modules. *)
Lemma actions_of_run w o (ds : list decl) acts : map b_decl (filter has_code (written (out_files o))) = ds -> Forall2 (item_actions w) ds acts ->
  exists l, run_actions w o l /\ concat l = concat acts.
Proof.
  unfold run_actions. generalize (written (out_files o)) as bs. clear o. intros bs. revert ds acts. induction bs as [|b bs IH]; intros ds acts E F; cbn [filter map] in E.
  - subst ds. inversion F. exists []. split; constructor.
  - destruct (has_code b) eqn:C.
    + cbn [map] in E. subst ds. inversion F as [|d x l' acts' H1 H2 Ea Eb]. destruct (IH _ _ eq_refl H2) as [l [R1 R2]]. exists (x :: l). split.
      * constructor; [right; split; [apply has_code_iff, C|exact H1]|exact R1].
      * cbn [concat]. rewrite R2. reflexivity.
    + destruct (IH _ _ E F) as [l [R1 R2]]. exists ([] :: l). split; [|exact R2]. constructor; [left; split; [|reflexivity]|exact R1].
      destruct (b_code b) eqn:X; [reflexivity|]. exfalso. assert (Y : b_code b <> []) by (rewrite X; discriminate). apply has_code_iff in Y. rewrite Y in C. discriminate C.
Qed.
Lemma imp_enum_function config : namespace_from_named_decl (imp_w config) (imp_n $"E") = $"n" -> namespace_from_named_decl (imp_w config) (imp_n $"f") = $"n" ->
  is_static (fun_ (imp_w config) 0) = false ->
  item_actions (imp_w config) (DEnum 1) [Register (EEnum 1) [] imp_m $"E"] /\ item_actions (imp_w config) (DFun 0) [Define imp_m $"f"].
Proof.
  intros E1 E2 Es. split.
  - pose proof (AI_enum (imp_w config) 1) as X. cbn [enum_ imp_w wenv tu enums nth imp_es e_decl] in X. unfold register_enum in X.
    change (e_decl (enum_ (imp_w config) 1)) with (imp_n $"E") in X. rewrite E1 in X. exact X.
  - pose proof (AI_function (imp_w config) 0 $"f") as X. change (f_decl (fun_ (imp_w config) 0)) with (imp_n $"f") in X. rewrite E2 in X. apply X.
    exists $"f". split; [rewrite Es; reflexivity|]. right. right. split; reflexivity.
Qed.
Theorem C79_builtin_base_refuted : exists w visits o l r c,
  run w visits = Ok o /\ run_actions w o l /\ bound o (DRec r) /\ bound_base w r c /\ python_type w (class_name w c) /\
  forall modules, ~ importable modules (concat l).
Proof.
  exists (imp_w ($"+python_builtin n::A" ++ [nl])), imp_visits.
  destruct (run (imp_w ($"+python_builtin n::A" ++ [nl])) imp_visits) as [o| | | |] eqn:E; try (vm_compute in E; discriminate E). exists o.
  vm_compute in E. apply Ok_inj in E.
  assert (X : map b_decl (filter has_code (written (out_files o))) = [DRec 1; DEnum 1; DFun 0]) by (rewrite <- E; vm_compute; reflexivity).
  destruct (imp_enum_function ($"+python_builtin n::A" ++ [nl])) as [A1 A2]; [vm_compute; reflexivity|vm_compute; reflexivity|vm_compute; reflexivity|].
  assert (A0 : item_actions (imp_w ($"+python_builtin n::A" ++ [nl])) (DRec 1) [Register (EClass 1) [0] imp_m $"D"]).
  { apply AI_class, (class_acts_sound _ 5). vm_compute. reflexivity. }
  destruct (actions_of_run _ o _ _ X (Forall2_cons _ _ A0 (Forall2_cons _ _ A1 (Forall2_cons _ _ A2 (Forall2_nil _))))) as [l [R1 R2]].
  exists l, 1, 0. split; [reflexivity|]. split; [exact R1|]. split.
  { rewrite <- E. eexists. split; [left; reflexivity|]. split; [reflexivity|discriminate]. }
  split.
  { exists (mkbase Public false (TRec false 0 [])). split; [left; reflexivity|]. split; [reflexivity|]. split; [reflexivity|]. split; [|split; vm_compute; reflexivity].
    intros H. apply mem_In in H. vm_compute in H. discriminate H. }
  split.
  { apply (builtin_iff (imp_w ($"+python_builtin n::A" ++ [nl])) (r_decl (rec_ (imp_w ($"+python_builtin n::A" ++ [nl])) 0))). vm_compute. reflexivity. }
  intros modules H. rewrite R2 in H. destruct (H [] _ _ eq_refl) as [_ [_ [B _]]]. destruct (B 0 (or_introl eq_refl)).
Qed.
Print Assumptions C79_builtin_base_refuted.
(** A nested class that is left to a configured binder: the binder is given the
    module of a namespace named like the enclosing class, which does not exist. *)
Theorem C79_nested_binder_refuted : exists w visits o l r i modules,
  run w visits = Ok o /\ run_actions w o l /\ bound o (DRec r) /\ In i (inner_classes w r) /\ lookup (class_name w i) (maps (wcfg w) Config.binders) <> None /\
  run_submodules (map (fun n => (base_namespace n, last_namespace n)) (out_namespaces o)) [[]] = Some modules /\
  ~ importable modules (concat l).
Proof.
  exists (imp_w ($"+binder n::A::In my_binder" ++ [nl])), imp_visits.
  destruct (run (imp_w ($"+binder n::A::In my_binder" ++ [nl])) imp_visits) as [o| | | |] eqn:E; try (vm_compute in E; discriminate E). exists o.
  vm_compute in E. apply Ok_inj in E.
  assert (X : map b_decl (filter has_code (written (out_files o))) = [DRec 0; DEnum 1; DFun 0; DRec 1]) by (rewrite <- E; vm_compute; reflexivity).
  destruct (imp_enum_function ($"+binder n::A::In my_binder" ++ [nl])) as [A1 A2]; [vm_compute; reflexivity|vm_compute; reflexivity|vm_compute; reflexivity|].
  assert (A0 : item_actions (imp_w ($"+binder n::A::In my_binder" ++ [nl])) (DRec 0)
    [Register (EClass 0) [] imp_m $"A"; Register (EEnum 0) [] (InClass 0) $"Kind"; Delegate $"n::A" 2]).
  { apply AI_class, (class_acts_sound _ 5). vm_compute. reflexivity. }
  assert (A3 : item_actions (imp_w ($"+binder n::A::In my_binder" ++ [nl])) (DRec 1) [Register (EClass 1) [0] imp_m $"D"]).
  { apply AI_class, (class_acts_sound _ 5). vm_compute. reflexivity. }
  destruct (actions_of_run _ o _ _ X (Forall2_cons _ _ A0 (Forall2_cons _ _ A1 (Forall2_cons _ _ A2 (Forall2_cons _ _ A3 (Forall2_nil _)))))) as [l [R1 R2]].
  exists l, 0, 2, [$"n"; []]. split; [reflexivity|]. split; [exact R1|]. split.
  { rewrite <- E. eexists. split; [left; reflexivity|]. split; [reflexivity|discriminate]. }
  split; [left; reflexivity|]. split; [vm_compute; discriminate|].
  split; [rewrite <- E; vm_compute; reflexivity|].
  intros H. rewrite R2 in H. specialize (H [Register (EClass 0) [] imp_m $"A"; Register (EEnum 0) [] (InClass 0) $"Kind"] _ _ eq_refl). cbn in H.
  destruct H as [H|[H|[]]]; discriminate H.
Qed.
Print Assumptions C79_nested_binder_refuted.
