(** Proofs about the collection of headers (Includes.v). *)
From Coq Require Import Ascii String Bool Arith NArith Lia.
From Coq Require Import List.
From Verif Require Import Str StrFacts SpecUtil Util UtilFacts Config Ast Types Func Enum Includes Class Context SpecContext SpecTypes SpecIncludes ContextFacts SortFacts WriteFacts TotalFacts NamesFacts.
Import ListNotations.

Lemma add_includes_eq fuel w d level s : add_includes (S fuel) w d level s =
  match add_decl d level s with
  | None => Ok s
  | Some s1 => do acts <- actions w d level; run_actions fuel w acts s1
  end.
Proof. reflexivity. Qed.
Lemma run_nil fuel w s : run_actions fuel w [] s = Ok s. Proof. reflexivity. Qed.
Lemma run_header fuel w d l s : run_actions fuel w (Header d :: l) s = run_actions fuel w l (add_relevant_include_for_decl w d s).
Proof. lazy beta delta [run_actions] iota; exact eq_refl. Qed.
Lemma run_visit fuel w d n l s : run_actions fuel w (Visit d n :: l) s = do s2 <- add_includes fuel w d n s; run_actions fuel w l s2.
Proof. lazy beta delta [run_actions] iota; exact eq_refl. Qed.
Lemma run_app fuel w l1 l2 : forall s, run_actions fuel w (l1 ++ l2) s = do s1 <- run_actions fuel w l1 s; run_actions fuel w l2 s1.
Proof.
  induction l1 as [|[d|d n] l1 IH]; intros s; [reflexivity| |].
  - cbn [app]; rewrite !run_header; apply IH.
  - cbn [app]; rewrite !run_visit; destruct (add_includes fuel w d n s); cbn [bind_r]; try reflexivity; apply IH.
Qed.

(** ** States only grow *)

Definition below (s : include_set) (d : decl) (level : nat) : Prop := exists l, stack_find d (stack s) = Some l /\ l <= level.
Definition grows (s s' : include_set) : Prop :=
  (forall i, In i (incs s) -> In i (incs s')) /\ (forall d l, below s d l -> below s' d l).
Lemma grows_refl s : grows s s. Proof. split; auto. Qed.
Lemma grows_trans a b c : grows a b -> grows b c -> grows a c.
Proof. intros [H1 H2] [H3 H4]; split; auto. Qed.
Lemma add_header_grows w d s : grows s (add_relevant_include_for_decl w d s).
Proof.
  unfold add_relevant_include_for_decl; cbv zeta; destruct (header_of _ _); [apply grows_refl|].
  split; [intros i Hi; apply in_or_app; left; exact Hi|auto].
Qed.
Lemma add_include_grows i s : grows s (add_include i s).
Proof. split; [intros x Hx; apply in_or_app; left; exact Hx|auto]. Qed.
Lemma add_decl_spec d level s : match add_decl d level s with
  | None => below s d level
  | Some s1 => ~ below s d level /\ incs s1 = incs s /\ stack s1 = (d, level) :: stack s
  end.
Proof.
  unfold add_decl, below; destruct (stack_find d (stack s)) as [l|] eqn:E.
  - destruct (Nat.leb_spec l level); [exists l; auto|]; split; [intros [l' [H1 H2]]; injection H1; lia|split; reflexivity].
  - split; [intros [l' [H1 H2]]; discriminate|split; reflexivity].
Qed.
Lemma push_grows d level s s1 : ~ below s d level -> incs s1 = incs s -> stack s1 = (d, level) :: stack s -> grows s s1.
Proof.
  intros N E1 E2; split; [rewrite E1; auto|].
  intros d' l [m [H1 H2]]; unfold below; rewrite E2; cbn [stack_find]; destruct (decl_eq d' d) as [->|]; [|exists m; auto].
  exists level; split; [reflexivity|]. destruct (le_lt_dec level l); [assumption|]. exfalso; apply N; exists m; split; [assumption|lia].
Qed.
Lemma pushed_below d level s s1 : stack s1 = (d, level) :: stack s -> below s1 d level.
Proof. intros E; exists level; rewrite E; cbn [stack_find]; destruct (decl_eq d d); [split; auto|congruence]. Qed.
Lemma grows_all fuel w : (forall d level s s', add_includes fuel w d level s = Ok s' -> grows s s') /\
  (forall l s s', run_actions fuel w l s = Ok s' -> grows s s').
Proof.
  induction fuel as [|fuel [IH1 IH2]].
  - assert (H1 : forall d level s s', add_includes 0 w d level s = Ok s' -> grows s s').
    { intros d level s s'; cbn [add_includes]; destruct (add_decl d level s); [discriminate|]. intros E; apply Ok_inj in E; subst; apply grows_refl. }
    split; [exact H1|]. induction l as [|[d|d n] l IHl]; intros s s'; rewrite ?run_nil, ?run_header, ?run_visit; intros E.
    + apply Ok_inj in E; subst; apply grows_refl.
    + eapply grows_trans; [apply add_header_grows|eauto].
    + inv_ok E; eapply grows_trans; eauto.
  - assert (H1 : forall d level s s', add_includes (S fuel) w d level s = Ok s' -> grows s s').
    { intros d level s s'; rewrite add_includes_eq; pose proof (add_decl_spec d level s) as D; destruct (add_decl d level s) as [s1|].
      - destruct D as [D1 [D2 D3]]; intros E; inv_ok E; eapply grows_trans; [eapply push_grows; eauto|eauto].
      - intros E; apply Ok_inj in E; subst; apply grows_refl. }
    split; [exact H1|]. induction l as [|[d|d n] l IHl]; intros s s'; rewrite ?run_nil, ?run_header, ?run_visit; intros E.
    + apply Ok_inj in E; subst; apply grows_refl.
    + eapply grows_trans; [apply add_header_grows|eauto].
    + inv_ok E; eapply grows_trans; eauto.
Qed.

(** ** A general induction principle: an invariant of states kept by the three
    elementary steps is kept by the whole collection. *)
Lemma collect_invariant w (P : include_set -> Prop) :
  (forall d s, P s -> P (add_relevant_include_for_decl w d s)) ->
  (forall d level s s1, P s -> ~ below s d level -> incs s1 = incs s -> stack s1 = (d, level) :: stack s -> P s1) ->
  forall fuel, (forall d level s s', add_includes fuel w d level s = Ok s' -> P s -> P s') /\
  (forall l s s', run_actions fuel w l s = Ok s' -> P s -> P s').
Proof.
  intros P1 P2 fuel; induction fuel as [|fuel [IH1 IH2]].
  - assert (H1 : forall d level s s', add_includes 0 w d level s = Ok s' -> P s -> P s').
    { intros d level s s'; cbn [add_includes]; destruct (add_decl d level s); [discriminate|]. intros E; apply Ok_inj in E; subst; auto. }
    split; [exact H1|]. induction l as [|[d|d n] l IHl]; intros s s'; rewrite ?run_nil, ?run_header, ?run_visit; intros E Hs.
    + apply Ok_inj in E; subst; assumption.
    + eapply IHl; eauto.
    + inv_ok E; eapply IHl; eauto.
  - assert (H1 : forall d level s s', add_includes (S fuel) w d level s = Ok s' -> P s -> P s').
    { intros d level s s'; rewrite add_includes_eq; pose proof (add_decl_spec d level s) as D; destruct (add_decl d level s) as [s1|].
      - destruct D as [D1 [D2 D3]]; intros E Hs; inv_ok E; eapply IH2; eauto.
      - intros E; apply Ok_inj in E; subst; auto. }
    split; [exact H1|]. induction l as [|[d|d n] l IHl]; intros s s'; rewrite ?run_nil, ?run_header, ?run_visit; intros E Hs.
    + apply Ok_inj in E; subst; assumption.
    + eapply IHl; eauto.
    + inv_ok E; eapply IHl; eauto.
Qed.

Lemma add_header_stack w d s : stack (add_relevant_include_for_decl w d s) = stack s.
Proof. unfold add_relevant_include_for_decl; cbv zeta; destruct (header_of _ _); reflexivity. Qed.
Lemma stack_find_In d h l : stack_find d h = Some l -> In (d, l) h.
Proof.
  induction h as [|[d' n] h IH]; cbn [stack_find]; [discriminate|]. destruct (decl_eq d d') as [->|].
  - intros E; injection E as ->; left; reflexivity.
  - intros E; right; auto.
Qed.
Lemma In_stack_find d h l : In (d, l) h -> exists m, stack_find d h = Some m.
Proof.
  induction h as [|[d' n] h IH]; [intros []|]; intros [E|H]; cbn [stack_find].
  - injection E as -> ->; destruct (decl_eq d d); [eauto|congruence].
  - destruct (decl_eq d d'); eauto.
Qed.
(** The most recent level is the smallest. *)
Lemma find_minimum h d l m : revisits_smaller h -> stack_find d h = Some l -> In (d, m) h -> l <= m.
Proof.
  induction h as [|[d' n] h IH]; intros R F I; [destruct I|]; cbn [stack_find] in F.
  destruct (decl_eq d d') as [->|Hd].
  - injection F as ->; destruct I as [E|I]; [injection E; lia|]. pose proof (R [] d' l h m eq_refl I); lia.
  - destruct I as [E|I]; [congruence|]. apply IH; auto. intros later x k earlier y E; apply (R ((d', n) :: later)); rewrite E; reflexivity.
Qed.
Lemma revisits_kept w fuel d level s s' : add_includes fuel w d level s = Ok s' -> revisits_smaller (stack s) -> revisits_smaller (stack s').
Proof.
  assert (P1 : forall d s, revisits_smaller (stack s) -> revisits_smaller (stack (add_relevant_include_for_decl w d s)))
    by (intros; rewrite add_header_stack; assumption).
  intros E; refine (proj1 (collect_invariant w (fun s => revisits_smaller (stack s)) P1 _ fuel) _ _ _ _ E).
  intros x n t t1 R N _ E2; rewrite E2; intros later y k earlier m Eq I.
  destruct later as [|p later]; cbn in Eq; injection Eq as ? ?; subst.
  - destruct (le_lt_dec m k); [|assumption]. exfalso; apply N.
    destruct (In_stack_find _ _ _ I) as [q Hq]; exists q; split; [assumption|].
    pose proof (find_minimum _ _ _ _ R Hq I); lia.
  - eapply R; eauto.
Qed.

(** ** Termination *)

Lemma actions_level w d level acts d' level' : actions w d level = Ok acts -> In (Visit d' level') acts -> level <= level'.
Proof.
  assert (V : forall t n x m, In (Visit x m) (visit_type t n) -> m = n)
    by (intros t n x m; unfold visit_type; destruct (peeled_tag t); cbn; intuition congruence).
  destruct d as [f|r|e]; cbn [actions].
  - intros E; apply Ok_inj in E; subst; unfold fun_actions; intros [H|H]; [discriminate|].
    apply in_flat_map in H; destruct H as [t [_ H]]; apply V in H; lia.
  - unfold rec_actions; cbv zeta; intros E; inv_ok E; apply Ok_inj in E; subst; intros [H|H]; [discriminate|].
    apply in_app_or in H; destruct H as [H|H]; [|apply in_app_or in H; destruct H as [H|H]].
    + apply in_flat_map in H; destruct H as [[[] p] [_ H]]; cbn [targ_actions] in H; try contradiction;
        try (destruct H as [H|[]]; discriminate); apply V in H; lia.
    + clear - E0 H; revert a E0 H; induction (member_template_specs (rec_ w r)) as [|f l IH]; intros a E H; cbn [spec_actions] in E.
      * apply Ok_inj in E; subst; destruct H.
      * inv_ok E; inv_ok E; apply Ok_inj in E; subst; destruct a0; [destruct H as [H|H]; [injection H; intros; subst; lia|]|]; eauto.
    + destruct (level <? 2); [|destruct H]. apply in_flat_map in H; destruct H as [f [_ H]].
      destruct (_ && _); [|destruct H]. destruct H as [H|[]]; injection H; intros; subst; lia.
  - intros E; apply Ok_inj in E; subst; unfold enum_actions; intros [H|H]; [discriminate|].
    destruct (e_definition _); [destruct H as [H|[]]; discriminate|destruct H].
Qed.
Lemma fine_actions w d level : fine (actions w d level).
Proof.
  destruct d as [f|r|e]; cbn [actions]; [apply fine_ok| |apply fine_ok].
  unfold rec_actions; cbv zeta; apply fine_bind; [|intros; apply fine_ok].
  induction (member_template_specs (rec_ w r)) as [|f l IH]; cbn [spec_actions]; [apply fine_ok|].
  apply fine_bind.
  - apply fine_and; unfold member_ok; apply fine_and, fine_bind; [apply fine_skip_fun|intros; apply fine_ok].
  - intros ok _; apply fine_bind; [assumption|intros; apply fine_ok].
Qed.

Lemma peeled_names t d : peeled_tag t = Some d <-> names_tag t d.
Proof.
  split.
  - induction t; cbn [peeled_tag]; intros H; try (apply NT_tag; exact H); [apply NT_pointer|apply NT_lvalue|apply NT_rvalue]; apply IHt, H.
  - induction 1 as [t d H|c t d _ IH|t d _ IH|t d _ IH]; cbn [peeled_tag]; try exact IH. destruct t; cbn [as_tag peeled_tag] in *; try discriminate H; exact H.
Qed.
Lemma visit_type_In t n a : In a (visit_type t n) <-> exists d, names_tag t d /\ a = Visit d n.
Proof.
  unfold visit_type. destruct (peeled_tag t) as [d|] eqn:E; split.
  - intros [<-|[]]; exists d; split; [apply peeled_names, E|reflexivity].
  - intros [d' [H ->]]. apply peeled_names in H. rewrite E in H; injection H as <-. left; reflexivity.
  - intros [].
  - intros [d' [H ->]]. apply peeled_names in H. congruence.
Qed.
Lemma access_public a : access_eqb a Public = true <-> a = Public.
Proof. destruct a; cbn; split; congruence. Qed.
Lemma not_ctor F : negb (is_ctor F) = true <-> f_ctor F = None.
Proof. unfold is_ctor; destruct (f_ctor F); cbn; split; congruence. Qed.
Lemma member_ok_true w F : member_ok w F = Ok true <->
  n_access (f_decl F) = Public /\ is_bindable_fun w F = true /\ is_skipping_requested_fun w F = Ok false /\ f_ctor F = None /\ f_dtor F = false.
Proof.
  unfold member_ok, and_r, is_public. destruct (access_eqb (n_access (f_decl F)) Public) eqn:Ea; cbn [andb].
  2: { split; [discriminate|]. intros [H _]; apply access_public in H; congruence. }
  apply access_public in Ea. destruct (is_bindable_fun w F); [|split; [discriminate|intros [_ [H _]]; discriminate H]].
  destruct (is_skipping_requested_fun w F) as [b|m|m|m|]; cbn [bind_r]; try (split; [discriminate|intros [_ [_ [H _]]]; discriminate H]).
  destruct b; cbn [negb andb].
  - split; [discriminate|]. intros [_ [_ [H _]]]; discriminate H.
  - rewrite <- not_ctor. destruct (is_ctor F), (f_dtor F); cbn; split; intros H; try discriminate H; try (decompose [and] H; discriminate); auto 10.
Qed.
Lemma spec_actions_In w n l acts : spec_actions w n l = Ok acts -> forall a,
  In a acts <-> exists f, In f l /\ f_method (fun_ w f) = true /\ member_ok w (fun_ w f) = Ok true /\ a = Visit (DFun f) (n + 1).
Proof.
  revert acts; induction l as [|f l IH]; intros acts E a; cbn [spec_actions] in E.
  - apply Ok_inj in E; subst. split; [intros []|intros [f [[] _]]].
  - inv_ok E; inv_ok E; apply Ok_inj in E; subst. specialize (IH _ E1 a). rewrite Nat.add_1_r in *.
    destruct a0.
    + assert (M : f_method (fun_ w f) = true /\ member_ok w (fun_ w f) = Ok true).
      { unfold and_r in E0. destruct (f_method (fun_ w f)); [split; [reflexivity|exact E0]|discriminate E0]. }
      split.
      * intros [<-|H]; [exists f; split; [left; reflexivity|split; [apply M|split; [apply M|reflexivity]]]|].
        apply IH in H. destruct H as [f' [H1 H2]]; exists f'; split; [right; exact H1|exact H2].
      * intros [f' [[<-|H1] H2]]; [left; symmetry; apply H2|right; apply IH; exists f'; split; assumption].
    + rewrite IH. split; intros [f' [H1 H2]]; exists f'; (split; [|exact H2]); [right; exact H1|].
      destruct H1 as [<-|H1]; [|exact H1]. exfalso. destruct H2 as [H2 [H3 _]]. unfold and_r in E0; rewrite H2, H3 in E0; discriminate E0.
Qed.
Lemma in_signature_iff F t : In t (fun_type_dependencies F) <-> in_signature F t.
Proof.
  unfold fun_type_dependencies, in_signature. cbn [In]. rewrite in_app_iff, in_map_iff. split.
  - intros [<-|[[p [<- Hp]]|H]]; [left; reflexivity|right; left; exists p; split; [exact Hp|reflexivity]|right; right].
    destruct (f_kind F); try (destruct H; fail); (split; [discriminate|]); (destruct (f_targs F) as [ta|]; [|destruct H]);
      unfold type_args in H; apply in_flat_map in H; destruct H as [[k s] [H1 H2]]; destruct k; try (destruct H2; fail);
      destruct H2 as [->|[]]; exists ta, s; split; [reflexivity|exact H1|reflexivity|exact H1|reflexivity|exact H1].
  - intros [->|[[p [Hp ->]]|[K [ta [s [E H]]]]]]; [left; reflexivity|right; left; exists p; split; [reflexivity|exact Hp]|right; right].
    rewrite E. assert (G : In t (type_args ta)) by (unfold type_args; apply in_flat_map; exists (Targ (KType t) s); split; [exact H|left; reflexivity]).
    destruct (f_kind F); [exfalso; apply K; reflexivity|exact G|exact G|exact G].
Qed.
Lemma in_methods f r : In f (methods r) <-> In (MMethod f) (r_members r).
Proof.
  unfold methods. rewrite in_flat_map. split.
  - intros [m [Hm H]]. destruct m; try (destruct H; fail). destruct H as [->|[]]; exact Hm.
  - intros H; exists (MMethod f); split; [exact H|left; reflexivity].
Qed.
Lemma in_member_templates f r : In f (member_template_specs r) <-> exists l, In (MFunTemplate l) (r_members r) /\ In f l.
Proof.
  unfold member_template_specs. rewrite in_flat_map. split.
  - intros [m [Hm H]]. destruct m; try (destruct H; fail). exists specs; split; assumption.
  - intros [l [H1 H2]]; exists (MFunTemplate l); split; assumption.
Qed.
(** The list of actions is what the specification says. *)
Lemma actions_spec w d level acts : actions w d level = Ok acts -> forall a, In a acts <-> looks_at w d level a.
Proof.
  destruct d as [f|r|e]; cbn [actions]; intros E a.
  - apply Ok_inj in E; subst. unfold fun_actions; cbn [In]; rewrite in_flat_map. split.
    + intros [<-|[t [Ht H]]]; [constructor|]. apply visit_type_In in H; destruct H as [d [H ->]].
      apply L_signature with (t := t); [apply in_signature_iff, Ht|exact H].
    + intros H; inversion H as [| ? ? t d H1 H2| | | | | | | | |]; subst; [left; reflexivity|right].
      exists t; split; [apply in_signature_iff, H1|apply visit_type_In; exists d; split; [exact H2|reflexivity]].
  - unfold rec_actions in E; cbv zeta in E. inv_ok E. apply Ok_inj in E; subst. cbn [In]. rewrite !in_app_iff, in_flat_map.
    rewrite (spec_actions_In _ _ _ _ E0). split.
    + intros [<-|[[[k s] [Ht H]]|[[f [H1 [H2 [H3 ->]]]]|H]]]; [constructor| | |].
      * destruct k; cbn [targ_actions] in H; try (destruct H; fail).
        -- apply visit_type_In in H; destruct H as [d [H ->]]. rewrite <- Nat.add_1_r. eapply L_type_argument; eassumption.
        -- apply visit_type_In in H; destruct H as [d [H ->]]. rewrite <- Nat.add_1_r. eapply L_integral_argument; eassumption.
        -- destruct H as [<-|[]]. eapply L_template_argument; exact Ht.
        -- destruct H as [<-|[]]. eapply L_declaration_argument; exact Ht.
      * apply in_member_templates in H1. destruct H1 as [l [H0 H1]]. apply member_ok_true in H3. destruct H3 as [A [B [C [D F]]]].
        eapply L_member_template; eassumption.
      * destruct (Nat.ltb_spec level 2) as [L|L]; [|destruct H]. apply in_flat_map in H. destruct H as [f [H1 H2]]. cbv zeta in H2.
        destruct (is_public (f_decl (fun_ w f)) && is_bindable_fun w (fun_ w f) && negb (f_dtor (fun_ w f))) eqn:C; [|destruct H2].
        destruct H2 as [<-|[]]. rewrite <- Nat.add_1_r. apply andb_prop in C; destruct C as [C C3]; apply andb_prop in C; destruct C as [C1 C2].
        apply L_method; [lia|apply in_methods, H1|apply access_public, C1|exact C2|apply negb_true_iff, C3].
    + intros H; inversion H as [| | | |? ?|? ? t s d H1 H2|? ? t s d H1 H2|? ? c s H1|? ? f p s H1|? ? l f H1 H2 H3 H4 H5 H6 H7 H8|? ? f H1 H2 H3 H4 H5]; subst.
      * left; reflexivity.
      * right; left; exists (Targ (KType t) s); split; [exact H1|]. cbn [targ_actions]. apply visit_type_In; exists d; split; [exact H2|rewrite Nat.add_1_r; reflexivity].
      * right; left; exists (Targ (KIntegral t) s); split; [exact H1|]. cbn [targ_actions]. apply visit_type_In; exists d; split; [exact H2|rewrite Nat.add_1_r; reflexivity].
      * right; left; exists (Targ (KTemplate c) s); split; [exact H1|left; reflexivity].
      * right; left; exists (Targ (KDecl f p) s); split; [exact H1|left; reflexivity].
      * right; right; left. exists f; split; [apply in_member_templates; exists l; split; assumption|split; [exact H3|split; [|reflexivity]]].
        apply member_ok_true. repeat (split; [assumption|]). assumption.
      * right; right; right. destruct (Nat.ltb_spec level 2) as [L|L]; [|lia]. apply in_flat_map; exists f; split; [apply in_methods, H2|]. cbv zeta.
        unfold is_public. rewrite (proj2 (access_public _) H3), H4, H5; cbn [andb negb]. left; rewrite Nat.add_1_r; reflexivity.
  - apply Ok_inj in E; subst. unfold enum_actions; cbn [In]. split.
    + intros [<-|H]; [constructor|]. destruct (e_definition (enum_ w e)) as [d|] eqn:D; [|destruct H]. destruct H as [<-|[]]; apply L_enum_definition, D.
    + intros H; inversion H as [| |? ?|? ? d D| | | | | | |]; subst; [left; reflexivity|right]. rewrite D; left; reflexivity.
Qed.
Lemma nested_classes_In w r j : In j (nested_classes w (rec_ w r)) <-> public_nested w r j.
Proof.
  unfold nested_classes, public_nested. rewrite in_flat_map. split.
  - intros [m [Hm H]]. destruct m as [|?|?|i|? ?|?|a specs]; try (destruct H; fail).
    + destruct (is_public (r_decl (rec_ w i))) eqn:P; [|destruct H]. destruct H as [<-|[]]. left; split; [exact Hm|apply access_public, P].
    + destruct a; try (destruct H; fail). right; exists specs; split; assumption.
  - intros [[Hm P]|[specs [Hm H]]].
    + exists (MRec j); split; [exact Hm|]. unfold is_public. rewrite (proj2 (access_public _) P). left; reflexivity.
    + exists (MClassTemplate Public specs); split; assumption.
Qed.
Definition on_chain (chain : list decl) (level : nat) (s : include_set) : Prop := forall d, In d chain -> below s d level.
Lemma chain_step chain level level' s s' : on_chain chain level s -> grows s s' -> level <= level' -> on_chain chain level' s'.
Proof. intros C [_ G] L d Hd; apply G; destruct (C d Hd) as [l [H1 H2]]; exists l; split; [assumption|lia]. Qed.

Lemma includes_fine w U : closed_unit w U -> forall fuel,
  (forall d level s chain, In d U -> NoDup chain -> incl chain U -> on_chain chain level s -> length U <= fuel + length chain ->
     fine (add_includes fuel w d level s)) /\
  (forall l s chain level, (forall d n, In (Visit d n) l -> In d U /\ level <= n) -> NoDup chain -> incl chain U ->
     on_chain chain level s -> length U <= fuel + length chain -> fine (run_actions fuel w l s)).
Proof.
  intros HU fuel; induction fuel as [|fuel [IH1 IH2]].
  - assert (H1 : forall d level s chain, In d U -> NoDup chain -> incl chain U -> on_chain chain level s -> length U <= 0 + length chain ->
                   fine (add_includes 0 w d level s)).
    { intros d level s chain Hd ND Hi C L; cbn [add_includes]; pose proof (add_decl_spec d level s) as D.
      destruct (add_decl d level s); [|apply fine_ok]. exfalso; apply (proj1 D), C.
      apply (NoDup_length_incl ND) in Hi; [apply Hi; exact Hd|exact L]. }
    split; [exact H1|]. induction l as [|[d|d n] l IHl]; intros s chain level Hl ND Hi C L; rewrite ?run_nil, ?run_header, ?run_visit.
    + apply fine_ok.
    + eapply IHl; eauto; [intros; apply Hl; right; assumption|]. eapply chain_step; [eassumption|apply add_header_grows|lia].
    + destruct (Hl d n (or_introl eq_refl)) as [Hd Hn]. apply fine_bind.
      * eapply H1; eauto. eapply chain_step; [eassumption|apply grows_refl|lia].
      * intros s2 E; eapply IHl; eauto; [intros; apply Hl; right; assumption|].
        eapply chain_step; [eassumption|eapply (proj1 (grows_all 0 w)); eassumption|lia].
  - assert (H1 : forall d level s chain, In d U -> NoDup chain -> incl chain U -> on_chain chain level s -> length U <= S fuel + length chain ->
                   fine (add_includes (S fuel) w d level s)).
    { intros d level s chain Hd ND Hi C L; rewrite add_includes_eq; pose proof (add_decl_spec d level s) as D.
      destruct (add_decl d level s) as [s1|]; [|apply fine_ok]. destruct D as [D1 [D2 D3]].
      apply fine_bind; [apply fine_actions|]; intros acts Ea.
      apply (IH2 acts s1 (d :: chain) level).
      - intros d' n Hin; split; [eapply HU; [exact Hd|exact (proj1 (actions_spec _ _ _ _ Ea _) Hin)]|eapply actions_level; eassumption].
      - constructor; [intros I; apply D1, C, I|assumption].
      - intros x [<-|Hx]; auto.
      - intros x [<-|Hx]; [eapply pushed_below; eassumption|]. eapply (chain_step chain level level s s1); eauto. eapply push_grows; eauto.
      - cbn [length]; lia. }
    split; [exact H1|]. induction l as [|[d|d n] l IHl]; intros s chain level Hl ND Hi C L; rewrite ?run_nil, ?run_header, ?run_visit.
    + apply fine_ok.
    + eapply IHl; eauto; [intros; apply Hl; right; assumption|]. eapply chain_step; [eassumption|apply add_header_grows|lia].
    + destruct (Hl d n (or_introl eq_refl)) as [Hd Hn]. apply fine_bind.
      * eapply H1; eauto. eapply chain_step; [eassumption|apply grows_refl|lia].
      * intros s2 E; eapply IHl; eauto; [intros; apply Hl; right; assumption|].
        eapply chain_step; [eassumption|eapply (proj1 (grows_all (S fuel) w)); eassumption|lia].
Qed.

(** ** Exactly the needed headers *)

Lemma include_text_iff w d i : include_text w d i <->
  exists h, h <> [] /\
    h = header_of (standard_name w (include_name w d)) (relevant_include (named_of (wenv w) d)) /\
    i = if annotate_includes (wopt w) then h ++ $" // " ++ standard_name w (include_name w d) else h.
Proof.
  unfold include_text. split.
  - intros [n [h [H1 [H2 [H3 H4]]]]]. apply header_name_found in H1. subst n. exists h. split; [exact H3|]. split; [|exact H4].
    exact (header_unique _ _ _ _ H2 (header_found _ _)).
  - intros [h [H1 [-> H3]]]. exists (include_name w d). eexists. split; [apply include_name_found|]. split; [apply header_found|]. split; [exact H1|exact H3].
Qed.
Lemma add_header_In w d s i : In i (incs (add_relevant_include_for_decl w d s)) <-> In i (incs s) \/ include_text w d i.
Proof.
  rewrite include_text_iff. unfold add_relevant_include_for_decl; cbv zeta.
  destruct (header_of (standard_name w (include_name w d)) (relevant_include (named_of (wenv w) d))) as [|c h].
  - split; [auto|]. intros [H|[h [H1 [-> H2]]]]; [assumption|]. exfalso; apply H1; reflexivity.
  - unfold add_include; cbn [incs]; rewrite in_app_iff; split; (intros [H|H]; [left; exact H|right]).
    + destruct H as [<-|[]]; exists (c :: h); split; [discriminate|split; reflexivity].
    + destruct H as [h' [_ [-> ->]]]; left; reflexivity.
Qed.
Definition satisfied (w : world) (s : include_set) (a : action) : Prop :=
  match a with
  | Header d => forall i, include_text w d i -> In i (incs s)
  | Visit d level => below s d level
  end.
Definition settled (w : world) (s : include_set) (d : decl) (level : nat) : Prop :=
  forall a, looks_at w d level a -> satisfied w s a.
Definition pending (w : world) (O : list (decl * nat)) (s : include_set) : Prop :=
  forall d l, In (d, l) (stack s) -> In (d, l) O \/ settled w s d l.
Lemma satisfied_grows w s s' a : grows s s' -> satisfied w s a -> satisfied w s' a.
Proof. intros [G1 G2]; destruct a; cbn; auto. Qed.
Lemma pending_stack w O s s' : stack s' = stack s -> grows s s' -> pending w O s -> pending w O s'.
Proof.
  intros E G P d l H; rewrite E in H; destruct (P d l H) as [|S]; [left; assumption|right].
  intros a La; eapply satisfied_grows; [exact G|apply S, La].
Qed.
Lemma pending_all w : forall fuel,
  (forall d level s s' O, add_includes fuel w d level s = Ok s' -> pending w O s -> pending w O s' /\ below s' d level) /\
  (forall l s s' O, run_actions fuel w l s = Ok s' -> pending w O s -> pending w O s' /\ forall a, In a l -> satisfied w s' a).
Proof.
  assert (HR : forall fuel,
    (forall d level s s' O, add_includes fuel w d level s = Ok s' -> pending w O s -> pending w O s' /\ below s' d level) ->
    (forall l s s' O, run_actions fuel w l s = Ok s' -> pending w O s -> pending w O s' /\ forall a, In a l -> satisfied w s' a)).
  { intros fuel H1; induction l as [|[d|d n] l IHl]; intros s s' O; rewrite ?run_nil, ?run_header, ?run_visit; intros E P.
    - apply Ok_inj in E; subst; split; [assumption|intros a []].
    - destruct (IHl _ _ O E) as [P' S]; [eapply pending_stack; [apply add_header_stack|apply add_header_grows|exact P]|].
      split; [assumption|]. intros a [<-|Ha]; [|auto]. apply (satisfied_grows w (add_relevant_include_for_decl w d s)).
      + eapply (proj2 (grows_all fuel w)); eassumption.
      + intros i Hi; apply add_header_In; right; exact Hi.
    - inv_ok E; destruct (H1 _ _ _ _ O E0 P) as [P1 B]; destruct (IHl _ _ O E P1) as [P' S].
      split; [assumption|]. intros x [<-|Hx]; [|auto]. apply (satisfied_grows w a); [eapply (proj2 (grows_all fuel w)); eassumption|exact B]. }
  induction fuel as [|fuel [IH1 IH2]].
  - assert (H1 : forall d level s s' O, add_includes 0 w d level s = Ok s' -> pending w O s -> pending w O s' /\ below s' d level).
    { intros d level s s' O; cbn [add_includes]; pose proof (add_decl_spec d level s) as D; destruct (add_decl d level s); [discriminate|].
      intros E P; apply Ok_inj in E; subst; auto. }
    split; [exact H1|apply HR, H1].
  - assert (H1 : forall d level s s' O, add_includes (S fuel) w d level s = Ok s' -> pending w O s -> pending w O s' /\ below s' d level).
    { intros d level s s' O; rewrite add_includes_eq; pose proof (add_decl_spec d level s) as D; destruct (add_decl d level s) as [s1|].
      - destruct D as [D1 [D2 D3]]; intros E P; inv_ok E.
        assert (G : grows s s1) by (eapply push_grows; eauto).
        assert (P1 : pending w ((d, level) :: O) s1).
        { intros x n H; rewrite D3 in H; destruct H as [H|H]; [left; left; exact H|].
          destruct (P x n H) as [|S]; [left; right; assumption|right]. intros y Hy; eapply satisfied_grows; [exact G|apply S, Hy]. }
        destruct (IH2 _ _ _ _ E P1) as [P2 S2]. split.
        + intros x n H; destruct (P2 x n H) as [[Eq|]|S]; [|left; assumption|right; assumption].
          injection Eq as <- <-; right; intros y Hy; apply S2; exact (proj2 (actions_spec _ _ _ _ E0 y) Hy).
        + apply (proj2 (grows_all fuel w) _ _ _ E); eapply pushed_below; eassumption.
      - intros E P; apply Ok_inj in E; subst; auto. }
    split; [exact H1|apply HR, H1].
Qed.

(** Smaller levels look at no less. *)
Lemma actions_monotone w d l0 l a : l0 <= l -> looks_at w d l a ->
  match a with
  | Header _ => looks_at w d l0 a
  | Visit d' n => exists n', n' <= n /\ looks_at w d l0 (Visit d' n')
  end.
Proof.
  intros L H; destruct H; try (econstructor; eassumption);
    try (eexists; split; [|econstructor; try eassumption]; lia).
Qed.

Lemma reached_below w (start : decl -> nat -> Prop) s : pending w [] s -> (forall d level, start d level -> below s d level) ->
  forall d level, reached w start d level -> below s d level.
Proof.
  intros P S d level H; induction H as [d level H|d level d' level' H IH La]; [auto|].
  destruct IH as [l0 [F L]]. pose proof (actions_monotone w d l0 level _ L La) as [n' [Hn La']].
  destruct (P d l0 (stack_find_In _ _ _ F)) as [[]|Hs]. specialize (Hs _ La'); cbn [satisfied] in Hs.
  destruct Hs as [m [H1 H2]]; exists m; split; [assumption|lia].
Qed.
Lemma needed_collected w (start : decl -> nat -> Prop) s i : pending w [] s -> (forall d level, start d level -> below s d level) ->
  needs_header w start i -> In i (incs s).
Proof.
  intros P S [d [level [d' [R [La It]]]]]. destruct (reached_below w start s P S d level R) as [l0 [F L]].
  pose proof (actions_monotone w d l0 level _ L La) as La'.
  destruct (P d l0 (stack_find_In _ _ _ F)) as [[]|Hs]. exact (Hs _ La' i It).
Qed.

Definition sound (w : world) (start : decl -> nat -> Prop) (extra : str -> Prop) (s : include_set) : Prop :=
  (forall i, In i (incs s) -> extra i \/ needs_header w start i) /\
  (forall d l, In (d, l) (stack s) -> reached w start d l).
Lemma sound_all w start extra : forall fuel,
  (forall d level s s', add_includes fuel w d level s = Ok s' -> reached w start d level -> sound w start extra s -> sound w start extra s') /\
  (forall l s s', run_actions fuel w l s = Ok s' ->
     (forall d n, In (Visit d n) l -> reached w start d n) ->
     (forall d, In (Header d) l -> exists x n, reached w start x n /\ looks_at w x n (Header d)) ->
     sound w start extra s -> sound w start extra s').
Proof.
  assert (HR : forall fuel,
    (forall d level s s', add_includes fuel w d level s = Ok s' -> reached w start d level -> sound w start extra s -> sound w start extra s') ->
    (forall l s s', run_actions fuel w l s = Ok s' ->
     (forall d n, In (Visit d n) l -> reached w start d n) ->
     (forall d, In (Header d) l -> exists x n, reached w start x n /\ looks_at w x n (Header d)) ->
     sound w start extra s -> sound w start extra s')).
  { intros fuel H1; induction l as [|[d|d n] l IHl]; intros s s'; rewrite ?run_nil, ?run_header, ?run_visit; intros E V H S.
    - apply Ok_inj in E; subst; assumption.
    - eapply IHl; [exact E|intros; apply V; right; assumption|intros; apply H; right; assumption|].
      destruct S as [S1 S2]; split; [|rewrite add_header_stack; exact S2].
      intros i Hi; destruct (proj1 (add_header_In w d s i) Hi) as [Hj|Hj]; [apply S1, Hj|right].
      destruct (H d (or_introl eq_refl)) as [x [n [Hx Hl]]]; exists x, n, d; split; [exact Hx|split; [exact Hl|exact Hj]].
    - inv_ok E; eapply IHl; [exact E|intros; apply V; right; assumption|intros; apply H; right; assumption|].
      eapply H1; [exact E0|apply V; left; reflexivity|exact S]. }
  induction fuel as [|fuel [IH1 IH2]].
  - assert (H1 : forall d level s s', add_includes 0 w d level s = Ok s' -> reached w start d level -> sound w start extra s -> sound w start extra s').
    { intros d level s s'; cbn [add_includes]; destruct (add_decl d level s); [discriminate|]; intros E _ S; apply Ok_inj in E; subst; assumption. }
    split; [exact H1|apply HR, H1].
  - assert (H1 : forall d level s s', add_includes (S fuel) w d level s = Ok s' -> reached w start d level -> sound w start extra s -> sound w start extra s').
    { intros d level s s'; rewrite add_includes_eq; pose proof (add_decl_spec d level s) as D; destruct (add_decl d level s) as [s1|].
      - destruct D as [D1 [D2 D3]]; intros E R S; inv_ok E. eapply IH2; [exact E| | |].
        + intros x n Hx; eapply R_step; [exact R|exact (proj1 (actions_spec _ _ _ _ E0 _) Hx)].
        + intros x Hx; exists d, level; split; [exact R|exact (proj1 (actions_spec _ _ _ _ E0 _) Hx)].
        + destruct S as [S1 S2]; split; [rewrite D2; exact S1|]. rewrite D3; intros x n [Eq|Hx]; [injection Eq as <- <-; exact R|auto].
      - intros E _ S; apply Ok_inj in E; subst; assumption. }
    split; [exact H1|apply HR, H1].
Qed.

(** ** Items *)

Definition class_own_includes (w : world) (r : nat) (s : include_set) : include_set :=
  fold_left (fun s i => add_include (if annotate_includes (wopt w) then i ++ $" // +include_for_class" else i) s)
    (match lookup (standard_name w (n_qname (r_decl (rec_ w r)))) (vecs (wcfg w) class_includes) with Some l => l | None => [] end) s.
Definition nested_includes (fuel inc : nat) (w : world) : list nat -> include_set -> result include_set :=
  fix over (l : list nat) (s : include_set) : result include_set :=
    match l with
    | [] => Ok s
    | i :: l' => do s <- class_includes_rec fuel inc w i [] s; over l' s
    end.
Lemma nested_cons fuel inc w i l s : nested_includes fuel inc w (i :: l) s =
  do s <- class_includes_rec fuel inc w i [] s; nested_includes fuel inc w l s.
Proof. lazy beta delta [nested_includes] iota; exact eq_refl. Qed.
Lemma class_includes_eq fuel inc w r fs s : class_includes_rec fuel inc w r fs s =
  do s1 <- match nested_classes w (rec_ w r) with
           | [] => Ok (class_own_includes w r s)
           | nested => match fuel with
                       | 0 => Diverges
                       | S fuel' => nested_includes fuel' inc w nested (class_own_includes w r s)
                       end
           end;
  do s2 <- run_actions inc w (map (fun f => Visit (DFun f) 0) fs ++ [Visit (DRec r) 0]) s1;
  Ok (add_include $"<sstream> // __str__" s2).
Proof. destruct fuel; exact eq_refl. Qed.

Lemma with_nested_inv w r i : with_nested w r i <-> i = r \/ exists j, In j (nested_classes w (rec_ w r)) /\ with_nested w j i.
Proof.
  split.
  - induction 1 as [|i j H IH Hj]; [left; reflexivity|]. destruct IH as [->|[k [Hk H2]]].
    + right; exists j; split; [apply nested_classes_In, Hj|constructor].
    + right; exists k; split; [exact Hk|econstructor; eassumption].
  - intros [->|[j [Hj H]]]; [constructor|]. induction H as [|i k H IH Hk].
    + eapply N_step; [constructor|apply nested_classes_In, Hj].
    + eapply N_step; eassumption.
Qed.

Lemma own_includes_spec w r s :
  stack (class_own_includes w r s) = stack s /\
  forall i, In i (incs (class_own_includes w r s)) <-> In i (incs s) \/
    exists l h, lookup (standard_name w (n_qname (r_decl (rec_ w r)))) (vecs (wcfg w) class_includes) = Some l /\
      In h l /\ i = if annotate_includes (wopt w) then h ++ $" // +include_for_class" else h.
Proof.
  unfold class_own_includes; destruct (lookup _ _) as [l|].
  - assert (H : forall l s, stack (fold_left (fun s i => add_include (if annotate_includes (wopt w) then i ++ $" // +include_for_class" else i) s) l s) = stack s /\
      forall i, In i (incs (fold_left (fun s i => add_include (if annotate_includes (wopt w) then i ++ $" // +include_for_class" else i) s) l s)) <->
        In i (incs s) \/ exists h, In h l /\ i = if annotate_includes (wopt w) then h ++ $" // +include_for_class" else h).
    { clear; induction l as [|h l IH]; intros s; cbn [fold_left].
      - split; [reflexivity|]. intros i; split; [auto|]. intros [H|[h [[] _]]]; exact H.
      - destruct (IH (add_include (if annotate_includes (wopt w) then h ++ $" // +include_for_class" else h) s)) as [H1 H2].
        split; [rewrite H1; reflexivity|]. intros i; rewrite H2; unfold add_include; cbn [incs]; rewrite in_app_iff; split.
        + intros [[H|[<-|[]]]|[h' [H ->]]]; [left; exact H|right; exists h; split; [left|]; reflexivity|].
          right; exists h'; split; [right; exact H|reflexivity].
        + intros [H|[h' [[<-|H] ->]]]; [left; left; exact H|left; right; left; reflexivity|right; exists h'; split; [exact H|reflexivity]]. }
    destruct (H l s) as [H1 H2]; split; [exact H1|]. intros i; rewrite H2; split; (intros [X|X]; [left; exact X|right]).
    + destruct X as [h [X1 X2]]; exists l, h; split; [reflexivity|split; assumption].
    + destruct X as [l' [h [X0 [X1 X2]]]]; injection X0 as <-; exists h; split; assumption.
  - cbn [fold_left]; split; [reflexivity|]. intros i; split; [auto|]. intros [H|[l [h [H _]]]]; [exact H|discriminate].
Qed.
Lemma own_includes_grows w r s : grows s (class_own_includes w r s).
Proof.
  destruct (own_includes_spec w r s) as [H1 H2]; split.
  - intros i Hi; exact (proj2 (H2 i) (or_introl Hi)).
  - intros d l [m Hm]; exists m; rewrite H1; exact Hm.
Qed.
Lemma pending_add w O i s : pending w O s -> pending w O (add_include i s).
Proof. apply pending_stack; [reflexivity|apply add_include_grows]. Qed.

(** What processing an item achieves. *)
Record achieved (w : world) (d : decl) (fs : list nat) (s s' : include_set) : Prop := {
  ach_pending : pending w [] s';
  ach_grows : grows s s';
  ach_below : forall x l, item_starts w d fs x l -> below s' x l;
  ach_extra : forall i, item_extra w d i -> In i (incs s');
  ach_sound : forall (start : decl -> nat -> Prop) (extra : str -> Prop),
    (forall x l, item_starts w d fs x l -> start x l) -> (forall i, item_extra w d i -> extra i) ->
    sound w start extra s -> sound w start extra s'
}.
Lemma visits_spec w inc fs d s s' : run_actions inc w (map (fun f => Visit (DFun f) 0) fs ++ [Visit d 0]) s = Ok s' -> pending w [] s ->
  pending w [] s' /\ grows s s' /\ (forall f, In f fs -> below s' (DFun f) 0) /\ below s' d 0 /\
  (forall (start : decl -> nat -> Prop) (extra : str -> Prop), (forall f, In f fs -> start (DFun f) 0) -> start d 0 ->
     sound w start extra s -> sound w start extra s').
Proof.
  intros E P. destruct (proj2 (pending_all w inc) _ _ _ [] E P) as [P' S].
  split; [exact P'|]. split; [exact (proj2 (grows_all inc w) _ _ _ E)|]. split; [|split].
  - intros f Hf; apply (S (Visit (DFun f) 0)); apply in_or_app; left; apply in_map_iff; exists f; split; [reflexivity|exact Hf].
  - apply (S (Visit d 0)); apply in_or_app; right; left; reflexivity.
  - intros start extra H1 H2 So; refine (proj2 (sound_all w start extra inc) _ _ _ E _ _ So).
    + intros x n Hx; apply in_app_or in Hx; destruct Hx as [Hx|[Hx|[]]].
      * apply in_map_iff in Hx; destruct Hx as [f [Ef Hf]]; injection Ef as <- <-; apply R_start, H1, Hf.
      * injection Hx as <- <-; apply R_start, H2.
    + intros x Hx; apply in_app_or in Hx; destruct Hx as [Hx|[Hx|[]]]; [|discriminate].
      apply in_map_iff in Hx; destruct Hx as [f [Ef _]]; discriminate.
Qed.
Lemma sound_same w start extra s s' : stack s' = stack s ->
  (forall i, In i (incs s') -> In i (incs s) \/ extra i) -> sound w start extra s -> sound w start extra s'.
Proof.
  intros E H [S1 S2]; split; [|rewrite E; exact S2]. intros i Hi; destruct (H i Hi) as [X|X]; [apply S1, X|left; exact X].
Qed.

Lemma class_includes_spec inc w : forall fuel r fs s s', class_includes_rec fuel inc w r fs s = Ok s' -> pending w [] s ->
  achieved w (DRec r) fs s s'.
Proof.
  induction fuel as [|fuel IH]; intros r fs s s'; rewrite class_includes_eq; intros E P.
  all: apply bind_r_Ok in E; destruct E as [s1 [E1 E]]; apply bind_r_Ok in E; destruct E as [s2 [E2 E]]; apply Ok_inj in E.
  all: destruct (own_includes_spec w r s) as [O1 O2]; pose proof (own_includes_grows w r s) as OG.
  all: assert (P0 : pending w [] (class_own_includes w r s)) by (eapply pending_stack; [exact O1|exact OG|exact P]).
  all: assert (N : pending w [] s1 /\ grows (class_own_includes w r s) s1 /\
        (forall j i, In j (nested_classes w (rec_ w r)) -> with_nested w j i -> below s1 (DRec i) 0) /\
        (forall j i, In j (nested_classes w (rec_ w r)) -> item_extra w (DRec j) i -> In i (incs s1)) /\
        (forall (start : decl -> nat -> Prop) (extra : str -> Prop),
           (forall j i, In j (nested_classes w (rec_ w r)) -> with_nested w j i -> start (DRec i) 0) ->
           (forall j i, In j (nested_classes w (rec_ w r)) -> item_extra w (DRec j) i -> extra i) ->
           sound w start extra (class_own_includes w r s) -> sound w start extra s1)).
  1: { destruct (nested_classes w (rec_ w r)); [|discriminate]. apply Ok_inj in E1; subst s1.
    split; [exact P0|split; [apply grows_refl|split; [intros j i []|split; [intros j i []|intros start extra _ _ X; exact X]]]]. }
  2: { assert (NN : forall l t t1, nested_includes fuel inc w l t = Ok t1 -> pending w [] t ->
        pending w [] t1 /\ grows t t1 /\
        (forall j i, In j l -> with_nested w j i -> below t1 (DRec i) 0) /\
        (forall j i, In j l -> item_extra w (DRec j) i -> In i (incs t1)) /\
        (forall (start : decl -> nat -> Prop) (extra : str -> Prop),
           (forall j i, In j l -> with_nested w j i -> start (DRec i) 0) ->
           (forall j i, In j l -> item_extra w (DRec j) i -> extra i) ->
           sound w start extra t -> sound w start extra t1)).
    { clear - IH; induction l as [|j l IHl]; intros t t1 E P; rewrite ?nested_cons in E.
      - apply Ok_inj in E; subst t1; split; [exact P|split; [apply grows_refl|split; [intros j i []|split; [intros j i []|intros start extra _ _ X; exact X]]]].
      - apply bind_r_Ok in E; destruct E as [t0 [E0 E]]. destruct (IH _ _ _ _ E0 P) as [A1 A2 A3 A4 A5].
        destruct (IHl _ _ E A1) as [B1 [B2 [B3 [B4 B5]]]].
        split; [exact B1|]. split; [exact (grows_trans _ _ _ A2 B2)|]. split; [|split].
        + intros k i [<-|Hk] Hi; [|exact (B3 k i Hk Hi)]. apply (proj2 B2), A3. split; [reflexivity|right; exists i; split; [exact Hi|reflexivity]].
        + intros k i [<-|Hk] Hi; [apply (proj1 B2), A4, Hi|exact (B4 k i Hk Hi)].
        + intros start extra H1 H2 So; apply B5; [intros k i Hk; apply H1; right; exact Hk|intros k i Hk; apply H2; right; exact Hk|].
          apply A5; [|intros i; apply H2; left; reflexivity|exact So].
          intros x n [-> [[f [[] _]]|[i [Hi ->]]]]; exact (H1 j i (or_introl eq_refl) Hi). }
    destruct (nested_classes w (rec_ w r)) as [|j l] eqn:En.
    + apply Ok_inj in E1; subst s1.
      split; [exact P0|split; [apply grows_refl|split; [intros j i []|split; [intros j i []|intros start extra _ _ X; exact X]]]].
    + exact (NN _ _ _ E1 P0). }
  all: destruct N as [N1 [N2 [N3 [N4 N5]]]]; destruct (visits_spec w inc fs (DRec r) s1 s2 E2 N1) as [V1 [V2 [V3 [V4 V5]]]].
  all: assert (G : grows s s') by (subst s'; eapply grows_trans; [exact OG|eapply grows_trans; [exact N2|eapply grows_trans; [exact V2|apply add_include_grows]]]).
  all: assert (G2 : grows s2 s') by (subst s'; apply add_include_grows).
  all: split; [subst s'; apply pending_add, V1|exact G| | |].
  all: try (intros x l [-> [[f [Hf ->]]|[i [Hi ->]]]]; apply (proj2 G2); [exact (V3 f Hf)|];
            destruct (proj1 (with_nested_inv w r i) Hi) as [->|[j [Hj Hji]]]; [exact V4|apply (proj2 V2), (N3 j i Hj Hji)]).
  all: try (intros i [->|[c [l [h [Hc [Hl [Hh ->]]]]]]];
            [subst s'; apply in_or_app; right; left; reflexivity|];
            apply (proj1 G2), (proj1 V2); destruct (proj1 (with_nested_inv w r c) Hc) as [->|[j [Hj Hjc]]];
            [apply (proj1 N2); apply (proj2 (O2 _)); right; exists l, h; split; [exact Hl|split; [exact Hh|reflexivity]]
            |apply (N4 j _ Hj); right; exists c, l, h; split; [exact Hjc|split; [exact Hl|split; [exact Hh|reflexivity]]]]).
  all: intros start extra H1 H2 So; subst s'; apply (sound_same w start extra s2);
       [reflexivity
       |intros i Hi; apply in_app_or in Hi; destruct Hi as [Hi|[<-|[]]]; [left; exact Hi|right; apply H2; left; reflexivity]
       |].
  all: apply V5; [intros f Hf; apply H1; split; [reflexivity|left; exists f; split; [exact Hf|reflexivity]]
                 |apply H1; split; [reflexivity|right; exists r; split; [constructor|reflexivity]]
                 |].
  all: apply N5;
       [intros j i Hj Hi; apply H1; split; [reflexivity|right; exists i; split; [|reflexivity]]; apply (proj2 (with_nested_inv w r i)); right; exists j; split; assumption
       |intros j i Hj [->|[c [l [h [Hc X]]]]]; apply H2; [left; reflexivity|right; exists c, l, h; split; [|exact X]];
          apply (proj2 (with_nested_inv w r c)); right; exists j; split; assumption
       |].
  all: apply (sound_same w start extra s); [exact O1| |exact So].
  all: intros i Hi; destruct (proj1 (O2 i) Hi) as [X|[l [h [X1 [X2 X3]]]]]; [left; exact X|right; apply H2; right].
  all: exists r, l, h; split; [constructor|split; [exact X1|split; [exact X2|exact X3]]].
Qed.

Lemma item_includes_spec w b s s' : binder_includes w b s = Ok s' -> pending w [] s ->
  achieved w (b_decl b) (b_incl b) s s'.
Proof.
  unfold binder_includes; cbv zeta; destruct (b_decl b) as [f|r|e] eqn:Ed; intros E P.
  2: exact (class_includes_spec _ _ _ _ _ _ _ E P).
  all: destruct (proj1 (pending_all w _) _ _ _ _ [] E P) as [P' B].
  all: split; [exact P'|exact (proj1 (grows_all _ w) _ _ _ _ E)|intros x l [-> ->]; exact B|intros i []|].
  all: intros start extra H1 H2 So; refine (proj1 (sound_all w start extra _) _ _ _ _ E _ So); apply R_start, H1; split; reflexivity.
Qed.

(** ** Files *)

Lemma items_need_cons w x l i : items_need w (x :: l) i <-> items_need w [x] i \/ items_need w l i.
Proof.
  assert (M : forall (s1 s2 : decl -> nat -> Prop), (forall d n, s1 d n -> s2 d n) -> forall i, needs_header w s1 i -> needs_header w s2 i).
  { intros s1 s2 H j [d [n [d' [R X]]]]; exists d, n, d'; split; [|exact X]. clear X. induction R as [d n S|d n d'' n' R IH L].
    - apply R_start, H, S.
    - eapply R_step; eassumption. }
  split.
  - intros [[d [fs [[E|H] X]]]|X].
    + left; left; exists d, fs; split; [left; exact E|exact X].
    + right; left; exists d, fs; split; [exact H|exact X].
    + destruct X as [d [n [d' [R X]]]].
      assert (C : reached w (fun d level => exists d0 incl, In (d0, incl) [x] /\ item_starts w d0 incl d level) d n \/
                  reached w (fun d level => exists d0 incl, In (d0, incl) l /\ item_starts w d0 incl d level) d n).
      { clear X; induction R as [d n [d0 [fs [[E|H] S]]]|d n d'' n' R IH L].
        - left; apply R_start; exists d0, fs; split; [left; exact E|exact S].
        - right; apply R_start; exists d0, fs; split; [exact H|exact S].
        - destruct IH as [IH|IH]; [left|right]; eapply R_step; eassumption. }
      destruct C as [C|C]; [left|right]; right; exists d, n, d'; split; [exact C|exact X|exact C|exact X].
  - intros [[[d [fs [[E|[]] X]]]|X]|[[d [fs [H X]]]|X]].
    + left; exists d, fs; split; [left; exact E|exact X].
    + right; revert X; apply M; intros d n [d0 [fs [[E|[]] S]]]; exists d0, fs; split; [left; exact E|exact S].
    + left; exists d, fs; split; [right; exact H|exact X].
    + right; revert X; apply M; intros d n [d0 [fs [H S]]]; exists d0, fs; split; [right; exact H|exact S].
Qed.

Record achieved_all (w : world) (l : list binder) (s s' : include_set) : Prop := {
  all_pending : pending w [] s';
  all_grows : grows s s';
  all_below : forall b x n, In b l -> has_code b = true -> item_starts w (b_decl b) (b_incl b) x n -> below s' x n;
  all_extra : forall b i, In b l -> has_code b = true -> item_extra w (b_decl b) i -> In i (incs s');
  all_trace : trace (wopt w) = true -> l <> [] -> In (trace_header w) (incs s');
  all_sound : forall (start : decl -> nat -> Prop) (extra : str -> Prop),
    (forall b x n, In b l -> has_code b = true -> item_starts w (b_decl b) (b_incl b) x n -> start x n) ->
    (forall b i, In b l -> has_code b = true -> item_extra w (b_decl b) i -> extra i) ->
    (trace (wopt w) = true -> l <> [] -> extra (trace_header w)) ->
    sound w start extra s -> sound w start extra s'
}.
Lemma fill_achieves w ns rest : forall st taken later st', fill w ns false rest st = Ok (taken, later, st') -> pending w [] (s_incs st) ->
  achieved_all w taken (s_incs st) (s_incs st').
Proof.
  induction rest as [|b rest IH]; intros st taken later st' E P; cbn [fill] in E.
  { apply Ok_inj in E; injection E as <- <- <-; split; [exact P|apply grows_refl|intros b x n []|intros b i []|intros _ X; destruct (X eq_refl)|].
    intros start extra _ _ _ So; exact So. }
  destruct (fits w (s_code st) && streqb ns (binder_namespace w b)).
  2: { apply Ok_inj in E; injection E as <- <- <-; split; [exact P|apply grows_refl|intros b0 x n []|intros b0 i []|intros _ X; destruct (X eq_refl)|].
    intros start extra _ _ _ So; exact So. }
  apply bind_r_Ok in E; destruct E as [st1 [E1 E]]; apply bind_r_Ok in E; destruct E as [[[t0 l0] st2] [E2 E]]; apply Ok_inj in E; injection E as <- <- <-.
  unfold add_item in E1; cbv zeta in E1; apply bind_r_Ok in E1; destruct E1 as [is1 [Ei E1]]; apply Ok_inj in E1; subst st1; cbn [s_incs] in *.
  set (s0 := if trace (wopt w) then _ else s_incs st) in Ei.
  assert (E0 : (trace (wopt w) = true /\ s0 = add_include (trace_header w) (s_incs st)) \/ (trace (wopt w) = false /\ s0 = s_incs st))
    by (subst s0; destruct (trace (wopt w)); [left|right]; split; reflexivity).
  assert (G0 : grows (s_incs st) s0) by (destruct E0 as [[_ ->]|[_ ->]]; [apply add_include_grows|apply grows_refl]).
  assert (P0 : pending w [] s0) by (destruct E0 as [[_ ->]|[_ ->]]; [apply pending_add, P|exact P]).
  clearbody s0.
  assert (A : pending w [] is1 /\ grows s0 is1 /\ (has_code b = true -> achieved w (b_decl b) (b_incl b) s0 is1) /\ (has_code b = false -> is1 = s0)).
  { destruct (has_code b).
    - pose proof (item_includes_spec w b s0 is1 Ei P0) as X. split; [apply (ach_pending _ _ _ _ _ X)|split; [apply (ach_grows _ _ _ _ _ X)|split; [intros _; exact X|discriminate]]].
    - apply Ok_inj in Ei; subst is1; split; [exact P0|split; [apply grows_refl|split; [discriminate|reflexivity]]]. }
  destruct A as [A1 [A2 [A3 A4]]].
  destruct (IH _ _ _ _ E2 A1) as [B1 B2 B3 B4 B5 B6].
  split.
  - exact B1.
  - exact (grows_trans _ _ _ G0 (grows_trans _ _ _ A2 B2)).
  - intros c x n [<-|Hc] Hh Hi; [|exact (B3 c x n Hc Hh Hi)]. apply (proj2 B2), (ach_below _ _ _ _ _ (A3 Hh) _ _ Hi).
  - intros c i [<-|Hc] Hh Hi; [|exact (B4 c i Hc Hh Hi)]. apply (proj1 B2), (ach_extra _ _ _ _ _ (A3 Hh) _ Hi).
  - intros Ht _; apply (proj1 B2), (proj1 A2). destruct E0 as [[_ ->]|[F _]]; [apply in_or_app; right; left; reflexivity|rewrite F in Ht; discriminate].
  - intros start extra H1 H2 H3 So. apply B6.
    + intros c x n Hc; apply H1; right; exact Hc.
    + intros c i Hc; apply H2; right; exact Hc.
    + intros Ht _; apply H3; [exact Ht|discriminate].
    + assert (S0 : sound w start extra s0).
      { destruct E0 as [[Ht ->]|[_ ->]]; [|exact So]. apply (sound_same w start extra (s_incs st)); [reflexivity| |exact So].
        intros i Hi; apply in_app_or in Hi; destruct Hi as [Hi|[<-|[]]]; [left; exact Hi|right; apply H3; [exact Ht|discriminate]]. }
      destruct (has_code b) eqn:Hb.
      * apply (ach_sound _ _ _ _ _ (A3 eq_refl)); [intros x n; apply (H1 b x n (or_introl eq_refl) Hb)|intros i; apply (H2 b i (or_introl eq_refl) Hb)|exact S0].
      * rewrite (A4 eq_refl); exact S0.
Qed.

Lemma fill_skip_incs w ns rest : forall st taken later st', fill w ns true rest st = Ok (taken, later, st') -> s_incs st' = s_incs st.
Proof.
  induction rest as [|b rest IH]; intros st taken later st' E; cbn [fill] in E.
  - apply Ok_inj in E; injection E as <- <- <-; reflexivity.
  - destruct (_ && _).
    + apply bind_r_Ok in E; destruct E as [st1 [E1 E]]; apply Ok_inj in E1; subst st1.
      apply bind_r_Ok in E; destruct E as [[[t0 l0] st2] [E2 E]]; apply Ok_inj in E; injection E as <- <- <-; exact (IH _ _ _ _ E2).
    + apply Ok_inj in E; injection E as <- <- <-; reflexivity.
Qed.
Lemma start_incs w ns call tc : s_incs (file_start w ns call tc) =
  mkis (match lookup ns (vecs (wcfg w) namespace_includes) with Some l => l | None => [] end) [].
Proof.
  unfold file_start; cbn [s_incs].
  assert (H : forall l a, fold_left (fun s i => add_include i s) l (mkis a []) = mkis (a ++ l) []).
  { induction l as [|x l IH]; intros a; cbn [fold_left]; [rewrite app_nil_r; reflexivity|].
    unfold add_include at 2; cbn [incs stack]; rewrite IH, <- app_assoc; reflexivity. }
  rewrite H; reflexivity.
Qed.

Lemma file_includes w b rest fnames entrance tc taken later st :
  fill w (binder_namespace w b) (snd (first_code w (binder_namespace w b) (count (binder_namespace w b) entrance))) (b :: rest)
       (file_start w (binder_namespace w b) (fst (first_code w (binder_namespace w b) (count (binder_namespace w b) entrance))) tc)
    = Ok (taken, later, st) ->
  forall i, In i (incs (s_incs st)) <-> file_needs w (made_file w b fnames entrance taken st) i.
Proof.
  intros E i.
  assert (Hn : forall x, In x (incs (s_incs (file_start w (binder_namespace w b) (fst (first_code w (binder_namespace w b) (count (binder_namespace w b) entrance))) tc)))
             <-> namespace_header w (binder_namespace w b) x).
  { intros x; rewrite start_incs; cbn [incs]; unfold namespace_header; destruct (lookup _ _) as [l|].
    - split; [intros H; exists l; split; [reflexivity|exact H]|intros [l' [El H]]; injection El as <-; exact H].
    - split; [intros []|intros [l' [El _]]; discriminate]. }
  unfold file_needs, made_file; cbv zeta; cbn [g_ns g_skip g_items].
  set (sk := snd (first_code w (binder_namespace w b) (count (binder_namespace w b) entrance))) in *.
  set (s0 := file_start w (binder_namespace w b) (fst (first_code w (binder_namespace w b) (count (binder_namespace w b) entrance))) tc) in *.
  assert (St : stack (s_incs s0) = []) by (subst s0; rewrite start_incs; reflexivity).
  clearbody sk s0. destruct sk.
  - rewrite (fill_skip_incs _ _ _ _ _ _ _ E), Hn. split; [left; assumption|]. intros [H|[[H _]|[H _]]]; [exact H|discriminate|discriminate].
  - assert (P : pending w [] (s_incs s0)) by (intros d n H; rewrite St in H; destruct H).
    destruct (fill_achieves w _ _ _ _ _ _ E P) as [A1 A2 A3 A4 A5 A6].
    assert (CI : forall d fs, In (d, fs) (code_items taken) <-> exists c, In c taken /\ has_code c = true /\ b_decl c = d /\ b_incl c = fs).
    { intros d fs; unfold code_items; rewrite in_map_iff; split.
      - intros [c [Ec Hc]]; apply filter_In in Hc; destruct Hc; injection Ec as <- <-; exists c; auto.
      - intros [c [Hc [Hh [<- <-]]]]; exists c; split; [reflexivity|apply filter_In; auto]. }
    split.
    + intros Hi. set (start := fun d level => exists d0 fs, In (d0, fs) (code_items taken) /\ item_starts w d0 fs d level).
      assert (So : sound w start (fun x => namespace_header w (binder_namespace w b) x \/ (trace (wopt w) = true /\ taken <> [] /\ x = trace_header w) \/
                     exists d fs, In (d, fs) (code_items taken) /\ item_extra w d x) (s_incs st)).
      { apply A6.
        - intros c x n Hc Hh Hs; exists (b_decl c), (b_incl c); split; [apply (proj2 (CI _ _)); exists c; auto|exact Hs].
        - intros c x Hc Hh Hs; right; right; exists (b_decl c), (b_incl c); split; [apply (proj2 (CI _ _)); exists c; auto|exact Hs].
        - intros Ht Hne; right; left; auto.
        - split; [intros x Hx; left; left; apply Hn, Hx|intros d n H; rewrite St in H; destruct H]. }
      destruct (proj1 So i Hi) as [[H|[[H1 [H2 H3]]|H]]|H].
      * left; exact H.
      * right; left; auto.
      * right; right; split; [reflexivity|left; exact H].
      * right; right; split; [reflexivity|right; exact H].
    + intros [H|[[_ [Ht [Hne ->]]]|[_ [[d [fs [Hd Hx]]]|H]]]].
      * apply (proj1 A2), Hn, H.
      * exact (A5 Ht Hne).
      * apply (proj1 (CI _ _)) in Hd; destruct Hd as [c [Hc [Hh [<- <-]]]]; exact (A4 c i Hc Hh Hx).
      * revert H; apply needed_collected; [exact A1|]. intros x n [d [fs [Hd Hs]]].
        apply (proj1 (CI _ _)) in Hd; destruct Hd as [c [Hc [Hh [<- <-]]]]; exact (A3 c x n Hc Hh Hs).
Qed.

(** The text of a file starts with its include block. *)
Definition include_block (l : list str) : str := concat (map (fun i => $"#include " ++ i ++ [nl]) l).
Lemma wrote_includes w rest fnames entrance tc gs : wrote w rest fnames entrance tc gs -> forall g, In g gs ->
  exists l body, Sorted.StronglySorted strlt l /\
    (forall i, In i l <-> file_needs w g i /\ is_include_skipping_requested (wcfg w) i = false) /\
    g_text g = include_block l ++ body.
Proof.
  induction 1 as [|b rest fnames entrance tc gs Hh W IH|b rest fnames entrance tc taken later st gs Hh E W IH]; intros g Hg; [destruct Hg|exact (IH g Hg)|].
  destruct Hg as [<-|Hg]; [|exact (IH g Hg)].
  pose proof (file_includes w b rest fnames entrance tc taken later st E) as F.
  exists (filter (fun i => negb (is_include_skipping_requested (wcfg w) i)) (set_of (incs (s_incs st)))).
  eexists; split; [|split].
  - assert (S : Sorted.StronglySorted strlt (set_of (incs (s_incs st)))) by apply set_of_sorted.
    clear - S; induction S as [|x l S IH Hx]; cbn [filter]; [constructor|]. destruct (negb _); [|exact IH].
    constructor; [exact IH|]. apply Forall_forall; intros y Hy; apply filter_In in Hy; rewrite Forall_forall in Hx; apply Hx, Hy.
  - intros i; rewrite filter_In, set_of_In, F, negb_true_iff; reflexivity.
  - unfold made_file; cbv zeta; cbn [g_text]; unfold file_text; cbv zeta; unfold generate_include_directives, include_block; reflexivity.
Qed.

(** ** Termination of a whole run *)

Lemma run_fine w U inc l s : closed_unit w U -> length U <= inc -> (forall d n, In (Visit d n) l -> In d U) -> fine (run_actions inc w l s).
Proof.
  intros HU L Hl; apply (proj2 (includes_fine w U HU inc) l s [] 0).
  - intros d n H; split; [exact (Hl d n H)|lia].
  - constructor.
  - intros x [].
  - intros x [].
  - cbn [length]; lia.
Qed.
Lemma class_includes_fine w U inc rank : closed_unit w U -> length U <= inc ->
  (forall r i, In i (nested_classes w (rec_ w r)) -> rank i < rank r) ->
  (forall r i, In (DRec r) U -> In i (nested_classes w (rec_ w r)) -> In (DRec i) U) ->
  forall fuel r fs s, rank r < fuel -> In (DRec r) U -> (forall f, In f fs -> In (DFun f) U) ->
  fine (class_includes_rec fuel inc w r fs s).
Proof.
  intros HU L Hr HN; induction fuel as [|fuel IH]; intros r fs s Hl Hi Hf; [lia|]; rewrite class_includes_eq.
  apply fine_bind.
  - assert (Hn : forall l s, (forall i, In i l -> rank i < fuel /\ In (DRec i) U) -> fine (nested_includes fuel inc w l s)).
    { clear s Hl Hi Hf; induction l as [|i l IHl]; intros s Hl; [apply fine_ok|]. rewrite nested_cons.
      destruct (Hl i (or_introl eq_refl)); apply fine_bind; [apply IH; [assumption|assumption|intros f []]|].
      intros s1 _; apply IHl; intros j Hj; apply Hl; right; exact Hj. }
    specialize (Hn (nested_classes w (rec_ w r)) (class_own_includes w r s)).
    destruct (nested_classes w (rec_ w r)) as [|i l] eqn:En; [apply fine_ok|]. apply Hn; intros j Hj; rewrite <- En in Hj.
    split; [specialize (Hr r j Hj); lia|exact (HN r j Hi Hj)].
  - intros s1 _; apply fine_bind; [|intros; apply fine_ok]. apply run_fine with (U := U); [exact HU|exact L|].
    intros d n H; apply in_app_or in H; destruct H as [H|[H|[]]].
    + apply in_map_iff in H; destruct H as [f [Ef Hff]]; injection Ef as <- <-; exact (Hf f Hff).
    + injection H as <- <-; exact Hi.
Qed.
