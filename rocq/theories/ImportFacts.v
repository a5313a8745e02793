(** Facts on the registrations made by an import. *)
From Coq Require Import Ascii String Bool Arith NArith Lia Relations.
From Coq Require Import List.
From Verif Require Import Str StrFacts Util Config Ast Types Func Enum Includes Class Context SpecTypes SpecBind SpecClass SpecContext SpecOutput SpecImport
  TypesFacts NamesFacts BindFacts ClassFacts ContextFacts SortFacts WriteFacts RunFacts PropertiesContext PropertiesOutput.
Import ListNotations.

Local Opaque standard_name class_qualified_name python_class_name namespace_from_named_decl.

(** ** Lists *)

Lemma registered_app a b : registered (a ++ b) = registered a ++ registered b.
Proof. unfold registered. apply flat_map_app. Qed.
Lemma exists_more modules a b s : exists_after modules a s -> exists_after modules (a ++ b) s.
Proof. destruct s; cbn [exists_after]; [auto|]. rewrite registered_app, in_app_iff. auto. Qed.
Lemma app_split {A} (a b p : list A) x q : a ++ b = p ++ x :: q ->
  (exists q', a = p ++ x :: q') \/ (exists p', p = a ++ p' /\ b = p' ++ x :: q).
Proof.
  revert p. induction a as [|y a IH]; intros p H; [right; exists p; auto|]. destruct p as [|z p].
  - cbn in H. injection H as -> H. left. exists a. reflexivity.
  - cbn in H. injection H as -> H. destruct (IH p H) as [[q' ->]|[p' [-> E]]]; [left; exists q'; reflexivity|right; exists p'; auto].
Qed.
Lemma concat_split {A} (l : list (list A)) : forall p x q, concat l = p ++ x :: q ->
  exists l1 a l2 p', l = l1 ++ a :: l2 /\ p = concat l1 ++ p' /\ exists q', a = p' ++ x :: q'.
Proof.
  induction l as [|a l IH]; intros p x q H; [destruct p; discriminate H|]. cbn [concat] in H. destruct (app_split _ _ _ _ _ H) as [[q' E]|[p' [-> E]]].
  - exists [], a, l, p. split; [reflexivity|]. split; [reflexivity|]. exists q'. exact E.
  - destruct (IH _ _ _ E) as [l1 [b [l2 [p2 [-> [-> Q]]]]]]. exists (a :: l1), b, l2, p2. split; [reflexivity|]. split; [cbn; rewrite app_assoc; reflexivity|exact Q].
Qed.
Lemma forall2_split {A B} (R : A -> B -> Prop) l : forall m1 y m2, Forall2 R l (m1 ++ y :: m2) ->
  exists l1 x l2, l = l1 ++ x :: l2 /\ Forall2 R l1 m1 /\ R x y /\ Forall2 R l2 m2.
Proof.
  intros m1 y m2 H. apply Forall2_app_inv_r in H. destruct H as [l1 [l2 [H1 [H2 ->]]]]. inversion H2; subst. exists l1, x, l. auto.
Qed.
Lemma nodup_app {A} (a b : list A) : NoDup a -> NoDup b -> (forall x, In x a -> In x b -> False) -> NoDup (a ++ b).
Proof.
  induction a as [|x a IH]; intros Ha Hb D; [exact Hb|]. inversion Ha; subst. cbn. constructor.
  - rewrite in_app_iff. intros [I|I]; [contradiction|exact (D x (or_introl eq_refl) I)].
  - apply IH; auto. intros y I J. exact (D y (or_intror I) J).
Qed.
Lemma selection_nodup {A} (P : A -> Prop) l l' : selection P l l' -> NoDup l -> NoDup l'.
Proof.
  induction 1 as [|x l l' Hx S IH|x l l' Hx S IH]; intros N; [constructor| |]; inversion N; subst; [|auto].
  constructor; [|auto]. intros I. apply (selection_In _ _ _ S) in I. tauto.
Qed.

(** ** The classes and enums under a class *)

Section Class.
Variable w : world.
(** [r1] is [r2] or nested in it. *)
Definition reach : nat -> nat -> Prop := clos_refl_trans_1n nat (nested_in w).
Inductive under : entity -> nat -> Prop :=
| U_self r : under (EClass r) r
| U_enum e r : In e (inner_enums w r) -> under (EEnum e) r
| U_nested x i r : nested_in w i r -> under x i -> under x r.
Lemma reach_trans a b c : reach a b -> reach b c -> reach a c.
Proof. induction 1 as [|x y z H1 H2 IH]; intros H; [exact H|]. exact (Relation_Operators.rt1n_trans _ _ _ _ _ H1 (IH H)). Qed.
Lemma reach_step a b : nested_in w a b -> reach a b.
Proof. intros H. exact (Relation_Operators.rt1n_trans _ _ _ _ _ H (rt1n_refl _ _ _)). Qed.
Lemma reach_cycle a b : nested_in w a b -> reach b a -> clos_trans nat (nested_in w) a a.
Proof.
  intros H R. revert H. revert a b R. assert (X : forall b c, reach b c -> forall a, nested_in w a b -> clos_trans nat (nested_in w) a c).
  { induction 1 as [x|x y z H1 H2 IH]; intros a H; [apply t_step, H|]. apply (t_trans _ _ _ x); [apply t_step, H|apply IH, H1]. }
  intros a b R H. exact (X b a R a H).
Qed.
Lemma under_class c r : under (EClass c) r -> reach c r.
Proof.
  remember (EClass c) as x eqn:Ex. induction 1 as [r|e r I|x i r N U IH]; [injection Ex as ->; apply rt1n_refl|discriminate Ex|].
  exact (reach_trans _ _ _ (IH Ex) (reach_step _ _ N)).
Qed.
Lemma under_enum e r : under (EEnum e) r -> exists r0, In e (inner_enums w r0) /\ reach r0 r.
Proof.
  remember (EEnum e) as x eqn:Ex. induction 1 as [r|e' r I|x i r N U IH]; [discriminate Ex|injection Ex as ->; exists r; split; [exact I|apply rt1n_refl]|].
  destruct (IH Ex) as [r0 [I R]]. exists r0. split; [exact I|]. exact (reach_trans _ _ _ R (reach_step _ _ N)).
Qed.
Hypothesis PN : proper_nesting w.
Lemma reach_next a b c : reach a c -> nested_in w a b -> a = c \/ reach b c.
Proof. intros R N. destruct R as [|x y H1 H2]; [left; reflexivity|]. right. rewrite (pn_parent _ PN _ _ _ N H1). exact H2. Qed.
Lemma under_comparable x r1 : under x r1 -> forall r2, under x r2 -> reach r1 r2 \/ reach r2 r1.
Proof.
  induction 1 as [r|e r I|x i r N U IH]; intros r2 U2.
  - left. exact (under_class _ _ U2).
  - destruct (under_enum _ _ U2) as [r0 [J R]]. rewrite (pn_enum_parent _ PN _ _ _ I J). left. exact R.
  - destruct (IH r2 U2) as [R|R].
    + destruct (reach_next _ _ _ R N) as [<-|R']; [right; exact (reach_step _ _ N)|left; exact R'].
    + right. exact (reach_trans _ _ _ R (reach_step _ _ N)).
Qed.
Lemma reach_top a b : reach a b -> n_member (r_decl (rec_ w a)) = false -> a = b.
Proof. intros R M. destruct R as [|y z H1 H2]; [reflexivity|]. rewrite (pn_member _ PN _ _ H1) in M. discriminate M. Qed.
Lemma under_top x r1 r2 : under x r1 -> under x r2 -> n_member (r_decl (rec_ w r1)) = false -> n_member (r_decl (rec_ w r2)) = false -> r1 = r2.
Proof.
  intros U1 U2 M1 M2. destruct (under_comparable x r1 U1 r2 U2) as [R|R]; [exact (reach_top _ _ R M1)|symmetry; exact (reach_top _ _ R M2)].
Qed.
Lemma siblings x i j r : nested_in w i r -> nested_in w j r -> under x i -> under x j -> i = j.
Proof.
  intros Ni Nj Ui Uj. assert (X : forall i j, nested_in w i r -> nested_in w j r -> reach i j -> i = j).
  { clear - PN. intros i j Ni Nj R. destruct (reach_next _ _ _ R Ni) as [E|R']; [exact E|]. exfalso. exact (pn_acyclic _ PN _ (reach_cycle _ _ Nj R')). }
  destruct (under_comparable x i Ui j Uj) as [R|R]; [exact (X i j Ni Nj R)|symmetry; exact (X j i Nj Ni R)].
Qed.
Lemma own_not_below i r : nested_in w i r -> ~ under (EClass r) i.
Proof. intros N U. exact (pn_acyclic _ PN _ (reach_cycle _ _ N (under_class _ _ U))). Qed.
Lemma enum_not_below e i r : nested_in w i r -> In e (inner_enums w r) -> ~ under (EEnum e) i.
Proof. intros N I U. destruct (under_enum _ _ U) as [r0 [J R]]. rewrite (pn_enum_parent _ PN _ _ _ J I) in R. exact (pn_acyclic _ PN _ (reach_cycle _ _ N R)). Qed.
Lemma bound_nested_in i r : In i (inner_classes w r) -> bound_inner w i -> nested_in w (definition_of w i) r.
Proof. intros I [F _]. exists i. auto. Qed.

(** ** Induction over nested classes *)

Lemma actions_ind (P : scope -> nat -> list action -> Prop) :
  (forall s r, python_type w (class_name w r) -> P s r []) ->
  (forall s r binder, ~ python_type w (class_name w r) -> lookup (class_name w r) (maps (wcfg w) Config.binders) = Some binder ->
     P s r [Delegate (namespace_from_named_decl w (r_decl (rec_ w r))) r]) ->
  (forall s s' r bases enums inner inner_actions head, generated w r ->
    (if r_anon (rec_ w r) then s' = s /\ head = []
     else s' = InClass r /\ selection (named_base w) (r_bases (rec_ w r)) bases /\ head = [Register (EClass r) (base_classes bases) s (python_class_name w r)]) ->
    selection (bound_enum w) (inner_enums w r) enums -> selection (bound_inner w) (inner_classes w r) inner ->
    Forall2 (fun i l => P s' (definition_of w i) l) inner inner_actions -> P s r (head ++ map (register_enum w s') enums ++ concat inner_actions)) ->
  forall s r l, class_actions w s r l -> P s r l.
Proof.
  intros H1 H2 H3. fix IH 4. intros s r l H. destruct H as [s r Py|s r binder NP L|s s' r bases enums inner inner_actions head G HD SE SI F].
  - exact (H1 s r Py).
  - exact (H2 s r binder NP L).
  - apply (H3 s s' r bases enums inner inner_actions head G HD SE SI). clear SI. induction F as [|i l inner inner_actions Hi F IHF]; constructor; [exact (IH _ _ _ Hi)|exact IHF].
Qed.
Lemma enums_registered s l : registered (map (register_enum w s) l) = map EEnum l.
Proof. induction l as [|e l IH]; [reflexivity|]. cbn. f_equal. exact IH. Qed.
Lemma concat_registered l : forall x, In x (registered (concat l)) <-> exists a, In a l /\ In x (registered a).
Proof.
  induction l as [|a l IH]; intros x; cbn [concat]; [split; [intros []|intros [a [[] _]]]|].
  rewrite registered_app, in_app_iff, IH. split.
  - intros [I|[b [I J]]]; [exists a; split; [left; reflexivity|exact I]|exists b; split; [right; exact I|exact J]].
  - intros [b [[->|I] J]]; [left; exact J|right; exists b; auto].
Qed.
Lemma actions_under s r l : class_actions w s r l -> forall x, In x (registered l) -> under x r.
Proof.
  revert s r l. apply (actions_ind (fun s r l => forall x, In x (registered l) -> under x r)).
  - intros s r _ x [].
  - intros s r binder _ _ x [<-|[]]. apply U_self.
  - intros s s' r bases enums inner inner_actions head G HD SE SI F x I. rewrite !registered_app, !in_app_iff, enums_registered in I. destruct I as [I|[I|I]].
    + destruct (r_anon (rec_ w r)); [destruct HD as [_ ->]; destruct I|]. destruct HD as [_ [_ ->]]. destruct I as [<-|[]]. apply U_self.
    + apply in_map_iff in I. destruct I as [e [<- I]]. apply U_enum. exact (proj1 (proj1 (selection_In _ _ _ SE e) I)).
    + apply concat_registered in I. destruct I as [a [I J]]. apply In_nth_error in I. destruct I as [n I].
      destruct (nth_error_split _ _ I) as [a1 [a2 [E _]]]. rewrite E in F. destruct (forall2_split _ _ _ _ _ F) as [i1 [i [i2 [Ei [_ [Q _]]]]]].
      assert (Ii : In i inner) by (rewrite Ei; apply in_elt). apply (selection_In _ _ _ SI) in Ii. destruct Ii as [Ii B].
      exact (U_nested _ _ _ (bound_nested_in _ _ Ii B) (Q x J)).
Qed.
(** Nested classes chosen for binding have different definitions. *)
Lemma selected_definitions r inner : selection (bound_inner w) (inner_classes w r) inner -> NoDup (map (definition_of w) inner).
Proof.
  pose proof (pn_once _ PN r) as N. induction 1 as [|i l inner Hi S IH|i l inner Hi S IH]; [constructor| |].
  - cbn [filter] in N. rewrite (proj1 Hi) in N. cbn [map] in N |- *. inversion N as [|? ? N1 N2]; subst. constructor; [|exact (IH N2)].
    intros I. apply N1. apply in_map_iff in I. destruct I as [j [E J]]. apply in_map_iff. exists j. split; [exact E|]. apply (selection_In _ _ _ S) in J.
    apply filter_In. split; [exact (proj1 J)|exact (proj1 (proj2 J))].
  - cbn [filter] in N. destruct (r_first (rec_ w i)); [|exact (IH N)]. cbn [map] in N. inversion N; subst. auto.
Qed.
Lemma actions_nodup s r l : class_actions w s r l -> NoDup (registered l).
Proof.
  intros C. assert (X : class_actions w s r l /\ NoDup (registered l)); [|exact (proj2 X)]. revert s r l C. apply (actions_ind (fun s r l => class_actions w s r l /\ NoDup (registered l))).
  - intros s r Py. split; [apply AC_python, Py|constructor].
  - intros s r binder NP L. split; [exact (AC_binder w s r binder NP L)|]. cbn. constructor; [intros []|constructor].
  - intros s s' r bases enums inner inner_actions head G HD SE SI F. split.
    { apply (AC_class w s s' r bases enums inner inner_actions head G HD SE SI). clear - F. induction F as [|i l inner ia [H _] F IH]; constructor; auto. }
    assert (Nest : forall i, In i inner -> nested_in w (definition_of w i) r).
    { intros i I. apply (selection_In _ _ _ SI) in I. exact (bound_nested_in _ _ (proj1 I) (proj2 I)). }
    assert (UC : forall x, In x (registered (concat inner_actions)) -> exists i, In i inner /\ under x (definition_of w i)).
    { intros x I. apply concat_registered in I. destruct I as [a [I J]]. clear - F I J. induction F as [|i l inner ia [H _] F IH]; [destruct I|].
      destruct I as [<-|I]; [exists i; split; [left; reflexivity|exact (actions_under _ _ _ H x J)]|]. destruct (IH I) as [i' [Ii U]]. exists i'. split; [right; exact Ii|exact U]. }
    rewrite !registered_app, enums_registered. apply nodup_app; [|apply nodup_app|].
    + destruct (r_anon (rec_ w r)); [destruct HD as [_ ->]; constructor|destruct HD as [_ [_ ->]]; cbn; constructor; [intros []|constructor]].
    + apply FinFun.Injective_map_NoDup; [intros a b E; injection E as E; exact E|]. exact (selection_nodup _ _ _ SE (pn_enum_once _ PN r)).
    + pose proof (selected_definitions r inner SI) as ND. clear - F ND Nest PN. induction F as [|i l inner ia [H1 H2] F IH]; cbn [concat]; [constructor|].
      rewrite registered_app. cbn [map] in ND. inversion ND as [|? ? N1 N2]; subst. apply nodup_app; [exact H2|apply IH; [intros j J; apply Nest; right; exact J|exact N2]|].
      intros x I J. pose proof (actions_under _ _ _ H1 x I) as U1. apply concat_registered in J. destruct J as [a [Ia J]].
      assert (Y : exists j, In j inner /\ under x (definition_of w j)).
      { clear - F Ia J. induction F as [|j l' inner ia [K _] F IH]; [destruct Ia|]. destruct Ia as [<-|Ia]; [exists j; split; [left; reflexivity|exact (actions_under _ _ _ K x J)]|].
        destruct (IH Ia) as [j' [? ?]]. exists j'. split; [right; assumption|assumption]. }
      destruct Y as [j [Ij U2]]. apply N1. rewrite (siblings x _ _ r (Nest i (or_introl eq_refl)) (Nest j (or_intror Ij)) U1 U2). apply in_map, Ij.
    + intros x I J. apply in_map_iff in I. destruct I as [e [<- I]]. destruct (UC _ J) as [i [Ii U]].
      exact (enum_not_below e _ r (Nest i Ii) (proj1 (proj1 (selection_In _ _ _ SE e) I)) U).
    + intros x I J. destruct (r_anon (rec_ w r)); [destruct HD as [_ ->]; destruct I|]. destruct HD as [_ [_ ->]]. destruct I as [<-|[]].
      apply in_app_iff in J. destruct J as [J|J]; [apply in_map_iff in J; destruct J as [e [E _]]; discriminate E|].
      destruct (UC _ J) as [i [Ii U]]. exact (own_not_below _ r (Nest i Ii) U).
Qed.

(** ** Scopes, bases, modules *)

Lemma actions_scope modules s r l : class_actions w s r l -> forall pre, exists_after modules pre s -> forall p a q, l = p ++ a :: q ->
  match a with Register _ _ sc _ | Define sc _ => exists_after modules (pre ++ p) sc | Delegate _ _ => True end.
Proof.
  revert s r l. apply (actions_ind (fun s r l => forall pre, exists_after modules pre s -> forall p a q, l = p ++ a :: q ->
    match a with Register _ _ sc _ | Define sc _ => exists_after modules (pre ++ p) sc | Delegate _ _ => True end)).
  - intros s r _ pre _ p a q E. destruct p; discriminate E.
  - intros s r binder _ _ pre _ p a q E. destruct p as [|x p]; [injection E as <- _; exact I|]. injection E as _ E. destruct p; discriminate E.
  - intros s s' r bases enums inner inner_actions head G HD SE SI F pre Es p a q E.
    assert (Es' : exists_after modules (pre ++ head) s').
    { destruct (r_anon (rec_ w r)); [destruct HD as [-> ->]; rewrite app_nil_r; exact Es|]. destruct HD as [-> [_ ->]]. cbn [exists_after]. rewrite registered_app. apply in_app_iff. right. left. reflexivity. }
    destruct (app_split _ _ _ _ _ E) as [[q' EH]|[p' [-> E']]]; [|].
    + destruct (r_anon (rec_ w r)); [destruct HD as [_ ->]; destruct p; discriminate EH|]. destruct HD as [_ [_ HE]]. rewrite HE in EH.
      destruct p as [|x p]; [|destruct p; discriminate EH]. injection EH as <- _. rewrite app_nil_r. exact Es.
    + rewrite app_assoc. destruct (app_split _ _ _ _ _ E') as [[q' EE]|[p2 [-> E2]]].
      * assert (Ia : In a (map (register_enum w s') enums)) by (rewrite EE; apply in_elt). apply in_map_iff in Ia. destruct Ia as [e [<- _]]. cbn [register_enum]. apply exists_more, Es'.
      * destruct (concat_split _ _ _ _ E2) as [l1 [b [l2 [p3 [Ei [-> [q' Eb]]]]]]]. rewrite Ei in F. destruct (forall2_split _ _ _ _ _ F) as [i1 [i [i2 [_ [_ [Q _]]]]]].
        rewrite !app_assoc. apply (Q (((pre ++ head) ++ map (register_enum w s') enums) ++ concat l1)) with (q := q'); [|exact Eb]. apply exists_more, exists_more, Es'.
Qed.
Lemma action_kind s r l : class_actions w s r l -> forall a, In a l ->
  match a with
  | Register (EClass i) bases _ _ => generated w i /\ r_anon (rec_ w i) = false /\ exists bs, selection (named_base w) (r_bases (rec_ w i)) bs /\ bases = base_classes bs
  | Register (EEnum _) bases _ _ => bases = []
  | Define _ _ => False
  | Delegate ns i => ns = namespace_from_named_decl w (r_decl (rec_ w i))
  end.
Proof.
  revert s r l. apply (actions_ind (fun s r l => forall a, In a l ->
  match a with
  | Register (EClass i) bases _ _ => generated w i /\ r_anon (rec_ w i) = false /\ exists bs, selection (named_base w) (r_bases (rec_ w i)) bs /\ bases = base_classes bs
  | Register (EEnum _) bases _ _ => bases = []
  | Define _ _ => False
  | Delegate ns i => ns = namespace_from_named_decl w (r_decl (rec_ w i))
  end)).
  - intros s r _ a [].
  - intros s r binder _ _ a [<-|[]]. reflexivity.
  - intros s s' r bases enums inner inner_actions head G HD SE SI F a I. rewrite !in_app_iff in I. destruct I as [I|[I|I]].
    + destruct (r_anon (rec_ w r)) eqn:An; [destruct HD as [_ ->]; destruct I|]. destruct HD as [_ [SB ->]]. destruct I as [<-|[]]. split; [exact G|]. split; [exact An|]. exists bases. auto.
    + apply in_map_iff in I. destruct I as [e [<- _]]. reflexivity.
    + apply in_concat in I. destruct I as [b [Ib Ia]]. clear - F Ib Ia. induction F as [|i l inner ia Q F IH]; [destruct Ib|]. destruct Ib as [<-|Ib]; [exact (Q a Ia)|exact (IH Ib)].
Qed.
End Class.

(** ** The registrations are determined, and can be computed *)

Lemma actions_unique w s r l : class_actions w s r l -> forall l', class_actions w s r l' -> l = l'.
Proof.
  revert s r l. apply (actions_ind w (fun s r l => forall l', class_actions w s r l' -> l = l')).
  - intros s r Py l' H. destruct H as [|? ? ? NP _|? ? ? ? ? ? ? ? G]; [reflexivity|contradiction|destruct G; contradiction].
  - intros s r binder NP L l' H. destruct H as [? ? Py|? ? ? _ _|? ? ? ? ? ? ? ? G]; [contradiction|reflexivity|destruct G as [_ G]; rewrite G in L; discriminate L].
  - intros s s' r bases enums inner ia head G HD SE SI F l' H.
    inversion H as [? ? Py|? ? binder NP L|? s2 ? bases2 enums2 inner2 ia2 head2 G2 HD2 SE2 SI2 F2]; subst; [destruct G; contradiction|destruct G as [_ G]; rewrite G in L; discriminate L|].
    pose proof (selection_unique _ _ _ _ SE SE2) as E1. pose proof (selection_unique _ _ _ _ SI SI2) as E2.
    assert (E3 : s' = s2 /\ head = head2).
    { destruct (r_anon (rec_ w r)); [destruct HD as [-> ->]; destruct HD2 as [-> ->]; auto|].
      destruct HD as [-> [S1 ->]]. destruct HD2 as [-> [S2 ->]]. rewrite (selection_unique _ _ _ _ S1 S2). auto. }
    destruct E3 as [E3 E4]. rewrite E1, E4, <- E3. f_equal. f_equal. f_equal. rewrite <- E2, <- E3 in F2. clear - F F2.
    revert ia2 F2. induction F as [|i l inner ia Hi F IH]; intros ia2 F2; inversion F2; subst; [reflexivity|]. f_equal; [apply Hi; assumption|apply IH; assumption].
Qed.
Fixpoint class_acts (fuel : nat) (w : world) (s : scope) (r : nat) : result (list action) :=
  match fuel with
  | 0 => Diverges
  | S fuel' =>
      if is_python_builtin w (r_decl (rec_ w r)) then Ok []
      else match lookup (class_name w r) (maps (wcfg w) Config.binders) with
           | Some _ => Ok [Delegate (namespace_from_named_decl w (r_decl (rec_ w r))) r]
           | None =>
               do bs <- bound_bases w (rec_ w r);
               do es <- filter_r (fun e => do k <- is_skipping_requested_enum w (enum_ w e); Ok (negb k))
                          (filter (fun e => is_public (e_decl (enum_ w e)) && is_bindable_enum (enum_ w e)) (inner_enums w r));
               let s' := if r_anon (rec_ w r) then s else InClass r in
               do ia <- (fix go l := match l with [] => Ok [] | i :: l' => do a <- class_acts fuel' w s' (definition_of w i); do b <- go l'; Ok (a :: b) end)
                          (filter (fun i => r_first (rec_ w i) && is_bindable_rec w (definition_of w i)) (inner_classes w r));
               Ok ((if r_anon (rec_ w r) then [] else [Register (EClass r) (base_classes bs) s (python_class_name w r)]) ++ map (register_enum w s') es ++ concat ia)
           end
  end.
Lemma class_acts_sound w : forall fuel s r l, class_acts fuel w s r = Ok l -> class_actions w s r l.
Proof.
  induction fuel as [|fuel IH]; intros s r l H; [discriminate H|]. cbn [class_acts] in H.
  destruct (is_python_builtin w (r_decl (rec_ w r))) eqn:PB; [apply Ok_inj in H; subst l; apply AC_python, builtin_iff, PB|].
  assert (NP : ~ python_type w (class_name w r)) by (intros X; apply builtin_iff in X; rewrite X in PB; discriminate PB).
  destruct (lookup (class_name w r) (maps (wcfg w) Config.binders)) as [bi|] eqn:L; [apply Ok_inj in H; subst l; exact (AC_binder w s r bi NP L)|].
  inv_ok H. inv_ok H. cbv zeta in H. inv_ok H. apply Ok_inj in H. subst l.
  apply (AC_class w s (if r_anon (rec_ w r) then s else InClass r) r a a0 (filter (fun i => r_first (rec_ w i) && is_bindable_rec w (definition_of w i)) (inner_classes w r)) a1).
  - split; assumption.
  - pose proof (bases_spec _ _ _ H0) as SB. destruct (r_anon (rec_ w r)); auto.
  - clear - H1. revert a0 H1. induction (inner_enums w r) as [|e l IHl]; intros es H; cbn [filter] in H; [apply Ok_inj in H; subst es; constructor|].
    pose proof (enum_ok_iff w e) as O. destruct (is_public (e_decl (enum_ w e)) && is_bindable_enum (enum_ w e)).
    + cbn [filter_r] in H. inv_ok H. inv_ok H. inv_ok H0. apply Ok_inj in H0. apply Ok_inj in H. subst a es. pose proof (skip_enum_iff _ _ _ H2) as K. destruct a1; cbn [negb].
      * apply SEL_left; [|apply IHl; exact H1]. intros [_ [_ [_ [_ X]]]]. apply X, K. reflexivity.
      * apply SEL_taken; [|apply IHl; exact H1]. destruct (proj1 O eq_refl) as [A [B [C D]]]. split; [exact A|]. split; [exact B|]. split; [exact C|]. split; [exact D|]. intros X. apply K in X. discriminate.
    + apply SEL_left; [|apply IHl; exact H]. intros [A [B [C [D _]]]]. assert (X : false = true); [|discriminate X]. apply O. auto.
  - apply inner_spec.
  - clear - H2 IH. revert a1 H2. induction (filter _ (inner_classes w r)) as [|i l IHl]; intros ia H; [apply Ok_inj in H; subst ia; constructor|].
    inv_ok H. inv_ok H. apply Ok_inj in H. subst ia. constructor; [apply IH; assumption|apply IHl; assumption].
Qed.
