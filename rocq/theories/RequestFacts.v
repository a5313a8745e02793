(** Proofs about the requests made while code is generated. *)
From Coq Require Import Ascii String Bool Arith NArith Lia.
From Coq Require Import List.
From Verif Require Import Str StrFacts SpecUtil Util UtilFacts Config Ast Types Func Enum Includes Class Context SpecContext ContextFacts WriteFacts SpecConfig SpecTypes TypesFacts NamesFacts SpecBind BindFacts SpecClass ClassFacts SpecRequests.
Import ListNotations.

Definition asked (w : world) (P : qty -> Prop) (q : list str) : Prop := forall name, In name q <-> exists t, P t /\ announces w t name.
Lemma asked_nil w (P : qty -> Prop) : (forall t, ~ P t) -> asked w P [].
Proof. intros N name. split; [intros []|]. intros [t [X _]]. destruct (N t X). Qed.
Lemma asked_ext w (P Q : qty -> Prop) q : asked w P q -> (forall t, P t <-> Q t) -> asked w Q q.
Proof. intros H E name. rewrite (H name). split; intros [t [A B]]; exists t; (split; [apply E, A|exact B]). Qed.
Lemma asked_app w (P Q : qty -> Prop) q1 q2 : asked w P q1 -> asked w Q q2 -> asked w (fun t => P t \/ Q t) (q1 ++ q2).
Proof.
  intros A B name. rewrite in_app_iff, (A name), (B name). split.
  - intros [[t [X Y]]|[t [X Y]]]; exists t; auto.
  - intros [t [[X|X] Y]]; [left|right]; exists t; auto.
Qed.
Lemma asked_concat {A} w (P : A -> qty -> Prop) l : forall qs, Forall2 (fun x q => asked w (P x) q) l qs -> asked w (fun t => exists x, In x l /\ P x t) (concat qs).
Proof.
  intros qs F. induction F as [|x q l qs H F IH]; cbn [concat].
  - apply asked_nil. intros t [x [[] _]].
  - apply (asked_ext w _ _ _ (asked_app w _ _ _ _ H IH)). intros t. split.
    + intros [X|[y [I X]]]; [exists x; split; [left; reflexivity|exact X]|exists y; split; [right; exact I|exact X]].
    + intros [y [[<-|I] X]]; [left; exact X|right; exists y; auto].
Qed.
Lemma asked_types w l q : request_types w l = Ok q -> asked w (fun t => In t l) q.
Proof. intros H name. exact (request_types_iff w l q name H). Qed.

(** ** Functions *)
Lemma signature_types F t : In t (canonical (f_ret F) :: map p_type (f_params F)) <-> signature_type F t.
Proof.
  cbn [In]. rewrite in_map_iff. unfold signature_type. split.
  - intros [<-|[p [<- I]]]; [left; reflexivity|right; exists p; auto].
  - intros [->|[p [I ->]]]; [left; reflexivity|right; exists p; auto].
Qed.
Lemma function_asked w module F lifted lambda s q : bind_function w module F lifted lambda = Ok (s, q) -> asked w (signature_type F) q.
Proof.
  intros H. destruct (bind_function_spec w module F lifted lambda s q _ H (first_bound_spec F)) as [lines [_ [_ [_ Q]]]].
  exact (asked_ext w _ _ _ (asked_types w _ _ Q) (signature_types F)).
Qed.
Definition methods_use (w : world) (r : nat) (t : qty) : Prop := exists c, In c (candidates w r) /\ chosen w c /\ signature_type (fun_ w (fst c)) t.
Lemma methods_asked w r s q : const_is_method w -> binding_public_member_functions w r = Ok (s, q) -> asked w (methods_use w r) q.
Proof.
  intros Wf H. destruct (methods_spec w r s q Wf H) as [l [ts [Sl [T [_ ->]]]]].
  assert (X : asked w (fun t => exists c, In c l /\ signature_type (fun_ w (fst c)) t) (concat (map snd ts))).
  { apply asked_concat. unfold method_texts in T. clear -T. induction T as [|c [s q] l ts X T IH]; cbn [map snd]; constructor; [|exact IH]. exact (function_asked _ _ _ _ _ _ _ X). }
  apply (asked_ext w _ _ _ X). intros t. split.
  - intros [c [I G]]. apply (selection_In _ _ _ Sl) in I. exists c. tauto.
  - intros [c [I [C G]]]. exists c. split; [apply (selection_In _ _ _ Sl); auto|exact G].
Qed.

(** ** Folded bases *)
Scheme folded_bases_mind := Minimality for folded_bases Sort Prop
  with folded_from_mind := Minimality for folded_from Sort Prop.
Lemma folded_bases_unique w r l : folded_bases w r l -> forall l', folded_bases w r l' -> l' = l.
Proof.
  apply (folded_bases_mind w (fun r l => forall l', folded_bases w r l' -> l' = l) (fun bs l => forall l', folded_from w bs l' -> l' = l)).
  - intros r0 N l' H. inversion H; subst; [reflexivity|contradiction].
  - intros r0 l0 N _ IH l' H. inversion H; subst; [contradiction|]. apply IH. assumption.
  - intros l' H. inversion H; subst. reflexivity.
  - intros b bs R l1 l2 P V BR NS _ IH1 _ IH2 l' H. inversion H as [|? ? R' l1' l2' P' V' BR' NS' F1 F2|? ? ? O F]; subst.
    + assert (R' = R) by congruence. subst R'. rewrite (IH1 _ F1), (IH2 _ F2). reflexivity.
    + destruct O as [O|[O|[O|[R' [O1 O2]]]]]; [contradiction|congruence|congruence|]. assert (R' = R) by congruence. subst R'. contradiction.
  - intros b bs l0 O _ IH l' H. inversion H as [|? ? R' l1' l2' P' V' BR' NS' F1 F2|? ? ? O' F]; subst; [|apply IH, F].
    destruct O as [O|[O|[O|[R [O1 O2]]]]]; [contradiction|congruence|congruence|]. assert (R' = R) by congruence. subst R'. contradiction.
Qed.
Lemma folded_asked w fuel r s q : const_is_method w -> binding_template_bases fuel w r = Ok (s, q) ->
  asked w (fun t => exists l R, folded_bases w r l /\ In R l /\ methods_use w R t) q.
Proof.
  intros Wf H. destruct (template_bases_spec w _ _ _ _ H) as [l [ts [Sl [T [_ ->]]]]].
  assert (X : asked w (fun t => exists R, In R l /\ methods_use w R t) (concat (map snd ts))).
  { apply asked_concat. clear -T Wf. induction T as [|c [s q] l ts X T IH]; cbn [map snd]; constructor; [|exact IH].
    destruct X as [m [M _]]. exact (methods_asked w c m q Wf M). }
  apply (asked_ext w _ _ _ X). intros t. split.
  - intros [R [I M]]. exists l, R. auto.
  - intros [l' [R [F [I M]]]]. rewrite (folded_bases_unique w r l Sl l' F) in I. exists R. auto.
Qed.

(** ** Constructors *)
Definition parameters_use (F : fn) (t : qty) : Prop := f_variadic F = false /\ exists p, In p (f_params F) /\ t = p_type p.
Lemma overload_asked w ci T n s q : n <= num_params T -> bind_ctor_overload w ci T n (n =? num_params T) = Ok (s, q) ->
  asked w (fun t => n = num_params T /\ parameters_use T t) q.
Proof.
  intros L H. unfold bind_ctor_overload in H. destruct (n =? num_params T) eqn:E; cbn [andb] in H.
  - apply Nat.eqb_eq in E. destruct (f_variadic T) eqn:V; cbn [negb] in H.
    + destruct (function_arguments_for_lambda w T n). apply Ok_inj in H. apply pair_equal_spec in H. destruct H as [_ <-]. apply asked_nil. intros t [_ [X _]]. congruence.
    + inv_ok H. apply Ok_inj in H. apply pair_equal_spec in H. destruct H as [_ <-]. apply (asked_ext w _ _ _ (asked_types w _ _ H0)). intros t.
      rewrite E. unfold num_params. rewrite firstn_all, in_map_iff. unfold parameters_use. split.
      * intros [p [<- I]]. split; [reflexivity|]. split; [exact V|]. exists p. auto.
      * intros [_ [_ [p [I ->]]]]. exists p. auto.
  - apply Nat.eqb_neq in E. destruct (function_arguments_for_lambda w T n). apply Ok_inj in H. apply pair_equal_spec in H. destruct H as [_ <-]. apply asked_nil. intros t [X _]. contradiction.
Qed.
Lemma first_default_le ps : first_default ps <= length ps.
Proof. induction ps as [|p ps IH]; cbn [first_default length]; [lia|]. destruct (p_default p); lia. Qed.
Lemma constructor_asked w ci T s q : bind_constructor w ci T = Ok (s, q) -> asked w (parameters_use T) q.
Proof.
  intros H. unfold bind_constructor, ctor_counts in H.
  destruct (emit_map_inv _ _ _ _ H) as [ps [P1 [P2 [P3 P4]]]].
  assert (X : asked w (fun t => exists n, In n (seq (first_default (f_params T)) (num_params T + 1 - first_default (f_params T))) /\ (n = num_params T /\ parameters_use T t)) q).
  { rewrite P3. apply asked_concat. clear -P1 P4.
    assert (B : forall n, In n (seq (first_default (f_params T)) (num_params T + 1 - first_default (f_params T))) -> n <= num_params T) by (intros n I; apply in_seq in I; lia).
    revert ps P1 P4. induction (seq (first_default (f_params T)) (num_params T + 1 - first_default (f_params T))) as [|n l IH]; intros [|p ps] P1 P4; try discriminate; cbn [map]; constructor.
    - specialize (P4 0 n p eq_refl eq_refl). cbn beta in P4. destruct (bind_ctor_overload w ci T n (n =? num_params T)) as [[s0 q0]| | | |] eqn:E0; try discriminate P4; cbn [bind_r] in P4. apply Ok_inj in P4. subst p. cbn [snd]. exact (overload_asked w ci T n _ _ (B n (or_introl eq_refl)) E0).
    - apply IH; [intros m I; exact (B m (or_intror I))|injection P1 as P1; exact P1|]. intros i x p' X Y. exact (P4 (S i) x p' X Y). }
  apply (asked_ext w _ _ _ X). intros t. split; [intros [n [_ [_ Y]]]; exact Y|]. intros Y. exists (num_params T). split; [|auto]. apply in_seq. pose proof (first_default_le (f_params T)). unfold num_params. lia.
Qed.
Lemma rest_asked w ci T s q :
  (if is_default T && (num_params T =? 0) then Ok (bind_default_constructor w ci (Some T), []) else bind_constructor w ci T) = Ok (s, q) -> asked w (parameters_use T) q.
Proof.
  intros H. destruct (is_default T && (num_params T =? 0)) eqn:E; [|exact (constructor_asked w ci T s q H)].
  apply Ok_inj in H. apply pair_equal_spec in H. destruct H as [_ <-]. apply asked_nil. intros t [_ [p [I _]]].
  apply andb_true_iff in E. destruct E as [_ E]. apply Nat.eqb_eq in E. unfold num_params in E. destruct (f_params T); [destruct I|discriminate].
Qed.
Lemma copy_or_not F : (exists const, copy_constructor F const) \/ (forall const, ~ copy_constructor F const).
Proof.
  destruct (is_copy F) eqn:E.
  - left. apply is_copy_iff, E.
  - right. intros const X. assert (is_copy F = true) by (apply is_copy_iff; exists const; exact X). congruence.
Qed.
Lemma declared_asked w ci T s q : bind_declared_ctor w ci T = Ok (s, q) -> asked w (fun t => (forall const, ~ copy_constructor T const) /\ parameters_use T t) q.
Proof.
  intros H. unfold bind_declared_ctor in H. destruct (is_copy T) eqn:C.
  - apply Ok_inj in H. apply pair_equal_spec in H. destruct H as [_ <-]. apply is_copy_iff in C. destruct C as [const C]. apply asked_nil. intros t [X _]. exact (X const C).
  - apply (asked_ext w _ _ _ (rest_asked w ci T s q H)). intros t. split; [|tauto]. intros X. split; [|exact X].
    intros const Y. assert (is_copy T = true) by (apply is_copy_iff; exists const; exact Y). congruence.
Qed.
Lemma lifted_asked w ci m s q : bind_lifted_ctor w ci (fun_ w m) = Ok (s, q) -> asked w (fun t => used_constructor w m /\ parameters_use (fun_ w m) t) q.
Proof.
  intros H. unfold bind_lifted_ctor in H. destruct (is_bindable_fun w (fun_ w m)) eqn:B; cbn [negb] in H.
  - destruct (is_copy (fun_ w m)) eqn:C.
    + apply Ok_inj in H. apply pair_equal_spec in H. destruct H as [_ <-]. apply is_copy_iff in C. destruct C as [const C]. apply asked_nil. intros t [[_ X] _]. exact (X const C).
    + apply (asked_ext w _ _ _ (rest_asked w ci _ s q H)). intros t. split; [|tauto]. intros X. split; [|exact X]. split; [apply bindable_iff, B|].
      intros const Y. assert (is_copy (fun_ w m) = true) by (apply is_copy_iff; exists const; exact Y). congruence.
  - apply Ok_inj in H. apply pair_equal_spec in H. destruct H as [_ <-]. apply asked_nil. intros t [[X _] _]. apply bindable_iff in X. congruence.
Qed.
Lemma emit_asked {A} w (f : A -> result emitted) (P : A -> qty -> Prop) l : (forall x s q, f x = Ok (s, q) -> asked w (P x) q) ->
  forall s q, emit_all (map f l) = Ok (s, q) -> asked w (fun t => exists x, In x l /\ P x t) q.
Proof.
  intros Hf s q H. destruct (emit_map_inv _ _ _ _ H) as [ps [P1 [_ [-> P4]]]]. apply asked_concat. clear H. revert ps P1 P4.
  induction l as [|x l IH]; intros [|p ps] P1 P4; try discriminate; cbn [map]; constructor.
  - specialize (P4 0 x p eq_refl eq_refl). destruct p as [s0 q0]. exact (Hf x s0 q0 P4).
  - apply IH; [injection P1 as P1; exact P1|]. intros i y p' X Y. exact (P4 (S i) y p' X Y).
Qed.
Lemma ctors_asked w r ci s q : bind_ctors w r ci = Ok (s, q) ->
  asked w (fun t => exists m, callable_constructor w r m /\ parameters_use (fun_ w m) t) q.
Proof.
  intros H. unfold bind_ctors in H. cbv zeta in H. inv_ok H. inv_ok H. destruct a0 as [s1 q1]. inv_ok H. destruct a0 as [s2 q2]. inv_ok H. apply Ok_inj in H. apply pair_equal_spec in H. destruct H as [_ <-].
  rewrite used_constructors_eq in *. rewrite own_constructors_eq in *.
  assert (Sl : selection (bound_constructor w) (own_constructors w r) a) by (apply (filter_r_selection _ _ _ (fun m b E => ctor_ok_iff w m b E)); exact H0).
  pose proof (emit_asked w _ (fun m t => (forall const, ~ copy_constructor (fun_ w m) const) /\ parameters_use (fun_ w m) t) a (fun m s q E => declared_asked w ci _ s q E) _ _ H1) as A1.
  pose proof (emit_asked w _ (fun m t => used_constructor w m /\ parameters_use (fun_ w m) t) _ (fun m s q E => lifted_asked w ci m s q E) _ _ H2) as A2.
  apply (asked_ext w _ _ _ (asked_app w _ _ _ _ A1 A2)). intros t. unfold callable_constructor. split.
  - intros [[m [I [N U]]]|[m [I [N U]]]]; exists m; (split; [|exact U]); [left; apply (selection_In _ _ _ Sl) in I; tauto|right; auto].
  - intros [m [[[I [B N]]|[I N]] U]]; [left|right]; exists m; [split; [apply (selection_In _ _ _ Sl); auto|auto]|auto].
Qed.

(** ** Classes *)
Lemma bases_asked w r bs q : bound_bases w (rec_ w r) = Ok bs -> request_types w (map (fun b => canonical (b_type b)) bs) = Ok q ->
  asked w (fun t => exists b, In b (r_bases (rec_ w r)) /\ named_base w b /\ t = canonical (b_type b)) q.
Proof.
  intros H Q. pose proof (bases_spec w r bs H) as Sl. apply (asked_ext w _ _ _ (asked_types w _ _ Q)). intros t. rewrite in_map_iff. split.
  - intros [b [<- I]]. apply (selection_In _ _ _ Sl) in I. exists b. tauto.
  - intros [b [I [N ->]]]. exists b. split; [reflexivity|]. apply (selection_In _ _ _ Sl). auto.
Qed.
Lemma structure_iff w r cs tr : const_is_method w -> is_callback_structure_needed (e_fuel (wenv w)) w r = Ok cs ->
  (if cs then is_callback_structure_constructible (e_fuel (wenv w)) w r else Ok false) = Ok tr -> (tr = true <-> has_structure w r).
Proof.
  intros Wf N C. apply (needs_iff w Wf) in N. unfold has_structure. rewrite <- N. destruct cs.
  - rewrite (constructible_iff _ _ _ _ C). tauto.
  - apply Ok_inj in C. subst tr. split; [discriminate|]. intros [X _]. discriminate.
Qed.
Lemma head_asked w r (f : list base -> str) head deps q0 :
  (if negb (r_anon (rec_ w r)) then
     do bs <- bound_bases w (rec_ w r);
     do q <- request_types w (map (fun b => canonical (b_type b)) bs);
     Ok (f bs, base_ids bs, q)
   else Ok ([], [], [])) = Ok (head, deps, q0) ->
  asked w (fun t => r_anon (rec_ w r) = false /\ exists b, In b (r_bases (rec_ w r)) /\ named_base w b /\ t = canonical (b_type b)) q0.
Proof.
  intros H. destruct (r_anon (rec_ w r)); cbn [negb] in H.
  - apply Ok_inj in H. injection H as _ _ <-. apply asked_nil. intros t [X _]. discriminate.
  - inv_ok H. inv_ok H. apply Ok_inj in H. injection H as _ _ <-. apply (asked_ext w _ _ _ (bases_asked w r _ _ H0 H1)). intros t. tauto.
Qed.
Lemma constructors_asked w r (tr : bool) ci s q : (tr = true <-> has_structure w r) ->
  (if (negb (r_abstract (rec_ w r)) || tr) && negb (r_anon (rec_ w r)) then bind_ctors w r ci else Ok ([], [])) = Ok (s, q) ->
  asked w (fun t => constructible w r /\ exists m, callable_constructor w r m /\ parameters_use (fun_ w m) t) q.
Proof.
  intros T H.
  assert (B : (negb (r_abstract (rec_ w r)) || tr) && negb (r_anon (rec_ w r)) = true <-> constructible w r).
  { unfold constructible. rewrite andb_true_iff, orb_true_iff, !negb_true_iff, T. tauto. }
  destruct ((negb (r_abstract (rec_ w r)) || tr) && negb (r_anon (rec_ w r))).
  - apply (asked_ext w _ _ _ (ctors_asked w r ci s q H)). intros t. split; [|tauto]. intros X. split; [apply B; reflexivity|exact X].
  - apply Ok_inj in H. apply pair_equal_spec in H. destruct H as [_ <-]. apply asked_nil. intros t [X _]. apply B in X. discriminate.
Qed.
Lemma class_asked_cases w r b (b' : result cbound) :
  (if is_python_builtin w (r_decl (rec_ w r)) then Ok (mkcbound [] [] [] [] [])
     else match lookup (standard_name w (n_qname (r_decl (rec_ w r)))) (maps (wcfg w) Config.binders) with
          | Some binder => Ok (mkcbound (bind_with w r binder) [] [] [] [])
          | None => b' end) = Ok b ->
  (~ generated w r /\ cb_req b = []) \/ (generated w r /\ b' = Ok b).
Proof.
  intros H. unfold generated. destruct (is_python_builtin w (r_decl (rec_ w r))) eqn:P.
  - apply Ok_inj in H. subst b. left. split; [|reflexivity]. intros [X _]. apply X. rewrite <- class_name_std. apply builtin_iff. exact P.
  - rewrite class_name_eq in H. assert (NP : ~ python_type w (class_name w r)).
    { intros X. rewrite <- class_name_std in X. apply builtin_iff in X. congruence. }
    destruct (lookup (class_name w r) (maps (wcfg w) Config.binders)) as [binder|] eqn:L.
    + apply Ok_inj in H. subst b. left. split; [|reflexivity]. intros [_ X]. discriminate.
    + right. auto.
Qed.
Lemma class_uses_generated w r t : class_uses w r t -> generated w r.
Proof. intros H. inversion H; assumption. Qed.
Lemma inner_iff w r i : In i (bound_nested w (rec_ w r)) <-> exists j, In j (inner_classes w r) /\ bound_inner w j /\ i = definition_of w j.
Proof.
  rewrite bound_nested_eq, in_map_iff. pose proof (inner_spec w r) as Sl. split.
  - intros [j [<- I]]. apply (selection_In _ _ _ Sl) in I. exists j. tauto.
  - intros [j [I [B ->]]]. exists j. split; [reflexivity|]. apply (selection_In _ _ _ Sl). auto.
Qed.
Lemma class_uses_parts w r : generated w r -> forall t, class_uses w r t <->
  ((r_anon (rec_ w r) = false /\ exists b, In b (r_bases (rec_ w r)) /\ named_base w b /\ t = canonical (b_type b)) \/
   (constructible w r /\ exists m, callable_constructor w r m /\ parameters_use (fun_ w m) t) \/
   methods_use w r t \/
   (exists l R, folded_bases w r l /\ In R l /\ methods_use w R t) \/
   (exists i, In i (bound_nested w (rec_ w r)) /\ class_uses w i t)).
Proof.
  intros G t. split.
  - intros H. inversion H; subst.
    + left. split; [assumption|]. exists b. auto.
    + right; left. split; [assumption|]. exists m. split; [assumption|]. split; [assumption|]. exists p. auto.
    + right; right; left. exists c. auto.
    + do 3 right; left. exists l, R. split; [assumption|]. split; [assumption|]. exists c. auto.
    + do 4 right. exists (definition_of w i). split; [|assumption]. apply inner_iff. exists i. auto.
  - intros [[A [b [I [N ->]]]]|[[A [m [C [V [p [I ->]]]]]]|[[c [I [C U]]]|[[l [R [F [I' [c [I [C U]]]]]]]|[i [I U]]]]]].
    + exact (CU_base w r b G A I N).
    + exact (CU_constructor w r m p G A C V I).
    + exact (CU_method w r c t G I C U).
    + exact (CU_folded w r l R c t G F I' I C U).
    + apply inner_iff in I. destruct I as [j [I [B ->]]]. exact (CU_member w r j t G I B U).
Qed.
Lemma class_asked w ops : const_is_method w -> forall fuel r b, bind_class fuel w ops r = Ok b -> asked w (class_uses w r) (cb_req b).
Proof.
  intros Wf. induction fuel as [fuel IH] using lt_wf_ind. intros r b H.
  assert (IHn : forall fuel' r b, S fuel' = fuel -> bind_class fuel' w ops r = Ok b -> asked w (class_uses w r) (cb_req b)) by (intros fuel' r' b' E; apply IH; lia). clear IH.
  destruct fuel as [|fuel]; cbn [bind_class] in H; cbv zeta in H; (apply class_asked_cases in H; destruct H as [[NG E]|[G H]];
    [rewrite E; apply asked_nil; intros t X; apply NG; exact (class_uses_generated w r t X)|]).
  all: inv_ok H; rename a into cs. all: inv_ok H; rename a into tr. all: inv_ok H; destruct a as [prefix0 incl0].
  all: inv_ok H; rename a into hold. all: inv_ok H; rename a into local. all: inv_ok H; destruct a as [[head deps] q0].
  all: inv_ok H; destruct a as [s1 q1]. all: inv_ok H; rename a into s2. all: inv_ok H; destruct a as [s3 q3]. all: inv_ok H; destruct a as [s4 q4].
  all: destruct (bind_repr w ops r) as [s5 incl5] eqn:ER. all: inv_ok H; destruct a as [[s7 prefix7] q7]. all: apply Ok_inj in H; subst b. all: cbn [cb_req].
  all: pose proof (structure_iff w r cs tr Wf H0 H1) as ST.
  all: pose proof (head_asked w r _ head deps q0 H5) as A0.
  all: pose proof (constructors_asked w r tr _ s1 q1 ST H6) as A1.
  all: pose proof (methods_asked w r s3 q3 Wf H8) as A3. all: pose proof (folded_asked w _ r s4 q4 Wf H9) as A4.
  1: destruct (nested_cases 0 w ops (bound_nested w (rec_ w r)) s7 prefix7 q7 (fun r b => asked w (class_uses w r) (cb_req b)) IHn H10) as [bs [NF [_ [_ NE]]]].
  2: assert (K10 : match bound_nested w (rec_ w r) with [] => Ok ([], [], []) | _ => nested_over fuel w ops (bound_nested w (rec_ w r)) end = Ok (s7, prefix7, q7)) by (destruct (bound_nested w (rec_ w r)); exact H10).
  2: destruct (nested_cases (S fuel) w ops (bound_nested w (rec_ w r)) s7 prefix7 q7 (fun r b => asked w (class_uses w r) (cb_req b)) IHn K10) as [bs [NF [_ [_ NE]]]].
  all: assert (A7 : asked w (fun t => exists i, In i (bound_nested w (rec_ w r)) /\ class_uses w i t) q7) by
    (rewrite NE; apply asked_concat; clear -NF; induction NF as [|i b l bs X F IH]; cbn [map]; constructor; assumption).
  all: apply (asked_ext w _ _ _ (asked_app w _ _ _ _ A0 (asked_app w _ _ _ _ A1 (asked_app w _ _ _ _ A3 (asked_app w _ _ _ _ A4 A7))))).
  all: intros t; symmetry; exact (class_uses_parts w r G t).
Qed.
Lemma generated_asked w ops d g : const_is_method w -> generate_code w ops d = Ok g -> asked w (uses w d) (cb_req g).
Proof.
  intros Wf H. destruct d as [f|r|e]; cbn [generate_code] in H.
  - inv_ok H. destruct a as [s q]. apply Ok_inj in H. subst g. cbn [cb_req]. unfold bind_fun in H0. inv_ok H0. destruct a as [s' q']. apply Ok_inj in H0. apply pair_equal_spec in H0. destruct H0 as [_ <-].
    apply (asked_ext w _ _ _ (function_asked _ _ _ _ _ _ _ H1)). intros t. split; [intros X; exact (US_function w f t X)|]. intros X. inversion X. assumption.
  - apply (asked_ext w _ _ _ (class_asked w ops Wf _ r g H)). intros t. split; [intros X; exact (US_class w r t X)|]. intros X. inversion X. assumption.
  - inv_ok H. apply Ok_inj in H. subst g. apply asked_nil. intros t X. inversion X.
Qed.

(** ** The program *)
Lemma needed_required w ops items : const_is_method w ->
  (forall j d, needed w ops items j -> nth_error items j = Some d -> exists g, generate_code w ops d = Ok g) ->
  forall i, needed w ops items i <-> required w items i.
Proof.
  intros Wf G i. split.
  - induction 1 as [i d Hi E S B|i j d dj name Hi E N IH Hj M NI].
    + exact (RQ_config w items i d Hi E S B).
    + destruct M as [g [Hg In]]. apply (generated_asked w ops dj g Wf Hg name) in In. destruct In as [t [U A]].
      exact (RQ_used w items i j d dj t name Hi E IH Hj U A NI).
  - induction 1 as [i d Hi E S B|i j d dj t name Hi E R IH Hj U A NI].
    + exact (by_config w ops items i d Hi E S B).
    + destruct (G j dj IH Hj) as [g Hg]. apply (by_mention w ops items i j d dj name Hi E IH Hj); [|exact NI].
      exists g. split; [exact Hg|]. apply (generated_asked w ops dj g Wf Hg name). exists t. auto.
Qed.
