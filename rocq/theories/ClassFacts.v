(** Proofs about Class.v. *)
From Coq Require Import Ascii String Bool Arith NArith Lia.
From Coq Require Import List.
From Verif Require Import Str StrFacts SpecUtil Util UtilFacts Config Ast Types Func Enum Includes Class Context SpecContext ContextFacts WriteFacts SpecConfig SpecTypes TypesFacts NamesFacts SpecBind BindFacts SpecClass.
Import ListNotations.

(** ** Selections *)

Lemma filter_selection {A} (f : A -> bool) (P : A -> Prop) l : (forall x, f x = true <-> P x) -> selection P l (filter f l).
Proof.
  intros H. induction l as [|x l IH]; cbn [filter]; [constructor|]. pose proof (H x) as Hx. destruct (f x); constructor; try exact IH.
  - apply Hx. reflexivity.
  - intros X. apply Hx in X. discriminate.
Qed.
Lemma filter_r_selection {A} (f : A -> result bool) (P : A -> Prop) l : (forall x b, f x = Ok b -> (b = true <-> P x)) ->
  forall l', filter_r f l = Ok l' -> selection P l l'.
Proof.
  intros H. induction l as [|x l IH]; intros l' E; cbn [filter_r] in E.
  - apply Ok_inj in E. subst. constructor.
  - inv_ok E. inv_ok E. apply Ok_inj in E. subst l'. pose proof (H x a E0) as Hx. destruct a; constructor; try (apply IH; exact E1).
    + apply Hx. reflexivity.
    + intros X. apply Hx in X. discriminate.
Qed.
Lemma selection_unique {A} (P : A -> Prop) l l1 l2 : selection P l l1 -> selection P l l2 -> l1 = l2.
Proof.
  intros H. revert l2. induction H as [|x l l' Hx _ IH|x l l' Hx _ IH]; intros l2 H2; inversion H2; subst; try contradiction; try reflexivity.
  - f_equal. apply IH. assumption.
  - apply IH. assumption.
Qed.
Lemma selection_In {A} (P : A -> Prop) l l' : selection P l l' -> forall x, In x l' <-> In x l /\ P x.
Proof.
  induction 1 as [|x l l' Hx _ IH|x l l' Hx _ IH]; intros y.
  - split; [intros []|intros [[] _]].
  - split.
    + intros [<-|H]; [split; [left; reflexivity|exact Hx]|]. apply IH in H. destruct H. split; [right|]; assumption.
    + intros [[<-|H] Py]; [left; reflexivity|]. right. apply IH. split; assumption.
  - rewrite IH. split; intros [H Py]; (split; [|exact Py]); [right; exact H|]. destruct H as [<-|H]; [contradiction|exact H].
Qed.
Lemma exists_r_iff {A} (f : A -> result bool) (P : A -> Prop) l : (forall x b, In x l -> f x = Ok b -> (b = true <-> P x)) ->
  forall b, exists_r f l = Ok b -> (b = true <-> exists x, In x l /\ P x).
Proof.
  induction l as [|x l IH]; intros H b E; cbn [exists_r] in E.
  - apply Ok_inj in E. subst b. split; [discriminate|intros [x [[] _]]].
  - inv_ok E. pose proof (H x a (or_introl eq_refl) E0) as Hx. destruct a.
    + apply Ok_inj in E. subst b. split; [|reflexivity]. intros _. exists x. split; [left; reflexivity|]. apply Hx. reflexivity.
    + rewrite (IH (fun y c Hy => H y c (or_intror Hy)) b E). split.
      * intros [y [Hy Py]]. exists y. split; [right; exact Hy|exact Py].
      * intros [y [[<-|Hy] Py]]; [apply Hx in Py; discriminate|]. exists y. split; assumption.
Qed.
Lemma is_public_iff n : is_public n = true <-> public n.
Proof. unfold is_public, public. destruct (n_access n); split; intros H; try reflexivity; discriminate. Qed.
Lemma access_iff a b : access_eqb a b = true <-> a = b.
Proof. destruct a, b; split; intros H; try reflexivity; discriminate. Qed.
Lemma access_niff a b : access_eqb a b = false <-> a <> b.
Proof. rewrite <- (access_iff a b). destruct (access_eqb a b); split; intros H; try discriminate; try reflexivity; try (intros X; discriminate). exfalso; apply H; reflexivity. Qed.
Lemma is_ctor_iff F : is_ctor F = true <-> constructor F.
Proof. unfold is_ctor, constructor. destruct (f_ctor F); split; intros H; try reflexivity; try discriminate. exfalso; apply H; reflexivity. Qed.
Lemma In_methods C m : In m (methods C) <-> In (MMethod m) (r_members C).
Proof.
  unfold methods. rewrite in_flat_map. split.
  - intros [x [Hx H]]. destruct x; try destruct H. subst. exact Hx. destruct H.
  - intros H. exists (MMethod m). split; [exact H|left; reflexivity].
Qed.
Lemma existsb_iff {A} (f : A -> bool) (P : A -> Prop) l : (forall x, f x = true <-> P x) -> (existsb f l = true <-> exists x, In x l /\ P x).
Proof. intros H. rewrite existsb_exists. split; intros [x [A1 A2]]; exists x; (split; [exact A1|]); apply H; exact A2. Qed.

(** ** Holder *)

Lemma base_case (w : world) (f : nat -> result bool) (P : nat -> Prop) (x : base) (c : bool) : (forall r b, f r = Ok b -> (b = true <-> P r)) ->
  match base_record x with Some r' => f r' | None => Ok false end = Ok c -> (c = true <-> exists r', base_record x = Some r' /\ P r').
Proof.
  intros IH Hx. destruct (base_record x) as [r'|].
  - rewrite (IH _ _ Hx). split; [intros D; exists r'; auto|intros [r2 [E D]]; congruence].
  - apply Ok_inj in Hx. subst c. split; [discriminate|intros [r2 [E _]]; discriminate].
Qed.
Lemma shared_iff w : forall fuel r b, inherits_enable_shared fuel w r = Ok b -> (b = true <-> derives_shared w r).
Proof.
  induction fuel as [|fuel IH]; intros r b H; cbn [inherits_enable_shared] in H;
    destruct (streqb (n_qname (r_decl (rec_ w r))) $"std::enable_shared_from_this") eqn:N;
    (apply streqb_eq in N; apply Ok_inj in H; subst b; split; [intros _; apply DS_self; exact N|reflexivity]) || apply streqb_neq in N.
  - destruct (r_complete (rec_ w r)) eqn:Cm.
    + destruct (r_bases (rec_ w r)) eqn:B; [|discriminate]. apply Ok_inj in H. subst b. split; [discriminate|].
      intros D. inversion D as [? X|? b' r' X1 X2]; subst; [contradiction|]. rewrite B in X2. destruct X2.
    + apply Ok_inj in H. subst b. split; [discriminate|]. intros D. inversion D; subst; congruence.
  - destruct (r_complete (rec_ w r)) eqn:Cm.
    + pose proof (exists_r_iff _ (fun b => exists r', base_record b = Some r' /\ derives_shared w r') _
        (fun x c _ Hx => base_case w (inherits_enable_shared fuel w) (derives_shared w) x c IH Hx) b H) as X. rewrite X. clear X.
      split.
      * intros [b' [I [r' [E D]]]]. exact (DS_base w r b' r' Cm I E D).
      * intros D. inversion D as [? X|? b' r' X1 X2 X3 X4]; subst; [contradiction|]. exists b'. split; [exact X2|]. exists r'. split; assumption.
    + apply Ok_inj in H. subst b. split; [discriminate|]. intros D. inversion D; subst; congruence.
Qed.

Lemma holder_spec w r s : holder w r = Ok s ->
  (derives_shared w r \/ r_dtor (rec_ w r) = None \/ r_dtor (rec_ w r) = Some Public -> s = $", " ++ strs (wcfg w) holder_type ++ $"<" ++ class_qualified_name w r ++ $">") /\
  (~ derives_shared w r -> forall a, r_dtor (rec_ w r) = Some a -> a <> Public -> s = $", " ++ class_qualified_name w r ++ $"*").
Proof.
  intros H. unfold holder in H. inv_ok H. pose proof (shared_iff w _ r a H0) as X. destruct a.
  - apply Ok_inj in H. split; [intros _; symmetry; exact H|]. intros N. exfalso. apply N, X. reflexivity.
  - assert (N : ~ derives_shared w r) by (intros D; apply X in D; discriminate).
    destruct (r_dtor (rec_ w r)) as [a|].
    + apply Ok_inj in H. split.
      * intros [D|[D|D]]; [contradiction|discriminate|]. injection D as ->. symmetry. exact H.
      * intros _ a' E Na. injection E as <-. apply access_niff in Na. rewrite Na in H. symmetry. exact H.
    + apply Ok_inj in H. split; [intros _; symmetry; exact H|]. intros _ a' E. discriminate.
Qed.

(** ** Data members *)

Lemma field_skip_iff w f : is_field_skipping_requested (wcfg w) (n_qname (fd_decl f)) = true <-> field_skipped w f.
Proof. apply mem_In. Qed.
Lemma plain_iff t : is_pointer t || is_reference t || is_array t = false <->
  forall p c, canonical t <> TPtr c p /\ canonical t <> TLRef p /\ canonical t <> TRRef p /\ canonical t <> TArray c p.
Proof.
  unfold is_pointer, is_reference, is_lref, is_rref, is_array. split.
  - intros H p c. destruct (canonical t); try discriminate; repeat split; discriminate.
  - intros H. destruct (canonical t) as [c n|c p|p|p|c p|r ps|c r a|c e|c n p|c n]; try reflexivity; exfalso;
      first [destruct (H p c) as [X1 [X2 [X3 X4]]] | destruct (H p false) as [X1 [X2 [X3 X4]]]]; congruence.
Qed.
Lemma exposable_iff w f : is_bindable_field w f = true <-> exposable w f.
Proof.
  unfold is_bindable_field, exposable. rewrite !andb_true_iff, !negb_true_iff, plain_iff.
  assert (B : is_bindable_q w (fd_type f) = true <-> ~ rejected w (fd_type f)).
  { pose proof (bindable_q_iff w (fd_type f)) as X. destruct (is_bindable_q w (fd_type f)).
    - split; [|reflexivity]. intros _ R. apply X in R. discriminate.
    - split; [discriminate|]. intros N. exfalso. apply N, X. reflexivity. }
  rewrite B. split; [intros [[H1 H2] H3]; exact (conj H1 (conj H2 H3))|intros [H1 [H2 H3]]; exact (conj (conj H1 H2) H3)].
Qed.
Lemma lifted_fields_eq C : lifted_fields C = used_fields C.
Proof.
  unfold lifted_fields, used_fields, using_targets. induction (r_members C) as [|m l IH]; [reflexivity|]. cbn [flat_map]. rewrite flat_map_app, IH. f_equal.
  destruct m as [f|f|e|r|[] ts|s|a s]; reflexivity.
Qed.
Lemma exposed_fields_spec w C : exposed w C (exposed_fields w C).
Proof.
  unfold exposed_fields. eexists _, _. split; [reflexivity|]. rewrite lifted_fields_eq. split; apply filter_selection; intros f;
    rewrite !andb_true_iff, negb_true_iff, exposable_iff, ?is_public_iff.
  - rewrite <- (field_skip_iff w f), not_true_iff_false. reflexivity.
  - rewrite <- (field_skip_iff w f), not_true_iff_false. reflexivity.
Qed.
Lemma frozen_iff w f : is_const (fd_type f) || negb (is_field_assignable w f) = true <-> frozen w f.
Proof.
  unfold frozen, is_field_assignable. rewrite orb_true_iff, negb_true_iff. apply or_iff_compat_l.
  destruct (fd_type f) as [c n|c p|p|p|c p|r ps|c r a|c e|c n p|c n];
    try (split; [discriminate|]; intros [c' [r' [a' [m' [E _]]]]]; discriminate).
  rewrite forallb_false. split.
  - intros [m [I E]]. exists c, r, a, m. split; [reflexivity|]. split; [apply In_methods; exact I|].
    apply negb_false_iff, andb_true_iff in E. destruct E as [E1 E2]. split; [exact E1|].
    apply orb_true_iff in E2. destruct E2 as [E2|E2]; [left|right; exact E2]. intros P. apply is_public_iff in P. rewrite P in E2. discriminate.
  - intros [c' [r' [a' [m [E [I [E1 E2]]]]]]]. injection E as <- <- <-. exists m. split; [apply In_methods; exact I|].
    rewrite E1. destruct E2 as [E2|E2].
    + assert (X : is_public (f_decl (fun_ w m)) = false) by (destruct (is_public (f_decl (fun_ w m))) eqn:Y; [apply is_public_iff in Y; contradiction|reflexivity]). rewrite X. reflexivity.
    + rewrite E2, orb_true_r. reflexivity.
Qed.
Lemma cut_suffix (r a : str) : firstn (length (r ++ a) - length a) (r ++ a) = r.
Proof. rewrite app_length. replace (length r + length a - length a) with (length r) by lia. rewrite firstn_app, Nat.sub_diag, firstn_O, app_nil_r. apply firstn_all. Qed.
Lemma owner_spec class : owner_name class (strip_anonymous class).
Proof.
  unfold strip_anonymous. cbn [fold_left]. destruct (ends_with class $"::(anonymous)") eqn:E1.
  - apply ends_iff in E1. destruct E1 as [s ->]. rewrite cut_suffix. destruct (ends_with s $"::(anonymous union)") eqn:E2.
    + apply ends_iff in E2. destruct E2 as [s' ->]. rewrite cut_suffix, <- app_assoc. apply ON_both.
    + apply ON_anonymous. intros r ->. assert (X : ends_with (r ++ $"::(anonymous union)") $"::(anonymous union)" = true) by (apply ends_iff; eexists; reflexivity). congruence.
  - assert (N1 : forall r, class <> r ++ $"::(anonymous)").
    { intros r ->. assert (X : ends_with (r ++ $"::(anonymous)") $"::(anonymous)" = true) by (apply ends_iff; eexists; reflexivity). congruence. }
    destruct (ends_with class $"::(anonymous union)") eqn:E2.
    + apply ends_iff in E2. destruct E2 as [s ->]. rewrite cut_suffix. apply ON_union.
    + apply ON_other; [exact N1|]. intros r ->. assert (X : ends_with (r ++ $"::(anonymous union)") $"::(anonymous union)" = true) by (apply ends_iff; eexists; reflexivity). congruence.
Qed.
Lemma field_spec w f class : field_line w class f (tab :: $"cl" ++ bind_data_member w f class ++ $";" ++ [nl]).
Proof.
  pose proof (frozen_iff w f) as X. unfold bind_data_member. set (b := is_const (fd_type f) || negb (is_field_assignable w f)) in *.
  assert (H1 : frozen w f -> (if b then $"readonly" else $"readwrite") = $"readonly") by (intros Y; apply X in Y; rewrite Y; reflexivity).
  assert (H2 : ~ frozen w f -> (if b then $"readonly" else $"readwrite") = $"readwrite").
  { intros Y. destruct b; [|reflexivity]. exfalso. apply Y, X. reflexivity. }
  pose proof (FL w class f _ _ (owner_spec class) H1 H2) as R. unfold quoted in R. rewrite <- !app_assoc in R. destruct b; rewrite <- !app_assoc; exact R.
Qed.
Lemma data_members_spec w r : exists fs lines, exposed w (rec_ w r) fs /\ Forall2 (field_line w (class_qualified_name w r)) fs lines /\
  binding_public_data_members w r = concat lines.
Proof.
  exists (exposed_fields w (rec_ w r)). eexists. split; [apply exposed_fields_spec|]. split; [|reflexivity].
  induction (exposed_fields w (rec_ w r)) as [|f l IH]; [constructor|]. cbn [map]. constructor; [apply field_spec|exact IH].
Qed.

(** ** Member functions *)

Lemma qualified_gen (pre x args suf : str) : pre = [] -> fixed x -> fixed args -> suf = [] \/ suf = $" const" ->
  fix_boolean_types (pre ++ x ++ $"(" ++ args ++ $")" ++ suf) = (x ++ $"(" ++ args ++ $")") ++ suf.
Proof.
  intros -> X A S. assert (F : fixed (x ++ $"(" ++ args ++ $")")).
  { apply fixed_sep; [apply separator_open|exact X|]. apply fixed_sep; [apply separator_close|exact A|apply fixed_nil]. }
  apply eq_trans with (fix_boolean_types ((x ++ $"(" ++ args ++ $")") ++ suf)); [rewrite <- !app_assoc; reflexivity|].
  apply fixed_eq. destruct S as [->| ->]; [rewrite app_nil_r; exact F|].
  apply (fixed_sep _ " "%char $"const"); [apply separator_sp|exact F|]. apply fixed_plain. intros Y. repeat (destruct Y as [Y|Y]; [discriminate|]). destruct Y.
Qed.
Lemma const_suffix_cases F : const_suffix F = [] \/ const_suffix F = $" const".
Proof. unfold const_suffix. destruct (f_method F && f_const F); [right|left]; reflexivity. Qed.
Lemma qualified_text w F : function_qualified_name w F true =
  (standard_name w (n_qname (f_decl F) ++ fun_specialization w F) ++ $"(" ++ function_arguments w F ++ $")") ++ const_suffix F.
Proof. unfold function_qualified_name. apply qualified_gen; [reflexivity|apply standard_fixed|apply arguments_fixed|apply const_suffix_cases]. Qed.
Lemma signature_spec w F : signature_text w F (standard_name w (n_qname (f_decl F) ++ fun_specialization w F) ++ $"(" ++ function_arguments w F ++ $")").
Proof. exists (function_arguments w F). split; [apply arguments_types|reflexivity]. Qed.
Lemma type_text_unique w t s1 s2 : type_text w t s1 -> type_text w t s2 -> s1 = s2.
Proof. intros [E1|E1] [E2|E2]; try reflexivity; contradiction. Qed.
Lemma texts_unique w ts l1 : Forall2 (type_text w) ts l1 -> forall l2, Forall2 (type_text w) ts l2 -> l1 = l2.
Proof.
  induction 1 as [|t x ts l1 H _ IH]; intros l2 H2; inversion H2; subst; [reflexivity|]. f_equal; [eapply type_text_unique; eassumption|apply IH; assumption].
Qed.
Lemma parameter_types_unique w F s1 s2 : parameter_types w F s1 -> parameter_types w F s2 -> s1 = s2.
Proof.
  intros [t1 [A1 B1]] [t2 [A2 B2]]. rewrite (texts_unique _ _ _ A1 _ A2) in B1. rewrite (separated_unique _ _ _ B1), (separated_unique _ _ _ B2). reflexivity.
Qed.
Lemma signature_unique w F s1 s2 : signature_text w F s1 -> signature_text w F s2 -> s1 = s2.
Proof. intros [a1 [A1 ->]] [a2 [A2 ->]]. rewrite (parameter_types_unique _ _ _ _ A1 A2). reflexivity. Qed.
(** Only methods are const. *)
Definition const_is_method (w : world) : Prop := forall f, f_const (fun_ w f) = true -> f_method (fun_ w f) = true.
Lemma length_pos (x y z : str) c : length z < length ((x ++ (c :: y)) ++ z).
Proof. rewrite !app_length. cbn [length]. lia. Qed.
Lemma const_overload_iff w F : (f_const F = true -> f_method F = true) -> is_const_overload w F = true <-> const_overload w F.
Proof.
  intros Wf. unfold is_const_overload, const_overload. rewrite andb_true_iff. split.
  - intros [H0 H]. split; [exact H0|]. apply andb_true_iff in H. destruct H as [_ H]. rewrite (qualified_text w F) in H.
    assert (CS : const_suffix F = $" const") by (unfold const_suffix; rewrite (Wf H0), H0; reflexivity). rewrite CS, cut_suffix in H.
    apply existsb_exists in H. destruct H as [m [I H]]. apply andb_true_iff in H. destruct H as [H E]. apply andb_true_iff in H. destruct H as [A N].
    apply access_iff in A. apply negb_true_iff in N. apply streqb_eq in E. rewrite (qualified_text w (fun_ w m)) in E. unfold const_suffix in E. rewrite N, andb_false_r, app_nil_r in E.
    exists m. eexists. split; [apply In_methods; exact I|]. split; [exact A|]. split; [exact N|]. split; [apply signature_spec|]. rewrite <- E. apply signature_spec.
  - intros [H0 [m [s [I [A [N [S1 S2]]]]]]]. split; [exact H0|]. rewrite (qualified_text w F).
    assert (CS : const_suffix F = $" const") by (unfold const_suffix; rewrite (Wf H0), H0; reflexivity). rewrite CS.
    apply andb_true_iff. split; [apply Nat.ltb_lt; apply length_pos|]. rewrite cut_suffix. apply existsb_exists. exists m. split; [apply In_methods; exact I|].
    rewrite (proj2 (access_iff _ _) A), N. cbn [negb andb]. apply streqb_eq. rewrite (qualified_text w (fun_ w m)). unfold const_suffix. rewrite N, andb_false_r, app_nil_r.
    rewrite (signature_unique _ _ _ _ (signature_spec w (fun_ w m)) S2), (signature_unique _ _ _ _ (signature_spec w F) S1). reflexivity.
Qed.
Lemma and_r_iff (a : bool) (P Q : Prop) (x : result bool) b : (a = true <-> P) -> (forall v, x = Ok v -> (v = true <-> Q)) -> and_r a x = Ok b -> (b = true <-> P /\ Q).
Proof.
  intros Ha Hx H. unfold and_r in H. destruct a.
  - rewrite (Hx _ H). split; [intros q; split; [apply Ha; reflexivity|exact q]|intros [_ q]; exact q].
  - apply Ok_inj in H. subst b. split; [discriminate|]. intros [p _]. apply Ha in p. discriminate.
Qed.
Lemma bindable_iff w F : is_bindable_fun w F = true <-> ~ unbindable w F.
Proof.
  pose proof (bindable_fun_iff w F) as X. destruct (is_bindable_fun w F).
  - split; [|reflexivity]. intros _ R. apply X in R. discriminate.
  - split; [discriminate|]. intros N. exfalso. apply N, X. reflexivity.
Qed.
Lemma skip_neg w F v : (do skip <- is_skipping_requested_fun w F; Ok (negb skip)) = Ok v -> (v = true <-> ~ function_skipped w F).
Proof.
  intros H. inv_ok H. apply Ok_inj in H. subst v. pose proof (skip_fun_iff w F a H0) as X. rewrite <- X. destruct a; split; intros Y; try discriminate; try reflexivity.
  exfalso. apply Y. reflexivity.
Qed.
Lemma false_iff (b : bool) (P : Prop) : (b = true <-> P) -> (negb b = true <-> ~ P).
Proof. intros X. destruct b; split; intros H; try discriminate; try reflexivity. - exfalso. apply H, X. reflexivity. - intros p. apply X in p. discriminate. Qed.
Lemma offered_iff w F b : (f_const F = true -> f_method F = true) -> plain_method_ok w F = Ok b -> (b = true <-> offered w F).
Proof.
  intros Wf H. unfold plain_method_ok in H. unfold offered.
  refine (and_r_iff _ _ _ _ b (bindable_iff w F) _ H). intros v E. inv_ok E. apply Ok_inj in E. subst v. pose proof (skip_fun_iff w F a E0) as X.
  rewrite !andb_true_iff, (false_iff _ _ X), (false_iff _ _ (is_ctor_iff F)), (false_iff _ _ (const_overload_iff w F Wf)), negb_true_iff.
  split; [intros [[[A B] C] D]; exact (conj A (conj B (conj C D)))|intros [A [B [C D]]]; exact (conj (conj (conj A B) C) D)].
Qed.
Lemma chosen_iff w c b : const_is_method w -> candidate_ok w c = Ok b -> (b = true <-> chosen w c).
Proof.
  intros Wf H. unfold chosen. destruct c as [f [p|]]; cbn [candidate_ok fst snd] in *.
  - rewrite (offered_iff w _ b (Wf f) H). split; [intros O; split; [exact O|discriminate]|intros [O _]; exact O].
  - unfold public_method_ok in H. rewrite (and_r_iff _ _ _ _ b (is_public_iff (f_decl (fun_ w f))) (fun v E => offered_iff w _ v (Wf f) E) H).
    split; [intros [P O]; split; [exact O|intros _; exact P]|intros [O P]; split; [apply P; reflexivity|exact O]].
Qed.
Lemma candidates_eq w r : flat_map (decl_candidates w r) (r_members (rec_ w r)) ++ map (fun f => (f, None)) (methods (rec_ w r)) = candidates w r.
Proof.
  reflexivity.
Qed.
Lemma exposed_methods_spec w r l : const_is_method w -> exposed_methods w r = Ok l -> selection (chosen w) (candidates w r) l.
Proof.
  intros Wf H. unfold exposed_methods in H. rewrite candidates_eq in H. exact (filter_r_selection _ _ _ (fun x b E => chosen_iff w x b Wf E) l H).
Qed.
(** The text for a list of functions. *)
Definition method_texts (w : world) (l : list (nat * option nat)) (ts : list emitted) : Prop :=
  Forall2 (fun c t => bind_function w (tab :: $"cl") (fun_ w (fst c)) (snd c) (match snd c with Some _ => true | None => false end) = Ok t) l ts.
Lemma emit_methods w l : forall s q, emit_all (map (bind_member w) l) = Ok (s, q) -> exists ts, method_texts w l ts /\ s = concat (map fst ts) /\ q = concat (map snd ts).
Proof.
  induction l as [|c l IH]; intros s q H; cbn [map emit_all] in H.
  - apply Ok_inj in H. injection H as <- <-. exists []. split; [constructor|auto].
  - inv_ok H. destruct a as [s1 q1]. inv_ok H. destruct a as [s2 q2]. apply Ok_inj in H. injection H as <- <-. destruct (IH _ _ H1) as [ts [A [-> ->]]].
    exists ((s1, q1) :: ts). split; [|auto]. constructor; [|exact A]. destruct c as [f lifted]. exact H0.
Qed.
Lemma methods_spec w r s q : const_is_method w -> binding_public_member_functions w r = Ok (s, q) ->
  exists l ts, selection (chosen w) (candidates w r) l /\ method_texts w l ts /\ s = concat (map fst ts) /\ q = concat (map snd ts).
Proof.
  intros Wf H. unfold binding_public_member_functions in H. inv_ok H. destruct (emit_methods _ _ _ _ H) as [ts [A B]].
  exists a, ts. split; [exact (exposed_methods_spec w r a Wf H0)|]. split; assumption.
Qed.

(** ** Template bases *)

(** The members of a base that is bound as part of a specialisation. *)
Definition base_text (w : world) (R : nat) (t : emitted) : Prop :=
  exists s, binding_public_member_functions w R = Ok (s, snd t) /\ fst t = binding_public_data_members w R ++ s.
Lemma template_bases_spec w : forall fuel r s q, binding_template_bases fuel w r = Ok (s, q) ->
  exists l ts, folded_bases w r l /\ Forall2 (base_text w) l ts /\ s = concat (map fst ts) /\ q = concat (map snd ts).
Proof.
  induction fuel as [|fuel IH]; intros r s q H; cbn [binding_template_bases] in H; unfold is_specialization in H;
    (destruct (r_targs (rec_ w r)) as [ta|] eqn:S; [|apply Ok_inj in H; injection H as <- <-; exists [], []; split; [apply FB_plain, S|split; [constructor|auto]]]).
  - destruct (r_bases (rec_ w r)) eqn:B; [|discriminate]. apply Ok_inj in H. injection H as <- <-. exists [], []. split; [|split; [constructor|auto]].
    apply FB_template; [congruence|]. rewrite B. constructor.
  - assert (X : forall bs s q, emit_all (map (fun b => if access_eqb (b_access b) Public && negb (b_virtual b) then
        match base_record b with
        | Some R => do skip <- is_skipping_requested_rec w R; if skip then Ok ([], [])
                    else do (s1, q1) <- binding_public_member_functions w R; do (s2, q2) <- binding_template_bases fuel w R;
                         Ok (binding_public_data_members w R ++ s1 ++ s2, q1 ++ q2)
        | None => Ok ([], [])
        end else Ok ([], [])) bs) = Ok (s, q) ->
      exists l ts, folded_from w bs l /\ Forall2 (base_text w) l ts /\ s = concat (map fst ts) /\ q = concat (map snd ts)).
    { clear H s q. induction bs as [|b bs IHb]; intros s q H; cbn [map emit_all] in H.
      - apply Ok_inj in H. injection H as <- <-. exists [], []. split; [constructor|]. split; [constructor|auto].
      - inv_ok H. destruct a as [s1 q1]. inv_ok H. destruct a as [s2 q2]. apply Ok_inj in H. injection H as <- <-. destruct (IHb _ _ H1) as [l [ts [A [T [-> ->]]]]].
        assert (Other : b_access b <> Public \/ b_virtual b = true \/ base_record b = None \/ (exists R, base_record b = Some R /\ class_skipped w R (targs_of (rec_ w R))) ->
          (s1, q1) = ([], []) -> exists l0 ts0, folded_from w (b :: bs) l0 /\ Forall2 (base_text w) l0 ts0 /\ s1 ++ concat (map fst ts) = concat (map fst ts0) /\ q1 ++ concat (map snd ts) = concat (map snd ts0)).
        { intros O E. injection E as -> ->. exists l, ts. split; [apply FF_other; assumption|]. auto. }
        destruct (access_eqb (b_access b) Public) eqn:P; cbn [andb] in H0; [|apply access_niff in P; apply Ok_inj in H0; apply Other; [left; exact P|symmetry; exact H0]]. apply access_iff in P.
        destruct (b_virtual b) eqn:V; cbn [negb] in H0; [apply Ok_inj in H0; apply Other; [right; left; reflexivity|symmetry; exact H0]|].
        destruct (base_record b) as [R|] eqn:BR; [|apply Ok_inj in H0; apply Other; [right; right; left; reflexivity|symmetry; exact H0]].
        inv_ok H0. pose proof (skip_class_iff w R a H2) as K. destruct a; [apply Ok_inj in H0; apply Other; [right; right; right; exists R; split; [reflexivity|apply K; reflexivity]|symmetry; exact H0]|].
        inv_ok H0. destruct a as [s3 q3]. inv_ok H0. destruct a as [s4 q4]. apply Ok_inj in H0. injection H0 as <- <-. destruct (IH _ _ _ H4) as [l' [ts' [A' [T' [-> ->]]]]].
        exists (R :: l' ++ l), ((binding_public_data_members w R ++ s3, q3) :: ts' ++ ts). split; [|split; [|split]].
        + apply (FF_base w b bs R l' l P V BR); [|exact A'|exact A]. intros X. apply K in X. discriminate.
        + constructor; [exists s3; auto|apply Forall2_app; assumption].
        + cbn [map concat fst]. rewrite map_app, concat_app, <- !app_assoc. reflexivity.
        + cbn [map concat snd]. rewrite map_app, concat_app, <- !app_assoc. reflexivity. }
    destruct (X _ _ _ H) as [l [ts [A B]]]. exists l, ts. split; [apply FB_template; [congruence|exact A]|exact B].
Qed.

(** ** Call-back structures *)

Lemma declared_spec_py w M : declared_parameters w M (fst (function_arguments_for_py_overload w M)).
Proof.
  unfold function_arguments_for_py_overload. cbn [fst]. set (params := mapi (fun i p => standard_name_q w (p_type p) ++ $" " ++ arg_name i) (f_params M)).
  assert (X : fixed (join $", " params)).
  { apply fixed_join. intros x Hx. apply mapi_In in Hx. destruct Hx as [j [p [_ ->]]]. apply fixed_sep; [apply separator_sp|apply standard_q_fixed|apply fixed_plain, arg_plain]. }
  rewrite (fixed_eq _ X). exists (map (fun p => standard_name_q w (p_type p)) (f_params M)), params. split; [|split; [|split]].
  - clear. induction (f_params M) as [|p l IH]; constructor; [apply standard_type|exact IH].
  - unfold params, mapi. rewrite mapi_from_length, map_length. reflexivity.
  - intros i t p Ht Hp. apply mapi_from_nth in Hp. destruct Hp as [x [Hx ->]]. rewrite nth_error_map, Hx in Ht. cbn [option_map] in Ht. injection Ht as <-. reflexivity.
  - apply join_separated.
Qed.
Lemma key_spec w M : virtual_signature w M (callback_key w M).
Proof. exists (fst (function_arguments_for_py_overload w M)). split; [apply declared_spec_py|]. unfold callback_key. destruct (f_const M); reflexivity. Qed.
Lemma nth_equal {A} (l1 : list A) : forall l2, length l1 = length l2 -> (forall i x y, nth_error l1 i = Some x -> nth_error l2 i = Some y -> x = y) -> l1 = l2.
Proof.
  induction l1 as [|x l1 IH]; intros l2 L H; destruct l2 as [|y l2]; try discriminate; [reflexivity|]. f_equal; [exact (H 0 x y eq_refl eq_refl)|].
  apply IH; [injection L as L; exact L|]. intros i a b. exact (H (S i) a b).
Qed.
Lemma virtual_signature_unique w M s1 s2 : virtual_signature w M s1 -> virtual_signature w M s2 -> s1 = s2.
Proof.
  intros [a1 [[t1 [p1 [A1 [L1 [N1 S1]]]]] ->]] [a2 [[t2 [p2 [A2 [L2 [N2 S2]]]]] ->]]. rewrite (texts_unique _ _ _ A1 _ A2) in *.
  assert (P : p1 = p2).
  { apply nth_equal; [congruence|]. intros i x y X Y. destruct (nth_error t2 i) as [t|] eqn:T.
    - rewrite (N1 i t x T X), (N2 i t y T Y). reflexivity.
    - apply nth_error_None in T. assert (i < length p1) by (apply nth_error_Some; congruence). lia. }
  subst p2. rewrite (separated_unique _ _ _ S1), (separated_unique _ _ _ S2). reflexivity.
Qed.
Lemma virtual_signature_iff w M s : virtual_signature w M s <-> s = callback_key w M.
Proof. split; [intros H; exact (virtual_signature_unique w M _ _ H (key_spec w M))|intros ->; apply key_spec]. Qed.
Lemma overridable_iff w M b : (f_const M = true -> f_method M = true) -> callback_candidate w M = Ok b -> (b = true <-> overridable w M).
Proof.
  intros Wf H. unfold callback_candidate in H. unfold overridable.
  assert (A : negb (access_eqb (n_access (f_decl M)) Private) && is_bindable_fun w M = true <-> n_access (f_decl M) <> Private /\ ~ unbindable w M).
  { rewrite andb_true_iff, bindable_iff, negb_true_iff, access_niff. reflexivity. }
  assert (B : forall v, (do skip <- is_skipping_requested_fun w M; Ok (negb skip && negb (is_ctor M) && negb (f_dtor M) && f_virtual M && negb (is_const_overload w M))) = Ok v ->
    (v = true <-> ~ function_skipped w M /\ ~ constructor M /\ f_dtor M = false /\ f_virtual M = true /\ ~ const_overload w M)).
  2: { rewrite (and_r_iff _ _ _ _ b A B H). tauto. }
  intros v E. inv_ok E. apply Ok_inj in E. subst v. pose proof (skip_fun_iff w M a E0) as X.
  rewrite !andb_true_iff, (false_iff _ _ X), (false_iff _ _ (is_ctor_iff M)), (false_iff _ _ (const_overload_iff w M Wf)), negb_true_iff. tauto.
Qed.
Inductive picks (w : world) : list str -> list (nat * nat) -> list (nat * nat) -> list str -> Prop :=
| PK_none keys : picks w keys [] [] keys
| PK_new keys c m l out keys' : overridable w (fun_ w m) -> ~ In (callback_key w (fun_ w m)) keys -> f_final (fun_ w m) = false ->
    picks w (callback_key w (fun_ w m) :: keys) l out keys' -> picks w keys ((c, m) :: l) ((c, m) :: out) keys'
| PK_final keys c m l out keys' : overridable w (fun_ w m) -> ~ In (callback_key w (fun_ w m)) keys -> f_final (fun_ w m) = true ->
    picks w (callback_key w (fun_ w m) :: keys) l out keys' -> picks w keys ((c, m) :: l) out keys'
| PK_skip keys c m l out keys' : ~ overridable w (fun_ w m) \/ In (callback_key w (fun_ w m)) keys -> picks w keys l out keys' -> picks w keys ((c, m) :: l) out keys'.
Lemma picks_app w k1 l1 o1 k2 : picks w k1 l1 o1 k2 -> forall l2 o2 k3, picks w k2 l2 o2 k3 -> picks w k1 (l1 ++ l2) (o1 ++ o2) k3.
Proof.
  induction 1; intros l2 o2 k3 Hx; cbn [app]; [exact Hx|apply PK_new|apply PK_final|apply PK_skip]; auto.
Qed.
Definition place (o : overrider) : nat * nat := (o_class o, o_method o).
Lemma callback_methods_picks w : const_is_method w -> forall r cn l st os st', callback_methods w r cn l st = Ok (os, st') ->
  picks w (cb_keys st) (map (fun m => (r, m)) l) (map place os) (cb_keys st') /\ Forall (fun o => o_key o = callback_key w (fun_ w (o_method o))) os.
Proof.
  intros Wf r cn l. induction l as [|m l IH]; intros st os st' H; cbn [callback_methods map] in *.
  - apply Ok_inj in H. injection H as <- <-. split; constructor.
  - inv_ok H. pose proof (overridable_iff w (fun_ w m) a (Wf m) H0) as O. destruct (a && negb (mem (callback_key w (fun_ w m)) (cb_keys st))) eqn:E.
    + apply andb_true_iff in E. destruct E as [E1 E2]. apply negb_true_iff in E2. apply O in E1. assert (K : ~ In (callback_key w (fun_ w m)) (cb_keys st)) by (intros X; apply mem_In in X; congruence).
      destruct (f_final (fun_ w m)) eqn:Fi.
      * destruct (IH _ _ _ H) as [P Q]. cbn [cb_keys] in P. split; [exact (PK_final w _ r m _ _ _ E1 K Fi P)|exact Q].
      * destruct (overrider_text w r m cn _) as [text ret]. inv_ok H. destruct a0 as [os2 st2]. apply Ok_inj in H. injection H as <- <-. destruct (IH _ _ _ H1) as [P Q]. cbn [cb_keys] in P.
        split; [exact (PK_new w _ r m _ _ _ E1 K Fi P)|constructor; [reflexivity|exact Q]].
    + destruct (IH _ _ _ H) as [P Q]. split; [|exact Q]. apply PK_skip; [|exact P]. apply andb_false_iff in E. destruct E as [E|E].
      * left. intros X. apply O in X. congruence.
      * right. apply negb_false_iff in E. apply mem_In. exact E.
Qed.
Lemma versions_app w a b : versions w (a ++ b) = versions w a ++ versions w b.
Proof. apply flat_map_app. Qed.
Lemma callback_overriders_picks w : const_is_method w -> forall fuel r cn st os st', callback_overriders fuel w r cn st = Ok (os, st') ->
  exists L, hierarchy w r L /\ picks w (cb_keys st) (versions w L) (map place os) (cb_keys st') /\ Forall (fun o => o_key o = callback_key w (fun_ w (o_method o))) os.
Proof.
  intros Wf. induction fuel as [|fuel IH]; intros r cn st os st' H; cbn [callback_overriders] in H; inv_ok H; destruct a as [own st1];
    destruct (callback_methods_picks w Wf _ _ _ _ _ _ H0) as [P Q].
  - destruct (r_bases (rec_ w r)) eqn:B; [|discriminate]. apply Ok_inj in H. injection H as <- <-. exists [r]. split; [apply HI; rewrite B; constructor|].
    split; [|exact Q]. unfold versions. cbn [flat_map]. rewrite app_nil_r. exact P.
  - inv_ok H. destruct a as [rest st2]. apply Ok_inj in H. injection H as <- <-.
    assert (X : forall bs st1 rest st2, (fix over (l : list base) (st : cb_state) : result (list overrider * cb_state) :=
           match l with
           | [] => Ok ([], st)
           | b :: l' =>
               do (os, st') <- (if access_eqb (b_access b) Private then Ok ([], st)
                                else match base_record b with
                                     | Some R => callback_overriders fuel w R cn st
                                     | None => Ok ([], st)
                                     end);
               do (os', st'') <- over l' st';
               Ok (os ++ os', st'')
           end) bs st1 = Ok (rest, st2) ->
       exists L, hierarchies w bs L /\ picks w (cb_keys st1) (versions w L) (map place rest) (cb_keys st2) /\ Forall (fun o => o_key o = callback_key w (fun_ w (o_method o))) rest).
    { clear -IH. induction bs as [|b bs IHb]; intros st1 rest st2 H.
      - apply Ok_inj in H. injection H as <- <-. exists []. split; [constructor|]. split; constructor.
      - inv_ok H. destruct a as [os1 st3]. inv_ok H. destruct a as [os2 st4]. apply Ok_inj in H. injection H as <- <-. destruct (IHb _ _ _ H1) as [L2 [A2 [P2 Q2]]].
        assert (Other : b_access b = Private \/ base_record b = None -> (os1, st3) = ([], st1) ->
          exists L, hierarchies w (b :: bs) L /\ picks w (cb_keys st1) (versions w L) (map place (os1 ++ os2)) (cb_keys st4) /\ Forall (fun o => o_key o = callback_key w (fun_ w (o_method o))) (os1 ++ os2)).
        { intros O E. injection E as -> ->. exists L2. split; [apply HS_other; assumption|]. split; assumption. }
        destruct (access_eqb (b_access b) Private) eqn:A; [apply access_iff in A; apply Ok_inj in H0; apply Other; [left; exact A|symmetry; exact H0]|]. apply access_niff in A.
        destruct (base_record b) as [R|] eqn:BR; [|apply Ok_inj in H0; apply Other; [right; reflexivity|symmetry; exact H0]].
        destruct (IH _ _ _ _ _ H0) as [L1 [A1 [P1 Q1]]]. exists (L1 ++ L2). split; [exact (HS_base w b bs R L1 L2 A BR A1 A2)|].
        split; [|apply Forall_app; split; assumption]. rewrite versions_app, map_app. exact (picks_app w _ _ _ _ P1 _ _ _ P2). }
    destruct (X _ _ _ _ H1) as [L [A [P2 Q2]]]. exists (r :: L). split; [apply HI, A|]. split; [|apply Forall_app; split; assumption].
    change (versions w (r :: L)) with (map (fun m => (r, m)) (methods (rec_ w r)) ++ versions w L). rewrite map_app. exact (picks_app w _ _ _ _ P _ _ _ P2).
Qed.
(** What is picked. *)
Lemma picks_keys w keys l out keys' : picks w keys l out keys' -> forall k, In k keys' <-> In k keys \/ exists c m, In (c, m) l /\ overridable w (fun_ w m) /\ callback_key w (fun_ w m) = k.
Proof.
  induction 1 as [keys|keys c m l out keys' O N Fi _ IH|keys c m l out keys' O N Fi _ IH|keys c m l out keys' S _ IH]; intros k.
  - split; [left; assumption|]. intros [H|[c [m [[] _]]]]. exact H.
  - rewrite IH. cbn [In]. split.
    + intros [[<-|H]|[c' [m' [I [A B]]]]]; [right; exists c, m; auto|left; exact H|right; exists c', m'; auto].
    + intros [H|[c' [m' [[E|I] [A B]]]]]; [left; right; exact H| |right; exists c', m'; auto]. injection E as <- <-. left; left; exact B.
  - rewrite IH. cbn [In]. split.
    + intros [[<-|H]|[c' [m' [I [A B]]]]]; [right; exists c, m; auto|left; exact H|right; exists c', m'; auto].
    + intros [H|[c' [m' [[E|I] [A B]]]]]; [left; right; exact H| |right; exists c', m'; auto]. injection E as <- <-. left; left; exact B.
  - rewrite IH. cbn [In]. split.
    + intros [H|[c' [m' [I [A B]]]]]; [left; exact H|right; exists c', m'; auto].
    + intros [H|[c' [m' [[E|I] [A B]]]]]; [left; exact H| |right; exists c', m'; auto]. injection E as <- <-. destruct S as [S|S]; [contradiction|]. left. rewrite <- B. exact S.
Qed.
Lemma picks_iff w keys l out keys' : picks w keys l out keys' -> forall c m, In (c, m) out <->
  exists before after, l = before ++ (c, m) :: after /\ overridable w (fun_ w m) /\ f_final (fun_ w m) = false /\ ~ In (callback_key w (fun_ w m)) keys /\
    forall c' m', In (c', m') before -> overridable w (fun_ w m') -> callback_key w (fun_ w m') <> callback_key w (fun_ w m).
Proof.
  induction 1 as [keys|keys c0 m0 l out keys' O N Fi _ IH|keys c0 m0 l out keys' O N Fi _ IH|keys c0 m0 l out keys' S _ IH]; intros c m.
  - split; [intros []|]. intros [[|? ?] [? [E _]]]; discriminate.
  - cbn [In]. split.
    + intros [E|H].
      * injection E as <- <-. exists [], l. split; [reflexivity|]. split; [exact O|]. split; [exact Fi|]. split; [exact N|]. intros ? ? [].
      * apply IH in H. destruct H as [b [a [-> [A1 [A2 [A3 A4]]]]]]. exists ((c0, m0) :: b), a. split; [reflexivity|]. split; [exact A1|]. split; [exact A2|].
        cbn [In] in A3. split; [intros X; apply A3; right; exact X|]. intros c' m' [E|I] Ov; [injection E as <- <-; intros X; apply A3; left; exact X|exact (A4 c' m' I Ov)].
    + intros [[|x b] [a [E [A1 [A2 [A3 A4]]]]]]; cbn [app] in E; [injection E as E1 E2 _; subst; left; reflexivity|]. injection E as <- E. right. apply IH. exists b, a.
      split; [exact E|]. split; [exact A1|]. split; [exact A2|]. split; [|intros c' m' I; apply (A4 c' m'); right; exact I].
      intros [X|X]; [|exact (A3 X)]. exact (A4 c0 m0 (or_introl eq_refl) O X).
  - split.
    + intros H. apply IH in H. destruct H as [b [a [-> [A1 [A2 [A3 A4]]]]]]. exists ((c0, m0) :: b), a. split; [reflexivity|]. split; [exact A1|]. split; [exact A2|].
      cbn [In] in A3. split; [intros X; apply A3; right; exact X|]. intros c' m' [E|I] Ov; [injection E as <- <-; intros X; apply A3; left; exact X|exact (A4 c' m' I Ov)].
    + intros [[|x b] [a [E [A1 [A2 [A3 A4]]]]]]; cbn [app] in E; [injection E as E1 E2 _; subst; congruence|]. injection E as <- E. apply IH. exists b, a.
      split; [exact E|]. split; [exact A1|]. split; [exact A2|]. split; [|intros c' m' I; apply (A4 c' m'); right; exact I].
      intros [X|X]; [|exact (A3 X)]. exact (A4 c0 m0 (or_introl eq_refl) O X).
  - split.
    + intros H. apply IH in H. destruct H as [b [a [-> [A1 [A2 [A3 A4]]]]]]. exists ((c0, m0) :: b), a. split; [reflexivity|]. split; [exact A1|]. split; [exact A2|].
      split; [exact A3|]. intros c' m' [E|I] Ov; [|exact (A4 c' m' I Ov)]. injection E as <- <-. destruct S as [S|S]; [contradiction|]. intros X. apply A3. rewrite <- X. exact S.
    + intros [[|x b] [a [E [A1 [A2 [A3 A4]]]]]]; cbn [app] in E; [injection E as E1 E2 _; subst; destruct S as [S|S]; contradiction|]. injection E as <- E. apply IH. exists b, a.
      split; [exact E|]. split; [exact A1|]. split; [exact A2|]. split; [exact A3|]. intros c' m' I. apply (A4 c' m'). right. exact I.
Qed.
Lemma picks_nodup w keys l out keys' : picks w keys l out keys' ->
  NoDup (map (fun p => callback_key w (fun_ w (snd p))) out) /\ forall p, In p out -> ~ In (callback_key w (fun_ w (snd p))) keys.
Proof.
  induction 1 as [keys|keys c0 m0 l out keys' O N Fi _ IH|keys c0 m0 l out keys' O N Fi _ IH|keys c0 m0 l out keys' S _ IH].
  - split; [constructor|intros ? []].
  - destruct IH as [IH1 IH2]. cbn [map snd]. split.
    + constructor; [|exact IH1]. intros X. apply in_map_iff in X. destruct X as [p [E I]]. apply (IH2 p I). left. symmetry. exact E.
    + intros p [<-|I]; [exact N|]. intros X. apply (IH2 p I). right. exact X.
  - destruct IH as [IH1 IH2]. split; [exact IH1|]. intros p I X. apply (IH2 p I). right. exact X.
  - exact IH.
Qed.

Lemma pure_const_iff w r : const_is_method w ->
  r_abstract (rec_ w r) && existsb (fun m => f_pure (fun_ w m) && is_const_overload w (fun_ w m)) (methods (rec_ w r)) = true <->
  r_abstract (rec_ w r) = true /\ exists p, In (MMethod p) (r_members (rec_ w r)) /\ f_pure (fun_ w p) = true /\ const_overload w (fun_ w p).
Proof.
  intros Wf. rewrite andb_true_iff, existsb_exists. split.
  - intros [A [m [I H]]]. split; [exact A|]. apply andb_true_iff in H. destruct H as [P H]. exists m. split; [apply In_methods; exact I|]. split; [exact P|]. apply (const_overload_iff w _ (Wf m)); exact H.
  - intros [A [m [I [P H]]]]. split; [exact A|]. exists m. split; [apply In_methods; exact I|]. rewrite P. apply (const_overload_iff w _ (Wf m)); exact H.
Qed.
Lemma own_virtual_iff w r :
  existsb (fun m => negb (access_eqb (n_access (f_decl (fun_ w m))) Private) && is_bindable_fun w (fun_ w m) && f_virtual (fun_ w m) && negb (f_dtor (fun_ w m))) (methods (rec_ w r)) = true <->
  exists m, In (MMethod m) (r_members (rec_ w r)) /\ n_access (f_decl (fun_ w m)) <> Private /\ ~ unbindable w (fun_ w m) /\ f_virtual (fun_ w m) = true /\ f_dtor (fun_ w m) = false.
Proof.
  rewrite existsb_exists. split.
  - intros [m [I H]]. exists m. rewrite !andb_true_iff, bindable_iff, !negb_true_iff, access_niff in H. rewrite <- In_methods. tauto.
  - intros [m [I H]]. exists m. rewrite !andb_true_iff, bindable_iff, !negb_true_iff, access_niff. rewrite <- In_methods in I. tauto.
Qed.
Lemma needs_inv w r : needs_callback w r ->
  ~ (r_abstract (rec_ w r) = true /\ exists p, In (MMethod p) (r_members (rec_ w r)) /\ f_pure (fun_ w p) = true /\ const_overload w (fun_ w p)) /\
  r_final (rec_ w r) = false /\
  ((exists m, In (MMethod m) (r_members (rec_ w r)) /\ n_access (f_decl (fun_ w m)) <> Private /\ ~ unbindable w (fun_ w m) /\ f_virtual (fun_ w m) = true /\ f_dtor (fun_ w m) = false) \/
   exists b, In b (r_bases (rec_ w r)) /\ (b_access b <> Private /\ exists R, base_record b = Some R /\ needs_callback w R)).
Proof.
  intros H. destruct H as [m A B C D E F G|b R A B C D E F]; (split; [exact A|split; [exact B|]]).
  - left. exists m. auto.
  - right. exists b. split; [exact C|split; [exact D|]]. exists R. auto.
Qed.
Lemma private_case {A} (a : access) (x y : result A) : (if access_eqb a Private then x else y) = x /\ a = Private \/ (if access_eqb a Private then x else y) = y /\ a <> Private.
Proof. destruct (access_eqb a Private) eqn:E; [left|right]; (split; [reflexivity|]); [apply access_iff|apply access_niff]; exact E. Qed.
Lemma needs_iff w : const_is_method w -> forall fuel r b, is_callback_structure_needed fuel w r = Ok b -> (b = true <-> needs_callback w r).
Proof.
  intros Wf. induction fuel as [|fuel IH]; intros r b H; cbn [is_callback_structure_needed] in H; cbv zeta in H.
  all: pose proof (pure_const_iff w r Wf) as P; pose proof (own_virtual_iff w r) as V.
  all: destruct (r_abstract (rec_ w r) && existsb _ (methods (rec_ w r))).
  1, 3: apply Ok_inj in H; subst b; split; [discriminate|]; intros N; apply needs_inv in N; destruct N as [N _]; exfalso; apply N, P; reflexivity.
  all: assert (P' : ~ (r_abstract (rec_ w r) = true /\ exists p, In (MMethod p) (r_members (rec_ w r)) /\ f_pure (fun_ w p) = true /\ const_overload w (fun_ w p)))
         by (intros X; apply P in X; discriminate).
  all: destruct (r_final (rec_ w r)) eqn:Fi.
  1, 3: apply Ok_inj in H; subst b; split; [discriminate|]; intros N; apply needs_inv in N; destruct N as [_ [N _]]; congruence.
  all: destruct (existsb _ (methods (rec_ w r))).
  1, 3: apply Ok_inj in H; subst b; split; [intros _|reflexivity]; destruct (proj1 V eq_refl) as [m [A [B [C [D E]]]]]; exact (NC_own w r m P' Fi A B C D E).
  - destruct (r_bases (rec_ w r)) eqn:Eb; [|discriminate]. apply Ok_inj in H; subst b. split; [discriminate|]. intros N; apply needs_inv in N. destruct N as [_ [_ [N|[b [I _]]]]].
    + apply V in N. discriminate.
    + rewrite Eb in I. destruct I.
  - apply (exists_r_iff _ (fun b => b_access b <> Private /\ exists R, base_record b = Some R /\ needs_callback w R)) in H.
    + rewrite H. split.
      * intros [x [I [A [R [B N]]]]]. exact (NC_base w r x R P' Fi I A B N).
      * intros N; apply needs_inv in N. destruct N as [_ [_ [N|N]]]; [apply V in N; discriminate|exact N].
    + intros x c _ E. destruct (private_case (b_access x) (Ok false) (match base_record x with Some R => is_callback_structure_needed fuel w R | None => Ok false end)) as [[X A]|[X A]]; rewrite X in E.
      * apply Ok_inj in E. subst c. split; [discriminate|]. intros [B _]. contradiction.
      * rewrite (base_case w _ (needs_callback w) x c (IH) E). split; [intros Y; split; [exact A|exact Y]|intros [_ Y]; exact Y].
Qed.

Lemma blocking_iff w M b : blocking_method w M = Ok b ->
  (b = true <-> f_pure M = true /\ ~ constructor M /\ (n_access (f_decl M) = Private \/ unbindable w M \/ function_skipped w M)).
Proof.
  intros H. unfold blocking_method in H.
  assert (A : f_pure M && negb (is_ctor M) = true <-> f_pure M = true /\ ~ constructor M).
  { rewrite andb_true_iff, (false_iff _ _ (is_ctor_iff M)). reflexivity. }
  refine (iff_trans (and_r_iff _ _ (n_access (f_decl M) = Private \/ unbindable w M \/ function_skipped w M) _ b A _ H) _); [|tauto].
  intros v E. destruct (access_eqb (n_access (f_decl M)) Private || negb (is_bindable_fun w M)) eqn:X.
  - apply Ok_inj in E. subst v. split; [intros _|reflexivity]. apply orb_true_iff in X. destruct X as [X|X]; [left; apply access_iff, X|right; left; apply (bindable_fun_iff w M); apply negb_true_iff, X].
  - apply orb_false_iff in X. destruct X as [X Y]. apply access_niff in X. apply negb_false_iff in Y. apply bindable_iff in Y. rewrite (skip_fun_iff w M v E). tauto.
Qed.

Lemma blocked_inv w r : blocked w r -> r_abstract (rec_ w r) = true /\
  ((exists m, In m (methods (rec_ w r)) /\ (f_pure (fun_ w m) = true /\ ~ constructor (fun_ w m) /\ (n_access (f_decl (fun_ w m)) = Private \/ unbindable w (fun_ w m) \/ function_skipped w (fun_ w m)))) \/
   exists b, In b (r_bases (rec_ w r)) /\ (exists R, base_record b = Some R /\ (b_access b = Private /\ r_abstract (rec_ w R) = true \/ b_access b <> Private /\ blocked w R))).
Proof.
  intros H. destruct H as [m A B C D E|b R A B C D E|b R A B C D E]; (split; [exact A|]).
  - left. exists m. split; [apply In_methods; exact B|auto].
  - right. exists b. split; [exact B|]. exists R. auto.
  - right. exists b. split; [exact B|]. exists R. auto.
Qed.
Lemma constructible_false w : forall fuel r b, is_callback_structure_constructible fuel w r = Ok b -> (b = false <-> blocked w r).
Proof.
  induction fuel as [|fuel IH]; intros r b H; cbn [is_callback_structure_constructible] in H; cbv zeta in H.
  all: destruct (r_abstract (rec_ w r)) eqn:Ab; [|apply Ok_inj in H; subst b; split; [discriminate|intros N; apply blocked_inv in N; destruct N; congruence]].
  all: inv_ok H.
  all: pose proof (exists_r_iff _ (fun m => f_pure (fun_ w m) = true /\ ~ constructor (fun_ w m) /\ (n_access (f_decl (fun_ w m)) = Private \/ unbindable w (fun_ w m) \/ function_skipped w (fun_ w m))) _ (fun m c _ E => blocking_iff w (fun_ w m) c E) _ H0) as O.
  all: destruct a; [apply Ok_inj in H; subst b; split; [intros _|reflexivity]; destruct (proj1 O eq_refl) as [m [I [A [B C]]]]; apply In_methods in I; exact (BL_own w r m Ab I A B C)|].
  - destruct (r_bases (rec_ w r)) eqn:Eb; [|discriminate]. apply Ok_inj in H; subst b. split; [discriminate|]. intros N. apply blocked_inv in N. destruct N as [_ [N|[b [I _]]]].
    + apply O in N. discriminate.
    + rewrite Eb in I. destruct I.
  - inv_ok H. apply Ok_inj in H. subst b. rewrite negb_false_iff.
    assert (X : a = true <-> exists b, In b (r_bases (rec_ w r)) /\ (exists R, base_record b = Some R /\ (b_access b = Private /\ r_abstract (rec_ w R) = true \/ b_access b <> Private /\ blocked w R))).
    { apply (exists_r_iff _ _ _) with (2 := H1). intros x c _ E. destruct (base_record x) as [R|]; [|apply Ok_inj in E; subst c; split; [discriminate|]; intros [R [Y _]]; discriminate].
      destruct (private_case (b_access x) (Ok (r_abstract (rec_ w R))) (do ok <- is_callback_structure_constructible fuel w R; Ok (negb ok))) as [[X A]|[X A]]; rewrite X in E; clear X.
      - apply Ok_inj in E. subst c. split; [intros Y; exists R; split; [reflexivity|left; auto]|]. intros [R' [Y [Z|Z]]]; [injection Y as <-; apply Z|destruct Z; contradiction].
      - inv_ok E. apply Ok_inj in E. subst c. apply IH in E0. rewrite negb_true_iff, E0. split.
        + intros Y. exists R. split; [reflexivity|]. right. split; [exact A|exact Y].
        + intros [R' [Y [Z|Z]]]; [destruct Z; contradiction|]. injection Y as <-. apply Z. }
    split.
    + intros ->. destruct (proj1 X eq_refl) as [x [I [R [B [[A C]|[A C]]]]]]; [exact (BL_private w r x R Ab I B A C)|exact (BL_base w r x R Ab I B A C)].
    + intros N. apply blocked_inv in N. destruct N as [_ [N|N]]; [apply O in N; discriminate|apply X in N; exact N].
Qed.
Lemma constructible_iff w fuel r b : is_callback_structure_constructible fuel w r = Ok b -> (b = true <-> ~ blocked w r).
Proof.
  intros H. pose proof (constructible_false w fuel r b H) as X. destruct b.
  - split; [|reflexivity]. intros _ N. apply X in N. discriminate.
  - split; [discriminate|]. intros N. exfalso. apply N, X. reflexivity.
Qed.

(** ** Text of an overrider *)

Lemma comma_iff s : contains_char "," s = true <-> In ","%char s.
Proof.
  unfold contains_char. rewrite existsb_exists. split; [intros [x [I E]]; apply Ascii.eqb_eq in E; subst x; exact I|intros I; exists ","%char; split; [exact I|reflexivity]].
Qed.
Lemma cut_class (u : str) : substr ($"class " ++ u) 6 (length ($"class " ++ u)) = u.
Proof. unfold substr. change (skipn 6 ($"class " ++ u)) with u. apply firstn_all2. rewrite app_length. lia. Qed.
Lemma returned_spec w M k : exists ret alias k', returned w M k ret alias k' /\
  (let t := fix_boolean_types (standard_name_q w (f_ret M)) in
   if contains_char "," t then
      let a := $"_binder_ret_" ++ dec k in
      let rt := if begins_with t $"class " then substr t 6 (length t) else t in
      ([tab] ++ $"using " ++ a ++ $" = " ++ rt ++ $";" ++ [nl], a, S k)
    else ([], t, k)) = (alias, ret, k').
Proof.
  cbv zeta. rewrite (fixed_eq _ (standard_q_fixed w (f_ret M))). pose proof (standard_type w (f_ret M)) as T. set (t := standard_name_q w (f_ret M)) in *. clearbody t.
  destruct (contains_char "," t) eqn:C.
  - apply comma_iff in C. destruct (begins_with t $"class ") eqn:B.
    + apply begins_iff in B. destruct B as [u ->]. rewrite cut_class. eexists _, _, _. split; [apply RT_class; [exact T|]|reflexivity].
      apply in_app_or in C. destruct C as [C|C]; [|exact C]. exfalso. repeat (destruct C as [C|C]; [discriminate|]). destruct C.
    + eexists _, _, _. split; [apply RT_alias; [exact T|exact C|]|reflexivity]. intros S. apply begins_iff in S. congruence.
  - eexists _, _, _. split; [apply RT_plain; [exact T|]|reflexivity]. intros I. apply comma_iff in I. congruence.
Qed.

Lemma method_name_spec M : method_name M (python_function_name M).
Proof.
  unfold method_name, python_function_name. destruct (f_operator M); [|right; right; split; reflexivity].
  destruct (cpp_python_operator M) as [|c l] eqn:E.
  - right; left. split; [reflexivity|]. split; [reflexivity|]. intros name H. apply operator_iff in H. destruct H as [H1 H2]. congruence.
  - left. split; [reflexivity|]. rewrite <- E. apply operator_iff. split; [reflexivity|]. rewrite E. discriminate.
Qed.
Lemma exception_spec est : exception_text est (exception_specification est).
Proof.
  split; [|split].
  - intros [<-|[<-|[]]]; reflexivity.
  - intros ->. reflexivity.
  - cbn [In]. intros H. repeat (destruct H as [<-|H]; [reflexivity|]). destruct H.
Qed.
Lemma ask_lines cls name args ret : call_back_body cls name args ret = lines (ask_python cls name args ret).
Proof. unfold call_back_body, lines, ask_python, quoted. cbn [map concat]. rewrite <- !app_assoc. reflexivity. Qed.

Lemma custom_cases (o : option str) : (forall c, o = Some c -> c = []) /\ match o with Some v => v | None => [] end = [] \/
  exists c, o = Some c /\ c <> [] /\ match o with Some v => v | None => [] end = c.
Proof.
  destruct o as [[|a c]|].
  - left. split; [intros c E; injection E as <-; reflexivity|reflexivity].
  - right. exists (a :: c). split; [reflexivity|]. split; [discriminate|reflexivity].
  - left. split; [discriminate|reflexivity].
Qed.
Lemma overrider_spec w r m cls k s k' : overrider_text w r m cls k = (s, k') -> overrider_for w r m cls (callback_structure_name w r) k s k'.
Proof.
  unfold overrider_text. cbv zeta. destruct (returned_spec w (fun_ w m) k) as [ret [alias [k1 [R E]]]]. cbv zeta in E.
  pose proof (override_forwards w (fun_ w m)) as F. pose proof (override_names w (fun_ w m)) as PN. pose proof (declared_spec_py w (fun_ w m)) as DP. destruct (function_arguments_for_py_overload w (fun_ w m)) as [typed names]. cbn [fst snd] in F, PN, DP. rewrite E. clear E.
  intros H. apply pair_equal_spec in H. destruct H as [<- <-].
  pose proof (method_name_spec (fun_ w m)) as N. set (name := python_function_name (fun_ w m)) in *. clearbody name.
  pose proof (exception_spec (f_est (fun_ w m))) as X. set (spec := exception_specification (f_est (fun_ w m))) in *. clearbody spec.
  pose proof (fun body => OV w r m cls (callback_structure_name w r) k ret alias k1 typed names name spec body R N DP F PN X) as Y.
  match goal with |- context [is_custom_trampoline_function_requested _ ?k] =>
    assert (K : k = trampoline_key w r (fun_ w m)) by (unfold trampoline_key; cbv zeta; reflexivity); rewrite K; clear K end. unfold is_custom_trampoline_function_requested.
  destruct (custom_cases (lookup (trampoline_key w r (fun_ w m)) (maps (wcfg w) custom_trampoline_functions))) as [[C1 C2]|[c [C1 [C2 C3]]]].
  - rewrite C2. rewrite ask_lines. apply Y. left. split; [exact C1|reflexivity].
  - rewrite C3. destruct c as [|a c]; [contradiction|]. apply Y. right. exists (a :: c). split; [exact C1|]. split; [exact C2|]. unfold quoted. rewrite <- !app_assoc. reflexivity.
Qed.

Lemma overriders_app w cls k1 l1 s1 k2 : overriders w cls k1 l1 s1 k2 -> forall l2 s2 k3, overriders w cls k2 l2 s2 k3 -> overriders w cls k1 (l1 ++ l2) (s1 ++ s2) k3.
Proof. induction 1; intros l2 s2 k3 Hx; cbn [app]; [exact Hx|]. eapply OS_more; eauto. Qed.
Lemma callback_methods_texts w r cls l : forall st os st', callback_methods w r cls l st = Ok (os, st') ->
  overriders w cls (cb_ret st) (map place os) (map o_text os) (cb_ret st').
Proof.
  induction l as [|m l IH]; intros st os st' H; cbn [callback_methods map] in *.
  - apply Ok_inj in H. injection H as <- <-. constructor.
  - inv_ok H. destruct (a && negb (mem (callback_key w (fun_ w m)) (cb_keys st))); [|exact (IH _ _ _ H)].
    destruct (f_final (fun_ w m)); [exact (IH _ _ _ H)|].
    destruct (overrider_text w r m cls _) as [text ret] eqn:E. inv_ok H. destruct a0 as [os2 st2]. apply Ok_inj in H. injection H as <- <-.
    cbn [map place o_class o_method o_text]. eapply OS_more; [exact (overrider_spec _ _ _ _ _ _ _ E)|exact (IH _ _ _ H1)].
Qed.
Lemma callback_overriders_texts w : forall fuel r cls st os st', callback_overriders fuel w r cls st = Ok (os, st') ->
  overriders w cls (cb_ret st) (map place os) (map o_text os) (cb_ret st').
Proof.
  induction fuel as [|fuel IH]; intros r cls st os st' H; cbn [callback_overriders] in H; inv_ok H; destruct a as [own st1];
    pose proof (callback_methods_texts _ _ _ _ _ _ _ H0) as P.
  - destruct (r_bases (rec_ w r)) eqn:B; [|discriminate]. apply Ok_inj in H. injection H as <- <-. exact P.
  - inv_ok H. destruct a as [rest st2]. apply Ok_inj in H. injection H as <- <-. rewrite !map_app. apply (overriders_app _ _ _ _ _ _ P).
    clear P H0. revert st1 rest st2 H1. induction (r_bases (rec_ w r)) as [|b bs IHb]; intros st1 rest st2 H.
    + apply Ok_inj in H. injection H as <- <-. constructor.
    + inv_ok H. destruct a as [os1 st3]. inv_ok H. destruct a as [os2 st4]. apply Ok_inj in H. injection H as <- <-. rewrite !map_app.
      apply (overriders_app _ _ _ _ _ (cb_ret st3)); [|exact (IHb _ _ _ H1)].
      destruct (access_eqb (b_access b) Private); [apply Ok_inj in H0; injection H0 as <- <-; constructor|].
      destruct (base_record b) as [R|]; [exact (IH _ _ _ _ _ H0)|apply Ok_inj in H0; injection H0 as <- <-; constructor].
Qed.
Lemma overriders_lengths w cls k l ss k' : overriders w cls k l ss k' -> length ss = length l.
Proof. induction 1; [reflexivity|]. cbn [length]. congruence. Qed.

(** The structure as a whole. *)
Lemma picks_nearest w l out keys : picks w [] l out keys -> forall c m, In (c, m) out <-> nearest w l c m /\ f_final (fun_ w m) = false.
Proof.
  intros P c m. rewrite (picks_iff _ _ _ _ _ P). split.
  - intros [b [a [E [O [Fi [_ N]]]]]]. split; [|exact Fi]. exists b, a, (callback_key w (fun_ w m)). split; [exact E|]. split; [exact O|]. split; [apply key_spec|].
    intros c' m' I Ov V. apply virtual_signature_iff in V. exact (N c' m' I Ov (eq_sym V)).
  - intros [[b [a [s [E [O [V N]]]]]] Fi]. apply virtual_signature_iff in V. subst s. exists b, a. split; [exact E|]. split; [exact O|]. split; [exact Fi|]. split; [intros []|].
    intros c' m' I Ov X. apply (N c' m' I Ov). apply virtual_signature_iff. symmetry. exact X.
Qed.
Lemma picks_first w keys l out keys' : picks w keys l out keys' -> forall c m, In (c, m) l -> overridable w (fun_ w m) -> ~ In (callback_key w (fun_ w m)) keys ->
  exists before c' m' after, l = before ++ (c', m') :: after /\ overridable w (fun_ w m') /\ callback_key w (fun_ w m') = callback_key w (fun_ w m) /\
    (forall c0 m0, In (c0, m0) before -> overridable w (fun_ w m0) -> callback_key w (fun_ w m0) <> callback_key w (fun_ w m)).
Proof.
  induction 1 as [keys|keys c0 m0 l out keys' O N F P IH|keys c0 m0 l out keys' O N F P IH|keys c0 m0 l out keys' S P IH]; intros c m Hm Om Nm; [destruct Hm| | |].
  1, 2: destruct (str_eq_dec (callback_key w (fun_ w m0)) (callback_key w (fun_ w m))) as [E|E];
    [exists [], c0, m0, l; split; [reflexivity|split; [exact O|split; [exact E|intros ? ? []]]]|];
    destruct Hm as [Hm|Hm]; [injection Hm as -> ->; exfalso; exact (E eq_refl)|];
    destruct (IH c m Hm Om) as [bf [c' [m' [af [E1 [O1 [K1 Q1]]]]]]]; [intros [X|X]; [exact (E X)|exact (Nm X)]|];
    exists ((c0, m0) :: bf), c', m', af; split; [rewrite E1; reflexivity|split; [exact O1|split; [exact K1|]]]; intros c1 m1 [X|X]; [injection X as <- <-; intros _; exact E|exact (Q1 c1 m1 X)].
  destruct Hm as [Hm|Hm].
  - injection Hm as -> ->. exfalso. destruct S as [S|S]; [exact (S Om)|exact (Nm S)].
  - destruct (IH c m Hm Om Nm) as [bf [c' [m' [af [E1 [O1 [K1 Q1]]]]]]]. exists ((c0, m0) :: bf), c', m', af. split; [rewrite E1; reflexivity|]. split; [exact O1|]. split; [exact K1|].
    intros c1 m1 [X|X]; [|exact (Q1 c1 m1 X)]. injection X as <- <-. intros O2. destruct S as [S|S]; [exfalso; exact (S O2)|]. intros E. rewrite E in S. exact (Nm S).
Qed.
Lemma picks_some_nearest w l out keys : picks w [] l out keys -> forall c m s, In (c, m) l -> overridable w (fun_ w m) -> virtual_signature w (fun_ w m) s ->
  exists c' m', nearest w l c' m' /\ virtual_signature w (fun_ w m') s.
Proof.
  intros P c m s Hm O V. apply virtual_signature_iff in V. subst s. destruct (picks_first w _ _ _ _ P c m Hm O (fun x => x)) as [bf [c' [m' [af [E1 [O1 [K1 Q1]]]]]]].
  exists c', m'. split; [|apply virtual_signature_iff; symmetry; exact K1].
  exists bf, af, (callback_key w (fun_ w m')). split; [exact E1|]. split; [exact O1|]. split; [apply key_spec|].
  intros c0 m0 I0 O0 V0. apply virtual_signature_iff in V0. apply (Q1 c0 m0 I0 O0). rewrite <- V0. exact K1.
Qed.

Lemma prefix_spec w r s incl : const_is_method w -> generate_prefix_code w r = Ok (s, incl) ->
  exists L l body k, hierarchy w r L /\ (exists keys, picks w [] (versions w L) l keys) /\ overriders w (class_qualified_name w r) 0 l body k /\
    s = structure_text w r (generate_comment_for_declaration w (r_decl (rec_ w r))) body /\ incl = map snd l.
Proof.
  intros Wf H. unfold generate_prefix_code in H. inv_ok H. destruct a as [os st]. apply Ok_inj in H. apply pair_equal_spec in H. destruct H as [<- <-].
  destruct (callback_overriders_picks w Wf _ _ _ _ _ _ H0) as [L [A [P _]]]. exists L, (map place os), (map o_text os), (cb_ret st).
  split; [exact A|]. split; [exists (cb_keys st); exact P|]. split; [exact (callback_overriders_texts w _ _ _ _ _ _ H0)|]. split; [reflexivity|].
  rewrite map_map. apply map_ext. reflexivity.
Qed.

(** ** Constructors *)

Lemma is_copy_iff T : is_copy T = true <-> exists const, copy_constructor T const.
Proof.
  unfold is_copy, copy_constructor. destruct (f_ctor T) as [k|].
  - destruct (c_copy k) as [b|] eqn:E; split; [intros _; exists b, k; auto|reflexivity|discriminate|]. intros [b [k' [X Y]]]. injection X as <-. congruence.
  - split; [discriminate|]. intros [b [k' [X _]]]. discriminate.
Qed.
Lemma is_default_iff T : is_default T = true <-> default_constructor T.
Proof.
  unfold is_default, default_constructor. destruct (f_ctor T) as [k|].
  - split; [intros E; exists k; auto|]. intros [k' [X Y]]. injection X as <-. exact Y.
  - split; [discriminate|]. intros [k' [X _]]. discriminate.
Qed.
Lemma move_iff T : (match f_ctor T with Some k => c_move k | None => false end) = true <-> move_constructor T.
Proof.
  unfold move_constructor. destruct (f_ctor T) as [k|].
  - split; [intros E; exists k; auto|]. intros [k' [X Y]]. injection X as <-. exact Y.
  - split; [discriminate|]. intros [k' [X _]]. discriminate.
Qed.
Lemma default_spec w ci T : (r_abstract (rec_ w (ci_class ci)) = true -> ci_trampoline ci = true) ->
  exists l, bind_default_constructor w ci T = (match T with
     | Some F => annotation w F true
     | None => if annotate_functions (wopt w) then [tab] ++ $"// function-signature: " ++ ci_name ci ++ $"()" ++ [nl] else []
     end) ++ l /\ default_line (r_abstract (rec_ w (ci_class ci))) (ci_name ci) (tramp_of ci) l.
Proof.
  intros A. eexists. split; [unfold bind_default_constructor; reflexivity|]. unfold tramp_of. destruct (r_abstract (rec_ w (ci_class ci))) eqn:E.
  - rewrite (A eq_refl). apply DE_abstract. exact eq_refl.
  - destruct (ci_trampoline ci).
    + pose proof (DE_both false (ci_name ci) (ci_trampoline_name ci) eq_refl) as X. unfold new_object in X. rewrite <- !app_assoc in *. exact X.
    + apply DE_plain. exact eq_refl.
Qed.
Lemma copy_spec w ci T const : (r_abstract (rec_ w (ci_class ci)) = true -> ci_trampoline ci = true) -> copy_constructor T const -> public (f_decl T) ->
  exists l, bind_copy_constructor w ci T = annotation w T true ++ l /\ copy_lines (r_abstract (rec_ w (ci_class ci))) (ci_name ci) const (tramp_of ci) l.
Proof.
  intros A [k [K1 K2]] P. unfold bind_copy_constructor. cbv zeta. rewrite K1, K2. apply is_public_iff in P. rewrite P. unfold tramp_of.
  eexists. split; [reflexivity|]. destruct (ci_trampoline ci).
  - destruct (r_abstract (rec_ w (ci_class ci))); [destruct const; apply CO_abstract; reflexivity|]. destruct const; apply CO_both; reflexivity.
  - destruct (r_abstract (rec_ w (ci_class ci))); [specialize (A eq_refl); discriminate|]. destruct const; apply CO_plain; reflexivity.
Qed.
Lemma rest_spec w ci T s q : (r_abstract (rec_ w (ci_class ci)) = true -> ci_trampoline ci = true) -> is_copy T = false ->
  (if is_default T && (num_params T =? 0) then Ok (bind_default_constructor w ci (Some T), []) else bind_constructor w ci T) = Ok (s, q) ->
  constructor_text w (r_abstract (rec_ w (ci_class ci))) (ci_name ci) (tramp_of ci) T s.
Proof.
  intros A C H. assert (C' : forall const, ~ copy_constructor T const).
  { intros const X. assert (is_copy T = true) by (apply is_copy_iff; exists const; exact X). congruence. }
  destruct (is_default T && (num_params T =? 0)) eqn:D.
  - apply Ok_inj in H. apply pair_equal_spec in H. destruct H as [<- _]. destruct (default_spec w ci (Some T) A) as [l [-> L]]. apply andb_true_iff in D. destruct D as [D1 D2].
    apply CT_default; [exact C'|apply is_default_iff, D1| |exact L]. apply Nat.eqb_eq in D2. unfold num_params in D2. destruct (f_params T); [reflexivity|discriminate].
  - destruct (constructor_spec w ci T s q _ A H (first_default_spec (f_params T))) as [ls [-> [L1 L2]]].
    apply (CT_other w _ _ _ T (first_default (f_params T)) ls C'); [|apply first_default_spec|exact L1|exact L2].
    intros [X Y]. apply is_default_iff in X. unfold num_params in D. rewrite X, Y in D. discriminate.
Qed.
Lemma declared_spec w ci T s q : (r_abstract (rec_ w (ci_class ci)) = true -> ci_trampoline ci = true) -> public (f_decl T) ->
  bind_declared_ctor w ci T = Ok (s, q) -> constructor_text w (r_abstract (rec_ w (ci_class ci))) (ci_name ci) (tramp_of ci) T s.
Proof.
  intros A P H. unfold bind_declared_ctor in H. destruct (is_copy T) eqn:C; [|exact (rest_spec w ci T s q A C H)].
  apply Ok_inj in H. apply pair_equal_spec in H. destruct H as [<- _]. apply is_copy_iff in C. destruct C as [const C].
  destruct (copy_spec w ci T const A C P) as [l [-> L]]. exact (CT_copy w _ _ _ T const l C L).
Qed.
Lemma ctor_ok_iff w m b : ctor_ok w (fun_ w m) = Ok b -> (b = true <-> bound_constructor w m).
Proof.
  intros H. unfold ctor_ok in H. unfold bound_constructor.
  refine (iff_trans (and_r_iff _ (public (f_decl (fun_ w m)) /\ ~ move_constructor (fun_ w m) /\ ~ unbindable w (fun_ w m)) (~ function_skipped w (fun_ w m)) _ b _ _ H) _); [| |tauto].
  - rewrite !andb_true_iff, is_public_iff, bindable_iff, (false_iff _ _ (move_iff _)). tauto.
  - intros v E. exact (skip_neg w _ v E).
Qed.
Lemma own_constructors_eq w r : ctors w (rec_ w r) = own_constructors w r.
Proof. reflexivity. Qed.
Lemma used_constructors_eq w r : lifted_ctors w (rec_ w r) = used_constructors w r.
Proof.
  unfold lifted_ctors, used_constructors, using_targets. induction (r_members (rec_ w r)) as [|x l IH]; [reflexivity|]. cbn [flat_map].
  rewrite filter_app, IH, flat_map_app. f_equal. destruct x as [| | | |a ts| |]; try reflexivity. destruct a; try reflexivity.
  clear. induction ts as [|t ts IH]; [reflexivity|]. cbn [flat_map]. rewrite filter_app, IH. destruct t as [m|f]; [|reflexivity]. cbn [filter]. unfold is_ctor. destruct (f_ctor (fun_ w m)); reflexivity.
Qed.
Lemma base_default_false w : forall fuel r b, base_default_available fuel w r = Ok b -> (b = false <-> base_without_default w r).
Proof.
  assert (Inv : forall r, base_without_default w r -> exists b, In b (r_bases (rec_ w r)) /\ exists R, base_record b = Some R /\
     (r_has_default (rec_ w R) = false \/ (exists m, In (MMethod m) (r_members (rec_ w R)) /\ default_constructor (fun_ w m) /\ (n_access (f_decl (fun_ w m)) = Private \/ f_deleted (fun_ w m) = true)) \/ base_without_default w R)).
  { intros r H. destruct H as [b R A B C|b R m A B C D E|b R A B C]; exists b; (split; [exact A|]); exists R; (split; [exact B|]); [left; exact C|right; left; exists m; auto|right; right; exact C]. }
  induction fuel as [|fuel IH]; intros r b H; cbn [base_default_available] in H; cbv zeta in H.
  - destruct (r_bases (rec_ w r)) eqn:Eb; [|discriminate]. apply Ok_inj in H. subst b. split; [discriminate|]. intros N. apply Inv in N. destruct N as [x [I _]]. rewrite Eb in I. destruct I.
  - inv_ok H. apply Ok_inj in H. subst b. rewrite negb_false_iff.
    assert (X : a = true <-> exists b, In b (r_bases (rec_ w r)) /\ exists R, base_record b = Some R /\
     (r_has_default (rec_ w R) = false \/ (exists m, In (MMethod m) (r_members (rec_ w R)) /\ default_constructor (fun_ w m) /\ (n_access (f_decl (fun_ w m)) = Private \/ f_deleted (fun_ w m) = true)) \/ base_without_default w R)).
    { apply (exists_r_iff _ _ _) with (2 := H0). intros x c _ E.
      refine (base_case w (fun R => if negb (r_has_default (rec_ w R)) then Ok true
               else if existsb (fun t => match f_ctor (fun_ w t) with
                                         | Some k => c_default k && (access_eqb (n_access (f_decl (fun_ w t))) Private || f_deleted (fun_ w t))
                                         | None => false
                                         end) (ctors w (rec_ w R)) then Ok true
               else do ok <- base_default_available fuel w R; Ok (negb ok)) _ x c _ E).
      clear -IH. intros R b E.
      destruct (r_has_default (rec_ w R)) eqn:D; cbn [negb] in E; [|apply Ok_inj in E; subst b; split; [intros _; left; reflexivity|reflexivity]].
      assert (V : existsb (fun t => match f_ctor (fun_ w t) with
                                         | Some k => c_default k && (access_eqb (n_access (f_decl (fun_ w t))) Private || f_deleted (fun_ w t))
                                         | None => false
                                         end) (ctors w (rec_ w R)) = true <->
         exists m, In (MMethod m) (r_members (rec_ w R)) /\ default_constructor (fun_ w m) /\ (n_access (f_decl (fun_ w m)) = Private \/ f_deleted (fun_ w m) = true)).
      { rewrite existsb_exists. unfold ctors. split.
        - intros [m [I V]]. apply filter_In in I. destruct I as [I _]. exists m. split; [apply In_methods, I|]. destruct (f_ctor (fun_ w m)) as [k|] eqn:K; [|discriminate].
          apply andb_true_iff in V. destruct V as [V1 V2]. split; [exists k; auto|]. apply orb_true_iff in V2. rewrite access_iff in V2. exact V2.
        - intros [m [I [[k [K1 K2]] V]]]. exists m. rewrite filter_In, K1, K2. split; [split; [apply In_methods, I|unfold is_ctor; rewrite K1; reflexivity]|].
          cbn [andb]. apply orb_true_iff. rewrite access_iff. exact V. }
      destruct (existsb _ _); [apply Ok_inj in E; subst b; split; [intros _; right; left; apply V; reflexivity|reflexivity]|].
      inv_ok E. apply Ok_inj in E. subst b. rewrite negb_true_iff, (IH R a E0). split; [intros Y; right; right; exact Y|]. intros [Y|[Y|Y]]; [discriminate|apply V in Y; discriminate|exact Y]. }
    rewrite X. split.
    + intros [x [I [R [B [C|[[m [C [D E]]]|C]]]]]]; [exact (BD_none w r x R I B C)|exact (BD_hidden w r x R m I B C D E)|exact (BD_base w r x R I B C)].
    + apply Inv.
Qed.
Lemma lifted_spec w ci l : (r_abstract (rec_ w (ci_class ci)) = true -> ci_trampoline ci = true) ->
  forall s q, emit_all (map (fun t => bind_lifted_ctor w ci (fun_ w t)) l) = Ok (s, q) ->
  exists used useds, selection (used_constructor w) l used /\ s = concat useds /\
    Forall2 (fun m t => constructor_text w (r_abstract (rec_ w (ci_class ci))) (ci_name ci) (tramp_of ci) (fun_ w m) t) used useds.
Proof.
  intros A. induction l as [|m l IH]; intros s q H; cbn [map emit_all] in H.
  - apply Ok_inj in H. apply pair_equal_spec in H. destruct H as [<- _]. exists [], []. split; [constructor|]. split; [reflexivity|constructor].
  - inv_ok H. destruct a as [s1 q1]. inv_ok H. destruct a as [s2 q2]. apply Ok_inj in H. apply pair_equal_spec in H. destruct H as [<- _].
    destruct (IH _ _ H1) as [used [useds [S [-> F]]]]. unfold bind_lifted_ctor in H0.
    destruct (is_bindable_fun w (fun_ w m)) eqn:B; cbn [negb] in H0.
    + destruct (is_copy (fun_ w m)) eqn:C.
      * apply Ok_inj in H0. apply pair_equal_spec in H0. destruct H0 as [<- _]. exists used, useds. split; [|split; [reflexivity|exact F]]. apply SEL_left; [|exact S].
        intros [_ X]. apply is_copy_iff in C. destruct C as [const C]. exact (X const C).
      * exists (m :: used), (s1 :: useds). split; [|split; [reflexivity|constructor; [exact (rest_spec w ci _ _ _ A C H0)|exact F]]].
        apply SEL_taken; [|exact S]. split; [apply bindable_iff, B|]. intros const X. assert (is_copy (fun_ w m) = true) by (apply is_copy_iff; exists const; exact X). congruence.
    + apply Ok_inj in H0. apply pair_equal_spec in H0. destruct H0 as [<- _]. exists used, useds. split; [|split; [reflexivity|exact F]]. apply SEL_left; [|exact S].
      intros [X _]. apply bindable_iff in X. congruence.
Qed.
Lemma own_ctors_spec w ci l : (r_abstract (rec_ w (ci_class ci)) = true -> ci_trampoline ci = true) -> (forall m, In m l -> public (f_decl (fun_ w m))) ->
  forall s q, emit_all (map (fun t => bind_declared_ctor w ci (fun_ w t)) l) = Ok (s, q) ->
  exists ts, s = concat ts /\ Forall2 (fun m t => constructor_text w (r_abstract (rec_ w (ci_class ci))) (ci_name ci) (tramp_of ci) (fun_ w m) t) l ts.
Proof.
  intros A. induction l as [|m l IH]; intros P s q H; cbn [map emit_all] in H.
  - apply Ok_inj in H. apply pair_equal_spec in H. destruct H as [<- _]. exists []. split; [reflexivity|constructor].
  - inv_ok H. destruct a as [s1 q1]. inv_ok H. destruct a as [s2 q2]. apply Ok_inj in H. apply pair_equal_spec in H. destruct H as [<- _].
    destruct (IH (fun x I => P x (or_intror I)) _ _ H1) as [ts [-> F]]. exists (s1 :: ts). split; [reflexivity|]. constructor; [exact (declared_spec w ci _ _ _ A (P m (or_introl eq_refl)) H0)|exact F].
Qed.
Lemma ctors_spec w r ci s q : ci_class ci = r -> (r_abstract (rec_ w r) = true -> ci_trampoline ci = true) -> bind_ctors w r ci = Ok (s, q) ->
  constructors_text w r (ci_name ci) (tramp_of ci) s.
Proof.
  intros Ec A H. unfold bind_ctors in H. cbv zeta in H. inv_ok H. inv_ok H. destruct a0 as [s1 q1]. inv_ok H. destruct a0 as [s2 q2]. inv_ok H. rename a0 into implicit. apply Ok_inj in H. apply pair_equal_spec in H. destruct H as [<- _].
  rewrite used_constructors_eq in *. rewrite own_constructors_eq in *. rewrite <- Ec in A.
  assert (S : selection (bound_constructor w) (own_constructors w r) a) by (apply (filter_r_selection _ _ _ (fun m b E => ctor_ok_iff w m b E)); exact H0).
  destruct (own_ctors_spec w ci a A (fun m I => proj1 (proj2 (proj1 (selection_In _ _ _ S m) I))) _ _ H1) as [owns [-> F1]].
  destruct (lifted_spec w ci _ A _ _ H2) as [used [useds [S2 [-> F2]]]]. rewrite Ec in F1, F2.
  apply (CS w r _ _ _ a owns used useds); [|exact S|exact F1|exact S2|exact F2].
  assert (D : existsb (fun t => is_default (fun_ w t)) (own_constructors w r ++ used_constructors w r) = false <->
     forall m, In m (own_constructors w r ++ used_constructors w r) -> ~ default_constructor (fun_ w m)).
  { split.
    - intros E m I X. apply is_default_iff in X. assert (existsb (fun t => is_default (fun_ w t)) (own_constructors w r ++ used_constructors w r) = true) by (apply existsb_exists; exists m; auto). congruence.
    - intros N. destruct (existsb _ _) eqn:E; [|reflexivity]. apply existsb_exists in E. destruct E as [m [I X]]. apply is_default_iff in X. destruct (N m I X). }
  assert (X : implicit = true <-> implicit_default w r).
  { unfold implicit_default. destruct (existsb _ (own_constructors w r ++ used_constructors w r)); cbn [negb andb] in H3.
    - apply Ok_inj in H3. subst implicit. split; [discriminate|]. intros [_ [_ N]]. apply D in N. discriminate.
    - destruct (r_needs_default (rec_ w r)).
      + pose proof (base_default_false w _ _ _ H3) as Y. split.
        * intros ->. split; [reflexivity|]. split; [intros Z; apply Y in Z; discriminate|apply D; reflexivity].
        * intros [_ [Z _]]. destruct implicit; [reflexivity|]. exfalso. apply Z, Y. reflexivity.
      + apply Ok_inj in H3. subst implicit. split; [discriminate|]. intros [Z _]. discriminate. }
  destruct implicit.
  - left. split; [apply X; reflexivity|]. destruct (default_spec w ci None A) as [l [-> L]]. rewrite Ec in L. exists l. split; [exact L|reflexivity].
  - right. split; [|reflexivity]. intros Y. apply X in Y. discriminate.
Qed.

(** ** The statement for a class *)

Lemma base_ok_iff w b c : base_ok w b = Ok c -> (c = true <-> named_base w b).
Proof.
  intros H. unfold base_ok in H. unfold named_base. destruct (access_eqb (b_access b) Public) eqn:A.
  - apply access_iff in A. destruct (base_record b) as [R|]; [|apply Ok_inj in H; subst c; split; [discriminate|intros [_ [R [X _]]]; discriminate]].
    refine (iff_trans (and_r_iff _ (~ In (standard_name w (n_qname (r_decl (rec_ w R)))) silent_bases /\ ~ rejected_class w R (targs_of (rec_ w R))) (~ class_skipped w R (targs_of (rec_ w R))) _ c _ _ H) _).
    + rewrite andb_true_iff, negb_true_iff. change base_skip_list with silent_bases. pose proof (mem_In (standard_name w (n_qname (r_decl (rec_ w R)))) silent_bases) as M. pose proof (bindable_rec_iff w R) as B.
      destruct (mem _ silent_bases); destruct (is_bindable_rec w R); split; try (intros [? ?]; discriminate).
      * intros [X _]. exfalso. apply X, M. reflexivity.
      * intros [X _]. exfalso. apply X, M. reflexivity.
      * intros _. split; [intros X; apply M in X; discriminate|intros X; apply B in X; discriminate].
      * intros _. split; reflexivity.
      * intros [_ X]. exfalso. apply X, B. reflexivity.
    + intros v E. inv_ok E. apply Ok_inj in E. subst v. exact (false_iff _ _ (skip_class_iff w R a E0)).
    + split; [intros [[X Y] Z]; split; [exact A|exists R; auto]|]. intros [_ [R' [E [X [Y Z]]]]]. injection E as <-. auto.
  - apply access_niff in A. apply Ok_inj in H. subst c. split; [discriminate|]. intros [X _]. contradiction.
Qed.
Lemma bases_spec w r bs : bound_bases w (rec_ w r) = Ok bs -> selection (named_base w) (r_bases (rec_ w r)) bs.
Proof. intros H. apply (filter_r_selection _ _ _ (fun b c E => base_ok_iff w b c E)). exact H. Qed.

Lemma contains_iff c s : contains_char c s = true <-> In c s.
Proof.
  unfold contains_char. rewrite existsb_exists. split; [intros [x [I E]]; apply Ascii.eqb_eq in E; subst x; exact I|intros I; exists c; split; [exact I|apply Ascii.eqb_refl]].
Qed.
Lemma not_true_false (b : bool) (P : Prop) : (b = true <-> P) -> (b = false <-> ~ P).
Proof. intros H. rewrite <- H. apply iff_sym, not_true_iff_false. Qed.
Lemma enum_listed w r : public_enums w (rec_ w r) =
  filter (fun e => is_public (e_decl (enum_ w e)) && is_bindable_enum (enum_ w e)) (inner_enums w r).
Proof.
  unfold public_enums, inner_enums. induction (r_members (rec_ w r)) as [|x l IH]; [reflexivity|]. cbn [flat_map]. rewrite filter_app, <- IH. f_equal.
  destruct x; reflexivity.
Qed.
Lemma local_spec w ns b : is_module_local_requested (wcfg w) ns = Ok b -> local_to_module w ns b.
Proof.
  unfold is_module_local_requested, local_to_module. cbv zeta. intros H.
  pose proof (mem_In $"@all_namespaces" (lists (wcfg w) module_local_namespaces_to_add)) as A. pose proof (mem_In ns (lists (wcfg w) module_local_namespaces_to_add)) as B.
  pose proof (mem_In ns (lists (wcfg w) module_local_namespaces_to_skip)) as C. destruct (mem $"@all_namespaces" _).
  - left. split; [apply A; reflexivity|]. apply Ok_inj in H. subst b. exact (false_iff _ _ C).
  - right. split; [intros X; apply A in X; discriminate|]. destruct (mem ns (lists (wcfg w) module_local_namespaces_to_add)).
    + destruct (mem ns (lists (wcfg w) module_local_namespaces_to_skip)); [discriminate|]. apply Ok_inj in H. subst b. exact B.
    + apply Ok_inj in H. subst b. exact B.
Qed.
Lemma enum_text_spec w e s : bind_enum w $"cl" e = Ok s -> enum_text w $"cl" e s.
Proof. intros H. destruct (enum_spec _ _ _ _ H) as [local [L E]]. exists local. split; [exact (local_spec _ _ _ L)|exact E]. Qed.
Lemma enum_ok_iff w e : is_public (e_decl (enum_ w e)) && is_bindable_enum (enum_ w e) = true <->
  public (e_decl (enum_ w e)) /\ e_instance (enum_ w e) = false /\ n_name (e_decl (enum_ w e)) <> [] /\ ~ In ")"%char (n_name (e_decl (enum_ w e))).
Proof.
  unfold is_bindable_enum. rewrite !andb_true_iff, is_public_iff, !negb_true_iff, orb_false_iff, (not_true_false _ _ (contains_iff _ _)).
  assert (X : streqb (n_name (e_decl (enum_ w e))) [] = false <-> n_name (e_decl (enum_ w e)) <> []) by (apply not_true_false, streqb_eq). rewrite X. tauto.
Qed.
Lemma enums_spec w l : forall s, bind_enums w (filter (fun e => is_public (e_decl (enum_ w e)) && is_bindable_enum (enum_ w e)) l) = Ok s ->
  exists es ts, selection (bound_enum w) l es /\ Forall2 (fun e s => enum_text w $"cl" (enum_ w e) s) es ts /\ s = concat (map (fun s => [nl] ++ s) ts).
Proof.
  induction l as [|e l IH]; intros s H; cbn [filter] in H.
  - apply Ok_inj in H. subst s. exists [], []. split; [constructor|]. split; [constructor|reflexivity].
  - pose proof (enum_ok_iff w e) as O. destruct (is_public (e_decl (enum_ w e)) && is_bindable_enum (enum_ w e)).
    + cbn [bind_enums] in H. inv_ok H. inv_ok H. inv_ok H. apply Ok_inj in H. subst s. destruct (IH _ H2) as [es [ts [S [F ->]]]].
      pose proof (skip_enum_iff _ _ _ H0) as K. destruct a.
      * apply Ok_inj in H1. subst a0. exists es, ts. split; [apply SEL_left; [|exact S]|split; [exact F|reflexivity]]. intros [_ [_ [_ [_ X]]]]. apply X, K. reflexivity.
      * inv_ok H1. apply Ok_inj in H1. subst a0. exists (e :: es), (a :: ts). split; [apply SEL_taken; [|exact S]|split; [constructor; [exact (enum_text_spec _ _ _ H3)|exact F]|]].
        -- destruct (proj1 O eq_refl) as [A [B [C D]]]. split; [exact A|]. split; [exact B|]. split; [exact C|]. split; [exact D|]. intros X. apply K in X. discriminate.
        -- reflexivity.
    + destruct (IH _ H) as [es [ts [S [F ->]]]]. exists es, ts. split; [apply SEL_left; [|exact S]|split; [exact F|reflexivity]].
      intros [A [B [C [D _]]]]. assert (X : false = true) by (apply O; auto). discriminate.
Qed.
Lemma method_text_spec w c t : bind_function w (tab :: $"cl") (fun_ w (fst c)) (snd c) (match snd c with Some _ => true | None => false end) = Ok t -> method_text w c (fst t).
Proof.
  intros H. destruct t as [s q]. destruct (bind_function_spec w _ _ _ _ _ _ _ H (first_bound_spec _)) as [ls [E [L [D _]]]].
  exists (first_bound (fun_ w (fst c))), ls. split; [apply first_bound_spec|]. split; [exact L|]. split; [exact D|exact E].
Qed.
Lemma methods_text_spec w r s q : const_is_method w -> binding_public_member_functions w r = Ok (s, q) -> methods_text w r s.
Proof.
  intros Wf H. destruct (methods_spec w r s q Wf H) as [l [ts [S [T [-> _]]]]]. exists l, (map fst ts). split; [exact S|]. split; [|reflexivity].
  clear -T. induction T as [|c t l ts X T IH]; constructor; [exact (method_text_spec w c t X)|exact IH].
Qed.
Lemma data_text_spec w r : data_text w r (binding_public_data_members w r).
Proof. destruct (data_members_spec w r) as [fs [ls H]]. exists fs, ls. exact H. Qed.
Lemma folded_text_spec w r s q fuel : const_is_method w -> binding_template_bases fuel w r = Ok (s, q) -> folded_text w r s.
Proof.
  intros Wf H. destruct (template_bases_spec w _ _ _ _ H) as [l [ts [S [T [-> _]]]]]. exists l, (map fst ts). split; [exact S|]. split; [|reflexivity].
  clear -T Wf. induction T as [|c t l ts X T IH]; constructor; [|exact IH]. destruct X as [m [M E]]. exists (binding_public_data_members w c), m.
  split; [apply data_text_spec|]. split; [exact (methods_text_spec w c m _ Wf M)|exact E].
Qed.

Lemma printer_key_fixed (name : str) (l : list str) : fixed name -> l <> [] -> (forall x, In x l -> ~ In "_"%char x) ->
  fix_boolean_types (set_last ">" (removelast
       ($"std::ostream & (*)(std::ostream &, const " ++ name ++ $"<" ++ concat (map (fun x => x ++ $", ") l)))) ++ $" &)" =
  $"std::ostream & (*)(std::ostream &, const " ++ name ++ $"<" ++ join $", " l ++ $"> &)".
Proof.
  intros S N P.
  assert (J : concat (map (fun x => x ++ $", ") l) = (join $", " l ++ $",") ++ $" ").
  { clear -N. induction l as [|x l IH]; [contradiction|]. destruct l as [|y l]; [cbn; rewrite app_nil_r, <- app_assoc; reflexivity|].
    change (concat (map (fun x => x ++ $", ") (x :: y :: l))) with ((x ++ $", ") ++ concat (map (fun x => x ++ $", ") (y :: l))).
    rewrite (IH ltac:(discriminate)). change (join $", " (x :: y :: l)) with (x ++ $", " ++ join $", " (y :: l)). rewrite <- !app_assoc. reflexivity. }
  rewrite J. replace ($"std::ostream & (*)(std::ostream &, const " ++ name ++ $"<" ++ (join $", " l ++ $",") ++ $" ")
    with ((($"std::ostream & (*)(std::ostream &, const " ++ name ++ $"<" ++ join $", " l) ++ [","%char]) ++ [" "%char]) by (rewrite <- !app_assoc; reflexivity).
  rewrite removelast_snoc. unfold set_last. rewrite removelast_snoc.
  assert (F : fixed (($"std::ostream & (*)(std::ostream &, const " ++ name ++ $"<" ++ join $", " l) ++ [">"%char])).
  { replace (($"std::ostream & (*)(std::ostream &, const " ++ name ++ $"<" ++ join $", " l) ++ [">"%char])
      with ($"std::ostream & (*)(std::ostream &, const" ++ " "%char :: (name ++ "<"%char :: (join $", " l ++ ">"%char :: []))) by (rewrite <- !app_assoc; reflexivity).
    assert (Lt : separator "<") by (split; [intros [H|H]; discriminate|discriminate]). assert (Gt : separator ">") by (split; [intros [H|H]; discriminate|discriminate]).
    apply fixed_sep; [exact separator_sp| |].
    - apply fixed_plain. intros I. repeat (destruct I as [I|I]; [discriminate|]). destruct I.
    - apply fixed_sep; [exact Lt|exact S|]. apply fixed_sep; [exact Gt| |exact fixed_nil]. apply fixed_join. intros x I. apply fixed_plain, P, I. }
  rewrite (fixed_eq _ F). rewrite <- !app_assoc. reflexivity.
Qed.
Lemma dec_no_underscore n : ~ In "_"%char (dec n).
Proof. apply dec_no_char. reflexivity. Qed.
Lemma mapi_from_seq {A B} (f : nat -> B) (l : list A) : forall k, mapi_from k (fun i _ => f i) l = map f (seq k (length l)).
Proof. induction l as [|x l IH]; intros k; [reflexivity|]. cbn [mapi_from length seq map]. rewrite IH. reflexivity. Qed.
Lemma type_parameter_plain n : ~ In "_"%char ($"type-parameter-0-" ++ dec n).
Proof. intros I. apply in_app_or in I. destruct I as [I|I]; [|exact (dec_no_underscore n I)]. repeat (destruct I as [I|I]; [discriminate|]). destruct I. Qed.
Lemma template_key_spec w r : targs_of (rec_ w r) <> [] -> template_printer_type w r (insertion_operator_template_key w r).
Proof.
  intros N. exists (join $", " (map (fun i => $"type-parameter-0-" ++ dec i) (seq 0 (length (targs_of (rec_ w r)))))). split; [apply join_separated|].
  unfold insertion_operator_template_key, mapi. rewrite (mapi_from_seq (fun i => $"type-parameter-0-" ++ dec i ++ $", ")).
  rewrite (map_ext _ (fun i => ($"type-parameter-0-" ++ dec i) ++ $", ") (fun i => app_assoc _ _ _)).
  rewrite <- (map_map (fun i => $"type-parameter-0-" ++ dec i) (fun x => x ++ $", ")). apply printer_key_fixed; [apply standard_fixed| |].
  - destruct (targs_of (rec_ w r)); [contradiction|discriminate].
  - intros x I. apply in_map_iff in I. destruct I as [i [<- _]]. apply type_parameter_plain.
Qed.
Lemma printer_spec w ops r : printer w ops r (global_insertion_operator w ops r).
Proof.
  unfold global_insertion_operator. change (insertion_operator_key w r) with (printer_type w r). destruct (lookup (printer_type w r) ops) as [f|] eqn:E; [apply PR_own; exact E|].
  unfold is_specialization. destruct (r_targs (rec_ w r)) as [[|a l]|] eqn:T.
  - apply PR_no_arguments; [exact E|exact T].
  - apply PR_template; [exact E|rewrite T; discriminate|]. apply template_key_spec. unfold targs_of. rewrite T. discriminate.
  - apply PR_plain; [exact E|exact T].
Qed.
Lemma printing_text (cq ns : str) :
  [nl; tab] ++ $"cl.def(""__str__"", [](" ++ cq ++ $" const &o) -> std::string { std::ostringstream s;" ++ (match ns with [] => [] | _ => $" using namespace " ++ ns ++ $";" end) ++ $" s << o; return s.str(); } );" ++ [nl] =
  [nl; tab] ++ $"cl.def(" ++ quoted $"__str__" ++ $", [](" ++ cq ++ $" const &o) -> std::string { std::ostringstream s;" ++ (match ns with [] => [] | _ => $" using namespace " ++ ns ++ $";" end) ++ $" s << o; return s.str(); } );" ++ [nl].
Proof. reflexivity. Qed.
Lemma str_spec w ops r : str_text w ops r (fst (bind_repr w ops r)) (snd (bind_repr w ops r)).
Proof.
  unfold bind_repr. cbv zeta. pose proof (printer_spec w ops r) as P.
  assert (X : is_function_skipping_requested (wcfg w) (class_qualified_name w r ++ $"::__str__")
     || is_function_skipping_requested (wcfg w) (standard_name w (n_qname (r_decl (rec_ w r)) ++ $"::__str__")) = true <-> no_printing w r).
  { rewrite orb_true_iff. unfold no_printing, listed_in, nospace, is_function_skipping_requested. rewrite !mem_In. reflexivity. }
  destruct (_ || _); cbn [fst snd].
  - apply ST_skipped, X. reflexivity.
  - assert (N : ~ no_printing w r) by (intros Y; apply X in Y; discriminate). destruct (global_insertion_operator w ops r) as [f|]; cbn [fst snd]; [|exact (ST_none w ops r N P)].
    rewrite printing_text. exact (ST_some w ops r f N P).
Qed.

Lemma flat_map_choice {A B} (f : A -> bool) (g : A -> B) (l : list A) : flat_map (fun x => if f x then [g x] else []) l = map g (filter f l).
Proof. induction l as [|x l IH]; [reflexivity|]. cbn [flat_map filter]. destruct (f x); cbn [map app]; rewrite IH; reflexivity. Qed.
Lemma inner_classes_eq w r : nested_classes w (rec_ w r) = inner_classes w r.
Proof.
  unfold nested_classes, inner_classes. apply flat_map_ext. intros x. destruct x as [| | |i| | |]; try reflexivity.
  unfold is_public. destruct (n_access (r_decl (rec_ w i))); reflexivity.
Qed.
Lemma bound_nested_eq w r : bound_nested w (rec_ w r) =
  map (definition_of w) (filter (fun i => r_first (rec_ w i) && is_bindable_rec w (definition_of w i)) (inner_classes w r)).
Proof.
  unfold bound_nested. rewrite inner_classes_eq, <- flat_map_choice. apply flat_map_ext. intros i. fold (definition_of w i). destruct (r_first (rec_ w i)); reflexivity.
Qed.
Lemma inner_spec w r : selection (bound_inner w) (inner_classes w r) (filter (fun i => r_first (rec_ w i) && is_bindable_rec w (definition_of w i)) (inner_classes w r)).
Proof.
  apply filter_selection. intros i. unfold bound_inner. rewrite andb_true_iff, <- (bindable_rec_iff w (definition_of w i)), not_false_iff_true. reflexivity.
Qed.
Lemma binder_call_text {A} (comment binder spec ns : str) (f : A -> str) l :
  [tab] ++ comment ++ [tab] ++ binder ++ spec ++ $"(" ++ module_variable_name ns ++ concat (map (fun a => $", """ ++ f a ++ $"""") l) ++ $");" ++ [nl; nl] =
  [tab] ++ comment ++ [tab] ++ binder ++ spec ++ $"(M(" ++ quoted ns ++ $")" ++ concat (map (fun a => $", " ++ quoted (f a)) l) ++ $");" ++ [nl; nl].
Proof. unfold module_variable_name, quoted. rewrite <- !app_assoc. reflexivity. Qed.
Lemma binder_call_eq w r b : bind_with w r b = binder_call w r b.
Proof.
  unfold bind_with, binder_call. cbv zeta.
  exact (binder_call_text _ _ _ _ (fun a => fix_boolean_types (mangle_type_name (standard_name w (arg_text a)) true)) _).
Qed.

Lemma structure_spec w r cs tr prefix incl : const_is_method w -> is_callback_structure_needed (e_fuel (wenv w)) w r = Ok cs ->
  (if cs then is_callback_structure_constructible (e_fuel (wenv w)) w r else Ok false) = Ok tr ->
  (if tr then generate_prefix_code w r else Ok ([], [])) = Ok (prefix, incl) ->
  structure_of w r (if tr then Some (callback_structure_name w r) else None) prefix incl.
Proof.
  intros Wf N C G. apply (needs_iff w Wf) in N.
  assert (T : tr = true <-> has_structure w r).
  { unfold has_structure. rewrite <- N. destruct cs.
    - rewrite (constructible_iff _ _ _ _ C). tauto.
    - apply Ok_inj in C. subst tr. split; [discriminate|]. intros [X _]. discriminate. }
  destruct tr.
  - destruct (prefix_spec w r prefix incl Wf G) as [L [l [body [k [H [[keys P] [O [-> ->]]]]]]]]. apply (SO_some w r L l body k (proj1 T eq_refl) H (picks_nearest w _ _ _ P) (picks_some_nearest w _ _ _ P)); [|exact O].
    pose proof (proj1 (picks_nodup w _ _ _ _ P)) as D. exact (NoDup_map_inv _ _ D).
  - apply Ok_inj in G. apply pair_equal_spec in G. destruct G as [<- <-]. apply SO_none. intros X. apply T in X. discriminate.
Qed.
Lemma holder_text_spec w r s : holder w r = Ok s -> holder_text w r s.
Proof.
  intros H. unfold holder in H. cbv zeta in H. inv_ok H. pose proof (shared_iff w _ _ _ H0) as S. destruct a.
  - apply Ok_inj in H. subst s. apply HT_smart. left. apply S. reflexivity.
  - assert (N : ~ derives_shared w r) by (intros X; apply S in X; discriminate). destruct (r_dtor (rec_ w r)) as [a|] eqn:D; apply Ok_inj in H; subst s.
    + destruct (access_eqb a Public) eqn:A.
      * apply access_iff in A. subst a. apply HT_smart. right. intros a X. congruence.
      * apply access_niff in A. exact (HT_raw w r a N D A).
    + apply HT_smart. right. intros a X. congruence.
Qed.
Lemma class_line_text (smart local buffer : bool) (cls hold tramp bases enclosing name doc : str) :
  (if smart then [tab] ++ $"PYBIND11_TYPE_CASTER_BASE_HOLDER(" ++ cls ++ $" " ++ hold ++ $")" ++ [nl] else [])
  ++ [tab] ++ $"pybind11::class_<" ++ cls ++ hold ++ tramp ++ bases ++ $"> cl(" ++ enclosing ++ $", """ ++ name ++ $""", """ ++ doc ++ $""""
  ++ ((if local then $", pybind11::module_local()" else []) ++ (if buffer then $", pybind11::buffer_protocol()" else [])) ++ $");" ++ [nl] =
  (if smart then [tab] ++ $"PYBIND11_TYPE_CASTER_BASE_HOLDER(" ++ cls ++ $" " ++ hold ++ $")" ++ [nl] else [])
  ++ [tab] ++ $"pybind11::class_<" ++ cls ++ hold ++ tramp ++ bases ++ $"> cl(" ++ enclosing ++ $", " ++ quoted name ++ $", " ++ quoted doc
  ++ (if local then $", pybind11::module_local()" else []) ++ (if buffer then $", pybind11::buffer_protocol()" else []) ++ $");" ++ [nl].
Proof. unfold quoted. rewrite <- !app_assoc. reflexivity. Qed.
Lemma class_line_eq w r hold tr bases enclosing (local : bool) :
  class_head w r hold (match tr with Some t => $", " ++ t | None => [] end) (concat (map (fun R => $", " ++ class_qualified_name w R) bases)) enclosing
    ((if local then $", pybind11::module_local()" else []) ++ (if is_buffer_protocol_requested (wcfg w) (standard_name w (n_qname (r_decl (rec_ w r)))) then $", pybind11::buffer_protocol()" else []))
  = class_line w r hold tr bases enclosing local.
Proof.
  unfold class_head, class_line, is_buffer_protocol_requested, is_smart_holder_requested, nospace. cbv zeta.
  exact (class_line_text (mem (remove_char sp (standard_name w (n_qname (r_decl (rec_ w r))))) (lists (wcfg w) smart_held_classes)) local
    (mem (remove_char sp (standard_name w (n_qname (r_decl (rec_ w r))))) (lists (wcfg w) buffer_protocols)) (class_qualified_name w r) hold
    (match tr with Some t => $", " ++ t | None => [] end) (concat (map (fun R => $", " ++ class_qualified_name w R) bases)) enclosing (python_class_name w r)
    (documentation_string (n_doc (r_decl (rec_ w r))))).
Qed.

Definition nested_over (fuel : nat) (w : world) (ops : list (str * nat)) :=
  fix over (l : list nat) : result (str * str * list str) :=
                   match l with
                   | [] => Ok ([], [], [])
                   | i :: l' =>
                       do b <- bind_class fuel w ops i;
                       do (s, p, q) <- over l';
                       Ok (cb_code b ++ [nl] ++ s, cb_prefix b ++ p, cb_req b ++ q)
                   end.
Lemma nested_spec fuel w ops (P : nat -> cbound -> Prop) l : (forall r b, bind_class fuel w ops r = Ok b -> P r b) ->
  forall s p q, nested_over fuel w ops l = Ok (s, p, q) ->
  exists bs, Forall2 P l bs /\ s = concat (map (fun b => cb_code b ++ [nl]) bs) /\ p = concat (map cb_prefix bs) /\ q = concat (map cb_req bs).
Proof.
  intros IH. induction l as [|i l IHl]; intros s p q H; cbn [nested_over] in H.
  - apply Ok_inj in H. injection H as <- <- <-. exists []. split; [constructor|]. auto.
  - inv_ok H. inv_ok H. destruct a0 as [[s1 p1] q1]. apply Ok_inj in H. apply pair_equal_spec in H. destruct H as [H <-]. apply pair_equal_spec in H. destruct H as [<- <-].
    destruct (IHl _ _ _ H1) as [bs [F [-> [-> ->]]]]. exists (a :: bs). split; [constructor; [exact (IH _ _ H0)|exact F]|]. cbn [map concat]. split; [rewrite <- app_assoc; reflexivity|]. split; reflexivity.
Qed.
Lemma nested_cases fuel w ops l s p q (P : nat -> cbound -> Prop) : (forall fuel' r b, S fuel' = fuel -> bind_class fuel' w ops r = Ok b -> P r b) ->
  match l with [] => Ok ([], [], []) | nested => match fuel with 0 => Diverges | S fuel' => nested_over fuel' w ops nested end end = Ok (s, p, q) ->
  exists bs, Forall2 P l bs /\ (match s with [] => [] | _ => [nl] ++ s end) = (match bs with [] => [] | _ => [nl] ++ concat (map (fun b => cb_code b ++ [nl]) bs) end) /\
    p = concat (map cb_prefix bs) /\ q = concat (map cb_req bs).
Proof.
  intros IH H. destruct l as [|i l].
  - apply Ok_inj in H. injection H as <- <- <-. exists []. split; [constructor|]. auto.
  - destruct fuel as [|fuel]; [discriminate|]. destruct (nested_spec fuel w ops P _ (fun r b E => IH fuel r b eq_refl E) _ _ _ H) as [bs [F [-> [-> ->]]]].
    exists bs. split; [exact F|]. split; [|split; reflexivity]. destruct bs as [|b bs]; [reflexivity|]. cbn [map concat].
    destruct ((cb_code b ++ [nl]) ++ concat (map (fun b => cb_code b ++ [nl]) bs)) eqn:E; [|reflexivity]. exfalso. destruct (cb_code b); discriminate.
Qed.
Lemma module_name_eq (member anon : bool) (ns : str) :
  anon = false -> (if member && negb anon then $"enclosing_class" else module_variable_name ns) = (if member then $"enclosing_class" else $"M(" ++ quoted ns ++ $")").
Proof. intros ->. destruct member; cbn [andb negb]; [reflexivity|]. unfold module_variable_name, quoted. rewrite <- !app_assoc. reflexivity. Qed.
Lemma Forall2_map_l {A B C} (P : B -> C -> Prop) (f : A -> B) l : forall l', Forall2 P (map f l) l' -> Forall2 (fun a => P (f a)) l l'.
Proof. induction l as [|x l IH]; intros l' H; cbn [map] in H; inversion H; subst; constructor; auto. Qed.
Lemma class_name_std w r : std_name w (r_decl (rec_ w r)) = class_name w r.
Proof. unfold class_name. reflexivity. Qed.
Lemma class_name_eq w r : standard_name w (n_qname (r_decl (rec_ w r))) = class_name w r.
Proof. unfold class_name. reflexivity. Qed.
Lemma class_cases w ops r b (b' : result cbound) :
  (if is_python_builtin w (r_decl (rec_ w r)) then Ok (mkcbound [] [] [] [] [])
     else match lookup (standard_name w (n_qname (r_decl (rec_ w r)))) (maps (wcfg w) Config.binders) with
          | Some binder => Ok (mkcbound (bind_with w r binder) [] [] [] [])
          | None => b' end) = Ok b ->
  (b' = Ok b -> ~ python_type w (class_name w r) -> lookup (class_name w r) (maps (wcfg w) Config.binders) = None -> class_binding w ops r b) -> class_binding w ops r b.
Proof.
  pose proof (builtin_iff w (r_decl (rec_ w r))) as PB. rewrite class_name_std in PB. rewrite class_name_eq. intros Hb Hk. destruct (is_python_builtin w (r_decl (rec_ w r))).
  - apply Ok_inj in Hb. subst b. apply CB_python. apply PB. exact eq_refl.
  - assert (NP : ~ python_type w (class_name w r)) by (intros X; apply PB in X; discriminate). destruct (lookup (class_name w r) (maps (wcfg w) Config.binders)) as [binder|] eqn:L.
    + apply Ok_inj in Hb. subst b. rewrite binder_call_eq. apply CB_binder; assumption.
    + apply Hk; auto.
Qed.
Lemma head_spec w r hold (tr : bool) tn extra local head deps q0 : tn = (if tr then callback_structure_name w r else []) ->
  extra = (if local : bool then $", pybind11::module_local()" else [])
          ++ (if is_buffer_protocol_requested (wcfg w) (standard_name w (n_qname (r_decl (rec_ w r)))) then $", pybind11::buffer_protocol()" else []) ->
  (if negb (r_anon (rec_ w r)) then
           do bs <- bound_bases w (rec_ w r);
           do q <- request_types w (map (fun b => canonical (b_type b)) bs);
           Ok (class_head w r hold (if tr then $", " ++ tn else [])
                 (concat (map (fun R => $", " ++ class_qualified_name w R) (base_ids bs)))
                 (if n_member (r_decl (rec_ w r)) && negb (r_anon (rec_ w r)) then $"enclosing_class"
                        else module_variable_name (namespace_from_named_decl w (r_decl (rec_ w r)))) extra,
               base_ids bs, q)
         else Ok ([], [], [])) = Ok (head, deps, q0) ->
  exists bases, deps = base_classes bases /\
    if r_anon (rec_ w r) then bases = [] /\ head = []
     else selection (named_base w) (r_bases (rec_ w r)) bases /\
       head = class_line w r hold (if tr then Some (callback_structure_name w r) else None) (base_classes bases)
                (if n_member (r_decl (rec_ w r)) then $"enclosing_class" else $"M(" ++ quoted (namespace_from_named_decl w (r_decl (rec_ w r))) ++ $")") local.
Proof.
  intros -> -> H. destruct (r_anon (rec_ w r)) eqn:An; cbn [negb] in H.
  - apply Ok_inj in H. apply pair_equal_spec in H. destruct H as [H _]. apply pair_equal_spec in H. destruct H as [<- <-]. exists []. split; [reflexivity|]. split; reflexivity.
  - inv_ok H. inv_ok H. apply Ok_inj in H. apply pair_equal_spec in H. destruct H as [H _]. apply pair_equal_spec in H. destruct H as [<- <-]. exists a. split; [reflexivity|].
    split; [exact (bases_spec w r a H0)|]. rewrite <- (module_name_eq _ false _ eq_refl). rewrite <- class_line_eq. destruct tr; reflexivity.
Qed.
Lemma ctors_spec_for w r (tr : bool) (cls tn : str) s q : (r_abstract (rec_ w r) = true -> tr = true) -> bind_ctors w r (mkci r tr cls tn) = Ok (s, q) ->
  constructors_text w r cls (if tr then Some tn else None) s.
Proof. intros A H. exact (ctors_spec w r (mkci r tr cls tn) s q eq_refl A H). Qed.
Lemma constructors_spec w r (tr : bool) (cls tn : str) s q :
  (if (negb (r_abstract (rec_ w r)) || tr) && negb (r_anon (rec_ w r))
   then bind_ctors w r (mkci r tr cls (if tr then tn else [])) else Ok ([], [])) = Ok (s, q) ->
  if r_anon (rec_ w r) || r_abstract (rec_ w r) && (match (if tr then Some tn else None) with None => true | Some _ => false end) then s = []
     else constructors_text w r cls (if tr then Some tn else None) s.
Proof.
  intros H. destruct (r_anon (rec_ w r)); cbn [orb negb andb] in *.
  - rewrite andb_false_r in H. apply Ok_inj in H. apply pair_equal_spec in H. destruct H as [<- _]. reflexivity.
  - rewrite andb_true_r in H. destruct tr; cbn [andb].
    + rewrite orb_true_r in H. rewrite andb_false_r. exact (ctors_spec_for w r true cls tn s q (fun _ => eq_refl) H).
    + rewrite orb_false_r in H. rewrite andb_true_r. destruct (r_abstract (rec_ w r)) eqn:Ab; cbn [negb] in H.
      * apply Ok_inj in H. apply pair_equal_spec in H. destruct H as [<- _]. reflexivity.
      * refine (ctors_spec_for w r false cls [] s q _ H). intros Y. rewrite Ab in Y. discriminate.
Qed.
Lemma add_on_eq (o : option str) : match o with Some b => [nl; tab] ++ b ++ $"(cl);" ++ [nl] | None => [] end = add_on_call o.
Proof. reflexivity. Qed.
Lemma class_binding_spec w ops : const_is_method w -> forall fuel r b, bind_class fuel w ops r = Ok b -> class_binding w ops r b.
Proof.
  intros Wf. induction fuel as [fuel IH] using lt_wf_ind. intros r b H.
  assert (IHn : forall fuel' r b, S fuel' = fuel -> bind_class fuel' w ops r = Ok b -> class_binding w ops r b) by (intros fuel' r' b' E; apply IH; lia). clear IH.
  destruct fuel as [|fuel]; cbn [bind_class] in H; cbv zeta in H; (eapply class_cases; [exact H|]); clear H; intros H NP NB.
  all: inv_ok H; rename a into cs. all: inv_ok H; rename a into tr. all: inv_ok H; destruct a as [prefix0 incl0].
  all: inv_ok H; rename a into hold. all: inv_ok H; rename a into local. all: inv_ok H; destruct a as [[head deps] q0].
  all: inv_ok H; destruct a as [s1 q1]. all: inv_ok H; rename a into s2. all: inv_ok H; destruct a as [s3 q3]. all: inv_ok H; destruct a as [s4 q4].
  all: destruct (bind_repr w ops r) as [s5 incl5] eqn:ER. all: inv_ok H; destruct a as [[s7 prefix7] q7]. all: apply Ok_inj in H; subst b.
  all: pose proof (structure_spec w r cs tr prefix0 incl0 Wf H0 H1 H2) as ST. all: pose proof (holder_text_spec w r hold H3) as HT. all: pose proof (local_spec w _ _ H4) as LT.
  all: destruct (head_spec w r hold tr _ _ local head deps q0 eq_refl eq_refl H5) as [bases [-> HB]].
  all: pose proof (constructors_spec w r tr (class_qualified_name w r) (callback_structure_name w r) s1 q1 H6) as CT.
  all: rewrite enum_listed in H7; destruct (enums_spec w _ _ H7) as [es [ets [ES [EF ->]]]].
  all: pose proof (methods_text_spec w r s3 q3 Wf H8) as MT. all: pose proof (folded_text_spec w r s4 q4 _ Wf H9) as FT.
  all: pose proof (str_spec w ops r) as RT; rewrite ER in RT; cbn [fst snd] in RT.
  1: destruct (nested_cases 0 w ops (bound_nested w (rec_ w r)) s7 prefix7 q7 (class_binding w ops) IHn H10) as [bs [NF [NE [-> _]]]].
  2: assert (K10 : match bound_nested w (rec_ w r) with [] => Ok ([], [], []) | _ => nested_over fuel w ops (bound_nested w (rec_ w r)) end = Ok (s7, prefix7, q7)) by (destruct (bound_nested w (rec_ w r)); exact H10).
  2: destruct (nested_cases (S fuel) w ops (bound_nested w (rec_ w r)) s7 prefix7 q7 (class_binding w ops) IHn K10) as [bs [NF [NE [-> _]]]].
  all: rewrite NE; rewrite class_name_eq, add_on_eq; rewrite bound_nested_eq in NF; apply Forall2_map_l in NF.
  all: exact (CB_class w ops r _ prefix0 incl0 hold local bases head s1 es ets _ s3 s4 s5 incl5 _ bs _ NP NB ST HT LT HB CT ES EF (data_text_spec w r) MT FT RT (inner_spec w r) NF).
Qed.
