(** Proofs about the decisions on types, classes and functions (Types.v, Func.v). *)
From Coq Require Import Ascii String Bool Arith NArith Lia.
From Coq Require Import List.
From Verif Require Import Str StrFacts SpecUtil Util UtilFacts Config SpecConfig ConfigFacts Ast Types Func Enum Includes Class Context SpecContext SpecTypes ContextFacts TotalFacts.
Import ListNotations.

(** ** Small reflections *)
Lemma andb_false a b : a && b = false <-> a = false \/ b = false.
Proof. destruct a, b; cbn; intuition discriminate. Qed.
Lemma negb_false a : negb a = false <-> a = true.
Proof. destruct a; cbn; intuition discriminate. Qed.
Lemma negb_true a : negb a = true <-> a = false.
Proof. destruct a; cbn; intuition discriminate. Qed.
Lemma if_false (a b : bool) : (if a then false else b) = false <-> a = true \/ (a = false /\ b = false).
Proof. destruct a; intuition discriminate. Qed.
Lemma if_true (a b : bool) : (if a then false else b) = true <-> a = false /\ b = true.
Proof. destruct a; intuition discriminate. Qed.
Lemma starts_iff s p : begins_with s p = true <-> starts p s.
Proof. apply begins_with_iff. Qed.
Lemma contains_iff c s : contains_char c s = true <-> In c s.
Proof.
  unfold contains_char; rewrite existsb_exists; split; [intros [x [H E]]; apply Ascii.eqb_eq in E; subst; assumption|].
  intros H; exists c; split; [assumption|apply Ascii.eqb_refl].
Qed.
Lemma hidden_iff n : access_eqb (n_access n) Protected || access_eqb (n_access n) Private = true <-> hidden n.
Proof. unfold hidden; destruct (n_access n); cbn; intuition discriminate. Qed.
Lemma banned_iff w n : is_banned_symbol w n = true <-> banned_name (std_name w n).
Proof.
  unfold is_banned_symbol, banned_name, known_banned_symbols; cbv zeta. rewrite orb_true_iff, starts_iff, mem_In.
  cbn [In]; intuition.
Qed.
Lemma builtin_iff w n : is_python_builtin w n = true <-> python_type w (std_name w n).
Proof.
  unfold is_python_builtin, builtin_name, python_type; cbv zeta. generalize (standard_name w (n_qname n)) as s; intros s.
  destruct (mem s (lists (wcfg w) not_python_builtins)) eqn:E1.
  - apply mem_In in E1; intuition discriminate.
  - apply mem_false in E1. destruct (mem s (lists (wcfg w) python_builtins) || _) eqn:E2.
    + apply orb_true_iff in E2. rewrite !mem_In in E2. split; [intros _; split; [exact E1|]|reflexivity].
      destruct E2 as [E2|[E2|E2]]; auto.
    + apply orb_false_iff in E2; destruct E2 as [E2 E3]; apply mem_false in E2, E3; 
      rewrite andb_true_iff, mem_In. split; [intros H; split; [exact E1|auto]|].
      intros [_ [H|[H|[H|H]]]]; [contradiction| | |exact H]; exfalso; apply E3; [left; auto|right; exact H].
Qed.

(** ** Types that cannot be bound *)
Lemma add_const_shape c t : match t, add_const c t with
  | TPtr _ a, TPtr _ b => a = b
  | TArray _ a, TArray _ b => a = b
  | TRec _ r a, TRec _ r' b => r = r' /\ a = b
  | TEnum _ e, TEnum _ e' => e = e'
  | TBuiltin _ _, TBuiltin _ _ | TSugar _ _ _, TSugar _ _ _ | TDep _ _, TDep _ _ => True
  | TLRef a, TLRef b | TRRef a, TRRef b => a = b
  | TFun a l, TFun b m => a = b /\ l = m
  | _, _ => False
  end.
Proof. destruct t; cbn; auto. Qed.
Lemma shallow_sugar c n t : shallow_ok (TSugar c n t) = shallow_ok t.
Proof.
  unfold shallow_ok, is_function_pointer, is_rref, is_array; cbn [canonical dependent].
  pose proof (add_const_shape c (canonical t)) as S; destruct (canonical t), (add_const c _); try contradiction; try reflexivity.
  subst; reflexivity.
Qed.
Lemma shallow_iff t : shallow_ok t = false <->
  (exists c r ps, canonical t = TPtr c (TFun r ps)) \/ (exists p, canonical t = TRRef p) \/
  (exists c p, canonical t = TArray c p) \/ dependent t = true.
Proof.
  unfold shallow_ok, is_function_pointer, is_rref, is_array.
  rewrite !andb_false, !negb_false. split.
  - intros [[[H|H]|H]|H]; auto.
    + left; destruct (canonical t) as [|c p| | | | | | | |]; try discriminate; destruct p; try discriminate; eauto.
    + right; left; destruct (canonical t); try discriminate; eauto.
    + right; right; left; destruct (canonical t); try discriminate; eauto.
  - intros [[c [r [ps ->]]]|[[p ->]|[[c [p ->]]|H]]]; auto.
Qed.

Definition tag_ok (w : world) (t : qty) : bool :=
  match desugared t with
  | TRec _ r args => rec_bindable_raw w r (is_std_function_bindable w args) && tag_accessible (r_decl (rec_ w r))
  | TEnum _ e => tag_accessible (e_decl (enum_ w e))
  | _ => true
  end.
Lemma tag_ok_sugar w c n t : tag_ok w (TSugar c n t) = tag_ok w t.
Proof.
  unfold tag_ok; cbn [desugared]; pose proof (add_const_shape c (desugared t)) as S.
  destruct (desugared t), (add_const c _); try contradiction; try reflexivity; [destruct S as [-> ->]|subst]; reflexivity.
Qed.
Lemma bindable_sugared w t : bindable_type w true t = shallow_ok t && tag_ok w t.
Proof.
  induction t; cbn [bindable_type]; try reflexivity.
  rewrite shallow_sugar, tag_ok_sugar, IHt. destruct (shallow_ok t); reflexivity.
Qed.
Lemma bindable_written w t : bindable_type w false t = shallow_ok t &&
  match t with
  | TPtr _ p => negb (is_pointer p) && negb (is_array p) && negb (pair_pointee (standard_name w (print (wenv w) p))) && bindable_type w false p
  | TLRef p => negb (pair_referee (standard_name w (print (wenv w) p))) && bindable_type w false p
  | _ => tag_ok w t
  end.
Proof.
  destruct t; try reflexivity. cbn [bindable_type]. rewrite bindable_sugared, shallow_sugar, tag_ok_sugar.
  destruct (shallow_ok t); reflexivity.
Qed.

Definition bad_signature (w : world) (args : list targ) : Prop :=
  exists f ret ps text t, In (Targ (KDecl f (Some (ret, ps))) text) args /\ (t = ret \/ In t ps) /\ rejected w t.
Lemma class_bad w r args : (bad_signature w args -> is_std_function_bindable w args = false) ->
  rec_bindable_raw w r (is_std_function_bindable w args) = true -> ~ rejected_class w r args.
Proof.
  intros S. unfold rec_bindable_raw; cbv zeta. rewrite !if_true, negb_true.
  intros [A [L [C1 [C2 [D [X [I B]]]]]]] H.
  destruct H as [? ? H|r args H1 H2|r args H1 H2|? ? H|? ? H|r args H1 H2|r args H1 H2 H3 H4|r args f ret ps text t H1 H2 H3 H4 H5|? ? H]; try congruence.
  - rewrite H1, H2 in L; discriminate.
  - apply contains_iff in H1; rewrite H1 in C1, C2. destruct H2 as [H2|H2]; rewrite H2 in *; [discriminate|]. destruct (r_linkage (rec_ w r)); discriminate.
  - apply hidden_iff in H; congruence.
  - unfold is_specialization in I; rewrite H1, H2 in I; discriminate.
  - rewrite H1 in I; cbn [negb andb] in I. destruct (is_specialization (rec_ w r)); [|discriminate]. apply streqb_neq in H2; rewrite H2, H3 in I; cbn [negb andb] in I.
    apply negb_false, builtin_iff in I; contradiction.
  - rewrite H1 in I; cbn [negb andb] in I. destruct (is_specialization (rec_ w r)); [|discriminate]. apply streqb_eq in H2; rewrite H2 in I.
    apply negb_false in I. rewrite S in I; [discriminate|]. exists f, ret, ps, text, t; auto.
  - apply banned_iff in H; congruence.
Qed.
Lemma class_iff w r args : (is_std_function_bindable w args = false <-> bad_signature w args) ->
  (rec_bindable_raw w r (is_std_function_bindable w args) = false <-> rejected_class w r args).
Proof.
  intros [S1 S2]; split.
  - intros H. destruct (rec_bindable_raw w r (is_std_function_bindable w args)) eqn:E; [discriminate|].
    clear H.
    revert E; unfold rec_bindable_raw; cbv zeta. rewrite !if_false, negb_false, banned_iff, hidden_iff, !andb_true_iff, !negb_true, contains_iff.
    intros [H|[_ H]]; [apply RC_anonymous_namespace, H|].
    destruct H as [[H1 H2]|[_ H]]; [apply RC_no_linkage; assumption|].
    destruct H as [[H1 H2]|[_ H]]; [apply RC_unnamed; auto|].
    destruct H as [[[H1 H2] H3]|[_ H]]; [apply RC_unnamed; auto|].
    destruct H as [H|[_ H]]; [apply RC_dependent, H|].
    destruct H as [H|[_ H]]; [apply RC_hidden, H|].
    destruct H as [[H1 H2]|[_ H]]; [|apply RC_banned, H].
    unfold is_specialization in H2. destruct (r_targs (rec_ w r)) eqn:T; [|apply RC_incomplete; assumption].
    destruct (streqb_spec (n_qname (r_decl (rec_ w r))) $"std::function") as [E|E].
    + apply negb_true, S1 in H2. destruct H2 as [f [ret [ps [text [t [I1 [I2 I3]]]]]]]. eapply RC_function_signature; eauto.
    + apply andb_true_iff in H2; destruct H2 as [H2 H3]; apply negb_true in H2, H3.
      apply RC_never_instantiated; auto. intros P; apply builtin_iff in P; congruence.
  - intros H. destruct (rec_bindable_raw w r (is_std_function_bindable w args)) eqn:E; [|reflexivity].
    exfalso; exact (class_bad w r args S2 E H).
Qed.

Definition spec_holds (w : world) (t : qty) : Prop :=
  (bindable_type w false t = false <-> rejected w t) /\
  (forall c r args, desugared t = TRec c r args -> (is_std_function_bindable w args = false <-> bad_signature w args)).
Lemma forallb_false {A} (f : A -> bool) l : forallb f l = false <-> exists x, In x l /\ f x = false.
Proof.
  induction l as [|a l IH]; cbn [forallb]; [split; [discriminate|intros [x [[] _]]]|].
  rewrite andb_false, IH; split.
  - intros [H|[x [H1 H2]]]; [exists a; cbn; auto|exists x; cbn; auto].
  - intros [x [[<-|H1] H2]]; eauto.
Qed.
Lemma signature_iff w args : Forall (targ_all (spec_holds w)) args -> (is_std_function_bindable w args = false <-> bad_signature w args).
Proof.
  intros F. unfold is_std_function_bindable, bad_signature. rewrite forallb_false. rewrite Forall_forall in F. split.
  - intros [a [Ha E]]. specialize (F a Ha). destruct a as [[| | |f [[ret ps]|]| |] text]; try discriminate. cbn [targ_all] in F. destruct F as [F1 F2].
    rewrite Forall_forall in F2. apply andb_false in E; destruct E as [E|E].
    + exists f, ret, ps, text, ret; repeat split; auto. apply F1; exact E.
    + apply forallb_false in E; destruct E as [t [Ht E]]. exists f, ret, ps, text, t; repeat split; auto. apply (F2 t Ht); exact E.
  - intros [f [ret [ps [text [t [Ha [Ht R]]]]]]]. exists (Targ (KDecl f (Some (ret, ps))) text); split; [exact Ha|]. specialize (F _ Ha); cbn [targ_all] in F.
    destruct F as [F1 F2]; rewrite Forall_forall in F2. apply andb_false. destruct Ht as [->|Ht]; [left; apply F1; exact R|right].
    apply forallb_false. exists t; split; [exact Ht|apply (F2 t Ht); exact R].
Qed.
Lemma accessible_iff n : tag_accessible n = false <-> hidden n.
Proof. unfold tag_accessible; rewrite negb_false; apply hidden_iff. Qed.
Lemma tag_iff w t : (forall c r args, desugared t = TRec c r args -> (is_std_function_bindable w args = false <-> bad_signature w args)) ->
  (tag_ok w t = false <-> (exists c r args, desugared t = TRec c r args /\ rejected_class w r args) \/
                          (exists c e, desugared t = TEnum c e /\ hidden (e_decl (enum_ w e)))).
Proof.
  intros S. unfold tag_ok. destruct (desugared t) as [| | | | | |c r args|c e| |] eqn:D;
    try (split; [discriminate|intros [[c' [r' [a' [E _]]]]|[c' [e' [E _]]]]; discriminate]).
  - rewrite andb_false, (class_iff w r args (S _ _ _ eq_refl)), accessible_iff. split.
    + intros [H|H]; left; exists c, r, args; split; auto. apply RC_hidden, H.
    + intros [[c' [r' [a' [E H]]]]|[c' [e' [E _]]]]; [|discriminate]. injection E as <- <- <-; left; exact H.
  - rewrite accessible_iff. split; [intros H; right; eauto|].
    intros [[c' [r' [a' [E H]]]]|[c' [e' [E H]]]]; [discriminate|]. injection E as <- <-; exact H.
Qed.
Lemma pair_pointee_iff s : pair_pointee s = true <-> exists k, In k [$"struct std::pair"; $"const struct std::pair"; $"class std::tuple"; $"const class std::tuple"] /\ starts k s.
Proof.
  unfold pair_pointee; rewrite !orb_true_iff, !starts_iff. split.
  - intros [[[H|H]|H]|H]; eexists; (split; [|exact H]); cbn [In]; auto.
  - intros [k [[<-|[<-|[<-|[<-|[]]]]] H]]; auto.
Qed.
Lemma pair_referee_iff s : pair_referee s = true <-> exists k, In k [$"struct std::pair"; $"class std::tuple"] /\ starts k s.
Proof.
  unfold pair_referee; rewrite !orb_true_iff, !starts_iff. split.
  - intros [H|H]; eexists; (split; [|exact H]); cbn [In]; auto.
  - intros [k [[<-|[<-|[]]] H]]; auto.
Qed.
Lemma is_pointer_iff t : is_pointer t = true <-> exists c p, canonical t = TPtr c p.
Proof. unfold is_pointer; destruct (canonical t); split; try discriminate; try (intros [c' [p E]]; discriminate); eauto. Qed.
Lemma is_array_iff t : is_array t = true <-> exists c p, canonical t = TArray c p.
Proof. unfold is_array; destruct (canonical t); split; try discriminate; try (intros [c' [p E]]; discriminate); eauto. Qed.
(** What [rejected] says, by the outermost shape. *)
Lemma rejected_cases w t : rejected w t <->
  ((exists c r ps, canonical t = TPtr c (TFun r ps)) \/ (exists p, canonical t = TRRef p) \/
   (exists c p, canonical t = TArray c p) \/ dependent t = true) \/
  (exists c p, t = TPtr c p /\ (is_pointer p = true \/ is_array p = true \/ pair_pointee (standard_name w (print (wenv w) p)) = true \/ rejected w p)) \/
  (exists p, t = TLRef p /\ (pair_referee (standard_name w (print (wenv w) p)) = true \/ rejected w p)) \/
  (exists c r args, desugared t = TRec c r args /\ rejected_class w r args) \/
  (exists c e, desugared t = TEnum c e /\ hidden (e_decl (enum_ w e))).
Proof.
  split.
  - intros H. destruct H as [t c r ps H|t p H|t c p H|t H|c p c' p' H|c p c' p' H|c p k H1 H2|c p H|p k H1 H2|p H|t c r args H1 H2|t c e H1 H2].
    + left; left; eauto.
    + left; right; left; eauto.
    + left; right; right; left; eauto.
    + left; right; right; right; exact H.
    + right; left; exists c, p; split; [reflexivity|]; left; apply is_pointer_iff; eauto.
    + right; left; exists c, p; split; [reflexivity|]; right; left; apply is_array_iff; eauto.
    + right; left; exists c, p; split; [reflexivity|]; right; right; left; apply pair_pointee_iff; eauto.
    + right; left; exists c, p; split; [reflexivity|]; auto.
    + right; right; left; exists p; split; [reflexivity|]; left; apply pair_referee_iff; eauto.
    + right; right; left; exists p; split; [reflexivity|]; auto.
    + right; right; right; left; eauto.
    + right; right; right; right; eauto.
  - intros [[[c [r [ps H]]]|[[p H]|[[c [p H]]|H]]]|[[c [p [-> H]]]|[[p [-> H]]|[[c [r [args [H1 H2]]]]|[c [e [H1 H2]]]]]]].
    + eapply RJ_function_pointer; eauto.
    + eapply RJ_rvalue_reference; eauto.
    + eapply RJ_array; eauto.
    + apply RJ_dependent, H.
    + destruct H as [H|[H|[H|H]]].
      * apply is_pointer_iff in H; destruct H as [c' [p' H]]; eapply RJ_pointer_to_pointer; eauto.
      * apply is_array_iff in H; destruct H as [c' [p' H]]; eapply RJ_pointer_to_array; eauto.
      * apply pair_pointee_iff in H; destruct H as [k [H1 H2]]; eapply RJ_pointer_to_pair; eauto.
      * apply RJ_pointer, H.
    + destruct H as [H|H]; [apply pair_referee_iff in H; destruct H as [k [H1 H2]]; eapply RJ_reference_to_pair; eauto|apply RJ_reference, H].
    + eapply RJ_class; eauto.
    + eapply RJ_enum; eauto.
Qed.
Lemma or_iff4 (A B C D E A' B' C' D' E' : Prop) : (A <-> A') -> (B <-> B') -> (C <-> C') -> (D <-> D') -> (E <-> E') ->
  (A \/ B \/ C \/ D \/ E <-> A' \/ B' \/ C' \/ D' \/ E').
Proof. tauto. Qed.
Lemma written_iff w t : (forall c r args, desugared t = TRec c r args -> (is_std_function_bindable w args = false <-> bad_signature w args)) ->
  (forall p, (exists c, t = TPtr c p) \/ t = TLRef p -> (bindable_type w false p = false <-> rejected w p)) ->
  (bindable_type w false t = false <-> rejected w t).
Proof.
  intros S IH. rewrite bindable_written, andb_false, rejected_cases, shallow_iff, <- (tag_iff w t S).
  destruct t as [c n|c p|p|p|c p|ret ps|c r args|c e|c n p|c n];
    try (split; [intros [H|H]; auto|intros [H|[[c' [p' [E _]]]|[[p' [E _]]|H]]]; auto; discriminate]).
  - assert (T : tag_ok w (TPtr c p) = true) by reflexivity. rewrite T, !andb_false, !negb_false, (IH p) by eauto. split.
    + intros [H|H]; [left; exact H|right; left; exists c, p; split; [reflexivity|tauto]].
    + intros [H|[[c' [p' [E H]]]|[[p' [E _]]|H]]]; try discriminate; [left; exact H|]. injection E as <- <-; right; tauto.
  - assert (T : tag_ok w (TLRef p) = true) by reflexivity. rewrite T, !andb_false, !negb_false, (IH p) by eauto. split.
    + intros [H|H]; [left; exact H|right; right; left; exists p; split; [reflexivity|tauto]].
    + intros [H|[[c' [p' [E _]]]|[[p' [E H]]|H]]]; try discriminate; [left; exact H|]. injection E as <-; right; tauto.
Qed.
Lemma rejected_spec w t : spec_holds w t.
Proof.
  induction t using type_ind.
  7:{ assert (S : forall c' r' args', desugared (TRec c r args) = TRec c' r' args' -> (is_std_function_bindable w args' = false <-> bad_signature w args')).
      { intros c' r' args' E; injection E as <- <- <-; apply signature_iff; assumption. }
      split; [|exact S]. apply written_iff; [exact S|]. intros p [[c' E]|E]; discriminate. }
  8:{ assert (S : forall c' r' args', desugared (TSugar c n t) = TRec c' r' args' -> (is_std_function_bindable w args' = false <-> bad_signature w args')).
      { intros c' r' args' E; cbn [desugared] in E. destruct (desugared t) eqn:D; try discriminate. cbn [add_const] in E. injection E as <- <- <-. exact (proj2 IHt _ _ _ D). }
      split; [|exact S]. apply written_iff; [exact S|]. intros p [[c' E]|E]; discriminate. }
  all: split; [apply written_iff; [intros c' r' args' E; discriminate|]|intros c' r' args' E; discriminate].
  all: intros p [[c' E]|E]; try discriminate.
  - injection E as -> ->; apply IHt.
  - injection E as ->; apply IHt.
Qed.
Lemma bindable_q_iff w t : is_bindable_q w t = false <-> rejected w t.
Proof. apply rejected_spec. Qed.
Lemma bindable_rec_iff w r : is_bindable_rec w r = false <-> rejected_class w r (targs_of (rec_ w r)).
Proof. apply class_iff, signature_iff, Forall_forall. intros [[t|t| |f [[ret ps]|]| |] text] _; cbn [targ_all]; auto using rejected_spec.
  split; [apply rejected_spec|apply Forall_forall; intros; apply rejected_spec]. Qed.

(** ** Functions that cannot be bound *)
Lemma rfind_char s c i : rfind s [c] = Some i -> exists a b, s = a ++ c :: b /\ length a = i /\ ~ In c b.
Proof.
  revert i; induction s as [|x s IH]; intros i; cbn [rfind]; [discriminate|].
  destruct (rfind s [c]) as [j|] eqn:R.
  - intros E; injection E as <-. destruct (IH j eq_refl) as [a [b [-> [L N]]]]. exists (x :: a), b; repeat split; cbn; auto.
  - destruct (prefixb [c] (x :: s)) eqn:P; [|discriminate]. intros E; injection E as <-. cbn in P. rewrite andb_true_r in P. apply Ascii.eqb_eq in P; subst x.
    exists [], s; repeat split; auto. intros I. apply rfind_None in R. apply R. apply in_split in I; destruct I as [a [b ->]]. exists (length a), a, b; auto.
Qed.
Lemma bracket_iff qn : bracket_ok qn = false <-> inside_unnamed qn.
Proof.
  unfold bracket_ok, inside_unnamed. destruct (rfind qn $")") as [i|] eqn:R.
  - apply rfind_char in R; destruct R as [a [b [-> [L N]]]].
    assert (U : forall before after, a ++ ")"%char :: b = before ++ ")"%char :: after -> ~ In ")"%char after -> before = a).
    { intros before after E Na. clear L. revert before E. induction a as [|x a IH]; intros [|y before] E; cbn in E.
      - reflexivity.
      - injection E as _ E. exfalso; apply N. rewrite E; apply in_or_app; right; left; reflexivity.
      - injection E as -> E. exfalso; apply Na. rewrite <- E; apply in_or_app; right; left; reflexivity.
      - injection E as -> E. f_equal; apply IH; exact E. }
    destruct (list_eq_dec Ascii.ascii_dec a []) as [->|Ha].
    + cbn in L; subst i. split; [intros _; exists [], b; repeat split; auto; intros [|]; discriminate|reflexivity].
    + destruct (exists_last Ha) as [a' [x ->]]. rewrite app_length, Nat.add_1_r in L; subst i.
      rewrite <- app_assoc, nth_error_app2, Nat.sub_diag by lia. cbn [app nth_error]. split.
      * intros E; apply Ascii.eqb_neq in E. exists (a' ++ [x]), b; rewrite <- app_assoc; repeat split; auto. intros b' H; apply app_inj_tail in H; destruct H; contradiction.
      * intros [before [after [E [Na H]]]]. apply Ascii.eqb_neq; intros ->. 
        assert (before = a' ++ ["("%char]) by (apply (U before after); [rewrite <- app_assoc; exact E|exact Na]). exact (H a' H0).
  - apply rfind_None in R. split; [discriminate|]. intros [before [after [-> _]]]. exfalso; apply R. exists (length before), before, after; auto.
Qed.
Definition python_operator (op : str) (n : nat) : str :=
  match lookup op operator_table with
  | Some vec => if n <? length vec then nth n vec [] else last vec []
  | None => []
  end.
Lemma operator_sound op n name : operator_name op n name -> python_operator op n = name /\ name <> [].
Proof.
  intros H; destruct H as [|n H| |n H| |n H| |n H| |n H|op name n H].
  1,3,5,7,9: split; [reflexivity|discriminate].
  1-5: destruct n as [|[|n]]; [exfalso; lia| |]; (split; [reflexivity|discriminate]).
  cbn [In] in H. repeat (destruct H as [H|H]; [injection H as <- <-; destruct n; (split; [reflexivity|discriminate])|]). destruct H.
Qed.
Lemma operator_complete op n : python_operator op n <> [] -> operator_name op n (python_operator op n).
Proof.
  unfold python_operator. destruct (lookup op operator_table) as [vec|] eqn:L; [|congruence].
  apply lookup_In in L. unfold operator_table in L; cbn [In] in L. intros _.
  repeat (destruct L as [L|L]; [apply pair_equal_spec in L; destruct L as [<- <-];
    destruct n as [|[|n]];
    first [exact ON_pos|exact ON_neg|exact ON_deref|exact ON_pre_inc|exact ON_pre_dec
          |apply ON_add; lia|apply ON_sub; lia|apply ON_mul; lia|apply ON_post_inc; lia|apply ON_post_dec; lia
          |apply ON_other; cbn; tauto]|]).
  destruct L.
Qed.
Lemma operator_iff F name : operator_name (n_name (f_decl F)) (length (f_params F)) name <-> cpp_python_operator F = name /\ name <> [].
Proof.
  change (cpp_python_operator F) with (python_operator (n_name (f_decl F)) (length (f_params F))). split; [apply operator_sound|].
  intros [<- H]; apply operator_complete, H.
Qed.
Lemma bindable_fun_iff w F : is_bindable_fun w F = false <-> unbindable w F.
Proof.
  unfold is_bindable_fun. rewrite !andb_false, !negb_false, bracket_iff, banned_iff, bindable_q_iff, forallb_false.
  assert (Op : (if f_operator F then f_method F && negb (streqb (cpp_python_operator F) []) else true) = false <->
               f_operator F = true /\ (f_method F = false \/ forall name, ~ operator_name (n_name (f_decl F)) (length (f_params F)) name)).
  { destruct (f_operator F); [|split; [discriminate|intros [H _]; discriminate]]. rewrite andb_false, negb_false, streqb_eq. split.
    - intros [H|H]; split; auto. right; intros name N; apply operator_iff in N; destruct N; congruence.
    - intros [_ [H|H]]; [left; exact H|right]. destruct (cpp_python_operator F) eqn:E; [reflexivity|].
      exfalso; apply (H (cpp_python_operator F)). apply operator_iff; split; [reflexivity|congruence]. }
  rewrite Op. split.
  - intros [[[[[[[H|H]|H]|H]|H]|H]|H]|H].
    + apply UB_unnamed, H.
    + destruct H as [H [H1|H1]]; [apply UB_free_operator; assumption|apply UB_operator; assumption].
    + apply UB_deleted, H.
    + apply UB_pattern; destruct (f_kind F); congruence.
    + apply UB_conversion, H.
    + apply UB_return, H.
    + destruct H as [p [H1 H2]]. eapply UB_parameter; [exact H1|apply bindable_q_iff; exact H2].
    + apply UB_banned, H.
  - intros [H|H1 H2|H1 H2|H|H|H|H|p H1 H2|H]; auto 10.
    + rewrite H; auto 10.
    + left; right. exists p; split; [exact H1|]. apply bindable_q_iff; exact H2.
Qed.

(** ** Selection *)
Lemma listed_class_skip w n : is_class_skipping_requested (wcfg w) n = true <-> listed_in w classes_to_skip n.
Proof. apply mem_In. Qed.
Lemma listed_class_bind w n : is_class_binding_requested (wcfg w) n = true <-> listed_in w classes_to_bind n.
Proof. apply mem_In. Qed.
Lemma listed_fun_skip w n : is_function_skipping_requested (wcfg w) n = true <-> listed_in w functions_to_skip n.
Proof. apply mem_In. Qed.
Lemma listed_fun_bind w n : is_function_binding_requested (wcfg w) n = true <-> listed_in w functions_to_bind n.
Proof. apply mem_In. Qed.
Lemma not_true_iff (b : bool) (P : Prop) : (b = true <-> P) -> (b = false <-> ~ P).
Proof. destruct b; intuition discriminate. Qed.
Lemma ns_skip_iff w ns b : is_namespace_skipping_requested (wcfg w) ns = Ok b -> (b = true <-> namespace_skipped w ns).
Proof.
  intros E. destruct (longest_exists (lists (wcfg w) namespaces_to_bind) ns) as [x Hx], (longest_exists (lists (wcfg w) namespaces_to_skip) ns) as [y Hy].
  destruct (skipping_spec (wcfg w) ns x y Hx Hy) as [S1 [S2 _]]. split.
  - intros ->; exists x, y; repeat split; try apply Hx; try apply Hy. apply S1, E.
  - intros [x' [y' [Hx' [Hy' L]]]]. rewrite (longest_match_det _ _ _ _ Hx' Hx), (longest_match_det _ _ _ _ Hy' Hy) in L. apply S1 in L. congruence.
Qed.
Lemma ns_bind_iff w ns b : is_namespace_binding_requested (wcfg w) ns = Ok b -> (b = true <-> namespace_requested w ns).
Proof.
  intros E. destruct (longest_exists (lists (wcfg w) namespaces_to_bind) ns) as [x Hx], (longest_exists (lists (wcfg w) namespaces_to_skip) ns) as [y Hy].
  destruct (binding_spec (wcfg w) ns x y Hx Hy) as [S1 [S2 _]]. split.
  - intros ->; exists x, y; split; [exact Hx|split; [exact Hy|]]. apply S1, E.
  - intros [x' [y' [Hx' [Hy' L]]]]. rewrite (longest_match_det _ _ _ _ Hx' Hx), (longest_match_det _ _ _ _ Hy' Hy) in L. apply S1 in L. congruence.
Qed.
Lemma consistent_no_tie w ns x y : namespaces_consistent w -> longest_match (lists (wcfg w) namespaces_to_bind) ns x ->
  longest_match (lists (wcfg w) namespaces_to_skip) ns y -> ~ (x = y /\ 0 < x).
Proof.
  intros C [_ [->|[e [He [[r Er] Le]]]]] [_ [->|[e' [He' [[r' Er'] Le']]]]] [E L]; try lia.
  assert (e = e').
  { assert (E1 : firstn x ns = e) by (rewrite Er, <- Le; apply firstn_app_exact). assert (E2 : firstn x ns = e') by (rewrite Er', E, <- Le'; apply firstn_app_exact). congruence. }
  subst e'. rewrite (C e He He') in Le. cbn in Le; lia.
Qed.
Lemma ns_skip_ok w ns : namespaces_consistent w -> exists b, is_namespace_skipping_requested (wcfg w) ns = Ok b.
Proof.
  intros C. destruct (longest_exists (lists (wcfg w) namespaces_to_bind) ns) as [x Hx], (longest_exists (lists (wcfg w) namespaces_to_skip) ns) as [y Hy].
  rewrite (skipping_cases _ _ _ _ Hx Hy). pose proof (consistent_no_tie w ns x y C Hx Hy).
  destruct (Nat.ltb_spec y x); [eauto|]. destruct (Nat.ltb_spec x y); [eauto|]. destruct (Nat.ltb_spec 0 x); [lia|eauto].
Qed.
Lemma ns_bind_ok w ns : namespaces_consistent w -> exists b, is_namespace_binding_requested (wcfg w) ns = Ok b.
Proof.
  intros C. destruct (longest_exists (lists (wcfg w) namespaces_to_bind) ns) as [x Hx], (longest_exists (lists (wcfg w) namespaces_to_skip) ns) as [y Hy].
  rewrite (binding_cases _ _ _ _ Hx Hy). pose proof (consistent_no_tie w ns x y C Hx Hy).
  destruct (Nat.ltb_spec y x); [eauto|]. destruct (Nat.ltb_spec x y); [eauto|]. destruct (Nat.ltb_spec 0 x); [lia|eauto].
Qed.
Lemma or_all_iff l : forall acc b, or_all acc l = Ok b -> (b = true <-> acc = true \/ In (Ok true) l) /\ forall x, In x l -> exists v, x = Ok v.
Proof.
  induction l as [|x l IH]; intros acc b; cbn [or_all].
  - intros E; apply Ok_inj in E; subst; split; [cbn; intuition|intros x []].
  - intros E; inv_ok E. apply IH in E; destruct E as [E1 E2]. split.
    + rewrite E1, orb_true_iff; subst x; cbn [In]. split; [intros [[H|H]|H]; auto; subst; auto|intros [H|[H|H]]; auto]. apply Ok_inj in H; auto.
    + intros y [<-|H]; eauto.
Qed.
Lemma or_all_ok l acc : (forall x, In x l -> exists v, x = Ok v) -> exists b, or_all acc l = Ok b.
Proof.
  revert acc; induction l as [|x l IH]; intros acc H; cbn [or_all]; [eauto|].
  destruct (H x (or_introl eq_refl)) as [v ->]; cbn [bind_r]. apply IH; intros y Hy; apply H; right; exact Hy.
Qed.

Lemma precedence_iff (s1 b1 s2 b2 : bool) (S1 B1 S2 B2 R : Prop) (rest : result bool) b :
  (s1 = true <-> S1) -> (b1 = true <-> B1) -> (s2 = true <-> S2) -> (b2 = true <-> B2) ->
  (forall v, s2 = false -> rest = Ok v -> (v = true <-> R)) ->
  (if s1 then Ok true else if b1 then Ok false else if s2 then Ok true else if b2 then Ok false else rest) = Ok b ->
  (b = true <-> S1 \/ (~ S1 /\ ~ B1 /\ (S2 \/ (~ S2 /\ ~ B2 /\ R)))).
Proof.
  intros H1 H2 H3 H4 HR E.
  destruct s1; [apply Ok_inj in E; subst b; intuition|].
  destruct b1; [apply Ok_inj in E; subst b; intuition discriminate|].
  destruct s2; [apply Ok_inj in E; subst b; intuition discriminate|].
  destruct b2; [apply Ok_inj in E; subst b; intuition discriminate|].
  rewrite (HR b eq_refl E). intuition discriminate.
Qed.
Lemma precedence_ok (s1 b1 s2 b2 : bool) (rest : result bool) : (exists v, rest = Ok v) ->
  exists b, (if s1 then Ok true else if b1 then Ok false else if s2 then Ok true else if b2 then Ok false else rest) = Ok b.
Proof. intros H; destruct s1, b1, s2, b2; eauto. Qed.

(** The answers for the template type arguments. *)
Definition arg_answers (w : world) (args : list targ) : list (result bool) :=
  flat_map (fun a => match a with Targ (KType t') _ => [skip_type w false t'] | _ => [] end) args.
Lemma arg_answers_In w args x : In x (arg_answers w args) <-> exists t text, In (Targ (KType t) text) args /\ x = skip_type w false t.
Proof.
  unfold arg_answers; rewrite in_flat_map; split.
  - intros [[[t| | | | |] text] [Ha Hx]]; cbn [In] in Hx; try contradiction. destruct Hx as [<-|[]]; eauto.
  - intros [t [text [Ha ->]]]. exists (Targ (KType t) text); split; [exact Ha|left; reflexivity].
Qed.
Definition class_skipped_by (w : world) (r : nat) (arg : Prop) : Prop :=
  by_precedence w classes_to_skip classes_to_bind (class_names w r) (namespace_skipped w (namespace_from_named_decl w (r_decl (rec_ w r))) \/ arg).
Lemma class_skipped_iff w r args : class_skipped w r args <->
  class_skipped_by w r (exists t text, In (Targ (KType t) text) args /\ type_skipped w t).
Proof.
  unfold class_skipped_by, class_names; cbn [by_precedence]. split.
  - intros H; destruct H as [r args H|r args H1 H2 H3|r args H1 H2|r args t text H1 H2 H3].
    + left; exact H.
    + right; split; [exact H1|split; [exact H2|left; exact H3]].
    + destruct (H1 _ (or_introl eq_refl)), (H1 _ (or_intror (or_introl eq_refl))). right; repeat split; auto; right; auto.
    + destruct (H1 _ (or_introl eq_refl)), (H1 _ (or_intror (or_introl eq_refl))). right; repeat split; auto; right; repeat split; auto. right; eauto.
  - intros [H|[H1 [H2 [H|[H3 [H4 H]]]]]].
    + apply CS_exact, H.
    + apply CS_template; assumption.
    + assert (U : unlisted w classes_to_skip classes_to_bind (class_names w r)) by (intros n [<-|[<-|[]]]; auto).
      destruct H as [H|[t [text [Ha Ht]]]]; [apply CS_namespace; assumption|eapply CS_argument; eauto].
Qed.
Lemma skip_rec_iff w r deps b (arg : Prop) : skip_rec_with w r deps = Ok b ->
  ((forall x, In x deps -> exists v, x = Ok v) -> (In (Ok true) deps <-> arg)) ->
  (b = true <-> class_skipped_by w r arg).
Proof.
  unfold skip_rec_with, class_skipped_by, class_names; cbv zeta; cbn [by_precedence].
  intros E D. refine (precedence_iff _ _ _ _ _ _ _ _ _ _ _ (listed_class_skip _ _) (listed_class_bind _ _) (listed_class_skip _ _) (listed_class_bind _ _) _ E).
  clear E b; intros b _ E. inv_ok E. apply ns_skip_iff in E0. apply or_all_iff in E; destruct E as [E1 E2]. rewrite E1, E0, (D E2). reflexivity.
Qed.
Lemma skip_rec_ok w r deps : namespaces_consistent w -> (forall x, In x deps -> exists v, x = Ok v) -> exists b, skip_rec_with w r deps = Ok b.
Proof.
  intros C D. unfold skip_rec_with; cbv zeta. apply precedence_ok.
  destruct (ns_skip_ok w (namespace_from_named_decl w (r_decl (rec_ w r))) C) as [b ->]; cbn [bind_r]. apply or_all_ok, D.
Qed.
(** The class behind the sugar. *)
Lemma skip_sugared w t : skip_type w true t = match desugared t with TRec _ r args => skip_rec_with w r (arg_answers w args) | _ => Ok false end.
Proof.
  induction t; try reflexivity. cbn [skip_type desugared]. rewrite IHt.
  destruct (desugared t); reflexivity.
Qed.
Lemma skip_written w t : skip_type w false t =
  match t with
  | TPtr _ p | TLRef p | TRRef p => skip_type w false p
  | _ => match desugared t with TRec _ r args => skip_rec_with w r (arg_answers w args) | _ => Ok false end
  end.
Proof. destruct t; try reflexivity. cbn [skip_type]. rewrite skip_sugared. cbn [desugared]. destruct (desugared t); reflexivity. Qed.
Lemma type_skipped_cases w t : type_skipped w t <->
  match t with
  | TPtr _ p | TLRef p | TRRef p => type_skipped w p
  | _ => exists c r args, desugared t = TRec c r args /\ class_skipped w r args
  end.
Proof.
  split.
  - intros H; destruct H as [c t H|t H|t H|t c r args E H]; try exact H. destruct t; try discriminate; eauto.
  - destruct t; intros H; try (destruct H as [c' [r' [a' [E H]]]]; eapply TS_class; eauto; fail); [apply TS_pointer|apply TS_lvalue|apply TS_rvalue]; exact H.
Qed.
Definition skip_holds (w : world) (t : qty) : Prop :=
  (forall b, skip_type w false t = Ok b -> (b = true <-> type_skipped w t)) /\
  (forall c r args, desugared t = TRec c r args -> forall b, skip_rec_with w r (arg_answers w args) = Ok b -> (b = true <-> class_skipped w r args)).
Lemma skip_args_iff w r args b : Forall (targ_all (skip_holds w)) args -> skip_rec_with w r (arg_answers w args) = Ok b -> (b = true <-> class_skipped w r args).
Proof.
  intros F E. rewrite class_skipped_iff. apply (skip_rec_iff w r _ b _ E). intros D. rewrite Forall_forall in F. rewrite arg_answers_In. split.
  - intros [t [text [Ha Et]]]. exists t, text; split; [exact Ha|]. apply (proj1 (F _ Ha) true); auto.
  - intros [t [text [Ha Ht]]]. exists t, text; split; [exact Ha|].
    destruct (D (skip_type w false t)) as [v Ev]; [apply arg_answers_In; eauto|]. rewrite Ev. f_equal. symmetry. apply (proj1 (F _ Ha) v Ev), Ht.
Qed.
Lemma skip_spec w t : skip_holds w t.
Proof.
  assert (K : forall t', (forall c r args, desugared t' = TRec c r args -> forall b, skip_rec_with w r (arg_answers w args) = Ok b -> (b = true <-> class_skipped w r args)) ->
              (forall b, match desugared t' with TRec _ r args => skip_rec_with w r (arg_answers w args) | _ => Ok false end = Ok b ->
                         (b = true <-> exists c r args, desugared t' = TRec c r args /\ class_skipped w r args))).
  { intros t' C b E. destruct (desugared t') as [| | | | | |c r args| | |] eqn:D;
      try (apply Ok_inj in E; subst b; split; [discriminate|intros [? [? [? [X _]]]]; discriminate]).
    rewrite (C c r args eq_refl b E). split; [eauto|]. intros [? [? [? [X H]]]]; injection X as <- <- <-; exact H. }
  induction t using type_ind.
  7:{ assert (C : forall c' r' args', desugared (TRec c r args) = TRec c' r' args' -> forall b, skip_rec_with w r' (arg_answers w args') = Ok b -> (b = true <-> class_skipped w r' args')).
      { intros c' r' args' E b Eb; injection E as <- <- <-. apply skip_args_iff; assumption. }
      split; [|exact C]. intros b. rewrite skip_written, type_skipped_cases. apply (K (TRec c r args) C). }
  8:{ assert (C : forall c' r' args', desugared (TSugar c n t) = TRec c' r' args' -> forall b, skip_rec_with w r' (arg_answers w args') = Ok b -> (b = true <-> class_skipped w r' args')).
      { intros c' r' args' E; cbn [desugared] in E. destruct (desugared t) eqn:D; try discriminate. cbn [add_const] in E. injection E as <- <- <-. exact (proj2 IHt _ _ _ D). }
      split; [|exact C]. intros b. rewrite skip_written, type_skipped_cases. apply (K (TSugar c n t) C). }
  all: split; [|intros c' r' args' E; discriminate]; intros b; rewrite skip_written, type_skipped_cases.
  2,3,4: apply IHt.
  all: intros E; apply Ok_inj in E; subst b; split; [discriminate|intros [? [? [? [X _]]]]; discriminate].
Qed.
Lemma skip_q_iff w t b : is_skipping_requested_q w t = Ok b -> (b = true <-> type_skipped w t).
Proof. apply skip_spec. Qed.
Lemma skip_args_all w args : Forall (targ_all (skip_holds w)) args.
Proof.
  apply Forall_forall; intros [[t|t| |f [[ret ps]|]| |] text] _; cbn [targ_all]; auto using skip_spec.
  split; [apply skip_spec|apply Forall_forall; intros; apply skip_spec].
Qed.
Lemma skip_type_ok w t : namespaces_consistent w -> exists b, skip_type w false t = Ok b.
Proof.
  intros C. cut ((exists b, skip_type w false t = Ok b) /\ (forall c r args, desugared t = TRec c r args -> exists b, skip_rec_with w r (arg_answers w args) = Ok b)); [intros H; apply H|].
  induction t using type_ind.
  7:{ assert (G : exists b, skip_rec_with w r (arg_answers w args) = Ok b).
      { apply skip_rec_ok; [exact C|]. intros x Hx; apply arg_answers_In in Hx; destruct Hx as [t [text [Ha ->]]]. rewrite Forall_forall in H. apply (H _ Ha). }
      split; [exact G|intros c' r' args' E; injection E as <- <- <-; exact G]. }
  8:{ assert (G : forall c' r' args', desugared (TSugar c n t) = TRec c' r' args' -> exists b, skip_rec_with w r' (arg_answers w args') = Ok b).
      { intros c' r' args' E; cbn [desugared] in E. destruct (desugared t) eqn:D; try discriminate. cbn [add_const] in E. injection E as <- <- <-. exact (proj2 IHt _ _ _ eq_refl). }
      split; [|exact G]. rewrite skip_written. destruct (desugared (TSugar c n t)); eauto. }
  all: split; [rewrite skip_written|intros c' r' args' E; discriminate].
  2,3,4: apply IHt.
  all: cbn [desugared]; eauto.
Qed.

Lemma skip_class_args w r : map (is_skipping_requested_q w) (type_args (targs_of (rec_ w r))) = arg_answers w (targs_of (rec_ w r)).
Proof.
  unfold type_args, arg_answers, is_skipping_requested_q. induction (targs_of (rec_ w r)) as [|[[] p] l IH]; cbn [flat_map map app]; try exact IH; [reflexivity|]. f_equal; exact IH.
Qed.
Lemma skip_class_iff w r b : is_skipping_requested_rec w r = Ok b -> (b = true <-> class_skipped w r (targs_of (rec_ w r))).
Proof. unfold is_skipping_requested_rec; rewrite skip_class_args. apply skip_args_iff, skip_args_all. Qed.
Lemma skip_class_ok w r : namespaces_consistent w -> exists b, is_skipping_requested_rec w r = Ok b.
Proof.
  intros C. unfold is_skipping_requested_rec; rewrite skip_class_args. apply skip_rec_ok; [exact C|].
  intros x Hx; apply arg_answers_In in Hx; destruct Hx as [t [text [_ ->]]]. apply skip_type_ok, C.
Qed.
Lemma or_args_iff w r b : or_all false (map (is_skipping_requested_q w) (type_args (targs_of (rec_ w r)))) = Ok b ->
  (b = true <-> exists t text, In (Targ (KType t) text) (targs_of (rec_ w r)) /\ type_skipped w t).
Proof.
  rewrite skip_class_args. intros E; apply or_all_iff in E; destruct E as [E1 E2]. rewrite E1. split.
  - intros [H|H]; [discriminate|]. apply arg_answers_In in H; destruct H as [t [text [Ha Et]]]. exists t, text; split; [exact Ha|]. apply (skip_q_iff w t true); auto.
  - intros [t [text [Ha Ht]]]. right. apply arg_answers_In. exists t, text; split; [exact Ha|].
    destruct (E2 (skip_type w false t)) as [v Ev]; [apply arg_answers_In; eauto|]. rewrite Ev; f_equal; symmetry; apply (skip_q_iff w t v Ev), Ht.
Qed.
Lemma bind_class_iff w r b : is_binding_requested_rec w r = Ok b -> (b = true <-> class_requested w r).
Proof.
  unfold is_binding_requested_rec; cbv zeta. intros E.
  destruct (is_class_binding_requested (wcfg w) (class_qualified_name w r) || _) eqn:B.
  { apply Ok_inj in E; subst b. apply orb_true_iff in B; rewrite !listed_class_bind in B. split; [intros _|reflexivity].
    destruct B as [B|B]; eapply CR_listed; try exact B; cbn; auto. }
  apply orb_false_iff in B; destruct B as [B1 B2]. apply (not_true_iff _ _ (listed_class_bind _ _)) in B1, B2.
  assert (N : forall n, In n (class_names w r) -> ~ listed_in w classes_to_bind n) by (intros n [<-|[<-|[]]]; assumption).
  destruct (negb (bind_class_template_specialization (wopt w)) && is_specialization (rec_ w r)) eqn:S.
  { apply Ok_inj in E; subst b. apply andb_true_iff in S; destruct S as [S1 S2]; apply negb_true in S1.
    split; [discriminate|]. intros [n Hn Hl|_ [H|H] _ _]; [exfalso; eapply N; eauto|congruence|]. unfold is_specialization in S2; rewrite H in S2; discriminate. }
  inv_ok E. inv_ok E. apply Ok_inj in E; subst b. apply ns_bind_iff in E0. apply or_args_iff in E1.
  rewrite andb_true_iff, negb_true, E0, (not_true_iff _ _ E1). split.
  - intros [H1 H2]. apply CR_namespace; [exact N| |exact H1|intros t text Ha Ht; apply H2; eauto].
    apply andb_false in S; destruct S as [S|S]; [left; apply negb_false, S|right; unfold is_specialization in S; destruct (r_targs (rec_ w r)); [discriminate|reflexivity]].
  - intros [n Hn Hl|_ _ H1 H2]; [exfalso; eapply N; eauto|]. split; [exact H1|]. intros [t [text [Ha Ht]]]. exact (H2 t text Ha Ht).
Qed.
Lemma bind_class_ok w r : namespaces_consistent w -> exists b, is_binding_requested_rec w r = Ok b.
Proof.
  intros C. unfold is_binding_requested_rec; cbv zeta. destruct (_ || _); [eauto|]. destruct (_ && _); [eauto|].
  destruct (ns_bind_ok w (namespace_from_named_decl w (r_decl (rec_ w r))) C) as [b ->]; cbn [bind_r].
  rewrite skip_class_args. destruct (or_all_ok (arg_answers w (targs_of (rec_ w r))) false) as [v ->]; [|cbn [bind_r]; eauto].
  intros x Hx; apply arg_answers_In in Hx; destruct Hx as [t [text [_ ->]]]. apply skip_type_ok, C.
Qed.
Lemma bind_written w t : bind_type w false t =
  match t with
  | TPtr _ p | TLRef p | TRRef p => bind_type w false p
  | _ => match desugared t with TRec _ r _ => is_binding_requested_rec w r | _ => Ok false end
  end.
Proof.
  assert (S : forall t, bind_type w true t = match desugared t with TRec _ r _ => is_binding_requested_rec w r | _ => Ok false end).
  { induction t0; try reflexivity. cbn [bind_type desugared]. rewrite IHt0. destruct (desugared t0); reflexivity. }
  destruct t; try reflexivity. cbn [bind_type]. rewrite S. cbn [desugared]. destruct (desugared t); reflexivity.
Qed.
Lemma type_requested_cases w t : type_requested w t <->
  match t with
  | TPtr _ p | TLRef p | TRRef p => type_requested w p
  | _ => exists c r args, desugared t = TRec c r args /\ class_requested w r
  end.
Proof.
  split.
  - intros H; destruct H as [c t H|t H|t H|t c r args E H]; try exact H. destruct t; try discriminate; eauto.
  - destruct t; intros H; try (destruct H as [c' [r' [a' [E H]]]]; eapply TR_class; eauto; fail); [apply TR_pointer|apply TR_lvalue|apply TR_rvalue]; exact H.
Qed.
Lemma bind_q_iff w t : forall b, is_binding_requested_q w t = Ok b -> (b = true <-> type_requested w t).
Proof.
  assert (K : forall t' b, match desugared t' with TRec _ r _ => is_binding_requested_rec w r | _ => Ok false end = Ok b ->
              (b = true <-> exists c r args, desugared t' = TRec c r args /\ class_requested w r)).
  { intros t' b E. destruct (desugared t') as [| | | | | |c r args| | |] eqn:D;
      try (apply Ok_inj in E; subst b; split; [discriminate|intros [? [? [? [X _]]]]; discriminate]).
    rewrite (bind_class_iff w r b E). split; [eauto|]. intros [? [? [? [X H]]]]; injection X as <- <- <-; exact H. }
  unfold is_binding_requested_q. induction t; intros b; rewrite bind_written, type_requested_cases; try apply IHt; apply K.
Qed.
Lemma bind_q_ok w t : namespaces_consistent w -> exists b, is_binding_requested_q w t = Ok b.
Proof.
  intros C. unfold is_binding_requested_q. induction t; rewrite bind_written; try exact IHt;
    match goal with |- context [desugared ?x] => destruct (desugared x); eauto using bind_class_ok end.
Qed.

Lemma dependencies_iff F t : In t (fun_type_dependencies F) <-> in_signature F t.
Proof.
  unfold fun_type_dependencies, in_signature. cbn [In]. rewrite in_app_iff, in_map_iff.
  assert (A : In t (match f_kind F with TK_NonTemplate => [] | _ => match f_targs F with Some ta => type_args ta | None => [] end end) <->
              f_kind F <> TK_NonTemplate /\ exists args text, f_targs F = Some args /\ In (Targ (KType t) text) args).
  { assert (T : forall args, In t (type_args args) <-> exists text, In (Targ (KType t) text) args).
    { intros args; unfold type_args; rewrite in_flat_map; split.
      - intros [[[t'| | | | |] text] [Ha Hx]]; cbn [In] in Hx; try contradiction. destruct Hx as [->|[]]; eauto.
      - intros [text Ha]. exists (Targ (KType t) text); split; [exact Ha|left; reflexivity]. }
    destruct (f_kind F) eqn:K; [cbn; intuition|..]; (destruct (f_targs F) as [ta|]; [rewrite T; split; [intros [text H]; split; [discriminate|exists ta, text; auto]|intros [_ [a [text [E H]]]]; injection E as ->; eauto]
      |cbn; split; [intros []|intros [_ [a [text [E _]]]]; discriminate]]). }
  rewrite A. split.
  - intros [H|[[p [H1 H2]]|H]]; [left; auto|right; left; exists p; auto|right; right; exact H].
  - intros [H|[[p [H1 H2]]|H]]; [left; auto|right; left; exists p; auto|right; right; exact H].
Qed.
Lemma or_types_iff w F (f : world -> qty -> result bool) (P : world -> qty -> Prop) acc b :
  (forall t v, f w t = Ok v -> (v = true <-> P w t)) -> or_all acc (map (f w) (fun_type_dependencies F)) = Ok b ->
  (b = true <-> acc = true \/ exists t, in_signature F t /\ P w t).
Proof.
  intros Hf E; apply or_all_iff in E; destruct E as [E1 E2]. rewrite E1. split.
  - intros [H|H]; [auto|right]. apply in_map_iff in H; destruct H as [t [Et Ht]]. exists t; split; [apply dependencies_iff, Ht|]. apply (Hf t true); auto.
  - intros [H|[t [Ht Pt]]]; [auto|right]. apply dependencies_iff in Ht. apply in_map_iff; exists t; split; [|exact Ht].
    destruct (E2 (f w t)) as [v Ev]; [apply in_map; exact Ht|]. rewrite Ev; f_equal; apply (Hf t v Ev), Pt.
Qed.
Lemma or_types_ok w F (f : world -> qty -> result bool) acc : (forall t, exists b, f w t = Ok b) -> exists b, or_all acc (map (f w) (fun_type_dependencies F)) = Ok b.
Proof. intros H; apply or_all_ok. intros x Hx; apply in_map_iff in Hx; destruct Hx as [t [<- _]]; apply H. Qed.
Lemma bind_fun_iff w F b : is_binding_requested_fun w F = Ok b -> (b = true <-> function_requested w F).
Proof.
  unfold is_binding_requested_fun, function_requested; intros E.
  destruct (is_function_binding_requested (wcfg w) (n_qname (f_decl F)) || _) eqn:B.
  { apply Ok_inj in E; subst b. apply orb_true_iff in B; rewrite !listed_fun_bind in B. tauto. }
  apply orb_false_iff in B; destruct B as [B1 B2]. apply (not_true_iff _ _ (listed_fun_bind _ _)) in B1, B2.
  inv_ok E. apply ns_bind_iff in E0. rewrite (or_types_iff w F is_binding_requested_q type_requested a b (bind_q_iff w) E), E0. tauto.
Qed.
Lemma specialization_iff C : is_specialization C = true <-> exists args, r_targs C = Some args.
Proof. unfold is_specialization; destruct (r_targs C) as [l|]; split; try discriminate; eauto; intros [? X]; discriminate. Qed.
Lemma skip_fun_iff w F b : is_skipping_requested_fun w F = Ok b -> (b = true <-> function_skipped w F).
Proof.
  unfold is_skipping_requested_fun, function_skipped, function_names; cbv zeta; cbn [by_precedence]. intros E.
  refine (precedence_iff _ _ _ _ _ _ _ _ _ _ _ (listed_fun_skip _ _) (listed_fun_bind _ _) (listed_fun_skip _ _) (listed_fun_bind _ _) _ E).
  clear E b; intros b S2 E. inv_ok E. apply ns_skip_iff in E0. rewrite (or_types_iff w F is_skipping_requested_q type_skipped _ b (skip_q_iff w) E).
  rewrite S2, !orb_true_iff, !andb_true_iff, E0, listed_fun_skip, specialization_iff. clear. intuition discriminate.
Qed.
Lemma bind_fun_ok w F : namespaces_consistent w -> exists b, is_binding_requested_fun w F = Ok b.
Proof.
  intros C; unfold is_binding_requested_fun. destruct (_ || _); [eauto|].
  destruct (ns_bind_ok w (namespace_from_named_decl w (f_decl F)) C) as [v ->]; cbn [bind_r].
  apply (or_types_ok w F is_binding_requested_q); intros t; apply bind_q_ok, C.
Qed.
Lemma skip_fun_ok w F : namespaces_consistent w -> exists b, is_skipping_requested_fun w F = Ok b.
Proof.
  intros C; unfold is_skipping_requested_fun; cbv zeta. apply precedence_ok.
  destruct (ns_skip_ok w (namespace_from_named_decl w (f_decl F)) C) as [v ->]; cbn [bind_r].
  apply (or_types_ok w F is_skipping_requested_q); intros t; apply skip_type_ok, C.
Qed.
