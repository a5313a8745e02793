(** Spelling of library names (C55, C60, C62), types with template parameters
    (C45) and C98: template arguments of functions. *)
From Coq Require Import Ascii String Bool Arith NArith Lia.
From Coq Require Import List.
From Verif Require Import Str StrFacts SpecUtil UtilFacts Util Config SpecConfig ConfigFacts Ast Types Func Class Context SpecContext ContextFacts SpecTypes Regex TypesFacts NamesFacts SpecBind BindFacts Samples PropertiesTypes PropertiesContext SpecSpelling.
Import ListNotations.

(** ** C55: only known spellings are changed *)

Lemma replaced_steps (R : str -> str -> Prop) from to s r : R from to -> leftmost_replaced from to s r ->
  forall a, steps (rewrites R) (a ++ s) (a ++ r).
Proof.
  intros H L. induction L as [s N|a0 b r E N IH]; intros a; [apply ST_refl|].
  eapply ST_step; [exists (a ++ a0), from, to, b; split; [exact H|]; split; [rewrite <- !app_assoc; reflexivity|reflexivity]|].
  specialize (IH ((a ++ a0) ++ to)). rewrite <- !app_assoc in *. exact IH.
Qed.
Lemma name_map_spelling : forall k v, In (k, v) name_map -> spelling k v.
Proof.
  intros k v. unfold name_map. cbn [In]. intros H. repeat (destruct H as [H|H]; [injection H as <- <-|]); [..|destruct H].
  - exact (SP_inline $"__1" ltac:(cbn; tauto)).
  - exact (SP_inline $"__cxx11" ltac:(cbn; tauto)).
  - exact (SP_char $"string" ltac:(cbn; tauto)).
  - exact SP_string.
  - exact SP_class_string.
  - exact (SP_char $"ostream" ltac:(cbn; tauto)).
  - exact (SP_char $"istream" ltac:(cbn; tauto)).
  - exact (SP_class $"string" ltac:(cbn; tauto)).
  - exact (SP_class $"ostream" ltac:(cbn; tauto)).
  - exact (SP_class $"istream" ltac:(cbn; tauto)).
  - exact (SP_thread $"class " ltac:(cbn; tauto)).
  - exact (SP_thread [] ltac:(cbn; tauto)).
  - exact SP_null.
Qed.
Lemma fold_replace_steps l : (forall k v, In (k, v) l -> spelling k v /\ k <> []) ->
  forall s, steps (rewrites spelling) s (fold_left (fun r p => replace r (fst p) (snd p)) l s).
Proof.
  induction l as [|[k v] l IH]; intros H s; cbn [fold_left fst snd]; [apply ST_refl|].
  destruct (H k v (or_introl eq_refl)) as [Hs Hk].
  eapply steps_trans; [|apply IH; intros k' v' X; apply H; right; exact X].
  apply (replaced_steps spelling k v s _ Hs (proj2 (replace_spec s k v Hk _) eq_refl) []).
Qed.
(** A name is normalised by writing library names as programs do, dropping
    default template arguments if it is then a name of the library, and writing
    bool for _Bool. *)
Theorem C55_only_known_spellings : forall w s, regex_engine (rx (wenv w)) -> exists m m',
  steps (rewrites spelling) s m /\ bool_fixed None m' (standard_name w s) /\
  ((~ starts $"std::" m /\ m' = m) \/
   exists t t', m = $"std::" ++ t /\ m' = $"std::" ++ t' /\
     (std_typedef t t' \/ steps (shortens (fun full short => with_defaults full short \/ multiset_rule full short)) t t')).
Proof.
  intros w s E. set (m := fold_left (fun r p => replace r (fst p) (snd p)) name_map s).
  assert (M : steps (rewrites spelling) s m).
  { apply fold_replace_steps. intros k v H. split; [exact (name_map_spelling k v H)|]. intros ->. revert H. unfold name_map; cbn [In]. intros H.
    repeat (destruct H as [H|H]; [discriminate H|]). destruct H. }
  destruct (begins_with m $"std::") eqn:B.
  - apply starts_iff in B as [t Em]. exists m, ($"std::" ++ simplify_std_class_name (rx (wenv w)) t). split; [exact M|]. split.
    + apply fix_boolean_spec. unfold standard_name, standard_name_raw. fold m. cbv zeta. rewrite Em.
      assert (B : begins_with ($"std::" ++ t) $"std::" = true) by (apply starts_iff; exists t; reflexivity). rewrite B.
      f_equal. f_equal. f_equal. unfold substr. change (skipn 5 ($"std::" ++ t)) with t. apply firstn_all2. rewrite app_length. lia.
    + right. exists t, (simplify_std_class_name (rx (wenv w)) t). split; [exact Em|]. split; [reflexivity|].
      destruct (simplify_steps _ E t) as [H|H]; [left|right; exact H]. revert H. generalize (simplify_std_class_name (rx (wenv w)) t). clear. intros t' H. revert H.
      unfold std_typedef_map. cbn [In]. intros H. repeat (destruct H as [H|H]; [injection H as <- <-|]); [..|destruct H].
      * exact (TD_narrow $"iostream" ltac:(cbn; tauto)).
      * exact (TD_narrow $"ostream" ltac:(cbn; tauto)).
      * exact (TD_narrow $"istream" ltac:(cbn; tauto)).
      * exact (TD_wide $"ostream" ltac:(cbn; tauto)).
      * exact (TD_wide $"istream" ltac:(cbn; tauto)).
      * exact (TD_string $"stringstream" ltac:(cbn; tauto)).
      * exact (TD_string $"istringstream" ltac:(cbn; tauto)).
      * exact (TD_string $"ostringstream" ltac:(cbn; tauto)).
      * exact (TD_narrow $"filebuf" ltac:(cbn; tauto)).
      * exact TD_stringbuf.
      * exact (TD_narrow $"ifstream" ltac:(cbn; tauto)).
      * exact (TD_narrow $"ofstream" ltac:(cbn; tauto)).
      * exact (TD_string $"stringbuf" ltac:(cbn; tauto)).
      * exact TD_wstringbuf.
      * exact (TD_narrow $"streambuf" ltac:(cbn; tauto)).
      * exact (TD_wide $"streambuf" ltac:(cbn; tauto)).
  - exists m, m. split; [exact M|]. split; [|left; split; [intros X; apply starts_iff in X; congruence|reflexivity]].
    apply fix_boolean_spec. unfold standard_name, standard_name_raw. fold m. cbv zeta. rewrite B. reflexivity.
Qed.
Print Assumptions C55_only_known_spellings.

(** A library type alone gets the name that programs use. *)
Lemma no_bracket_simplify fs s : regex_engine fs -> ~ In "<"%char s -> simplify_std_class_name fs s = s.
Proof.
  intros E N. destruct (simplify_steps fs E s) as [H|H].
  - exfalso. revert H. generalize (simplify_std_class_name fs s). intros t H. revert H. unfold std_typedef_map. cbn [In]. intros H.
    repeat (destruct H as [H|H]; [injection H as <- _; apply N; vm_compute; tauto|]). destruct H.
  - inversion H as [x Ex|s1 s2 s3 [a [m [z [full [short [E1 [_ [E3 Rl]]]]]]]] Q Ea Eb]; [congruence|]. exfalso. apply N. rewrite E1. apply in_app_iff. right. apply in_app_iff. left.
    assert (K : In "<"%char (nospace full)).
    { unfold nospace, remove_char. apply filter_In. split; [|reflexivity]. destruct Rl as [Rl|[x [y [u [-> _]]]]]; [|rewrite !in_app_iff; cbn; tauto].
      destruct Rl; rewrite !in_app_iff; cbn; tauto. }
    rewrite <- E3 in K. unfold nospace, remove_char in K. apply filter_In in K. exact (proj1 K).
Qed.
Theorem C55_library_types : forall w long name, regex_engine (rx (wenv w)) -> spelling long name -> name <> $"std::" ->
  standard_name w long = name.
Proof.
  intros w long name E H N. unfold standard_name, standard_name_raw.
  assert (K : forall m, fold_left (fun r p => replace r (fst p) (snd p)) name_map long = $"std::" ++ m -> existsb (Ascii.eqb "<") m = false -> fix_boolean_types ($"std::" ++ m) = $"std::" ++ m ->
    (let r := fold_left (fun r p => replace r (fst p) (snd p)) name_map long in
     let r := if begins_with r $"std::" then $"std::" ++ simplify_std_class_name (rx (wenv w)) (substr r 5 (length r)) else r in fix_boolean_types r) = $"std::" ++ m).
  { intros m -> Nb Nl. cbv zeta. assert (NB : ~ In "<"%char m) by (intros J; assert (existsb (Ascii.eqb "<") m = true); [apply existsb_exists; exists "<"%char; split; [exact J|reflexivity]|congruence]). assert (B : begins_with ($"std::" ++ m) $"std::" = true) by (apply starts_iff; exists m; reflexivity). rewrite B.
    unfold substr. change (skipn 5 ($"std::" ++ m)) with m. rewrite firstn_all2 by (rewrite app_length; lia). rewrite (no_bracket_simplify _ _ E NB). exact Nl. }
  destruct H as [ns I|x I| | |x I|k I|].
  - destruct (N eq_refl).
  - cbn [In] in I. repeat (destruct I as [<-|I]; [match goal with |- _ = $"std::" ++ ?m => apply (K m); vm_compute; reflexivity end|]). destruct I.
  - apply (K $"string"); vm_compute; reflexivity.
  - apply (K $"string"); vm_compute; reflexivity.
  - cbn [In] in I. repeat (destruct I as [<-|I]; [match goal with |- _ = $"std::" ++ ?m => apply (K m); vm_compute; reflexivity end|]). destruct I.
  - cbn [In] in I. repeat (destruct I as [<-|I]; [apply (K $"thread::id"); vm_compute; reflexivity|]). destruct I.
  - apply (K $"nullptr_t"); vm_compute; reflexivity.
Qed.
Print Assumptions C55_library_types.
Example C55_spelling_cases : spelling $"std::basic_ostream<char>" $"std::ostream" /\
  standard_name std_w $"const class std::basic_ostream<char> &" = $"const std::ostream &" /\ standard_name std_w $"std::__1::basic_string<char>" = $"std::string".
Proof. split; [exact (SP_char $"ostream" ltac:(cbn; tauto))|]. split; vm_compute; reflexivity. Qed.

(** ** C60: the typedefs of the library *)
Theorem C60_typedefs : forall t n, In (t, n) std_typedef_map <-> std_typedef t n.
Proof.
  intros t n. split.
  - unfold std_typedef_map. cbn [In]. intros H. repeat (destruct H as [H|H]; [injection H as <- <-|]); [..|destruct H].
    1-3,9,11,12,15: match goal with |- std_typedef _ ?x => exact (TD_narrow x ltac:(cbn; tauto)) end.
    1,2,9: match goal with |- std_typedef _ (_ :: ?x) => exact (TD_wide x ltac:(cbn; tauto)) end.
    1-3,5: match goal with |- std_typedef _ ?x => exact (TD_string x ltac:(cbn; tauto)) end.
    + exact TD_stringbuf.
    + exact TD_wstringbuf.
  - intros H. destruct H as [x J|x J|x J| |]; [cbn [In] in J; repeat (destruct J as [<-|J]; [vm_compute; tauto|]); destruct J..|vm_compute; tauto|vm_compute; tauto].
Qed.
Print Assumptions C60_typedefs.

(** ** C62: the headers of library types *)

(** The header written is the one that was included, or a public one. *)
Theorem C62_public_headers : forall name include, header_of name include = include \/ In (header_of name include) public_headers.
Proof.
  intros name include.
  assert (G : forall k h, In (k, h) (type_map ++ name_map_old ++ include_map) -> In h public_headers).
  { intros k h H. assert (X : forallb (fun p => mem (snd p) public_headers) (type_map ++ name_map_old ++ include_map) = true) by (vm_compute; reflexivity).
    rewrite forallb_forall in X. specialize (X _ H). cbn [snd] in X. apply mem_In in X. exact X. }
  pose proof (proj1 (C62_header name include _) eq_refl) as H. remember (header_of name include) as h eqn:Eh. clear Eh.
  destruct H as [h H|p h _ H _|h _ _ H|]; [right|right|right|left; reflexivity]; eapply G; rewrite !in_app_iff; eauto.
Qed.
Print Assumptions C62_public_headers.
(** Full statement, false of the code: a header known for a name is written for
    this name (and the members of what it names) only. *)
Theorem C62_prefix_refuted : ~ (forall name include p h, In (p, h) name_map_old -> header_of name include = h -> include <> h -> ~ In name (map fst type_map) ->
  name = p \/ starts (p ++ $"::") name \/ starts (p ++ $"<") name).
Proof.
  intros H. specialize (H $"std::set_terminate" $"<exception>" $"std::set" $"<set>" ltac:(vm_compute; tauto) eq_refl ltac:(discriminate)).
  destruct H as [H|[[r H]|[r H]]]; [vm_compute; intuition discriminate|discriminate|discriminate|discriminate].
Qed.
Print Assumptions C62_prefix_refuted.
Example C62_public_case : header_of $"std::map" $"<bits/stl_map.h>" = $"<map>" /\ In $"<map>" public_headers /\ header_of $"n::A" $"<a.hh>" = $"<a.hh>".
Proof. split; [vm_compute; reflexivity|]. split; [vm_compute; tauto|vm_compute; reflexivity]. Qed.

(** ** C45: types that mention a template parameter *)
Lemma dependent_iff : forall t, dependent t = true <-> mentions_parameter t.
Proof.
  fix IH 1. intros [c n|c t|t|t|c t|r ps|c r args|c e|c n t|c n]; cbn [dependent].
  - split; [discriminate|intros H; inversion H].
  - rewrite IH. split; [apply MP_pointer|intros H; inversion H; assumption].
  - rewrite IH. split; [apply MP_lvalue_reference|intros H; inversion H; assumption].
  - rewrite IH. split; [apply MP_rvalue_reference|intros H; inversion H; assumption].
  - rewrite IH. split; [apply MP_array|intros H; inversion H; assumption].
  - rewrite orb_true_iff, IH.
    assert (P : existsb dependent ps = true <-> exists p, In p ps /\ mentions_parameter p).
    { induction ps as [|p ps IHp]; cbn [existsb In]; [split; [discriminate|intros [p [[] _]]]|].
      rewrite orb_true_iff, (IH p), IHp. split; [intros [H|[q [Hq H]]]; [exists p; auto|exists q; auto]|intros [q [[<-|Hq] H]]; [left; exact H|right; exists q; auto]]. }
    rewrite P. split; [intros [H|[p [Hp H]]]; [apply MP_result, H|exact (MP_argument _ _ p Hp H)]|intros H; inversion H; subst; [left; assumption|right; eauto]].
  - assert (P : existsb (fun a => match a with Targ (KType t') _ | Targ (KIntegral t') _ => dependent t' | _ => false end) args = true <->
      exists t s, (In (Targ (KType t) s) args \/ In (Targ (KIntegral t) s) args) /\ mentions_parameter t).
    { induction args as [|[k s] args IHa]; cbn [existsb In]; [split; [discriminate|intros [t [s [[[]|[]] _]]]]|].
      rewrite orb_true_iff, IHa.
      assert (Q : match k with KType t' | KIntegral t' => dependent t' | _ => false end = true <-> exists t, (k = KType t \/ k = KIntegral t) /\ mentions_parameter t).
      { destruct k as [t|t|d|d pr|n|]; try rewrite IH.
        1: split; [intros H; exists t; auto|intros [u [[Hu|Hu] H]]; [injection Hu as ->; exact H|discriminate Hu]].
        1: split; [intros H; exists t; auto|intros [u [[Hu|Hu] H]]; [discriminate Hu|injection Hu as ->; exact H]].
        all: split; [discriminate|intros [u [[Hu|Hu] _]]; discriminate Hu]. }
      rewrite Q. split.
      - intros [[t [[->| ->] H]]|[t [u [Hu H]]]]; [exists t, s; tauto|exists t, s; tauto|exists t, u; tauto].
      - intros [t [u [[[Hu|Hu]|[Hu|Hu]] H]]]; [injection Hu as -> ->; left; exists t; auto|right; exists t, u; auto|injection Hu as -> ->; left; exists t; auto|right; exists t, u; auto]. }
    rewrite P. split; [intros [t [s [[H|H] M]]]; [exact (MP_type_argument _ _ _ _ _ H M)|exact (MP_value_argument _ _ _ _ _ H M)]|intros H; inversion H; subst; eauto 6].
  - split; [discriminate|intros H; inversion H].
  - rewrite IH. split; [apply MP_typedef|intros H; inversion H; assumption].
  - split; [intros _; apply MP_parameter|reflexivity].
Qed.
Theorem C45_template_parameters : forall w visits o f, run w visits = Ok o -> bound o (DFun f) ->
  ~ mentions_parameter (f_ret (fun_ w f)) /\ forall p, In p (f_params (fun_ w f)) -> ~ mentions_parameter (canonical (p_type p)).
Proof.
  intros w visits o f H B. destruct (C45_unsupported_never_bound w visits o f H B) as [C _]. split.
  - intros M. apply C. apply UB_return. apply RJ_dependent, dependent_iff, M.
  - intros p Hp M. apply C. apply (UB_parameter _ _ p Hp). apply RJ_dependent, dependent_iff, M.
Qed.
Print Assumptions C45_template_parameters.
Theorem C45_dependent_types : forall w t, mentions_parameter t -> is_bindable_q w t = false.
Proof. intros w t M. destruct (is_bindable_q w t) eqn:E; [|reflexivity]. apply C45_types in E. exfalso. apply E. apply RJ_dependent, dependent_iff, M. Qed.
Print Assumptions C45_dependent_types.
(** A pointer to a pointer to a function from a template parameter and an int. *)
Example C45_parameter_case : mentions_parameter (TPtr false (TPtr false (TFun int [int; TDep false $"T"]))).
Proof. apply MP_pointer, MP_pointer. apply (MP_argument _ _ (TDep false $"T")); [cbn; tauto|constructor]. Qed.

(** ** C98: template arguments of functions *)
Lemma contributes_fold args pieces : Forall2 contributes args pieces -> forall acc,
  fold_left (fun templ a => match a with
             | Targ (KPack 0) _ => templ
             | Targ (KPack _) arg => templ ++ (if 2 <? length arg then substr arg 1 (length arg - 2) else arg) ++ $","
             | Targ _ arg => templ ++ arg ++ $","
             end) args acc = acc ++ concat (map (fun a => a ++ $",") (concat pieces)).
Proof.
  induction 1 as [|a p args pieces H F IH]; intros acc; cbn [fold_left concat map]; [rewrite app_nil_r; reflexivity|].
  rewrite IH. destruct H as [s|n body N|k s N]; cbn [app map concat].
  - reflexivity.
  - assert (L : 2 <? length ($"<" ++ body ++ $">") = true) by (apply Nat.ltb_lt; rewrite !app_length; cbn; destruct body; [congruence|cbn; lia]).
    rewrite L. assert (X : substr ($"<" ++ body ++ $">") 1 (length ($"<" ++ body ++ $">") - 2) = body).
    { replace (length ($"<" ++ body ++ $">") - 2) with (length body) by (rewrite !app_length; cbn; lia).
      unfold substr. change (skipn 1 ($"<" ++ body ++ $">")) with (body ++ $">"). rewrite firstn_app, firstn_all, Nat.sub_diag. cbn. apply app_nil_r. }
    rewrite X. rewrite <- !app_assoc. reflexivity.
  - destruct k as [t|t|d|d pr|n|]; try (rewrite <- !app_assoc; reflexivity). destruct (N n eq_refl).
Qed.
Lemma standard_nil w : standard_name w [] = [].
Proof. unfold standard_name, standard_name_raw. vm_compute. reflexivity. Qed.

(** The arguments of an instance of a function template, as they follow its
    name: every argument once, in order, between brackets. *)
Theorem C98_arguments : forall w F args pieces body, f_kind F = TK_Specialization -> f_targs F = Some args -> Forall2 contributes args pieces ->
  commas (concat pieces) body -> exists t, bool_fixed None ($"<" ++ body ++ $">") t /\ fun_specialization w F = standard_name w t.
Proof.
  intros w F args pieces body K A P C. exists (fix_boolean_types ($"<" ++ body ++ $">")). split; [apply fix_boolean_spec; reflexivity|].
  unfold fun_specialization. rewrite K, A. cbv zeta. f_equal. f_equal. rewrite (contributes_fold _ _ P), (commas_concat _ _ C).
  change ($"<" ++ body ++ $",") with (("<"%char :: body) ++ [","%char]). rewrite set_last_snoc.
  assert (L : length (("<"%char :: body) ++ [">"%char]) =? 1 = false) by (apply Nat.eqb_neq; rewrite app_length; cbn; lia). rewrite L. reflexivity.
Qed.
Print Assumptions C98_arguments.
(** Names without words of the library tables stay as they are. *)
Lemma occurs_through p k s : occurs p k -> occurs k s -> occurs p s.
Proof.
  intros [i [a [b [-> _]]]] [j [c [d [-> _]]]]. exists (length (c ++ a)), (c ++ a), (b ++ d). split; [rewrite <- !app_assoc; reflexivity|reflexivity].
Qed.
Lemma occurs_inside p body : p <> [] -> ~ In "<"%char p -> ~ In ">"%char p -> occurs p ($"<" ++ body ++ $">") -> occurs p body.
Proof.
  intros Np N1 N2 [i [a [b [E _]]]]. destruct a as [|c a].
  - destruct p as [|x p]; [congruence|]. cbn in E. injection E as <- _. destruct N1. left. reflexivity.
  - cbn [app] in E. injection E as _ E. destruct (rev b) as [|z rb] eqn:Rb.
    + apply (f_equal (@rev ascii)) in Rb. rewrite rev_involutive in Rb. cbn in Rb. subst b. rewrite app_nil_r in E. exfalso. apply N2.
      apply (f_equal (@rev ascii)) in E. rewrite !rev_app_distr in E. cbn in E. destruct (rev p) as [|y rp] eqn:Rp.
      * apply (f_equal (@rev ascii)) in Rp. rewrite rev_involutive in Rp. cbn in Rp. congruence.
      * injection E as <- _. apply in_rev. rewrite Rp. left. reflexivity.
    + apply (f_equal (@rev ascii)) in Rb. rewrite rev_involutive in Rb. cbn [rev] in Rb. subst b. rewrite !app_assoc in E. apply app_inj_tail in E as [E _].
      exists (length a), a, (rev rb). split; [rewrite E, <- app_assoc; reflexivity|reflexivity].
Qed.
Theorem C98_text : forall w F args pieces body, f_kind F = TK_Specialization -> f_targs F = Some args -> Forall2 contributes args pieces ->
  commas (concat pieces) body -> ~ occurs $"std::" body -> ~ occurs $"nullptr_t" body -> ~ occurs $"_Bool" body ->
  fun_specialization w F = $"<" ++ body ++ $">".
Proof.
  intros w F args pieces body K A P C N1 N2 N3. destruct (C98_arguments w F args pieces body K A P C) as [t [T ->]].
  assert (M : forall p, p <> [] -> ~ In "<"%char p -> ~ In ">"%char p -> ~ occurs p body -> ~ occurs p ($"<" ++ body ++ $">")).
  { intros p X1 X2 X3 X4 X5. apply X4. apply occurs_inside; assumption. }
  assert (B : ~ occurs $"_Bool" ($"<" ++ body ++ $">")) by (apply M; [discriminate|cbn; intuition discriminate|cbn; intuition discriminate|exact N3]).
  apply fix_boolean_spec in T. rewrite (fix_absent _ B) in T. subst t. apply ordinary_name; [|intros [r X]; discriminate X|exact B].
  intros k Hk O.
  assert (Z : occurs $"std::" k \/ k = $"nullptr_t").
  { unfold name_map in Hk. cbn [map fst In] in Hk. repeat (destruct Hk as [<-|Hk]; [first [right; reflexivity|left; apply find0_occurs; vm_compute; discriminate]|]). destruct Hk. }
  destruct Z as [Z| ->].
  - revert Z. intros Z. pose proof (occurs_through _ _ _ Z O) as Q. revert Q. apply M; [discriminate|cbn; intuition discriminate|cbn; intuition discriminate|exact N1].
  - revert O. apply M; [discriminate|cbn; intuition discriminate|cbn; intuition discriminate|exact N2].
Qed.
Print Assumptions C98_text.
(** No brackets without arguments. *)
Theorem C98_no_arguments : forall w F, (f_kind F <> TK_Specialization \/ f_targs F = None \/
    exists args pieces, f_targs F = Some args /\ Forall2 contributes args pieces /\ concat pieces = []) -> fun_specialization w F = [].
Proof.
  intros w F H. unfold fun_specialization.
  assert (X : (match f_kind F, f_targs F with
    | TK_Specialization, Some ta => fix_boolean_types (let t := set_last ">" (fold_left (fun templ a => match a with
             | Targ (KPack 0) _ => templ
             | Targ (KPack _) arg => templ ++ (if 2 <? length arg then substr arg 1 (length arg - 2) else arg) ++ $","
             | Targ _ arg => templ ++ arg ++ $","
             end) ta $"<") in if length t =? 1 then [] else t) | _, _ => [] end) = []).
  { destruct H as [H|[H|[args [pieces [H [P E]]]]]].
    - destruct (f_kind F); try reflexivity; congruence.
    - rewrite H. destruct (f_kind F); reflexivity.
    - rewrite H. destruct (f_kind F); try reflexivity. rewrite (contributes_fold _ _ P), E. vm_compute. reflexivity. }
  cbv zeta in *. rewrite X. apply standard_nil.
Qed.
Print Assumptions C98_no_arguments.
(** The pointer to a function that is passed to the binding names the instance. *)
Theorem C98_address : forall w F n lifted e args pieces body, expression w F n lifted false e -> n = length (f_params F) ->
  f_kind F = TK_Specialization -> f_targs F = Some args -> Forall2 contributes args pieces -> commas (concat pieces) body ->
  ~ occurs $"std::" body -> ~ occurs $"nullptr_t" body -> ~ occurs $"_Bool" body ->
  exists type name, pointer_type w F type /\ callee w F lifted name /\ e = $"(" ++ type ++ $") &" ++ name ++ $"<" ++ body ++ $">".
Proof.
  intros w F n lifted e args pieces body X En K A P C N1 N2 N3.
  destruct X as [ty name L0 _ Tp Cn|? ? ? ? ? [L0|L0]|? ? ? ? ? ? [L0|L0]]; [|lia|discriminate|lia|discriminate].
  exists ty, name. split; [exact Tp|]. split; [exact Cn|].
  rewrite (C98_text w F args pieces body K A P C N1 N2 N3). reflexivity.
Qed.
Print Assumptions C98_address.
Definition instance_of (args : list targ) (F : fn) : fn :=
  mkfn (f_decl F) (f_ret F) (f_params F) (f_method F) (f_static F) (f_const F) (f_virtual F) (f_pure F) (f_final F) (f_variadic F) (f_deleted F)
       (f_operator F) (f_conversion F) (f_dtor F) (f_ctor F) TK_Specialization (Some args) (f_est F) (f_copy_assign F).
Example C98_case :
  let args := [Targ (KType int) $"int"; Targ (KPack 2) $"<A, B>"; Targ (KPack 0) $"<>"; Targ (KIntegral int) $"3"] in
  let F := instance_of args mix_g in
  Forall2 contributes args [[$"int"]; [$"A, B"]; []; [$"3"]] /\ commas (concat [[$"int"]; [$"A, B"]; []; [$"3"]]) $"int,A, B,3" /\
  fun_specialization std_w F = $"<int,A, B,3>" /\ fun_specialization std_w mix_g = [] /\ fun_specialization std_w (instance_of [Targ (KPack 0) $"<>"] mix_g) = [] /\
  expression (mix_w false false 1000%N) F 2 None false ($"(int (*)(const class S &, int)) &n::g<int,A, B,3>").
Proof.
  cbv zeta. split; [repeat (constructor; [first [apply CO_empty_pack|apply (CO_pack 1 $"A, B"); discriminate|apply CO_other; discriminate]|]); constructor|].
  split; [apply (CM_more $"int" [$"A, B"; $"3"] $"A, B,3"), (CM_more $"A, B" [$"3"] $"3"), CM_one|].
  split; [vm_compute; reflexivity|]. split; [vm_compute; reflexivity|]. split; [vm_compute; reflexivity|].
  match goal with |- expression ?w ?F _ _ _ _ => pose proof (proj1 (expression_spec w F 2 None false (le_n _))) as X end. vm_compute (fst _) in X. exact X.
Qed.

(** ** C10: the classes that Python knows *)

Lemma known_class_iff s : In s known_builtin <-> known_class s.
Proof.
  split.
  - intros H. unfold known_builtin in H.
    repeat (destruct H as [<-|H]; [first
      [ exact KC_vector_iterator
      | match goal with |- known_class ?s => let r := eval vm_compute in (skipn 5 s) in change (known_class ($"std::" ++ r)) end;
        first [apply KC_value; cbn [In]; tauto | apply KC_memory; cbn [In]; tauto | apply KC_gnu; cbn [In]; tauto]
      | match goal with |- known_class ?s => let r := eval vm_compute in (skipn 16 s) in change (known_class ($"std::__detail::_" ++ r)) end; apply KC_hash; cbn [In]; tauto
      | match goal with |- known_class ?s => let r := eval vm_compute in (skipn 7 s) in change (known_class ($"std::__" ++ r)) end; apply KC_llvm; cbn [In]; tauto
      | match goal with |- known_class ?s => let r := eval vm_compute in (skipn 10 s) in change (known_class ($"pybind11::" ++ r)) end; apply KC_pybind11; cbn [In]; tauto
      | match goal with |- known_class ?s => let r := eval vm_compute in (skipn 10 (removelast s)) in change (known_class ($"pybind11::" ++ r ++ $"_")) end; apply KC_pybind11_keyword; cbn [In]; tauto ]|]).
    destruct H.
  - intros H. apply mem_In. destruct H as [x H|x H|x H|x H|x H| |x H|x H]; try (vm_compute; reflexivity);
      cbn [In] in H; repeat (destruct H as [<-|H]; [vm_compute; reflexivity|]); destruct H.
Qed.
Lemma converted_container_iff s : In s stl_builtin <-> converted_container s.
Proof.
  split.
  - intros H. unfold stl_builtin in H. repeat (destruct H as [<-|H]; [first
      [ exact CC_variant
      | match goal with |- converted_container ?s => let r := eval vm_compute in (skipn 5 s) in change (converted_container ($"std::" ++ r)) end; apply CC_sequence; cbn [In]; tauto
      | match goal with |- converted_container ?s => let r := eval vm_compute in (skipn 5 s) in change (converted_container ($"std::" ++ [] ++ r)) end; apply CC_lookup; cbn [In]; tauto
      | match goal with |- converted_container ?s => let r := eval vm_compute in (skipn 15 s) in change (converted_container ($"std::" ++ $"unordered_" ++ r)) end; apply CC_lookup; cbn [In]; tauto
      | apply (CC_optional []); cbn [In]; tauto
      | apply (CC_optional $"experimental::"); cbn [In]; tauto ]|]).
    destruct H.
  - intros H. apply mem_In. destruct H as [x H|u x H1 H|e H|]; try (vm_compute; reflexivity);
      try (cbn [In] in H1; destruct H1 as [<-|[<-|[]]]);
      cbn [In] in H; repeat (destruct H as [<-|H]; [vm_compute; reflexivity|]); destruct H.
Qed.
Theorem C10_known_classes : forall w name, builtin_name w name = true <->
  ~ In name (lists (wcfg w) not_python_builtins) /\
  (In name (lists (wcfg w) python_builtins) \/ name = strs (wcfg w) holder_type \/ known_class name \/
   (include_pybind11_stl (wopt w) = true /\ converted_container name)).
Proof.
  intros w name. rewrite (PropertiesContext.C10_python_builtin w name), (known_class_iff name), (converted_container_iff name). reflexivity.
Qed.
Print Assumptions C10_known_classes.
(** With the default configuration no class outside [std], pybind11 and the
    internals of the GNU library is taken for a class of Python. *)
Theorem C10_user_classes : forall w name, lists (wcfg w) python_builtins = [] -> name <> strs (wcfg w) holder_type ->
  (forall p, In p [$"std::"; $"pybind11::"; $"__gnu_cxx::"] -> ~ starts p name) -> builtin_name w name = false.
Proof.
  intros w name L Hh N. destruct (builtin_name w name) eqn:E; [exfalso|reflexivity].
  apply C10_known_classes in E. destruct E as [_ [E|[E|[E|[_ E]]]]]; [rewrite L in E; destruct E|exact (Hh E)| |].
  - destruct E as [x _|x _|x _|x _|x _| |x _|x _];
      first [apply (N $"std::"); [left; reflexivity|eexists; reflexivity] | apply (N $"pybind11::"); [right; left; reflexivity|eexists; reflexivity]
            |apply (N $"__gnu_cxx::"); [right; right; left; reflexivity|eexists; reflexivity]].
  - destruct E as [x _|u x _ _|e _|]; apply (N $"std::"); [left; reflexivity|eexists; reflexivity|left; reflexivity|eexists; reflexivity|left; reflexivity|eexists; reflexivity|left; reflexivity|eexists; reflexivity].
Qed.
Print Assumptions C10_user_classes.
(** The table has a misspelt name: pybind11's [bytearray] is not known. *)
Theorem C10_bytearray_refuted : ~ (forall x, In x [$"bytes"; $"bytearray"; $"str"] -> known_class ($"pybind11::" ++ x)).
Proof.
  intros H. specialize (H $"bytearray" (or_intror (or_introl eq_refl))). apply known_class_iff, mem_In in H. vm_compute in H. discriminate H.
Qed.
Print Assumptions C10_bytearray_refuted.
Example C10_known_case : known_class $"pybind11::int_" /\ converted_container $"std::unordered_map" /\
  map (builtin_name (mix_w false false 1000%N)) [$"pybind11::int_"; $"std::vector"; $"n::A"; $"pybind11::bytearray"] = [true; false; false; false].
Proof.
  split; [apply (KC_pybind11_keyword $"int"); cbn [In]; tauto|]. split; [apply (CC_lookup $"unordered_" $"map"); cbn [In]; tauto|vm_compute; reflexivity].
Qed.
