(** Properties of calls from Python.  The specification is in SpecCalls.v. *)
From Coq Require Import Ascii String Bool Arith NArith Lia.
From Coq Require Import List.
From Verif Require Import Str StrFacts SpecUtil SpecConfig Util UtilFacts Config Ast Types Func Enum Includes Class Context SpecTypes SpecBind BindFacts PropertiesBind SpecCalls Samples.
Import ListNotations.

(** ** C89: positional and keyword arguments *)

Lemma nth_firstn {A} n (l : list A) i : i < n -> nth_error (firstn n l) i = nth_error l i.
Proof. revert l i; induction n; intros l i H; [lia|]. destruct l; [destruct i; reflexivity|]. destruct i; [reflexivity|]. cbn. apply IHn. lia. Qed.
Lemma nth_skipn {A} n (l : list A) i : nth_error (skipn n l) i = nth_error l (n + i).
Proof. revert l; induction n; intros l; [reflexivity|]. destruct l; [destruct i; reflexivity|]. apply IHn. Qed.

Lemma forall2_length {A B} (R : A -> B -> Prop) a b : Forall2 R a b -> length a = length b.
Proof. induction 1; cbn; congruence. Qed.
Lemma nth_ext_ {A} (a b : list A) : (forall i, nth_error a i = nth_error b i) -> a = b.
Proof.
  revert b; induction a as [|x a IH]; intros [|y b] H; [reflexivity|discriminate (H 0)|discriminate (H 0)|].
  f_equal; [injection (H 0); auto|]. apply IH. intros i. exact (H (S i)).
Qed.
Lemma taken_named {V} (c : call V) names n args : NoDup names -> n <= length names ->
  taken c n (Some (firstn n names)) args <-> gives_first c names n args.
Proof.
  intros ND L. assert (LF : length (firstn n names) = n) by (rewrite firstn_length; lia). split.
  - intros H; inversion H as [|n' ns rest L1 L2 F K]; subst n' ns.
    assert (LR : length rest = n - length (positional c)) by (rewrite <- (forall2_length _ _ _ F), skipn_length, LF; reflexivity).
    split; [rewrite app_length; lia|split; [exact L2|split]].
    + intros i v E. destruct (le_lt_dec (length (positional c)) i) as [Hi|Hi]; [|left; rewrite nth_error_app1 in E by exact Hi; exact E].
      right. split; [exact Hi|]. rewrite nth_error_app2 in E by exact Hi.
      assert (X : forall (a : list str) (b : list V) j w, Forall2 (fun name v => In (name, v) (keywords c)) a b -> nth_error b j = Some w ->
                  exists name, nth_error a j = Some name /\ In (name, w) (keywords c)).
      { clear. intros a b j w F; revert j; induction F as [|x y a b Hx F IH]; intros j E; [destruct j; discriminate|].
        destruct j; [injection E as <-; exists x; auto|]. apply IH. exact E. }
      destruct (X _ _ _ _ F E) as [name [E1 E2]]. exists name. split; [|exact E2].
      rewrite nth_skipn in E1. replace (length (positional c) + (i - length (positional c))) with i in E1 by lia.
      assert (i < n) by (rewrite <- LF; apply nth_error_Some; congruence). rewrite nth_firstn in E1 by assumption. exact E1.
    + intros name Hn. destruct (K name Hn) as [K1 _]. apply In_nth_error in K1. destruct K1 as [j K1]. rewrite nth_skipn in K1.
      assert (length (positional c) + j < n) by (rewrite <- LF; apply nth_error_Some; congruence).
      exists (length (positional c) + j). rewrite nth_firstn in K1 by assumption. split; [lia|exact K1].
  - intros [LA [LP [G K]]].
    assert (E : args = positional c ++ skipn (length (positional c)) args).
    { rewrite <- (firstn_skipn (length (positional c)) args) at 1. f_equal. apply nth_ext_. intros i.
      destruct (le_lt_dec (length (positional c)) i) as [Hi|Hi].
      - rewrite (proj2 (nth_error_None _ _)) by (rewrite firstn_length; lia). symmetry. apply nth_error_None. exact Hi.
      - rewrite nth_firstn by exact Hi. destruct (nth_error args i) as [v|] eqn:Ea; [|apply nth_error_None in Ea; lia].
        destruct (G i v Ea) as [E|[E _]]; [symmetry; exact E|lia]. }
    rewrite E. apply (TK_named c n (firstn n names) (skipn (length (positional c)) args)); [exact LF|exact LP| |].
    + assert (X : forall (a : list str) (b : list V), length a = length b -> (forall j x v, nth_error a j = Some x -> nth_error b j = Some v -> In (x, v) (keywords c)) ->
                  Forall2 (fun name v => In (name, v) (keywords c)) a b).
      { clear. induction a as [|x a IH]; intros [|y b] L H; try discriminate; constructor; [exact (H 0 x y eq_refl eq_refl)|]. apply IH; [injection L; auto|].
        intros j x' v. exact (H (S j) x' v). }
      apply X; [rewrite !skipn_length, LF; lia|]. intros j x v E1 E2. rewrite nth_skipn in E1. rewrite nth_skipn in E2.
      assert (B : length (positional c) + j < n) by (rewrite <- LF; apply nth_error_Some; congruence). rewrite nth_firstn in E1 by exact B.
      destruct (G _ _ E2) as [E3|[_ [name [E3 E4]]]]; [assert (length (positional c) + j < length (positional c)) by (apply nth_error_Some; congruence); lia|].
      rewrite E1 in E3. injection E3 as ->. exact E4.
    + intros name Hn. destruct (K name Hn) as [i [[H1 H2] E1]]. split.
      * apply nth_error_In with (n := i - length (positional c)). rewrite nth_skipn. replace (length (positional c) + (i - length (positional c))) with i by lia.
        rewrite nth_firstn by exact H2. exact E1.
      * intros B. apply In_nth_error in B. destruct B as [j B].
        assert (j < length (positional c)) by (assert (X : j < length (firstn (length (positional c)) (firstn n names))) by (apply nth_error_Some; congruence); rewrite firstn_length in X; lia).
        rewrite !nth_firstn in B by lia. assert (i = j); [|lia].
        apply (proj1 (NoDup_nth_error names) ND); [apply nth_error_Some; congruence|congruence].
Qed.

Lemma gives_first_shorter {V} (c : call V) names n n' args args' : NoDup names -> gives_first c names n args -> gives_first c names n' args' -> n' <= n.
Proof.
  intros ND [L1 [P1 [_ K]]] [L2 [P2 [G _]]]. destruct (le_lt_dec n' n) as [H|H]; [exact H|]. exfalso.
  destruct (nth_error args' n) as [v|] eqn:E; [|apply nth_error_None in E; lia].
  destruct (G _ _ E) as [X|[_ [name [X Y]]]]; [assert (n < length (positional c)) by (apply nth_error_Some; congruence); lia|].
  destruct (K name) as [i [Hi Ei]]; [exact (in_map fst _ _ Y)|].
  assert (i = n); [|lia]. apply (proj1 (NoDup_nth_error names) ND); [apply nth_error_Some; congruence|congruence].
Qed.
Lemma pair_unique {V} (l : list (str * V)) x v v' : NoDup (map fst l) -> In (x, v) l -> In (x, v') l -> v = v'.
Proof.
  induction l as [|[y u] l IH]; intros ND A B; [destruct A|]. inversion ND as [|? ? N ND']; subst.
  destruct A as [A|A], B as [B|B].
  - congruence.
  - injection A as <- <-. exfalso. apply N. exact (in_map fst _ _ B).
  - injection B as <- <-. exfalso. apply N. exact (in_map fst _ _ A).
  - exact (IH ND' A B).
Qed.
Lemma gives_first_unique {V} (c : call V) names n n' args args' : NoDup names -> NoDup (map fst (keywords c)) ->
  gives_first c names n args -> gives_first c names n' args' -> n = n' /\ args = args'.
Proof.
  intros ND NK H H'. assert (E : n = n') by (apply Nat.le_antisymm; [exact (gives_first_shorter _ _ _ _ _ _ ND H' H)|exact (gives_first_shorter _ _ _ _ _ _ ND H H')]). split; [exact E|]. subst n'.
  destruct H as [L [P [G _]]], H' as [L' [_ [G' _]]]. apply nth_ext_. intros i.
  destruct (nth_error args i) as [v|] eqn:E; [|symmetry; apply nth_error_None; apply nth_error_None in E; lia].
  destruct (nth_error args' i) as [v'|] eqn:E'; [|assert (i < length args) by (apply nth_error_Some; congruence); apply nth_error_None in E'; lia].
  f_equal. destruct (G _ _ E) as [X|[X1 [x [X2 X3]]]], (G' _ _ E') as [Y|[Y1 [y [Y2 Y3]]]].
  - congruence.
  - assert (i < length (positional c)) by (apply nth_error_Some; congruence). lia.
  - assert (i < length (positional c)) by (apply nth_error_Some; congruence). lia.
  - rewrite X2 in Y2. injection Y2 as <-. exact (pair_unique _ _ _ _ NK X3 Y3).
Qed.
Lemma taken_unnamed {V} (c : call V) names n args : keywords c = [] -> taken c n None args <-> gives_first c names n args.
Proof.
  intros K. split.
  - intros H; inversion H; subst. split; [reflexivity|split; [apply le_n|split; [intros i v E; left; exact E|]]]. rewrite K. intros name [].
  - intros [L [P [G _]]].
    assert (E : args = positional c).
    { apply nth_ext_. intros i. destruct (nth_error args i) as [v|] eqn:E.
      - destruct (G _ _ E) as [X|[_ [x [_ X]]]]; [symmetry; exact X|]. rewrite K in X. destruct X.
      - symmetry. apply nth_error_None. apply nth_error_None in E. lia. }
    rewrite E in *. constructor; assumption.
Qed.
Lemma map_firstn {A B} (f : A -> B) n l : map f (firstn n l) = firstn n (map f l).
Proof. revert l; induction n; intros [|x l]; cbn; [reflexivity..|]. f_equal. apply IHn. Qed.
Lemma names_text_map ps : names_text (Some (map p_name ps)) = concat (map (fun p => $", pybind11::arg(" ++ quoted (p_name p) ++ $")") ps).
Proof. cbn [names_text]. rewrite map_map. reflexivity. Qed.
Lemma def_line_names w F n lifted lambda l : def_line w F n lifted lambda l -> has_names (Some (map p_name (firstn n (f_params F)))) l.
Proof.
  intros [name expr doc pol guard _ _ _ P G].
  assert (G' : guard = [] \/ exists g, guard = $", pybind11::call_guard<" ++ g ++ $">()") by (rewrite G; destruct (strs (wcfg w) default_call_guard); eauto).
  rewrite <- names_text_map. clear G.
  assert (X : pol = [] \/ exists p, pol = $", " ++ p) by (destruct P; eauto).
  destruct X as [->|[p ->]]; [|].
  - eapply eq_ind; [apply (HN_def ($".def" ++ (if is_static F then $"_static" else []) ++ $"(" ++ quoted name ++ $", " ++ expr ++ $", " ++ [dq] ++ doc) guard _ G')|].
    unfold quoted. rewrite <- !app_assoc. reflexivity.
  - eapply eq_ind; [apply (HN_policy ($".def" ++ (if is_static F then $"_static" else []) ++ $"(" ++ quoted name ++ $", " ++ expr ++ $", " ++ [dq] ++ doc) p guard _ G')|].
    unfold quoted. rewrite <- !app_assoc. reflexivity.
Qed.
Lemma constructor_line_names w abstract cls tramp T n l : n <= length (f_params T) -> constructor_line w abstract cls tramp T n l -> has_names (constructor_names tramp T n) l.
Proof.
  intros Ln H. assert (X : n < length (f_params T) \/ f_variadic T = true -> (n =? length (f_params T)) && negb (f_variadic T) = false).
  { intros [Y| ->]; [|apply andb_false_r]. rewrite (proj2 (Nat.eqb_neq _ _)) by lia. reflexivity. }
  destruct H as [types E V P|t f L A E Fa|t f g L A E Fa Fb|f L A E Fa].
  - assert (Y : constructor_names tramp T n = Some (map p_name (firstn n (f_params T)))).
    { destruct tramp; [|reflexivity]. cbn [constructor_names]. rewrite E, Nat.eqb_refl, V. reflexivity. }
    rewrite Y, <- names_text_map. apply HN_init.
  - rewrite E. cbn [constructor_names]. rewrite (X L). apply HN_none.
  - rewrite E. cbn [constructor_names]. rewrite (X L). eapply eq_ind; [apply (HN_none (f ++ $", " ++ g))|]. rewrite <- !app_assoc. reflexivity.
  - rewrite E. cbn [constructor_names]. rewrite <- names_text_map. apply HN_factory.
Qed.

(** The definitions of a function together take exactly the calls that give a
    value to the first parameters, at least up to the first default argument;
    every parameter gets the value that the call gives to it, and exactly one
    definition takes the call. *)
Theorem C89_functions : forall w module F lifted lambda s q k,
  bind_function w module F lifted lambda = Ok (s, q) -> smallest_arity F k ->
  exists lines, s = annotation w F false ++ concat (map (fun l => module ++ l ++ [nl]) lines) /\ length lines = length (f_params F) + 1 - k /\
    let names n := Some (map p_name (firstn n (f_params F))) in
    (forall i l, nth_error lines i = Some l -> has_names (names (k + i)) l) /\
    (NoDup (map p_name (f_params F)) -> forall V (c : call V) args,
       (exists i, i < length lines /\ taken c (k + i) (names (k + i)) args) <->
       (exists n, k <= n <= length (f_params F) /\ gives_first c (map p_name (f_params F)) n args)) /\
    (NoDup (map p_name (f_params F)) -> forall V (c : call V) i j args args', NoDup (map fst (keywords c)) -> i < length lines -> j < length lines ->
       taken c (k + i) (names (k + i)) args -> taken c (k + j) (names (k + j)) args' -> i = j /\ args = args').
Proof.
  intros w module F lifted lambda s q k B A. destruct (C42_overloads _ _ _ _ _ _ _ _ B A) as [lines [E [L D]]].
  exists lines. split; [exact E|split; [exact L|]]. cbv zeta. split; [|split].
  - intros i l Hl. exact (def_line_names _ _ _ _ _ _ (D i l Hl)).
  - intros ND V c args. split.
    + intros [i [Hi T]]. exists (k + i). split; [lia|]. rewrite map_firstn in T. apply taken_named; [exact ND|rewrite map_length; lia|exact T].
    + intros [n [Hn G]]. exists (n - k). split; [lia|]. replace (k + (n - k)) with n by lia. rewrite map_firstn. apply taken_named; [exact ND|rewrite map_length; lia|exact G].
  - intros ND V c i j args args' NK Hi Hj T T'. rewrite map_firstn in T, T'. apply taken_named in T; [|exact ND|rewrite map_length; lia]. apply taken_named in T'; [|exact ND|rewrite map_length; lia].
    destruct (gives_first_unique _ _ _ _ _ _ ND NK T T') as [X Y]. split; [lia|exact Y].
Qed.
Print Assumptions C89_functions.

(** Constructors: the same, but for a class with a call-back structure keywords
    are only taken if all arguments are given. *)
Theorem C89_constructors : forall w ci T s q k, (r_abstract (rec_ w (ci_class ci)) = true -> ci_trampoline ci = true) ->
  bind_constructor w ci T = Ok (s, q) -> first_default_at (f_params T) k ->
  let tramp := if ci_trampoline ci then Some (ci_trampoline_name ci) else None in
  exists lines, s = concat (map (fun l => annotation w T true ++ l ++ [nl]) lines) /\ length lines = length (f_params T) + 1 - k /\
    (forall i l, nth_error lines i = Some l -> has_names (constructor_names tramp T (k + i)) l) /\
    (NoDup (map p_name (f_params T)) -> forall V (c : call V) args,
       (exists i, i < length lines /\ taken c (k + i) (constructor_names tramp T (k + i)) args) <->
       (exists n, k <= n <= length (f_params T) /\ gives_first c (map p_name (f_params T)) n args /\
         (keywords c = [] \/ ci_trampoline ci = false \/ (n = length (f_params T) /\ f_variadic T = false)))).
Proof.
  intros w ci T s q k Ab B A tramp. destruct (C42_constructor_overloads _ _ _ _ _ _ Ab B A) as [lines [E [L D]]].
  exists lines. split; [exact E|split; [exact L|split]].
  - intros i l Hl. assert (i < length lines) by (apply nth_error_Some; congruence). assert (Le : k + i <= length (f_params T)) by lia. exact (constructor_line_names _ _ _ _ _ _ _ Le (D i l Hl)).
  - intros ND V c args.
    assert (X : forall n, k <= n <= length (f_params T) ->
      taken c n (constructor_names tramp T n) args <->
      gives_first c (map p_name (f_params T)) n args /\ (keywords c = [] \/ ci_trampoline ci = false \/ (n = length (f_params T) /\ f_variadic T = false))).
    { intros n Hn. unfold tramp. destruct (ci_trampoline ci) eqn:Ct; cbn [constructor_names].
      - destruct ((n =? length (f_params T)) && negb (f_variadic T)) eqn:Y.
        + apply andb_prop in Y. destruct Y as [Y1 Y2]. apply Nat.eqb_eq in Y1. apply negb_true_iff in Y2. rewrite map_firstn, (taken_named c _ n args ND) by (rewrite map_length; lia). tauto.
        + assert (Z : ~ (n = length (f_params T) /\ f_variadic T = false)) by (intros [-> Z]; rewrite Nat.eqb_refl, Z in Y; discriminate).
          split.
          * intros H. assert (K : keywords c = []) by (inversion H; assumption). split; [apply (taken_unnamed c (map p_name (f_params T)) n args K), H|left; exact K].
          * intros [G [K|[K|K]]]; [apply (taken_unnamed c (map p_name (f_params T)) n args K), G|discriminate|contradiction].
      - rewrite map_firstn, (taken_named c _ n args ND) by (rewrite map_length; lia). tauto. }
    split.
    + intros [i [Hi H]]. exists (k + i). split; [lia|]. apply X; [lia|exact H].
    + intros [n [Hn H]]. exists (n - k). split; [lia|]. replace (k + (n - k)) with n by lia. apply X; assumption.
Qed.
Print Assumptions C89_constructors.

(** A call that leaves out an argument with a default value but gives a later
    one by its name is not taken, nor is a keyword for a constructor with
    fewer than all arguments, if the class has a call-back structure. *)
Definition gap_call : call nat := mkcall [7] [($"c", 9)].
Theorem C89_any_keyword_refuted :
  (exists w F s q (c : call nat), bind_function w $"M" F None false = Ok (s, q) /\ smallest_arity F 1 /\ NoDup (map p_name (f_params F)) /\
     (forall i p, nth_error (f_params F) i = Some p -> p_default p = false -> exists v, gives c (map p_name (f_params F)) i v) /\
     (forall name, In name (map fst (keywords c)) -> In name (map p_name (f_params F))) /\
     forall n args, ~ (1 <= n <= length (f_params F) /\ taken c n (Some (map p_name (firstn n (f_params F)))) args)) /\
  (exists w ci T s q (c c' : call nat), bind_constructor w ci T = Ok (s, q) /\ first_default_at (f_params T) 1 /\ NoDup (map p_name (f_params T)) /\
     (exists args, gives_first c (map p_name (f_params T)) 1 args /\ gives_first c' (map p_name (f_params T)) 1 args /\
        taken c 1 (constructor_names (Some (ci_trampoline_name ci)) T 1) args) /\
     ci_trampoline ci = true /\ forall n args, ~ taken c' n (constructor_names (Some (ci_trampoline_name ci)) T n) args).
Proof.
  split.
  - exists bind_w, two_defaults. do 2 eexists. exists gap_call.
    split; [vm_compute; reflexivity|split; [exact C42_case_arity|split; [repeat constructor; cbn; intuition discriminate|split; [|split]]]].
    + intros i p E D. destruct i as [|[|[|i]]]; cbn in E; [|injection E as <-; discriminate|injection E as <-; discriminate|destruct i; discriminate].
      exists 7. left. reflexivity.
    + intros name [<-|[]]. cbn. tauto.
    + intros n args [[H1 H2] H]. inversion H as [|n' ns rest L1 L2 F K]; subst. cbn in L2.
      destruct n as [|[|[|[|n]]]]; try lia.
      * destruct (K $"c") as [X _]; [left; reflexivity|]. cbn in X. exact X.
      * destruct (K $"c") as [X _]; [left; reflexivity|]. cbn in X. destruct X as [X|[]]; discriminate.
      * inversion F as [|? ? ? ? F1 F2]; subst. destruct F1 as [F1|[]]. discriminate.
      * cbn in H2. lia.
  - exists bind_w, (mkci 0 true $"n::A" $"PyCallBack_n_A"), two_defaults. do 2 eexists. exists (mkcall [7] []), (mkcall [] [($"a", 7)]).
    split; [vm_compute; reflexivity|split; [|split; [repeat constructor; cbn; intuition discriminate|split; [|split; [reflexivity|]]]]].
    + destruct C42_case_arity as [[_ X]|[_ X]]; [discriminate X|exact X].
    + exists [7]. split; [|split].
      * split; [reflexivity|split; [cbn; lia|split; [|intros name []]]]. intros i v E. left. exact E.
      * split; [reflexivity|split; [cbn; lia|split]]; [|intros name [<-|[]]; exists 0; split; [cbn; lia|reflexivity]].
        intros i v E. right. split; [cbn; lia|]. destruct i as [|i]; [|destruct i; discriminate]. injection E as <-. exists $"a". split; [reflexivity|left; reflexivity].
      * apply TK_unnamed; reflexivity.
    + intros n args H. cbn [constructor_names] in H. destruct ((n =? length (f_params two_defaults)) && negb (f_variadic two_defaults)) eqn:E; [|inversion H; discriminate].
      apply andb_prop in E. destruct E as [E _]. apply Nat.eqb_eq in E. cbn in E. subst n. inversion H as [|n' ns rest L1 L2 F K]; subst.
      inversion F as [|? ? ? ? F1 F2]; subst. inversion F2 as [|? ? ? ? F3 F4]; subst. destruct F3 as [F3|[]]. discriminate.
Qed.
Print Assumptions C89_any_keyword_refuted.

(** The function [f(a, b = .., c = ..)] called as [f(7, c=9, b=8)] and [f(a=7)]. *)
Example C89_case : gives_first (mkcall [7] [($"c", 9); ($"b", 8)]) (map p_name (f_params two_defaults)) 3 [7; 8; 9] /\
  gives_first (mkcall [] [($"a", 7)]) (map p_name (f_params two_defaults)) 1 [7] /\
  (exists s q, bind_function bind_w $"M" two_defaults None false = Ok (s, q)) /\ smallest_arity two_defaults 1 /\ NoDup (map p_name (f_params two_defaults)).
Proof.
  split; [|split; [|split; [|split; [exact C42_case_arity|repeat constructor; cbn; intuition discriminate]]]].
  - split; [reflexivity|split; [cbn; lia|split]].
    + intros i v E. destruct i as [|[|[|i]]]; cbn in E; [injection E as <-; left; reflexivity|injection E as <-|injection E as <-|destruct i; discriminate].
      * right. split; [cbn; lia|]. exists $"b". split; [reflexivity|right; left; reflexivity].
      * right. split; [cbn; lia|]. exists $"c". split; [reflexivity|left; reflexivity].
    + intros name [<-|[<-|[]]]; [exists 2|exists 1]; (split; [cbn; lia|reflexivity]).
  - split; [reflexivity|split; [cbn; lia|split]]; [|intros name [<-|[]]; exists 0; split; [cbn; lia|reflexivity]].
    intros i v E. right. split; [cbn; lia|]. destruct i as [|i]; [|destruct i; discriminate]. injection E as <-. exists $"a". split; [reflexivity|left; reflexivity].
  - do 2 eexists. vm_compute. reflexivity.
Qed.
