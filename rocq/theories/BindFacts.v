(** Proofs about the statements generated for functions and enums. *)
From Coq Require Import Ascii String Bool Arith NArith Lia.
From Coq Require Import List.
From Verif Require Import Str StrFacts SpecUtil Util UtilFacts Config Ast Types Func Enum Includes Class Context SpecContext ContextFacts WriteFacts SpecTypes TypesFacts NamesFacts SpecBind.
Import ListNotations.

(** ** Separated texts *)

Lemma join_separated sep l : separated sep l (join sep l).
Proof.
  induction l as [|x l IH]; [constructor|]. destruct l as [|y l]; [constructor|]. cbn [join]. constructor. exact IH.
Qed.
Lemma separated_unique sep l s : separated sep l s -> s = join sep l.
Proof. induction 1 as [|x|x y l s _ IH]; [reflexivity|reflexivity|]. subst s. reflexivity. Qed.

(** ** Texts that fix_boolean_types leaves alone *)

Definition fixed (s : str) : Prop := bool_fixed None s s.
Lemma fixed_eq s : fixed s -> fix_boolean_types s = s.
Proof. intros H. symmetry. apply fix_boolean_spec, H. Qed.
Lemma fixed_fix s : fixed (fix_boolean_types s).
Proof. apply fix_boolean_spec. symmetry. apply fix_boolean_idem. Qed.
Lemma boundary_head c (x y : str) : boundary (hd_error (x ++ c :: y)) -> boundary (hd_error x).
Proof. destruct x; [intros _ d E; discriminate|]. intros H; exact H. Qed.
Definition separator (c : ascii) : Prop := ~ alnum c /\ c <> "_"%char.
Lemma bool_word_prefix_sep prev x c y : ~ alnum c -> c <> "_"%char -> bool_word prev (x ++ c :: y) -> x <> [] -> bool_word prev x.
Proof.
  intros N U [rest [E [H1 H2]]] Hx.
  assert (X : forall l r, x ++ c :: y = l ++ r -> (exists a, x = l ++ a /\ r = a ++ c :: y) \/ In c l).
  { clear. intros l. revert x. induction l as [|d l IH]; intros x r E; [left; exists x; split; [reflexivity|symmetry; exact E]|].
    destruct x as [|e x]; [injection E as <- _; right; left; reflexivity|].
    injection E as -> E. destruct (IH _ _ E) as [[a [-> ->]]|I]; [left; exists a; auto|right; right; exact I]. }
  destruct (X _ _ E) as [[a [-> ->]]|I].
  - exists a. split; [reflexivity|]. split; [exact H1|]. exact (boundary_head _ _ _ H2).
  - exfalso. destruct I as [I|[I|[I|[I|[I|[]]]]]]; subst c; [apply U; reflexivity| | | |]; apply N; left; reflexivity.
Qed.
Lemma fixed_inv_gen prev a b : bool_fixed prev a b -> forall c s, a = c :: s -> b = c :: s -> ~ bool_word prev (c :: s) /\ bool_fixed (Some c) s s.
Proof.
  destruct 1 as [prev|prev rest r Hw H|prev d s' r Hn H]; intros c s E1 E2; [discriminate| |].
  - exfalso. assert (X : "_"%char = c) by (injection E1; auto). assert (Y : "b"%char = c) by (injection E2; auto). subst c. discriminate.
  - injection E1 as -> ->. injection E2 as ->. split; assumption.
Qed.
Lemma fixed_inv prev c s : bool_fixed prev (c :: s) (c :: s) -> ~ bool_word prev (c :: s) /\ bool_fixed (Some c) s s.
Proof. intros H. exact (fixed_inv_gen _ _ _ H c s eq_refl eq_refl). Qed.
Lemma fixed_app x : forall prev c y, separator c -> bool_fixed prev x x -> bool_fixed (Some c) y y -> bool_fixed prev (x ++ c :: y) (x ++ c :: y).
Proof.
  induction x as [|d x IH]; intros prev c y [N U] Hx Hy.
  - apply BF_other; [|exact Hy]. intros [rest [E _]]. injection E as E _. apply U, E.
  - apply fixed_inv in Hx. destruct Hx as [Hw Hx]. cbn [app]. apply BF_other.
    + intros W. apply Hw. apply (bool_word_prefix_sep prev (d :: x) c y N U W). discriminate.
    + apply IH; [split; assumption|exact Hx|exact Hy].
Qed.
Lemma fixed_after c y : ~ alnum c -> fixed y -> bool_fixed (Some c) y y.
Proof.
  intros N H. unfold fixed in H. destruct y as [|d y]; [constructor|]. apply fixed_inv in H. destruct H as [Hw H].
  apply BF_other; [|exact H]. intros [rest [E [H1 H2]]]. apply Hw. exists rest. split; [exact E|]. split; [|exact H2]. intros x X; discriminate.
Qed.
Lemma fixed_sep x c y : separator c -> fixed x -> fixed y -> fixed (x ++ c :: y).
Proof. intros S Hx Hy. apply fixed_app; [exact S|exact Hx|]. apply fixed_after; [apply S|exact Hy]. Qed.
Lemma fixed_nil : fixed [].
Proof. constructor. Qed.
Lemma fixed_cons c y : separator c -> fixed y -> fixed (c :: y).
Proof. intros S H. exact (fixed_sep [] c y S fixed_nil H). Qed.
Lemma fixed_plain s : ~ In "_"%char s -> fixed s.
Proof.
  intros H. assert (E : fix_boolean_types s = s); [|rewrite <- E; apply fixed_fix]. apply fix_absent. intros [i [a [b [E _]]]].
  apply H. rewrite E. apply in_or_app. right. left. reflexivity.
Qed.
Lemma separator_sp : separator " ".  Proof. split; [intros [H|H]; discriminate|discriminate]. Qed.
Lemma separator_comma : separator ",".  Proof. split; [intros [H|H]; discriminate|discriminate]. Qed.
Lemma separator_open : separator "(".  Proof. split; [intros [H|H]; discriminate|discriminate]. Qed.
Lemma separator_close : separator ")".  Proof. split; [intros [H|H]; discriminate|discriminate]. Qed.
Lemma separator_colon : separator ":".  Proof. split; [intros [H|H]; discriminate|discriminate]. Qed.
Lemma separator_star : separator "*".  Proof. split; [intros [H|H]; discriminate|discriminate]. Qed.
Lemma fixed_join l : (forall x, In x l -> fixed x) -> fixed (join $", " l).
Proof.
  induction l as [|x l IH]; intros H; [apply fixed_nil|]. destruct l as [|y l]; [apply H; left; reflexivity|]. cbn [join].
  change (x ++ $", " ++ join $", " (y :: l)) with (x ++ ","%char :: [] ++ " "%char :: join $", " (y :: l)).
  apply fixed_sep; [exact separator_comma|apply H; left; reflexivity|].
  apply fixed_cons; [exact separator_sp|]. apply IH. intros z Hz. apply H. right. exact Hz.
Qed.
Lemma standard_fixed w s : fixed (standard_name w s).
Proof. unfold standard_name, standard_name_raw. apply fixed_fix. Qed.
Lemma standard_q_fixed w t : fixed (standard_name_q w t).
Proof.
  unfold standard_name_q. destruct (streqb (print (wenv w) t) $"std::size_t") eqn:E; [|apply standard_fixed].
  apply streqb_eq in E. rewrite E. apply fix_boolean_spec. vm_compute. reflexivity.
Qed.

(** ** Types and arguments *)

Lemma standard_type w t : type_text w t (standard_name_q w t).
Proof.
  unfold standard_name_q. destruct (streqb (print (wenv w) t) $"std::size_t") eqn:E.
  - apply streqb_eq in E. rewrite E. apply TT_size, E.
  - apply TT_other. intros X. rewrite X in E. rewrite streqb_refl in E. discriminate.
Qed.
Lemma arguments_types w F : parameter_types w F (function_arguments w F).
Proof.
  exists (map (standard_name_q w) (map p_type (f_params F))). split.
  - induction (map p_type (f_params F)) as [|t l IH]; constructor; [apply standard_type|exact IH].
  - unfold function_arguments. rewrite fixed_eq.
    + rewrite map_map. apply join_separated.
    + apply fixed_join. intros x Hx. apply in_map_iff in Hx. destruct Hx as [p [<- _]]. apply standard_q_fixed.
Qed.
Lemma arguments_fixed w F : fixed (function_arguments w F).
Proof. apply fixed_fix. Qed.
Lemma pointer_text w F : pointer_type w F (function_pointer_type w F).
Proof.
  exists (standard_name_q w (f_ret F)), (function_arguments w F). split; [apply standard_type|]. split; [apply arguments_types|].
  unfold function_pointer_type, const_suffix. apply fixed_eq.
  set (pre := if f_method F && negb (f_static F) then class_qualified_name w (parent_of F) ++ $"::" else []).
  set (suf := if f_method F && f_const F then $" const" else []).
  change (standard_name_q w (f_ret F) ++ $" (" ++ pre ++ $"*)(" ++ function_arguments w F ++ $")" ++ suf)
    with (standard_name_q w (f_ret F) ++ " "%char :: [] ++ "("%char :: pre ++ "*"%char :: [] ++ ")"%char :: [] ++ "("%char :: function_arguments w F ++ ")"%char :: suf).
  apply fixed_sep; [exact separator_sp|apply standard_q_fixed|].
  apply fixed_cons; [exact separator_open|].
  apply fixed_sep; [exact separator_star| |].
  { unfold pre. destruct (f_method F && negb (f_static F)); [|apply fixed_nil].
    change (class_qualified_name w (parent_of F) ++ $"::") with (class_qualified_name w (parent_of F) ++ ":"%char :: [] ++ ":"%char :: []).
    apply fixed_sep; [exact separator_colon|apply standard_fixed|]. apply fixed_cons; [exact separator_colon|apply fixed_nil]. }
  apply fixed_cons; [exact separator_close|].
  apply fixed_cons; [exact separator_open|].
  apply fixed_sep; [exact separator_close|apply arguments_fixed|].
  unfold suf. destruct (f_method F && f_const F); [|apply fixed_nil]. apply fixed_plain. cbn. intuition discriminate.
Qed.

(** ** Lambdas *)

Lemma by_value_iff t : negb (is_reference t) && negb (is_pointer t) = true <-> by_value t.
Proof.
  unfold is_reference, is_lref, is_rref, is_pointer, by_value. destruct (canonical t) as [c n|c p|p|p|c p|r ps|c r a|c e|c n p|c n]; cbn; split; intros H; try discriminate; try reflexivity;
    try (intros p' c'; repeat split; discriminate).
  - exfalso. exact (proj2 (proj2 (H p c)) eq_refl).
  - exfalso. exact (proj1 (H p false) eq_refl).
  - exfalso. exact (proj1 (proj2 (H p false)) eq_refl).
Qed.
Lemma arg_plain i : ~ In "_"%char (arg_name i).
Proof. unfold arg_name. intros H. apply in_app_or in H. destruct H as [[H|[]]|H]; [discriminate|]. exact (dec_no_char "_" i eq_refl H). Qed.
Lemma lambda_param_spec w i p : lambda_parameter w i (p_type p) (lambda_param w i p) /\ fixed (lambda_param w i p).
Proof.
  unfold lambda_param. pose proof (by_value_iff (p_type p)) as V.
  split.
  - destruct (negb (is_reference (p_type p)) && negb (is_pointer (p_type p))) eqn:E.
    + assert (B : by_value (p_type p)) by (apply V; reflexivity). destruct (is_const (p_type p)) eqn:K; cbn [negb].
      * apply (LP_const w i (p_type p) (standard_name_q w (p_type p)) B K). apply standard_type.
      * apply (LP_value w i (p_type p) (standard_name_q w (p_type p)) B K). apply standard_type.
    + apply (LP_indirect w i (p_type p) (standard_name_q w (p_type p))); [|apply standard_type]. intros B. apply V in B. discriminate.
  - match goal with |- fixed (?a ++ $" " ++ ?b ++ ?c) => change (fixed (a ++ " "%char :: b ++ c)) end.
    apply fixed_sep; [exact separator_sp|apply standard_q_fixed|]. apply fixed_plain. intros H. apply in_app_or in H. destruct H as [H|H]; [|exact (arg_plain _ H)].
    destruct (negb (is_reference (p_type p)) && negb (is_pointer (p_type p))); [|destruct H]. destruct (negb (is_const (p_type p))); cbn in H; intuition discriminate.
Qed.
Lemma mapi_from_length {A B} (f : nat -> A -> B) l : forall i, length (mapi_from i f l) = length l.
Proof. induction l as [|x l IH]; intros i; cbn; [reflexivity|]. rewrite IH. reflexivity. Qed.
Lemma mapi_from_nth {A B} (f : nat -> A -> B) l : forall i k y, nth_error (mapi_from i f l) k = Some y <-> exists x, nth_error l k = Some x /\ y = f (i + k) x.
Proof.
  induction l as [|x l IH]; intros i k y.
  - cbn. destruct k; cbn; split; intros H; try discriminate; destruct H as [x [H _]]; discriminate.
  - destruct k as [|k]; cbn [mapi_from nth_error].
    + rewrite Nat.add_0_r. split; [intros H; injection H as <-; eauto|intros [z [H ->]]; injection H as <-; reflexivity].
    + rewrite IH. replace (S i + k) with (i + S k) by lia. reflexivity.
Qed.
Lemma mapi_names {A} (l : list A) : forall i, mapi_from i (fun i (_ : A) => arg_name i) l = map parameter_name (seq i (length l)).
Proof. induction l as [|x l IH]; intros i; [reflexivity|]. cbn [mapi_from length seq map]. rewrite IH. reflexivity. Qed.
Lemma mapi_In {A B} (f : nat -> A -> B) l : forall i y, In y (mapi_from i f l) -> exists j x, In x l /\ y = f j x.
Proof.
  induction l as [|x l IH]; intros i y; [intros []|]. intros [<-|H]; [exists i, x; split; [left; reflexivity|reflexivity]|].
  destruct (IH _ _ H) as [j [z [Hz E]]]. exists j, z. split; [right; exact Hz|exact E].
Qed.
Lemma lambda_arguments w F n : n <= length (f_params F) -> exists params,
  length params = n /\
  (forall i t s, nth_error (map p_type (f_params F)) i = Some t -> nth_error params i = Some s -> lambda_parameter w i t s) /\
  fst (function_arguments_for_lambda w F n) = join $", " params /\
  snd (function_arguments_for_lambda w F n) = join $", " (map parameter_name (seq 0 n)).
Proof.
  intros L. exists (mapi (lambda_param w) (firstn n (f_params F))).
  assert (Ln : length (firstn n (f_params F)) = n) by (rewrite firstn_length; lia).
  split; [unfold mapi; rewrite mapi_from_length; exact Ln|]. split.
  - intros i t s Ht Hs. unfold mapi in Hs. apply mapi_from_nth in Hs. destruct Hs as [p [Hp ->]]. cbn [Nat.add].
    rewrite nth_error_map in Ht. assert (E : nth_error (f_params F) i = Some p).
    { clear -Hp. revert i Hp. generalize (f_params F). induction n as [|n IH]; intros l i H; [destruct i; discriminate|].
      destruct l as [|x l]; [destruct i; discriminate|]. destruct i as [|i]; [exact H|]. exact (IH _ _ H). }
    rewrite E in Ht. injection Ht as <-. apply lambda_param_spec.
  - split.
    + cbn [function_arguments_for_lambda fst]. apply fixed_eq. apply fixed_join. intros x Hx. apply mapi_In in Hx. destruct Hx as [j [p [_ ->]]]. apply lambda_param_spec.
    + cbn [function_arguments_for_lambda snd]. unfold mapi. rewrite mapi_names, Ln. reflexivity.
Qed.

(** Return types of lambdas. *)
Definition drop_step (r : str) (p : str * str) : str := if begins_with r (fst p) then snd p ++ substr r (length (fst p)) (length r) else r.
Lemma step_hit k v s : drop_step (k ++ s) (k, v) = v ++ s.
Proof.
  unfold drop_step. cbn [fst snd]. assert (E : begins_with (k ++ s) k = true) by (apply starts_iff; exists s; reflexivity). rewrite E.
  unfold substr. rewrite skipn_app, skipn_all, Nat.sub_diag. cbn [app skipn]. rewrite firstn_all2; [reflexivity|]. rewrite app_length. lia.
Qed.
Lemma step_miss k v s : ~ starts k s -> drop_step s (k, v) = s.
Proof.
  intros N. unfold drop_step. cbn [fst]. destruct (begins_with s k) eqn:E; [|reflexivity]. apply starts_iff in E. contradiction.
Qed.
Lemma not_starts k s : prefixb k s = false -> ~ starts k s.
Proof. intros H X. apply prefixb_iff in X. congruence. Qed.
Lemma no_keyword_misses s : no_keyword s -> forall p, In p lambda_return_map -> drop_step s p = s.
Proof.
  intros N [k v] H. apply step_miss.
  destruct H as [H|[H|[H|[H|[H|[H|[]]]]]]]; injection H as <- _.
  - apply (N $"enum "). left. reflexivity.
  - apply (N $"class "). right; left. reflexivity.
  - apply (N $"struct "). right; right; left. reflexivity.
  - apply (N $"enum "). left. reflexivity.
  - apply (N $"class "). right; left. reflexivity.
  - apply (N $"struct "). right; right; left. reflexivity.
Qed.
Lemma fold_misses l s : (forall p, In p l -> drop_step s p = s) -> fold_left drop_step l s = s.
Proof.
  induction l as [|p l IH]; intros H; [reflexivity|]. cbn [fold_left]. rewrite (H p (or_introl eq_refl)). apply IH. intros q Hq. apply H. right. exact Hq.
Qed.
Lemma no_keyword_dec s : {no_keyword s} + {~ no_keyword s}.
Proof.
  destruct (existsb (fun k => prefixb k s || prefixb ($"const " ++ k) s) keywords) eqn:E.
  - right. intros N. apply existsb_exists in E. destruct E as [k [Hk E]]. apply orb_true_iff in E. destruct E as [E|E]; apply prefixb_iff in E.
    + exact (proj1 (N k Hk) E).
    + exact (proj2 (N k Hk) E).
  - left. intros k Hk. assert (X : prefixb k s || prefixb ($"const " ++ k) s = false).
    { destruct (prefixb k s || prefixb ($"const " ++ k) s) eqn:Y; [|reflexivity]. rewrite <- E. symmetry. apply existsb_exists. eauto. }
    apply orb_false_iff in X. destruct X as [X1 X2]. split; apply not_starts; assumption.
Qed.
Lemma keyword_fold full : keyword_dropped full (fold_left drop_step lambda_return_map full).
Proof.
  destruct (no_keyword_dec full) as [N|N].
  { rewrite fold_misses; [apply KD_none, N|apply no_keyword_misses, N]. }
  assert (X : exists k, In k keywords /\ ((exists s, full = k ++ s) \/ (exists s, full = $"const " ++ k ++ s))).
  { destruct (existsb (fun k => prefixb k full || prefixb ($"const " ++ k) full) keywords) eqn:E.
    - apply existsb_exists in E. destruct E as [k [Hk E]]. exists k. split; [exact Hk|]. apply orb_true_iff in E. destruct E as [E|E]; apply prefixb_iff in E; [left; exact E|right].
      destruct E as [s E]. exists s. rewrite E, <- app_assoc. reflexivity.
    - exfalso. apply N. intros k Hk. assert (X : prefixb k full || prefixb ($"const " ++ k) full = false).
      { destruct (prefixb k full || prefixb ($"const " ++ k) full) eqn:Y; [|reflexivity]. rewrite <- E. symmetry. apply existsb_exists. eauto. }
      apply orb_false_iff in X. destruct X as [X1 X2]. split; apply not_starts; assumption. }
  destruct X as [k [Hk [[s ->]|[s ->]]]].
  - destruct (no_keyword_dec s) as [M|M]; [|exact (KD_repeated k s _ Hk M)].
    replace (fold_left drop_step lambda_return_map (k ++ s)) with s; [exact (KD_keyword k s Hk M)|]. symmetry.
    pose proof (no_keyword_misses s M) as Z. unfold lambda_return_map in *. cbn [fold_left].
    destruct Hk as [<-|[<-|[<-|[]]]].
    + rewrite (step_hit $"enum " []). cbn [app]. apply (fold_misses [_; _; _; _; _] s). intros p Hp. apply Z. right. exact Hp.
    + rewrite (step_miss $"enum "); [|apply not_starts; reflexivity]. rewrite (step_hit $"class " []). cbn [app].
      apply (fold_misses [_; _; _; _] s). intros p Hp. apply Z. right; right. exact Hp.
    + rewrite (step_miss $"enum "); [|apply not_starts; reflexivity]. rewrite (step_miss $"class "); [|apply not_starts; reflexivity].
      rewrite (step_hit $"struct " []). cbn [app]. apply (fold_misses [_; _; _] s). intros p Hp. apply Z. right; right; right. exact Hp.
  - destruct (no_keyword_dec ($"const " ++ s)) as [M|M]; [|exact (KD_const_repeated k s _ Hk M)].
    replace (fold_left drop_step lambda_return_map ($"const " ++ k ++ s)) with ($"const " ++ s); [exact (KD_const_keyword k s Hk M)|]. symmetry.
    pose proof (no_keyword_misses _ M) as Z. unfold lambda_return_map in *. cbn [fold_left].
    destruct Hk as [<-|[<-|[<-|[]]]]; rewrite app_assoc.
    + rewrite (step_miss $"enum "); [|apply not_starts; reflexivity]. rewrite (step_miss $"class "); [|apply not_starts; reflexivity].
      rewrite (step_miss $"struct "); [|apply not_starts; reflexivity]. rewrite (step_hit $"const enum " $"const ").
      apply (fold_misses [_; _] ($"const " ++ s)). intros p Hp. apply Z. right; right; right; right. exact Hp.
    + rewrite (step_miss $"enum "); [|apply not_starts; reflexivity]. rewrite (step_miss $"class "); [|apply not_starts; reflexivity].
      rewrite (step_miss $"struct "); [|apply not_starts; reflexivity]. rewrite (step_miss $"const enum "); [|apply not_starts; reflexivity].
      rewrite (step_hit $"const class " $"const ").
      apply (fold_misses [_] ($"const " ++ s)). intros p Hp. apply Z. right; right; right; right; right. exact Hp.
    + rewrite (step_miss $"enum "); [|apply not_starts; reflexivity]. rewrite (step_miss $"class "); [|apply not_starts; reflexivity].
      rewrite (step_miss $"struct "); [|apply not_starts; reflexivity]. rewrite (step_miss $"const enum "); [|apply not_starts; reflexivity].
      rewrite (step_miss $"const class "); [|apply not_starts; reflexivity]. exact (step_hit $"const struct " $"const " s).
Qed.
Lemma lambda_return w t : return_text w t (lambda_return_type w t).
Proof. exists (standard_name_q w t). split; [apply standard_type|]. apply keyword_fold. Qed.

(** ** One overload *)

Lemma callee_name w F lifted : callee w F lifted (bound_name w F lifted).
Proof. destruct lifted; constructor. Qed.
Lemma self_separated x params : separated $", " (x :: params) (x ++ (if length params =? 0 then [] else $", ") ++ join $", " params).
Proof.
  destruct params as [|y l]; cbn [length Nat.eqb join]; [rewrite !app_nil_r; constructor|]. constructor. exact (join_separated $", " (y :: l)).
Qed.
Lemma expression_spec w F n lifted lambda : n <= length (f_params F) ->
  expression w F n lifted lambda (fst (function_expression w F n lifted lambda)) /\ documented w F n lambda (snd (function_expression w F n lifted lambda)).
Proof.
  intros L. unfold function_expression, num_params. destruct ((n =? length (f_params F)) && negb lambda) eqn:E.
  - apply andb_true_iff in E. destruct E as [E1 E2]. apply Nat.eqb_eq in E1. apply negb_true_iff in E2. cbn [fst snd]. split.
    + apply EX_pointer; [exact E1|exact E2|apply pointer_text|apply callee_name].
    + apply (DC_full w F n lambda _ (function_arguments w F) (standard_name_q w (f_ret F)) E1 E2); [|apply arguments_types|apply standard_type].
      destruct (documentation_string (n_doc (f_decl F))); reflexivity.
  - assert (D : n < length (f_params F) \/ lambda = true).
    { destruct lambda; [right; reflexivity|left]. cbn [negb] in E. rewrite andb_true_r in E. apply Nat.eqb_neq in E. lia. }
    destruct (function_arguments_for_lambda w F n) as [typed names] eqn:A. destruct (lambda_arguments w F n L) as [params [P1 [P2 [P3 P4]]]].
    rewrite A in P3, P4. cbn [fst snd] in *. subst typed names. split; [|apply DC_none, D].
    destruct (f_method F && negb (f_static F)) eqn:M.
    + apply andb_true_iff in M. destruct M as [M1 M2]. apply negb_true_iff in M2.
      pose proof (self_separated (class_qualified_name w (match lifted with Some p => p | None => parent_of F end) ++ (if f_const F then $" const" else []) ++ $" &o") params) as S.
      rewrite P1 in S.
      pose proof (EX_method w F n lifted lambda params _ _ _ _ D M1 M2 eq_refl P1 P2 S (join_separated _ _) (lambda_return w (f_ret F))) as R.
      rewrite <- !app_assoc in R. exact R.
    + assert (M' : f_method F = false \/ f_static F = true).
      { destruct (f_method F); [right|left; reflexivity]. cbn [andb] in M. apply negb_false_iff in M. exact M. }
      exact (EX_function w F n lifted lambda params _ _ _ _ _ D M' eq_refl P1 P2 (join_separated _ _) (join_separated _ _) (lambda_return w (f_ret F)) (callee_name w F lifted)).
Qed.
Lemma python_name_spec w F : python_name w F ((if f_method F && f_static F then strs (wcfg w) prefix_for_static_member_functions else []) ++ python_function_name F).
Proof.
  exists (python_function_name F). split; [reflexivity|]. unfold python_function_name. destruct (f_operator F); [|right; right; split; reflexivity].
  destruct (cpp_python_operator F) as [|c l] eqn:E.
  - right; left. split; [reflexivity|]. split; [reflexivity|]. intros name H. apply operator_iff in H. destruct H as [H1 H2]. congruence.
  - left. split; [reflexivity|]. rewrite <- E. apply operator_iff. split; [reflexivity|]. rewrite E. discriminate.
Qed.
Lemma instance_iff F : f_method F && negb (f_static F) = true <-> instance F.
Proof. unfold instance. rewrite andb_true_iff, negb_true_iff. reflexivity. Qed.
Lemma policy_spec w F : policy w F (return_policy w F).
Proof.
  unfold return_policy. pose proof (instance_iff F) as I. cbv zeta. unfold is_pointer, is_lref, is_rref.
  destruct (f_method F && negb (f_static F)).
  - assert (J : instance F) by (apply I; reflexivity).
    destruct (canonical (f_ret F)) as [c n|c p|p|p|c p|r ps|c r a|c e|c n p|c n] eqn:E;
      try (apply PO_value; unfold by_value; rewrite E; intros p' c'; repeat split; discriminate).
    + exact (PO_member_pointer w F c p J E).
    + exact (PO_member_lvalue w F p J E).
    + exact (PO_member_rvalue w F p J E).
  - assert (J : ~ instance F) by (intros X; apply I in X; discriminate).
    destruct (canonical (f_ret F)) as [c n|c p|p|p|c p|r ps|c r a|c e|c n p|c n] eqn:E;
      try (apply PO_value; unfold by_value; rewrite E; intros p' c'; repeat split; discriminate).
    + exact (PO_static_pointer w F c p J E).
    + exact (PO_static_lvalue w F p J E).
    + exact (PO_static_rvalue w F p J E).
Qed.
Lemma overload_spec w F n request lifted lambda s q : n <= length (f_params F) -> bind_overload w F n request lifted lambda = Ok (s, q) ->
  def_line w F n lifted lambda s /\
  (if request then request_types w (canonical (f_ret F) :: map p_type (firstn n (f_params F))) else Ok []) = Ok q.
Proof.
  intros L H. unfold bind_overload in H. pose proof (expression_spec w F n lifted lambda L) as X.
  destruct (function_expression w F n lifted lambda) as [expr doc]. cbn [fst snd] in X. destruct X as [X1 X2].
  inv_ok H. apply Ok_inj in H. pose proof (f_equal fst H) as Hs. pose proof (f_equal snd H) as Hq. cbn [fst snd] in Hs, Hq. clear H. subst q. split; [|exact H0].
  pose proof (DL w F n lifted lambda _ expr doc _ _ (python_name_spec w F) X1 X2 (policy_spec w F) eq_refl) as R.
  replace s with ($".def" ++ (if is_static F then $"_static" else []) ++ $"(" ++
     quoted ((if f_method F && f_static F then strs (wcfg w) prefix_for_static_member_functions else []) ++ python_function_name F) ++ $", " ++ expr ++ $", " ++ quoted doc ++
     return_policy w F ++ concat (map (fun p : param => $", pybind11::arg(" ++ quoted (p_name p) ++ $")") (firstn n (f_params F))) ++
     match strs (wcfg w) default_call_guard with [] => [] | a :: l => $", pybind11::call_guard<" ++ (a :: l) ++ $">()" end ++ $");"); [exact R|].
  rewrite <- Hs. unfold quoted, py_args, is_static. rewrite <- !app_assoc.
  assert (E : map (fun p : param => $", pybind11::arg(" ++ ([dq] ++ p_name p ++ [dq]) ++ $")") (firstn n (f_params F)) =
              map (fun p : param => $", pybind11::arg(" ++ [dq] ++ p_name p ++ [dq] ++ $")") (firstn n (f_params F))).
  { apply map_ext. intros p. rewrite <- !app_assoc. reflexivity. }
  rewrite E. destruct (strs (wcfg w) default_call_guard); reflexivity.
Qed.

(** ** All overloads *)

Lemma first_default_spec ps : first_default_at ps (first_default ps).
Proof.
  induction ps as [|p ps IH]; cbn [first_default].
  - split; [apply le_n|]. split; [intros p []|left; reflexivity].
  - destruct (p_default p) eqn:E.
    + split; [apply Nat.le_0_l|]. split; [intros q []|right; exists p; split; [reflexivity|exact E]].
    + destruct IH as [I1 [I2 I3]]. split; [cbn [length]; lia|]. split.
      * cbn [firstn]. intros q [<-|Hq]; [exact E|exact (I2 q Hq)].
      * destruct I3 as [I3|I3]; [left; cbn [length]; lia|right; exact I3].
Qed.
Lemma first_default_unique ps : forall k1 k2, first_default_at ps k1 -> first_default_at ps k2 -> k1 = k2.
Proof.
  assert (X : forall k1 k2, first_default_at ps k1 -> first_default_at ps k2 -> ~ k1 < k2).
  { intros k1 k2 [A1 [A2 A3]] [B1 [B2 B3]] H. destruct A3 as [A3|[p [A3 A4]]]; [lia|].
    assert (I : In p (firstn k2 ps)).
    { apply nth_error_In with (n := k1). rewrite <- A3. clear -H. revert k1 k2 H. induction ps as [|x l IH]; intros k1 k2 H; [rewrite firstn_nil; reflexivity|].
      destruct k2 as [|k2]; [lia|]. cbn [firstn]. destruct k1 as [|k1]; [reflexivity|]. cbn [nth_error]. apply IH. lia. }
    rewrite (B2 p I) in A4. discriminate. }
  intros k1 k2 A B. pose proof (X _ _ A B). pose proof (X _ _ B A). lia.
Qed.
Lemma function_type_iff t : is_function_type t = true <-> function_type t.
Proof.
  split.
  - revert t. fix IH 1. intros t H. destruct t as [c n|c p|p|p|c p|r ps|c r a|c e|c n p|c n]; try discriminate H.
    + apply FT_pointer, IH, H.
    + apply FT_lvalue, IH, H.
    + apply FT_rvalue, IH, H.
    + apply FT_function.
  - induction 1; cbn; auto.
Qed.
Lemma takes_function_iff F : existsb (fun p => is_function_type (canonical (p_type p))) (f_params F) = true <-> takes_function F.
Proof.
  rewrite existsb_exists. unfold takes_function. split; intros [p [H1 H2]]; exists p; (split; [exact H1|]); apply function_type_iff; exact H2.
Qed.
Lemma first_bound_spec F : smallest_arity F (first_bound F).
Proof.
  unfold first_bound. pose proof (takes_function_iff F) as T. destruct (existsb (fun p => is_function_type (canonical (p_type p))) (f_params F)).
  - left. split; [apply T; reflexivity|reflexivity].
  - right. split; [intros X; apply T in X; discriminate|apply first_default_spec].
Qed.
Lemma smallest_arity_unique F k1 k2 : smallest_arity F k1 -> smallest_arity F k2 -> k1 = k2.
Proof.
  intros [[A1 A2]|[A1 A2]] [[B1 B2]|[B1 B2]]; try congruence; try contradiction. exact (first_default_unique _ _ _ A2 B2).
Qed.
Lemma smallest_arity_le F k : smallest_arity F k -> k <= length (f_params F).
Proof. intros [[_ ->]|[_ [H _]]]; [apply le_n|exact H]. Qed.

Lemma emit_all_inv l : forall s q, emit_all l = Ok (s, q) -> exists ps, l = map Ok ps /\ s = concat (map fst ps) /\ q = concat (map snd ps).
Proof.
  induction l as [|x l IH]; intros s q H; cbn [emit_all] in H.
  - apply Ok_inj in H. exists []. injection H as <- <-. auto.
  - inv_ok H. destruct a as [s1 q1]. inv_ok H. destruct a as [s2 q2]. apply Ok_inj in H. injection H as <- <-. destruct (IH _ _ H1) as [ps [-> [-> ->]]].
    exists ((s1, q1) :: ps). subst x. auto.
Qed.
Lemma emit_map_inv {A} (f : A -> result emitted) l s q : emit_all (map f l) = Ok (s, q) ->
  exists ps, length ps = length l /\ s = concat (map fst ps) /\ q = concat (map snd ps) /\
    forall i x p, nth_error l i = Some x -> nth_error ps i = Some p -> f x = Ok p.
Proof.
  intros H. destruct (emit_all_inv _ _ _ H) as [ps [E [-> ->]]]. exists ps. split.
  - apply (f_equal (@length _)) in E. rewrite !map_length in E. symmetry; exact E.
  - split; [reflexivity|]. split; [reflexivity|]. intros i x p Hx Hp.
    pose proof (map_nth_error f i l Hx) as E1. pose proof (map_nth_error (@Ok emitted) i ps Hp) as E2. rewrite E in E1. assert (X : Some (f x) = Some (Ok p)) by exact (eq_trans (eq_sym E1) E2). injection X as X. exact X.
Qed.

Lemma bind_function_spec w module F lifted lambda s q k : bind_function w module F lifted lambda = Ok (s, q) -> smallest_arity F k ->
  exists lines, s = annotation w F false ++ concat (map (fun l => module ++ l ++ [nl]) lines) /\
    length lines = length (f_params F) + 1 - k /\
    (forall i l, nth_error lines i = Some l -> def_line w F (k + i) lifted (lambda || f_variadic F) l) /\
    request_types w (canonical (f_ret F) :: map p_type (f_params F)) = Ok q.
Proof.
  intros H K. rewrite (smallest_arity_unique F k (first_bound F) K (first_bound_spec F)). pose proof (smallest_arity_le F _ (first_bound_spec F)) as L.
  unfold bind_function in H. inv_ok H. destruct a as [s1 q1]. apply Ok_inj in H.
  assert (Hs : annotation w F false ++ s1 = s) by exact (f_equal fst H). assert (Hq : q1 = q) by exact (f_equal snd H). clear H. subst q1.
  destruct (emit_map_inv _ _ _ _ H0) as [ps [P1 [P2 [P3 P4]]]]. unfold overload_counts, num_params in *. rewrite seq_length in P1.
  set (n := length (f_params F)) in *. set (k0 := first_bound F) in *.
  assert (X : forall i p, nth_error ps i = Some p -> exists l, fst p = module ++ l ++ [nl] /\ def_line w F (k0 + i) lifted (lambda || f_variadic F) l /\
    (if k0 + i =? n then request_types w (canonical (f_ret F) :: map p_type (firstn (k0 + i) (f_params F))) else Ok []) = Ok (snd p)).
  { intros i p Hp. assert (Hi : i < n + 1 - k0). { rewrite <- P1. apply nth_error_Some. congruence. }
    assert (Hx : nth_error (seq k0 (n + 1 - k0)) i = Some (k0 + i)).
    { rewrite (nth_error_nth' _ 0); [rewrite seq_nth by exact Hi; reflexivity|rewrite seq_length; exact Hi]. }
    specialize (P4 i _ p Hx Hp). inv_ok P4. destruct a as [l q']. apply Ok_inj in P4. exists l. subst p. cbn [fst snd].
    split; [reflexivity|]. apply overload_spec in P0; [exact P0|]. fold n. lia. }
  assert (Z : exists lines, map fst ps = map (fun l => module ++ l ++ [nl]) lines /\ length lines = length ps /\
    forall i l, nth_error lines i = Some l -> def_line w F (k0 + i) lifted (lambda || f_variadic F) l).
  { clear -X. revert X. generalize k0. induction ps as [|p ps IH]; intros k1 X.
    - exists []. split; [reflexivity|]. split; [reflexivity|]. intros i l E. destruct i; discriminate.
    - destruct (X 0 p eq_refl) as [l [E1 [E2 _]]]. destruct (IH (S k1)) as [lines [F1 [F2 F3]]].
      { intros i p' Hp'. replace (S k1 + i) with (k1 + S i) by lia. exact (X (S i) p' Hp'). }
      exists (l :: lines). cbn [map length]. rewrite E1, F1, F2. split; [reflexivity|]. split; [reflexivity|].
      intros i l' E. destruct i as [|i]; [cbn in E; injection E as <-; exact E2|]. replace (k1 + S i) with (S k1 + i) by lia. exact (F3 i l' E). }
  destruct Z as [lines [Z1 [Z2 Z3]]]. exists lines. split; [rewrite <- Hs, P2, Z1; reflexivity|]. split; [rewrite Z2; exact P1|]. split; [exact Z3|].
  assert (R : forall qs, (forall i qi, nth_error qs i = Some qi -> (if k0 + i =? n then request_types w (canonical (f_ret F) :: map p_type (firstn (k0 + i) (f_params F))) else Ok []) = Ok qi) ->
    length qs = n + 1 - k0 -> request_types w (canonical (f_ret F) :: map p_type (f_params F)) = Ok (concat qs)).
  { clear -L. intros qs. remember (n - k0) as m eqn:Hm. revert Hm. generalize dependent k0. revert qs. induction m as [|m IH]; intros qs k0 L Hm HX HL.
    - assert (k0 = n) by lia. subst k0. destruct qs as [|q0 qs]; [cbn in HL; lia|]. destruct qs; [|cbn in HL; lia].
      specialize (HX 0 q0 eq_refl). rewrite Nat.add_0_r, Nat.eqb_refl in HX. unfold n in HX. rewrite firstn_all in HX. cbn [concat]. rewrite app_nil_r. exact HX.
    - destruct qs as [|q0 qs]; [cbn in HL; lia|]. pose proof (HX 0 q0 eq_refl) as H0. rewrite Nat.add_0_r in H0.
      destruct (Nat.eqb_spec k0 n); [lia|]. injection H0 as <-. cbn [concat app]. apply (IH qs (S k0)); [lia|lia| |cbn in HL; lia].
      intros i qi Hq. replace (S k0 + i) with (k0 + S i) by lia. exact (HX (S i) qi Hq). }
  rewrite P3. apply R; [|rewrite map_length; exact P1].
  intros i qi Hq. rewrite nth_error_map in Hq. destruct (nth_error ps i) as [p|] eqn:Hp; [|discriminate]. injection Hq as <-.
  destruct (X i p Hp) as [_ [_ [_ E]]]. exact E.
Qed.

(** ** Requests *)

Lemma typename_rec w r : typename_from_rec w r = standard_name w (print (wenv w) (rec_type w r)).
Proof. unfold typename_from_rec. reflexivity. Qed.
Lemma typename_enum w e : typename_from_enum w e = standard_name w (print (wenv w) (TEnum false e)).
Proof. unfold typename_from_enum. reflexivity. Qed.
Lemma request_name_iff w d name : In name (request_name w d) <->
  (exists r, d = DRec r /\ (r_complete (rec_ w r) = true \/ r_targs (rec_ w r) <> None) /\ name = typename_from_rec w r) \/
  (exists e, d = DEnum e /\ e_complete (enum_ w e) = true /\ name = typename_from_enum w e).
Proof.
  destruct d as [f|r|e]; cbn [request_name].
  - split; [intros []|]. intros [[r [E _]]|[e [E _]]]; discriminate.
  - assert (S : is_specialization (rec_ w r) = true <-> r_targs (rec_ w r) <> None).
    { unfold is_specialization. destruct (r_targs (rec_ w r)); split; intros; congruence. }
    destruct (r_complete (rec_ w r) || is_specialization (rec_ w r)) eqn:E.
    + apply orb_true_iff in E. rewrite S in E. split.
      * intros [H|[]]. left. exists r. split; [reflexivity|]. split; [exact E|symmetry; exact H].
      * intros [[r' [X [_ H]]]|[e [X _]]]; [|discriminate]. injection X as ->. left. symmetry. exact H.
    + apply orb_false_iff in E. destruct E as [E1 E2]. split; [intros []|]. intros [[r' [X [[H|H] _]]]|[e [X _]]]; [| |discriminate]; injection X as <-; [congruence|].
      apply S in H. congruence.
  - destruct (e_complete (enum_ w e)) eqn:E.
    + split; [intros [H|[]]; right; exists e; auto|]. intros [[r [X _]]|[e' [X [_ H]]]]; [discriminate|]. injection X as <-. left. symmetry. exact H.
    + split; [intros []|]. intros [[r [X _]]|[e' [X [H _]]]]; [discriminate|]. injection X as <-. congruence.
Qed.
Lemma request_type_iff w t : forall l name, request_type w t = Ok l -> (In name l <-> announces w t name).
Proof.
  assert (Tag : forall t name, ~ type_skipped w t ->
    (In name (match as_tag t with Some d => request_name w d | None => [] end) <->
     ((exists r, as_tag t = Some (DRec r) /\ (r_complete (rec_ w r) = true \/ r_targs (rec_ w r) <> None) /\ name = typename_from_rec w r) \/
      (exists e, as_tag t = Some (DEnum e) /\ e_complete (enum_ w e) = true /\ name = typename_from_enum w e)))).
  { intros t' name _. destruct (as_tag t') as [d|].
    - rewrite request_name_iff. split; (intros [[x [E H]]|[x [E H]]]; [left|right]; exists x; (split; [congruence|exact H])).
    - split; [intros []|]. intros [[x [E _]]|[x [E _]]]; discriminate. }
  assert (Skip : forall t l (name : str), request_type w t = Ok l -> type_skipped w t -> l = []).
  { intros t' l name H S. destruct t'; cbn [request_type] in H; inv_ok H; apply skip_q_iff in H0; destruct a; try (apply Ok_inj in H; symmetry; exact H);
      exfalso; apply H0 in S; discriminate. }
  assert (None_ : forall t name, announces w t name -> ~ type_skipped w t) by (intros t' name H; destruct H; assumption).
  induction t as [t IH] using (well_founded_induction (Wf_nat.well_founded_ltof _ (fix size t := match t with TPtr _ p | TLRef p | TRRef p => S (size p) | _ => 0 end))).
  intros l name H.
  assert (D : type_skipped w t \/ ~ type_skipped w t).
  { destruct t; cbn [request_type] in H; inv_ok H; apply skip_q_iff in H0; destruct a; try (left; apply H0; reflexivity); right; intros S; apply H0 in S; discriminate. }
  destruct D as [D|D]. { rewrite (Skip _ _ name H D). split; [intros []|]. intros A. exact (None_ _ _ A D). }
  assert (Simple : (forall c p, t <> TPtr c p) -> (forall p, t <> TLRef p /\ t <> TRRef p) -> In name l <-> announces w t name).
  { intros N1 N2.
    assert (E : l = match as_tag t with Some d => request_name w d | None => [] end).
    { destruct t; try (exfalso; eapply N1; reflexivity); try (exfalso; eapply (proj1 (N2 _)); reflexivity); try (exfalso; eapply (proj2 (N2 _)); reflexivity);
        cbn [request_type] in H; inv_ok H; apply skip_q_iff in H0; (destruct a; [exfalso; apply D, H0; reflexivity|]); apply Ok_inj in H; symmetry; exact H. }
    rewrite E, (Tag t name D). split.
    - intros [[r [A1 [A2 A3]]]|[e [A1 [A2 A3]]]]; [exact (AN_class w t r name D A1 A2 (eq_trans A3 (typename_rec w r)))|exact (AN_enum w t e name D A1 A2 (eq_trans A3 (typename_enum w e)))].
    - intros A. destruct A as [t r name S A1 A2 A3|t e name S A1 A2 A3|c t name S A|t name S A|t name S A]; [left; exists r; exact (conj A1 (conj A2 (eq_trans A3 (eq_sym (typename_rec w r)))))|right; exists e; exact (conj A1 (conj A2 (eq_trans A3 (eq_sym (typename_enum w e)))))| | |].
      + exfalso; exact (N1 c t eq_refl).
      + exfalso; exact (proj1 (N2 t) eq_refl).
      + exfalso; exact (proj2 (N2 t) eq_refl). }
  destruct t as [c n|c p|p|p|c p|r ps|c r a|c e|c n p|c n];
    try (apply Simple; [intros c' p' X; discriminate|intros p'; split; intros X; discriminate]).
  - clear Simple. cbn [request_type as_tag] in H. inv_ok H. destruct a; [exfalso; apply D; apply skip_q_iff in H0; apply H0; reflexivity|].
    inv_ok H. cbn [app] in H. apply Ok_inj in H. subst a. rewrite (IH p (Nat.lt_succ_diag_r _) l name H1).
    split; [apply AN_pointer, D|]. intros A. inversion A; subst; try discriminate; assumption.
  - clear Simple. cbn [request_type as_tag] in H. inv_ok H. destruct a; [exfalso; apply D; apply skip_q_iff in H0; apply H0; reflexivity|].
    inv_ok H. cbn [app] in H. apply Ok_inj in H. subst a. rewrite (IH p (Nat.lt_succ_diag_r _) l name H1).
    split; [apply AN_lvalue, D|]. intros A. inversion A; subst; try discriminate; assumption.
  - clear Simple. cbn [request_type as_tag] in H. inv_ok H. destruct a; [exfalso; apply D; apply skip_q_iff in H0; apply H0; reflexivity|].
    inv_ok H. cbn [app] in H. apply Ok_inj in H. subst a. rewrite (IH p (Nat.lt_succ_diag_r _) l name H1).
    split; [apply AN_rvalue, D|]. intros A. inversion A; subst; try discriminate; assumption.
Qed.
Lemma request_types_iff w l : forall q name, request_types w l = Ok q -> (In name q <-> exists t, In t l /\ announces w t name).
Proof.
  induction l as [|t l IH]; intros q name H; cbn [request_types] in H.
  - apply Ok_inj in H. subst q. split; [intros []|]. intros [t [[] _]].
  - inv_ok H. inv_ok H. apply Ok_inj in H. subst q. rewrite in_app_iff, (request_type_iff _ _ _ name H0), (IH _ name H1). split.
    + intros [A|[t' [A1 A2]]]; [exists t; split; [left; reflexivity|exact A]|exists t'; split; [right; exact A1|exact A2]].
    + intros [t' [[<-|A1] A2]]; [left; exact A2|right; exists t'; split; assumption].
Qed.

(** ** Constructors *)

Lemma emit_counts (f : nat -> result emitted) k n s q : emit_all (map f (seq k (n + 1 - k))) = Ok (s, q) ->
  exists ps, length ps = n + 1 - k /\ s = concat (map fst ps) /\ q = concat (map snd ps) /\
    forall i p, nth_error ps i = Some p -> f (k + i) = Ok p /\ k + i <= n.
Proof.
  intros H. destruct (emit_map_inv _ _ _ _ H) as [ps [P1 [P2 [P3 P4]]]]. rewrite seq_length in P1. exists ps.
  split; [exact P1|]. split; [exact P2|]. split; [exact P3|]. intros i p Hp.
  assert (Hi : i < n + 1 - k). { rewrite <- P1. apply nth_error_Some. congruence. }
  split; [|lia]. apply (P4 i _ p); [|exact Hp]. rewrite (nth_error_nth' _ 0); [rewrite seq_nth by exact Hi; reflexivity|rewrite seq_length; exact Hi].
Qed.
Lemma pieces {A} (P : nat -> A -> Prop) (g : A -> str) (ps : list emitted) :
  (forall i p, nth_error ps i = Some p -> exists l, fst p = g l /\ P i l) ->
  exists ls, map fst ps = map g ls /\ length ls = length ps /\ forall i l, nth_error ls i = Some l -> P i l.
Proof.
  revert P. induction ps as [|p ps IH]; intros P X.
  - exists []. split; [reflexivity|]. split; [reflexivity|]. intros i l E. destruct i; discriminate.
  - destruct (X 0 p eq_refl) as [l [E1 E2]]. destruct (IH (fun i => P (S i)) (fun i p' Hp' => X (S i) p' Hp')) as [ls [F1 [F2 F3]]].
    exists (l :: ls). cbn [map length]. rewrite E1, F1, F2. split; [reflexivity|]. split; [reflexivity|].
    intros i l' E. destruct i as [|i]; [cbn in E; injection E as <-; exact E2|exact (F3 i l' E)].
Qed.
Lemma quoted_args F n : py_args F n = concat (map (fun p => $", pybind11::arg(" ++ quoted (p_name p) ++ $")") (firstn n (f_params F))).
Proof. unfold py_args, quoted. f_equal. apply map_ext. intros p. rewrite <- !app_assoc. reflexivity. Qed.
Lemma factory_spec w T n cls : n <= length (f_params T) ->
  factory w T n cls ($"[](" ++ (if n =? 0 then [] else fst (function_arguments_for_lambda w T n)) ++ $"){ return new " ++ cls ++ $"("
                     ++ snd (function_arguments_for_lambda w T n) ++ $"); }").
Proof.
  intros L. destruct (lambda_arguments w T n L) as [params [P1 [P2 [P3 P4]]]]. rewrite P3, P4.
  replace (if n =? 0 then [] else join $", " params) with (join $", " params).
  - apply (FA w T n cls params); [exact P1|exact P2|apply join_separated|apply join_separated].
  - destruct (Nat.eqb_spec n 0) as [E|E]; [|reflexivity]. rewrite E in P1. destruct params; [reflexivity|discriminate].
Qed.
Definition tramp_of (ci : ctor_info) : option str := if ci_trampoline ci then Some (ci_trampoline_name ci) else None.
Lemma ctor_overload_spec w ci T n s q request : n <= length (f_params T) -> (r_abstract (rec_ w (ci_class ci)) = true -> ci_trampoline ci = true) ->
  bind_ctor_overload w ci T n request = Ok (s, q) ->
  exists l, s = annotation w T true ++ l /\ constructor_line w (r_abstract (rec_ w (ci_class ci))) (ci_name ci) (tramp_of ci) T n l.
Proof.
  intros L Ab H. unfold bind_ctor_overload, num_params in H. destruct ((n =? length (f_params T)) && negb (f_variadic T)) eqn:E.
  - apply andb_true_iff in E. destruct E as [E1 E2]. apply Nat.eqb_eq in E1. apply negb_true_iff in E2. inv_ok H. apply Ok_inj in H.
    pose proof (f_equal fst H) as Hs. cbn [fst] in Hs. clear H. eexists. split; [symmetry; exact Hs|].
    rewrite quoted_args. apply CL_init; [exact E1|exact E2|apply arguments_types].
  - assert (D : n < length (f_params T) \/ f_variadic T = true).
    { destruct (f_variadic T); [right; reflexivity|left]. cbn [negb] in E. rewrite andb_true_r in E. apply Nat.eqb_neq in E. lia. }
    pose proof (fun cls => factory_spec w T n cls L) as F. destruct (function_arguments_for_lambda w T n) as [typed names]. cbn [fst snd] in F.
    apply Ok_inj in H. pose proof (f_equal fst H) as Hs. cbn [fst] in Hs. clear H. eexists. split; [symmetry; exact Hs|].
    unfold tramp_of. destruct (r_abstract (rec_ w (ci_class ci))) eqn:A.
    + rewrite (Ab eq_refl). exact (CL_abstract w true (ci_name ci) (Some (ci_trampoline_name ci)) T n _ _ D eq_refl eq_refl (F _)).
    + destruct (ci_trampoline ci).
      * pose proof (CL_both w false (ci_name ci) (Some (ci_trampoline_name ci)) T n _ _ _ D eq_refl eq_refl (F _) (F _)) as R.
        rewrite <- !app_assoc in *. exact R.
      * rewrite quoted_args. pose proof (CL_plain w false (ci_name ci) None T n _ D eq_refl eq_refl (F _)) as R. rewrite <- !app_assoc in *. exact R.
Qed.
Lemma constructor_spec w ci T s q k : (r_abstract (rec_ w (ci_class ci)) = true -> ci_trampoline ci = true) ->
  bind_constructor w ci T = Ok (s, q) -> first_default_at (f_params T) k ->
  exists lines, s = concat (map (fun l => annotation w T true ++ l ++ [nl]) lines) /\ length lines = length (f_params T) + 1 - k /\
    forall i l, nth_error lines i = Some l -> constructor_line w (r_abstract (rec_ w (ci_class ci))) (ci_name ci) (tramp_of ci) T (k + i) l.
Proof.
  intros Ab H K. rewrite (first_default_unique _ _ _ K (first_default_spec (f_params T))). set (k0 := first_default (f_params T)) in *.
  unfold bind_constructor, ctor_counts, num_params in H. fold k0 in H.
  destruct (emit_counts _ _ _ _ _ H) as [ps [P1 [P2 [P3 P4]]]].
  destruct (pieces (fun i l => constructor_line w (r_abstract (rec_ w (ci_class ci))) (ci_name ci) (tramp_of ci) T (k0 + i) l)
                   (fun l => annotation w T true ++ l ++ [nl]) ps) as [lines [F1 [F2 F3]]].
  { intros i p Hp. destruct (P4 i p Hp) as [E L]. inv_ok E. destruct a as [s' q']. apply Ok_inj in E. subst p. cbn [fst].
    destruct (ctor_overload_spec _ _ _ _ _ _ _ L Ab E0) as [l [-> Hl]]. exists l. split; [rewrite <- app_assoc; reflexivity|exact Hl]. }
  exists lines. split; [rewrite P2, F1; reflexivity|]. split; [rewrite F2; exact P1|exact F3].
Qed.

(** ** Enums *)

Lemma removelast_snoc {A} (l : list A) x : removelast (l ++ [x]) = l.
Proof. rewrite removelast_app by discriminate. apply app_nil_r. Qed.
Lemma enum_lines vs : forall h : str, exists t, h ++ [nl] ++ concat (map enum_value vs) = t ++ [nl] /\ t = h ++ concat (map (fun v => enum_entry (fst v) (snd v)) vs).
Proof.
  induction vs as [|v vs IH]; intros h; cbn [map concat].
  - exists h. rewrite !app_nil_r. auto.
  - destruct (IH (h ++ enum_entry (fst v) (snd v))) as [t [E1 E2]]. exists t. split.
    + rewrite <- E1. unfold enum_value, enum_entry, quoted. rewrite <- !app_assoc. reflexivity.
    + rewrite E2, <- !app_assoc. reflexivity.
Qed.
Lemma enum_spec w module e s : bind_enum w module e = Ok s ->
  exists local, is_module_local_requested (wcfg w) (namespace_from_named_decl w (e_decl e)) = Ok local /\
    s = enum_head module e local ++ concat (map (fun v => enum_entry (fst v) (snd v)) (e_values e)) ++ (if e_class_tag e then not_exported else exported).
Proof.
  intros H. unfold bind_enum in H. inv_ok H. apply Ok_inj in H. exists a. split; [exact H0|]. rewrite <- H. clear H H0.
  destruct (enum_lines (e_values e) (enum_head module e a)) as [t [E1 E2]].
  assert (X : forall x y : str, x = t ++ [nl] -> removelast x ++ y = t ++ y) by (intros x y ->; rewrite removelast_snoc; reflexivity).
  rewrite (app_assoc (enum_head module e a)), <- E2. rewrite <- (X _ _ eq_refl). f_equal. f_equal. rewrite <- E1. unfold enum_head, quoted. rewrite <- !app_assoc. reflexivity.
Qed.

(** ** Forwarding *)

Lemma parameter_names_distinct n : NoDup (map parameter_name (seq 0 n)).
Proof.
  apply FinFun.Injective_map_NoDup; [|apply seq_NoDup]. intros i j E. apply app_inv_head in E. exact (dec_inj _ _ E).
Qed.
Lemma lambda_parameter_text w i t s : lambda_parameter w i t s -> exists type, s = type ++ $" " ++ parameter_name i.
Proof.
  intros [s0 _ _|s0 _ _ _|s0 _ _ _]; [exists s0|exists (s0 ++ $" &")|exists (s0 ++ $" const &")]; rewrite <- ?app_assoc; reflexivity.
Qed.
Lemma named_params (P : nat -> qty -> str -> Prop) ts : forall k n params, (forall i t s, P i t s -> exists type, s = type ++ $" " ++ parameter_name i) ->
  n <= length ts -> length params = n -> (forall i t s, nth_error ts i = Some t -> nth_error params i = Some s -> P (k + i) t s) ->
  Forall2 (fun name text => exists type, text = type ++ $" " ++ name) (map parameter_name (seq k n)) params.
Proof.
  induction ts as [|t ts IH]; intros k n params HP L Ln H.
  - cbn in L. assert (n = 0) by lia. subst n. destruct params; [constructor|discriminate].
  - destruct n as [|n]; [destruct params; [constructor|discriminate]|]. destruct params as [|p params]; [discriminate|]. cbn [seq map]. constructor.
    + apply (HP k t). rewrite <- (Nat.add_0_r k). exact (H 0 t p eq_refl eq_refl).
    + apply IH; [exact HP|cbn in L; lia|cbn in Ln; lia|]. intros i t' s' A B. replace (S k + i) with (k + S i) by lia. exact (H (S i) t' s' A B).
Qed.
Lemma lambda_forwards w F n self params typed names : n <= length (f_params F) -> length params = n ->
  (forall i t s, nth_error (map p_type (f_params F)) i = Some t -> nth_error params i = Some s -> lambda_parameter w i t s) ->
  separated $", " (self ++ params) typed -> separated $", " (map parameter_name (seq 0 n)) names -> forwards n self typed names.
Proof.
  intros L Ln H S1 S2. exists (map parameter_name (seq 0 n)), params. split; [rewrite map_length, seq_length; reflexivity|].
  split; [apply parameter_names_distinct|]. split; [|split; assumption].
  apply (named_params (lambda_parameter w) (map p_type (f_params F)) 0); [intros i t s; apply lambda_parameter_text|rewrite map_length; exact L|exact Ln|exact H].
Qed.
Lemma override_forwards w F : forwards (length (f_params F)) [] (fst (function_arguments_for_py_overload w F)) (snd (function_arguments_for_py_overload w F)).
Proof.
  unfold function_arguments_for_py_overload. cbn [fst snd]. set (params := mapi (fun i p => standard_name_q w (p_type p) ++ $" " ++ arg_name i) (f_params F)).
  assert (X : fixed (join $", " params)).
  { apply fixed_join. intros x Hx. apply mapi_In in Hx. destruct Hx as [j [p [_ ->]]]. apply fixed_sep; [apply separator_sp|apply standard_q_fixed|apply fixed_plain, arg_plain]. }
  rewrite (fixed_eq _ X). exists (map parameter_name (seq 0 (length (f_params F)))), params. split; [rewrite map_length, seq_length; reflexivity|].
  split; [apply parameter_names_distinct|]. split; [|split; [apply join_separated|unfold mapi; rewrite mapi_names; apply join_separated]].
  apply (named_params (fun i t s => exists type, s = type ++ $" " ++ parameter_name i) (map p_type (f_params F)) 0); [auto|rewrite map_length; apply le_n|unfold params, mapi; rewrite mapi_from_length; reflexivity|].
  intros i t s Ht Hs. apply mapi_from_nth in Hs. destruct Hs as [p [_ ->]]. exists (standard_name_q w (p_type p)). reflexivity.
Qed.
Lemma override_names w F : separated $", " (map parameter_name (seq 0 (length (f_params F)))) (snd (function_arguments_for_py_overload w F)).
Proof. unfold function_arguments_for_py_overload. cbn [snd]. unfold mapi. rewrite mapi_names. apply join_separated. Qed.
Lemma policy_unique w F s1 s2 : policy w F s1 -> policy w F s2 -> s1 = s2.
Proof.
  intros [c t I E|t I E|t I E|c t I E|t I E|t I E|B] [c' t' I' E'|t' I' E'|t' I' E'|c' t' I' E'|t' I' E'|t' I' E'|B'];
    try reflexivity; try contradiction; try (rewrite E in E'; discriminate E');
    exfalso; (destruct (B' t c) as [X1 [X2 X3]] || destruct (B' t false) as [X1 [X2 X3]] || destruct (B t' c') as [X1 [X2 X3]] || destruct (B t' false) as [X1 [X2 X3]]); contradiction.
Qed.
