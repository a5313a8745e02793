(** Property C71: the Python names of standard containers bound with the
    binders that come with binder. *)
From Coq Require Import Ascii String Bool Arith Lia.
From Coq Require Import List.
From Verif Require Import Str StrFacts SpecUtil Util UtilFacts Config Ast Types Class Samples StlBinders.
Import ListNotations.

(** A type name without template arguments, pointers and references that neither
    begins nor ends with a separator: [int], [n::A], [unsigned long]. *)
Definition plain (k : str) : Prop :=
  (forall x, In x k -> ~ In x $"<>,*&") /\
  (exists x rest, k = x :: rest /\ ~ In x $" :") /\
  (exists rest x, k = rest ++ [x] /\ ~ In x $" :_").
(** The name that reaches the binder for a template argument printed [t]
    (C67: the call of a configured binder passes these). *)
Definition passed (t : str) : str := mangle_type_name t true.

Fixpoint ends_low (u : bool) (a : str) : bool :=
  match a with [] => u | c :: a' => ends_low (mangled_punct c || Ascii.eqb c "_") a' end.
Lemma mangled_app a : forall u b, mangled u (a ++ b) = mangled u a ++ mangled (ends_low u a) b.
Proof.
  induction a as [|c a IH]; intros u b; cbn [app mangled ends_low]; [reflexivity|].
  destruct (mangled_punct c); cbn [orb]; [destruct u; cbn [app]|cbn [app]]; rewrite IH; reflexivity.
Qed.
Lemma ends_low_snoc a u x : ends_low u (a ++ [x]) = mangled_punct x || Ascii.eqb x "_".
Proof. revert u; induction a as [|c a IH]; intros u; cbn [app ends_low]; [reflexivity|apply IH]. Qed.
Lemma punct_iff x : mangled_punct x = true <-> In x $" <>,:".
Proof. unfold mangled_punct. rewrite existsb_exists. split; [intros [y [Hy E]]; apply Ascii.eqb_eq in E; subst; exact Hy|intros H; exists x; split; [exact H|apply Ascii.eqb_refl]]. Qed.
Lemma mangled_in u a x : In x (mangled u a) -> In x a \/ x = "_"%char.
Proof.
  revert u; induction a as [|c a IH]; intros u; cbn [mangled]; [intros []|].
  destruct (mangled_punct c).
  - destruct u; [intros H; apply IH in H; destruct H; [left; right|]; auto|intros [<-|H]; [auto|apply IH in H; destruct H; [left; right|]; auto]].
  - intros [<-|H]; [left; left; reflexivity|apply IH in H; destruct H; [left; right|]; auto].
Qed.
Lemma plain_mangled k u : plain k -> mangled u k = mangled false k /\ ends_low u k = false.
Proof.
  intros [C [[x [rest [E F]]] [rest' [y [E' G]]]]]. split.
  - rewrite E. cbn [mangled]. destruct (mangled_punct x) eqn:P; [|reflexivity]. apply punct_iff in P. exfalso.
    assert (X : In x k) by (rewrite E; left; reflexivity). apply C in X. cbn in P, F, X. tauto.
  - rewrite E', ends_low_snoc. assert (X : In y k) by (rewrite E'; apply in_or_app; right; left; reflexivity). apply C in X.
    apply orb_false_iff; split; [apply not_true_is_false; rewrite punct_iff|apply Ascii.eqb_neq]; cbn in *; [tauto|]. intros ->. apply G. auto.
Qed.
Lemma no_template k : (forall x, In x k -> ~ In x $"<>,*&") -> existsb template_punct k = false.
Proof.
  intros H. apply not_true_is_false. rewrite existsb_exists. intros [x [Hx T]]. apply H in Hx. apply Hx. unfold template_punct in T. rewrite existsb_exists in T.
  destruct T as [y [Hy E]]. apply Ascii.eqb_eq in E; subst y. cbn in *. tauto.
Qed.
Lemma no_stars s : (forall x, In x s -> x <> "*"%char /\ x <> "&"%char) ->
  flat_map (fun x => if Ascii.eqb x "&" then $"_ref_" else [x]) (flat_map (fun x => if Ascii.eqb x "*" then $"_star_" else [x]) s) = s.
Proof.
  induction s as [|c s IH]; intros H; [reflexivity|]. cbn [flat_map]. destruct (H c (or_introl eq_refl)) as [A B].
  apply Ascii.eqb_neq in A, B. rewrite A. cbn [app flat_map]. rewrite B. cbn [app]. rewrite IH; [reflexivity|]. intros; apply H; right; assumption.
Qed.
Lemma plain_passed k : plain k -> passed k = mangled false k.
Proof. intros [C _]. unfold passed. rewrite mangle_eq, (no_template k C). reflexivity. Qed.
Lemma plain_stars k x : plain k -> In x (mangled false k) -> x <> "*"%char /\ x <> "&"%char.
Proof. intros [C _] H. apply mangled_in in H. destruct H as [H| ->]; [apply C in H; split; intros ->; apply H; cbn; auto 6|split; discriminate]. Qed.

Lemma less_passed k : plain k -> passed ($"std::less<" ++ k ++ $">") = $"std_less_" ++ passed k ++ $"_t".
Proof.
  intros P. rewrite (plain_passed k P). unfold passed. rewrite mangle_eq.
  assert (T : existsb template_punct ($"std::less<" ++ k ++ $">") = true) by (rewrite existsb_app; reflexivity). rewrite T. cbn [andb].
  rewrite !mangled_app. change (ends_low false $"std::less<") with true. change (mangled false $"std::less<") with $"std_less_".
  destruct (plain_mangled k true P) as [E F]. rewrite F, E. change (mangled false $">") with $"_".
  rewrite no_stars; [rewrite <- !app_assoc; reflexivity|]. intros x H. rewrite !in_app_iff in H. destruct H as [H|[H|H]].
  - cbn in H. repeat destruct H as [<-|H]; try (split; discriminate); contradiction.
  - exact (plain_stars k x P H).
  - cbn in H. destruct H as [<-|[]]; split; discriminate.
Qed.
Lemma pair_passed k v close : plain k -> plain v -> close = $">>" \/ close = $"> >" ->
  passed ($"std::allocator<std::pair<const " ++ k ++ $", " ++ v ++ close) = $"std_allocator_std_pair_const_" ++ passed k ++ $"_" ++ passed v ++ $"_t".
Proof.
  intros P Q Hc. rewrite (plain_passed k P), (plain_passed v Q). unfold passed. rewrite mangle_eq.
  assert (T : existsb template_punct ($"std::allocator<std::pair<const " ++ k ++ $", " ++ v ++ close) = true) by (rewrite existsb_app; reflexivity). rewrite T. cbn [andb].
  rewrite !mangled_app. change (ends_low false $"std::allocator<std::pair<const ") with true.
  change (mangled false $"std::allocator<std::pair<const ") with $"std_allocator_std_pair_const_".
  destruct (plain_mangled k true P) as [E F]. rewrite F, E. change (mangled false $", ") with $"_". change (ends_low false $", ") with true.
  destruct (plain_mangled v true Q) as [E' F']. rewrite F', E'. assert (C : mangled false close = $"_") by (destruct Hc as [-> | ->]; reflexivity). rewrite C.
  rewrite no_stars; [rewrite <- !app_assoc; reflexivity|]. intros x H. rewrite !in_app_iff in H. destruct H as [H|[H|[H|[H|H]]]].
  - cbn in H. repeat destruct H as [<-|H]; try (split; discriminate); contradiction.
  - exact (plain_stars k x P H).
  - cbn in H. destruct H as [<-|[]]; split; discriminate.
  - exact (plain_stars v x Q H).
  - cbn in H. destruct H as [<-|[]]; split; discriminate.
Qed.

(** A map with the default comparator and allocator gets the short name. *)
Theorem C71_default_map : forall k v close, plain k -> plain v -> close = $">>" \/ close = $"> >" ->
  map_python_name (passed k) (passed v) (passed ($"std::less<" ++ k ++ $">")) (passed ($"std::allocator<std::pair<const " ++ k ++ $", " ++ v ++ close))
  = $"map_" ++ passed k ++ $"_" ++ passed v.
Proof.
  intros k v close P Q C. rewrite less_passed, pair_passed by assumption. unfold map_python_name. rewrite !streqb_refl. cbn [app]. rewrite app_nil_r. reflexivity.
Qed.
Print Assumptions C71_default_map.
(** Any other comparator or allocator appears in the name. *)
Theorem C71_other_map : forall k v c a,
  exists comparator allocator, map_python_name k v c a = $"map_" ++ k ++ $"_" ++ v ++ comparator ++ allocator /\
    (c = $"std_less_" ++ k ++ $"_t" -> comparator = []) /\ (c <> $"std_less_" ++ k ++ $"_t" -> comparator = $"_" ++ c) /\
    (a = $"std_allocator_std_pair_const_" ++ k ++ $"_" ++ v ++ $"_t" -> allocator = []) /\
    (a <> $"std_allocator_std_pair_const_" ++ k ++ $"_" ++ v ++ $"_t" -> allocator = $"_" ++ a).
Proof.
  intros k v c a. unfold map_python_name. do 2 eexists. split; [reflexivity|].
  destruct (streqb_spec c ($"std_less_" ++ k ++ $"_t")), (streqb_spec a ($"std_allocator_std_pair_const_" ++ k ++ $"_" ++ v ++ $"_t")); repeat split; intros; (reflexivity || contradiction).
Qed.
Print Assumptions C71_other_map.
(** Not so for keys that are templates: the defaults are not recognised. *)
Theorem C71_template_key_refuted : ~ forall k v,
  map_python_name (passed k) (passed v) (passed ($"std::less<" ++ k ++ $">")) (passed ($"std::allocator<std::pair<const " ++ k ++ $", " ++ v ++ $">>"))
  = $"map_" ++ passed k ++ $"_" ++ passed v.
Proof. intros H. specialize (H $"A<int>" $"int"). vm_compute in H. discriminate H. Qed.
Print Assumptions C71_template_key_refuted.
(** Vectors that differ only in the allocator get the same Python name. *)
Theorem C71_distinct_vectors_refuted : ~ forall t a t' a', vector_python_name (passed t) (passed a) = vector_python_name (passed t') (passed a') -> (t, a) = (t', a').
Proof. intros H. specialize (H $"int" $"std::allocator<int>" $"int" $"n::arena<int>" eq_refl). discriminate H. Qed.
Print Assumptions C71_distinct_vectors_refuted.
Example C71_case : plain $"n::A" /\ plain $"unsigned long" /\
  map_python_name (passed $"n::A") (passed $"unsigned long") (passed $"std::less<n::A>") (passed $"std::allocator<std::pair<const n::A, unsigned long> >") = $"map_n_A_unsigned_long" /\
  map_python_name (passed $"int") (passed $"int") (passed $"std::greater<int>") (passed $"std::allocator<std::pair<const int, int> >") = $"map_int_int_std_greater_int_t" /\
  map_python_name (passed $"A<int>") (passed $"int") (passed $"std::less<A<int>>") (passed $"std::allocator<std::pair<const A<int>, int>>")
    = $"map_A_int_t_int_std_less_A_int_t_std_allocator_std_pair_const_A_int_int_t".
Proof.
  assert (D : forall k, (forallb (fun x => negb (existsb (Ascii.eqb x) $"<>,*&")) k) = true -> (forall x, In x k -> ~ In x $"<>,*&")).
  { intros k H x Hx J. rewrite forallb_forall in H. specialize (H x Hx). apply negb_true_iff in H. apply not_true_iff_false in H. apply H. rewrite existsb_exists. exists x; split; [exact J|apply Ascii.eqb_refl]. }
  assert (N : forall x l, existsb (Ascii.eqb x) l = false -> ~ In x l).
  { intros x l H J. apply not_true_iff_false in H. apply H. rewrite existsb_exists. exists x; split; [exact J|apply Ascii.eqb_refl]. }
  split; [|split; [|repeat split; vm_compute; reflexivity]].
  - split; [apply D; reflexivity|split; [exists "n"%char, $"::A"|exists $"n::", "A"%char]; (split; [reflexivity|apply N; reflexivity])].
  - split; [apply D; reflexivity|split; [exists "u"%char, $"nsigned long"|exists $"unsigned lon", "g"%char]; (split; [reflexivity|apply N; reflexivity])].
Qed.
