(** Lemmas for PropertiesModules.v. *)
From Coq Require Import Ascii String Bool Arith Lia Sorted.
From Coq Require Import List.
From Verif Require Import Str StrFacts SpecUtil Util UtilFacts PropertiesUtil SpecBind BindFacts SpecContext WriteFacts SpecModules.
Import ListNotations.

Local Notation colon := ":"%char.
Lemma submodule_name_spec x : module_name x (submodule_name x).
Proof.
  unfold submodule_name. destruct (mem x [$"nonlocal"; $"global"]) eqn:M.
  - apply mem_In in M. constructor. destruct M as [<-|[<-|[]]]; auto.
  - constructor; intros ->; discriminate.
Qed.
Lemma module_name_fun x y : module_name x y -> y = submodule_name x.
Proof.
  intros [z [->| ->]|z A B]; try reflexivity. unfold submodule_name.
  destruct (mem z [$"nonlocal"; $"global"]) eqn:M; [|reflexivity]. apply mem_In in M. destruct M as [E|[E|[]]]; symmetry in E; contradiction.
Qed.
Lemma module_names cs : Forall2 module_name cs (map submodule_name cs).
Proof. induction cs; constructor; [apply submodule_name_spec|assumption]. Qed.
Lemma module_names_fun cs path : Forall2 module_name cs path -> path = map submodule_name cs.
Proof. induction 1 as [|x y l l' H _ IH]; [reflexivity|]. cbn [map]. rewrite (module_name_fun _ _ H), IH. reflexivity. Qed.

(** ** Occurrences of [::] *)
Lemma occurs_after a s i : ~ In colon a -> occurs_at $"::" (a ++ s) i -> length a <= i /\ occurs_at $"::" s (i - length a).
Proof.
  intros N [p [q [E L]]].
  assert (Le : length a <= length p).
  { destruct (le_lt_dec (length a) (length p)) as [H|H]; [exact H|]. exfalso. apply N.
    assert (X : nth_error (a ++ s) (length p) = Some colon).
    { rewrite E, nth_error_app2, Nat.sub_diag by lia. reflexivity. }
    rewrite nth_error_app1 in X by exact H. eapply nth_error_In; exact X. }
  subst i. split; [exact Le|]. exists (skipn (length a) p), q. split; [|rewrite skipn_length; reflexivity].
  assert (X : skipn (length a) (a ++ s) = skipn (length a) (p ++ $"::" ++ q)) by (rewrite E; reflexivity).
  rewrite skipn_app, skipn_all, Nat.sub_diag in X. rewrite skipn_app in X. replace (length a - length p) with 0 in X by lia. exact X.
Qed.
Lemma no_occurs a : ~ In colon a -> ~ occurs $"::" a.
Proof.
  intros N [i H]. rewrite <- (app_nil_r a) in H. destruct (occurs_after _ _ _ N H) as [_ [p [q [E _]]]]. destruct p; discriminate.
Qed.
Lemma replaced_after a s r : ~ In colon a -> leftmost_replaced $"::" $"." s r -> leftmost_replaced $"::" $"." (a ++ s) (a ++ r).
Proof.
  intros N H. destruct H as [s H|a' b r L H].
  - constructor. intros [i O]. destruct (occurs_after _ _ _ N O) as [_ O']. apply H. eexists; exact O'.
  - rewrite !(app_assoc a a'). constructor; [|exact H]. intros i Li O. rewrite <- app_assoc in O. destruct (occurs_after _ _ _ N O) as [Le O'].
    apply (L (i - length a)); [|exact O']. rewrite app_length in Li. lia.
Qed.
Lemma replace_after a s : ~ In colon a -> replace (a ++ s) $"::" $"." = a ++ replace s $"::" $".".
Proof.
  intros N. assert (D : $"::" <> []) by discriminate. symmetry. apply (C13_replace_value _ _ _ D). apply replaced_after; [exact N|].
  apply (C13_replace_value _ _ _ D). reflexivity.
Qed.
Lemma replace_sep s : replace ($"::" ++ s) $"::" $"." = $"." ++ replace s $"::" $".".
Proof.
  assert (D : $"::" <> []) by discriminate. symmetry. apply (C13_replace_value _ _ _ D).
  apply (LR_some $"::" $"." [] s); [intros i Hi; inversion Hi|]. apply (C13_replace_value _ _ _ D). reflexivity.
Qed.

Lemma separated_fun sep cs n m : separated sep cs n -> separated sep cs m -> n = m.
Proof. intros H; revert m; induction H as [|x|x y l s H IH]; intros m Hm; inversion Hm; subst; try reflexivity. f_equal. f_equal. auto. Qed.
(** The dotted name of a namespace followed by anything that begins after it. *)
Lemma replace_path cs : forall n d s, Forall (fun c => c <> [] /\ ~ In colon c) cs -> separated $"::" cs n -> separated $"." cs d ->
  replace (n ++ $" " ++ s) $"::" $"." = d ++ $" " ++ replace s $"::" $".".
Proof.
  induction cs as [|x cs IH]; intros n d s F A B.
  - inversion A; inversion B; subst. apply (replace_after $" " s). intros [H|[]]; discriminate.
  - inversion F as [|? ? [_ Hx] F']; subst. inversion A as [|x0|x0 y l m A']; subst; inversion B as [|x1|x1 y1 l1 m1 B']; subst.
    + rewrite (app_assoc d), (app_assoc d). apply (replace_after (d ++ $" ") s). intros H. apply in_app_iff in H. destruct H as [H|[H|[]]]; [exact (Hx H)|discriminate].
    + rewrite <- !app_assoc, (replace_after x) by exact Hx. f_equal. rewrite replace_sep. f_equal. apply IH; assumption.
Qed.
Lemma replace_list css : forall ns ds, Forall2 path_in_cpp css ns -> Forall2 (separated $".") css ds ->
  replace (concat (map (fun n => n ++ $" ") ns)) $"::" $"." = concat (map (fun d => d ++ $" ") ds).
Proof.
  induction css as [|cs css IH]; intros ns ds F G; inversion F as [|? n ? ns' [_ [P Q]] F']; inversion G as [|? d ? ds' Hd G']; subst; [reflexivity|].
  cbn [map concat]. rewrite <- !app_assoc, (replace_path cs n d _ P Q Hd). do 2 f_equal. apply IH; assumption.
Qed.

(** ** The last component *)
Lemma separated_app sep cs x n : cs <> [] -> separated sep cs n -> separated sep (cs ++ [x]) (n ++ sep ++ x).
Proof.
  intros N H; induction H as [|y|y z l s H IH]; [contradiction|constructor; constructor|].
  cbn [app]. rewrite <- !app_assoc. constructor. apply IH. discriminate.
Qed.
Lemma separated_nil cs : cs <> [] -> Forall (fun c => c <> [] /\ ~ In colon c) cs -> ~ separated $"::" cs [].
Proof.
  intros N F H. inversion H as [|x|x y l s H' E1 E2]; subst; [contradiction| |].
  - inversion F as [|? ? [X _]]; subst. contradiction.
  - destruct x; discriminate.
Qed.
Lemma last_separator_fun n i x j y : last_separator n i x -> last_separator n j y -> i = j /\ x = y.
Proof.
  intros [E1 H1] [E2 H2].
  assert (L : length i = length j).
  { destruct (lt_eq_lt_dec (length i) (length j)) as [[H|H]|H]; [|exact H|]; exfalso.
    - apply (H1 _ H). exists j, y. split; [exact E2|reflexivity].
    - apply (H2 _ H). exists i, x. split; [exact E1|reflexivity]. }
  rewrite E1 in E2.
  assert (X : firstn (length i) (i ++ $"::" ++ x) = firstn (length j) (j ++ $"::" ++ y)) by (rewrite E2, L; reflexivity).
  rewrite !firstn_app, !firstn_all, !Nat.sub_diag in X. cbn [firstn] in X. rewrite !app_nil_r in X. subst j. split; [reflexivity|].
  apply app_inv_head in E2. injection E2; auto.
Qed.
Lemma last_separator_plain inner x : ~ In colon x -> last_separator (inner ++ $"::" ++ x) inner x.
Proof.
  intros N. split; [reflexivity|]. intros j Hj [p [q [E L]]]. subst j.
  assert (X : nth_error (inner ++ $"::" ++ x) (S (length p)) = Some colon).
  { rewrite E, nth_error_app2 by lia. replace (S (length p) - length p) with 1 by lia. reflexivity. }
  rewrite nth_error_app2 in X by lia. destruct (S (length p) - length inner) as [|[|k]] eqn:K; [lia|lia|]. cbn in X. apply nth_error_In in X. contradiction.
Qed.
Lemma path_split cs x n : path_in_cpp (cs ++ [x]) n ->
  (cs = [] /\ n = x /\ base_namespace n = [] /\ last_namespace n = x) \/
  (exists inner, path_in_cpp cs inner /\ n = inner ++ $"::" ++ x /\ base_namespace n = inner /\ last_namespace n = x).
Proof.
  intros [_ [F H]]. apply Forall_app in F. destruct F as [Fc Fx]. inversion Fx as [|? ? [Nx Cx] _]; subst.
  destruct cs as [|c cs].
  - left. inversion H; subst. split; [reflexivity|split; [reflexivity|]]. apply C20_top_level. apply no_occurs. exact Cx.
  - right. exists (join $"::" (c :: cs)).
    assert (P : path_in_cpp (c :: cs) (join $"::" (c :: cs))) by (split; [discriminate|split; [exact Fc|apply join_separated]]).
    assert (E : n = join $"::" (c :: cs) ++ $"::" ++ x) by (eapply separated_fun; [exact H|apply separated_app; [discriminate|apply P]]).
    split; [exact P|split; [exact E|]]. pose proof (last_separator_plain (join $"::" (c :: cs)) x Cx) as L. rewrite <- E in L.
    destruct (base_namespace_cases n) as [[y [L' ->]]|[O _]].
    + destruct (last_separator_fun _ _ _ _ _ L L') as [A B]. split; symmetry; assumption.
    + exfalso. apply O. exists (length (join $"::" (c :: cs))), (join $"::" (c :: cs)), x. split; [exact E|reflexivity].
Qed.
Lemma path_nonempty cs n : path_in_cpp cs n -> n <> [].
Proof. intros [A [B C]] ->. exact (separated_nil cs A B C). Qed.
Lemma path_unique cs : forall cs' n, path_in_cpp cs n -> path_in_cpp cs' n -> cs = cs'.
Proof.
  induction cs as [|x cs IH] using rev_ind; intros cs' n H H'; [destruct H as [H _]; contradiction|].
  destruct (@exists_last _ cs' (proj1 H')) as [cs1 [y ->]].
  destruct (path_split _ _ _ H) as [[-> [E1 [B1 L1]]]|[i [P [E1 [B1 L1]]]]]; destruct (path_split _ _ _ H') as [[-> [E2 [B2 L2]]]|[j [Q [E2 [B2 L2]]]]].
  - congruence.
  - apply path_nonempty in Q. congruence.
  - apply path_nonempty in P. congruence.
  - rewrite (IH cs1 i P); [congruence|]. replace i with j by congruence. exact Q.
Qed.
Lemma encloses_path ns n : encloses ns n -> forall cs, path_in_cpp cs ns -> exists cs', path_in_cpp cs' n.
Proof.
  induction 1 as [H|n inner x _ IH L N]; intros cs P; [eauto|]. destruct (IH _ P) as [c1 Q].
  destruct (@exists_last _ c1 (proj1 Q)) as [c2 [y ->]]. destruct (path_split _ _ _ Q) as [[_ [E [B _]]]|[i [Q' [E _]]]].
  - exfalso. destruct Q as [_ [F _]]. apply Forall_app in F. destruct F as [_ F]. inversion F as [|? ? [_ C] _]; subst. apply C.
    destruct L as [-> _]. apply in_app_iff. right. left. reflexivity.
  - exists c2. assert (C : ~ In colon y) by (destruct Q as [_ [F _]]; apply Forall_app in F; destruct F as [_ F]; inversion F as [|? ? [_ C] _]; exact C).
    pose proof (last_separator_plain i y C) as L'. rewrite <- E in L'. destruct (last_separator_fun _ _ _ _ _ L L') as [-> _]. exact Q'.
Qed.

(** ** Running the list *)
Lemma create_all l : forall done made, StronglySorted strlt (done ++ l) ->
  (forall n, In n l -> exists cs, path_in_cpp cs n) ->
  (forall n, In n l -> base_namespace n <> [] -> In (base_namespace n) (done ++ l)) ->
  lookup [] made = Some [] -> (forall n cs, In n done -> path_in_cpp cs n -> lookup n made = Some (map submodule_name cs)) ->
  exists m, create_modules (map pair_of l) made = Some m /\ lookup [] m = Some [] /\
    (forall n cs, In n (done ++ l) -> path_in_cpp cs n -> lookup n m = Some (map submodule_name cs)) /\
    (forall n, In n (map fst m) <-> In n l \/ In n (map fst made)).
Proof.
  induction l as [|n l IH]; intros done made S Hn Hb H0 Hd.
  - exists made. rewrite app_nil_r. split; [reflexivity|split; [exact H0|split; [exact Hd|]]]. intros n. split; [auto|intros [[]|H]; exact H].
  - destruct (Hn n (or_introl eq_refl)) as [cs P]. destruct (@exists_last _ cs (proj1 P)) as [cs1 [x ->]].
    assert (Hm : lookup (base_namespace n) made = Some (map submodule_name cs1) /\
      match base_namespace n with [] => last_namespace n | _ => base_namespace n ++ $"::" ++ last_namespace n end = n /\ last_namespace n = x).
    { destruct (path_split _ _ _ P) as [[-> [E [B L]]]|[i [Q [E [B L]]]]].
      - rewrite B, L. split; [exact H0|split; [symmetry; exact E|reflexivity]].
      - assert (Ni : i <> []) by (eapply path_nonempty; exact Q). rewrite B, L. split; [|split; [destruct i; [contradiction|symmetry; exact E]|reflexivity]].
        apply Hd; [|exact Q].
        assert (X : In (base_namespace n) (done ++ n :: l)) by (apply Hb; [left; reflexivity|congruence]).
        rewrite B in X. apply in_app_iff in X. destruct X as [X|X]; [exact X|]. exfalso.
        assert (Lt : strlt i n) by (rewrite E; apply strlt_prefix; discriminate).
        destruct X as [X|X]; [rewrite X in Lt; exact (strlt_irrefl _ Lt)|].
        assert (S' : StronglySorted strlt (n :: l)) by (clear -S; induction done; [assumption|inversion S; auto]).
        inversion S' as [|? ? _ F]; subst. rewrite Forall_forall in F. apply (strlt_irrefl (i ++ $"::" ++ x)). eapply strlt_trans; [apply F; exact X|exact Lt]. }
    destruct Hm as [Hm [K L]]. cbn [map create_modules pair_of]. unfold pair_of at 1. rewrite Hm, K, L.
    destruct (IH (done ++ [n]) ((n, map submodule_name cs1 ++ [submodule_name x]) :: made)) as [m [E [E0 [Q R]]]].
    + rewrite <- app_assoc. exact S.
    + intros n' H; apply Hn; right; exact H.
    + intros n' H B. rewrite <- app_assoc. apply Hb; [right; exact H|exact B].
    + cbn [lookup]. destruct (streqb [] n) eqn:X; [|exact H0]. apply streqb_eq in X. exfalso. exact (path_nonempty _ _ P (eq_sym X)).
    + intros n' cs' H P'. cbn [lookup]. destruct (streqb n' n) eqn:X.
      * apply streqb_eq in X. subst n'. rewrite (path_unique _ _ _ P' P), map_app. reflexivity.
      * apply in_app_iff in H. destruct H as [H|[<-|[]]]; [apply Hd; assumption|]. rewrite (proj2 (streqb_eq n n) eq_refl) in X. discriminate.
    + exists m. split; [exact E|split; [exact E0|split]].
      * intros n' cs' H. apply Q. rewrite <- app_assoc. exact H.
      * intros n'. rewrite R. cbn [map fst In]. tauto.
Qed.
