(** C85: more declarations never remove a binding. *)
From Coq Require Import Ascii String Bool Arith NArith Lia.
From Coq Require Import List.
From Verif Require Import Str StrFacts SpecUtil Util Config SpecConfig Ast Types Func Enum Includes Class Context SpecTypes SpecBind SpecClass ClassFacts SpecContext ContextFacts
  SpecRequests RunFacts SpecOrder OrderFacts RequestFacts PropertiesContext PropertiesRequests Samples.
Import ListNotations.

(** Positions do not matter, only that the item of each type name stays the same. *)
Lemma required_transfer w ds ds' : (forall d, In d ds -> In d ds') -> NoDup ds' -> types_distinct w ds' ->
  forall i, required w ds i -> forall d, nth_error ds i = Some d -> exists i', nth_error ds' i' = Some d /\ required w ds' i'.
Proof.
  intros I N T i H. induction H as [i d Ed El Sy Bd|i j d dj t name Ed El Nj IH Ej U A Nm]; intros d0 E0; rewrite Ed in E0; injection E0 as <-.
  - destruct (In_nth_error ds' d) as [i' Ei']; [apply I; eapply nth_error_In; exact Ed|]. exists i'. split; [exact Ei'|]. exact (RQ_config w ds' i' d Ei' El Sy Bd).
  - destruct (IH dj Ej) as [j' [Ej' Nj']]. destruct (In_nth_error ds' d) as [i' Ei']; [apply I; eapply nth_error_In; exact Ed|].
    exists i'. split; [exact Ei'|]. refine (RQ_used w ds' i' j' d dj t name Ei' El Nj' Ej' U A _).
    destruct Nm as [d1 [E1 [H1 _]]]. rewrite Ed in E1. injection E1 as <-. exists d. split; [exact Ei'|split; [exact H1|]].
    intros k d' L Ek Hk. assert (X : d = d') by (eapply T; [eapply nth_error_In; exact Ei'|eapply nth_error_In; exact Ek|exact H1|exact Hk]). subst d'.
    assert (i' = k); [|lia]. apply (proj1 (NoDup_nth_error ds') N); [apply nth_error_Some; rewrite Ei'; discriminate|rewrite Ei', Ek; reflexivity].
Qed.
Lemma items_grow w v v' : incl v v' -> distinct_identities w v' -> forall d, In d (collected_items w v) -> In d (collected_items w v').
Proof.
  intros I D d X. assert (D0 : distinct_identities w v) by (intros x y Hx Hy; apply D; apply I; assumption).
  apply (items_distinct w v d D0) in X. apply (items_distinct w v' d D). destruct X as [X Y]. split; [apply I, X|exact Y].
Qed.

(** If a program is given more declarations (say, one more header) and both
    runs succeed, then all that was bound is still bound. *)
Theorem C85_bound_stays_bound : forall w visits visits' x x' d, const_is_method w -> incl visits visits' ->
  distinct_identities w visits' -> types_distinct w (collected_items w visits') ->
  run w visits = Ok x -> run w visits' = Ok x' -> bound x d -> bound x' d.
Proof.
  intros w v v' x x' d Wf I D T R R' B.
  assert (J : In d (collected_items w v)).
  { destruct B as (b&J&E&_). subst d. apply (Permutation.Permutation_in _ (run_perm _ _ _ R)). apply in_map, J. }
  apply In_nth_error in J. destruct J as [i Hi]. apply (C77_bound_iff_required w v x i d Wf R Hi) in B.
  destruct (required_transfer w _ _ (items_grow w v v' I D) (items_nodup w v') T i B d Hi) as (i'&Hi'&B').
  exact (proj2 (C77_bound_iff_required w v' x' i' d Wf R' Hi') B').
Qed.
Print Assumptions C85_bound_stays_bound.

Lemma same_operators w v v' : incl v v' -> (forall f, In (DFun f) v' -> insertion_operator w f -> In (DFun f) v) -> distinct_operators w v' ->
  same_lookup (operators w v) (operators w v').
Proof.
  intros I J D key.
  assert (K : forall u u' f, (forall f, In (DFun f) u -> insertion_operator w f -> In (DFun f) u') ->
    (forall f g, In (DFun f) u -> In (DFun g) u' -> insertion_operator w f -> insertion_operator w g -> function_pointer_type w (fun_ w f) = function_pointer_type w (fun_ w g) -> f = g) ->
    last_operator w u key f -> last_operator w u' key f).
  { intros u u' f S Q [b [a [E [O [P L]]]]]. assert (M : In (DFun f) u) by (rewrite E; apply in_or_app; right; left; reflexivity).
    destruct (last_operator_exists w u' key) as [g Hg]; [exists f; split; [exact (S f M O)|auto]|].
    assert (f = g); [|subst; exact Hg]. destruct Hg as [b' [a' [E' [O' [P' _]]]]].
    apply Q; [exact M|rewrite E'; apply in_or_app; right; left; reflexivity|exact O|exact O'|congruence]. }
  destruct (lookup key (operators w v)) as [f|] eqn:E.
  - apply operators_spec. apply operators_spec in E. revert E. apply K; [intros g G _; exact (I _ G)|].
    intros g h G Hh. apply D; [exact (I _ G)|exact Hh].
  - destruct (lookup key (operators w v')) as [f|] eqn:E'; [|reflexivity]. apply operators_spec in E'. apply (K v' v f) in E'; [|exact J|].
    + apply operators_spec in E'. congruence.
    + intros g h G Hh. apply D; [exact G|exact (I _ Hh)].
Qed.
(** Its code stays the same, too: for functions and enums in any case, for
    classes if there are no further printing operators. *)
Theorem C85_same_code : forall w visits visits' x x' b b', const_is_method w -> incl visits visits' ->
  distinct_identities w visits' -> types_distinct w (collected_items w visits') ->
  run w visits = Ok x -> run w visits' = Ok x' ->
  (forall r, b_decl b = DRec r -> distinct_operators w visits' /\ forall f, In (DFun f) visits' -> insertion_operator w f -> In (DFun f) visits) ->
  In b (out_sorted x) -> b_code b <> [] -> In b' (out_sorted x') -> b_decl b' = b_decl b ->
  b_code b' = b_code b /\ b_prefix b' = b_prefix b /\ b_incl b' = b_incl b /\ b_deps b' = b_deps b.
Proof.
  intros w v v' x x' b b' Wf I D T R R' O Hb C Hb' E.
  assert (B : bound x' (b_decl b)) by (apply (C85_bound_stays_bound w v v' x x' (b_decl b) Wf I D T R R'); exists b; auto).
  destruct (run_item w v' x' b' R' Hb') as (j&Hj&Nj&Gj). rewrite E in Hj, Gj.
  assert (C' : b_code b' <> []) by (apply Nj, (bound_iff w v' x' j (b_decl b) R' Hj), B).
  destruct (run_item w v x b R Hb) as (i&Hi&_&Gi). destruct (Gi C) as (g&Eg&A1&A2&A3&A4). destruct (Gj C') as (g'&Eg'&B1&B2&B3&B4).
  assert (S : generate_code w (operators w v') (b_decl b) = generate_code w (operators w v) (b_decl b)).
  { destruct (b_decl b) as [f|r|e]; [reflexivity| |reflexivity]. destruct (O r eq_refl) as [O1 O2]. apply generate_lookup, same_operators; assumption. }
  rewrite S, Eg in Eg'. apply Ok_inj in Eg'. subst g'. rewrite A1, A2, A3, A4, B1, B2, B3, B4. auto.
Qed.
Print Assumptions C85_same_code.

(** Class n::m::B with its base n::A and the function n::g first; then also the
    enum n::E and the function n::f. *)
Definition few_visits : list decl := [DFun 1; DRec 1; DRec 0; DRec 2].
Definition grown_visits : list decl := [DEnum 0; DFun 1; DRec 1; DFun 0; DRec 0; DRec 2; DRec 3].
Definition growth_w : world := mkworld mix_env (assign_list namespaces_to_bind [$"n"] default_config) (mix_options false false 300).
Example C85_case : const_is_method growth_w /\ incl few_visits grown_visits /\ distinct_identities growth_w grown_visits /\
  types_distinct growth_w (collected_items growth_w grown_visits) /\ distinct_operators growth_w grown_visits /\
  (forall f, In (DFun f) grown_visits -> ~ insertion_operator growth_w f) /\
  (exists x x', run growth_w few_visits = Ok x /\ run growth_w grown_visits = Ok x' /\ map b_decl (filter has_code (out_sorted x)) = [DFun 1; DRec 0; DRec 2; DRec 1] /\
     map b_decl (filter has_code (out_sorted x')) = [DEnum 0; DFun 1; DRec 0; DRec 2; DRec 3; DRec 1; DFun 0]).
Proof.
  assert (O : forall f, In (DFun f) grown_visits -> ~ insertion_operator growth_w f).
  { intros f Hf [_ [_ [X _]]]. cbn in Hf. repeat (destruct Hf as [Hf|Hf]; [try discriminate Hf; injection Hf as <-; vm_compute in X; discriminate X|]). destruct Hf. }
  split; [|split; [|split; [|split; [|split; [|split; [exact O|]]]]]].
  - intros f. do 2 (destruct f as [|f]; [intros K; vm_compute in K; discriminate K|]). destruct f; intros K; vm_compute in K; discriminate K.
  - intros d Hd. cbn in Hd |- *. tauto.
  - intros d d' Hd Hd' _ _ E. cbn in Hd, Hd'.
    repeat (destruct Hd as [<-|Hd]; [repeat (destruct Hd' as [<-|Hd']; [try reflexivity; vm_compute in E; discriminate E|]); destruct Hd'|]); destruct Hd.
  - intros d d' n Hd Hd' Hn Hn'. vm_compute in Hd, Hd'.
    repeat (destruct Hd as [<-|Hd]; [repeat (destruct Hd' as [<-|Hd']; [try reflexivity; exfalso; vm_compute in Hn, Hn';
      repeat (destruct Hn as [<-|Hn]; [repeat (destruct Hn' as [Hn'|Hn']; [discriminate Hn'|]); destruct Hn'|]); destruct Hn|]); destruct Hd'|]); destruct Hd.
  - intros f g Hf _ X. destruct (O f Hf X).
  - eexists _, _. split; [vm_compute; reflexivity|split; [vm_compute; reflexivity|]]. vm_compute. split; reflexivity.
Qed.
