(** C76: the order in which declarations are met; parts of C26 and C67. *)
From Coq Require Import Ascii String Bool Arith NArith Lia.
From Coq Require Import List Relations.
From Verif Require Import Str StrFacts Util Config Ast Types Func Enum Includes Class Context SpecContext SpecLayout SpecOrder ContextFacts SortFacts RunFacts OrderFacts Samples.
Import ListNotations.

(** ** C67: which operator prints a class *)
Theorem C67_last_operator_counts : forall w visits key f, lookup key (operators w visits) = Some f <-> last_operator w visits key f.
Proof. exact operators_spec. Qed.
Print Assumptions C67_last_operator_counts.

(** ** C26: when the binding phase fails *)
Theorem C26_succeeds_iff : forall w visits, (exists p, bind_all w (collect w visits) = Ok p) <->
  (forall d, In d (collected_items w visits) -> decided w d) /\
  (forall i d, needed w (operators w visits) (collected_items w visits) i -> nth_error (collected_items w visits) i = Some d ->
     exists g, generate_code w (operators w visits) d = Ok g).
Proof. exact bind_all_succeeds_iff. Qed.
Print Assumptions C26_succeeds_iff.

(** ** C76 *)
Local Opaque bind_all collect sort_binders.
Theorem C76_same_bindings : forall w visits visits' x x', same_declarations visits visits' ->
  distinct_identities w visits -> distinct_operators w visits -> types_distinct w (collected_items w visits) ->
  run w visits = Ok x -> run w visits' = Ok x' ->
  (forall d, bound x d <-> bound x' d) /\
  (forall b, In b (out_sorted x) -> exists b', In b' (out_sorted x') /\ b_decl b' = b_decl b) /\
  (forall b', In b' (out_sorted x') -> exists b, In b (out_sorted x) /\ b_decl b = b_decl b') /\
  (forall b b', In b (out_sorted x) -> In b' (out_sorted x') -> b_decl b = b_decl b' ->
     b_code b' = b_code b /\ b_prefix b' = b_prefix b /\ b_incl b' = b_incl b /\ b_deps b' = b_deps b).
Proof.
  intros w v v' x x' S DI DO TD H H'.
  destruct (run_inv _ _ _ H) as [l [E [Es _]]]. destruct (run_inv _ _ _ H') as [l' [E' [Es' _]]].
  pose proof (sort_binders_spec w l) as P. rewrite Es in P. destruct P as [P _].
  pose proof (sort_binders_spec w l') as P'. rewrite Es' in P'. destruct P' as [P' _].
  pose proof (same_sym v v' S) as S'. pose proof (identities_sym w v v' S DI) as DI'.
  assert (C : forall b b', In b (out_sorted x) -> In b' (out_sorted x') -> b_decl b = b_decl b' ->
     b_code b' = b_code b /\ b_prefix b' = b_prefix b /\ b_incl b' = b_incl b /\ b_deps b' = b_deps b).
  { intros b b' Hb Hb'. apply (same_states w v v' S DI DO TD l (out_log x) l' (out_log x') b b' E E').
    - exact (Permutation.Permutation_in _ P Hb).
    - exact (Permutation.Permutation_in _ P' Hb'). }
  assert (F : forall b, In b (out_sorted x) -> exists b', In b' (out_sorted x') /\ b_decl b' = b_decl b).
  { intros b Hb. destruct (other_item w v v' S DI l (out_log x) l' (out_log x') b E E' (Permutation.Permutation_in _ P Hb)) as [b' [Hb' Q]].
    exists b'. split; [exact (Permutation.Permutation_in _ (Permutation.Permutation_sym P') Hb')|symmetry; exact Q]. }
  assert (F' : forall b', In b' (out_sorted x') -> exists b, In b (out_sorted x) /\ b_decl b = b_decl b').
  { intros b' Hb'. destruct (other_item w v' v S' DI' l' (out_log x') l (out_log x) b' E' E (Permutation.Permutation_in _ P' Hb')) as [b [Hb Q]].
    exists b. split; [exact (Permutation.Permutation_in _ (Permutation.Permutation_sym P) Hb)|symmetry; exact Q]. }
  split; [|split; [exact F|split; [exact F'|exact C]]].
  intros d. split.
  - intros [b [Hb [D N]]]. destruct (F b Hb) as [b' [Hb' Q]]. exists b'. split; [exact Hb'|split; [rewrite Q; exact D|]].
    rewrite (proj1 (C b b' Hb Hb' (eq_sym Q))). exact N.
  - intros [b' [Hb' [D N]]]. destruct (F' b' Hb') as [b [Hb Q]]. exists b. split; [exact Hb|split; [rewrite Q; exact D|]].
    rewrite <- (proj1 (C b b' Hb Hb' Q)). exact N.
Qed.
Print Assumptions C76_same_bindings.
Theorem C76_same_success : forall w visits visits', same_declarations visits visits' ->
  distinct_identities w visits -> distinct_operators w visits -> types_distinct w (collected_items w visits) ->
  hierarchy_acyclic w -> names_distinct w (collected_items w visits) ->
  ((exists p, plan w visits = Ok p) <-> (exists p, plan w visits' = Ok p)).
Proof.
  intros w v v' S DI DO TD HA ND.
  assert (I : forall d, In d (collected_items w v') -> In d (collected_items w v)) by (intros d; apply (items_same w v v' d S DI)).
  split; [apply (plan_succeeds w v v' S DI DO TD HA ND)|].
  apply (plan_succeeds w v' v (same_sym v v' S) (identities_sym w v v' S DI) (operators_sym w v v' S DO)
           (types_other w v v' S DI TD) HA (names_same w _ _ I ND)).
Qed.
Print Assumptions C76_same_success.

(** Two operators that print class [n::A], in the namespaces n and m. *)
Definition pr_op (qn : str) : fn :=
  mkfn (nm $"operator<<" qn $"<a.hh>") (TLRef (TRec false 1 [])) [mkparam $"s" (TLRef (TRec false 1 [])) false; mkparam $"a" (TLRef (TRec true 0 [])) false]
       false false false false false false false false true false false None TK_NonTemplate None 0 false.
Definition pr_env : env :=
  tu [mix_cls $"A" $"n::A" $"<a.hh>" false 0 [] []; mix_cls $"ostream" $"std::ostream" $"<ostream>" true 1 [] []]
     [pr_op $"n::operator<<"; pr_op $"m::operator<<"] [] (fun r => nth r [$"class n::A"; $"class std::ostream"] []) (fun _ => []).
Definition pr_w : world := mkworld pr_env mix_config (mix_options false false 1000%N).
(** Full statement, without [distinct_operators]: false of the code. *)
Theorem C76_any_operators_refuted : ~ forall w visits visits' x x', same_declarations visits visits' ->
  distinct_identities w visits -> types_distinct w (collected_items w visits) ->
  run w visits = Ok x -> run w visits' = Ok x' ->
  forall b b', In b (out_sorted x) -> In b' (out_sorted x') -> b_decl b = b_decl b' -> b_code b' = b_code b.
Proof.
  intros H.
  destruct (run pr_w [DRec 0; DFun 0; DFun 1]) as [x| | | |] eqn:E; try (vm_compute in E; discriminate E).
  destruct (run pr_w [DRec 0; DFun 1; DFun 0]) as [x'| | | |] eqn:E'; try (vm_compute in E'; discriminate E').
  specialize (H pr_w [DRec 0; DFun 0; DFun 1] [DRec 0; DFun 1; DFun 0] x x').
  vm_compute in E, E'. injection E as <-. injection E' as <-.
  refine (_ (H _ _ _ eq_refl eq_refl _ _ (or_introl eq_refl) (or_introl eq_refl) eq_refl)).
  - cbn. intros X. discriminate X.
  - intros d. cbn. tauto.
  - intros d d' Hd Hd' C C'. cbn in Hd, Hd'.
    destruct Hd as [<-|[<-|[<-|[]]]]; destruct Hd' as [<-|[<-|[<-|[]]]]; try reflexivity;
      try (destruct C as [_ C]; vm_compute in C; discriminate C); destruct C' as [_ C']; vm_compute in C'; discriminate C'.
  - intros d d' n Hd Hd' _ _. vm_compute in Hd, Hd'. destruct Hd as [<-|[]]; destruct Hd' as [<-|[]]; reflexivity.
Qed.
Print Assumptions C76_any_operators_refuted.
(** The classes n::V<int> and m::V<int>; the only operator is
    [template<class T> std::ostream & m::operator<<(std::ostream &, m::V<T> const &)]. *)
Definition vt_cls (qn : str) (self : nat) : record :=
  let c := mix_cls $"V" qn $"<v.hh>" false self [] [] in
  mkrecord (r_decl c) (Some [Targ (KType int) $"int"]) false false false true true (Some self) true false true false false false true true None [] [].
Definition vt_op : fn :=
  mkfn (nm $"operator<<" $"m::operator<<" $"<v.hh>") (TLRef (TRec false 2 []))
       [mkparam $"s" (TLRef (TRec false 2 [])) false; mkparam $"v" (TLRef (TDep false $"const V<type-parameter-0-0>")) false]
       false false false false false false false false true false false None TK_FunctionTemplate None 0 false.
Definition vt_env : env :=
  tu [vt_cls $"n::V" 0; vt_cls $"m::V" 1; mix_cls $"ostream" $"std::ostream" $"<ostream>" true 2 [] []] [vt_op] []
     (fun r => nth r [$"class n::V<int>"; $"class m::V<int>"; $"class std::ostream"] []) (fun _ => []).
Definition vt_w : world := mkworld vt_env mix_config (mix_options false false 1000%N).
(** Full statement, false of the code: a class is printed by an operator of its
    own.  Operators that are templates are found by the unqualified name of the
    class, so n::V<int> is printed by the operator of m::V. *)
Theorem C67_own_operator_refuted : ~ forall w visits r f, global_insertion_operator w (operators w visits) r = Some f ->
  namespace_from_named_decl w (f_decl (fun_ w f)) = namespace_from_named_decl w (r_decl (rec_ w r)) \/
  exists p, In p (f_params (fun_ w f)) /\ p_type p = TLRef (TRec true r (targs_of (rec_ w r))).
Proof.
  intros H. destruct (H vt_w [DFun 0; DRec 0; DRec 1] 0 0 ltac:(vm_compute; reflexivity)) as [X|[p [Hp X]]].
  - vm_compute in X. discriminate X.
  - cbn in Hp. destruct Hp as [<-|[<-|[]]]; cbn in X; discriminate X.
Qed.
Print Assumptions C67_own_operator_refuted.
Example C67_printing_case : last_operator pr_w [DRec 0; DFun 0; DFun 1] (insertion_operator_key pr_w 0) 1 /\
  last_operator pr_w [DFun 1; DRec 0; DFun 0] (insertion_operator_key pr_w 0) 0.
Proof. split; apply C67_last_operator_counts; vm_compute; reflexivity. Qed.

(** A namespace that is to be bound and to be skipped: no answer. *)
Definition torn_w : world :=
  mkworld mix_env (match setup default_config [$"n"] [$"n"] [] None with Ok c => c | _ => default_config end) (mix_options false false 1000%N).
Example C26_succeeds_case : (exists p, bind_all (mix_w false false 300%N) (collect (mix_w false false 300%N) mix_visits) = Ok p) /\
  ~ decided torn_w (DRec 0) /\ forall p, bind_all torn_w (collect torn_w mix_visits) <> Ok p.
Proof.
  Local Transparent bind_all collect sort_binders.
  split; [eexists; vm_compute; reflexivity|]. assert (N : ~ decided torn_w (DRec 0)).
  { intros D. destruct D as [s [X _]]; [vm_compute; reflexivity|]. vm_compute in X. discriminate X. }
  split; [exact N|]. intros p X. apply N. apply (proj1 (proj1 (C26_succeeds_iff torn_w mix_visits) (ex_intro _ p X))).
  vm_compute. tauto.
Qed.

(** The declarations of the mix, met in the opposite order, some of them twice. *)
Lemma in_mix d : In d mix_visits -> In d (map DFun [0; 1] ++ map DRec [0; 1; 2; 3; 4] ++ [DEnum 0]).
Proof. cbn. tauto. Qed.
Definition is_bound (r : nat) (x : result output) : bool :=
  match x with
  | Ok o => existsb (fun b => match b_decl b with DRec r' => r =? r' | _ => false end && has_code b) (out_sorted o)
  | _ => false
  end.
Lemma class_bound r x : is_bound r (Ok x) = true -> bound x (DRec r).
Proof.
  cbn [is_bound]. intros H. apply existsb_exists in H. destruct H as [b [Hb H]]. apply andb_prop in H. destruct H as [D C].
  exists b. split; [exact Hb|split; [|apply has_code_iff; exact C]]. destruct (b_decl b) as [f|r'|e]; try discriminate D. apply Nat.eqb_eq in D. subst; reflexivity.
Qed.
Definition mix_again : list decl := DRec 2 :: rev mix_visits.
Example C76_case : let w := mix_w false false 300%N in
  same_declarations mix_visits mix_again /\ distinct_identities w mix_visits /\ distinct_operators w mix_visits /\
  types_distinct w (collected_items w mix_visits) /\ names_distinct w (collected_items w mix_visits) /\ hierarchy_acyclic w /\
  collected_items w mix_again <> collected_items w mix_visits /\
  exists x x', run w mix_visits = Ok x /\ run w mix_again = Ok x' /\ bound x (DRec 1) /\ bound x' (DRec 1).
Proof.
  cbv zeta. set (w := mix_w false false 300%N).
  assert (T : forall d d', In d mix_visits -> In d' mix_visits -> decl_id w d = decl_id w d' -> d = d').
  { intros d d' Hd Hd' E. apply in_mix in Hd, Hd'. cbn in Hd, Hd'.
    repeat (destruct Hd as [<-|Hd]; [repeat (destruct Hd' as [<-|Hd']; [try reflexivity; vm_compute in E; discriminate E|]); destruct Hd'|]); destruct Hd. }
  assert (I : forall r c, inherits w r c -> r = 1 /\ c = 0).
  { intros r c [b [Hb Eb]]. do 5 (destruct r as [|r]; [cbn in Hb; try (destruct Hb; fail); destruct Hb as [<-|[]]; cbn in Eb; injection Eb as <-; auto|]).
    destruct r; cbn in Hb; destruct Hb. }
  repeat split.
  - intros X. cbn in X |- *. tauto.
  - intros X. cbn in X |- *. tauto.
  - intros d d' Hd Hd' _ _. apply T; assumption.
  - intros f g Hf Hg [_ [_ [X _]]] _ _. exfalso. apply in_mix in Hf. cbn in Hf.
    repeat (destruct Hf as [Hf|Hf]; [try discriminate Hf; injection Hf as <-; vm_compute in X; discriminate X|]). destruct Hf.
  - intros d d' n Hd Hd' Hn Hn'. vm_compute in Hd, Hd'.
    repeat (destruct Hd as [<-|Hd]; [repeat (destruct Hd' as [<-|Hd']; [try reflexivity; exfalso; vm_compute in Hn, Hn';
      repeat (destruct Hn as [<-|Hn]; [repeat (destruct Hn' as [Hn'|Hn']; [discriminate Hn'|]); destruct Hn'|]); destruct Hn|]); destruct Hd'|]); destruct Hd.
  - intros r c r' Hr _ Hi E. destruct (I _ _ Hi) as [_ ->]. vm_compute in Hr.
    repeat (destruct Hr as [Hr|Hr]; [try discriminate Hr; injection Hr as <-; try reflexivity; vm_compute in E; discriminate E|]). destruct Hr.
  - intros r X. assert (Y : forall a b, clos_trans nat (inherits w) a b -> a = 1 /\ b = 0) by (intros a b Z; induction Z as [a b Z|a b c _ [A1 A2] _ [B1 B2]]; [apply I; exact Z|congruence]).
    destruct (Y r r X) as [A B]. rewrite A in B. discriminate B.
  - intros X. vm_compute in X. discriminate X.
  - destruct (run w mix_visits) as [x| | | |] eqn:E; try (vm_compute in E; discriminate E).
    destruct (run w mix_again) as [x'| | | |] eqn:E'; try (vm_compute in E'; discriminate E').
    exists x, x'. split; [reflexivity|split; [reflexivity|]]. split; apply class_bound; [rewrite <- (f_equal (is_bound 1) E)|rewrite <- (f_equal (is_bound 1) E')]; vm_compute; reflexivity.
Qed.
