(** C100: declarations that are not bound leave no trace in the bindings. *)
From Coq Require Import Ascii String Bool Arith NArith Lia.
From Coq Require Import List.
From Verif Require Import Str StrFacts SpecUtil Util Config SpecConfig Ast Types Func Enum Includes Class Context SpecTypes SpecBind SpecClass ClassFacts SpecContext ContextFacts
  SortFacts WriteFacts SpecRequests RunFacts SpecOrder OrderFacts RequestFacts SpecSettings DocText PropertiesContext PropertiesRequests PropertiesGrowth SpecUnbound UnboundFacts Samples.
Import ListNotations.

(** ** What is bound *)

Lemma required_kept w keep ds : NoDup ds -> types_distinct w ds -> (forall i d, nth_error ds i = Some d -> required w ds i -> keep d = true) ->
  forall i, required w ds i -> forall d, nth_error ds i = Some d -> exists i', nth_error (filter keep ds) i' = Some d /\ required w (filter keep ds) i'.
Proof.
  intros N T K i H. induction H as [i d Ed El Sy Bd|i j d dj t name Ed El Nj IH Ej U A Nm]; intros d0 E0; rewrite Ed in E0; injection E0 as <-.
  - assert (Kd : keep d = true) by (apply (K i d Ed); apply (RQ_config w ds i d); assumption).
    destruct (In_nth_error (filter keep ds) d) as [i' Ei']; [apply filter_In; split; [eapply nth_error_In; exact Ed|exact Kd]|].
    exists i'. split; [exact Ei'|]. exact (RQ_config w _ i' d Ei' El Sy Bd).
  - assert (Kd : keep d = true) by (apply (K i d Ed); exact (RQ_used w ds i j d dj t name Ed El Nj Ej U A Nm)).
    destruct (IH dj Ej) as [j' [Ej' Nj']].
    destruct (In_nth_error (filter keep ds) d) as [i' Ei']; [apply filter_In; split; [eapply nth_error_In; exact Ed|exact Kd]|].
    exists i'. split; [exact Ei'|]. refine (RQ_used w _ i' j' d dj t name Ei' El Nj' Ej' U A _).
    destruct Nm as [d1 [E1 [H1 L1]]]. rewrite Ed in E1. injection E1 as <-. exists d. split; [exact Ei'|split; [exact H1|]].
    intros k d' L Ek Hk.
    apply nth_error_In in Ek as Ik. apply filter_In in Ik. assert (X : d = d') by (eapply T; [eapply nth_error_In; exact Ed|exact (proj1 Ik)|exact H1|exact Hk]). subst d'.
    assert (i' = k); [|lia]. apply (proj1 (NoDup_nth_error (filter keep ds)) (NoDup_filter _ N)); [apply nth_error_Some; rewrite Ei'; discriminate|rewrite Ei', Ek; reflexivity].
Qed.

Section Two.
Variables (w : world) (v : list decl) (keep : decl -> bool) (x x' : output).
Hypothesis Wf : const_is_method w.
Hypothesis D : distinct_identities w v.
Hypothesis T : types_distinct w (collected_items w v).
Hypothesis O1 : distinct_operators w v.
Hypothesis O2 : forall f, In (DFun f) v -> keep (DFun f) = false -> ~ insertion_operator w f.
Hypothesis R : run w (filter keep v) = Ok x.
Hypothesis R' : run w v = Ok x'.
Hypothesis Un : forall d, keep d = false -> ~ bound x' d.

Lemma kept_incl : incl (filter keep v) v.
Proof. intros d H. apply filter_In in H. exact (proj1 H). Qed.
Lemma position d : In d (collected_items w v) -> exists i, nth_error (collected_items w v) i = Some d.
Proof. apply In_nth_error. Qed.
Lemma bound_collected d : bound x' d -> In d (collected_items w v).
Proof. intros (b&J&E&_). subst d. apply (Permutation.Permutation_in _ (run_perm _ _ _ R')). apply in_map, J. Qed.
Lemma same_bound d : bound x d <-> bound x' d.
Proof.
  split; [apply (C85_bound_stays_bound w (filter keep v) v x x' d Wf kept_incl D T R R')|]. intros B.
  destruct (position d (bound_collected d B)) as [i Hi].
  pose proof (proj1 (C77_bound_iff_required w v x' i d Wf R' Hi) B) as Q.
  destruct (required_kept w keep (collected_items w v) (items_nodup w v) T) with (i := i) (d := d) as (i'&Hi'&Q'); [|exact Q|exact Hi|].
  - intros j dj Hj Qj. destruct (keep dj) eqn:K; [reflexivity|]. destruct (Un dj K). exact (proj2 (C77_bound_iff_required w v x' j dj Wf R' Hj) Qj).
  - rewrite <- (collect_filter w keep v D) in Hi', Q'. exact (proj2 (C77_bound_iff_required w _ x i' d Wf R Hi') Q').
Qed.

(** ** The items before sorting *)

Definition kept_item (b : binder) : bool := keep (b_decl b).
Lemma filter_decl (l : list binder) : map b_decl (filter kept_item l) = filter keep (map b_decl l).
Proof. induction l as [|b l IH]; [reflexivity|]. cbn [filter map]. unfold kept_item at 1. destruct (keep (b_decl b)); cbn [map]; rewrite IH; reflexivity. Qed.
Lemma zip_content : forall l m : list binder, map b_decl l = map b_decl m -> (forall b b', In b l -> In b' m -> b_decl b' = b_decl b -> content b' = content b) ->
  Forall2 (fun b b' => content b' = content b) l m.
Proof.
  induction l as [|b l IH]; intros [|b' m] E H; try discriminate E; [constructor|]. cbn in E. injection E as E1 E2.
  constructor; [apply H; [left; reflexivity|left; reflexivity|congruence]|apply IH; [exact E2|]]. intros c c' Hc Hc'. apply H; right; assumption.
Qed.
Lemma no_code_content u o b : run w u = Ok o -> In b (out_sorted o) -> b_code b = [] -> content b = (b_decl b, [], [], [], []).
Proof.
  intros H Hb N. destruct (run_inv _ _ _ H) as [l [E1 [E2 _]]]. pose proof (sort_binders_spec w l) as S; cbv zeta in S; rewrite E2 in S.
  apply (Permutation.Permutation_in _ (proj1 S)) in Hb. apply In_nth_error in Hb; destruct Hb as [i Hi].
  destruct (bind_all_spec _ _ _ _ E1) as [_ [_ [_ B]]]. destruct (B i b Hi) as [B1 [_ B3]].
  destruct B3 as (Y1&Y2&Y3&Y4); [intros Q; apply B1, has_code_iff in Q; congruence|]. unfold content. rewrite Y1, Y2, Y3, Y4. reflexivity.
Qed.
Lemma same_content b b' : In b (out_sorted x) -> In b' (out_sorted x') -> b_decl b' = b_decl b -> content b' = content b.
Proof.
  intros Hb Hb' E. destruct (b_code b) eqn:C.
  - assert (C' : b_code b' = []).
    { destruct (b_code b') eqn:C'; [reflexivity|]. exfalso. assert (B : bound x (b_decl b)) by (apply same_bound; exists b'; split; [exact Hb'|split; [exact E|rewrite C'; discriminate]]).
      destruct B as (b0&Hb0&E0&N0). assert (b0 = b); [|subst; congruence].
      pose proof (Permutation.Permutation_NoDup (Permutation.Permutation_sym (run_perm _ _ _ R)) (items_nodup w _)) as ND.
      clear - ND Hb0 Hb E0. induction (out_sorted x) as [|y l IH]; [destruct Hb|]. cbn [map] in ND. inversion ND as [|? ? N1 N2]; subst.
      destruct Hb0 as [<-|Hb0]; destruct Hb as [<-|Hb]; [reflexivity| | |exact (IH Hb Hb0 N2)]; exfalso; apply N1; [rewrite E0|rewrite <- E0]; apply in_map; assumption. }
    rewrite (no_code_content _ _ _ R Hb C), (no_code_content _ _ _ R' Hb' C'), E. reflexivity.
  - destruct (C85_same_code w (filter keep v) v x x' b b' Wf kept_incl D T R R') as (A1&A2&A3&A4); try assumption; [|rewrite C; discriminate|].
    + intros r _. split; [exact O1|]. intros f Hf Of. apply filter_In. split; [exact Hf|]. destruct (keep (DFun f)) eqn:K; [reflexivity|]. destruct (O2 f Hf K Of).
    + unfold content. rewrite E, A1, A2, A3, A4. reflexivity.
Qed.

(** ** The order *)

Lemma same_sorted : map content (filter kept_item (out_sorted x')) = map content (out_sorted x).
Proof.
  destruct (run_inv _ _ _ R) as [l [E1 [E2 _]]]. destruct (run_inv _ _ _ R') as [l' [E1' [E2' _]]].
  pose proof (sort_binders_spec w l) as S; cbv zeta in S; rewrite E2 in S. destruct S as [P F].
  pose proof (sort_binders_spec w l') as S'; cbv zeta in S'; rewrite E2' in S'. destruct S' as [P' _].
  destruct (bind_all_spec _ _ _ _ E1) as [M _]. destruct (bind_all_spec _ _ _ _ E1') as [M' _].
  change (items (collect w (filter keep v))) with (collected_items w (filter keep v)) in M. change (items (collect w v)) with (collected_items w v) in M'.
  assert (Z : Forall2 (fun b b' => content b' = content b) l (filter kept_item l')).
  { apply zip_content; [rewrite filter_decl, M, M'; apply collect_filter, D|]. intros b b' Hb Hb'. apply filter_In in Hb'.
    apply same_content; [apply (Permutation.Permutation_in _ (Permutation.Permutation_sym P) Hb)|apply (Permutation.Permutation_in _ (Permutation.Permutation_sym P') (proj1 Hb'))]. }
  set (key := class_qualified_name w) in *. set (known := fun c => is_python_builtin w (r_decl (rec_ w c))) in *.
  assert (S1 : sort_loop (sort_fuel l') key known (filter kept_item l') = Ok (filter kept_item (out_sorted x'))).
  { apply (sort_filter key known kept_item l'); [| |apply incl_refl|exact E2'].
    - intros b Hb K. apply (Permutation.Permutation_in _ (Permutation.Permutation_sym P')) in Hb.
      assert (N : b_code b = []) by (destruct (b_code b) eqn:C; [reflexivity|]; destruct (Un (b_decl b) K); exists b; split; [exact Hb|split; [reflexivity|rewrite C; discriminate]]).
      pose proof (no_code_content _ _ _ R' Hb N) as X. unfold content in X. injection X. auto.
    - intros b c Hb Hc b1 r1 Hb1 Nb1 Kb1. destruct (known c) eqn:Kn; [left; reflexivity|right].
      assert (Hs : In b (out_sorted x')) by (apply (Permutation.Permutation_in _ (Permutation.Permutation_sym P')), Hb).
      assert (Cb : b_code b <> []) by (intros N; pose proof (no_code_content _ _ _ R' Hs N) as X; unfold content in X; injection X; intros X1; rewrite X1 in Hc; destruct Hc).
      assert (B : bound x (b_decl b)) by (apply same_bound; exists b; auto). destruct B as (b0&Hb0&E0&C0).
      assert (Hd : In c (b_deps b0)).
      { pose proof (same_content b0 b Hb0 Hs (eq_sym E0)) as X. unfold content in X. injection X. intros X1 _ _ _ _. rewrite <- X1. exact Hc. }
      assert (A : available key known (out_sorted x) c).
      { destruct (b_decl b0) as [f|r|e] eqn:Db.
        - destruct (run_item _ _ _ _ R Hb0) as (i&_&_&G). destruct (G C0) as (g&Eg&_&_&_&A4). rewrite A4 in Hd. rewrite Db in Eg. cbn in Eg.
          apply bind_r_Ok in Eg. destruct Eg as [[s q] [_ Eg]]. apply Ok_inj in Eg. subst g. destruct Hd.
        - apply in_split in Hb0. destruct Hb0 as (s1&s2&Es). destruct (F s1 b0 r s2 c Es Db Hd) as [X|(b2&r2&X&Y)]; [left; exact X|right].
          exists b2, r2. split; [rewrite Es; apply in_or_app; left; exact X|exact Y].
        - destruct (run_item _ _ _ _ R Hb0) as (i&_&_&G). destruct (G C0) as (g&Eg&_&_&_&A4). rewrite A4 in Hd. rewrite Db in Eg. cbn in Eg.
          apply bind_r_Ok in Eg. destruct Eg as [s [_ Eg]]. apply Ok_inj in Eg. subst g. destruct Hd. }
      destruct A as [A|(b2&r2&Hb2&D2&K2)]; [congruence|].
      assert (I2 : In (DRec r2) (collected_items w (filter keep v))) by (rewrite <- D2; apply (Permutation.Permutation_in _ (run_perm _ _ _ R)), in_map, Hb2).
      assert (D1 : b_decl b1 = DRec r1) by (unfold node in Nb1; destruct (b_decl b1); try discriminate; injection Nb1 as ->; reflexivity).
      assert (I1 : In (DRec r1) (collected_items w v)) by (rewrite <- D1, <- M'; apply in_map, Hb1).
      rewrite (collect_filter w keep v D) in I2. apply filter_In in I2. destruct I2 as [I2 K].
      apply (items_distinct w v _ D) in I1, I2. assert (X : DRec r2 = DRec r1); [|unfold kept_item; rewrite D1, <- X; exact K].
      apply D; [exact (proj1 I2)|exact (proj1 I1)|exact (proj2 I2)|exact (proj2 I1)|]. cbn [decl_id]. unfold key in *. congruence. }
  pose proof (q_sort_loop (fun b b' => content b' = content b)) as Q.
  specialize (Q ltac:(intros b b' X; unfold content in X; injection X; auto) ltac:(intros b b' X; unfold content in X; injection X; auto) key known (sort_fuel l') l (filter kept_item l') Z).
  rewrite S1 in Q. destruct (sort_loop (sort_fuel l') key known l) as [s| | | |] eqn:S2; try contradiction Q. cbn in Q.
  assert (s = out_sorted x) by (exact (eq_sym (sort_fuel_any key known _ _ _ _ _ S2 E2))). subst s.
  clear - Q. induction Q as [|b b' l m E Q IH]; [reflexivity|]. cbn [map]. rewrite E, IH. reflexivity.
Qed.
End Two.

Lemma filter_content : forall l m, map content l = map content m -> map content (filter has_code l) = map content (filter has_code m).
Proof.
  induction l as [|b l IH]; intros [|b' m] E; try discriminate E; [reflexivity|]. cbn [map] in E. injection E as E1 E2 E3 E4 E5 E.
  cbn [filter]. assert (X : has_code b = has_code b') by (unfold has_code; rewrite E2; reflexivity). rewrite X. destruct (has_code b'); [|exact (IH _ E)]. cbn [map]. rewrite (IH _ E). unfold content. rewrite E1, E2, E3, E4, E5. reflexivity.
Qed.
Lemma filter_twice (p q : binder -> bool) l : (forall b, In b l -> p b = true -> q b = true) -> filter p (filter q l) = filter p l.
Proof.
  induction l as [|b l IH]; intros H; [reflexivity|]. cbn [filter]. assert (H' : forall b, In b l -> p b = true -> q b = true) by (intros z Hz; apply H; right; exact Hz).
  destruct (q b) eqn:Q; cbn [filter]; destruct (p b) eqn:P; rewrite (IH H'); try reflexivity.
  rewrite (H b (or_introl eq_refl) P) in Q. discriminate.
Qed.

(** Let [keep] tell which declarations of a program stay when some are removed,
    say those of a header that is no longer included.  If none of the removed
    ones was bound and none is a printing operator, the two runs write the same
    bindings in the same order, whatever the removed declarations are. *)
Theorem C100_same_bindings : forall w visits keep x x', const_is_method w -> distinct_identities w visits ->
  types_distinct w (collected_items w visits) -> distinct_operators w visits ->
  (forall f, In (DFun f) visits -> keep (DFun f) = false -> ~ insertion_operator w f) ->
  run w visits = Ok x -> run w (filter keep visits) = Ok x' -> (forall d, keep d = false -> ~ bound x d) ->
  bindings x' = bindings x.
Proof.
  intros w v keep x x' Wf D T O1 O2 R R' Un. unfold bindings.
  rewrite <- (filter_content _ _ (same_sorted w v keep x' x Wf D T O1 O2 R' R Un)). rewrite filter_twice; [reflexivity|].
  intros b Hb C. unfold kept_item. destruct (keep (b_decl b)) eqn:K; [reflexivity|]. destruct (Un _ K). exists b. split; [exact Hb|split; [reflexivity|apply has_code_iff, C]].
Qed.
Print Assumptions C100_same_bindings.
Definition content_namespace (w : world) (p : decl * str * str * list nat * list nat) : str :=
  namespace_from_named_decl w (named_of (wenv w) (fst (fst (fst (fst p))))).
Definition content_code (p : decl * str * str * list nat * list nat) : str := snd (fst (fst (fst p))).
Lemma content_ns w b : binder_namespace w b = content_namespace w (content b).
Proof. unfold binder_namespace, content_namespace, content, named_decl. cbn [fst]. generalize (named_of (wenv w) (b_decl b)). intros n. apply eq_refl. Qed.
Lemma flat_spaces w : forall l, flat_map (fun b => if has_code b then enclosing (length (binder_namespace w b)) (binder_namespace w b) else []) l =
  flat_map (fun p => enclosing (length (content_namespace w p)) (content_namespace w p)) (map content (filter has_code l)).
Proof.
  induction l as [|b l IH]; [reflexivity|]. cbn [flat_map filter]. destruct (has_code b); [|exact IH]. cbn [map flat_map]. rewrite IH.
  rewrite (content_ns w b). generalize (content_namespace w (content b)). intros n. apply eq_refl.
Qed.
Lemma filter_codes w (p : str -> bool) : forall l, map b_code (filter (fun b => has_code b && p (binder_namespace w b)) l) =
  map content_code (filter (fun q => p (content_namespace w q)) (map content (filter has_code l))).
Proof.
  induction l as [|b l IH]; [reflexivity|]. cbn [filter]. rewrite (content_ns w b). destruct (has_code b); cbn [andb]; [|exact IH]. cbn [map filter].
  destruct (p (content_namespace w (content b))); [|exact IH]. cbn [map]. rewrite IH. f_equal.
Qed.
(** Python gets the same modules. *)
Theorem C100_same_modules : forall w visits visits' x x', run w visits = Ok x -> run w visits' = Ok x' -> bindings x' = bindings x -> out_namespaces x' = out_namespaces x.
Proof.
  intros w v v' x x' R R' B. destruct (run_inv _ _ _ R) as [l [_ [_ [_ ->]]]]. destruct (run_inv _ _ _ R') as [l' [_ [_ [_ ->]]]].
  unfold nested_namespaces. f_equal. unfold bindings in B.
  rewrite (flat_spaces w (out_sorted x)), (flat_spaces w (out_sorted x')). unfold bindings in B. rewrite B. reflexivity.
Qed.
Print Assumptions C100_same_modules.
(** Without trace lines all the statements are the same, in the same order. *)
Theorem C100_same_statements : forall w visits visits' x x', trace (wopt w) = false -> run w visits = Ok x -> run w visits' = Ok x' -> bindings x' = bindings x ->
  statements x' = statements x.
Proof.
  intros w v v' x x' Tr R R' B. unfold statements. rewrite (C31_code_in_order w v x R), (C31_code_in_order w v' x' R').
  assert (K : forall l, texts w 0 l = concat (map b_code (filter has_code l))).
  { induction l as [|b l IH]; [reflexivity|]. cbn [texts filter]. rewrite Tr, IH. unfold has_code. destruct (b_code b) eqn:E; [reflexivity|].
    cbn [map concat app]. rewrite E. reflexivity. }
  rewrite !K. rewrite (proj1 (proj2 (C31_every_bound_item_in_one_file w v x R))), (proj1 (proj2 (C31_every_bound_item_in_one_file w v' x' R'))).
  rewrite (filter_codes w (fun n => negb (replaced_namespace w n)) (out_sorted x)), (filter_codes w (fun n => negb (replaced_namespace w n)) (out_sorted x')).
  unfold bindings in B. rewrite B. reflexivity.
Qed.
Print Assumptions C100_same_statements.

(** The class with number 4 is not bound. *)
Definition large_w : world := mkworld mix_env (assign_list namespaces_to_bind [$"n"] default_config) (mix_options false false 5000).
Definition part_visits : list decl := [DEnum 0; DRec 4; DFun 1; DRec 1; DRec 0; DRec 2].
Definition without_4 (d : decl) : bool := match d with DRec 4 => false | _ => true end.
Definition named_files (o : output) : list (str * list decl) := map (fun g => (g_name g, map b_decl (g_items g))) (out_files o).
Example C100_case : const_is_method large_w /\ distinct_identities large_w part_visits /\ types_distinct large_w (collected_items large_w part_visits) /\
  distinct_operators large_w part_visits /\ (forall f, In (DFun f) part_visits -> ~ insertion_operator large_w f) /\
  (exists x x', run large_w part_visits = Ok x /\ run large_w (filter without_4 part_visits) = Ok x' /\
     (forall d, without_4 d = false -> ~ bound x d) /\ bindings x' = bindings x /\ length (bindings x) = 5 /\
     (* ... but the files are not the same *)
     named_files x = [($"a.cpp", [DEnum 0]); ($"a_1.cpp", [DFun 1; DRec 0]); ($"s.cpp", [DRec 2]); ($"b.cpp", [DRec 1])] /\
     named_files x' = [($"a.cpp", [DEnum 0; DFun 1; DRec 0]); ($"s.cpp", [DRec 2]); ($"b.cpp", [DRec 1])]).
Proof.
  assert (O : forall f, In (DFun f) part_visits -> ~ insertion_operator large_w f).
  { intros f Hf [_ [_ [X _]]]. cbn in Hf. repeat (destruct Hf as [Hf|Hf]; [try discriminate Hf; injection Hf as <-; vm_compute in X; discriminate X|]). destruct Hf. }
  split; [|split; [|split; [|split; [|split; [exact O|]]]]].
  - intros f. do 2 (destruct f as [|f]; [intros K; vm_compute in K; discriminate K|]). destruct f; intros K; vm_compute in K; discriminate K.
  - intros d d' Hd Hd' _ _ E. cbn in Hd, Hd'.
    repeat (destruct Hd as [<-|Hd]; [repeat (destruct Hd' as [<-|Hd']; [try reflexivity; vm_compute in E; discriminate E|]); destruct Hd'|]); destruct Hd.
  - intros d d' n Hd Hd' Hn Hn'. vm_compute in Hd, Hd'.
    repeat (destruct Hd as [<-|Hd]; [repeat (destruct Hd' as [<-|Hd']; [try reflexivity; exfalso; vm_compute in Hn, Hn';
      repeat (destruct Hn as [<-|Hn]; [repeat (destruct Hn' as [Hn'|Hn']; [discriminate Hn'|]); destruct Hn'|]); destruct Hn|]); destruct Hd'|]); destruct Hd.
  - intros f g Hf _ X. destruct (O f Hf X).
  - destruct (run large_w part_visits) as [x| | | |] eqn:R; try (vm_compute in R; discriminate R).
    destruct (run large_w (filter without_4 part_visits)) as [x'| | | |] eqn:R'; try (vm_compute in R'; discriminate R').
    exists x, x'. split; [reflexivity|split; [reflexivity|]].
    vm_compute in R, R'. apply Ok_inj in R, R'. subst x x'. split; [|vm_compute; repeat split; reflexivity].
    intros d K (b&Hb&E&N). destruct d as [f|r|e]; try discriminate K. do 4 (destruct r as [|r]; [discriminate K|]). destruct r as [|r]; [|discriminate K].
    vm_compute in Hb. repeat (destruct Hb as [<-|Hb]; [first [discriminate E|vm_compute in N; destruct (N eq_refl)]|]). destruct Hb.
Qed.
(** A declaration that is not bound can split a file: the name of a file and
    what is in it depend on declarations that are not bound. *)
Theorem C100_files_refuted : ~ (forall w visits keep x x', run w visits = Ok x -> run w (filter keep visits) = Ok x' ->
  (forall d, keep d = false -> ~ bound x d) -> bindings x' = bindings x -> map g_name (out_files x') = map g_name (out_files x)).
Proof.
  intros K. destruct C100_case as (_&_&_&_&_&x&x'&R&R'&Un&B&_&F&F'). specialize (K _ _ _ _ _ R R' Un B).
  assert (X : forall o, map g_name (out_files o) = map fst (named_files o)) by (intros o; unfold named_files; rewrite map_map; reflexivity).
  rewrite !X, F, F' in K. discriminate K.
Qed.
Print Assumptions C100_files_refuted.
