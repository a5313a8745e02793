(** Proofs about the sorting of the binders (Context.v). *)
From Coq Require Import Ascii String Bool Arith NArith Sorted Lia Permutation Relations.
From Coq Require Import List.
From Verif Require Import Str StrFacts Util Config Ast Types Func Enum Includes Class Context SpecContext ContextFacts.
Import ListNotations.

Lemma index_of_split {A} (f : A -> bool) l e : index_of f l = Some e ->
  exists x, skipn e l = x :: skipn (S e) l /\ f x = true /\ In x l.
Proof.
  revert e; induction l as [|y l IH]; cbn; intros e H; [discriminate|].
  destruct (f y) eqn:F.
  - injection H as <-. exists y; cbn; auto.
  - destruct (index_of f l) as [k|]; [|discriminate]. injection H as <-.
    destruct (IH k eq_refl) as [x [E [Fx Hx]]]. exists x. split; [exact E|auto].
Qed.
Lemma index_of_None {A} (f : A -> bool) l : index_of f l = None -> forall x, In x l -> f x = false.
Proof.
  induction l as [|y l IH]; cbn; intros H x; [intros []|].
  destruct (f y) eqn:F; [discriminate|]. destruct (index_of f l); [discriminate|].
  intros [<-|Hx]; [assumption|apply IH; auto].
Qed.
Lemma rotate_perm {A} e (l : list A) : Permutation (rotate e l) l.
Proof. unfold rotate. rewrite Permutation_app_comm, firstn_skipn. reflexivity. Qed.

Lemma node_spec b r : node b = Some r <-> b_decl b = DRec r.
Proof. unfold node. destruct (b_decl b); split; intros H; try discriminate; congruence. Qed.
Lemma is_node_spec c b : is_node c b = true <-> b_decl b = DRec c.
Proof.
  unfold is_node. destruct (node b) as [r|] eqn:N.
  - rewrite Nat.eqb_eq, <- node_spec, N. split; congruence.
  - rewrite <- node_spec, N. split; discriminate.
Qed.

Section Sort.
  Context (key : nat -> str) (known : nat -> bool).

  Definition keys_of (l : list binder) : list str :=
    rev (flat_map (fun b => match node b with Some r => [key r] | None => [] end) l).
  Lemma keys_of_snoc l b : keys_of (l ++ [b]) = match node b with Some r => key r :: keys_of l | None => keys_of l end.
  Proof. unfold keys_of. rewrite flat_map_app, rev_app_distr. cbn. destruct (node b); reflexivity. Qed.
  Lemma keys_of_In k l : In k (keys_of l) <-> exists b r, In b l /\ b_decl b = DRec r /\ key r = k.
  Proof.
    unfold keys_of. rewrite <- in_rev, in_flat_map. split.
    - intros [b [Hb H]]. destruct (node b) as [r|] eqn:N; [|destruct H]. destruct H as [<-|[]].
      apply node_spec in N. eauto.
    - intros [b [r [Hb [D <-]]]]. exists b; split; [assumption|]. apply node_spec in D. rewrite D. cbn; auto.
  Qed.
  Lemma available_keys l c : available key known l c <-> mem (key c) (keys_of l) || known c = true.
  Proof. unfold available. rewrite orb_true_iff, mem_In, keys_of_In. tauto. Qed.

  Lemma move_deps_false binded deps suffix s : move_deps key known binded deps suffix false = Ok (s, false) ->
    s = suffix /\ forall c, In c deps -> mem (key c) binded || known c = true.
  Proof.
    assert (T : forall deps suffix s, move_deps key known binded deps suffix true = Ok (s, false) -> False).
    { clear. induction deps as [|c deps IH]; cbn; intros suffix s H; [discriminate|].
      destruct (mem (key c) binded || known c); [eauto|]. destruct (index_of (is_node c) suffix); eauto. }
    revert suffix s. induction deps as [|c deps IH]; cbn; intros suffix s H; [injection H as <-; split; [reflexivity|intros ? []]|].
    destruct (mem (key c) binded || known c) eqn:M.
    - destruct (IH _ _ H) as [-> Q]. split; [reflexivity|]. intros c' [<-|Hc]; auto.
    - destruct (index_of (is_node c) suffix); [|discriminate]. exfalso; eauto.
  Qed.
  Lemma move_deps_perm binded deps : forall suffix again s b, move_deps key known binded deps suffix again = Ok (s, b) -> Permutation s suffix.
  Proof.
    induction deps as [|c deps IH]; cbn; intros suffix again s b H; [injection H as <- <-; reflexivity|].
    destruct (mem (key c) binded || known c); [eauto|]. destruct (index_of (is_node c) suffix) as [e|].
    - apply IH in H. rewrite H. apply rotate_perm.
    - destruct again; [eauto|discriminate].
  Qed.
  (** After a rotation the vector goes on with a dependency that was not available. *)
  Lemma move_deps_true binded deps : forall suffix again s, move_deps key known binded deps suffix again = Ok (s, true) ->
    (again = true /\ s = suffix) \/
    exists c x t, s = x :: t /\ b_decl x = DRec c /\ In c deps /\ mem (key c) binded || known c = false.
  Proof.
    induction deps as [|c deps IH]; cbn; intros suffix again s H; [injection H as <- ->; auto|].
    destruct (mem (key c) binded || known c) eqn:M.
    - destruct (IH _ _ _ H) as [?|[c' [x [t [E1 [E2 [E3 E4]]]]]]]; [auto|]. right; exists c', x, t; auto.
    - destruct (index_of (is_node c) suffix) as [e|] eqn:Ie.
      + destruct (IH _ _ _ H) as [[_ ->]|[c' [x [t [E1 [E2 [E3 E4]]]]]]]; [|right; exists c', x, t; auto].
        right. destruct (index_of_split _ _ _ Ie) as [x [E [F _]]]. apply is_node_spec in F.
        exists c, x, (skipn (S e) suffix ++ firstn e suffix). unfold rotate. rewrite E. auto.
      + destruct again; [|discriminate]. destruct (IH _ _ _ H) as [?|[c' [x [t [E1 [E2 [E3 E4]]]]]]]; [auto|]. right; exists c', x, t; auto.
  Qed.
  Lemma move_deps_fails binded deps : forall suffix again,
    match move_deps key known binded deps suffix again with
    | Ok _ => True
    | Exit1 msg => exists c, In c deps /\ mem (key c) binded || known c = false /\ (forall b, In b suffix -> b_decl b <> DRec c) /\
                             msg = $"ERROR: Could not find binder for type: " ++ key c ++ $"!"
    | _ => False
    end.
  Proof.
    assert (T : forall deps suffix, exists r, move_deps key known binded deps suffix true = Ok r).
    { clear. induction deps as [|c deps IH]; cbn; intros suffix; [eauto|].
      destruct (mem (key c) binded || known c); [eauto|]. destruct (index_of (is_node c) suffix); eauto. }
    induction deps as [|c deps IH]; cbn; intros suffix again; [exact I|].
    destruct (mem (key c) binded || known c) eqn:M.
    - specialize (IH suffix again). destruct (move_deps _ _ _ _ _ _); try assumption.
      destruct IH as [c' [? ?]]; exists c'; auto.
    - destruct (index_of (is_node c) suffix) as [e|] eqn:Ie.
      + destruct (T deps (rotate e suffix)) as [r ->]. exact I.
      + destruct again; [destruct (T deps suffix) as [r ->]; exact I|].
        exists c; repeat split; auto. intros b Hb D. apply is_node_spec in D.
        rewrite (index_of_None _ _ Ie b Hb) in D. discriminate.
  Qed.

  Lemma dependencies_first_snoc s b :
    dependencies_first key known s ->
    (forall r c, b_decl b = DRec r -> In c (b_deps b) -> available key known s c) ->
    dependencies_first key known (s ++ [b]).
  Proof.
    intros H Hb s1 x r s2 c E D Hc. destruct s2 as [|y s2] using rev_ind.
    - apply app_inj_tail in E. destruct E as [<- <-]. eapply Hb; eauto.
    - clear IHs2. rewrite app_comm_cons, app_assoc in E. apply app_inj_tail in E. destruct E as [-> _].
      eapply H; eauto.
  Qed.

  (** What a scan returns. *)
  Lemma scan_spec rest : forall before, dependencies_first key known before ->
    match scan key known before (keys_of before) rest with
    | Ok (inr l) => l = before ++ rest /\ dependencies_first key known l
    | Ok (inl l) => exists mid b suf c x t,
        rest = mid ++ b :: suf /\ dependencies_first key known (before ++ mid) /\
        l = before ++ mid ++ x :: t /\ Permutation (x :: t) (b :: suf) /\
        b_decl x = DRec c /\ In c (b_deps b) /\ ~ available key known (before ++ mid) c /\ exists r, b_decl b = DRec r
    | Exit1 msg => exists mid b suf r c,
        rest = mid ++ b :: suf /\ b_decl b = DRec r /\ In c (b_deps b) /\
        ~ available key known (before ++ mid) c /\ (forall b', In b' (b :: suf) -> b_decl b' <> DRec c) /\
        msg = $"ERROR: Could not find binder for type: " ++ key c ++ $"!"
    | _ => False
    end.
  Proof.
    induction rest as [|b rest IH]; intros before Hb.
    - cbn. rewrite app_nil_r. auto.
    - cbn [scan]. destruct (node b) as [r|] eqn:N.
      + pose proof (move_deps_fails (keys_of before) (b_deps b) (b :: rest) false) as F.
        destruct (move_deps key known (keys_of before) (b_deps b) (b :: rest) false) as [[s again]|m|m|m|] eqn:M;
          cbn [bind_r]; try (destruct F; fail).
        * destruct again.
          -- destruct (move_deps_true _ _ _ _ _ M) as [[? _]|[c [x [t [-> [D [Hc Av]]]]]]]; [discriminate|].
             exists [], b, rest, c, x, t. rewrite app_nil_r. apply node_spec in N.
             apply move_deps_perm in M. repeat split; eauto. intros A. apply available_keys in A. congruence.
          -- destruct (move_deps_false _ _ _ _ M) as [-> Q].
             assert (Hb' : dependencies_first key known (before ++ [b])).
             { apply dependencies_first_snoc; [assumption|]. intros r' c D Hc. apply available_keys, Q, Hc. }
             specialize (IH (before ++ [b]) Hb'). rewrite keys_of_snoc, N in IH.
             destruct (scan _ _ _ _ _) as [[l|l]|m|m|m|]; try assumption.
             ++ destruct IH as [mid [b' [suf [c [x [t [E1 [E2 [E3 E4]]]]]]]]].
                exists (b :: mid), b', suf, c, x, t. rewrite <- !app_assoc in E2. rewrite <- !app_assoc in E4. split; [cbn; congruence|].
                split; [assumption|]. split; [rewrite E3, <- app_assoc; reflexivity|assumption].
             ++ rewrite <- app_assoc in IH. exact IH.
             ++ destruct IH as [mid [b' [suf [r' [c [E1 [E2 [E3 [E4 E5]]]]]]]]].
                exists (b :: mid), b', suf, r', c. rewrite <- app_assoc in E4. split; [cbn; congruence|auto].
        * destruct F as [c [Hc [Av [Hn Hm]]]]. exists [], b, rest, r, c. apply node_spec in N.
          rewrite app_nil_r. repeat split; auto. intros A. apply available_keys in A. congruence.
      + assert (Hb' : dependencies_first key known (before ++ [b])).
        { apply dependencies_first_snoc; [assumption|]. intros r' c D. apply node_spec in D. congruence. }
        specialize (IH (before ++ [b]) Hb'). rewrite keys_of_snoc, N in IH.
        destruct (scan _ _ _ _ _) as [[l|l]|m|m|m|]; try assumption.
        * destruct IH as [mid [b' [suf [c [x [t [E1 [E2 [E3 E4]]]]]]]]].
          exists (b :: mid), b', suf, c, x, t. rewrite <- !app_assoc in E2. rewrite <- !app_assoc in E4. split; [cbn; congruence|].
          split; [assumption|]. split; [rewrite E3, <- app_assoc; reflexivity|assumption].
        * rewrite <- app_assoc in IH. exact IH.
        * destruct IH as [mid [b' [suf [r' [c [E1 [E2 [E3 [E4 E5]]]]]]]]].
          exists (b :: mid), b', suf, r', c. rewrite <- app_assoc in E4. split; [cbn; congruence|auto].
  Qed.

  Lemma nil_first : dependencies_first key known [].
  Proof. intros s1 b r s2 c E. destruct s1; discriminate. Qed.

  (** C28, C29 and the outcomes of the loop. *)
  Lemma sort_loop_spec fuel : forall l,
    match sort_loop fuel key known l with
    | Ok s => Permutation s l /\ dependencies_first key known s
    | Exit1 msg => exists c, missing known l c /\ msg = $"ERROR: Could not find binder for type: " ++ key c ++ $"!"
    | Diverges => True
    | _ => False
    end.
  Proof.
    induction fuel as [|fuel IH]; intros l; cbn [sort_loop]; [exact I|].
    pose proof (scan_spec l [] nil_first) as S. change (keys_of []) with (@nil str) in S.
    destruct (scan key known [] [] l) as [[l'|l']|m|m|m|]; cbn [bind_r]; try (destruct S; fail).
    - destruct S as [mid [b [suf [c [x [t [E1 [E2 [E3 [E4 _]]]]]]]]]].
      assert (P : Permutation l' l).
      { rewrite E3, E1. cbn [app]. apply Permutation_app_head. assumption. }
      specialize (IH l'). destruct (sort_loop fuel key known l') as [s|m|m|m|]; try assumption.
      + destruct IH as [IH1 IH2]. split; [rewrite IH1; assumption|assumption].
      + destruct IH as [c' [[K [[r [b' [Hb [D Hd]]]] Hm]] Em]]. exists c'. split; [|assumption]. split; [assumption|]. split.
        * exists r, b'. split; [eapply Permutation_in; eassumption|auto].
        * intros b'' Hb''. apply Hm. eapply Permutation_in; [apply Permutation_sym; eassumption|assumption].
    - destruct S as [-> S]. cbn. auto.
    - destruct S as [mid [b [suf [r [c [E1 [E2 [E3 [E4 [E5 E6]]]]]]]]]]. exists c. split; [|assumption].
      cbn [app] in E4. split; [|split].
      + destruct (known c) eqn:K; [|reflexivity]. exfalso; apply E4. left; assumption.
      + exists r, b. rewrite E1, in_app_iff; cbn; auto.
      + intros b' Hb' D. rewrite E1, in_app_iff in Hb'. destruct Hb' as [Hb'|Hb']; [|eapply E5; eauto].
        apply E4. right. exists b', c. auto.
  Qed.
  Lemma app_split {A} (p r m : list A) (b : A) s : p ++ r = m ++ b :: s ->
    (exists m', m = p ++ m' /\ r = m' ++ b :: s) \/ (exists p', p = m ++ b :: p').
  Proof.
    revert m; induction p as [|x p IH]; intros m E; [left; exists m; auto|].
    destruct m as [|y m]; cbn in E; injection E as -> E.
    - right. exists p; reflexivity.
    - destruct (IH m E) as [[m' [-> ->]]|[p' ->]]; [left; exists m'; auto|right; exists p'; reflexivity].
  Qed.

  Lemma nodes_length l : length (flat_map (fun b => match node b with Some r => [r] | None => [] end) l) <= length l.
  Proof. induction l as [|b l IH]; cbn; [lia|]. rewrite app_length. destruct (node b); cbn; lia. Qed.
  (** C30: no divergence without a cycle.  [pre] is in order; [chain] are the
      classes that were at the position after [pre] before. *)
  Lemma sort_loop_total_from l0 n fuel : acyclic l0 -> n = length l0 -> forall pre rest chain,
    Permutation (pre ++ rest) l0 ->
    dependencies_first key known pre ->
    NoDup chain -> (forall r, In r chain -> exists b, In b l0 /\ b_decl b = DRec r) ->
    (forall r, In r chain -> exists x t c, rest = x :: t /\ b_decl x = DRec c /\ clos_trans nat (depends l0) r c) ->
    (n - length pre) * S n < fuel + length chain ->
    sort_loop fuel key known (pre ++ rest) <> Diverges.
  Proof.
    intros Ac Hn. induction fuel as [|fuel IH]; intros pre rest chain P Hp Nd Hin Hr Hf.
    - exfalso.
      assert (L : length chain <= n).
      { subst n. transitivity (length (flat_map (fun b => match node b with Some r => [r] | None => [] end) l0)).
        - apply NoDup_incl_length; [assumption|]. intros r H. destruct (Hin r H) as [b [Hb D]]. apply in_flat_map.
          exists b; split; [assumption|]. apply node_spec in D. rewrite D. cbn; auto.
        - apply nodes_length. }
      destruct chain as [|r chain]; cbn in Hf; [apply (Nat.nlt_0_r _ Hf)|].
      destruct (Hr r (or_introl eq_refl)) as [x [t [c [E _]]]].
      apply Permutation_length in P. rewrite app_length, E in P. cbn in P, L.
      assert (1 <= n - length pre) by lia. nia.
    - cbn [sort_loop].
      pose proof (scan_spec (pre ++ rest) [] nil_first) as S. change (keys_of []) with (@nil str) in S.
      destruct (scan key known [] [] (pre ++ rest)) as [[l'|l']|m|m|m|]; cbn [bind_r]; try discriminate; [|destruct S].
      destruct S as [mid [b [suf [c [x [t [E1 [E2 [E3 [E4 [D [Hc [Av [r Dr]]]]]]]]]]]]]]. cbn [app] in E2, E3.
      assert (Db : In b l0) by (eapply Permutation_in; [exact P|rewrite E1, in_app_iff; cbn; auto]).
      assert (Dep : depends l0 r c) by (exists b; auto).
      assert (P' : Permutation (mid ++ x :: t) l0).
      { rewrite <- P, E1. apply Permutation_app_head. assumption. }
      assert (Ln : n = length mid + S (length suf)).
      { apply Permutation_length in P. rewrite E1, app_length in P. cbn in P. lia. }
      assert (L : length chain <= n).
      { subst n. transitivity (length (flat_map (fun b => match node b with Some r => [r] | None => [] end) l0)).
        - apply NoDup_incl_length; [assumption|]. intros r' H. destruct (Hin r' H) as [b' [Hb' D']]. apply in_flat_map.
          exists b'; split; [assumption|]. apply node_spec in D'. rewrite D'. cbn; auto.
        - apply nodes_length. }
      subst l'. cbn [app] in Av.
      (* the scan went past pre *)
      destruct (app_split _ _ _ _ _ E1) as [[m' [-> ->]]|[p' ->]].
      + destruct m' as [|y m'].
        * rewrite app_nil_r in *. cbn [app] in *.
          apply (IH pre (x :: t) (r :: chain)); auto.
          -- constructor; [|assumption]. intros H. destruct (Hr r H) as [x' [t' [c' [E [D' Tr]]]]].
             injection E as <- <-. assert (c' = r) by congruence; subst c'. eapply Ac; eassumption.
          -- intros r' [<-|H]; eauto.
          -- intros r' [<-|H].
             ++ exists x, t, c. split; [reflexivity|split; [assumption|apply t_step; assumption]].
             ++ exists x, t, c. split; [reflexivity|split; [assumption|]].
                destruct (Hr r' H) as [x' [t' [c' [E [D' Tr]]]]]. injection E as <- <-.
                assert (c' = r) by congruence; subst c'. eapply t_trans; [exact Tr|apply t_step; assumption].
          -- cbn [length]. lia.
        * apply (IH (pre ++ y :: m') (x :: t) []); auto; [constructor|intros ? []|intros ? []|].
          cbn [length]. rewrite app_length in *. cbn [length] in *.
          assert (n - length pre >= S (n - (length pre + S (length m')))) by lia. nia.
      + (* impossible: b is inside pre, whose dependencies are available *)
        exfalso. apply Av. eapply Hp; eauto.
  Qed.
End Sort.

Lemma sort_binders_spec w l :
  let key := class_qualified_name w in let known := fun c => is_python_builtin w (r_decl (rec_ w c)) in
  match sort_binders w l with
  | Ok s => Permutation s l /\ dependencies_first key known s
  | Exit1 msg => exists c, missing known l c /\ msg = $"ERROR: Could not find binder for type: " ++ key c ++ $"!"
  | Diverges => ~ acyclic l
  | _ => False
  end.
Proof.
  intros key known. unfold sort_binders. fold key known.
  pose proof (sort_loop_spec key known (sort_fuel l) l) as S.
  destruct (sort_loop (sort_fuel l) key known l) eqn:E; try exact S.
  intros A. apply (sort_loop_total_from key known l (length l) (sort_fuel l) A eq_refl [] l []); auto; try (intros ? []).
  - apply nil_first.
  - constructor.
  - unfold sort_fuel. cbn [length]. rewrite Nat.sub_0_r. lia.
Qed.

Lemma filter_r_In {A} (f : A -> result bool) l l' : filter_r f l = Ok l' -> forall x, In x l' <-> In x l /\ f x = Ok true.
Proof.
  revert l'; induction l as [|y l IH]; cbn; intros l' H x.
  - injection H as <-. cbn. tauto.
  - inv_all H. apply Ok_inj in H. subst l'. specialize (IH _ E0 x). destruct a; cbn; rewrite IH; [|].
    + split; [intros [<-|[? ?]]; auto|intros [[<-|?] ?]; auto].
    + split; [intros [? ?]; auto|intros [[<-|?] ?]; [congruence|auto]].
Qed.

Lemma base_ok_spec w b : base_ok w b = Ok true <->
  b_access b = Public /\ exists c, base_record b = Some c /\
    ~ In (standard_name w (n_qname (r_decl (rec_ w c)))) base_skip_list /\
    is_bindable_rec w c = true /\ is_skipping_requested_rec w c = Ok false.
Proof.
  unfold base_ok. destruct (b_access b); cbn [access_eqb]; try (split; [discriminate|intros [? _]; discriminate]).
  destruct (base_record b) as [c|]; [|split; [discriminate|intros [_ [? [? _]]]; discriminate]].
  destruct (mem _ base_skip_list) eqn:M; cbn [negb andb and_r].
  - split; [discriminate|]. intros [_ [c' [[= <-] [N _]]]]. exfalso; apply N, mem_In, M.
  - assert (N : ~ In (standard_name w (n_qname (r_decl (rec_ w c)))) base_skip_list) by (rewrite <- mem_In; congruence).
    destruct (is_bindable_rec w c) eqn:B; cbn [and_r]; [|split; [discriminate|intros [_ [c' [[= <-] [_ [? _]]]]]; congruence]].
    destruct (is_skipping_requested_rec w c) as [sk| | | |] eqn:S; cbn [bind_r];
      try (split; [discriminate|intros [_ [c' [[= <-] [_ [_ ?]]]]]; congruence]).
    destruct sk; cbn; split; try discriminate.
    + intros [_ [c' [[= <-] [_ [_ ?]]]]]; congruence.
    + intros _. split; [reflexivity|]. exists c; auto.
    + reflexivity.
Qed.

Definition custom_binder (w : world) (r : nat) : bool :=
  match lookup (standard_name w (n_qname (r_decl (rec_ w r)))) (maps (wcfg w) Config.binders) with Some _ => true | None => false end.
Lemma bind_class_deps_part fuel w ops r g : bind_class fuel w ops r = Ok g ->
  is_python_builtin w (r_decl (rec_ w r)) = false -> custom_binder w r = false -> r_anon (rec_ w r) = false ->
  exists bs q, bound_bases w (rec_ w r) = Ok bs /\ request_types w (map (fun b => canonical (b_type b)) bs) = Ok q /\
    cb_deps g = base_ids bs /\ incl q (cb_req g).
Proof.
  unfold custom_binder. intros H B C A. destruct fuel; cbn [bind_class] in H; rewrite B in H;
  (destruct (lookup _ (maps (wcfg w) Config.binders)); [discriminate|]);
  rewrite A in H; cbn [negb] in H; inv_all H; apply Ok_inj in H; subst g; cbn [cb_deps cb_req].
  all: match goal with X : bind_r (bound_bases _ _) _ = Ok _ |- _ => inv_all X; apply Ok_inj, pair_equal_spec in X; destruct X as [X Xq]; apply pair_equal_spec in X; destruct X as [_ X] end.
  all: subst; eexists; eexists; split; [eassumption|split; [eassumption|split; [reflexivity|]]].
  all: intros x Hx; rewrite !in_app_iff; auto.
Qed.
Lemma bind_class_nodeps fuel w ops r g : bind_class fuel w ops r = Ok g ->
  is_python_builtin w (r_decl (rec_ w r)) = true \/ custom_binder w r = true \/ r_anon (rec_ w r) = true -> cb_deps g = [].
Proof.
  unfold custom_binder. intros H A. destruct fuel; cbn [bind_class] in H;
  (destruct (is_python_builtin w (r_decl (rec_ w r))); [apply Ok_inj in H; subst g; reflexivity|]);
  (destruct (lookup _ (maps (wcfg w) Config.binders)); [apply Ok_inj in H; subst g; reflexivity|]);
  destruct A as [A|[A|A]]; try discriminate;
  rewrite A in H; cbn [negb] in H; inv_all H; apply Ok_inj in H; subst g; cbn [cb_deps].
  all: match goal with X : Ok (_, _, _) = Ok (_, ?l, _) |- ?l = _ => apply Ok_inj, pair_equal_spec in X; destruct X as [X _]; apply pair_equal_spec in X; destruct X as [_ X] end.
  all: subst; reflexivity.
Qed.
Lemma bound_bases_In w r bs c : bound_bases w (rec_ w r) = Ok bs -> (In c (base_ids bs) <-> bound_base w r c).
Proof.
  intros E. unfold base_ids. rewrite in_flat_map. split.
  - intros [b [Hb Hc]]. apply (filter_r_In _ _ _ E) in Hb. destruct Hb as [Hb Hk].
    apply base_ok_spec in Hk. destruct Hk as [K1 [c' [K2 K3]]]. rewrite K2 in Hc. destruct Hc as [<-|[]]. exists b; auto.
  - intros [b [K1 [K2 [K3 K4]]]]. exists b; split; [|rewrite K3; cbn; auto].
    apply (filter_r_In _ _ _ E). split; [assumption|]. apply base_ok_spec. split; [assumption|exists c; auto].
Qed.
Lemma bind_class_deps fuel w ops r g c : bind_class fuel w ops r = Ok g -> In c (cb_deps g) ->
  bound_base w r c /\ is_python_builtin w (r_decl (rec_ w r)) = false /\ custom_binder w r = false /\ r_anon (rec_ w r) = false.
Proof.
  intros H Hc.
  destruct (is_python_builtin w (r_decl (rec_ w r))) eqn:B; [rewrite (bind_class_nodeps _ _ _ _ _ H) in Hc by auto; destruct Hc|].
  destruct (custom_binder w r) eqn:C; [rewrite (bind_class_nodeps _ _ _ _ _ H) in Hc by auto; destruct Hc|].
  destruct (r_anon (rec_ w r)) eqn:A; [rewrite (bind_class_nodeps _ _ _ _ _ H) in Hc by auto; destruct Hc|].
  destruct (bind_class_deps_part _ _ _ _ _ H B C A) as [bs [q [E [_ [D _]]]]]. rewrite D in Hc.
  apply (bound_bases_In _ _ _ _ E) in Hc. auto.
Qed.
Lemma bound_base_inherits w r c : bound_base w r c -> inherits w r c.
Proof. intros [b [H1 [_ [H2 _]]]]. exists b; auto. Qed.

Lemma request_types_In w l q t : request_types w l = Ok q -> In t l -> exists q', request_type w t = Ok q' /\ incl q' q.
Proof.
  revert q; induction l as [|x l IH]; cbn; intros q H; [intros []|].
  inv_all H. apply Ok_inj in H. subst q. intros [<-|Hi].
  - exists a. split; [assumption|]. apply incl_appl, incl_refl.
  - destruct (IH _ E0 Hi) as [q' [E1 I]]. exists q'; split; [assumption|apply incl_appr; assumption].
Qed.

Lemma skip_args w args : map (is_skipping_requested_q w) (type_args args) =
  flat_map (fun a => match a with Targ (KType t') _ => [skip_type w false t'] | _ => [] end) args.
Proof. induction args as [|[[] ?] args IH]; cbn; rewrite <- ?IH; reflexivity. Qed.
Lemma bindable_named w c : is_bindable_rec w c = true -> r_complete (rec_ w c) || is_specialization (rec_ w c) = true.
Proof.
  unfold is_bindable_rec, rec_bindable_raw. intros H.
  destruct (r_complete (rec_ w c)); [reflexivity|]. destruct (is_specialization (rec_ w c)); [reflexivity|]. exfalso.
  cbn [negb andb] in H. repeat match type of H with (if ?x then false else _) = true => destruct x; try discriminate end.
Qed.

(** A base class that is bound is mentioned. *)
Lemma base_mentioned w ops r c : bases_consistent w ->
  is_python_builtin w (r_decl (rec_ w r)) = false -> custom_binder w r = false -> r_anon (rec_ w r) = false ->
  bound_base w r c -> forall g, generate_code w ops (DRec r) = Ok g -> is_python_builtin w (r_decl (rec_ w c)) = false -> In (typename_from_rec w c) (cb_req g).
Proof.
  intros BC B C A [b [H1 [H2 [H3 [H4 [H5 H6]]]]]] g G NB. cbn [generate_code] in G.
  destruct (bind_class_deps_part _ _ _ _ _ G B C A) as [bs [q [E1 [E2 [_ I]]]]]. apply I.
  assert (Hb : In b bs).
  { apply (filter_r_In _ _ _ E1). split; [assumption|]. apply base_ok_spec. split; [assumption|exists c; auto]. }
  destruct (request_types_In _ _ _ (canonical (b_type b)) E2) as [q' [Q1 Q2]]; [apply in_map with (f := fun b => canonical (b_type b)); assumption|].
  apply Q2. unfold base_record in H3. destruct (canonical (b_type b)) as [| | | | | |k c' args| | |] eqn:Cn; try discriminate.
  injection H3 as ->. specialize (BC r b c k args H1 Cn). subst args.
  cbn [request_type] in Q1. unfold is_skipping_requested_q in Q1. cbn [skip_type] in Q1.
  unfold is_skipping_requested_rec in H6. rewrite skip_args in H6. rewrite H6 in Q1. cbn [bind_r as_tag request_name] in Q1.
  apply Ok_inj in Q1. subst q'. rewrite (bindable_named w c H5). left; reflexivity.
Qed.

(** The dependencies of the items after binding are base classes. *)
Lemma bound_deps_inherit w visits l log : bind_all w (collect w visits) = Ok (l, log) ->
  forall b r c, In b l -> b_decl b = DRec r -> In c (b_deps b) ->
    has_code b = true /\ bound_base w r c /\
    is_python_builtin w (r_decl (rec_ w r)) = false /\ custom_binder w r = false /\ r_anon (rec_ w r) = false /\
    exists g, generate_code w (x_ops (collect w visits)) (DRec r) = Ok g /\ b_code b = cb_code g.
Proof.
  intros H b r c Hb D Hc. apply bind_all_spec in H. destruct H as [_ [_ [_ H]]].
  apply In_nth_error in Hb. destruct Hb as [i Hi]. specialize (H i b Hi). destruct H as [H1 [H2 H3]].
  destruct (has_code b) eqn:HC.
  - destruct H2 as [g [G [E1 [_ [_ E4]]]]]; [tauto|]. rewrite E4 in Hc. rewrite D in G. assert (G' := G). cbn [generate_code] in G'.
    split; [reflexivity|]. destruct (bind_class_deps _ _ _ _ _ _ G' Hc) as [? [? [? ?]]]. repeat split; auto. exists g; auto.
  - assert (N : ~ needed w (x_ops (collect w visits)) (items (collect w visits)) i) by (intros N; apply H1 in N; discriminate).
    destruct (H3 N) as [_ [_ [_ E]]]. rewrite E in Hc. destruct Hc.
Qed.
Lemma bound_acyclic w visits l log : hierarchy_acyclic w -> bind_all w (collect w visits) = Ok (l, log) -> acyclic l.
Proof.
  intros A H r T. apply (A r).
  assert (M : forall a b, clos_trans nat (depends l) a b -> clos_trans nat (inherits w) a b).
  { intros a b T'. induction T' as [a b [x [Hx [D Hc]]]|a b c ? IH1 ? IH2]; [|eapply t_trans; eassumption].
    apply t_step. eapply bound_base_inherits, (bound_deps_inherit _ _ _ _ H); eauto. }
  auto.
Qed.

Lemma NoDup_map_inv' {A B} (f : A -> B) l : NoDup (map f l) -> forall i j x, nth_error l i = Some x -> nth_error l j = Some x -> i = j.
Proof.
  intros N i j x Hi Hj. apply (proj1 (NoDup_nth_error (map f l)) N).
  - rewrite map_length. apply nth_error_Some; congruence.
  - rewrite !nth_error_map, Hi, Hj. reflexivity.
Qed.

Lemma base_bound_first w visits l log s : bases_consistent w ->
  bind_all w (collect w visits) = Ok (l, log) -> sort_binders w l = Ok s ->
  forall s1 b r s2 c, s = s1 ++ b :: s2 -> b_decl b = DRec r -> has_code b = true ->
    custom_binder w r = false -> r_anon (rec_ w r) = false -> bound_base w r c ->
    is_python_builtin w (r_decl (rec_ w c)) = false ->
    exists b1 r1, In b1 s1 /\ b_decl b1 = DRec r1 /\ class_qualified_name w r1 = class_qualified_name w c /\
      (names_distinct w (items (collect w visits)) -> types_distinct w (items (collect w visits)) -> r1 = c /\ has_code b1 = true).
Proof.
  intros BC HB HS s1 b r s2 c Es D HC CB An Bb NB.
  pose proof (sort_binders_spec w l) as S. rewrite HS in S. destruct S as [P F].
  pose proof (bind_all_spec w visits l log HB) as [Eitems [_ [_ Spec]]].
  assert (Inl : forall x, In x s -> In x l) by (intros x; apply Permutation_in; assumption).
  assert (Hb : In b l) by (apply Inl; rewrite Es, in_app_iff; cbn; auto).
  destruct (In_nth_error _ _ Hb) as [ib Eb]. pose proof (Spec ib b Eb) as [Sb1 [Sb2 _]].
  assert (Nb : needed w (x_ops (collect w visits)) (items (collect w visits)) ib) by (apply Sb1; assumption).
  destruct (Sb2 Nb) as [g [G [_ [_ [_ Gd]]]]]. rewrite D in G.
  assert (Eib : nth_error (items (collect w visits)) ib = Some (DRec r)) by (rewrite <- Eitems, nth_error_map, Eb; cbn; congruence).
  assert (NBr : is_python_builtin w (r_decl (rec_ w r)) = false).
  { destruct (needed_nth _ _ _ _ Nb) as [d [Ed [_ [_ El]]]]. assert (d = DRec r) by congruence; subst d. exact El. }
  assert (Hc : In c (b_deps b)).
  { rewrite Gd. cbn [generate_code] in G. destruct (bind_class_deps_part _ _ _ _ _ G NBr CB An) as [bs [q [E1 [_ [-> _]]]]].
    apply (bound_bases_In _ _ _ _ E1). assumption. }
  destruct (F s1 b r s2 c Es D Hc) as [K|[b1 [r1 [Hb1 [D1 K1]]]]]; [cbn in K; congruence|].
  exists b1, r1. split; [assumption|]. split; [assumption|]. split; [assumption|]. intros H H0.
  assert (Hb1l : In b1 l) by (apply Inl; rewrite Es, in_app_iff; auto).
    assert (Hb1i : In (DRec r1) (items (collect w visits))) by (rewrite <- Eitems; apply in_map_iff; exists b1; auto).
    assert (r1 = c).
    { apply (H r1 c r); [assumption|eapply nth_error_In; exact Eib|apply bound_base_inherits; assumption|assumption]. }
    subst r1. split; [reflexivity|].
    destruct (In_nth_error _ _ Hb1l) as [i Ei]. apply (Spec i b1 Ei).
    assert (Ed : nth_error (items (collect w visits)) i = Some (DRec c)) by (rewrite <- Eitems, nth_error_map, Ei; cbn; congruence).
    destruct Bb as [bb [B1 [B2 [B3 [B4 [B5 B6]]]]]].
    eapply by_mention; [exact Ed| |exact Nb|exact Eib| |].
    + split; [exact B5|split; [exact B6|exact NB]].
    + exists g. split; [exact G|]. apply (base_mentioned w (x_ops (collect w visits)) r c BC NBr CB An); [|exact G|exact NB]. exists bb; auto 6.
    + exists (DRec c). split; [assumption|]. split; [cbn; auto|]. intros j d' Lt Ej Hn.
      assert (DRec c = d') by (eapply H0; [exact Hb1i|eapply nth_error_In; exact Ej|cbn; auto|exact Hn]). subst d'.
      assert (i = j); [|lia]. eapply NoDup_map_inv'; [apply (col_nodup _ _ _ (collected_all w visits))|exact Ed|exact Ej].
Qed.

Lemma available_In key known s c : available key known s c ->
  (forall b r, In b s -> b_decl b = DRec r -> key r = key c -> r = c) ->
  known c = true \/ exists b, In b s /\ b_decl b = DRec c.
Proof. intros [H|[b [r [H1 [H2 H3]]]]] I; [auto|]. right; exists b. rewrite <- (I b r); auto. Qed.

(** With unambiguous names the sort fails exactly when a dependency is missing. *)
Lemma sort_fails_iff w l : acyclic l ->
  (forall b r c r', In b l -> b_decl b = DRec r -> depends l r' c -> class_qualified_name w r = class_qualified_name w c -> r = c) ->
  let known := fun c => is_python_builtin w (r_decl (rec_ w c)) in
  ((exists s, sort_binders w l = Ok s) <-> forall c, ~ missing known l c) /\
  ((exists msg, sort_binders w l = Exit1 msg) <-> exists c, missing known l c).
Proof.
  intros A K known.
  pose proof (sort_binders_spec w l) as S. fold known in S.
  assert (O : forall s, sort_binders w l = Ok s -> forall c, ~ missing known l c).
  { intros s E c [M1 [[r [b [Hb [D Hc]]]] M3]]. rewrite E in S. destruct S as [P F].
    assert (Hs : In b s) by (eapply Permutation_in; [apply Permutation_sym; exact P|exact Hb]).
    apply in_split in Hs. destruct Hs as [s1 [s2 ->]].
    destruct (available_In _ _ _ _ (F s1 b r s2 c eq_refl D Hc)) as [X|[b' [Hb' D']]].
    - intros b0 r0 H0 D0 E0. apply (K b0 r0 c r); auto; [|exists b; auto].
      eapply Permutation_in; [exact P|]. rewrite in_app_iff; auto.
    - congruence.
    - apply (M3 b'); [|assumption]. eapply Permutation_in; [exact P|]. rewrite in_app_iff; auto. }
  destruct (sort_binders w l) as [s|m|m|m|]; try (destruct S; fail).
  - split; split.
    + intros _. eauto.
    + eauto.
    + intros [m H]; discriminate.
    + intros [c Hc]. exfalso; eapply O; eauto.
  - destruct S as [c [M _]]. split; split.
    + intros [s H]; discriminate.
    + intros H. exfalso; eapply H; eauto.
    + eauto.
    + eauto.
  - contradiction.
Qed.
