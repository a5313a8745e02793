(** Termination of a whole run (Context.v). *)
From Coq Require Import Ascii String Bool Arith NArith Lia Relations Sorted.
From Coq Require Import List.
From Verif Require Import Str StrFacts SpecUtil Util UtilFacts Config Ast Types Func Enum Includes Class Context SpecContext SpecIncludes ContextFacts SortFacts WriteFacts TotalFacts IncludesFacts.
Import ListNotations.

(** ** Acyclic relations on a finite set have a rank *)
Section Rank.
  Context (kids : nat -> list nat) (V : list nat).
  Context (HV : forall r c, In c (kids r) -> In r V /\ In c V).
  Context (Hac : forall r, ~ clos_trans nat (fun r c => In c (kids r)) r r).
  Fixpoint height (k r : nat) : nat :=
    match k with
    | 0 => 0
    | S k' => list_max (map (fun c => S (height k' c)) (kids r))
    end.
  Lemma max_attained l : l <> [] -> In (list_max l) l.
  Proof.
    induction l as [|x l IH]; [intros []; reflexivity|]. intros _; cbn [list_max fold_right]. fold (list_max l).
    destruct l as [|y l']; [left; cbn; lia|]. destruct (Nat.max_spec x (list_max (y :: l'))) as [[_ ->]|[_ ->]]; [right; apply IH; discriminate|left; reflexivity].
  Qed.
  Lemma max_bound l x : In x l -> x <= list_max l.
  Proof. intros H. pose proof (proj1 (list_max_le l (list_max l)) (le_n _)) as F. rewrite Forall_forall in F; apply F, H. Qed.
  (** A path of [height] steps; its nodes are distinct. *)
  Lemma height_path : forall k r, height k r <> 0 -> exists p, length p = S (height k r) /\ NoDup p /\ incl p V /\
    forall x, In x p -> x = r \/ clos_trans nat (fun r c => In c (kids r)) r x.
  Proof.
    induction k as [|k IH]; intros r H; cbn [height] in *; [destruct (H eq_refl)|].
    set (l := map (fun c => S (height k c)) (kids r)) in *.
    assert (Hn : l <> []) by (intros E; rewrite E in H; destruct (H eq_refl)).
    pose proof (max_attained l Hn) as M. unfold l in M at 2; apply in_map_iff in M; destruct M as [c [Ec Hc]]. rewrite <- Ec.
    assert (P : exists p, length p = S (height k c) /\ NoDup p /\ incl p V /\ forall x, In x p -> x = c \/ clos_trans nat (fun r c => In c (kids r)) c x).
    { destruct (height k c) as [|h] eqn:Eh.
      - exists [c]; split; [reflexivity|split; [constructor; [intros []|constructor]|split; [intros x [<-|[]]; exact (proj2 (HV _ _ Hc))|intros x [<-|[]]; left; reflexivity]]].
      - rewrite <- Eh; apply IH; rewrite Eh; discriminate. }
    destruct P as [p [P1 [P2 [P3 P4]]]]. exists (r :: p).
    split; [cbn [length]; rewrite P1; reflexivity|split; [|split]].
    - constructor; [|exact P2]. intros Hr; destruct (P4 r Hr) as [->|Ht].
      + apply (Hac c), t_step, Hc.
      + apply (Hac r), t_trans with c; [apply t_step, Hc|exact Ht].
    - intros x [<-|Hx]; [exact (proj1 (HV _ _ Hc))|apply P3, Hx].
    - intros x [<-|Hx]; [left; reflexivity|right]. destruct (P4 x Hx) as [->|Ht]; [apply t_step, Hc|apply t_trans with c; [apply t_step, Hc|exact Ht]].
  Qed.
  Lemma height_bound k r : height k r < S (length V) /\ (In r V -> height k r < length V).
  Proof.
    destruct (height k r) as [|h] eqn:E.
    - split; [lia|]. intros H; destruct V; [destruct H|cbn [length]; lia].
    - destruct (height_path k r) as [p [P1 [P2 [P3 _]]]]; [rewrite E; discriminate|]. rewrite E in P1.
      pose proof (NoDup_incl_length P2 P3). split; [lia|intros _; lia].
  Qed.
  Lemma height_stable : forall k r, height k r < k -> height (S k) r = height k r.
  Proof.
    induction k as [|k IH]; intros r H; [lia|].
    change (height (S (S k)) r) with (list_max (map (fun c => S (height (S k) c)) (kids r))).
    change (height (S k) r) with (list_max (map (fun c => S (height k c)) (kids r))) in H |- *.
    f_equal; apply map_ext_in; intros c Hc; f_equal; apply IH.
    assert (S (height k c) <= list_max (map (fun c => S (height k c)) (kids r))) by (apply max_bound, in_map_iff; exists c; split; [reflexivity|exact Hc]). lia.
  Qed.
  Lemma rank_exists : exists rank : nat -> nat, (forall r c, In c (kids r) -> rank c < rank r) /\ forall r, rank r < S (length V).
  Proof.
    exists (height (length V)); split; [|intros r; apply height_bound].
    intros r c Hc. pose proof (proj2 (height_bound (length V) r) (proj1 (HV _ _ Hc))) as B.
    rewrite <- (height_stable _ _ B). cbn [height].
    assert (S (height (length V) c) <= list_max (map (fun c => S (height (length V) c)) (kids r))) by (apply max_bound, in_map_iff; exists c; split; [reflexivity|exact Hc]). lia.
  Qed.
End Rank.

Definition rec_number (d : decl) : list nat := match d with DRec r => [r] | _ => [] end.
Lemma rec_number_In U r : In (DRec r) U -> In r (flat_map rec_number U).
Proof. intros H; apply in_flat_map; exists (DRec r); split; [exact H|left; reflexivity]. Qed.
Lemma rec_number_length U : length (flat_map rec_number U) <= length U.
Proof. induction U as [|d U IH]; cbn [flat_map length]; [lia|]. rewrite app_length; destruct d; cbn [rec_number length]; lia. Qed.
Lemma clos_trans_incl (R S : nat -> nat -> Prop) : (forall a b, R a b -> S a b) -> forall a b, clos_trans nat R a b -> clos_trans nat S a b.
Proof. intros H a b T; induction T; [apply t_step, H; assumption|eapply t_trans; eassumption]. Qed.
Lemma unit_bounded w U (R : nat -> nat -> Prop) kids :
  (forall r c, R r c <-> In c (kids r)) -> (forall r c, R r c -> In (DRec r) U /\ In (DRec c) U) ->
  length U < e_fuel (wenv w) -> (forall r, ~ clos_trans nat R r r) -> bounded R (e_fuel (wenv w)).
Proof.
  intros HR HU L A.
  destruct (rank_exists kids (flat_map rec_number U)) as [rank [R1 R2]].
  - intros r c H; apply HR, HU in H; destruct H; split; apply rec_number_In; assumption.
  - intros r T; apply (A r); revert T; apply clos_trans_incl; intros a b; apply HR.
  - exists rank; split; [intros r c H; apply R1, HR, H|intros r; specialize (R2 r); pose proof (rec_number_length U); lia].
Qed.
Lemma inherits_kids w r c : inherits w r c <-> In c (base_ids (r_bases (rec_ w r))).
Proof.
  unfold inherits, base_ids; rewrite in_flat_map; split; intros [b [H1 H2]]; exists b; (split; [exact H1|]).
  - rewrite H2; left; reflexivity.
  - destruct (base_record b) as [x|]; [destruct H2 as [->|[]]; reflexivity|destruct H2].
Qed.
Lemma unit_bases w U : translation_unit w U -> hierarchy_acyclic w -> bounded (inherits w) (e_fuel (wenv w)).
Proof. intros T A; apply (unit_bounded w U (inherits w) (fun r => base_ids (r_bases (rec_ w r)))); [apply inherits_kids|apply (tu_bases _ _ T)|apply (tu_stack _ _ T)|exact A]. Qed.
Lemma nested_in_nests w r i : nested_in w r i -> nests w r i.
Proof.
  intros [H|H]; [left; apply nested_classes_In, H|].
  unfold bound_nested in H. apply in_flat_map in H. destruct H as [j [Hj H]]. cbv zeta in H. apply nested_classes_In in Hj.
  destruct (negb (r_first (rec_ w j))); [destruct H|].
  destruct (r_is_def (rec_ w j)).
  - destruct (is_bindable_rec w j); [|destruct H]. destruct H as [<-|[]]. left; exact Hj.
  - destruct (r_definition (rec_ w j)) as [d|] eqn:D.
    + destruct (is_bindable_rec w d); [|destruct H]. destruct H as [<-|[]]. right; exists j; split; assumption.
    + destruct (is_bindable_rec w j); [|destruct H]. destruct H as [<-|[]]. left; exact Hj.
Qed.
Lemma unit_nested w U : translation_unit w U -> nesting_acyclic w -> bounded (nested_in w) (e_fuel (wenv w)).
Proof.
  intros T A; apply (unit_bounded w U (nested_in w) (fun r => nested_classes w (rec_ w r) ++ bound_nested w (rec_ w r)));
    [intros; symmetry; apply in_app_iff|intros r c H; apply (tu_nested _ _ T), nested_in_nests, H|apply (tu_stack _ _ T)|].
  intros r H; apply (A r); revert H; apply clos_trans_incl, nested_in_nests.
Qed.

(** ** Functions recorded for their headers *)

Lemma callback_methods_In w r cn : forall l st os st', callback_methods w r cn l st = Ok (os, st') -> forall o, In o os -> In (o_method o) l.
Proof.
  induction l as [|m l IH]; intros st os st' E o Ho; cbn [callback_methods] in E.
  - apply Ok_inj in E; injection E as <- <-; destruct Ho.
  - apply bind_r_Ok in E; destruct E as [ok [_ E]]; cbv zeta in E. destruct (ok && _).
    + destruct (f_final _); [right; exact (IH _ _ _ E o Ho)|].
      destruct (overrider_text _ _ _ _ _) as [text ret]. apply bind_r_Ok in E; destruct E as [[os2 st2] [E2 E]]; apply Ok_inj in E.
      apply pair_equal_spec in E; destruct E as [<- <-]. destruct Ho as [<-|Ho]; [left; reflexivity|right; exact (IH _ _ _ E2 o Ho)].
    + right; exact (IH _ _ _ E o Ho).
Qed.
Definition overriders_of (fuel : nat) (w : world) (cn : str) : list base -> cb_state -> result (list overrider * cb_state) :=
  fix over (l : list base) (st : cb_state) : result (list overrider * cb_state) :=
    match l with
    | [] => Ok ([], st)
    | b :: l' =>
        do (os, st') <- (if access_eqb (b_access b) Private then Ok ([], st)
                         else match base_record b with
                              | Some R => callback_overriders fuel w R cn st
                              | None => Ok ([], st)
                              end);
        do (os', st'') <- over l' st';
        Ok (os ++ os', st'')
    end.
Lemma overriders_eq fuel w r cn st : callback_overriders fuel w r cn st =
  do (own, st1) <- callback_methods w r cn (methods (rec_ w r)) st;
  match fuel with
  | 0 => match r_bases (rec_ w r) with [] => Ok (own, st1) | _ => Diverges end
  | S fuel' => do (rest, st2) <- overriders_of fuel' w cn (r_bases (rec_ w r)) st1; Ok (own ++ rest, st2)
  end.
Proof. destruct fuel; lazy beta delta [callback_overriders overriders_of] iota; exact eq_refl. Qed.
Lemma overriders_cons fuel w cn b l st : overriders_of fuel w cn (b :: l) st =
  do (os, st') <- (if access_eqb (b_access b) Private then Ok ([], st)
                   else match base_record b with
                        | Some R => callback_overriders fuel w R cn st
                        | None => Ok ([], st)
                        end);
  do (os', st'') <- overriders_of fuel w cn l st';
  Ok (os ++ os', st'').
Proof. lazy beta delta [overriders_of] iota; exact eq_refl. Qed.
Lemma overriders_In w cn : forall fuel r st os st', callback_overriders fuel w r cn st = Ok (os, st') ->
  forall o, In o os -> exists c, clos_refl_trans nat (inherits w) r c /\ In (o_method o) (methods (rec_ w c)).
Proof.
  induction fuel as [|fuel IH]; intros r st os st' E o Ho; rewrite overriders_eq in E;
    apply bind_r_Ok in E; destruct E as [[own st1] [E1 E]].
  - destruct (r_bases (rec_ w r)); [|discriminate]. apply Ok_inj, pair_equal_spec in E; destruct E as [<- <-].
    exists r; split; [apply rt_refl|exact (callback_methods_In _ _ _ _ _ _ _ E1 o Ho)].
  - apply bind_r_Ok in E; destruct E as [[rest st2] [E2 E]]; apply Ok_inj, pair_equal_spec in E; destruct E as [<- <-].
    apply in_app_or in Ho; destruct Ho as [Ho|Ho].
    + exists r; split; [apply rt_refl|exact (callback_methods_In _ _ _ _ _ _ _ E1 o Ho)].
    + assert (G : forall l st rest st', overriders_of fuel w cn l st = Ok (rest, st') -> In o rest ->
                 exists b R c, In b l /\ base_record b = Some R /\ clos_refl_trans nat (inherits w) R c /\ In (o_method o) (methods (rec_ w c))).
      { clear - IH; induction l as [|b l IHl]; intros st rest st' E Hr.
        - apply Ok_inj, pair_equal_spec in E; destruct E as [<- <-]; destruct Hr.
        - rewrite overriders_cons in E; apply bind_r_Ok in E; destruct E as [[os1 s1] [E1 E]]; apply bind_r_Ok in E; destruct E as [[os2 s2] [E2 E]].
          apply Ok_inj, pair_equal_spec in E; destruct E as [<- <-]. apply in_app_or in Hr; destruct Hr as [Hr|Hr].
          + destruct (access_eqb (b_access b) Private); [apply Ok_inj, pair_equal_spec in E1; destruct E1 as [<- _]; destruct Hr|].
            destruct (base_record b) as [R|] eqn:Eb; [|apply Ok_inj, pair_equal_spec in E1; destruct E1 as [<- _]; destruct Hr].
            destruct (IH _ _ _ _ E1 o Hr) as [c [C1 C2]]. exists b, R, c; split; [left; reflexivity|auto].
          + destruct (IHl _ _ _ E2 Hr) as [b' [R [c [B1 B2]]]]. exists b', R, c; split; [right; exact B1|exact B2]. }
      destruct (G _ _ _ _ E2 Ho) as [b [R [c [B1 [B2 [B3 B4]]]]]].
      exists c; split; [|exact B4]. apply rt_trans with R; [apply rt_step; exists b; split; assumption|exact B3].
Qed.

Lemma lookup_value {A} k (m : list (str * A)) v : lookup k m = Some v -> In v (map snd m).
Proof.
  induction m as [|[k' v'] m IH]; cbn [lookup map]; [discriminate|]. destruct (streqb k k'); [intros E; injection E as <-; left; reflexivity|intros E; right; exact (IH E)].
Qed.
Lemma repr_In w ops r f : In f (snd (bind_repr w ops r)) -> In f (map snd ops).
Proof.
  unfold bind_repr; destruct (_ || _); [intros []|]. unfold global_insertion_operator.
  destruct (lookup _ ops) as [g|] eqn:E; [intros [<-|[]]; exact (lookup_value _ _ _ E)|].
  destruct (is_specialization _); [|intros []].
  destruct (lookup _ ops) as [g|] eqn:E2 in |- *; [intros [<-|[]]; exact (lookup_value _ _ _ E2)|intros []].
Qed.
Lemma bind_class_incl fuel w ops r g : bind_class fuel w ops r = Ok g ->
  forall f, In f (cb_incl g) -> (exists c, clos_refl_trans nat (inherits w) r c /\ In f (methods (rec_ w c))) \/ In f (map snd ops).
Proof.
  intros E f Hf. pose proof (repr_In w ops r f) as HR.
  assert (HP : forall p fs, generate_prefix_code w r = Ok (p, fs) -> In f fs -> exists c, clos_refl_trans nat (inherits w) r c /\ In f (methods (rec_ w c))).
  { unfold generate_prefix_code; cbv zeta; intros p fs H Hi. apply bind_r_Ok in H; destruct H as [[os st] [Eo H]].
    apply Ok_inj, pair_equal_spec in H; destruct H as [_ <-]. apply in_map_iff in Hi; destruct Hi as [o [<- Ho]]. exact (overriders_In _ _ _ _ _ _ _ Eo o Ho). }
  destruct fuel; cbn [bind_class] in E;
    (destruct (is_python_builtin w (r_decl (rec_ w r))); [apply Ok_inj in E; subst g; destruct Hf|]);
    (destruct (lookup _ (maps (wcfg w) Config.binders)); [apply Ok_inj in E; subst g; destruct Hf|]);
    destruct (bind_repr w ops r) as [s5 i5]; cbn [snd] in HR;
    apply bind_r_Ok in E; destruct E as [cs [_ E]]; apply bind_r_Ok in E; destruct E as [tr [_ E]]; apply bind_r_Ok in E; destruct E as [[p0 i0] [E0 E]];
    inv_all E; apply Ok_inj in E; subst g; cbn [cb_incl] in Hf; apply in_app_or in Hf;
    (destruct Hf as [Hf|Hf]; [|right; exact (HR Hf)]); left;
    (destruct tr; [exact (HP _ _ E0 Hf)|apply Ok_inj, pair_equal_spec in E0; destruct E0 as [_ <-]; destruct Hf]).
Qed.

(** ** The whole run *)

Lemma update_values {A} k (v : A) m x : In x (map snd (update k v m)) -> x = v \/ In x (map snd m).
Proof.
  induction m as [|[k' v'] m IH]; cbn [update map].
  - intros [<-|[]]; left; reflexivity.
  - destruct (streqb k k'); cbn [map snd]; intros [<-|H].
    + left; reflexivity.
    + right; right; exact H.
    + right; left; reflexivity.
    + destruct (IH H) as [->|H']; [left; reflexivity|right; right; exact H'].
Qed.
Lemma ops_visited w visits f : In f (map snd (x_ops (collect w visits))) -> In (DFun f) visits.
Proof.
  revert f; induction visits as [|d l IH] using rev_ind; intros f H; [destruct H|].
  rewrite collect_snoc in H. apply in_or_app.
  assert (S : In f (map snd (x_ops (collect w l))) -> In (DFun f) l \/ In (DFun f) [d]) by (intros X; left; exact (IH f X)).
  unfold visit in H. destruct d as [g|r|e].
  - destruct (f_method (fun_ w g)); [exact (S H)|]. destruct (is_bindable_fun w (fun_ w g)).
    + unfold add in H; destruct (mem _ _); exact (S H).
    + destruct (f_operator (fun_ w g) && _); [|exact (S H)]. unfold add_insertion_operator in H; cbn [x_ops] in H.
      apply update_values in H; destruct H as [->|H]; [right; left; reflexivity|exact (S H)].
  - destruct (n_member _); [exact (S H)|]. destruct (is_bindable_rec w r); [|exact (S H)]. unfold add in H; destruct (mem _ _); exact (S H).
  - destruct (n_member _); [exact (S H)|]. unfold add in H; destruct (mem _ _); exact (S H).
Qed.
Lemma fine_initial w b : fine (initial_request w b).
Proof.
  unfold initial_request. destruct (bindable w b); [|apply fine_ok]. apply fine_bind; [apply fine_skip_decl|]. intros sk _.
  destruct sk; [apply fine_ok|]. destruct (n_system _); [apply fine_ok|]. apply fine_bind; [apply fine_bind_decl|intros; apply fine_ok].
Qed.
(** The binding phase can only fail to end inside the generation of an item. *)
Lemma bind_all_total w visits : bind_all w (collect w visits) = Diverges ->
  exists d, In d (items (collect w visits)) /\ generate_code w (x_ops (collect w visits)) d = Diverges.
Proof.
  intros H. pose proof (collected_all w visits) as C. unfold bind_all in H. apply bind_r_Diverges in H. destruct H as [H|[l0 [H0 H]]].
  - apply map_r_total in H; destruct H as [b [_ H]]. destruct (fine_initial w b H).
  - rewrite (col_new _ _ _ C) in H0. pose proof (initial_inv w (x_ops (collect w visits)) (items (collect w visits)) l0 H0) as I0.
    apply (bind_loop_total w (x_ops (collect w visits)) (x_types (collect w visits)) (items (collect w visits)) (col_types _ _ _ C)
             (collect w visits) (S (length l0)) eq_refl eq_refl l0 [] I0); [|exact H].
    apply map_r_Ok in H0; rewrite map_length in H0; cbn [length]; lia.
Qed.
Lemma in_unit_chain w U r c : translation_unit w U -> In (DRec r) U -> clos_refl_trans nat (inherits w) r c -> In (DRec c) U.
Proof. intros T Hr H; induction H as [x y H| |x y z _ IH1 _ IH2]; [exact (proj2 (tu_bases _ _ T _ _ H))|exact Hr|apply IH2, IH1, Hr]. Qed.
Lemma generate_terminates w U visits : translation_unit w U -> hierarchy_acyclic w -> nesting_acyclic w -> incl visits U ->
  (0 < max_file_size (wopt w))%N -> generate w (collect w visits) <> Diverges.
Proof.
  intros T HA NA V M. pose proof (unit_bases w U T HA) as HB. pose proof (unit_nested w U T NA) as HN.
  unfold generate. intros H. apply bind_r_Diverges in H. destruct H as [H|[[l log] [Eb H]]].
  { apply bind_all_total in H; destruct H as [d [_ H]]. exact (fine_generate w HB HN _ d H). }
  apply bind_r_Diverges in H. destruct H as [H|[s [Es H]]].
  { pose proof (sort_binders_spec w l) as S; cbv zeta in S; rewrite H in S. exact (S (bound_acyclic w visits l log HA Eb)). }
  apply bind_r_Diverges in H. destruct H as [H|[fs [_ H]]]; [|discriminate].
  unfold write_files in H. destruct (write_loop_total w (write_fuel s) M s [] [] 0) as [b [st [Hb Hd]]]; [left; unfold write_fuel; lia|exact H|].
  pose proof (sort_binders_spec w l) as S; cbv zeta in S; rewrite Es in S. destruct S as [P _].
  apply (Permutation.Permutation_in _ P) in Hb. apply In_nth_error in Hb; destruct Hb as [i Hi].
  destruct (bind_all_spec w visits l log Eb) as [D [_ [_ B]]].
  assert (HU : In (b_decl b) U).
  { apply V, (sublist_In _ _ _ (col_sub _ _ _ (collected_all w visits))). rewrite <- D. apply in_map, nth_error_In with i, Hi. }
  unfold binder_includes in Hd; cbv zeta in Hd. destruct (b_decl b) as [f|r|e] eqn:Ed.
  - apply (proj1 (includes_fine w U (tu_looks _ _ T) (e_fuel (wenv w))) (DFun f) 0 st []) in Hd;
      [exact Hd|exact HU|constructor|intros x []|intros x []|cbn [length]; pose proof (tu_stack _ _ T); lia].
  - destruct HN as [rank [R1 R2]]. revert Hd. apply (class_includes_fine w U (e_fuel (wenv w)) rank).
    + exact (tu_looks _ _ T).
    + pose proof (tu_stack _ _ T); lia.
    + intros x y H'; apply R1; left; exact H'.
    + intros x y _ H'; apply nested_classes_In in H'; exact (proj2 (tu_nested _ _ T x y (or_introl H'))).
    + apply R2.
    + exact HU.
    + intros f Hf. destruct (B i b Hi) as [B1 [B2 B3]].
      destruct (has_code b) eqn:Hc.
      * destruct (B2 (proj1 B1 eq_refl)) as [g [G1 [_ [_ [G2 _]]]]]. rewrite Ed in G1; cbn [generate_code] in G1. rewrite G2 in Hf.
        destruct (bind_class_incl _ _ _ _ _ G1 f Hf) as [[c [C1 C2]]|O].
        -- exact (tu_methods _ _ T c f (in_unit_chain w U r c T HU C1) (proj1 (in_methods _ _) C2)).
        -- apply V, (ops_visited w visits), O.
      * assert (N : ~ needed w (x_ops (collect w visits)) (items (collect w visits)) i) by (intros N; apply B1 in N; discriminate).
        destruct (B3 N) as [_ [_ [Z _]]]. rewrite Z in Hf; destruct Hf.
  - apply (proj1 (includes_fine w U (tu_looks _ _ T) (e_fuel (wenv w))) (DEnum e) 0 st []) in Hd;
      [exact Hd|exact HU|constructor|intros x []|intros x []|cbn [length]; pose proof (tu_stack _ _ T); lia].
Qed.

(** ** The parts of a successful run *)

Lemma run_inv w visits o : run w visits = Ok o ->
  exists l, bind_all w (collect w visits) = Ok (l, out_log o) /\ sort_binders w l = Ok (out_sorted o) /\
    wrote w (out_sorted o) [] [] 0 (out_files o) /\ out_namespaces o = nested_namespaces w (out_sorted o).
Proof.
  unfold run, generate; intros H. apply bind_r_Ok in H; destruct H as [[l log] [E1 H]]; apply bind_r_Ok in H; destruct H as [s [E2 H]];
    apply bind_r_Ok in H; destruct H as [fs [E3 H]]; apply Ok_inj in H; subst o; cbn [out_log out_sorted out_files out_namespaces].
  exists l; split; [exact E1|split; [exact E2|split; [exact (write_loop_wrote _ _ _ _ _ _ _ E3)|reflexivity]]].
Qed.
Lemma has_code_iff b : has_code b = true <-> b_code b <> [].
Proof. unfold has_code; destruct (b_code b); [split; [discriminate|intros X; destruct (X eq_refl)]|split; [discriminate|reflexivity]]. Qed.
Lemma run_perm w visits o : run w visits = Ok o -> Permutation.Permutation (map b_decl (out_sorted o)) (collected_items w visits).
Proof.
  intros H; destruct (run_inv _ _ _ H) as [l [E1 [E2 _]]]. pose proof (sort_binders_spec w l) as S; cbv zeta in S; rewrite E2 in S.
  rewrite (Permutation.Permutation_map b_decl (proj1 S)). destruct (bind_all_spec _ _ _ _ E1) as [-> _]; apply Permutation.Permutation_refl.
Qed.
(** Every item of the output, with its position and its state. *)
Lemma run_item w visits o b : run w visits = Ok o -> In b (out_sorted o) ->
  exists i, nth_error (collected_items w visits) i = Some (b_decl b) /\
    (b_code b <> [] <-> needed w (operators w visits) (collected_items w visits) i) /\
    (b_code b <> [] -> exists g, generate_code w (operators w visits) (b_decl b) = Ok g /\
       b_code b = cb_code g /\ b_prefix b = cb_prefix g /\ b_incl b = cb_incl g /\ b_deps b = cb_deps g).
Proof.
  intros H Hb; destruct (run_inv _ _ _ H) as [l [E1 [E2 _]]]. pose proof (sort_binders_spec w l) as S; cbv zeta in S; rewrite E2 in S.
  apply (Permutation.Permutation_in _ (proj1 S)) in Hb. apply In_nth_error in Hb; destruct Hb as [i Hi].
  destruct (bind_all_spec _ _ _ _ E1) as [D [_ [_ B]]]. destruct (B i b Hi) as [B1 [B2 _]]. exists i.
  split; [unfold collected_items; change (map b_decl (x_binders (collect w visits))) with (items (collect w visits)); rewrite <- D, nth_error_map, Hi; reflexivity|].
  split; [rewrite <- has_code_iff; exact B1|]. intros N; apply B2, B1, has_code_iff, N.
Qed.
Lemma run_item_of w visits o i d : run w visits = Ok o -> nth_error (collected_items w visits) i = Some d ->
  exists b, In b (out_sorted o) /\ b_decl b = d.
Proof.
  intros H Hd. apply nth_error_In in Hd. apply (Permutation.Permutation_in _ (Permutation.Permutation_sym (run_perm _ _ _ H))) in Hd.
  apply in_map_iff in Hd; destruct Hd as [b [E Hb]]; exists b; auto.
Qed.
Lemma items_nodup w visits : NoDup (collected_items w visits).
Proof. exact (NoDup_map_inv _ _ (col_nodup _ _ _ (collected_all w visits))). Qed.
Lemma bound_iff w visits o i d : run w visits = Ok o -> nth_error (collected_items w visits) i = Some d ->
  (bound o d <-> needed w (operators w visits) (collected_items w visits) i).
Proof.
  intros H Hd; split.
  - intros [b [Hb [Eb Nb]]]. destruct (run_item _ _ _ _ H Hb) as [j [Hj [Cj _]]]. rewrite Eb in Hj.
    assert (i = j); [|subst; apply Cj, Nb]. apply (proj1 (NoDup_nth_error _) (items_nodup w visits)).
    + apply nth_error_Some; rewrite Hd; discriminate.
    + rewrite Hd, Hj; reflexivity.
  - intros N. destruct (run_item_of _ _ _ _ _ H Hd) as [b [Hb Eb]]. exists b; split; [exact Hb|split; [exact Eb|]].
    destruct (run_item _ _ _ _ H Hb) as [j [Hj [Cj _]]]. rewrite Eb in Hj. apply Cj.
    assert (i = j) as <-; [|exact N]. apply (proj1 (NoDup_nth_error _) (items_nodup w visits)).
    + apply nth_error_Some; rewrite Hd; discriminate.
    + rewrite Hd, Hj; reflexivity.
Qed.
Lemma needed_eligible w ops ds i d : needed w ops ds i -> nth_error ds i = Some d -> eligible w d.
Proof. intros N E; destruct N as [i d' E' El _ _|i j d' dj name E' El _ _ _ _]; rewrite E in E'; injection E' as <-; exact El. Qed.
Lemma written_items w rest fnames entrance tc gs : wrote w rest fnames entrance tc gs ->
  filter has_code (written gs) = filter (fun b => has_code b && negb (replaced_namespace w (binder_namespace w b))) rest.
Proof.
  intros W. pose proof (wrote_items _ _ _ _ _ _ W) as I. pose proof (wrote_skip _ _ _ _ _ _ W) as K. pose proof (wrote_files_ok _ _ _ _ _ _ W) as O.
  assert (F : forall l, filter (fun b => has_code b && negb (replaced_namespace w (binder_namespace w b))) l
            = filter (fun b => negb (replaced_namespace w (binder_namespace w b))) (filter has_code l)).
  { induction l as [|b l IH]; [reflexivity|]. cbn [filter]. destruct (has_code b); cbn [andb filter]; rewrite IH; reflexivity. }
  rewrite F, <- I, <- F. clear W I F. unfold written. induction gs as [|g gs IH]; [reflexivity|].
  inversion K as [|? ? K1 K2]; subst. inversion O as [|? ? O1 O2]; subst. cbn [flat_map]; rewrite !filter_app, (IH K2 O2). f_equal.
  destruct O1 as [N _]. rewrite K1. clear - N. induction N as [|b l Hb N IH]; [destruct (replaced_namespace _ _); reflexivity|].
  cbn [filter]. rewrite Hb, <- IH. destruct (replaced_namespace w (g_ns g)); cbn [negb andb filter]; rewrite ?andb_false_r, ?andb_true_r; [destruct (has_code b); reflexivity|destruct (has_code b); reflexivity].
Qed.
Lemma strlt_byte a b : strlt a b <-> byte_less a b.
Proof.
  unfold strlt, byte_less; split.
  - revert b; induction a as [|x a IH]; intros [|y b]; cbn [strcmp]; try discriminate.
    + intros _; exists []; left; exists y, b; auto.
    + destruct (N.compare_spec (N_of_ascii x) (N_of_ascii y)) as [E|L|L]; try discriminate.
      * assert (x = y) as -> by (rewrite <- (ascii_N_embedding x), E; apply ascii_N_embedding).
        intros H; destruct (IH b H) as [p [[c [r [-> ->]]]|[u [v [r [s [-> [-> L]]]]]]]].
        -- exists (y :: p); left; exists c, r; auto.
        -- exists (y :: p); right; exists u, v, r, s; auto.
      * intros _; exists []; right; exists x, y, a, b; auto.
  - intros [p [[c [r [-> ->]]]|[x [y [r [s [-> [-> L]]]]]]]].
    + induction p as [|z p IH]; [reflexivity|]. cbn [strcmp app]; rewrite N.compare_refl; exact IH.
    + induction p as [|z p IH]; cbn [strcmp app]; [rewrite (proj2 (N.compare_lt_iff _ _) L); reflexivity|rewrite N.compare_refl; exact IH].
Qed.
Lemma sorted_byte l : StronglySorted strlt l -> StronglySorted byte_less l.
Proof. induction 1 as [|x l S IH H]; constructor; [exact IH|]. revert H; apply Forall_impl; intros y; apply strlt_byte. Qed.
