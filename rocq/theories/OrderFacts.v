(** The order in which declarations are met. *)
From Coq Require Import Ascii String Bool Arith Lia.
From Coq Require Import List Permutation.
From Verif Require Import Str StrFacts Util Config Ast Types Func Enum Includes Class Context SpecContext SpecOrder SpecLayout ContextFacts SortFacts RunFacts SettingsFacts.
Import ListNotations.

(** ** Printing operators *)
Definition same_lookup (ops ops' : list (str * nat)) : Prop := forall k, lookup k ops' = lookup k ops.

Lemma visit_ops w d c : x_ops (visit w d c) =
  match d with
  | DFun f => if negb (f_method (fun_ w f)) && negb (is_bindable_fun w (fun_ w f)) && f_operator (fun_ w f) && streqb (n_name (f_decl (fun_ w f))) $"operator<<"
              then update (function_pointer_type w (fun_ w f)) f (x_ops c) else x_ops c
  | _ => x_ops c
  end.
Proof.
  assert (A : forall d, x_ops (add w d c) = x_ops c) by (intros x; unfold add; destruct (mem _ _); reflexivity).
  destruct d as [f|r|e]; cbn [visit].
  - destruct (f_method (fun_ w f)); [reflexivity|]. destruct (is_bindable_fun w (fun_ w f)); [apply A|]. cbn [negb andb].
    destruct (f_operator (fun_ w f)); cbn [andb]; [|reflexivity]. destruct (streqb _ _); reflexivity.
  - destruct (n_member _); [reflexivity|]. destruct (is_bindable_rec w r); [apply A|reflexivity].
  - destruct (n_member _); [reflexivity|apply A].
Qed.
Lemma insertion_iff w f : insertion_operator w f <->
  negb (f_method (fun_ w f)) && negb (is_bindable_fun w (fun_ w f)) && f_operator (fun_ w f) && streqb (n_name (f_decl (fun_ w f))) $"operator<<" = true.
Proof.
  unfold insertion_operator. rewrite !andb_true_iff, !negb_true_iff, streqb_eq. tauto.
Qed.
Local Opaque is_bindable_fun function_pointer_type.
Lemma last_snoc_other w l d key f : (forall g, d = DFun g -> insertion_operator w g -> function_pointer_type w (fun_ w g) <> key) ->
  last_operator w (l ++ [d]) key f <-> last_operator w l key f.
Proof.
  intros N. split.
  - intros [b [a [E [I [K L]]]]]. destruct (exists_last (l := DFun f :: a)) as [a' [x X]]; [discriminate|].
    rewrite X, app_assoc in E. apply app_inj_tail in E. destruct E as [E <-]. destruct a' as [|y a'].
    + cbn [app] in X. injection X as X Y. exfalso. exact (N f (eq_sym X) I K).
    + cbn [app] in X. injection X as <- X. exists b, a'. split; [exact E|split; [exact I|split; [exact K|]]]. intros g Hg. apply L. rewrite X. apply in_or_app. left. exact Hg.
  - intros [b [a [-> [I [K L]]]]]. exists b, (a ++ [d]). split; [rewrite <- app_assoc; reflexivity|split; [exact I|split; [exact K|]]].
    intros g Hg Ig. apply in_app_or in Hg. destruct Hg as [Hg|[->|[]]]; [exact (L g Hg Ig)|exact (N g eq_refl Ig)].
Qed.
Lemma operators_spec w visits key f : lookup key (operators w visits) = Some f <-> last_operator w visits key f.
Proof.
  unfold operators. revert key f. induction visits as [|d l IH] using rev_ind; intros key f.
  - cbn. split; [discriminate|]. intros [b [a [E _]]]. destruct b; discriminate.
  - rewrite collect_snoc, visit_ops. destruct d as [g|r|e].
    + destruct (_ && _) eqn:I.
      * apply insertion_iff in I. destruct (streqb_spec key (function_pointer_type w (fun_ w g))) as [->|Ne].
        -- rewrite lookup_update_eq. split.
           ++ intros X. injection X as <-. exists l, []. split; [reflexivity|split; [exact I|split; [reflexivity|intros h []]]].
           ++ intros [b [a [E [If [K L]]]]]. destruct (exists_last (l := DFun f :: a)) as [a' [x X]]; [discriminate|].
              rewrite X, app_assoc in E. apply app_inj_tail in E. destruct E as [_ <-]. destruct a' as [|y a'].
              ** cbn [app] in X. injection X as -> _. reflexivity.
              ** cbn [app] in X. injection X as <- X. exfalso. apply (L g); [rewrite X; apply in_or_app; right; left; reflexivity|exact I|reflexivity].
        -- rewrite lookup_update_neq by exact Ne. rewrite IH. symmetry. apply last_snoc_other. intros h Eh _ X. injection Eh as <-. apply Ne. symmetry. exact X.
      * rewrite IH. symmetry. apply last_snoc_other. intros h Eh Ih _. injection Eh as <-. apply insertion_iff in Ih. congruence.
    + rewrite IH. symmetry. apply last_snoc_other. intros h Eh. discriminate Eh.
    + rewrite IH. symmetry. apply last_snoc_other. intros h Eh. discriminate Eh.
Qed.
Lemma last_operator_exists w l key : (exists f, In (DFun f) l /\ insertion_operator w f /\ function_pointer_type w (fun_ w f) = key) ->
  exists f, last_operator w l key f.
Proof.
  induction l as [|d l IH] using rev_ind; intros [f [Hf [I K]]]; [destruct Hf|].
  assert (D : (exists g, d = DFun g /\ insertion_operator w g /\ function_pointer_type w (fun_ w g) = key) \/
              (forall g, d = DFun g -> insertion_operator w g -> function_pointer_type w (fun_ w g) <> key)).
  { destruct d as [g|r|e]; [|right; intros h Eh; discriminate Eh|right; intros h Eh; discriminate Eh].
    destruct (negb (f_method (fun_ w g)) && negb (is_bindable_fun w (fun_ w g)) && f_operator (fun_ w g) && streqb (n_name (f_decl (fun_ w g))) $"operator<<") eqn:B.
    - apply insertion_iff in B. destruct (streqb_spec (function_pointer_type w (fun_ w g)) key) as [X|X]; [left; exists g; auto|].
      right. intros h Eh _. injection Eh as <-. exact X.
    - right. intros h Eh Ih. injection Eh as <-. apply insertion_iff in Ih. congruence. }
  destruct D as [[g [-> [Ig Kg]]]|D].
  - exists g, l, []. split; [reflexivity|split; [exact Ig|split; [exact Kg|intros h []]]].
  - apply in_app_or in Hf. destruct Hf as [Hf|[->|[]]]; [|destruct (D f eq_refl I K)]. destruct IH as [h Hh]; [exists f; auto|]. exists h. apply last_snoc_other; assumption.
Qed.
Lemma operators_same w v v' : same_declarations v v' -> distinct_operators w v -> same_lookup (operators w v) (operators w v').
Proof.
  intros S D key. assert (K : forall v v' f, same_declarations v v' -> distinct_operators w v -> last_operator w v key f -> last_operator w v' key f).
  { clear. intros v v' f S D [b [a [E [I [K L]]]]]. destruct (last_operator_exists w v' key) as [g Hg].
    - exists f. split; [apply S; rewrite E; apply in_or_app; right; left; reflexivity|auto].
    - assert (f = g); [|subst; exact Hg]. destruct Hg as [b' [a' [E' [I' [K' _]]]]].
      apply D; [rewrite E; apply in_or_app; right; left; reflexivity|apply S; rewrite E'; apply in_or_app; right; left; reflexivity|exact I|exact I'|congruence]. }
  assert (S' : same_declarations v' v) by (intros d; split; apply S).
  assert (D' : distinct_operators w v') by (intros f g Hf Hg; apply D; apply S; assumption).
  destruct (lookup key (operators w v)) as [f|] eqn:E.
  - apply operators_spec. apply operators_spec in E. exact (K v v' f S D E).
  - destruct (lookup key (operators w v')) as [f|] eqn:E'; [|reflexivity]. apply operators_spec in E'. apply (K v' v f S' D') in E'. apply operators_spec in E'. congruence.
Qed.

(** ** Code *)
Local Opaque is_python_builtin lookup is_callback_structure_needed is_callback_structure_constructible generate_prefix_code holder is_module_local_requested
  bound_bases bind_ctors bind_enums binding_public_member_functions binding_template_bases bind_with bound_nested indent class_head.
Lemma repr_lookup w ops ops' r : same_lookup ops ops' -> bind_repr w ops' r = bind_repr w ops r.
Proof. intros S. unfold bind_repr, global_insertion_operator. rewrite !(S _). reflexivity. Qed.
Local Opaque bind_repr.
Lemma bind_class_lookup w ops ops' : same_lookup ops ops' -> forall n r, bind_class n w ops' r = bind_class n w ops r.
Proof.
  intros S. induction n as [|n IH]; intros r; cbn [bind_class]; rewrite (repr_lookup w ops ops' r S); [reflexivity|].
  assert (Z : forall l, (fix over (l : list nat) : result (str * str * list str) :=
                   match l with
                   | [] => Ok ([], [], [])
                   | i :: l' => do b <- bind_class n w ops' i; do (s, p, q) <- over l'; Ok (cb_code b ++ [nl] ++ s, cb_prefix b ++ p, cb_req b ++ q)
                   end) l = (fix over (l : list nat) : result (str * str * list str) :=
                   match l with
                   | [] => Ok ([], [], [])
                   | i :: l' => do b <- bind_class n w ops i; do (s, p, q) <- over l'; Ok (cb_code b ++ [nl] ++ s, cb_prefix b ++ p, cb_req b ++ q)
                   end) l) by (induction l as [|i l IHl]; [reflexivity|]; rewrite IH, IHl; reflexivity).
  destruct (bound_nested w (rec_ w r)) as [|x l]; [reflexivity|]. rewrite (Z (x :: l)). reflexivity.
Qed.
Local Opaque bind_class.
Lemma generate_lookup w ops ops' d : same_lookup ops ops' -> generate_code w ops' d = generate_code w ops d.
Proof. intros S. destruct d; cbn [generate_code]; [reflexivity|apply bind_class_lookup; exact S|reflexivity]. Qed.
Local Opaque generate_code.
Lemma mentions_lookup w ops ops' d name : same_lookup ops ops' -> mentions w ops' d name <-> mentions w ops d name.
Proof. intros S. unfold mentions. rewrite (generate_lookup w ops ops' d S). tauto. Qed.

(** ** Items *)
Lemma items_first w v d : In d (collected_items w v) <-> first_visit w v d.
Proof. exact (col_first _ _ _ (collected_all w v) d). Qed.
Lemma items_distinct w v d : distinct_identities w v -> In d (collected_items w v) <-> In d v /\ collectible w d.
Proof.
  intros D. rewrite items_first. split.
  - intros [b [a [E [C _]]]]. split; [rewrite E; apply in_or_app; right; left; reflexivity|exact C].
  - intros [Hd C]. destruct (first_exists w v d Hd C) as [z [Fz Ez]]. assert (z = d); [|subst; exact Fz].
    destruct Fz as [b [a [E [Cz _]]]]. apply D; [rewrite E; apply in_or_app; right; left; reflexivity|exact Hd|exact Cz|exact C|exact Ez].
Qed.
Lemma items_same w v v' d : same_declarations v v' -> distinct_identities w v -> In d (collected_items w v') <-> In d (collected_items w v).
Proof.
  intros S D. assert (D' : distinct_identities w v') by (intros x y Hx Hy; apply D; apply S; assumption).
  rewrite (items_distinct w v d D), (items_distinct w v' d D'), (S d). tauto.
Qed.

(** ** The binding phase fails only for a reason *)
Lemma initial_decided w d : (exists b, initial_request w (new_binder d) = Ok b) <-> decided w d.
Proof.
  unfold initial_request, decided. assert (EB : bindable w (new_binder d) = can_bind w d) by (destruct d; cbn; rewrite ?andb_true_r; reflexivity).
  rewrite EB. cbn [b_decl new_binder]. change (named_decl w (new_binder d)) with (named_of (wenv w) d).
  destruct (can_bind w d); [|split; [intros _ X; discriminate X|intros _; eexists; reflexivity]].
  destruct (skip_decl w d) as [sk|m|m|m|] eqn:Sk; cbn [bind_r];
    try (split; [intros [b X]; discriminate X|intros X; destruct (X eq_refl) as [s [Y _]]; discriminate Y]).
  destruct sk.
  - split; [intros _ _; exists true; split; [reflexivity|discriminate]|intros _; eexists; reflexivity].
  - destruct (n_system (named_of (wenv w) d)).
    + split; [intros _ _; exists false; split; [reflexivity|discriminate]|intros _; eexists; reflexivity].
    + destruct (bind_decl w d) as [bd|m|m|m|] eqn:Bd; cbn [bind_r];
        try (split; [intros [b X]; discriminate X|intros X; destruct (X eq_refl) as [s [Y Z]]; apply Ok_inj in Y; subst s; destruct (Z eq_refl eq_refl) as [b Q]; discriminate Q]).
      split; [intros _ _; exists false; split; [reflexivity|intros _ _; exists bd; reflexivity]|intros _; eexists; reflexivity].
Qed.
Lemma map_r_all {A B} (f : A -> result B) l : (forall x, In x l -> exists y, f x = Ok y) -> exists r, map_r f l = Ok r.
Proof.
  induction l as [|x l IH]; intros H; cbn [map_r]; [eexists; reflexivity|].
  destruct (H x (or_introl eq_refl)) as [y ->]. destruct IH as [r ->]; [intros z Hz; apply H; right; exact Hz|]. cbn [bind_r]. eexists; reflexivity.
Qed.
Section Succeeds.
  Context (w : world) (ops : list (str * nat)) (types : list (str * nat)) (ds : list decl).
  Context (Htypes : forall name i, lookup name types = Some i <-> named_item w ds name i).
  Context (G : forall i d, needed w ops ds i -> nth_error ds i = Some d -> exists g, generate_code w ops d = Ok g).
  Lemma pass_succeeds c todo : x_types c = types -> x_ops c = ops -> forall l log, inv w ops ds l log -> exists p, bind_pass w c todo l log = Ok p.
  Proof.
    intros Ht Ho. induction todo as [|i todo IH]; cbn [bind_pass]; intros l log I; [eexists; reflexivity|].
    destruct (nth_error l i) as [b|] eqn:Eb; [|eexists; reflexivity]. destruct (wants_binding w b) eqn:W; [|apply IH; exact I].
    destruct (nth_same_length l ds i b (inv_len _ _ _ _ _ I) Eb) as [d Ed].
    destruct (inv_item _ _ _ _ _ I i d Ed) as [b' [Eb' Ob]]. rewrite Eb in Eb'. injection Eb' as <-.
    pose proof (io_decl _ _ _ _ _ _ _ Ob) as Hd.
    assert (Ni : needed w ops ds i).
    { apply (io_req _ _ _ _ _ _ _ Ob).
      - apply andb_prop in W. apply W.
      - apply andb_prop in W; destruct W as [W _]. apply andb_prop in W; destruct W as [W _]. unfold is_binded in W.
        apply negb_true_iff, orb_false_iff in W. rewrite <- Hd. apply W. }
    destruct (G i d Ni Ed) as [g Eg]. rewrite Ho, Ht, Hd, Eg. cbn [bind_r]. apply IH.
    rewrite <- Hd in Eg. exact (proj1 (bind_step w ops types ds Htypes i b g l log I Eb W Eg)).
  Qed.
  Lemma loop_succeeds c fuel : x_types c = types -> x_ops c = ops -> forall l log, inv w ops ds l log -> length ds < fuel + length log ->
    exists p, bind_loop fuel w c l log = Ok p.
  Proof.
    intros Ht Ho. induction fuel as [|fuel IH]; cbn [bind_loop]; intros l log I L.
    - exfalso. assert (length log <= length ds); [|cbn in L; lia].
      rewrite <- (seq_length (length ds) 0). apply NoDup_incl_length; [apply I|].
      intros i Hi. apply in_seq. pose proof (inv_range _ _ _ _ _ I i Hi). lia.
    - destruct (pass_succeeds c (seq 0 (length l)) Ht Ho l log I) as [[l1 log1] E]. rewrite E. cbn [bind_r].
      destruct (bind_pass_inv w ops types ds Htypes c _ Ht Ho _ _ _ _ I E) as [I1 [[more ->] _]].
      destruct (length (log ++ more) =? length log) eqn:El; [eexists; reflexivity|].
      apply (IH _ _ I1). apply Nat.eqb_neq in El. rewrite app_length in *. lia.
  Qed.
End Succeeds.
Lemma bind_all_succeeds_iff w v : (exists p, bind_all w (collect w v) = Ok p) <->
  (forall d, In d (collected_items w v) -> decided w d) /\
  (forall i d, needed w (operators w v) (collected_items w v) i -> nth_error (collected_items w v) i = Some d -> exists g, generate_code w (operators w v) d = Ok g).
Proof.
  pose proof (collected_all w v) as C. unfold collected_items, operators. change (map b_decl (x_binders (collect w v))) with (items (collect w v)). split.
  - intros [[l log] H]. split.
    + unfold bind_all in H. apply bind_r_Ok in H. destruct H as [l0 [H0 _]]. rewrite (col_new _ _ _ C) in H0. apply map_r_Ok in H0. destruct H0 as [_ N].
      intros d Hd. apply In_nth_error in Hd. destruct Hd as [i Hi]. apply initial_decided.
      destruct (N i (new_binder d)) as [b [_ Ib]]; [rewrite nth_error_map, Hi; reflexivity|]. exists b; exact Ib.
    + apply bind_all_spec in H. cbv zeta in H. destruct H as [D [_ [_ H]]]. intros i d N Ed.
      rewrite <- D, nth_error_map in Ed. destruct (nth_error l i) as [b|] eqn:Eb; [|discriminate]. cbn in Ed. injection Ed as <-.
      destruct (H i b Eb) as [_ [H2 _]]. destruct (H2 N) as [g [Eg _]]. exists g; exact Eg.
  - intros [H1 H2]. unfold bind_all. rewrite (col_new _ _ _ C).
    destruct (map_r_all (initial_request w) (map new_binder (items (collect w v)))) as [l0 E0].
    { intros b Hb. apply in_map_iff in Hb. destruct Hb as [d [<- Hd]]. apply initial_decided, H1, Hd. }
    rewrite E0. cbn [bind_r]. pose proof (initial_inv w (x_ops (collect w v)) (items (collect w v)) l0 E0) as I0.
    apply (loop_succeeds w (x_ops (collect w v)) (x_types (collect w v)) (items (collect w v)) (col_types _ _ _ C) H2 (collect w v) _ eq_refl eq_refl l0 [] I0).
    apply map_r_Ok in E0. rewrite map_length in E0. cbn [length]. lia.
Qed.

(** ** What has to be bound *)
Definition needs (w : world) (v : list decl) (d : decl) : Prop :=
  exists i, nth_error (collected_items w v) i = Some d /\ needed w (operators w v) (collected_items w v) i.
Lemma needed_transfer w ops ops' ds ds' : same_lookup ops ops' -> (forall d, In d ds -> In d ds') -> NoDup ds' -> types_distinct w ds' ->
  forall i, needed w ops ds i -> forall d, nth_error ds i = Some d -> exists i', nth_error ds' i' = Some d /\ needed w ops' ds' i'.
Proof.
  intros S I N T i H. induction H as [i d Ed El Sy Bd|i j d dj name Ed El Nj IH Ej M Nm]; intros d0 E0; rewrite Ed in E0; injection E0 as <-.
  - destruct (In_nth_error ds' d) as [i' Ei']; [apply I; eapply nth_error_In; exact Ed|]. exists i'. split; [exact Ei'|]. eapply by_config; eassumption.
  - destruct (IH dj Ej) as [j' [Ej' Nj']]. destruct (In_nth_error ds' d) as [i' Ei']; [apply I; eapply nth_error_In; exact Ed|].
    exists i'. split; [exact Ei'|]. eapply by_mention; [exact Ei'|exact El|exact Nj'|exact Ej'|apply (mentions_lookup w ops ops' dj name S); exact M|].
    destruct Nm as [d1 [E1 [H1 _]]]. rewrite Ed in E1. injection E1 as <-. exists d. split; [exact Ei'|split; [exact H1|]].
    intros k d' L Ek Hk. assert (X : d = d') by (eapply T; [eapply nth_error_In; exact Ei'|eapply nth_error_In; exact Ek|exact H1|exact Hk]). subst d'.
    assert (i' = k); [|lia]. apply (proj1 (NoDup_nth_error ds') N); [apply nth_error_Some; rewrite Ei'; discriminate|rewrite Ei', Ek; reflexivity].
Qed.
Lemma types_same w ds ds' : (forall d, In d ds' -> In d ds) -> types_distinct w ds -> types_distinct w ds'.
Proof. intros I T d d' n Hd Hd'. apply T; apply I; assumption. Qed.
Lemma names_same w ds ds' : (forall d, In d ds' -> In d ds) -> names_distinct w ds -> names_distinct w ds'.
Proof. intros I T r c r' Hr Hr'. apply T; apply I; assumption. Qed.

Section Order.
  Context (w : world) (v v' : list decl).
  Context (S : same_declarations v v') (DI : distinct_identities w v) (DO : distinct_operators w v) (TD : types_distinct w (collected_items w v)).
  Let L : same_lookup (operators w v) (operators w v') := operators_same w v v' S DO.
  Lemma same_code d : generate_code w (operators w v') d = generate_code w (operators w v) d.
  Proof. apply generate_lookup. exact L. Qed.
  Lemma needs_same d : needs w v d -> needs w v' d.
  Proof.
    intros [i [Ei Ni]]. refine (needed_transfer w _ _ _ _ L _ (items_nodup w v') _ i Ni d Ei).
    - intros x Hx. apply (items_same w v v' x S DI). exact Hx.
    - apply (types_same w (collected_items w v)); [|exact TD]. intros x Hx. apply (items_same w v v' x S DI). exact Hx.
  Qed.
  Lemma binding_succeeds : (exists p, bind_all w (collect w v) = Ok p) ->
    (forall d, needs w v' d -> needs w v d) -> exists p, bind_all w (collect w v') = Ok p.
  Proof.
    intros H N. apply bind_all_succeeds_iff in H. destruct H as [H1 H2]. apply bind_all_succeeds_iff. split.
    - intros d Hd. apply H1. apply (items_same w v v' d S DI). exact Hd.
    - intros i d Ni Ed. rewrite same_code. destruct (N d) as [j [Ej Nj]]; [exists i; auto|]. exact (H2 j d Nj Ej).
  Qed.
End Order.
Lemma same_sym v v' : same_declarations v v' -> same_declarations v' v.
Proof. intros S d. symmetry. apply S. Qed.
Lemma identities_sym w v v' : same_declarations v v' -> distinct_identities w v -> distinct_identities w v'.
Proof. intros S D x y Hx Hy. apply D; apply S; assumption. Qed.
Lemma operators_sym w v v' : same_declarations v v' -> distinct_operators w v -> distinct_operators w v'.
Proof. intros S D f g Hf Hg. apply D; apply S; assumption. Qed.

(** ** Both orders *)
(** The state of an item after binding, given by its declaration. *)
Definition state_of (w : world) (v : list decl) (b : binder) : Prop :=
  (needs w v (b_decl b) /\ exists g, generate_code w (operators w v) (b_decl b) = Ok g /\
     b_code b = cb_code g /\ b_prefix b = cb_prefix g /\ b_incl b = cb_incl g /\ b_deps b = cb_deps g) \/
  (~ needs w v (b_decl b) /\ b_code b = [] /\ b_prefix b = [] /\ b_incl b = [] /\ b_deps b = []).
Lemma bound_state w v l log b : bind_all w (collect w v) = Ok (l, log) -> In b l -> state_of w v b /\ In (b_decl b) (collected_items w v).
Proof.
  intros H Hb. apply bind_all_spec in H. cbv zeta in H. destruct H as [D [_ [_ H]]].
  change (items (collect w v)) with (collected_items w v) in *. change (x_ops (collect w v)) with (operators w v) in *.
  split; [|rewrite <- D; apply in_map; exact Hb].
  apply In_nth_error in Hb. destruct Hb as [i Hi]. destruct (H i b Hi) as [H1 [H2 H3]].
  assert (Ed : nth_error (collected_items w v) i = Some (b_decl b)) by (rewrite <- D, nth_error_map, Hi; reflexivity).
  assert (K : needs w v (b_decl b) <-> needed w (operators w v) (collected_items w v) i).
  { split; [|intros N; exists i; auto]. intros [j [Ej Nj]]. assert (i = j) as ->; [|exact Nj].
    apply (proj1 (NoDup_nth_error _) (items_nodup w v)); [apply nth_error_Some; rewrite Ed; discriminate|rewrite Ed, Ej; reflexivity]. }
  unfold state_of. rewrite K. destruct (has_code b) eqn:HC.
  - left. assert (N : needed w (operators w v) (collected_items w v) i) by (apply H1; reflexivity). split; [exact N|exact (H2 N)].
  - right. assert (N : ~ needed w (operators w v) (collected_items w v) i) by (intros N; apply H1 in N; discriminate). split; [exact N|exact (H3 N)].
Qed.
Lemma state_unique w v v' b b' : (forall d, needs w v d <-> needs w v' d) -> (forall d, generate_code w (operators w v') d = generate_code w (operators w v) d) ->
  state_of w v b -> state_of w v' b' -> b_decl b = b_decl b' ->
  b_code b' = b_code b /\ b_prefix b' = b_prefix b /\ b_incl b' = b_incl b /\ b_deps b' = b_deps b.
Proof.
  intros N G [[A [g [Eg [A1 [A2 [A3 A4]]]]]]|[A [A1 [A2 [A3 A4]]]]] [[B [g' [Eg' [B1 [B2 [B3 B4]]]]]]|[B [B1 [B2 [B3 B4]]]]] E; rewrite E in A.
  - rewrite <- E, G, Eg in Eg'. apply Ok_inj in Eg'. subst g'. rewrite A1, A2, A3, A4. auto.
  - exfalso. apply B, N, A.
  - exfalso. apply A, N, B.
  - rewrite A1, A2, A3, A4. auto.
Qed.
Section Both.
  Context (w : world) (v v' : list decl).
  Context (S : same_declarations v v') (DI : distinct_identities w v) (DO : distinct_operators w v) (TD : types_distinct w (collected_items w v)).
  Lemma types_other : types_distinct w (collected_items w v').
  Proof. apply (types_same w (collected_items w v)); [|exact TD]. intros x Hx. apply (items_same w v v' x S DI). exact Hx. Qed.
  Lemma needs_iff d : needs w v d <-> needs w v' d.
  Proof.
    split; [apply (needs_same w v v' S DI DO TD)|].
    apply (needs_same w v' v (same_sym v v' S) (identities_sym w v v' S DI) (operators_sym w v v' S DO) types_other).
  Qed.
  Lemma same_states l log l' log' b b' : bind_all w (collect w v) = Ok (l, log) -> bind_all w (collect w v') = Ok (l', log') ->
    In b l -> In b' l' -> b_decl b = b_decl b' ->
    b_code b' = b_code b /\ b_prefix b' = b_prefix b /\ b_incl b' = b_incl b /\ b_deps b' = b_deps b.
  Proof.
    intros H H' Hb Hb'. apply (state_unique w v v' b b' needs_iff (same_code w v v' S DO)).
    - exact (proj1 (bound_state w v l log b H Hb)).
    - exact (proj1 (bound_state w v' l' log' b' H' Hb')).
  Qed.
  Lemma other_item l log l' log' b : bind_all w (collect w v) = Ok (l, log) -> bind_all w (collect w v') = Ok (l', log') -> In b l ->
    exists b', In b' l' /\ b_decl b = b_decl b'.
  Proof.
    intros H H' Hb. destruct (bound_state w v l log b H Hb) as [_ I]. apply (items_same w v v' _ S DI) in I.
    apply bind_all_spec in H'. cbv zeta in H'. destruct H' as [D' _]. change (items (collect w v')) with (collected_items w v') in D'.
    rewrite <- D' in I. apply in_map_iff in I. destruct I as [b' [E Hb']]. exists b'; auto.
  Qed.
  Lemma depends_other l log l' log' r c : bind_all w (collect w v) = Ok (l, log) -> bind_all w (collect w v') = Ok (l', log') ->
    depends l r c -> depends l' r c.
  Proof.
    intros H H' [b [Hb [D Hc]]]. destruct (other_item l log l' log' b H H' Hb) as [b' [Hb' E]]. exists b'. split; [exact Hb'|].
    destruct (same_states l log l' log' b b' H H' Hb Hb' E) as [_ [_ [_ X]]]. rewrite X, <- E. auto.
  Qed.
End Both.
Section Sorting.
  Context (w : world) (v v' : list decl).
  Context (S : same_declarations v v') (DI : distinct_identities w v) (DO : distinct_operators w v) (TD : types_distinct w (collected_items w v)).
  Context (HA : hierarchy_acyclic w) (ND : names_distinct w (collected_items w v)).
  Lemma sort_iff u l log : names_distinct w (collected_items w u) -> bind_all w (collect w u) = Ok (l, log) ->
    (exists s, sort_binders w l = Ok s) <-> forall c, ~ missing (fun c => is_python_builtin w (r_decl (rec_ w c))) l c.
  Proof.
    intros N H. apply sort_fails_iff; [exact (bound_acyclic w u l log HA H)|].
    intros b r c r' Hb D [b' [Hb' [D' Hc]]] K. apply (N r c r').
    - rewrite <- D. exact (proj2 (bound_state w u l log b H Hb)).
    - rewrite <- D'. exact (proj2 (bound_state w u l log b' H Hb')).
    - apply bound_base_inherits. apply (bound_deps_inherit w u l log H b' r' c Hb' D' Hc).
    - exact K.
  Qed.
  Lemma plan_succeeds : (exists p, plan w v = Ok p) -> exists p, plan w v' = Ok p.
  Proof.
    intros [p P]. unfold plan in P. apply bind_r_Ok in P. destruct P as [[l log] [E P]]. apply bind_r_Ok in P. destruct P as [s [Es _]].
    pose proof (same_sym v v' S) as S'. pose proof (identities_sym w v v' S DI) as DI'. pose proof (operators_sym w v v' S DO) as DO'.
    pose proof (types_other w v v' S DI TD) as TD'.
    destruct (binding_succeeds w v v' S DI DO) as [[l' log'] E']; [exists (l, log); exact E|intros d; apply (needs_iff w v v' S DI DO TD)|].
    assert (ND' : names_distinct w (collected_items w v')).
    { apply (names_same w (collected_items w v)); [|exact ND]. intros x Hx. apply (items_same w v v' x S DI). exact Hx. }
    destruct (proj2 (sort_iff v' l' log' ND' E')) as [s' Es'].
    - intros c [K1 [[r Hr] K3]]. apply (proj1 (sort_iff v l log ND E) (ex_intro _ s Es) c). split; [exact K1|split].
      + exists r. exact (depends_other w v' v S' DI' DO' TD' l' log' l log r c E' E Hr).
      + intros b Hb X. destruct (other_item w v v' S DI l log l' log' b E E' Hb) as [b' [Hb' Eq]]. apply (K3 b' Hb'). rewrite <- Eq. exact X.
    - unfold plan. rewrite E'. cbn [bind_r]. rewrite Es'. cbn [bind_r]. eexists; reflexivity.
  Qed.
End Sorting.
