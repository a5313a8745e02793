(** Proofs about collection and binding (Context.v). *)
From Coq Require Import Ascii String Bool Arith NArith Sorted Lia Permutation.
From Coq Require Import List.
From Verif Require Import Str StrFacts SpecUtil Util UtilFacts Config Ast Types Func Enum Includes Class Context SpecContext.
Import ListNotations.

Lemma bind_r_Ok {A B} (x : result A) (f : A -> result B) b : bind_r x f = Ok b -> exists a, x = Ok a /\ f a = Ok b.
Proof. destruct x; cbn; intros H; try discriminate; eauto. Qed.
Lemma bind_r_Diverges {A B} (x : result A) (f : A -> result B) :
  bind_r x f = Diverges -> x = Diverges \/ exists a, x = Ok a /\ f a = Diverges.
Proof. destruct x; cbn; intros H; try discriminate; eauto. Qed.
Ltac inv_ok H :=
  let a := fresh "a" in let H1 := fresh H in
  apply bind_r_Ok in H; destruct H as [a [H1 H]].

(** ** Collection *)

Lemma sublist_snoc {A} (a b : list A) x : sublist a b -> sublist (a ++ [x]) (b ++ [x]).
Proof. induction 1; cbn; [apply SL_keep, SL_nil| |]; constructor; assumption. Qed.
Lemma sublist_skip_snoc {A} (a b : list A) x : sublist a b -> sublist a (b ++ [x]).
Proof. induction 1; cbn; [apply SL_skip, SL_nil| |]; constructor; assumption. Qed.
Lemma sublist_In {A} (a b : list A) x : sublist a b -> In x a -> In x b.
Proof. induction 1; cbn; intuition. Qed.

Definition items (c : context) : list decl := map b_decl (x_binders c).

Lemma collectible_dec w d : {collectible w d} + {~ collectible w d}.
Proof.
  destruct d as [f|r|e]; cbn.
  - destruct (f_method (fun_ w f)); [right; intros [H _]; discriminate|].
    destruct (is_bindable_fun w (fun_ w f)); [left; auto|right; intros [_ H]; discriminate].
  - destruct (n_member (r_decl (rec_ w r))); [right; intros [H _]; discriminate|].
    destruct (is_bindable_rec w r); [left; auto|right; intros [_ H]; discriminate].
  - destruct (n_member (e_decl (enum_ w e))); [right; discriminate|left; reflexivity].
Qed.

(** What is visible in a context after a sequence of visits. *)
Record collected (w : world) (l : list decl) (c : context) : Prop := {
  col_new : x_binders c = map new_binder (items c);
  col_ids : forall i, In i (x_ids c) <-> In i (map (decl_id w) (items c));
  col_nodup : NoDup (map (decl_id w) (items c));
  col_sub : sublist (items c) l;
  col_first : forall d, In d (items c) <-> first_visit w l d;
  col_types : forall name i, lookup name (x_types c) = Some i <-> named_item w (items c) name i
}.

Lemma visit_cases w d c :
  (collectible w d /\ visit w d c = add w d c) \/
  (~ collectible w d /\ (visit w d c = c \/ exists f, visit w d c = add_insertion_operator w f c)).
Proof.
  destruct d as [f|r|e]; cbn [visit collectible].
  - destruct (f_method (fun_ w f)); [right; split; [intros [H _]; discriminate|auto]|].
    destruct (is_bindable_fun w (fun_ w f)); [left; auto|].
    right; split; [intros [_ H]; discriminate|].
    destruct (f_operator (fun_ w f) && _); [right; eauto|auto].
  - destruct (n_member (r_decl (rec_ w r))); [right; split; [intros [H _]; discriminate|auto]|].
    destruct (is_bindable_rec w r); [left; auto|right; split; [intros [_ H]; discriminate|auto]].
  - destruct (n_member (e_decl (enum_ w e))); [right; split; [discriminate|auto]|left; auto].
Qed.

Lemma first_visit_snoc w l d x : first_visit w (l ++ [x]) d <->
  first_visit w l d \/ (d = x /\ collectible w x /\ forall d', In d' l -> collectible w d' -> decl_id w d' <> decl_id w x).
Proof.
  split.
  - intros [b [a [E [C F]]]]. destruct a as [|y a] using rev_ind.
    + apply app_inj_tail in E; destruct E as [-> ->]. right; auto.
    + clear IHa. rewrite app_comm_cons, app_assoc in E. apply app_inj_tail in E; destruct E as [-> ->].
      left; exists b, a; auto.
  - intros [[b [a [-> [C F]]]]|[-> [C F]]].
    + exists b, (a ++ [x]). rewrite <- app_assoc; auto.
    + exists l, []; auto.
Qed.

Lemma first_exists w l d : In d l -> collectible w d ->
  exists d', first_visit w l d' /\ decl_id w d' = decl_id w d.
Proof.
  intros H C. induction l as [|x l IH]; [destruct H|].
  destruct (collectible_dec w x) as [Cx|Nx]; [destruct (str_eq_dec (decl_id w x) (decl_id w d)) as [E|N]|].
  - exists x; split; [|assumption]. exists [], l; split; [reflexivity|split; [assumption|intros ? []]].
  - destruct H as [->|H]; [congruence|].
    destruct (IH H) as [d' [[b [a [-> [C' F]]]] E]].
    exists d'; split; [|assumption]. exists (x :: b), a; split; [reflexivity|split; [assumption|]].
    intros y [<-|Hy] Cy; [congruence|auto].
  - destruct H as [->|H]; [tauto|].
    destruct (IH H) as [d' [[b [a [-> [C' F]]]] E]].
    exists d'; split; [|assumption]. exists (x :: b), a; split; [reflexivity|split; [assumption|]].
    intros y [<-|Hy] Cy; [tauto|auto].
Qed.

Lemma nth_error_snoc {A} (l : list A) x i d :
  nth_error (l ++ [x]) i = Some d <-> nth_error l i = Some d \/ (i = length l /\ d = x).
Proof.
  destruct (lt_eq_lt_dec i (length l)) as [[H|H]|H].
  - rewrite nth_error_app1 by assumption. split; [auto|intros [?|[? _]]; [assumption|lia]].
  - subst i. rewrite nth_error_app2, Nat.sub_diag by lia. cbn. split.
    + intros [= ->]; auto.
    + intros [E|[_ ->]]; [|reflexivity]. assert (length l < length l) by (apply nth_error_Some; congruence); lia.
  - split.
    + intros E. assert (i < length (l ++ [x])) by (apply nth_error_Some; congruence).
      rewrite app_length in *; cbn in *; lia.
    + intros [E|[E _]]; [|lia]. assert (i < length l) by (apply nth_error_Some; congruence); lia.
Qed.

Lemma named_item_snoc w l x name i : named_item w (l ++ [x]) name i <->
  (In name (type_names w x) /\ i = length l) \/ (~ In name (type_names w x) /\ named_item w l name i).
Proof.
  split.
  - intros [d [E [N F]]]. apply nth_error_snoc in E. destruct E as [E|[-> ->]]; [|auto].
    assert (i < length l) by (apply nth_error_Some; congruence).
    right; split.
    + apply (F (length l)); [assumption|]. apply nth_error_snoc; auto.
    + exists d; split; [assumption|split; [assumption|]].
      intros j d' L E'. apply (F j); [assumption|]. apply nth_error_snoc; auto.
  - intros [[N ->]|[N [d [E [N' F]]]]].
    + exists x; split; [apply nth_error_snoc; auto|split; [assumption|]].
      intros j d' L E'. apply nth_error_snoc in E'. destruct E' as [E'|[-> _]]; [|lia].
      assert (j < length l) by (apply nth_error_Some; congruence); lia.
    + exists d; split; [apply nth_error_snoc; auto|split; [assumption|]].
      intros j d' L E'. apply nth_error_snoc in E'. destruct E' as [E'|[_ ->]]; [eauto|assumption].
Qed.

Lemma lookup_type_names w d n (m : list (str * nat)) name :
  lookup name (map (fun k => (k, n)) (type_names w d) ++ m)
  = if mem name (type_names w d) then Some n else lookup name m.
Proof.
  induction (type_names w d) as [|k l IH]; cbn; [reflexivity|].
  destruct (streqb name k); [reflexivity|]. apply IH.
Qed.

Lemma collected_visit w l c d : collected w l c -> collected w (l ++ [d]) (visit w d c).
Proof.
  intros [Hnew Hids Hnd Hsub Hfirst Htypes].
  destruct (visit_cases w d c) as [[C ->]|[N Hc]].
  - unfold add. destruct (mem (decl_id w d) (x_ids c)) eqn:M.
    + apply mem_In, Hids in M. constructor; auto; [apply sublist_skip_snoc; assumption|].
      intros d'. rewrite first_visit_snoc, Hfirst. split; [auto|].
      intros [?|[-> [_ F]]]; [assumption|]. exfalso.
      apply in_map_iff in M. destruct M as [y [E Hy]]. pose proof (sublist_In _ _ _ Hsub Hy) as Hl.
      apply Hfirst in Hy. destruct Hy as [b [a [-> [Cy _]]]]. exact (F y Hl Cy E).
    + apply mem_false in M. rewrite Hids in M.
      assert (EI : items (mkctx (x_binders c ++ [new_binder d])
                 (map (fun n => (n, length (x_binders c))) (type_names w d) ++ x_types c)
                 (decl_id w d :: x_ids c) (x_ops c)) = items c ++ [d]) by (unfold items; cbn; rewrite map_app; reflexivity).
      constructor; rewrite ?EI; cbn [x_binders x_ids x_types].
      * rewrite map_app, <- Hnew. reflexivity.
      * intros i. rewrite map_app, in_app_iff. cbn. rewrite Hids. tauto.
      * rewrite map_app. cbn.
        apply Permutation_NoDup with (l := decl_id w d :: map (decl_id w) (items c)).
        -- apply Permutation_cons_append.
        -- constructor; assumption.
      * apply sublist_snoc; assumption.
      * intros d'. rewrite in_app_iff, first_visit_snoc, Hfirst. cbn. split.
        -- intros [?|[<-|[]]]; [auto|]. right; split; [reflexivity|split; [assumption|]].
           intros y Hy Cy E. apply M. destruct (first_exists w l y Hy Cy) as [z [Fz Ez]].
           apply in_map_iff. exists z; split; [congruence|apply Hfirst; assumption].
        -- intros [?|[-> _]]; auto.
      * intros name i. rewrite lookup_type_names, named_item_snoc.
        assert (EL : length (x_binders c) = length (items c)) by (unfold items; rewrite map_length; reflexivity).
        destruct (mem name (type_names w d)) eqn:Mn.
        -- apply mem_In in Mn. rewrite EL. split; [intros [= <-]; auto|intros [[_ ->]|[? _]]; [reflexivity|tauto]].
        -- apply mem_false in Mn. rewrite Htypes. tauto.
  - assert (S : sublist (items c) (l ++ [d])) by (apply sublist_skip_snoc; assumption).
    assert (F : forall d', In d' (items c) <-> first_visit w (l ++ [d]) d').
    { intros d'. rewrite first_visit_snoc, Hfirst. split; [auto|intros [?|[-> [? _]]]; tauto]. }
    destruct Hc as [->|[f ->]]; constructor; auto.
Qed.

Lemma collect_snoc w l d : collect w (l ++ [d]) = visit w d (collect w l).
Proof. unfold collect. rewrite fold_left_app. reflexivity. Qed.
Lemma collected_all w l : collected w l (collect w l).
Proof.
  induction l as [|d l IH] using rev_ind; [|rewrite collect_snoc; apply collected_visit; assumption].
  constructor; cbn; try tauto.
  - constructor.
  - constructor.
  - intros d; split; [intros []|intros [[|? ?] [? [E _]]]; discriminate].
  - intros name i; split; [discriminate|]. intros [d [E _]]. destruct i; discriminate.
Qed.

(** ** Code is never empty *)

Lemma split_nonempty c (s : str) : s <> [] -> split s [c] <> [].
Proof.
  intros N E. destruct (split_pieces c s) as [t [r [Es [_ Ep]]]]. rewrite E in Ep.
  destruct t as [|x t]; [|discriminate]. destruct r; [|discriminate]. cbn in Es. congruence.
Qed.
Lemma indent_nonempty s ind : s <> [] -> indent s ind <> [].
Proof.
  intros N. rewrite indent_concat. pose proof (split_nonempty nl s N).
  destruct (split s [nl]) as [|x l]; [congruence|]. cbn.
  destruct x; cbn; [discriminate|]. destruct ind; discriminate.
Qed.

Ltac inv_all H :=
  repeat match type of H with
  | bind_r _ _ = Ok _ => let a := fresh "a" in let H1 := fresh "E" in apply bind_r_Ok in H; destruct H as [a [H1 H]]
  | (let (_, _) := ?a in _) = Ok _ => destruct a
  | (match ?a with pair _ _ => _ end) = Ok _ => destruct a
  end.

Lemma Ok_inj {A} (a b : A) : Ok a = Ok b -> a = b.
Proof. intros H; injection H; auto. Qed.
Lemma app_cons_neq {A} (x : A) l r : (x :: l) ++ r <> [].
Proof. discriminate. Qed.
Lemma brace_neq (s : str) : $"{ " ++ s <> [].
Proof. discriminate. Qed.

Lemma bind_class_code fuel w ops r g : bind_class fuel w ops r = Ok g ->
  is_python_builtin w (r_decl (rec_ w r)) = false -> cb_code g <> [].
Proof.
  intros H B. destruct fuel; cbn [bind_class] in H; rewrite B in H;
  (destruct (lookup _ (maps (wcfg w) Config.binders)); [apply Ok_inj in H; subst g; unfold bind_with; cbn [cb_code]; apply app_cons_neq|]);
  inv_all H; apply Ok_inj in H; subst g; cbn [cb_code]; apply indent_nonempty, brace_neq.
Qed.
Lemma generate_code_nonempty w ops d g : generate_code w ops d = Ok g ->
  is_python_builtin w (named_of (wenv w) d) = false -> cb_code g <> [].
Proof.
  destruct d; cbn [generate_code named_of]; intros H B.
  - inv_all H. apply Ok_inj in H; subst g; cbn [cb_code]. unfold bind_fun in E. inv_all E.
    apply Ok_inj, pair_equal_spec in E. destruct E as [<- _]. apply app_cons_neq.
  - eapply bind_class_code; eassumption.
  - inv_all H. apply Ok_inj in H; subst g; cbn [cb_code]. unfold bind_enum_binder in E. inv_all E.
    apply Ok_inj in E. subst a. apply app_cons_neq.
Qed.

(** ** The binding phase *)

Lemma nth_update {A} (f : A -> A) l i j :
  nth_error (update_nth i f l) j = if i =? j then option_map f (nth_error l j) else nth_error l j.
Proof.
  revert i j; induction l as [|x l IH]; intros [|i] [|j]; cbn; try reflexivity; [|apply IH].
  destruct (i =? j); reflexivity.
Qed.
Lemma update_nth_length {A} (f : A -> A) l i : length (update_nth i f l) = length l.
Proof. revert i; induction l as [|x l IH]; intros [|i]; cbn; auto. Qed.

Lemma map_r_Ok {A B} (f : A -> result B) l l' : map_r f l = Ok l' ->
  length l' = length l /\ forall i x, nth_error l i = Some x -> exists y, nth_error l' i = Some y /\ f x = Ok y.
Proof.
  revert l'; induction l as [|x l IH]; cbn; intros l' H.
  - injection H as <-; split; [reflexivity|intros [|i] y E; discriminate].
  - inv_all H. injection H as <-. destruct (IH _ E0) as [L N]. split; [cbn; auto|].
    intros [|i] y; cbn; [intros [= <-]; eauto|apply N].
Qed.

(** The configuration asks for [d] by itself. *)
Definition config_wants (w : world) (d : decl) : Prop :=
  can_bind w d = true /\ skip_decl w d = Ok false /\ n_system (named_of (wenv w) d) = false /\ bind_decl w d = Ok true.

Lemma bindable_can w b : bindable w b = true -> can_bind w (b_decl b) = true.
Proof. unfold bindable, can_bind. destruct (b_decl b); auto. intros H; apply andb_prop in H; tauto. Qed.
Lemma can_bindable w b : can_bind w (b_decl b) = true -> b_skip_req b = false -> bindable w b = true.
Proof. unfold bindable, can_bind. destruct (b_decl b); auto. intros -> ->; reflexivity. Qed.

Lemma initial_spec w d b : initial_request w (new_binder d) = Ok b ->
  b_decl b = d /\ b_code b = [] /\
  (can_bind w d = true -> skip_decl w d = Ok (b_skip_req b)) /\
  (b_bind_req b = true <-> config_wants w d).
Proof.
  unfold initial_request. intros H.
  assert (EB : bindable w (new_binder d) = can_bind w d) by (destruct d; cbn; rewrite ?andb_true_r; reflexivity).
  rewrite EB in H. unfold config_wants. destruct (can_bind w d).
  - cbn [b_decl new_binder] in H. inv_all H. destruct a.
    + injection H as <-; cbn. rewrite E. repeat split; auto; try discriminate. intros [_ [? _]]; discriminate.
    + unfold named_decl in H; cbn [b_decl new_binder] in H. destruct (n_system _).
      * injection H as <-; cbn. rewrite E. repeat split; auto; try discriminate. intros [_ [_ [? _]]]; discriminate.
      * inv_all H. injection H as <-. rewrite E, E0. destruct a; cbn; repeat split; auto; try discriminate.
        intros [_ [_ [_ ?]]]; discriminate.
  - injection H as <-; cbn. repeat split; auto; try discriminate. intros [? _]; discriminate.
Qed.

Section Binding.
  Context (w : world) (ops : list (str * nat)) (types : list (str * nat)) (ds : list decl).
  Context (Htypes : forall name i, lookup name types = Some i <-> named_item w ds name i).

  Definition builtin_decl (d : decl) : bool := is_python_builtin w (named_of (wenv w) d).

  Record item_ok (i : nat) (d : decl) (b : binder) (log : list nat) : Prop := {
    io_decl : b_decl b = d;
    io_skip : can_bind w d = true -> skip_decl w d = Ok (b_skip_req b);
    io_req : b_bind_req b = true -> builtin_decl d = false -> needed w ops ds i;
    io_cfg : config_wants w d -> b_bind_req b = true;
    io_log : has_code b = true <-> In i log;
    io_code : In i log -> needed w ops ds i /\
      exists g, generate_code w ops d = Ok g /\ b_code b = cb_code g /\ b_prefix b = cb_prefix g /\ b_incl b = cb_incl g /\ b_deps b = cb_deps g;
    io_clean : ~ In i log -> b_prefix b = [] /\ b_incl b = [] /\ b_deps b = []
  }.
  Definition requested_at (l : list binder) (k : nat) : Prop :=
    exists b, nth_error l k = Some b /\ (b_bind_req b = true \/ has_code b = true).
  Record inv (l : list binder) (log : list nat) : Prop := {
    inv_len : length l = length ds;
    inv_item : forall i d, nth_error ds i = Some d -> exists b, nth_error l i = Some b /\ item_ok i d b log;
    inv_nodup : NoDup log;
    inv_range : forall i, In i log -> i < length ds;
    inv_reqs : forall j dj name k dk, In j log -> nth_error ds j = Some dj -> mentions w ops dj name ->
                 named_item w ds name k -> nth_error ds k = Some dk -> eligible w dk -> requested_at l k
  }.

  Lemma nth_same_length {A B} (l : list A) (l' : list B) i x : length l = length l' ->
    nth_error l i = Some x -> exists y, nth_error l' i = Some y.
  Proof.
    intros E H. destruct (nth_error l' i) eqn:N; [eauto|]. apply nth_error_None in N.
    assert (i < length l) by (apply nth_error_Some; congruence). lia.
  Qed.

  Lemma initial_inv l : map_r (initial_request w) (map new_binder ds) = Ok l -> inv l [].
  Proof.
    intros H. apply map_r_Ok in H. destruct H as [L N]. rewrite map_length in L. constructor; auto; [|constructor|intros ? []|intros ? ? ? ? ? []].
    intros i d E. destruct (N i (new_binder d)) as [b [Eb Ib]]; [rewrite nth_error_map, E; reflexivity|].
    exists b; split; [assumption|]. assert (Ib' := Ib). apply initial_spec in Ib. destruct Ib as [E1 [E2 [E3 E4]]].
    constructor; auto.
    - intros R NB. apply E4 in R. destruct R as [R1 [R2 [R3 R4]]]. eapply by_config; eauto. split; auto.
    - apply E4.
    - unfold has_code; rewrite E2; cbn. intuition discriminate.
    - intros [].
    - intros _. unfold initial_request in Ib'. destruct (bindable w (new_binder d)); [|injection Ib' as <-; auto].
      inv_all Ib'. destruct a; [injection Ib' as <-; auto|]. destruct (n_system _); [injection Ib' as <-; auto|].
      inv_all Ib'. injection Ib' as <-. destruct a; auto.
  Qed.

  Lemma request_nth name l k b : nth_error l k = Some b ->
    exists b', nth_error (request w types name l) k = Some b' /\
      (b' = b \/ (b' = set_bind b /\ lookup name types = Some k /\ is_binded w b = false /\ bindable w b = true /\ b_skip_req b = false /\ builtin w b = false)).
  Proof.
    intros E. unfold request. destruct (lookup name types) as [i|] eqn:Lk; [|eauto].
    rewrite nth_update, E. destruct (i =? k) eqn:Ik; [|eauto]. apply Nat.eqb_eq in Ik; subst i. cbn.
    destruct (is_binded w b) eqn:E1; cbn; [eauto|]. destruct (bindable w b) eqn:E2; cbn; [|eauto].
    destruct (b_skip_req b) eqn:E3; cbn; [eauto|]. destruct (builtin w b) eqn:E4; cbn; [eauto|].
    eexists; split; [reflexivity|]. right; repeat split; assumption.
  Qed.
  Lemma request_length name l : length (request w types name l) = length l.
  Proof. unfold request. destruct (lookup name types); [apply update_nth_length|reflexivity]. Qed.

  Lemma set_bind_ok i d b log : item_ok i d b log -> needed w ops ds i -> item_ok i d (set_bind b) log.
  Proof. intros [H1 H2 H3 H4 H5 H6 H7] N. constructor; auto. Qed.

  Lemma request_inv name l log j dj : inv l log -> needed w ops ds j -> nth_error ds j = Some dj -> mentions w ops dj name ->
    inv (request w types name l) log /\
    (forall k, requested_at l k -> requested_at (request w types name l) k) /\
    (forall k dk, named_item w ds name k -> nth_error ds k = Some dk -> eligible w dk -> requested_at (request w types name l) k).
  Proof.
    intros I Nj Ej M.
    assert (Mono : forall k, requested_at l k -> requested_at (request w types name l) k).
    { intros k [b [Eb Hb]]. destruct (request_nth name l k b Eb) as [b' [Eb' [->|[-> _]]]]; eexists; (split; [eassumption|]); [assumption|left; reflexivity]. }
    split; [|split; [assumption|]].
    - constructor; [rewrite request_length; apply I| |apply I|apply I|].
      + intros i d E. destruct (inv_item _ _ I i d E) as [b [Eb Ob]].
        destruct (request_nth name l i b Eb) as [b' [Eb' [->|[-> [Lk [_ [B1 [B2 B3]]]]]]]]; eexists; split; try eassumption.
        apply set_bind_ok; [assumption|]. pose proof (io_decl _ _ _ _ Ob) as <-.
        apply bindable_can in B1. eapply by_mention; eauto; [|apply Htypes; assumption].
        split; [assumption|split; [|exact B3]]. rewrite (io_skip _ _ _ _ Ob B1), B2. reflexivity.
      + intros. apply Mono. eapply (inv_reqs _ _ I); eauto.
    - intros k dk Nk Ek [El1 [El2 El3]]. destruct (inv_item _ _ I k dk Ek) as [b [Eb Ob]].
      pose proof (io_decl _ _ _ _ Ob) as Hd. subst dk.
      unfold request. rewrite (proj2 (Htypes name k) Nk). eexists. rewrite nth_update, Eb, Nat.eqb_refl.
      split; [reflexivity|].
      assert (SB : b_skip_req b = false) by (pose proof (io_skip _ _ _ _ Ob El1); congruence).
      assert (BB : builtin w b = false) by exact El3.
      rewrite (can_bindable w b El1 SB), SB, BB. unfold is_binded. rewrite BB. destruct (has_code b) eqn:HC; cbn; auto.
  Qed.

  Lemma requests_inv names l log j dj : inv l log -> needed w ops ds j -> nth_error ds j = Some dj ->
    (forall n, In n names -> mentions w ops dj n) ->
    let l' := fold_left (fun l n => request w types n l) names l in
    inv l' log /\
    (forall k, requested_at l k -> requested_at l' k) /\
    (forall n k dk, In n names -> named_item w ds n k -> nth_error ds k = Some dk -> eligible w dk -> requested_at l' k) /\
    (forall k b, nth_error l k = Some b -> exists b', nth_error l' k = Some b' /\ has_code b' = has_code b).
  Proof.
    intros I Nj Ej M. revert l I. induction names as [|n names IH]; intros l I; cbn.
    - split; [assumption|split; [auto|split; [intros ? ? ? []|eauto]]].
    - destruct (request_inv n l log j dj I Nj Ej) as [I1 [M1 P1]]; [apply M; left; reflexivity|].
      destruct (IH (fun n' H => M n' (or_intror H)) _ I1) as [I2 [M2 [P2 C2]]].
      split; [assumption|split; [auto|split]].
      + intros n' k dk [<-|H]; eauto.
      + intros k b E. destruct (request_nth n l k b E) as [b' [E' Hb]].
        destruct (C2 k b' E') as [b'' [E'' C'']]. exists b''; split; [assumption|]. rewrite C''.
        destruct Hb as [->|[-> _]]; reflexivity.
  Qed.

  Lemma needed_nth i : needed w ops ds i -> exists d, nth_error ds i = Some d /\ eligible w d.
  Proof. destruct 1; eauto. Qed.

  Lemma bind_step i b g l log : inv l log -> nth_error l i = Some b -> wants_binding w b = true ->
    generate_code w ops (b_decl b) = Ok g ->
    let l1 := fold_left (fun l n => request w types n l) (cb_req g) l in
    inv (update_nth i (set_code g) l1) (log ++ [i]) /\ ~ In i log.
  Proof.
    intros I Eb W G l1.
    apply andb_prop in W; destruct W as [W Wr]. apply andb_prop in W; destruct W as [Wb Wc].
    unfold is_binded in Wb. apply negb_true_iff, orb_false_iff in Wb. destruct Wb as [Wh WB].
    destruct (nth_same_length l ds i b (inv_len _ _ I) Eb) as [d Ed].
    destruct (inv_item _ _ I i d Ed) as [b' [Eb' Ob]]. assert (b' = b) by congruence; subst b'.
    pose proof (io_decl _ _ _ _ Ob) as Hd. subst d.
    assert (Ni : needed w ops ds i) by (apply (io_req _ _ _ _ Ob); assumption).
    assert (NL : ~ In i log) by (rewrite <- (io_log _ _ _ _ Ob); congruence).
    destruct (requests_inv (cb_req g) l log i (b_decl b) I Ni Ed) as [I1 [M1 [P1 C1]]]; [intros n Hn; exists g; auto|].
    fold l1 in I1, M1, P1, C1. split; [|assumption].
    constructor.
    - rewrite update_nth_length. apply I1.
    - intros k d E. destruct (inv_item _ _ I1 k d E) as [bk [Ek Ok_]]. rewrite nth_update, Ek.
      destruct (i =? k) eqn:Ik.
      + apply Nat.eqb_eq in Ik; subst k. cbn. eexists; split; [reflexivity|].
        assert (d = b_decl b) by congruence; subst d.
        destruct Ok_ as [H1 H2 H3 H4 H5 H6 H7]. constructor; auto.
        * unfold has_code, set_code; cbn. pose proof (generate_code_nonempty _ _ _ _ G WB).
          rewrite in_app_iff; cbn. destruct (cb_code g); [congruence|]. intuition.
        * intros _. split; [assumption|]. exists g; repeat split; auto.
        * intros N. exfalso; apply N. rewrite in_app_iff; cbn; auto.
      + apply Nat.eqb_neq in Ik. eexists; split; [reflexivity|].
        assert (Eq : In k (log ++ [i]) <-> In k log) by (rewrite in_app_iff; cbn; intuition).
        destruct Ok_ as [H1 H2 H3 H4 H5 H6 H7]. constructor; auto; [rewrite Eq; assumption|rewrite Eq; assumption|rewrite Eq; assumption].
    - apply Permutation_NoDup with (l := i :: log); [apply Permutation_cons_append|]. constructor; [assumption|apply I].
    - intros k. rewrite in_app_iff; cbn. intros [H|[<-|[]]]; [apply (inv_range _ _ I); assumption|].
      apply nth_error_Some; congruence.
    - intros j dj name k dk Hj Ej M Nk Ek El.
      assert (R : requested_at l1 k).
      { rewrite in_app_iff in Hj; cbn in Hj. destruct Hj as [Hj|[<-|[]]]; [eapply (inv_reqs _ _ I1); eauto|].
        assert (dj = b_decl b) by congruence; subst dj. destruct M as [g' [G' Hn]].
        assert (g' = g) by congruence; subst g'. eapply P1; eauto. }
      destruct R as [bk [Ebk Hbk]]. unfold requested_at. rewrite nth_update, Ebk. destruct (i =? k) eqn:Ik.
      + eexists; split; [reflexivity|]. right. unfold has_code, set_code; cbn.
        pose proof (generate_code_nonempty _ _ _ _ G WB). destruct (cb_code g); [congruence|reflexivity].
      + eauto.
  Qed.

  Lemma bind_pass_inv c todo : x_types c = types -> x_ops c = ops -> forall l log l' log',
    inv l log -> bind_pass w c todo l log = Ok (l', log') ->
    inv l' log' /\ (exists more, log' = log ++ more) /\
    (log' = log -> l' = l /\ forall i b, In i todo -> (forall j, In j todo -> j < length l) -> nth_error l i = Some b -> wants_binding w b = false).
  Proof.
    intros Ht Ho. induction todo as [|i todo IH]; cbn; intros l log l' log' I H.
    - injection H as <- <-. split; [assumption|split; [exists []; rewrite app_nil_r; reflexivity|]]. intros _; split; [reflexivity|intros ? ? []].
    - destruct (nth_error l i) as [b|] eqn:Eb.
      + destruct (wants_binding w b) eqn:W.
        * inv_all H. rewrite Ho in E. rewrite Ht in H. destruct (bind_step i b a l log I Eb W E) as [I1 _].
          destruct (IH _ _ _ _ I1 H) as [I2 [[more ->] _]].
          split; [assumption|split; [exists (i :: more); rewrite <- app_assoc; reflexivity|]].
          intros X. exfalso. apply (f_equal (@length nat)) in X. rewrite !app_length in X; cbn in X; lia.
        * destruct (IH _ _ _ _ I H) as [I2 [P2 Q2]]. split; [assumption|split; [assumption|]].
          intros X. destruct (Q2 X) as [-> Q]. split; [reflexivity|]. intros k bk [<-|Hk] R Ek; [congruence|].
          eapply Q; eauto.
      + injection H as <- <-. split; [assumption|split; [exists []; rewrite app_nil_r; reflexivity|]].
        intros _; split; [reflexivity|]. intros k bk _ R _. exfalso.
        apply nth_error_None in Eb. specialize (R i (or_introl eq_refl)). lia.
  Qed.

  Lemma bind_loop_inv c fuel : x_types c = types -> x_ops c = ops -> forall l log l' log',
    inv l log -> bind_loop fuel w c l log = Ok (l', log') ->
    inv l' log' /\ forall i b, nth_error l' i = Some b -> wants_binding w b = false.
  Proof.
    intros Ht Ho. induction fuel as [|fuel IH]; cbn; intros l log l' log' I H; [discriminate|].
    inv_all H. destruct (bind_pass_inv c _ Ht Ho _ _ _ _ I E) as [I1 [[more ->] Q]].
    destruct (length (log ++ more) =? length log) eqn:L.
    - injection H as <- <-. split; [assumption|]. apply Nat.eqb_eq in L. rewrite app_length in L.
      assert (more = []) as -> by (destruct more; [reflexivity|cbn in L; lia]).
      rewrite app_nil_r in Q. destruct (Q eq_refl) as [-> Q']. intros i b Eb. eapply Q'; [|intros j Hj; apply in_seq in Hj; lia|exact Eb].
      apply in_seq. assert (i < length l) by (apply nth_error_Some; congruence). lia.
    - eapply IH; eassumption.
  Qed.

  Lemma bind_pass_total c todo : x_types c = types -> x_ops c = ops -> forall l log, inv l log ->
    bind_pass w c todo l log = Diverges -> exists d, In d ds /\ generate_code w ops d = Diverges.
  Proof.
    intros Ht Ho. induction todo as [|i todo IH]; cbn; intros l log I H; [discriminate|].
    destruct (nth_error l i) as [b|] eqn:Eb; [|discriminate]. destruct (wants_binding w b) eqn:W; [|eauto].
    apply bind_r_Diverges in H. rewrite Ho, Ht in H. destruct H as [H|[g [E H]]].
    - destruct (nth_same_length l ds i b (inv_len _ _ I) Eb) as [d Ed].
      destruct (inv_item _ _ I i d Ed) as [b' [Eb' Ob]]. assert (b' = b) by congruence; subst b'.
      rewrite (io_decl _ _ _ _ Ob) in H. exists d; split; [eapply nth_error_In; eassumption|assumption].
    - eapply IH; [|eassumption]. apply (bind_step i b g l log I Eb W E).
  Qed.
  (** The loop needs at most one pass per item, and one more to notice that
      nothing is left. *)
  Lemma bind_loop_total c fuel : x_types c = types -> x_ops c = ops -> forall l log,
    inv l log -> length ds < fuel + length log -> bind_loop fuel w c l log = Diverges ->
    exists d, In d ds /\ generate_code w ops d = Diverges.
  Proof.
    intros Ht Ho. induction fuel as [|fuel IH]; cbn; intros l log I L H.
    - exfalso. assert (length log <= length ds); [|lia].
      rewrite <- (seq_length (length ds) 0). apply NoDup_incl_length; [apply I|].
      intros i Hi. apply in_seq. pose proof (inv_range _ _ I i Hi). lia.
    - apply bind_r_Diverges in H. destruct H as [H|[[l1 log1] [E H]]].
      + eapply bind_pass_total; eassumption.
      + destruct (bind_pass_inv c _ Ht Ho _ _ _ _ I E) as [I1 [[more ->] _]].
        destruct (length (log ++ more) =? length log) eqn:El; [discriminate|].
        apply (IH _ _ I1); [|assumption]. apply Nat.eqb_neq in El. rewrite app_length in *. lia.
  Qed.
End Binding.

Lemma nth_error_ext {A} (l l' : list A) : length l = length l' -> (forall i, nth_error l i = nth_error l' i) -> l = l'.
Proof.
  revert l'; induction l as [|x l IH]; intros [|y l'] L H; try discriminate; [reflexivity|].
  injection (H 0) as <-. f_equal. apply IH; [cbn in L; lia|]. intros i; apply (H (S i)).
Qed.

Lemma bind_all_spec w visits l log :
  bind_all w (collect w visits) = Ok (l, log) ->
  let ds := items (collect w visits) in let ops := x_ops (collect w visits) in
  map b_decl l = ds /\ NoDup log /\
  (forall i, In i log <-> needed w ops ds i) /\
  (forall i b, nth_error l i = Some b ->
     (has_code b = true <-> needed w ops ds i) /\
     (needed w ops ds i -> exists g, generate_code w ops (b_decl b) = Ok g /\ b_code b = cb_code g /\ b_prefix b = cb_prefix g /\ b_incl b = cb_incl g /\ b_deps b = cb_deps g) /\
     (~ needed w ops ds i -> b_code b = [] /\ b_prefix b = [] /\ b_incl b = [] /\ b_deps b = [])).
Proof.
  intros H ds ops. set (c := collect w visits) in *.
  pose proof (collected_all w visits) as C. fold c in C.
  unfold bind_all in H. apply bind_r_Ok in H. destruct H as [l0 [H0 H]].
  rewrite (col_new _ _ _ C) in H0. fold ds in H0.
  pose proof (initial_inv w ops ds l0 H0) as I0.
  destruct (bind_loop_inv w ops (x_types c) ds (col_types _ _ _ C) c _ eq_refl eq_refl _ _ _ _ I0 H) as [I Q].
  assert (Lg : forall i, In i log <-> needed w ops ds i).
  { intros i; split.
    - intros Hi. destruct (nth_error ds i) as [d|] eqn:Ed; [|apply nth_error_None in Ed; pose proof (inv_range _ _ _ _ _ I i Hi); lia].
      destruct (inv_item _ _ _ _ _ I i d Ed) as [b [Eb Ob]]. apply (io_code _ _ _ _ _ _ _ Ob Hi).
    - assert (Fin : forall i d b, nth_error ds i = Some d -> nth_error l i = Some b -> item_ok w ops ds i d b log ->
                    eligible w d -> b_bind_req b = true -> In i log).
      { intros k d b Ed Eb Ob [E1 [E2 E3]] R. apply (io_log _ _ _ _ _ _ _ Ob). specialize (Q k b Eb).
        pose proof (io_decl _ _ _ _ _ _ _ Ob) as <-. unfold wants_binding in Q. rewrite R, andb_true_r in Q.
        rewrite can_bindable in Q; [|assumption|pose proof (io_skip _ _ _ _ _ _ _ Ob E1); congruence].
        rewrite andb_true_r in Q. apply negb_false_iff in Q. unfold is_binded in Q. change (builtin w b = false) in E3.
        rewrite E3, orb_false_r in Q. assumption. }
      induction 1 as [i d Ed El Sy Bd|i j d dj name Ed El Nj IH Ej M Nm].
      + destruct (inv_item _ _ _ _ _ I i d Ed) as [b [Eb Ob]]. eapply Fin; eauto. apply (io_cfg _ _ _ _ _ _ _ Ob).
        destruct El as [? [? ?]]; repeat split; assumption.
      + destruct (inv_item _ _ _ _ _ I i d Ed) as [b [Eb Ob]].
        destruct (inv_reqs _ _ _ _ _ I j dj name i d IH Ej M Nm Ed El) as [b' [Eb' [R|R]]];
          assert (b' = b) by congruence; subst b'; [eapply Fin; eauto|apply (io_log _ _ _ _ _ _ _ Ob); assumption]. }
  split; [|split; [apply (inv_nodup _ _ _ _ _ I)|split; [assumption|]]].
  - apply nth_error_ext; [rewrite map_length; apply (inv_len _ _ _ _ _ I)|]. intros i. rewrite nth_error_map.
    destruct (nth_error ds i) as [d|] eqn:Ed.
    + destruct (inv_item _ _ _ _ _ I i d Ed) as [b [-> Ob]]. cbn. f_equal. apply (io_decl _ _ _ _ _ _ _ Ob).
    + apply nth_error_None in Ed. rewrite <- (inv_len _ _ _ _ _ I) in Ed. apply nth_error_None in Ed. rewrite Ed; reflexivity.
  - intros i b Eb. destruct (nth_same_length l ds i b (inv_len _ _ _ _ _ I) Eb) as [d Ed].
    destruct (inv_item _ _ _ _ _ I i d Ed) as [b' [Eb' Ob]]. assert (b' = b) by congruence; subst b'.
    split; [rewrite <- Lg; apply (io_log _ _ _ _ _ _ _ Ob)|]. rewrite <- !Lg. split.
    + intros Hi. destruct (io_code _ _ _ _ _ _ _ Ob Hi) as [_ [g G]]. exists g. rewrite (io_decl _ _ _ _ _ _ _ Ob). assumption.
    + intros Hi. split; [|apply (io_clean _ _ _ _ _ _ _ Ob Hi)]. pose proof (io_log _ _ _ _ _ _ _ Ob) as X. unfold has_code in X.
      destruct (b_code b); [reflexivity|]. exfalso; apply Hi, X; reflexivity.
Qed.

Lemma map_r_total {A B} (f : A -> result B) l : map_r f l = Diverges -> exists x, In x l /\ f x = Diverges.
Proof.
  induction l as [|x l IH]; cbn; intros H; [discriminate|].
  apply bind_r_Diverges in H. destruct H as [H|[y [_ H]]]; [eauto|].
  apply bind_r_Diverges in H. destruct H as [H|[y' [_ H]]]; [|discriminate]. destruct (IH H) as [z [? ?]]; eauto.
Qed.
