(** Runs that differ in the settings on the form of the generated code only. *)
From Coq Require Import Ascii String Bool Arith NArith Lia.
From Coq Require Import List.
From Verif Require Import Str StrFacts Util Config SpecConfig ConfigFacts Ast Types Func Enum Includes Class Context SpecContext SpecSettings SpecLayout SpecStyle SettingsFacts ContextFacts StyleFacts.
Import ListNotations.

(** ** Lists of items *)
Definition sims : list binder -> list binder -> Prop := Forall2 same_item.
Lemma item_refl b : same_item b b.
Proof. repeat split; auto. Qed.
Lemma sims_refl l : sims l l.
Proof. induction l; constructor; [apply item_refl|assumption]. Qed.
Lemma sims_length l l' : sims l l' -> length l' = length l.
Proof. induction 1; cbn; congruence. Qed.
Lemma sims_app a a' b b' : sims a a' -> sims b b' -> sims (a ++ b) (a' ++ b').
Proof. apply Forall2_app. Qed.
Lemma sims_nth l l' i : sims l l' -> match nth_error l i, nth_error l' i with Some b, Some b' => same_item b b' | None, None => True | _, _ => False end.
Proof. intros F. revert i. induction F as [|x y l l' E F IH]; intros [|i]; cbn; [exact Logic.I|exact Logic.I|exact E|apply IH]. Qed.
Lemma sims_update (f g : binder -> binder) l l' i : (forall b b', same_item b b' -> same_item (f b) (g b')) -> sims l l' -> sims (update_nth i f l) (update_nth i g l').
Proof.
  intros K F. revert i. induction F as [|x y l l' E F IH]; intros [|i]; cbn [update_nth]; constructor; auto. apply IH.
Qed.
Lemma sims_skipn n l l' : sims l l' -> sims (skipn n l) (skipn n l').
Proof. intros F. revert n. induction F as [|x y l l' E F IH]; intros [|n]; cbn [skipn]; [constructor|constructor|constructor; assumption|apply IH]. Qed.
Lemma sims_firstn n l l' : sims l l' -> sims (firstn n l) (firstn n l').
Proof. intros F. revert n. induction F as [|x y l l' E F IH]; intros [|n]; cbn [firstn]; try constructor; auto. apply IH. Qed.
Lemma sims_rotate n l l' : sims l l' -> sims (rotate n l) (rotate n l').
Proof. intros F. unfold rotate. apply sims_app; [apply sims_skipn|apply sims_firstn]; exact F. Qed.
Lemma item_node b b' : same_item b b' -> node b' = node b.
Proof. intros (E&_). unfold node. rewrite E. reflexivity. Qed.
Lemma sims_index i l l' : sims l l' -> index_of (is_node i) l' = index_of (is_node i) l.
Proof.
  induction 1 as [|x y l l' E F IH]; cbn [index_of]; [reflexivity|]. unfold is_node at 1 3. rewrite (item_node _ _ E), IH. reflexivity.
Qed.

(** ** Sorting *)
Definition sim_move (a b : list binder * bool) : Prop := sims (fst a) (fst b) /\ snd b = snd a.
Lemma move_deps_same key known binded deps : forall l l' again, sims l l' ->
  same_outcome sim_move (move_deps key known binded deps l again) (move_deps key known binded deps l' again).
Proof.
  induction deps as [|i deps IH]; intros l l' again F; cbn [move_deps]; [split; [exact F|reflexivity]|].
  apply so_if; [apply IH; exact F|]. rewrite (sims_index i l l' F). destruct (index_of (is_node i) l).
  - apply IH. apply sims_rotate. exact F.
  - apply so_if; [apply IH; exact F|reflexivity].
Qed.
Definition sim_scan (a b : list binder + list binder) : Prop :=
  match a, b with inl x, inl y | inr x, inr y => sims x y | _, _ => False end.
Lemma scan_same key known : forall rest rest' before before' binded, sims rest rest' -> sims before before' ->
  same_outcome sim_scan (scan key known before binded rest) (scan key known before' binded rest').
Proof.
  intros rest rest' before before' binded F. revert before before' binded. induction F as [|x y l l' E F IH]; intros before before' binded G; cbn [scan]; [exact G|].
  rewrite (item_node _ _ E). destruct (node x).
  - assert (D : b_deps y = b_deps x) by apply E. rewrite D.
    apply (so_bind sim_move); [apply move_deps_same; constructor; assumption|]. intros [s again] [s' again'] [A B]. cbn [fst snd] in A, B. subst again'.
    apply so_if; [exact (sims_app _ _ _ _ G A)|]. apply IH. apply sims_app; [exact G|]. constructor; [exact E|constructor].
  - apply IH. apply sims_app; [exact G|]. constructor; [exact E|constructor].
Qed.
Lemma sort_loop_same key known n : forall l l', sims l l' -> same_outcome sims (sort_loop n key known l) (sort_loop n key known l').
Proof.
  induction n as [|n IH]; intros l l' F; cbn [sort_loop]; [reflexivity|].
  apply (so_bind sim_scan); [apply scan_same; [exact F|constructor]|]. intros [a|a] [b|b] E; try contradiction; [apply IH; exact E|exact E].
Qed.

Section Run.
Variables (e : env) (c c' : config) (o o' : options).
Hypothesis H : same_selection c c'.
Hypothesis Ho : same_selecting_options o o'.
Local Notation w := (mkworld e c o).
Local Notation w' := (mkworld e c' o').
Local Opaque rec_ fun_ enum_ decl_id type_names add add_insertion_operator is_bindable_fun is_bindable_rec named_decl is_python_builtin enum_bindable bindable class_qualified_name
  is_skipping_requested_fun is_skipping_requested_rec is_skipping_requested_enum is_binding_requested_rec is_binding_requested_enum is_binding_requested_fun bind_fun bind_class bind_enum_binder.

Lemma visit_same d x : visit w' d x = visit w d x.
Proof.
  destruct d as [f|r|i]; cbn [visit]; rewrite ?(f_fun_ e c c' o o'), ?(f_rec_ e c c' o o'), ?(f_enum_ e c c' o o'), ?(f_add e c c' o o' H Ho), ?(f_add_insertion_operator e c c' o o' H Ho),
    ?(s_is_bindable_fun e c c' o o' H Ho), ?(s_is_bindable_rec e c c' o o' H Ho); auto.
Qed.
Lemma collect_same l : collect w' l = collect w l.
Proof.
  unfold collect. generalize empty_context. induction l as [|d l IH]; intros x; cbn [fold_left]; [reflexivity|]. rewrite visit_same. apply IH.
Qed.
Local Transparent bindable.
Lemma bindable_same b b' : same_item b b' -> bindable w' b' = bindable w b.
Proof.
  intros (E&_&S&_). unfold bindable. rewrite E, S. destruct (b_decl b); rewrite ?(f_fun_ e c c' o o' H Ho), ?(f_enum_ e c c' o o' H Ho), ?(s_is_bindable_fun e c c' o o' H Ho),
    ?(s_is_bindable_rec e c c' o o' H Ho), ?(f_enum_bindable e c c' o o' H Ho); reflexivity.
Qed.
Local Opaque bindable.
Local Transparent named_decl.
Lemma named_same b b' : same_item b b' -> named_decl w' b' = named_decl w b.
Proof. intros (E&_). unfold named_decl. rewrite E. reflexivity. Qed.
Local Opaque named_decl.
Lemma builtin_same b b' : same_item b b' -> builtin w' b' = builtin w b.
Proof. intros E. unfold builtin. rewrite (named_same b b' E), (s_is_python_builtin e c c' o o' H Ho). reflexivity. Qed.
Local Opaque builtin.
Lemma code_same b b' : same_item b b' -> has_code b' = has_code b.
Proof.
  intros (_&_&_&_&_&E). unfold has_code. destruct (b_code b), (b_code b'); try reflexivity; [discriminate (proj2 E eq_refl)|discriminate (proj1 E eq_refl)].
Qed.
Lemma is_binded_same b b' : same_item b b' -> is_binded w' b' = is_binded w b.
Proof. intros E. unfold is_binded. rewrite (builtin_same b b' E), (code_same b b' E). reflexivity. Qed.
Local Opaque is_binded.
Lemma skip_decl_same d : skip_decl w' d = skip_decl w d.
Proof.
  destruct d; cbn [skip_decl]; rewrite ?(f_fun_ e c c' o o' H Ho), ?(f_enum_ e c c' o o' H Ho), ?(s_is_skipping_requested_fun e c c' o o' H Ho), ?(s_is_skipping_requested_rec e c c' o o' H Ho), ?(s_is_skipping_requested_enum e c c' o o' H Ho); reflexivity.
Qed.
Local Opaque skip_decl.
Lemma bind_decl_same d : bind_decl w' d = bind_decl w d.
Proof.
  destruct d; cbn [bind_decl]; rewrite ?(f_fun_ e c c' o o' H Ho), ?(f_enum_ e c c' o o' H Ho), ?(s_is_binding_requested_fun e c c' o o' H Ho), ?(s_is_binding_requested_rec e c c' o o' H Ho), ?(s_is_binding_requested_enum e c c' o o' H Ho); reflexivity.
Qed.
Local Opaque bind_decl.
Lemma initial_request_same b : initial_request w' b = initial_request w b.
Proof. unfold initial_request. rewrite (bindable_same b b (item_refl b)), skip_decl_same, bind_decl_same, (named_same b b (item_refl b)). reflexivity. Qed.
Local Opaque initial_request.
Lemma set_bind_same b b' : same_item b b' -> same_item (set_bind b) (set_bind b').
Proof. intros (A1&A2&A3&A4&A5&A6). unfold same_item. cbn. auto 10. Qed.
Lemma request_same types n l l' : sims l l' -> sims (request w types n l) (request w' types n l').
Proof.
  intros F. unfold request. destruct (lookup n types); [|exact F]. apply sims_update; [|exact F]. intros b b' E.
  rewrite (is_binded_same b b' E), (bindable_same b b' E), (builtin_same b b' E), (proj1 (proj2 (proj2 E))).
  destruct (negb (is_binded w b) && bindable w b && negb (b_skip_req b) && negb (builtin w b)); [apply set_bind_same|]; exact E.
Qed.
Local Opaque request.
Lemma requests_same types q : forall l l', sims l l' -> sims (fold_left (fun l n => request w types n l) q l) (fold_left (fun l n => request w' types n l) q l').
Proof. induction q as [|n q IH]; intros l l' F; cbn [fold_left]; [exact F|]. apply IH, request_same, F. Qed.
Lemma wants_same b b' : same_item b b' -> wants_binding w' b' = wants_binding w b.
Proof. intros E. unfold wants_binding. rewrite (is_binded_same b b' E), (bindable_same b b' E), (proj1 (proj2 E)). reflexivity. Qed.
Local Opaque wants_binding generate_code.
Lemma set_code_same g g' b b' : same_bound g g' -> same_item b b' -> same_item (set_code g b) (set_code g' b').
Proof. intros (B1&B2&B3&B4) (A1&A2&A3&A4&A5&A6). unfold same_item. cbn. auto 10. Qed.
Definition sim_state (a b : list binder * list nat) : Prop := sims (fst a) (fst b) /\ snd b = snd a.
Lemma bind_pass_same x todo : forall l l' log, sims l l' -> same_outcome sim_state (bind_pass w x todo l log) (bind_pass w' x todo l' log).
Proof.
  induction todo as [|i todo IH]; intros l l' log F; cbn [bind_pass]; [split; [exact F|reflexivity]|].
  pose proof (sims_nth l l' i F) as N. destruct (nth_error l i) as [b|], (nth_error l' i) as [b'|]; try contradiction; [|split; [exact F|reflexivity]].
  rewrite (wants_same b b' N). apply so_if; [|apply IH; exact F]. rewrite (proj1 N).
  apply (so_bind same_bound); [apply (r_generate_code e c c' o o' H Ho)|]. intros g g' G. cbv zeta. rewrite (proj1 (proj2 (proj2 G))).
  apply IH. apply sims_update; [|apply requests_same; exact F]. intros y y' E. apply set_code_same; assumption.
Qed.
Local Opaque bind_pass.
Lemma bind_loop_same n : forall x l l' log, sims l l' -> same_outcome sim_state (bind_loop n w x l log) (bind_loop n w' x l' log).
Proof.
  induction n as [|n IH]; intros x l l' log F; cbn [bind_loop]; [reflexivity|]. rewrite (sims_length l l' F).
  apply (so_bind sim_state); [apply bind_pass_same; exact F|]. intros [l1 log1] [l1' log1'] [A B]. cbn [fst snd] in A, B. subst log1'.
  apply so_if; [split; [exact A|reflexivity]|]. apply IH. exact A.
Qed.
Local Opaque bind_loop.
Lemma map_r_same (f g : binder -> result binder) l : (forall b, g b = f b) -> map_r g l = map_r f l.
Proof. intros E. induction l as [|b l IH]; cbn [map_r]; [reflexivity|]. rewrite E, IH. reflexivity. Qed.
Lemma bind_all_same x : same_outcome sim_state (bind_all w x) (bind_all w' x).
Proof.
  unfold bind_all. rewrite (map_r_same _ _ _ initial_request_same). apply so_eq. intros l. apply bind_loop_same. apply sims_refl.
Qed.
Local Opaque bind_all.
Lemma sort_loop_ext key known known' n : (forall i, known' i = known i) -> forall l, sort_loop n key known' l = sort_loop n key known l.
Proof.
  intros E.
  assert (M : forall binded deps l again, move_deps key known' binded deps l again = move_deps key known binded deps l again).
  { intros binded. induction deps as [|i deps IH]; intros l again; cbn [move_deps]; [reflexivity|]. rewrite E, IH. destruct (_ || _); [reflexivity|].
    destruct (index_of (is_node i) l); [apply IH|reflexivity]. }
  assert (S : forall rest before binded, scan key known' before binded rest = scan key known before binded rest).
  { induction rest as [|b rest IH]; intros before binded; cbn [scan]; [reflexivity|]. destruct (node b); [|apply IH]. rewrite M. apply bind_r_eq; [reflexivity|].
    intros [s again]. destruct again; [reflexivity|apply IH]. }
  induction n as [|n IH]; intros l; cbn [sort_loop]; [reflexivity|]. rewrite S. apply bind_r_eq; [reflexivity|]. intros [a|a]; [apply IH|reflexivity].
Qed.
Lemma sort_same l l' : sims l l' -> same_outcome sims (sort_binders w l) (sort_binders w' l').
Proof.
  intros F. unfold sort_binders, sort_fuel. rewrite (sims_length l l' F), (f_class_qualified_name e c c' o o' H Ho).
  rewrite (sort_loop_ext _ (fun i => is_python_builtin w (r_decl (rec_ w i))) (fun i => is_python_builtin w' (r_decl (rec_ w' i)))).
  - apply sort_loop_same. exact F.
  - intros i. rewrite (s_is_python_builtin e c c' o o' H Ho), (f_rec_ e c c' o o' H Ho). reflexivity.
Qed.
Local Opaque sort_binders.
Theorem plan_same visits : same_outcome sim_state (plan w visits) (plan w' visits).
Proof.
  unfold plan. rewrite collect_same. apply (so_bind sim_state); [apply bind_all_same|]. intros [l log] [l' log'] [A B]. cbn [fst snd] in A, B. subst log'.
  apply (so_bind sims); [apply sort_same; exact A|]. intros s s' F. split; [exact F|reflexivity].
Qed.
Lemma sims_filter l l' : sims l l' -> sims (filter has_code l) (filter has_code l').
Proof.
  induction 1 as [|x y l l' E F IH]; cbn [filter]; [constructor|]. rewrite (code_same x y E). destruct (has_code x); [constructor; assumption|exact IH].
Qed.
Lemma sims_decls l l' : sims l l' -> map b_decl l' = map b_decl l.
Proof. induction 1 as [|x y l l' E F IH]; cbn [map]; [reflexivity|]. rewrite (proj1 E), IH. reflexivity. Qed.
Lemma namespaces_same l l' : sims l l' -> nested_namespaces w' l' = nested_namespaces w l.
Proof.
  intros F. unfold nested_namespaces. f_equal. induction F as [|x y l l' E F IH]; cbn [flat_map]; [reflexivity|].
  rewrite (code_same x y E), IH. assert (N : binder_namespace w' y = binder_namespace w x).
  { unfold binder_namespace. rewrite (named_same x y E), (f_namespace_from_named_decl e c c' o o' H Ho). reflexivity. }
  rewrite N. reflexivity.
Qed.
End Run.
