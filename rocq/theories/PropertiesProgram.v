(** Properties of whole invocations: several source files, equivalent
    settings, the order of the lines of the config file. *)
From Coq Require Import Ascii String Bool Arith NArith Lia.
From Coq Require Import List.
From Verif Require Import Str SpecUtil StrFacts Util UtilFacts Config SpecConfig ConfigFacts Ast Types Func Enum Includes Class Context SpecContext WriteFacts RunFacts
  Samples PropertiesContext SpecSettings SettingsOrder SettingsRun Program ProgramFacts.
Import ListNotations.

(** C73: the run depends on the settings as sets and tables only. *)
Theorem C73_equivalent_settings : forall e o c c' visits, same_settings c c' ->
  same_outcome (same_output_but (includes_code c (include_pybind11_stl o)) (includes_code c' (include_pybind11_stl o)))
    (run (mkworld e c o) visits) (run (mkworld e c' o) visits).
Proof. intros e o c c' visits H. exact (run_same e o c c' H visits). Qed.
Print Assumptions C73_equivalent_settings.

Lemma no_block_difference b x y : same_output_but b b x y -> x = y.
Proof.
  intros [A [B [C D]]]. destruct x as [xl xs xf xn], y as [yl ys yf yn]. cbn [out_log out_sorted out_namespaces out_files] in *. subst yl ys yn.
  assert (E : yf = xf); [|subst yf; reflexivity]. induction D as [|g g' l l' G _ IH]; [reflexivity|]. rewrite IH. f_equal.
  unfold same_file_but in G. destruct g as [x1 x2 x3 x4 x5 x6 x7 x8], g' as [y1 y2 y3 y4 y5 y6 y7 y8].
  cbn [g_name g_fun g_ns g_call g_skip g_items g_body g_text] in G. destruct G as (-> & -> & -> & -> & -> & -> & -> & front & back & -> & ->). reflexivity.
Qed.
(** With the same +include lines in the same order the output is the same. *)
Theorem C73_equivalent_settings_same_includes : forall e o c c' visits, same_settings c c' -> lists c' includes_to_add = lists c includes_to_add ->
  run (mkworld e c' o) visits = run (mkworld e c o) visits.
Proof.
  intros e o c c' visits H E. pose proof (C73_equivalent_settings e o c c' visits H) as K.
  assert (B : includes_code c' (include_pybind11_stl o) = includes_code c (include_pybind11_stl o)) by (unfold includes_code; rewrite E; reflexivity).
  rewrite B in K. destruct (run (mkworld e c o) visits), (run (mkworld e c' o) visits); cbn in K; try contradiction; try congruence. f_equal. symmetry. exact (no_block_difference _ _ _ K).
Qed.
Print Assumptions C73_equivalent_settings_same_includes.

(** Order and repetition of the lines of the config file. *)
Theorem C73_order_of_config_lines : forall bind skip file text text' c c',
  setup default_config bind skip file (Some text) = Ok c -> setup default_config bind skip file (Some text') = Ok c' ->
  same_directives text text' -> consistent text -> same_settings c c' /\
  forall e o visits, same_outcome (same_output_but (includes_code c (include_pybind11_stl o)) (includes_code c' (include_pybind11_stl o)))
    (run (mkworld e c o) visits) (run (mkworld e c' o) visits).
Proof.
  intros bind skip file text text' c c' E E' S C. assert (H : same_settings c c').
  - destruct file as [|ch file]; unfold setup in *; cbn [read] in *; [rewrite E in E'; injection E' as <-; apply same_settings_refl|].
    exact (read_same _ _ _ _ _ _ (same_settings_refl _) E E' S C).
  - split; [exact H|]. intros e o visits. apply C73_equivalent_settings. exact H.
Qed.
Print Assumptions C73_order_of_config_lines.

(** A file with the same lines is accepted or rejected alike. *)
Theorem C73_same_lines_accepted_alike : forall bind skip file text text' ls ls', pieces_of nl text ls -> pieces_of nl text' ls' ->
  (forall line, In line ls <-> In line ls') ->
  (exists c, setup default_config bind skip file (Some text) = Ok c) <-> (exists c, setup default_config bind skip file (Some text') = Ok c).
Proof.
  intros bind skip file text text' ls ls' P P' L. destruct file as [|ch file]; unfold setup; cbn [read]; [split; eauto|].
  set (d := assign_list namespaces_to_skip skip (assign_list namespaces_to_bind bind default_config)).
  assert (K : forall t t' l l', pieces_of nl t l -> pieces_of nl t' l' -> (forall line, In line l -> In line l') -> (exists c, read_text d t' = Ok c) -> exists c, read_text d t = Ok c).
  { intros t t' l l' Q Q' M [c Ec]. destruct (read_lines_total (split t [nl]) d) as [T|T]; [|exact T]. exfalso.
    apply read_lines_reject in T as [x [X Y]]. assert (T' : exists m, read_lines d (split t' [nl]) = Throw m).
    { apply read_lines_reject. exists x. split; [|exact Y]. apply (pieces_unique_In _ _ _ Q'), M, (pieces_unique_In _ _ _ Q). exact X. }
    destruct T' as [m T']. unfold read_text in Ec. congruence. }
  split; [apply (K text' text ls' ls P' P); apply L|apply (K text text' ls ls' P P'); apply L].
Qed.
Print Assumptions C73_same_lines_accepted_alike.

(** When two lines give different values to one setting, the last one counts. *)
Theorem C73_last_value_counts : forall c text c' ls before line after bind token arg k, read_text c text = Ok c' ->
  pieces_of nl text ls -> ls = before ++ line :: after -> says line bind token arg -> In (token, Scalar k) directives ->
  (forall l b t a, In l after -> says l b t a -> ~ In (t, Scalar k) directives) -> strs c' k = nospace arg.
Proof.
  intros c text c' ls before line after bind token arg k E P L Sy K N. apply split_char_iff in P. unfold read_text in E. rewrite <- P, L, read_lines_app in E.
  destruct (read_lines c before) as [c0| | | |]; cbn [bind_r] in E; try discriminate. cbn [read_lines] in E.
  destruct (read_line c0 line) as [c1| | | |] eqn:El; cbn [bind_r] in E; try discriminate.
  destruct (lines_scalar k _ _ _ E) as [[l [v [A [[b [t [a [X [Y _]]]]] _]]]]|[_ B]]; [destruct (N l b t a A X Y)|]. rewrite B.
  destruct (line_scalar c0 line c1 k El) as [[v [[b [t [a [X [Y ->]]]]] V]]|[Q _]].
  - destruct (says_det _ _ _ _ _ _ _ Sy X) as [_ [_ ->]]. exact V.
  - exfalso. apply (Q (nospace arg)). exists bind, token, arg. auto.
Qed.
Print Assumptions C73_last_value_counts.
Theorem C73_last_keyed_value_counts : forall c text c' ls before line after token arg m r x u v, read_text c text = Ok c' ->
  pieces_of nl text ls -> ls = before ++ line :: after -> says line true token arg -> In (token, Keyed m r) directives ->
  two_parts arg x u -> (if r then trimmed u v else v = u) ->
  (forall l t a r' u', In l after -> says l true t a -> In (t, Keyed m r') directives -> ~ two_parts a x u') -> lookup x (maps c' m) = Some v.
Proof.
  intros c text c' ls before line after token arg m r x u v E P L Sy K Tp V N. apply split_char_iff in P. unfold read_text in E. rewrite <- P, L, read_lines_app in E.
  destruct (read_lines c before) as [c0| | | |]; cbn [bind_r] in E; try discriminate. cbn [read_lines] in E.
  destruct (read_line c0 line) as [c1| | | |] eqn:El; cbn [bind_r] in E; try discriminate.
  destruct (lines_keyed_set m x _ _ _ E) as [[l [v' [A [[t [a [r' [u' [X [Y [Z _]]]]]]] _]]]]|[_ B]]; [destruct (N l t a r' u' A X Y Z)|]. rewrite B.
  destruct (line_keyed_set c0 line c1 m x El) as [[v' [[t [a [r' [u' [X [Y [Z T]]]]]]] R]]|[Q _]].
  - destruct (says_det _ _ _ _ _ _ _ Sy X) as [_ [<- <-]]. pose proof (kind_det _ _ _ K Y) as Kd. injection Kd as <-. destruct (two_parts_det _ _ _ _ _ Tp Z) as [_ <-].
    rewrite R. f_equal. destruct r; [apply trim_iff in T, V; congruence|congruence].
  - exfalso. apply (Q v). exists token, arg, r, u. auto.
Qed.
Print Assumptions C73_last_keyed_value_counts.

Definition order_text : str :=
  $"+class n::A" ++ [nl] ++ $"+custom_shared std::unique_ptr" ++ [nl] ++ $"+add_on_binder n::A more" ++ [nl] ++ $"+include_for_class n::A <x.hh>" ++ [nl].
Definition order_text' : str :=
  $"# the same" ++ [nl] ++ $"+include_for_class n::A <x.hh>" ++ [nl] ++ $"+add_on_binder n::A more" ++ [cr; nl] ++ [nl] ++ $"+class n::A" ++ [nl] ++ $"+class n::A" ++ [nl] ++ $"+custom_shared std::unique_ptr".
Definition settings_of (text : str) : config := match setup default_config [ [] ] [] $"c" (Some text) with Ok c => c | _ => default_config end.
Ltac which_line F := apply file_says_iff in F; vm_compute in F; repeat (destruct F as [F|F]; [injection F; clear F; intros; subst|]); try destruct F.
Ltac which_directive D := apply find_kind_In in D; vm_compute in D; try discriminate D.
Example C73_case : same_directives order_text order_text' /\ consistent order_text /\
  setup default_config [ [] ] [] $"c" (Some order_text) = Ok (settings_of order_text) /\ setup default_config [ [] ] [] $"c" (Some order_text') = Ok (settings_of order_text') /\
  lists (settings_of order_text) classes_to_bind <> lists (settings_of order_text') classes_to_bind /\
  match run (mkworld mix_env (settings_of order_text) (mix_options false false 1000)) mix_visits with Ok o => length (out_files o) = 4 | _ => False end.
Proof.
  split; [|split; [|split; [vm_compute; reflexivity|split; [vm_compute; reflexivity|split; [vm_compute; discriminate|vm_compute; reflexivity]]]]].
  - intros b t a. rewrite !file_says_iff. vm_compute. tauto.
  - split.
    + intros k t1 b1 a1 t2 b2 a2 D1 D2 F1 F2. which_line F1; which_line F2; which_directive D1; which_directive D2. reflexivity.
    + intros m t1 r1 a1 t2 r2 a2 x u1 u2 v1 v2 D1 D2 F1 F2 P1 P2 V1 V2. which_line F1; which_line F2; which_directive D1; which_directive D2.
      injection D1 as <- <-. injection D2 as <-. destruct (two_parts_det _ _ _ _ _ P1 P2) as [_ <-]. apply trim_iff in V1, V2. congruence.
Qed.

(** The order of lines that contradict each other matters. *)
Theorem C73_any_order_refuted :
  ~ (forall bind skip file text text' c c' e o visits,
       setup default_config bind skip file (Some text) = Ok c -> setup default_config bind skip file (Some text') = Ok c' -> same_directives text text' ->
       lists c' includes_to_add = lists c includes_to_add -> run (mkworld e c o) visits = run (mkworld e c' o) visits).
Proof.
  intros H.
  set (t := $"+custom_shared A" ++ [nl] ++ $"+custom_shared B" ++ [nl]). set (t' := $"+custom_shared B" ++ [nl] ++ $"+custom_shared A" ++ [nl]).
  assert (K := H [ [] ] [] $"c" t t' (settings_of t) (settings_of t') mix_env (mix_options false false 1000) mix_visits).
  assert (E : map g_text (match run (mkworld mix_env (settings_of t) (mix_options false false 1000)) mix_visits with Ok o => out_files o | _ => [] end) =
              map g_text (match run (mkworld mix_env (settings_of t') (mix_options false false 1000)) mix_visits with Ok o => out_files o | _ => [] end)).
  { rewrite K; [reflexivity|vm_compute; reflexivity|vm_compute; reflexivity| |vm_compute; reflexivity]. intros b tk a. rewrite !file_says_iff. vm_compute. tauto. }
  vm_compute in E. discriminate E.
Qed.
Print Assumptions C73_any_order_refuted.

(** C72: each source file is processed as if it were the only one, up to the
    +include lines. *)
Theorem C72_as_if_alone : forall i l f ds r k d, program i l f = (ds, r) -> nth_error ds k = Some d ->
  nth_error l k = Some (d_source d) /\
  exists c o, setup default_config (i_bind i) (i_skip i) (i_config i) (i_config_text i) = Ok c /\
    run (mkworld (so_env (d_source d)) c (i_options i)) (so_visits (d_source d)) = Ok o /\
    same_output_but (includes_code c (include_pybind11_stl (i_options i))) (includes_code (d_config d) (include_pybind11_stl (i_options i))) o (d_output d).
Proof.
  intros i l f ds r k d P N. unfold program in P.
  assert (E : exists c, setup default_config (i_bind i) (i_skip i) (i_config i) (i_config_text i) = Ok c).
  { destruct l as [|s l]; cbn [process_all] in P; [injection P as <- <-; destruct k; discriminate|].
    destruct (process i s default_config f) as [d0| | | |] eqn:Pr; cbn [bind_r] in P; try (injection P as <- <-; destruct k; discriminate).
    exists (d_config d0). apply (process_inv _ _ _ _ _ Pr). }
  destruct E as [c E]. destruct (all_settings i l _ _ _ _ c E (or_introl eq_refl) P k d N) as [A [B C]]. split; [exact A|].
  pose proof (C73_equivalent_settings (so_env (d_source d)) (i_options i) c (d_config d) (so_visits (d_source d)) B) as Q. rewrite C in Q.
  destruct (run (mkworld (so_env (d_source d)) c (i_options i)) (so_visits (d_source d))) as [o| | | |] eqn:R; cbn in Q; try contradiction. exists c, o. rewrite R. auto.
Qed.
Print Assumptions C72_as_if_alone.

(** The files of the k-th source file have the +include lines k times. *)
Theorem C72_include_lines_repeated : forall i l f ds r k d c, program i l f = (ds, r) -> nth_error ds k = Some d ->
  setup default_config (i_bind i) (i_skip i) (i_config i) (i_config_text i) = Ok c ->
  lists (d_config d) includes_to_add = concat (repeat (lists c includes_to_add) (S k)).
Proof.
  intros i l f ds r k d c P N E. rewrite (all_includes i includes_to_add l ltac:(discriminate) ltac:(discriminate) _ _ _ _ c E P k d N). reflexivity.
Qed.
Print Assumptions C72_include_lines_repeated.

(** The source files are processed in order until one fails; which then fails
    because of the config file, as it would alone, or in writing. *)
Theorem C72_how_it_ends : forall i l f ds r, program i l f = (ds, r) ->
  match nth_error l (length ds) with
  | None => r = Ok tt /\ length ds = length l
  | Some s =>
      r <> Ok tt /\
      ((ds = [] /\ r = (do _ <- setup default_config (i_bind i) (i_skip i) (i_config i) (i_config_text i); Ok tt)) \/
       exists c, setup default_config (i_bind i) (i_skip i) (i_config i) (i_config_text i) = Ok c /\
         (r = (do _ <- run (mkworld (so_env s) c (i_options i)) (so_visits s); Ok tt) \/
          exists c' o, same_settings c c' /\ run (mkworld (so_env s) c' (i_options i)) (so_visits s) = Ok o /\
            r = (do _ <- write_output (i_mkdir_ok i) (i_can_open i) (mkworld (so_env s) c' (i_options i)) o (last (map d_disk ds) f); Ok tt)))
  end.
Proof.
  intros i l f ds r P. unfold program in P. destruct (all_ends i l _ _ _ _ P) as [_ Q].
  assert (Ls : forall k d, nth_error ds k = Some d -> exists s, nth_error l k = Some s).
  { intros k d N. destruct (C72_as_if_alone i l f ds r k d P N) as [A _]. eauto. }
  destruct (nth_error l (length ds)) as [s|] eqn:Nl.
  - destruct Q as [Q1 Q]. split; [exact Q1|]. unfold process in Q.
    destruct (setup default_config (i_bind i) (i_skip i) (i_config i) (i_config_text i)) as [c|m|m|m|] eqn:E.
    2-5: left; assert (Dn : ds = []) by (destruct ds as [|d ds]; [reflexivity|]; destruct (C72_as_if_alone i l f (d :: ds) r 0 d P eq_refl) as [_ [c [o [X _]]]]; congruence).
    2-5: subst ds; cbn [map last] in Q; rewrite E in Q; auto.
    right. exists c. split; [reflexivity|].
    assert (S : exists c', setup (last (map d_config ds) default_config) (i_bind i) (i_skip i) (i_config i) (i_config_text i) = Ok c' /\ same_settings c c').
    { destruct ds as [|d0 ds0] eqn:Ed; [exists c; split; [exact E|apply same_settings_refl]|]. rewrite <- Ed in *.
      destruct (exists_last (l := ds)) as [dsi [d Dl]]; [rewrite Ed; discriminate|]. rewrite Dl, map_app. cbn [map]. rewrite last_last.
      assert (Nd : nth_error ds (length dsi) = Some d) by (rewrite Dl, nth_error_app2, Nat.sub_diag by lia; reflexivity).
      destruct (all_settings i l _ _ _ _ c E (or_introl eq_refl) P _ _ Nd) as [_ [B _]].
      destruct (setup_twice i c E) as [c2 [E2 S2]]. destruct (setup_same _ _ _ _ _ _ _ B E2) as [c3 [E3 S3]]. exists c3. split; [exact E3|exact (same_settings_trans _ _ _ S2 S3)]. }
    destruct S as [c' [E' S]]. rewrite E' in Q. cbn [bind_r] in Q. cbv zeta in Q. fold (run (mkworld (so_env s) c' (i_options i)) (so_visits s)) in Q.
    pose proof (C73_equivalent_settings (so_env s) (i_options i) c c' (so_visits s) S) as K.
    destruct (run (mkworld (so_env s) c' (i_options i)) (so_visits s)) as [o|m|m|m|] eqn:R.
    + right. exists c', o. split; [exact S|split; [exact R|]]. cbn [bind_r] in Q. rewrite Q.
      destruct (write_output _ _ _ o _); reflexivity.
    + left. destruct (run (mkworld (so_env s) c (i_options i)) (so_visits s)); cbn in K; try contradiction; try discriminate. injection K as ->. exact Q.
    + left. destruct (run (mkworld (so_env s) c (i_options i)) (so_visits s)); cbn in K; try contradiction; try discriminate. injection K as ->. exact Q.
    + left. destruct (run (mkworld (so_env s) c (i_options i)) (so_visits s)); cbn in K; try contradiction; try discriminate. injection K as ->. exact Q.
    + left. destruct (run (mkworld (so_env s) c (i_options i)) (so_visits s)); cbn in K; try contradiction; try discriminate. exact Q.
  - split; [exact Q|]. apply nth_error_None in Nl. destruct (Nat.eq_dec (length ds) (length l)) as [X|X]; [exact X|]. exfalso.
    destruct (nth_error ds (length l)) as [d|] eqn:Nd; [|apply nth_error_None in Nd; lia]. destruct (Ls _ _ Nd) as [s Hs].
    assert (length l < length l) by (apply nth_error_Some; congruence). lia.
Qed.
Print Assumptions C72_how_it_ends.

(** The root file and the list of sources are those of the last source file. *)
Theorem C72_root_of_last_source : forall i l f ds r before_ d, program i l f = (ds, r) -> ds = before_ ++ [d] -> single_file (i_options i) = false ->
  let root := root_module (i_options i) in
  let names := (root ++ $".cpp") :: map g_name (out_files (d_output d)) in
  let dir := prefix (i_options i) ++ $"/" in
  NoDup names ->
  content (d_disk d) (dir ++ root ++ $".cpp") =
    root_text (mkworld (so_env (d_source d)) (d_config d) (i_options i)) (out_namespaces (d_output d)) (out_files (d_output d)) /\
  (i_can_open i (dir ++ root ++ $".sources") = true -> content (d_disk d) (dir ++ root ++ $".sources") = concat (map (fun name => name ++ [nl]) names)).
Proof.
  intros i l f ds r before_ d P D Sf root names dir ND. destruct (all_writes i l _ _ _ _ P before_ d [] D) as [W R].
  destruct (C38_files_on_disk _ _ _ _ _ _ _ R Sf W ND) as [_ [A [B _]]]. split; [exact A|exact B].
Qed.
Print Assumptions C72_root_of_last_source.

(** A generated file stays as it was written unless a later source file writes
    a file of that name. *)
Theorem C72_files_stay : forall i l f ds r before_ d after_ g, program i l f = (ds, r) -> ds = before_ ++ d :: after_ -> single_file (i_options i) = false ->
  (forall d', In d' (d :: after_) -> NoDup ((root_module (i_options i) ++ $".cpp") :: map g_name (out_files (d_output d')))) ->
  In g (out_files (d_output d)) ->
  (forall d', In d' after_ -> ~ In (g_name g) (map g_name (out_files (d_output d')))) ->
  content (last (map d_disk ds) f) (prefix (i_options i) ++ $"/" ++ g_name g) = g_text g.
Proof.
  intros i l f ds r before_ d after_ g P D Sf ND G NI. subst ds. rewrite map_app. cbn [map].
  assert (Cpp : exists p, g_name g = p ++ $".cpp").
  { destruct (all_writes i l _ _ _ _ P before_ d after_ eq_refl) as [_ R]. destruct (run_inv _ _ _ R) as [q [_ [_ [W _]]]]. exact (wrote_cpp _ _ _ _ _ _ W g G). }
  assert (Nr : g_name g <> root_module (i_options i) ++ $".cpp").
  { pose proof (ND d (or_introl eq_refl)) as X. apply NoDup_cons_iff in X as [Nx _]. intros Y. apply Nx. rewrite <- Y. apply in_map. exact G. }
  assert (K : forall tail, (exists more, after_ = tail ++ more) ->
     content (last (map d_disk before_ ++ d_disk d :: map d_disk tail) f) (prefix (i_options i) ++ $"/" ++ g_name g) = g_text g).
  { intros tail. induction tail as [|d' tail IH] using rev_ind; intros [more M].
    - cbn [map]. rewrite last_last. destruct (all_writes i l _ _ _ _ P before_ d after_ eq_refl) as [W R].
      destruct (C38_files_on_disk _ _ _ _ _ _ _ R Sf W (ND d (or_introl eq_refl))) as [A _]. specialize (A g G). cbn [wopt] in A. rewrite <- app_assoc in A. exact A.
    - rewrite map_app. cbn [map]. rewrite app_comm_cons, app_assoc, last_last.
      rewrite <- app_assoc in M. cbn [app] in M. specialize (IH (ex_intro _ (d' :: more) M)).
      assert (I' : In d' after_) by (rewrite M, in_app_iff; right; left; reflexivity).
      destruct (all_writes i l _ _ _ _ P (before_ ++ d :: tail) d' more) as [W R]; [rewrite M, <- app_assoc; reflexivity|].
      rewrite map_app in W. cbn [map] in W.
      destruct (C38_files_on_disk _ _ _ _ _ _ _ R Sf W (ND d' (or_intror I'))) as [_ [_ [_ U]]]. cbn [wopt] in U.
      unfold content in *. rewrite U; [exact IH| | |].
      + intros X. apply in_map_iff in X as [n [X Y]]. rewrite <- app_assoc in X. apply app_inv_head in X. apply app_inv_head in X. subst n. cbn [In] in Y. destruct Y as [Y|Y]; [exact (Nr (eq_sym Y))|exact (NI d' I' Y)].
      + destruct Cpp as [p ->]. intros X. rewrite <- app_assoc in X. apply app_inv_head in X. apply app_inv_head in X.
        change ($".cpp") with ($".cp" ++ ["p"%char]) in X. change ($".sources") with ($".source" ++ ["s"%char]) in X. rewrite !app_assoc in X. apply app_inj_tail in X as [_ X]. discriminate.
      + destruct Cpp as [p ->]. intros X. rewrite <- app_assoc in X. apply app_inv_head in X. apply app_inv_head in X.
        change ($".cpp") with ($".cp" ++ ["p"%char]) in X. change ($".modules") with ($".module" ++ ["s"%char]) in X. rewrite !app_assoc in X. apply app_inj_tail in X as [_ X]. discriminate. }
  apply K. exists []. rewrite app_nil_r. reflexivity.
Qed.
Print Assumptions C72_files_stay.

(** Two source files: a function of <a.hh> and one of <b.hh>. *)
Definition two_invocation : invocation :=
  mkinvocation (mix_options false false 1000) [ [] ] [] $"c" (Some ($"+include <x.hh>" ++ [nl])) (fun _ => true) (fun _ => true).
Definition two_sources : list source :=
  [mksource (wenv (fns_w [flat_fn $"n" $"f" $"<a.hh>"] (mix_options false false 1000) [])) [DFun 0];
   mksource (wenv (fns_w [flat_fn $"m" $"g" $"<b.hh>"] (mix_options false false 1000) [])) [DFun 0]].
Definition two_done : list done := fst (program two_invocation two_sources (mkfs [] [])).
Example C72_case : program two_invocation two_sources (mkfs [] []) = (two_done, Ok tt) /\
  map (fun d => map g_name (out_files (d_output d))) two_done = [[$"a.cpp"]; [$"b.cpp"]] /\
  map (fun d => lists (d_config d) includes_to_add) two_done = [[$"<x.hh>"]; [$"<x.hh>"; $"<x.hh>"]] /\
  map (fun d => map fst (files (d_disk d))) two_done = [[$"out/root.cpp"; $"out/a.cpp"; $"out/root.sources"; $"out/root.modules"];
                                                       [$"out/root.cpp"; $"out/a.cpp"; $"out/root.sources"; $"out/root.modules"; $"out/b.cpp"]].
Proof. vm_compute. repeat split. Qed.
(** Not every generated file is listed: those of earlier source files are on
    the disk but neither in the list of sources nor called by the root file. *)
Theorem C72_all_files_listed_refuted :
  ~ (forall i l f ds k d g, program i l f = (ds, Ok tt) -> single_file (i_options i) = false -> (forall q, i_can_open i q = true) ->
       nth_error ds k = Some d -> In g (out_files (d_output d)) ->
       exists ls, pieces_of nl (content (last (map d_disk ds) f) (prefix (i_options i) ++ $"/" ++ root_module (i_options i) ++ $".sources")) ls /\ In (g_name g) ls).
Proof.
  intros H.
  destruct (nth_error two_done 0) as [d|] eqn:N; [|vm_compute in N; discriminate].
  assert (F : exists g, In g (out_files (d_output d)) /\ g_name g = $"a.cpp").
  { destruct (out_files (d_output d)) as [|g [|g' l]] eqn:E; vm_compute in N; injection N as <-; vm_compute in E; try discriminate. injection E as <-. eexists. split; [left; reflexivity|reflexivity]. }
  destruct F as [g [G Gn]].
  destruct (H two_invocation two_sources (mkfs [] []) two_done 0 d g (proj1 C72_case) eq_refl (fun _ => eq_refl) N G) as [ls [P I]].
  apply split_char_iff in P. subst ls. rewrite Gn in I. vm_compute in I. repeat (destruct I as [I|I]; [discriminate I|]). exact I.
Qed.
Print Assumptions C72_all_files_listed_refuted.
