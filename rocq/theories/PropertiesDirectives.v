(** From the text of the config file to the settings and to the generated files.
    The specification is in SpecDirectives.v. *)
From Coq Require Import Ascii String Bool Arith NArith.
From Coq Require Import List.
From Verif Require Import Str StrFacts SpecUtil UtilFacts Util Config Ast Types Func Enum Includes Class Context SpecConfig ConfigFacts SpecSettings SettingsOrder
  SpecTypes SpecBind SpecClass SpecIncludes SpecContext SpecOutput SpecHeaders SpecImport SpecDirectives
  TypesFacts BindFacts ClassFacts IncludesFacts ContextFacts SortFacts WriteFacts RunFacts ImportText StructFacts Samples PropertiesTypes PropertiesContext PropertiesOutput PropertiesHeaders.
Import ListNotations.

(** ** C101: what the config file says reaches the generated files *)

(** One directive for each keyed setting. *)
Definition keyed_token (m : map_key) : str * bool :=
  match m with
  | Config.binders => ($"binder", true) | add_on_binders => ($"add_on_binder", true)
  | binder_for_namespaces => ($"binder_for_namespace", true) | add_on_binder_for_namespaces => ($"add_on_binder_for_namespace", true)
  | custom_trampoline_functions => ($"trampoline_member_function_binder", false)
  end.
Lemma keyed_unique t m r : In (t, Keyed m r) directives -> keyed_token m = (t, r).
Proof. intros H. unfold directives in H. cbn [In] in H. repeat (destruct H as [H|H]; [first [discriminate H|injection H as <- <- <-; reflexivity]|]). destruct H. Qed.
Lemma include_unique t t' k : In (t, KeyedInclude k) directives -> In (t', KeyedInclude k) directives -> t = t'.
Proof.
  assert (U : forall s, In (s, KeyedInclude k) directives -> s = match k with class_includes => $"include_for_class" | namespace_includes => $"include_for_namespace" end).
  { intros s H. unfold directives in H. cbn [In] in H. repeat (destruct H as [H|H]; [first [discriminate H|injection H as <- <-; reflexivity]|]). destruct H. }
  intros A B. rewrite (U t A), (U t' B). reflexivity.
Qed.
Definition scalar_token (k : str_key) : str :=
  match k with
  | holder_type => $"custom_shared" | pybind11_include_file => $"pybind11_include_file"
  | default_static_pointer_return_value_policy => $"default_static_pointer_return_value_policy"
  | default_static_lvalue_reference_return_value_policy => $"default_static_lvalue_reference_return_value_policy"
  | default_static_rvalue_reference_return_value_policy => $"default_static_rvalue_reference_return_value_policy"
  | default_member_pointer_return_value_policy => $"default_member_pointer_return_value_policy"
  | default_member_lvalue_reference_return_value_policy => $"default_member_lvalue_reference_return_value_policy"
  | default_member_rvalue_reference_return_value_policy => $"default_member_rvalue_reference_return_value_policy"
  | default_call_guard => $"default_call_guard"
  | prefix_for_static_member_functions => $"prefix_for_static_member_functions"
  end.
Lemma scalar_unique t k : In (t, Scalar k) directives -> t = scalar_token k.
Proof. intros H. unfold directives in H. cbn [In] in H. repeat (destruct H as [H|H]; [first [discriminate H|injection H as <- <-; reflexivity]|]). destruct H. Qed.

Lemma keyed_value t m r x v l : In (t, Keyed m r) directives -> sets_keyed l m x v <-> value_for t r x v l.
Proof.
  intros D. split.
  - intros [t' [a [r' [u [S [D' [P Q]]]]]]]. pose proof (keyed_unique _ _ _ D) as X. rewrite (keyed_unique _ _ _ D') in X. injection X as <- <-. exists a, u. auto.
  - intros [a [u [S [P Q]]]]. exists t, a, r, u. auto.
Qed.
Lemma value_det t r x v x' v' l : value_for t r x v l -> value_for t r x' v' l -> v = v'.
Proof.
  intros [a [u [S [P Q]]]] [a' [u' [S' [P' Q']]]]. destruct (says_det _ _ _ _ _ _ _ S S') as [_ [_ <-]]. destruct (two_parts_det _ _ _ _ _ P P') as [_ <-].
  destruct r; [apply trim_iff in Q, Q'|]; congruence.
Qed.
(** The last line counts. *)
Lemma lines_last m x ls : forall d d1, read_lines d ls = Ok d1 ->
  (exists before l after v, ls = before ++ l :: after /\ sets_keyed l m x v /\ (forall l' u, In l' after -> ~ sets_keyed l' m x u) /\ lookup x (maps d1 m) = Some v) \/
  ((forall l v, In l ls -> ~ sets_keyed l m x v) /\ lookup x (maps d1 m) = lookup x (maps d m)).
Proof.
  induction ls as [|l ls IH]; intros d d1 E; cbn [read_lines] in E.
  - injection E as <-. right. split; [intros l v []|reflexivity].
  - destruct (read_line d l) as [d0| | | |] eqn:El; cbn [bind_r] in E; try discriminate.
    destruct (IH d0 d1 E) as [[before [l0 [after [v [-> R]]]]]|[A B]].
    + left. exists (l :: before), l0, after, v. split; [reflexivity|exact R].
    + destruct (line_keyed_set d l d0 m x El) as [[v [P Q]]|[P Q]].
      * left. exists [], l, ls, v. split; [reflexivity|]. split; [exact P|]. split; [intros l' u; apply A|congruence].
      * right. split; [|congruence]. intros l0 v [<-|X]; [apply P|apply A; exact X].
Qed.
Lemma lines_last_scalar k ls : forall d d1, read_lines d ls = Ok d1 ->
  (exists before l after v, ls = before ++ l :: after /\ sets_scalar l k v /\ (forall l' u, In l' after -> ~ sets_scalar l' k u) /\ strs d1 k = v) \/
  ((forall l v, In l ls -> ~ sets_scalar l k v) /\ strs d1 k = strs d k).
Proof.
  induction ls as [|l ls IH]; intros d d1 E; cbn [read_lines] in E.
  - injection E as <-. right. split; [intros l v []|reflexivity].
  - destruct (read_line d l) as [d0| | | |] eqn:El; cbn [bind_r] in E; try discriminate.
    destruct (IH d0 d1 E) as [[before [l0 [after [v [-> R]]]]]|[A B]].
    + left. exists (l :: before), l0, after, v. split; [reflexivity|exact R].
    + destruct (line_scalar d l d0 k El) as [[v [P Q]]|[P Q]].
      * left. exists [], l, ls, v. split; [reflexivity|]. split; [exact P|]. split; [intros l' u; apply A|congruence].
      * right. split; [|congruence]. intros l0 v [<-|X]; [apply P|apply A; exact X].
Qed.
(** There is one last line. *)
Lemma last_split (P : str -> Prop) b1 l1 a1 b2 l2 a2 : b1 ++ l1 :: a1 = b2 ++ l2 :: a2 -> P l1 -> P l2 ->
  (forall l, In l a1 -> ~ P l) -> (forall l, In l a2 -> ~ P l) -> l1 = l2.
Proof.
  revert b2. induction b1 as [|y b1 IH]; intros [|z b2] E P1 P2 N1 N2; cbn [app] in E; injection E as E1 E2.
  - exact E1.
  - exfalso. apply (N1 l2); [rewrite E2; apply in_or_app; right; left; reflexivity|exact P2].
  - exfalso. apply (N2 l1); [rewrite <- E2; apply in_or_app; right; left; reflexivity|exact P1].
  - exact (IH b2 E2 P1 P2 N1 N2).
Qed.
Lemma setup_read bind skip file text c : file <> [] -> setup default_config bind skip file (Some text) = Ok c ->
  exists d, read_lines d (split text [nl]) = Ok c /\ (forall m, maps d m = []) /\ (forall k, vecs d k = []) /\ (forall k, strs d k = strs default_config k).
Proof.
  intros F E. unfold setup in E. destruct file as [|ch file]; [contradiction|]. cbn [read] in E. eexists. split; [exact E|]. repeat split; intros; reflexivity.
Qed.

(** A binder, or another value for a key, is the one of the last line for that
    key; without such a line there is none. *)
Theorem C101_last_value_counts : forall bind skip file text c token key trims x v, file <> [] -> setup default_config bind skip file (Some text) = Ok c ->
  In (token, Keyed key trims) directives -> lookup x (maps c key) = Some v <-> last_value text token trims x v.
Proof.
  intros bind skip file text c token key trims x v F E D. destruct (setup_read _ _ _ _ _ F E) as [d [R [M _]]].
  destruct (lines_last key x _ _ _ R) as [[before [l [after [u [S [Q [N L]]]]]]]|[N L]].
  - apply (keyed_value token key trims x u l D) in Q.
    assert (LL : last_line text (fun l => exists u, value_for token trims x u l) l).
    { exists (split text [nl]), before, after. split; [apply split_pieces|]. split; [exact S|]. split; [exists u; exact Q|].
      intros l' H [u' X]. apply (keyed_value token key trims x u' l' D) in X. exact (N l' u' H X). }
    split.
    + intros X. rewrite L in X. injection X as <-. exists l. auto.
    + intros [l2 [[ls [b2 [a2 [P2 [S2 [Q2 N2]]]]]] V]]. apply split_char_iff in P2. rewrite S2 in P2. rewrite S in P2.
      assert (l = l2) as <-.
      { apply (last_split (fun l => exists u, value_for token trims x u l) before l after b2 l2 a2); [congruence|exists u; exact Q|exact Q2| |exact N2].
        intros l' H [u' X]. apply (keyed_value token key trims x u' l' D) in X. exact (N l' u' H X). }
      rewrite L, (value_det _ _ _ _ _ _ _ Q V). reflexivity.
  - rewrite M in L. rewrite L. split; [discriminate|]. intros [l2 [[ls [b2 [a2 [P2 [S2 _]]]]] V]]. exfalso. apply split_char_iff in P2. rewrite S2 in P2.
    apply (N l2 v); [rewrite <- P2; apply in_or_app; right; left; reflexivity|]. apply (keyed_value token key trims x v l2 D). exact V.
Qed.
Print Assumptions C101_last_value_counts.
(** Headers accumulate. *)
Theorem C101_headers_accumulate : forall bind skip file text c token key x h, file <> [] -> setup default_config bind skip file (Some text) = Ok c ->
  In (token, KeyedInclude key) directives -> In h (get_vec x (vecs c key)) <-> header_for_key text token x h.
Proof.
  intros bind skip file text c token key x h F E D. destruct (setup_read _ _ _ _ _ F E) as [d [R [_ [M _]]]].
  rewrite (lines_vec key x _ _ _ R h), M. split.
  - intros [[]|[l [Hl [t [a [S [D' P]]]]]]]. rewrite (include_unique _ _ _ D' D) in S. exists a. split; [exact (in_file text l Hl _ _ _ S)|exact P].
  - intros [a [S P]]. destruct (file_line _ _ _ _ S) as [l [Hl X]]. right. exists l. split; [exact Hl|]. exists token, a. auto.
Qed.
Print Assumptions C101_headers_accumulate.
(** A value without key: the last line about the directive, whatever its sign;
    without such a line the default. *)
Theorem C101_last_setting_counts : forall bind skip file text c token key v, file <> [] -> setup default_config bind skip file (Some text) = Ok c ->
  In (token, Scalar key) directives -> strs c key = v <->
    last_setting text token v \/ ((forall b arg, ~ file_says text b token arg) /\ v = strs default_config key).
Proof.
  intros bind skip file text c token key v F E D. destruct (setup_read _ _ _ _ _ F E) as [d [R [_ [_ M]]]].
  assert (A : forall l, about token l <-> exists u, sets_scalar l key u).
  { intros l. split.
    - intros [b [a S]]. exists (nospace a), b, token, a. auto.
    - intros [u [b [t [a [S [D' _]]]]]]. rewrite (scalar_unique _ _ D'), <- (scalar_unique _ _ D) in S. exists b, a. exact S. }
  destruct (lines_last_scalar key _ _ _ R) as [[before [l [after [u [S [Q [N L]]]]]]]|[N L]].
  - assert (N' : forall l', In l' after -> ~ about token l').
    { intros l' H X. apply A in X. destruct X as [u' X]. exact (N l' u' H X). }
    assert (Al : about token l) by (apply A; exists u; exact Q).
    destruct Q as [b [t [a [S' [D' ->]]]]]. rewrite (scalar_unique _ _ D'), <- (scalar_unique _ _ D) in S'. split.
    + intros X. left. exists l, b, a. split; [|split; [exact S'|congruence]]. exists (split text [nl]), before, after. split; [apply split_pieces|auto].
    + intros [[l2 [b2 [a2 [[ls [bf [af [P2 [S2 [Q2 N2]]]]]] [V ->]]]]]|[X _]].
      * apply split_char_iff in P2. rewrite S2 in P2. rewrite S in P2.
        assert (l = l2) as <- by (apply (last_split (about token) before l after bf l2 af); [congruence|exact Al|exact Q2|exact N'|exact N2]).
        destruct (says_det _ _ _ _ _ _ _ S' V) as [_ [_ <-]]. exact L.
      * exfalso. apply (X b a). apply (in_file text l); [rewrite S; apply in_or_app; right; left; reflexivity|exact S'].
  - assert (N' : forall l, In l (split text [nl]) -> ~ about token l).
    { intros l H X. apply A in X. destruct X as [u X]. exact (N l u H X). }
    rewrite L, M. split.
    + intros <-. right. split; [|reflexivity]. intros b a X. destruct (file_line _ _ _ _ X) as [l [Hl S]]. apply (N' l Hl). exists b, a. exact S.
    + intros [[l2 [b2 [a2 [[ls [bf [af [P2 [S2 [Q2 _]]]]]] _]]]]|[_ ->]]; [|reflexivity].
      exfalso. apply split_char_iff in P2. rewrite S2 in P2. apply (N' l2); [rewrite <- P2; apply in_or_app; right; left; reflexivity|exact Q2].
Qed.
Print Assumptions C101_last_setting_counts.

(** *** In the generated files *)

Local Opaque standard_name class_qualified_name python_class_name namespace_from_named_decl.

Lemma wanted_text bind skip file text e c o i : file <> [] -> setup default_config bind skip file (Some text) = Ok c -> not_left_out text i -> wanted (mkworld e c o) i.
Proof.
  intros F E N [p [r [I X]]]. apply N. exists p, r. split; [|exact X]. cbn [wcfg] in I.
  apply (setup_other_lists _ _ _ _ _ includes_to_skip false $"include" F E eq_refl) in I; [exact I|discriminate|discriminate].
Qed.
(** A header asked for a class is included by the file that binds the class, or
    the class it is nested in. *)
Theorem C101_header_for_class : forall bind skip file text e c o visits out g b r r' h i,
  file <> [] -> setup default_config bind skip file (Some text) = Ok c -> run (mkworld e c o) visits = Ok out ->
  In g (out_files out) -> g_skip g = false -> In b (g_items g) -> b_code b <> [] -> b_decl b = DRec r -> with_nested (mkworld e c o) r r' ->
  header_for_key text $"include_for_class" (class_name (mkworld e c o) r') h ->
  i = (if annotate_includes o then h ++ $" // +include_for_class" else h) -> not_left_out text i -> includes (g_text g) i.
Proof.
  intros bind skip file text e c o visits out g b r r' h i F E R Hg K Hb Nc D N H -> NL.
  apply (item_header (mkworld e c o) visits out g b _ R Hg K Hb Nc (wanted_text _ _ _ _ e c o _ F E NL)). left. rewrite D. right.
  assert (I : In ($"include_for_class", KeyedInclude class_includes) directives) by (apply find_kind_In; reflexivity).
  pose proof (proj2 (C101_headers_accumulate bind skip file text c $"include_for_class" class_includes (class_name (mkworld e c o) r') h F E I) H) as J. clear H.
  unfold get_vec, class_name in J. cbn [wcfg] in *.
  destruct (lookup (standard_name (mkworld e c o) (n_qname (r_decl (rec_ (mkworld e c o) r')))) (vecs c class_includes)) as [l|] eqn:L; [|destruct J].
  exists r', l, h. split; [exact N|]. split; [exact L|]. split; [exact J|]. cbn [wopt]. apply eq_refl.
Qed.
Print Assumptions C101_header_for_class.
(** A header asked for a namespace is included by every file of the namespace. *)
Theorem C101_header_for_namespace : forall bind skip file text e c o visits out g h,
  file <> [] -> setup default_config bind skip file (Some text) = Ok c -> run (mkworld e c o) visits = Ok out ->
  In g (out_files out) -> header_for_key text $"include_for_namespace" (g_ns g) h -> not_left_out text h -> includes (g_text g) h.
Proof.
  intros bind skip file text e c o visits out g h F E R Hg H NL.
  destruct (C12_file_includes _ visits out g R Hg) as [l [body [X [_ L]]]]. exists l, body. split; [exact X|]. apply L. split; [|exact (wanted_text _ _ _ _ e c o _ F E NL)].
  left. assert (I : In ($"include_for_namespace", KeyedInclude namespace_includes) directives) by (apply find_kind_In; reflexivity).
  apply (C101_headers_accumulate _ _ _ _ _ _ namespace_includes _ h F E I) in H. unfold get_vec in H.
  cbn [wcfg]. destruct (lookup (g_ns g) (vecs c namespace_includes)) as [l'|] eqn:P; [|destruct H]. exists l'. split; [exact P|exact H].
Qed.
Print Assumptions C101_header_for_namespace.
(** With a binder for the class the code is the call of it and nothing else. *)
Theorem C101_binder_for_class : forall bind skip file text e c o visits out b r f,
  file <> [] -> setup default_config bind skip file (Some text) = Ok c -> const_is_method (mkworld e c o) -> run (mkworld e c o) visits = Ok out ->
  In b (out_sorted out) -> b_code b <> [] -> b_decl b = DRec r -> last_value text $"binder" true (class_name (mkworld e c o) r) f ->
  b_code b = binder_call (mkworld e c o) r f /\ b_prefix b = [].
Proof.
  intros bind skip file text e c o visits out b r f F E CM R Hb Nc D H.
  destruct (C26_code_of_declaration _ visits out b R Hb Nc) as [gc [GC [EC [EP _]]]]. rewrite D in GC. cbn [generate_code] in GC.
  apply (class_binding_spec _ _ CM) in GC.
  assert (I : In ($"binder", Keyed Config.binders true) directives) by (apply find_kind_In; reflexivity).
  apply (C101_last_value_counts _ _ _ _ _ _ Config.binders _ _ f F E I) in H. rewrite EC, EP in *.
  destruct GC as [r P|r binder P B|r ? ? ? ? ? ? ? ? ? ? ? ? ? ? ? ? ? ? NP NB].
  - exfalso. apply Nc. reflexivity.
  - cbn [cb_code cb_prefix]. assert (X : Some binder = Some f) by (rewrite <- B; exact H). injection X as ->. auto.
  - exfalso. assert (X : None = Some f) by (rewrite <- NB; exact H). discriminate X.
Qed.
Print Assumptions C101_binder_for_class.
Lemma value_no_newline text token trims x v : last_value text token trims x v -> ~ In nl v.
Proof.
  intros [line [[ls [bf [af [P [S _]]]]] [a [u [[_ [L _]] [[b [_ [-> _]]] T]]]]]] I. apply split_char_iff in P.
  assert (J : In nl line).
  { assert (Iu : In nl u) by (destruct trims; [destruct T as [p [q [-> _]]]; apply in_or_app; right; apply in_or_app; left; exact I|rewrite <- T; exact I]).
    assert (It : In nl ((if true then "+"%char else "-"%char) :: token ++ sp :: x ++ b :: u)).
    { right. apply in_or_app. right. right. apply in_or_app. right. right. exact Iu. }
    destruct L as [->|[-> _]]; [apply in_or_app; left; exact It|exact It]. }
  apply (split_no_char nl text line); [rewrite <- P, S; apply in_or_app; right; left; reflexivity|exact J].
Qed.
(** With an add-on binder the generated code of the class contains the call. *)
Theorem C101_add_on_for_class : forall bind skip file text e c o visits out b r f,
  file <> [] -> setup default_config bind skip file (Some text) = Ok c -> const_is_method (mkworld e c o) -> run (mkworld e c o) visits = Ok out ->
  In b (out_sorted out) -> b_code b <> [] -> b_decl b = DRec r -> last_value text $"add_on_binder" true (class_name (mkworld e c o) r) f ->
  (forall f', ~ last_value text $"binder" true (class_name (mkworld e c o) r) f') ->
  occurs ([tab] ++ f ++ $"(cl);") (b_code b).
Proof.
  intros bind skip file text e c o visits out b r f F E CM R Hb Nc D H NB'.
  destruct (C26_code_of_declaration _ visits out b R Hb Nc) as [gc [GC [EC _]]]. rewrite D in GC. cbn [generate_code] in GC.
  apply (class_binding_spec _ _ CM) in GC. pose proof (value_no_newline _ _ _ _ _ H) as NN.
  assert (I : In ($"add_on_binder", Keyed add_on_binders true) directives) by (apply find_kind_In; reflexivity).
  assert (I' : In ($"binder", Keyed Config.binders true) directives) by (apply find_kind_In; reflexivity).
  apply (C101_last_value_counts _ _ _ _ _ _ add_on_binders _ _ f F E I) in H. rewrite EC in *.
  assert (G : generated (mkworld e c o) r).
  { split.
    - intros P. destruct GC as [r P'|r binder P' B|r ? ? ? ? ? ? ? ? ? ? ? ? ? ? ? ? ? ? NP NB]; [apply Nc; reflexivity|exact (P' P)|exact (NP P)].
    - cbn [wcfg]. destruct (lookup (class_name (mkworld e c o) r) (maps c Config.binders)) as [f'|] eqn:L; [|reflexivity].
      exfalso. apply (C101_last_value_counts _ _ _ _ _ _ Config.binders _ _ f' F E I') in L. exact (NB' f' L). }
  destruct (class_binding_inv _ _ r gc GC G) as [tramp [st [si X]]]. decompose [ex and] X. clear X.
  match goal with Y : cb_code gc = _ |- _ => rewrite Y end.
  assert (O : forall s t, in_order [t] s -> occurs t s).
  { intros s t Y. inversion Y as [|a t' l s' Y' Q1 Q2]; subst. exists (length a), a, s'. auto. }
  apply O. apply in_order_indent.
  { intros t [<-|[]] J. cbn [app] in J. destruct J as [J|J]; [discriminate J|]. apply in_app_or in J. destruct J as [J|J]; [exact (NN J)|]. repeat (destruct J as [J|J]; [discriminate J|]). destruct J. }
  cbn [wcfg]. rewrite H. cbn [add_on_call].
  do 10 apply in_order_before. apply in_order_more. change ([nl; tab] ++ f ++ $"(cl);" ++ [nl]) with ([nl] ++ [tab] ++ f ++ $"(cl);" ++ [nl]).
  replace ([nl] ++ [tab] ++ f ++ $"(cl);" ++ [nl]) with ([nl] ++ ([tab] ++ f ++ $"(cl);") ++ [nl]) by (rewrite <- !app_assoc; reflexivity). apply in_order_one.
Qed.
Print Assumptions C101_add_on_for_class.
(** With a binder for the namespace its first file contains the call of it and
    its files contain nothing else.  With an add-on binder the first file begins
    with the call. *)
Theorem C101_binder_for_namespace : forall bind skip file text e c o visits out ns f,
  file <> [] -> setup default_config bind skip file (Some text) = Ok c -> run (mkworld e c o) visits = Ok out ->
  (exists b, In b (out_sorted out) /\ b_code b <> [] /\ binder_namespace (mkworld e c o) b = ns) ->
  (last_value text $"binder_for_namespace" true ns f ->
   exists g gs, files_of ns (out_files out) = g :: gs /\ g_body g = [nl; tab] ++ f ++ $"(M(" ++ quoted ns ++ $"));" ++ [nl] /\ (forall g', In g' gs -> g_body g' = [])) /\
  (last_value text $"add_on_binder_for_namespace" true ns f -> (forall f', ~ last_value text $"binder_for_namespace" true ns f') ->
   exists g gs rest, files_of ns (out_files out) = g :: gs /\ g_body g = [nl; tab] ++ f ++ $"(M(" ++ quoted ns ++ $"));" ++ [nl] ++ rest).
Proof.
  intros bind skip file text e c o visits out ns f F E R X.
  destruct (C34_namespace_binder_called_once _ visits out ns R X) as [g [gs [FG [C1 C2]]]].
  assert (IG : forall g', In g' (g :: gs) -> In g' (out_files out) /\ g_ns g' = ns).
  { intros g' J. rewrite <- FG in J. apply filter_In in J. destruct J as [J1 J2]. apply streqb_eq in J2. auto. }
  assert (I : In ($"binder_for_namespace", Keyed binder_for_namespaces true) directives) by (apply find_kind_In; reflexivity).
  assert (I' : In ($"add_on_binder_for_namespace", Keyed add_on_binder_for_namespaces true) directives) by (apply find_kind_In; reflexivity).
  unfold configured_call in C1. cbn [wcfg] in C1. split.
  - intros H. apply (C101_last_value_counts _ _ _ _ _ _ binder_for_namespaces _ _ f F E I) in H. rewrite H in C1.
    assert (B : forall g', In g' (g :: gs) -> g_body g' = g_call g').
    { intros g' J. destruct (IG g' J) as [J1 J2]. destruct (C34_call_comes_first _ visits out g' R J1) as [[k B] S]. rewrite S in B.
      unfold replaced_namespace in B. cbn [wcfg] in B. rewrite J2, H, app_nil_r in B. exact B. }
    exists g, gs. split; [exact FG|]. split.
    + rewrite (B g (or_introl eq_refl)), C1. unfold namespace_call, quoted. rewrite <- !app_assoc. reflexivity.
    + intros g' J. rewrite (B g' (or_intror J)). exact (C2 g' J).
  - intros H N. apply (C101_last_value_counts _ _ _ _ _ _ add_on_binder_for_namespaces _ _ f F E I') in H.
    destruct (lookup ns (maps c binder_for_namespaces)) as [f'|] eqn:L.
    { exfalso. apply (C101_last_value_counts _ _ _ _ _ _ binder_for_namespaces _ _ f' F E I) in L. exact (N f' L). }
    rewrite H in C1. destruct (IG g (or_introl eq_refl)) as [J1 _]. destruct (C34_call_comes_first _ visits out g R J1) as [[k B] _].
    exists g, gs. eexists. split; [exact FG|]. rewrite B, C1. unfold namespace_call, quoted. rewrite <- !app_assoc. reflexivity.
Qed.
Print Assumptions C101_binder_for_namespace.

(** *** The hypotheses are met *)

(** n::A with two lines for its binder, n::B with an add-on binder, m::C in a
    namespace with its own binder; headers for n::B and for the namespace n. *)
Definition dir_text : str := concat (map (fun l => l ++ [nl]) [
  $"+include_for_class n::B <x.hh>"; $"+include_for_namespace n <y.hh>"; $"+binder n::A old"; $"+add_on_binder n::B extra"; $"+binder n::A   fresh ";
  $"+binder_for_namespace m bind_m"; $"+custom_shared std::unique_ptr"; $"-custom_shared my :: ptr"; $"-include <z"]).
Definition dir_config : config := match setup default_config [$"n"; $"m"] [] $"c" (Some dir_text) with Ok c => c | _ => default_config end.
Definition dir_env : env := tu [cls (nm $"A" $"n::A" $"<a.hh>") 0 [] []; cls (nm $"B" $"n::B" $"<b.hh>") 1 [] []; cls (nm $"C" $"m::C" $"<c.hh>") 2 [] []]
  [] [] (fun r => nth r [$"class n::A"; $"class n::B"; $"class m::C"] []) (fun _ => []).
Definition dir_w : world := mkworld dir_env dir_config (mix_options false false 1000%N).
Lemma dir_setup : setup default_config [$"n"; $"m"] [] $"c" (Some dir_text) = Ok dir_config.
Proof. unfold dir_config. destruct (setup default_config [$"n"; $"m"] [] $"c" (Some dir_text)) as [c| | | |] eqn:E; [reflexivity|vm_compute in E; discriminate E..]. Qed.
Lemma dir_token t k : find_kind t directives = Some k -> In (t, k) directives.
Proof. apply find_kind_In. Qed.
Example C101_case :
  last_value dir_text $"binder" true (class_name dir_w 0) $"fresh" /\ ~ last_value dir_text $"binder" true (class_name dir_w 0) $"old" /\
  (forall f, ~ last_value dir_text $"binder" true (class_name dir_w 1) f) /\ last_value dir_text $"add_on_binder" true (class_name dir_w 1) $"extra" /\
  last_value dir_text $"binder_for_namespace" true $"m" $"bind_m" /\
  header_for_key dir_text $"include_for_class" (class_name dir_w 1) $"<x.hh>" /\ header_for_key dir_text $"include_for_namespace" $"n" $"<y.hh>" /\
  not_left_out dir_text $"<x.hh>" /\ not_left_out dir_text $"<y.hh>" /\ ~ not_left_out dir_text $"<z.hh>" /\
  last_setting dir_text $"custom_shared" $"my::ptr".
Proof.
  assert (F : $"c" <> []) by discriminate.
  assert (LI : forall p, listed dir_text false $"include" p <-> p = $"<z").
  { intros p. rewrite <- (setup_other_lists _ _ _ _ _ includes_to_skip false $"include" F dir_setup eq_refl ltac:(discriminate) ltac:(discriminate) p).
    assert (X : lists dir_config includes_to_skip = [$"<z"]) by (vm_compute; reflexivity). rewrite X. cbn [In]. intuition. }
  assert (B : forall x v, lookup x (maps dir_config Config.binders) = Some v <-> last_value dir_text $"binder" true x v).
  { intros x v. apply (C101_last_value_counts _ _ _ _ _ _ _ _ x v F dir_setup). apply dir_token. reflexivity. }
  split; [apply B; vm_compute; reflexivity|]. split; [intros X; apply B in X; vm_compute in X; discriminate X|].
  split; [intros f X; apply B in X; vm_compute in X; discriminate X|].
  split; [apply (C101_last_value_counts [$"n"; $"m"] [] $"c" dir_text dir_config $"add_on_binder" add_on_binders true _ _ F dir_setup); [apply dir_token; reflexivity|vm_compute; reflexivity]|].
  split; [apply (C101_last_value_counts [$"n"; $"m"] [] $"c" dir_text dir_config $"binder_for_namespace" binder_for_namespaces true _ _ F dir_setup); [apply dir_token; reflexivity|vm_compute; reflexivity]|].
  split; [apply (fun x h => proj1 (C101_headers_accumulate [$"n"; $"m"] [] $"c" dir_text dir_config $"include_for_class" class_includes x h F dir_setup (dir_token $"include_for_class" _ eq_refl))); vm_compute; left; reflexivity|].
  split; [apply (fun x h => proj1 (C101_headers_accumulate [$"n"; $"m"] [] $"c" dir_text dir_config $"include_for_namespace" namespace_includes x h F dir_setup (dir_token $"include_for_namespace" _ eq_refl))); vm_compute; left; reflexivity|].
  split; [intros [p [r [L X]]]; apply LI in L; subst p; discriminate X|].
  split; [intros [p [r [L X]]]; apply LI in L; subst p; discriminate X|].
  split; [intros X; apply X; exists $"<z", $".hh>"; split; [apply LI; reflexivity|reflexivity]|].
  assert (S : strs dir_config holder_type = $"my::ptr") by (vm_compute; reflexivity).
  apply (C101_last_setting_counts [$"n"; $"m"] [] $"c" dir_text dir_config $"custom_shared" holder_type _ F dir_setup) in S; [|apply dir_token; reflexivity].
  destruct S as [S|[_ S]]; [exact S|discriminate S].
Qed.
Example C101_files_case : const_is_method dir_w /\ let out := out_of dir_w [DRec 0; DRec 1; DRec 2] in run dir_w [DRec 0; DRec 1; DRec 2] = Ok out /\
  map (fun g => (g_ns g, g_skip g, map b_decl (g_items g))) (out_files out) = [($"n", false, [DRec 0; DRec 1]); ($"m", true, [DRec 2])] /\
  map (fun b => match b_code b with [] => false | _ => true end) (out_sorted out) = [true; true; true] /\
  map g_body (out_files out) = [$"	// n::A file:a.hh line:
	fresh(M(""n""));

	{ // n::B file:b.hh line:
		pybind11::class_<n::B, my::ptr<n::B>> cl(M(""n""), ""B"", """");
		cl.def( pybind11::init( [](){ return new n::B(); } ) );

		extra(cl);
	}
"; $"
	bind_m(M(""m""));
"].
Proof. split; [intros f; destruct f; intros X; discriminate X|]. vm_compute. repeat split; reflexivity. Qed.
