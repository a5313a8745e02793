(** Proofs about names and headers (Types.v). *)
From Coq Require Import Ascii String Bool Arith NArith Lia.
From Coq Require Import List.
From Verif Require Import Str StrFacts SpecUtil Util UtilFacts Config SpecConfig ConfigFacts Ast Types Func Enum Regex RegexFacts SpecTypes ContextFacts TypesFacts.
Import ListNotations.

(** ** Enums *)
Lemma precedence_1 (s1 b1 : bool) (S1 B1 R : Prop) (rest : result bool) b :
  (s1 = true <-> S1) -> (b1 = true <-> B1) -> (forall v, rest = Ok v -> (v = true <-> R)) ->
  (if s1 then Ok true else if b1 then Ok false else rest) = Ok b -> (b = true <-> S1 \/ (~ S1 /\ ~ B1 /\ R)).
Proof.
  intros H1 H2 HR E. destruct s1; [apply Ok_inj in E; subst b; intuition|]. destruct b1; [apply Ok_inj in E; subst b; intuition discriminate|].
  rewrite (HR b E). intuition discriminate.
Qed.
Lemma precedence_0 (b1 : bool) (B1 R : Prop) (rest : result bool) b :
  (b1 = true <-> B1) -> (forall v, rest = Ok v -> (v = true <-> R)) -> (if b1 then Ok true else rest) = Ok b -> (b = true <-> B1 \/ (~ B1 /\ R)).
Proof. intros H1 HR E. destruct b1; [apply Ok_inj in E; subst b; intuition|]. rewrite (HR b E). intuition discriminate. Qed.
Lemma skip_enum_iff w e b : is_skipping_requested_enum w e = Ok b -> (b = true <-> enum_skipped w e).
Proof.
  unfold is_skipping_requested_enum, is_enum_skipping_requested, is_enum_binding_requested; cbv zeta. intros E.
  assert (G : enum_skipped w e <-> In (standard_name w (n_qname (e_decl e))) (lists (wcfg w) enums_to_skip) \/
    (~ In (standard_name w (n_qname (e_decl e))) (lists (wcfg w) enums_to_skip) /\ ~ In (standard_name w (n_qname (e_decl e))) (lists (wcfg w) enums_to_bind) /\
     namespace_skipped w (namespace_from_named_decl w (e_decl e)))).
  { clear E. split.
    - intros H; destruct H as [H|H1 H2 H3]; [left; exact H|right; split; [exact H1|split; [exact H2|exact H3]]].
    - intros [H|[H1 [H2 H3]]]; [exact (ES_listed w e H)|exact (ES_namespace w e H1 H2 H3)]. }
  rewrite G. clear G. revert E. generalize (standard_name w (n_qname (e_decl e))) as nm. intros nm E.
  exact (precedence_1 _ _ _ _ _ _ _ (mem_In nm (lists (wcfg w) enums_to_skip)) (mem_In nm (lists (wcfg w) enums_to_bind)) (ns_skip_iff w (namespace_from_named_decl w (e_decl e))) E).
Qed.
Lemma bind_enum_iff w e b : is_binding_requested_enum w e = Ok b -> (b = true <-> enum_requested w e).
Proof.
  unfold is_binding_requested_enum, is_enum_binding_requested. intros E.
  pose proof (precedence_0 (mem (n_qname (e_decl e)) (lists (wcfg w) enums_to_bind)) (In (n_qname (e_decl e)) (lists (wcfg w) enums_to_bind))
    (namespace_requested w (namespace_from_named_decl w (e_decl e))) (is_namespace_binding_requested (wcfg w) (namespace_from_named_decl w (e_decl e))) b
    (mem_In _ _) (ns_bind_iff w (namespace_from_named_decl w (e_decl e))) E) as P.
  clear E. split.
  - intros H; apply (proj1 P) in H. destruct H as [H|[_ H]]; [exact (ER_listed w e H)|exact (ER_namespace w e H)].
  - intros H. apply (proj2 P). destruct H as [H|H]; [left; exact H|]. destruct (in_dec str_eq_dec (n_qname (e_decl e)) (lists (wcfg w) enums_to_bind)) as [D|D]; [left; exact D|right; exact (conj D H)].
Qed.
Lemma skip_enum_ok w e : namespaces_consistent w -> exists b, is_skipping_requested_enum w e = Ok b.
Proof. intros C. unfold is_skipping_requested_enum; cbv zeta. destruct (is_enum_skipping_requested _ _); [eauto|]. destruct (is_enum_binding_requested _ _); [eauto|]. apply ns_skip_ok, C. Qed.
Lemma bind_enum_ok w e : namespaces_consistent w -> exists b, is_binding_requested_enum w e = Ok b.
Proof. intros C. unfold is_binding_requested_enum. destruct (is_enum_binding_requested _ _); [eauto|]. apply ns_bind_ok, C. Qed.

(** ** Abbreviations *)
(** The text of a pattern, given what the groups matched; [i]: number of the
    next group. *)
Fixpoint render (p : list tok) (caps : list str) (i : nat) : str :=
  match p with
  | [] => []
  | Chr c :: p' => c :: render p' caps i
  | Group :: p' => nth i caps [] ++ render p' caps (S i)
  | Blanks :: p' => render p' caps i
  | Ref n :: p' => nth (n - 1) caps [] ++ render p' caps i
  end.
Fixpoint groups (p : list tok) : nat := match p with [] => 0 | Group :: p' => S (groups p') | _ :: p' => groups p' end.
Lemma nospace_app a b : nospace (a ++ b) = nospace a ++ nospace b.
Proof. apply remove_char_app. Qed.
Lemma nospace_blanks n : nospace (repeat " "%char n) = [].
Proof. induction n as [|n IH]; [reflexivity|exact IH]. Qed.
Lemma nospace_cons c s : nospace (c :: s) = nospace [c] ++ nospace s.
Proof. exact (remove_char_app sp [c] s). Qed.
Lemma match_render p caps m caps' : rmatch p caps m caps' ->
  (exists new, caps' = caps ++ new /\ length new = groups p) /\ nospace m = nospace (render p caps' (length caps)).
Proof.
  induction 1 as [caps|c p caps s caps' H [[new [IH1 IH2]] IH]|x p caps s caps' H [[new [IH1 IH2]] IH]|n p caps s caps' H [[new [IH1 IH2]] IH]|n x p caps s caps' E H [[new [IH1 IH2]] IH]].
  - split; [exists []; rewrite app_nil_r; auto|reflexivity].
  - split; [exists new; auto|]. cbn [render]. rewrite (nospace_cons c s), (nospace_cons c (render _ _ _)), IH; reflexivity.
  - split; [exists (x :: new); rewrite IH1, <- app_assoc; cbn; auto|]. cbn [render]. rewrite !nospace_app, IH, app_length, Nat.add_1_r.
    rewrite IH1 at 2. rewrite <- app_assoc, app_nth2, Nat.sub_diag by lia. reflexivity.
  - split; [exists new; auto|]. cbn [render]. rewrite nospace_app, nospace_blanks, IH; reflexivity.
  - split; [exists new; auto|]. cbn [render]. rewrite !nospace_app, IH. f_equal. f_equal.
    rewrite IH1, app_nth1 by (apply nth_error_Some; congruence). symmetry; apply nth_error_nth, E.
Qed.
Lemma sub_shortens p t s s' rule : sub_spec p t s s' ->
  (forall caps, length caps = groups p -> exists full, nospace (render p caps 0) = nospace full /\ rule full (expand t caps)) ->
  s' = s \/ shortens rule s s'.
Proof.
  intros [[_ H]|[a [m [z [caps [[E M] [H _]]]]]]] R; [left; exact H|right].
  destruct (match_render _ _ _ _ M) as [[new [E1 E2]] E3]. cbn in E1, E3. subst new. destruct (R caps E2) as [full [R1 R2]].
  exists a, m, z, full, (expand t caps); repeat split; auto. congruence.
Qed.
Definition any_rule (full short : str) : Prop := with_defaults full short \/ multiset_rule full short.
Lemma caps_1 (caps : list str) : length caps = 1 -> exists x, caps = [x].
Proof. destruct caps as [|x [|]]; try discriminate; eauto. Qed.
Lemma caps_2 (caps : list str) : length caps = 2 -> exists x y, caps = [x; y].
Proof. destruct caps as [|x [|y [|]]]; try discriminate; eauto. Qed.
Lemma caps_3 (caps : list str) : length caps = 3 -> exists x y z, caps = [x; y; z].
Proof. destruct caps as [|x [|y [|z [|]]]]; try discriminate; eauto. Qed.
Definition solid (p : list tok) : list tok :=
  filter (fun k => match k with Blanks => false | Chr c => negb (Ascii.eqb c sp) | _ => true end) p.
Lemma nospace_solid p caps : forall i, nospace (render p caps i) = nospace (render (solid p) caps i).
Proof.
  induction p as [|k p IH]; intros i; [reflexivity|]. unfold solid; cbn [filter]; fold (solid p). destruct k as [c| | |n]; cbn [render].
  - destruct (Ascii.eqb_spec c sp) as [->|N]; cbn [negb render]; [rewrite <- IH; reflexivity|].
    rewrite (nospace_cons c (render p caps i)), (nospace_cons c (render (solid p) caps i)), IH; reflexivity.
  - rewrite !nospace_app, IH; reflexivity.
  - apply IH.
  - rewrite !nospace_app, IH; reflexivity.
Qed.
Lemma same_solid p q caps i : solid p = solid q -> nospace (render p caps i) = nospace (render q caps i).
Proof. intros E; rewrite (nospace_solid p), (nospace_solid q), E; reflexivity. Qed.
Definition form (e : str * str) : Prop :=
  forall caps, length caps = groups (parse_regex (fst e)) ->
    exists full, nospace (render (parse_regex (fst e)) caps 0) = nospace full /\ any_rule full (expand (parse_template (snd e)) caps).
Ltac by_form q :=
  match goal with |- context [expand _ ?caps] => exists (render (parse_regex q) caps 0); split; [apply same_solid; vm_compute; reflexivity|] end.
Lemma table_forms : Forall form regex_table.
Proof.
  unfold regex_table. apply Forall_forall; cbn [In]. intros e He.
  repeat (destruct He as [<-|He]; [intros caps L|]); [..|destruct He].
  - destruct (caps_1 caps L) as [x ->]. by_form $"list<(.*), std::allocator<\1> >". left; exact (WD_sequence $"list" x ltac:(cbn; tauto)).
  - destruct (caps_1 caps L) as [x ->]. by_form $"deque<(.*), std::allocator<\1> >". left; exact (WD_sequence $"deque" x ltac:(cbn; tauto)).
  - destruct (caps_1 caps L) as [x ->]. by_form $"vector<(.*), std::allocator<\1> >". left; exact (WD_sequence $"vector" x ltac:(cbn; tauto)).
  - destruct (caps_1 caps L) as [x ->]. by_form $"set<(.*), std::less<\1>, std::allocator<\1> >". left; exact (WD_set x).
  - destruct (caps_1 caps L) as [x ->]. by_form $"forward_list<(.*), std::allocator<\1> >". left; exact (WD_sequence $"forward_list" x ltac:(cbn; tauto)).
  - destruct (caps_2 caps L) as [x [y ->]]. by_form $"map<(.*),(.*), std::less<\1>, std::allocator<std::pair<const \1, \2> > >". left; exact (WD_map $"map" x y ltac:(cbn; tauto)).
  - destruct (caps_3 caps L) as [x [y [z ->]]]. by_form $"multiset<(.*), std::less<(.*)>, std::allocator<(.*)>>". right; exists x, y, z; split; reflexivity.
  - destruct (caps_2 caps L) as [x [y ->]]. by_form $"multimap<(.*),(.*), std::less<\1>, std::allocator<std::pair<const \1, \2> > >". left; exact (WD_map $"multimap" x y ltac:(cbn; tauto)).
  - destruct (caps_1 caps L) as [x ->]. by_form $"unordered_set<(.*), std::hash<\1>, std::equal_to<\1>, std::allocator<\1> >". left; exact (WD_unordered_set $"unordered_set" x ltac:(cbn; tauto)).
  - destruct (caps_2 caps L) as [x [y ->]]. by_form $"unordered_map<(.*),(.*), std::hash<\1>, std::equal_to<\1>, std::allocator<std::pair<const \1, \2> > >". left; exact (WD_unordered_map $"unordered_map" x y ltac:(cbn; tauto)).
  - destruct (caps_1 caps L) as [x ->]. by_form $"unordered_multiset<(.*), std::hash<\1>, std::equal_to<\1>, std::allocator<\1> >". left; exact (WD_unordered_set $"unordered_multiset" x ltac:(cbn; tauto)).
  - destruct (caps_2 caps L) as [x [y ->]]. by_form $"unordered_multimap<(.*),(.*), std::hash<\1>, std::equal_to<\1>, std::allocator<std::pair<const \1, \2> > >". left; exact (WD_unordered_map $"unordered_multimap" x y ltac:(cbn; tauto)).
Qed.
Lemma steps_trans R a b c : steps R a b -> steps R b c -> steps R a c.
Proof. induction 1; [auto|]. intros H1; eapply ST_step; eauto. Qed.
Lemma pass_steps fs : regex_engine fs -> forall s, steps (shortens any_rule) s (pass fs s).
Proof.
  intros H s. unfold pass.
  assert (G : forall l, incl l fs -> forall s, steps (shortens any_rule) s (fold_left (fun r f => f r) l s)).
  { induction l as [|f l IH]; intros I s0; cbn [fold_left]; [apply ST_refl|]. eapply steps_trans; [|apply IH; intros g Hg; apply I; right; exact Hg].
    destruct (engine_entry fs f H (I f (or_introl eq_refl))) as [e [He S]].
    destruct (sub_shortens _ _ _ _ any_rule (S s0) (proj1 (Forall_forall _ _) table_forms e He)) as [E|E]; [rewrite E; apply ST_refl|eapply ST_step; [exact E|apply ST_refl]]. }
  apply G. intros g Hg; exact Hg.
Qed.
Lemma simplify_steps fs : regex_engine fs -> forall s, In (s, simplify_std_class_name fs s) std_typedef_map \/ steps (shortens any_rule) s (simplify_std_class_name fs s).
Proof.
  intros H s. destruct (lookup s std_typedef_map) as [r|] eqn:E.
  - left. unfold simplify_std_class_name, simplify_opt. rewrite E. apply lookup_In, E.
  - right. destruct (simplify_final fs H s) as [_ [_ [K|[k K]]]]; [apply lookup_None in E; contradiction|]. rewrite K. clear K.
    induction k as [|k IH]; [apply ST_refl|]. eapply steps_trans; [exact IH|]. apply (pass_steps fs H).
Qed.

(** ** Names that mention nothing special are unchanged *)
Lemma replace_absent s from to : from <> [] -> ~ occurs from s -> replace s from to = s.
Proof. intros N O. symmetry. apply (replace_spec s from to N). apply LR_none, O. Qed.
Lemma fold_replace_absent m s : (forall k v, In (k, v) m -> k <> [] /\ ~ occurs k s) -> fold_left (fun r p => replace r (fst p) (snd p)) m s = s.
Proof.
  induction m as [|[k v] m IH]; intros H; [reflexivity|]. cbn [fold_left fst snd]. destruct (H k v (or_introl eq_refl)) as [H1 H2].
  rewrite (replace_absent s k v H1 H2). apply IH; intros k' v' Hk; apply (H k' v'); right; exact Hk.
Qed.
Lemma fix_absent s : ~ occurs $"_Bool" s -> fix_boolean_types s = s.
Proof.
  intros O. symmetry. apply fix_boolean_spec. rewrite <- (app_nil_r s). apply bool_fixed_copy; [|apply BF_nil].
  intros j Hj. rewrite app_nil_r in *. apply not_true_iff_false; intros P. apply O. exists j. apply prefixb_occurs; [lia|exact P].
Qed.
Lemma ordinary_name w s : (forall k, In k (map fst name_map) -> ~ occurs k s) -> ~ starts $"std::" s -> ~ occurs $"_Bool" s -> standard_name w s = s.
Proof.
  intros H1 H2 H3. unfold standard_name, standard_name_raw. rewrite fold_replace_absent.
  - destruct (begins_with s $"std::") eqn:E; [apply starts_iff in E; contradiction|]. cbv zeta. apply fix_absent, H3.
  - intros k v Hk. split; [|apply H1, (in_map fst _ _ Hk)]. intros ->. revert Hk. unfold name_map; cbn [In]. intros Hk. repeat (destruct Hk as [Hk|Hk]; [discriminate Hk|]). destruct Hk.
Qed.

(** ** Includes *)
Lemma until_spec c s : (~ In c s -> until c s = s) /\ forall a b, s = a ++ c :: b -> ~ In c a -> until c s = a ++ [c].
Proof.
  split.
  - induction s as [|x s IH]; intros N; [reflexivity|]. cbn [until]. destruct (Ascii.eqb_spec x c) as [->|]; [exfalso; apply N; left; reflexivity|]. f_equal; apply IH; intros H; apply N; right; exact H.
  - intros a b -> N. induction a as [|x a IH]; cbn [until app]; [rewrite Ascii.eqb_refl; reflexivity|].
    destruct (Ascii.eqb_spec x c) as [->|]; [exfalso; apply N; left; reflexivity|]. f_equal; apply IH; intros H; apply N; right; exact H.
Qed.
Lemma include_sound data r : directive_text data r -> forall n, n_include n = Some data -> relevant_include n = r.
Proof.
  intros H n E. unfold relevant_include; rewrite E; cbv zeta. destruct H as [body rest N L|body N L].
  - assert (T : (2 <? length ("<"%char :: body ++ ">"%char :: rest)) = true).
    { apply Nat.ltb_lt. cbn [length]. rewrite app_length; cbn [length]. destruct body; [destruct rest; [exfalso; apply L; reflexivity|cbn [length]; lia]|cbn [length]; lia]. }
    rewrite T. cbn [Ascii.eqb]. rewrite (proj2 (until_spec ">"%char _) body rest eq_refl N). reflexivity.
  - assert (T : (2 <? length ("<"%char :: body)) = true) by (apply Nat.ltb_lt; cbn [length]; lia).
    rewrite T. cbn [Ascii.eqb]. rewrite (proj1 (until_spec ">"%char _) N). reflexivity.
Qed.
Lemma include_none data : (forall r, ~ directive_text data r) -> forall n, n_include n = Some data -> relevant_include n = [].
Proof.
  intros H n E. unfold relevant_include; rewrite E; cbv zeta. destruct (2 <? length data) eqn:T; [|reflexivity]. apply Nat.ltb_lt in T.
  destruct data as [|c data]; [reflexivity|]. destruct (Ascii.eqb_spec c dq) as [->|]; [reflexivity|].
  destruct (Ascii.eqb_spec c "<") as [->|]; [|reflexivity]. exfalso.
  destruct (in_dec Ascii.ascii_dec ">"%char data) as [I|I].
  - destruct (find_char data ">") as [i|] eqn:F; [|apply find_char_None in F; contradiction]. apply find_char_Some in F. destruct F as [a [b [-> [_ N]]]].
    apply (H ("<"%char :: a ++ [">"%char])). apply IT_angle; [exact N|]. intros Z; apply app_eq_nil in Z; destruct Z as [-> ->]; cbn in T; lia.
  - apply (H ("<"%char :: data)). apply IT_unterminated; [exact I|cbn [length] in T; lia].
Qed.

(** ** Headers *)
Lemma find_prefix_Some name m h : find_prefix name m = Some h -> exists p, In (p, h) m /\ starts p name.
Proof.
  induction m as [|[p i] m IH]; cbn [find_prefix]; [discriminate|]. destruct (begins_with name p) eqn:B.
  - intros E; injection E as ->. exists p; split; [left; reflexivity|apply starts_iff, B].
  - intros E; destruct (IH E) as [q [H1 H2]]; exists q; split; [right; exact H1|exact H2].
Qed.
Lemma find_prefix_None name m : find_prefix name m = None -> forall p, In p (map fst m) -> ~ starts p name.
Proof.
  induction m as [|[p i] m IH]; cbn [find_prefix map In fst]; [intros _ p []|]. destruct (begins_with name p) eqn:B; [discriminate|].
  intros E q [<-|Hq]; [rewrite <- starts_iff, B; discriminate|apply IH; assumption].
Qed.
Lemma header_found name include : header_for name include (header_of name include).
Proof.
  unfold header_of. destruct (lookup name type_map) as [h|] eqn:E1; [apply HF_name, lookup_In, E1|]. apply lookup_None in E1.
  destruct (find_prefix name name_map_old) as [h|] eqn:E2.
  - apply find_prefix_Some in E2. destruct E2 as [p [H1 H2]]. eapply HF_prefix; eauto.
  - pose proof (find_prefix_None _ _ E2) as N. destruct (lookup include include_map) as [h|] eqn:E3; [apply HF_public; auto; apply lookup_In, E3|apply lookup_None in E3; apply HF_itself; assumption].
Qed.
(** The tables give one answer. *)
Definition functional (m : list (str * str)) : bool :=
  forallb (fun a => forallb (fun b => negb (streqb (fst a) (fst b)) || streqb (snd a) (snd b)) m) m.
Lemma functional_spec m : functional m = true -> forall k v1 v2, In (k, v1) m -> In (k, v2) m -> v1 = v2.
Proof.
  unfold functional; intros F k v1 v2 H1 H2. rewrite forallb_forall in F. specialize (F _ H1). cbv beta in F. rewrite forallb_forall in F. specialize (F _ H2). cbn [fst snd] in F.
  rewrite streqb_refl in F. apply streqb_eq in F; exact F.
Qed.
Definition prefix_free (m : list (str * str)) : bool :=
  forallb (fun a => forallb (fun b => negb (prefixb (fst a) (fst b)) || streqb (snd a) (snd b)) m) m.
Lemma prefix_comparable (p q s : str) : starts p s -> starts q s -> prefixb p q = true \/ prefixb q p = true.
Proof.
  intros [x ->] [y E]. revert q E. induction p as [|c p IH]; intros [|d q] E; cbn [prefixb]; auto.
  cbn in E; injection E as <- E. rewrite !Ascii.eqb_refl. apply IH, E.
Qed.
Lemma prefix_free_spec m : prefix_free m = true -> forall p1 v1 p2 v2 s, In (p1, v1) m -> In (p2, v2) m -> starts p1 s -> starts p2 s -> v1 = v2.
Proof.
  unfold prefix_free; intros F p1 v1 p2 v2 s H1 H2 S1 S2. rewrite forallb_forall in F.
  pose proof (F _ H1) as F1. pose proof (F _ H2) as F2. cbv beta in F1, F2. rewrite forallb_forall in F1, F2. specialize (F1 _ H2). specialize (F2 _ H1). cbn [fst snd] in F1, F2.
  destruct (prefix_comparable p1 p2 s S1 S2) as [P|P]; [rewrite P in F1; apply streqb_eq in F1; exact F1|rewrite P in F2; apply streqb_eq in F2; auto].
Qed.
Lemma header_unique name include h1 h2 : header_for name include h1 -> header_for name include h2 -> h1 = h2.
Proof.
  assert (T1 : functional type_map = true) by (vm_compute; reflexivity). assert (T2 : functional include_map = true) by (vm_compute; reflexivity).
  assert (T3 : prefix_free name_map_old = true) by (vm_compute; reflexivity).
  intros [a A|p a A1 A2 A3|a A1 A2 A3|A1 A2 A3] [b B|q b B1 B2 B3|b B1 B2 B3|B1 B2 B3]; try reflexivity;
    try (exfalso; apply (in_map fst) in A; cbn [fst] in A; contradiction); try (exfalso; apply (in_map fst) in B; cbn [fst] in B; contradiction).
  - exact (functional_spec _ T1 _ _ _ A B).
  - exact (prefix_free_spec _ T3 _ _ _ _ _ A2 B2 A3 B3).
  - exfalso; exact (B2 p (in_map fst _ _ A2) A3).
  - exfalso; exact (B2 p (in_map fst _ _ A2) A3).
  - exfalso; exact (A2 q (in_map fst _ _ B2) B3).
  - exact (functional_spec _ T2 _ _ _ A3 B3).
  - exfalso; apply B3. exact (in_map fst _ _ A3).
  - exfalso; exact (A2 q (in_map fst _ _ B2) B3).
  - exfalso; apply A3. exact (in_map fst _ _ B3).
Qed.
Lemma include_name_found w d : header_name w d (include_name w d).
Proof.
  unfold include_name. cbv zeta. destruct (n_member (named_of (wenv w) d)) eqn:M; [|apply HN_free; exact M].
  destruct d as [f|r|e]; cbn [named_of] in *.
  - destruct (f_method (fun_ w f)) eqn:F; [|apply HN_other; assumption].
    destruct (n_parent (f_decl (funs (wenv w) f))) as [p|] eqn:P; [|apply HN_lost_method; assumption].
    destruct (n_member (r_decl (rec_ w p))) eqn:N; [|eapply HN_method; eassumption].
    destruct (n_parent (r_decl (rec_ w p))) as [q|] eqn:Q; cbn [qname_of_parent]; [eapply HN_inner_method|eapply HN_lost_inner_method]; eassumption.
  - destruct (n_parent (r_decl (recs (wenv w) r))) as [p|] eqn:P; cbn [qname_of_parent]; [eapply HN_class|eapply HN_lost_class]; eassumption.
  - apply HN_enum; assumption.
Qed.
Lemma header_name_found w d n : header_name w d n -> include_name w d = n.
Proof.
  intros H. unfold include_name, fun_, rec_, enum_ in *. cbv zeta.
  inversion H; subst; cbn [named_of] in *; unfold fun_, rec_, enum_ in *;
    repeat match goal with X : _ = _ |- _ => rewrite X; clear X end; reflexivity.
Qed.
Lemma header_public name include h : header_for name include h -> ~ In h (map fst include_map).
Proof.
  assert (G : forall m : list (str * str), forallb (fun a => negb (mem (snd a) (map fst include_map))) m = true -> forall k v, In (k, v) m -> ~ In v (map fst include_map)).
  { intros m F k v H. rewrite forallb_forall in F. specialize (F _ H). cbn [snd] in F. apply negb_true in F. apply mem_false in F; exact F. }
  intros [a A|p a A1 A2 A3|a A1 A2 A3|A1 A2 A3].
  - apply (G type_map) with name; [vm_compute; reflexivity|exact A].
  - apply (G name_map_old) with p; [vm_compute; reflexivity|exact A2].
  - apply (G include_map) with include; [vm_compute; reflexivity|exact A3].
  - exact A3.
Qed.

(** ** Template arguments *)
Lemma last_is_iff s c : last_is s c = true <-> exists s', s = s' ++ [c].
Proof.
  destruct (list_eq_dec Ascii.ascii_dec s []) as [->|N]; [split; [discriminate|intros [[|] E]; discriminate]|].
  destruct (exists_last N) as [s' [x ->]]. rewrite last_is_snoc. split.
  - intros E; apply Ascii.eqb_eq in E; subst; eauto.
  - intros [t E]; apply app_inj_tail in E; destruct E as [_ ->]; apply Ascii.eqb_refl.
Qed.
Lemma strip_angles_spec a s : argument_text a s -> strip_angles (arg_text a) = s.
Proof.
  intros [p [[k ->] H]]. cbn [arg_text]. destruct H as [->|[-> N]].
  - cbn [strip_angles Ascii.eqb]. change ("<"%char :: s ++ [">"%char]) with (("<"%char :: s) ++ [">"%char]). rewrite last_is_snoc.
    change (Ascii.eqb "<" "<" && Ascii.eqb ">" ">") with true. unfold substr. rewrite app_length. cbn [length app skipn].
    replace (S (length s) + 1 - 2) with (length s) by lia. apply firstn_app_exact.
  - destruct s as [|c s]; [reflexivity|]. cbn [strip_angles]. destruct (Ascii.eqb_spec c "<") as [->|]; [|reflexivity].
    destruct (last_is ("<"%char :: s) ">") eqn:L; [|reflexivity]. exfalso. apply last_is_iff in L. destruct L as [t E].
    destruct t as [|d t]; [discriminate E|]. cbn in E. injection E as <- ->. exact (N t eq_refl).
Qed.
Definition kept (l : list str) : list str := filter (fun a => match a with [] => false | _ => true end) l.
Lemma spec_fold args acc : fold_left (fun templ t => let a := strip_angles (arg_text t) in match a with [] => templ | _ => templ ++ a ++ $"," end) args acc =
  acc ++ concat (map (fun a => a ++ $",") (kept (map (fun t => strip_angles (arg_text t)) args))).
Proof.
  revert acc; induction args as [|t args IH]; intros acc; cbn [fold_left map kept filter concat]; [rewrite app_nil_r; reflexivity|].
  rewrite IH. cbv zeta. destruct (strip_angles (arg_text t)) as [|c a]; [reflexivity|]. cbn [map concat]. fold kept. rewrite <- !app_assoc. reflexivity.
Qed.
Lemma commas_concat l body : commas l body -> concat (map (fun a => a ++ $",") l) = body ++ $",".
Proof.
  induction 1 as [x|x l s H IH]; cbn [map concat]; [rewrite app_nil_r; reflexivity|]. rewrite IH, <- !app_assoc. reflexivity.
Qed.
Lemma set_last_snoc c s d : set_last c (s ++ [d]) = s ++ [c].
Proof. unfold set_last. rewrite removelast_last. reflexivity. Qed.
Lemma spec_text_spec args texts : Forall2 argument_text args texts ->
  (kept texts = [] -> spec_text args = $">") /\ (forall body, commas (kept texts) body -> spec_text args = $"<" ++ body ++ $">").
Proof.
  intros F. assert (E : map (fun t => strip_angles (arg_text t)) args = texts).
  { induction F as [|a s l m H F IH]; [reflexivity|]. cbn [map]. rewrite (strip_angles_spec a s H), IH; reflexivity. }
  unfold spec_text. rewrite spec_fold, E. split.
  - intros ->. reflexivity.
  - intros body C. rewrite (commas_concat _ _ C). change (set_last ">" ("<"%char :: body ++ [","%char]) = "<"%char :: body ++ [">"%char]). exact (set_last_snoc ">" ("<"%char :: body) ",").
Qed.
