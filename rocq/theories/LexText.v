(** Generated statements are lexically well formed. *)
From Coq Require Import Ascii String Bool Arith NArith Lia.
From Coq Require Import List.
From Verif Require Import Str StrFacts SpecUtil Util UtilFacts Config Ast Types Func Enum Includes Class Context SpecTypes SpecBind SpecClass SpecContext SpecIncludes SpecOutput TypesFacts BindFacts ClassFacts StructFacts WriteFacts SpecLex LexFacts.
Import ListNotations.

Local Opaque standard_name class_qualified_name python_class_name callback_structure_name namespace_from_named_decl function_qualified_name
  fun_specialization rec_specialization print documentation_string dec relevant_include function_arguments fix_boolean_types mangle_type_name
  scan_from indent.
Create HintDb lex.
#[local] Hint Constants Opaque : lex.
#[local] Hint Resolve tidy_code tidy_lit tidy_rest name_lit name_rest plain_lit one_line_rest plain_one_line name_passes tidy_is_name dec_code dec_rest dec_plain documentation_lit keeps_nil : lex.

Ltac lex_const := match goal with |- scan_from ?p ?a = _ =>
  let r := eval vm_compute in (scan_from p a) in refine (eq_trans (y := r) _ eq_refl); vm_compute; reflexivity end.
Ltac is_const a := lazymatch a with list_ascii_of_string _ => idtac | [] => idtac | _ :: ?l => is_const l end.
Ltac lex_atom := match goal with |- scan_from (Some (?m, ?st)) ?a = _ => first [is_const a; lex_const | apply keeps_at; solve [eauto 4 with lex]] end.
Ltac lex_step := match goal with
  | |- scan_from _ ((_ ++ _) ++ _) = _ => rewrite <- app_assoc
  | |- scan_from _ ((if ?b then _ else _) ++ _) = _ => destruct b
  | |- scan_from _ (if ?b then _ else _) = _ => destruct b
  | |- scan_from _ ([] ++ _) = _ => rewrite app_nil_l
  | |- scan_from _ (_ ++ _) = _ => first [eapply scan_step; [lex_atom|] | eapply scan_name; [solve [eauto 4 with lex]|reflexivity|]]
  | |- scan_from _ _ = _ => lex_atom
  end.
Ltac lex := repeat lex_step.
Ltac keeping := let st := fresh "st" in intros st; lex.

Lemma keeps_separated m sep l s : separated sep l s -> keeps m sep -> (forall x, In x l -> keeps m x) -> keeps m s.
Proof.
  intros H K. induction H as [|x|x y l s H IH]; intros A; [apply keeps_nil|apply A; left; reflexivity|].
  apply keeps_app; [apply A; left; reflexivity|]. apply keeps_app; [exact K|]. apply IH. intros z I. apply A. right. exact I.
Qed.
Lemma comma_code : keeps Code $", ".
Proof. keeping. Qed.
Lemma comma_rest : keeps Rest $", ".
Proof. keeping. Qed.
#[local] Hint Resolve comma_code comma_rest : lex.
Lemma forall2_map {A B} (f : A -> B) (P : B -> str -> Prop) l ts : Forall2 P (map f l) ts -> forall t, In t ts -> exists x, In x l /\ P (f x) t.
Proof.
  revert ts. induction l as [|x l IH]; intros ts H t I; inversion H as [|y t0 l0 ts0 H1 H2]; subst; [destruct I|].
  destruct I as [<-|I]; [exists x; split; [left; reflexivity|exact H1]|]. destruct (IH _ H2 t I) as [z [Z1 Z2]]. exists z. split; [right; exact Z1|exact Z2].
Qed.

Lemma until_nonempty t d : d <> [] -> until t d <> [].
Proof. destruct d as [|c d]; [contradiction|]. cbn [until]. destruct (Ascii.eqb c t); discriminate. Qed.
Transparent relevant_include.
Lemma relevant_include_shape n : relevant_include n = [] \/ exists a body b, relevant_include n = a :: body ++ [b].
Proof.
  unfold relevant_include. destruct (n_include n) as [data|]; [|left; reflexivity]. destruct (2 <? length data) eqn:L; [|left; reflexivity].
  apply Nat.ltb_lt in L. destruct data as [|c d]; [left; reflexivity|]. cbn [length] in L.
  assert (D : d <> []) by (intros ->; cbn in L; lia).
  destruct (Ascii.eqb c dq) eqn:Q; [rewrite Q; left; reflexivity|]. destruct (Ascii.eqb c "<"); [|left; reflexivity]. rewrite Q. right.
  pose proof (until_nonempty ">" d D) as U. destruct (exists_last U) as [body [b ->]]. exists c, body, b. reflexivity.
Qed.
Opaque relevant_include.
Section Functions.
Variable w : world.
Variable lifted : option nat.
Variable F : fn.
Hypothesis T : tidy_function w lifted F.

Lemma types_keep s m : parameter_types w F s -> m = Code \/ m = Rest -> keeps m s.
Proof.
  intros [ts [H S0]] M. apply (keeps_separated m $", " ts s S0); [destruct M as [-> | ->]; auto with lex|].
  intros x I. destruct (forall2_map _ _ _ _ H x I) as [p [P1 P2]]. pose proof (tf_parameter _ _ _ T p x P1 P2).
  destruct M as [-> | ->]; auto with lex.
Qed.
Lemma parameter_name_code i : keeps Code (parameter_name i).
Proof. unfold parameter_name. keeping. Qed.
Lemma names_code n s : separated $", " (map parameter_name (seq 0 n)) s -> keeps Code s.
Proof. intros H. apply (keeps_separated _ _ _ _ H); [auto with lex|]. intros x I. apply in_map_iff in I. destruct I as [i [<- _]]. apply parameter_name_code. Qed.
Hint Resolve parameter_name_code : lex.
Lemma lambda_parameter_code i p s : In p (f_params F) -> lambda_parameter w i (p_type p) s -> keeps Code s.
Proof. intros I H. inversion H as [t _ X|t _ _ X|t _ _ X]; subst; pose proof (tf_parameter _ _ _ T p t I X); keeping. Qed.
Lemma lambda_parameters_code n params : n <= length (f_params F) -> length params = n ->
  (forall i t s, nth_error (map p_type (f_params F)) i = Some t -> nth_error params i = Some s -> lambda_parameter w i t s) ->
  forall x, In x params -> keeps Code x.
Proof.
  intros N L H x I. apply In_nth_error in I. destruct I as [i I]. assert (I' : i < length params) by (apply nth_error_Some; rewrite I; discriminate).
  destruct (nth_error (f_params F) i) as [p|] eqn:P; [|apply nth_error_None in P; lia].
  apply (lambda_parameter_code i p); [exact (nth_error_In _ _ P)|]. apply H; [|exact I]. rewrite nth_error_map, P. reflexivity.
Qed.
Lemma keywords_code : forall k, In k keywords -> keeps Code k.
Proof. intros k [<-|[<-|[<-|[]]]]; keeping. Qed.
Lemma code_suffix a b : keeps Code a -> keeps Code (a ++ b) -> keeps Code b.
Proof. intros A H st. specialize (H st). rewrite scan_app, A in H. exact H. Qed.
Lemma return_code s : return_text w (f_ret F) s -> keeps Code s.
Proof.
  intros [t [H K]]. destruct (tf_return _ _ _ T t H) as [X [K1 K2]]. apply tidy_code in X.
  inversion K as [k s0 I N E1 E2|k s0 I N E1 E2|s0 N E1 E2|k s0 s' I N E1 E2|k s0 s' I N E1 E2]; subst.
  - exact (code_suffix k s (keywords_code k I) X).
  - apply keeps_app; [keeping|]. apply (code_suffix k); [exact (keywords_code k I)|]. apply (code_suffix $"const "); [keeping|exact X].
  - exact X.
  - destruct (N (K1 k s0 I eq_refl)).
  - destruct (N (K2 k s0 I eq_refl)).
Qed.
Lemma pointer_type_code s : pointer_type w F s -> keeps Code s.
Proof.
  intros [ret [args [R [A ->]]]]. destruct (tf_return _ _ _ T ret R) as [R' _]. pose proof (types_keep args Code A (or_introl eq_refl)).
  pose proof (tf_class _ _ _ T) as C. destruct (f_method F); [specialize (C eq_refl)|]; cbn [andb]; keeping.
Qed.

Lemma keeps_passes s : keeps Code s -> passes s.
Proof. intros H st. left. apply H. Qed.
Lemma passes_app a b : keeps Code a -> passes b -> passes (a ++ b).
Proof. intros A B st. rewrite scan_app, A. apply B. Qed.
Lemma expression_passes n lambda e : n <= length (f_params F) -> expression w F n lifted lambda e -> passes e.
Proof.
  intros N H. inversion H as [type name _ _ P C|params args typed names ret _ M S0 -> L A S1 S2 R|params args typed names ret name _ M -> L A S1 S2 R C]; subst.
  - destruct (tf_callee _ _ _ T _ C) as [_ X]. apply pointer_type_code in P. assert (K : keeps Code ($"(" ++ type ++ $") &")) by keeping.
    pose proof (passes_app _ _ K (name_passes _ X)) as Y. rewrite <- !app_assoc in Y. exact Y.
  - apply keeps_passes. apply names_code in S2. apply return_code in R. pose proof (tf_name _ _ _ T) as X.
    assert (O : tidy (class_qualified_name w (match lifted with Some r => r | None => parent_of F end))).
    { pose proof (tf_object _ _ _ T) as O1. destruct lifted as [r|]; [apply O1; reflexivity|]. apply (tf_class _ _ _ T M). }
    assert (K : keeps Code typed).
    { apply (keeps_separated _ _ _ _ S1); [auto with lex|]. intros x [<-|I]; [keeping|]. exact (lambda_parameters_code (length params) params N eq_refl A x I). }
    keeping.
  - apply keeps_passes. apply names_code in S2. apply return_code in R. destruct (tf_callee _ _ _ T _ C) as [X _].
    assert (K : keeps Code typed).
    { apply (keeps_separated _ _ _ _ S1); [auto with lex|]. exact (lambda_parameters_code (length params) params N eq_refl A). }
    keeping.
Qed.
Lemma operator_plain op n name : operator_name op n name -> plain name.
Proof.
  intros H. apply plainb_ok. destruct H as [| | | | | | | | | |op name n I]; try reflexivity.
  cbn [In] in I. repeat (destruct I as [I|I]; [injection I as _ <-; reflexivity|]). destruct I.
Qed.
Lemma plain_nil : plain [].
Proof. intros c []. Qed.
Lemma python_name_plain name : plain (strs (wcfg w) prefix_for_static_member_functions) -> python_name w F name -> plain name.
Proof.
  intros P [base [-> H]]. apply plain_app; [destruct (is_static F); [exact P|exact plain_nil]|].
  destruct H as [[_ H]|[[_ [-> _]]|[_ ->]]]; [exact (operator_plain _ _ _ H)|exact plain_nil|]. destruct (tf_name _ _ _ T) as [H _]. exact H.
Qed.
Lemma documented_lit n lambda doc : documented w F n lambda doc -> keeps (Lit dq) doc.
Proof.
  intros H. inversion H as [comment args ret _ _ -> A R|]; subst; [|apply keeps_nil].
  pose proof (tf_signature _ _ _ T args ret A R) as P. pose proof (documentation_lit (n_doc (f_decl F))) as D.
  destruct (documentation_string (n_doc (f_decl F))) as [|c d]; [keeping|]. keeping.
Qed.
Lemma policy_code pol : tidy_settings w -> policy w F pol -> keeps Code pol.
Proof.
  intros TS H. assert (K : forall k, In k policies -> keeps Code ($", " ++ strs (wcfg w) k)).
  { intros k I. pose proof (ts_policy _ TS k I). keeping. }
  inversion H; subst; try apply keeps_nil; apply K; cbn [In policies]; tauto.
Qed.
Lemma arguments_code l : (forall p, In p l -> In p (f_params F)) -> keeps Code (concat (map (fun p => $", pybind11::arg(" ++ quoted (p_name p) ++ $")") l)).
Proof.
  intros H. apply keeps_concat. intros x I. apply in_map_iff in I. destruct I as [p [<- I]]. pose proof (tf_parameter_name _ _ _ T p (H p I)).
  unfold quoted. keeping.
Qed.
Lemma firstn_In {A} n (l : list A) x : In x (firstn n l) -> In x l.
Proof. revert l. induction n as [|n IH]; intros [|y l] H; cbn in *; try tauto. destruct H as [H|H]; [left; exact H|right; apply IH, H]. Qed.
Lemma def_line_code n lambda l : tidy_settings w -> n <= length (f_params F) -> def_line w F n lifted lambda l -> keeps Code l.
Proof.
  intros TS N H. inversion H as [name expr doc pol guard P E D PO G]; subst.
  apply (python_name_plain _ (ts_static _ TS)) in P. apply (expression_passes _ _ _ N) in E. apply documented_lit in D. apply (policy_code _ TS) in PO.
  pose proof (arguments_code (firstn n (f_params F)) (fun p => firstn_In n _ p)) as A. pose proof (ts_guard _ TS) as G.
  assert (K : keeps Code (match strs (wcfg w) default_call_guard with [] => [] | g => $", pybind11::call_guard<" ++ g ++ $">()" end)).
  { destruct (strs (wcfg w) default_call_guard); [apply keeps_nil|keeping]. }
  unfold quoted. keeping.
Qed.
Lemma location_line_rest_any n path line : one_line (relevant_include n) -> location w n path line -> keeps Rest path /\ keeps Rest line.
Proof.
  intros O [P1 [P2 ->]]. split; [|destruct (skip_line_number (wopt w)); auto with lex].
  destruct (relevant_include_shape n) as [E|[a [body [b E]]]]; [rewrite (P2 E); apply keeps_nil|]. rewrite (P1 a body b E). apply one_line_rest.
  apply (one_line_part body (relevant_include n) O). intros c I. rewrite E. right. apply in_app_iff. left. exact I.
Qed.
End Functions.

(** ** Comments *)
Lemma skipn_In {A} n (l : list A) x : In x (skipn n l) -> In x l.
Proof. revert l. induction n as [|n IH]; intros [|y l] H; cbn in *; try tauto. right. apply IH, H. Qed.
Lemma include_body_line n : one_line (relevant_include n) -> one_line (include_body (relevant_include n)).
Proof.
  intros O. unfold include_body. destruct (relevant_include n) as [|c s] eqn:E; [exact O|]. apply (one_line_part _ (c :: s) O). intros d I. unfold substr in I.
  apply firstn_In in I. exact (skipn_In _ _ _ I).
Qed.
Lemma line_number_rest w n : keeps Rest (line_number w n).
Proof. unfold line_number. destruct (skip_line_number (wopt w)); auto with lex. Qed.
#[local] Hint Resolve line_number_rest include_body_line : lex.
Lemma comment_code w n : tidy_named w n -> keeps Code (generate_comment_for_declaration w n).
Proof. intros H. pose proof (tn_standard _ _ H). pose proof (tn_header _ _ H). unfold generate_comment_for_declaration. keeping. Qed.
Lemma annotation_code w lifted F omit : tidy_function w lifted F -> keeps Code (annotation w F omit).
Proof.
  intros T. pose proof (tf_annotation _ _ _ T omit). pose proof (tn_header _ _ (tf_named _ _ _ T)).
  pose proof (types_keep _ _ _ T _ Rest (arguments_types w F) (or_intror eq_refl)).
  unfold annotation. destruct (annotate_functions (wopt w)); [|apply keeps_nil].
  match goal with |- keeps _ (?c :: ?l) => change (c :: l) with ([c] ++ l) end. keeping.
Qed.

(** ** Constructors *)
Lemma factory_code w lifted T n cls f : tidy_function w lifted T -> n <= length (f_params T) -> tidy cls -> factory w T n cls f -> keeps Code f.
Proof.
  intros TT N C H. inversion H as [params typed names L A S1 S2]; subst. apply names_code in S2.
  assert (K : keeps Code typed).
  { apply (keeps_separated _ _ _ _ S1); [auto with lex|]. exact (lambda_parameters_code _ _ _ TT (length params) params N eq_refl A). }
  keeping.
Qed.
Lemma constructor_line_code w lifted T abstract cls tramp n l : tidy_function w lifted T -> n <= length (f_params T) -> tidy cls ->
  (forall t, tramp = Some t -> tidy t) -> constructor_line w abstract cls tramp T n l -> keeps Code l.
Proof.
  intros TT N C TR H.
  pose proof (arguments_code _ _ _ TT (firstn n (f_params T)) (fun p => firstn_In n _ p)) as A.
  inversion H as [types _ _ P|t f _ _ E X|t f g _ _ E X Y|f _ _ E X]; subst.
  - pose proof (types_keep _ _ _ TT types Code P (or_introl eq_refl)). keeping.
  - apply (factory_code _ _ _ _ _ _ TT N (TR t eq_refl)) in X. keeping.
  - apply (factory_code _ _ _ _ _ _ TT N C) in X. apply (factory_code _ _ _ _ _ _ TT N (TR t eq_refl)) in Y. keeping.
  - apply (factory_code _ _ _ _ _ _ TT N C) in X. keeping.
Qed.
Lemma new_object_code cls : tidy cls -> keeps Code (new_object cls).
Proof. intros H. unfold new_object. keeping. Qed.
Lemma default_line_code abstract cls tramp l : tidy cls -> (forall t, tramp = Some t -> tidy t) -> default_line abstract cls tramp l -> keeps Code l.
Proof.
  intros C TR H. pose proof (new_object_code cls C). inversion H as [t _|t _|_]; subst; try pose proof (new_object_code t (TR t eq_refl)); keeping.
Qed.
Lemma copying_code cls const : tidy cls -> keeps Code (copying cls const).
Proof. intros C. unfold copying. keeping. Qed.
Lemma copy_lines_code abstract cls const tramp s : tidy cls -> (forall t, tramp = Some t -> tidy t) -> copy_lines abstract cls const tramp s -> keeps Code s.
Proof.
  intros C TR H. inversion H as [t _|t _|_]; subst.
  - pose proof (TR t eq_refl). keeping.
  - apply keeps_app; apply copying_code; [apply TR; reflexivity|exact C].
  - apply copying_code, C.
Qed.
Lemma first_default_le ps k : first_default_at ps k -> k <= length ps.
Proof. intros [H _]. exact H. Qed.
Lemma constructor_text_code w lifted T abstract cls tramp s : tidy_function w lifted T -> tidy cls ->
  (forall t, tramp = Some t -> tidy t) -> constructor_text w abstract cls tramp T s -> keeps Code s.
Proof.
  intros TT C TR H. pose proof (annotation_code _ _ _ true TT) as A.
  inversion H as [const s0 _ X|s0 _ _ _ X|k ls _ _ D L X]; subst.
  - apply keeps_app; [exact A|]. exact (copy_lines_code _ _ _ _ _ C TR X).
  - apply keeps_app; [exact A|]. exact (default_line_code _ _ _ _ C TR X).
  - apply keeps_concat. intros x I. apply in_map_iff in I. destruct I as [l [<- I]]. apply In_nth_error in I. destruct I as [i I].
    pose proof (first_default_le _ _ D). assert (I' : i < length ls) by (apply nth_error_Some; rewrite I; discriminate).
    assert (N : k + i <= length (f_params T)) by lia.
    pose proof (constructor_line_code _ _ _ _ _ _ _ _ TT N C TR (X i l I)). keeping.
Qed.

(** ** Enums *)
Lemma enum_code w module e s : tidy_enum w e -> keeps Code module -> enum_text w module e s -> keeps Code s.
Proof.
  intros T M [local [_ ->]]. pose proof (te_qualified _ _ T). pose proof (te_name _ _ T).
  assert (V : keeps Code (concat (map (fun v => enum_entry (fst v) (snd v)) (e_values e)))).
  { apply keeps_concat. intros x I. apply in_map_iff in I. destruct I as [v [<- I]]. destruct (te_value _ _ T v I). unfold enum_entry, quoted. keeping. }
  unfold enum_head, exported, not_exported, quoted. keeping.
Qed.

(** ** Data members *)
Definition outside (m : mode) : Prop := match m with Lit _ | Esc _ => False | _ => True end.
Lemma code_char_outside st c m st' : c <> dq -> c <> sq -> code_char st c = Some (m, st') -> outside m.
Proof.
  intros N1 N2 H. unfold code_char in H. rewrite (eqb_neq _ _ N1), (eqb_neq _ _ N2) in H. cbn [orb] in H.
  destruct (Ascii.eqb c "/"); [injection H as <- _; exact I|]. destruct (Ascii.eqb c "#"); [injection H as <- _; exact I|]. destruct (Ascii.eqb c bs); [discriminate|].
  destruct (closer c); [injection H as <- _; exact I|]. destruct (closing c); [|injection H as <- _; exact I].
  destruct st as [|d st]; [discriminate|]. destruct (Ascii.eqb c d); [injection H as <- _; exact I|discriminate].
Qed.
Lemma scan_outside s : ~ In dq s -> ~ In sq s -> forall m st m' st', outside m -> scan_from (Some (m, st)) s = Some (m', st') -> outside m'.
Proof.
  induction s as [|c s IH]; intros N1 N2 m st m' st' O H; [injection H as <- _; exact O|].
  rewrite scan_cons in H. destruct (scan_char (m, st) c) as [[m1 st1]|] eqn:E; [|rewrite scan_none in H; discriminate].
  cbn [In] in N1, N2. apply (IH (fun I => N1 (or_intror I)) (fun I => N2 (or_intror I)) m1 st1 m' st'); [|exact H].
  assert (M1 : c <> dq) by (intros ->; tauto). assert (M2 : c <> sq) by (intros ->; tauto). clear - E O M1 M2.
  destruct m; cbn [scan_char] in E; try destruct O.
  - exact (code_char_outside _ _ _ _ M1 M2 E).
  - destruct (Ascii.eqb c "/"); [injection E as <- _; exact I|]. destruct (Ascii.eqb c "*"); [discriminate|]. exact (code_char_outside _ _ _ _ M1 M2 E).
  - destruct (Ascii.eqb c nl); [injection E as <- _; exact I|]. destruct (Ascii.eqb c bs); injection E as <- _; exact I.
  - destruct (Ascii.eqb c bs); injection E as <- _; exact I.
Qed.
Lemma strip_passes a b : tidy (a ++ b) -> (forall m st, outside m -> scan_from (Some (m, st)) b = Some (Code, []) -> (m = Code \/ m = Slash) /\ st = []) -> passes a.
Proof.
  intros [P [Q [_ H]]] B. unfold well_formed in H. rewrite scan_app in H. destruct (scan_from (Some (Code, [])) a) as [[m st]|] eqn:E; [|rewrite scan_none in H; discriminate].
  assert (O : outside m).
  { apply (scan_outside a) with (m := Code) (st := []) (st' := st); [intros X; apply (P dq); [apply in_app_iff; left; exact X|left; reflexivity]|intros X; apply Q; apply in_app_iff; left; exact X|exact I|exact E]. }
  destruct (B m st O H) as [[-> | ->] ->]; intros st0; [left|right]; exact (scan_frame a st0 _ _ _ _ E).
Qed.
Lemma some_code_nil m st : Some (m, st) = Some (Code, @nil ascii) -> m = Code /\ st = [].
Proof. intros H. injection H as -> ->. split; reflexivity. Qed.
Ltac strip := let m := fresh "m" in let st := fresh "st" in let O := fresh "O" in let H := fresh "H" in
  intros m st O H; destruct m; try destruct O; vm_compute in H; apply some_code_nil in H; destruct H as [H1 H2]; try discriminate H1; subst st; split; auto.
Lemma owner_passes c o : owner_name c o -> tidy c -> passes o.
Proof.
  intros H T. inversion H as [s|s _|s|s _ _]; subst.
  - apply (strip_passes o ($"::(anonymous union)" ++ $"::(anonymous)")); [exact T|strip].
  - apply (strip_passes o $"::(anonymous)"); [exact T|strip].
  - apply (strip_passes o $"::(anonymous union)"); [exact T|strip].
  - apply name_passes, tidy_is_name, T.
Qed.
Lemma frozen_text w f how : (frozen w f -> how = $"readonly") -> (~ frozen w f -> how = $"readwrite") -> ~ ~ (how = $"readonly" \/ how = $"readwrite").
Proof. intros A B N. apply N. right. apply B. intros X. apply N. left. exact (A X). Qed.
Lemma field_line_code w class f l : tidy class -> tidy (n_name (fd_decl f)) -> field_line w class f l -> keeps Code l.
Proof.
  intros C N H. inversion H as [owner how O A B]; subst. pose proof (owner_passes _ _ O C) as P.
  assert (D : how = $"readonly" \/ how = $"readwrite").
  { destruct (list_eq_dec ascii_dec how $"readonly") as [E|E]; [left; exact E|]. destruct (list_eq_dec ascii_dec how $"readwrite") as [E'|E']; [right; exact E'|].
    exfalso. apply (frozen_text _ _ _ A B). intros [X|X]; contradiction. }
  unfold quoted. destruct D as [-> | ->]; keeping.
Qed.
Lemma forall2_concat {A} (P : A -> str -> Prop) m l ts : Forall2 P l ts -> (forall x s, In x l -> P x s -> keeps m s) -> keeps m (concat ts).
Proof.
  induction 1 as [|x t l ts H1 H2 IH]; intros K; cbn [concat]; [apply keeps_nil|]. apply keeps_app; [apply (K x t (or_introl eq_refl) H1)|].
  apply IH. intros y s I. apply K. right. exact I.
Qed.
Lemma data_code w r s : tidy_class w r -> data_text w r s -> keeps Code s.
Proof.
  intros T [fs [ls [[used [own [-> [S1 S2]]]] [H ->]]]]. apply (forall2_concat _ _ _ _ H). intros f l I L.
  apply (field_line_code w (class_qualified_name w r) f l (tc_qualified _ _ T)); [|exact L]. apply (tc_field _ _ T). apply in_app_iff in I. apply in_app_iff.
  destruct I as [I|I]; [left; apply (selection_In _ _ _ S1) in I; tauto|right; apply (selection_In _ _ _ S2) in I; tauto].
Qed.

(** ** Member functions *)
Lemma smallest_le F k : smallest_arity F k -> k <= length (f_params F).
Proof. intros [[_ ->]|[_ H]]; [apply le_n|exact (first_default_le _ _ H)]. Qed.
Lemma method_code w c s : tidy_settings w -> tidy_function w (snd c) (fun_ w (fst c)) -> method_text w c s -> keeps Code s.
Proof.
  intros TS T [k [ls [K [L [D ->]]]]]. apply keeps_app; [exact (annotation_code _ _ _ false T)|].
  apply keeps_concat. intros x I. apply in_map_iff in I. destruct I as [l [<- I]]. apply In_nth_error in I. destruct I as [i I].
  pose proof (smallest_le _ _ K). assert (I' : i < length ls) by (apply nth_error_Some; rewrite I; discriminate).
  assert (N : k + i <= length (f_params (fun_ w (fst c)))) by lia.
  pose proof (def_line_code _ _ _ T _ _ _ TS N (D i l I)). keeping.
Qed.
Lemma methods_code w r s : tidy_settings w -> tidy_class w r -> methods_text w r s -> keeps Code s.
Proof.
  intros TS T [l [ts [S0 [H ->]]]]. apply (forall2_concat _ _ _ _ H). intros [f how] s I M. apply (selection_In _ _ _ S0) in I. destruct I as [I [[U _] _]].
  exact (method_code w (f, how) s TS (tc_function _ _ T f how I U) M).
Qed.

(** ** Classes *)
Lemma method_candidate w r m : In (MMethod m) (r_members (rec_ w r)) -> In (m, None) (candidates w r).
Proof. intros I. unfold candidates. apply in_app_iff. right. apply in_map_iff. exists m. split; [reflexivity|]. unfold methods. apply in_flat_map. exists (MMethod m). split; [exact I|left; reflexivity]. Qed.
Lemma methods_candidate w r m : In m (methods (rec_ w r)) -> In (m, None) (candidates w r).
Proof. intros I. unfold candidates. apply in_app_iff. right. apply in_map_iff. exists m. split; [reflexivity|exact I]. Qed.
Lemma used_candidate w r m : In m (used_constructors w r) -> In (m, Some r) (candidates w r).
Proof.
  intros I. unfold used_constructors, using_targets in I. apply in_flat_map in I. destruct I as [t [I J]]. apply in_flat_map in I. destruct I as [x [X I]].
  unfold candidates. apply in_app_iff. left. apply in_flat_map. exists x. split; [exact X|].
  destruct x as [| | | |a ts| |]; try destruct I. destruct a; try destruct I. apply in_flat_map. exists t. split; [exact I|].
  destruct t as [m'|f]; [|destruct J]. destruct (f_ctor (fun_ w m')); [|destruct J]. destruct J as [<-|[]]. left. reflexivity.
Qed.
Lemma constructors_code w r tramp s : tidy_class w r -> (forall t, tramp = Some t -> tidy t) -> constructors_text w r (class_qualified_name w r) tramp s -> keeps Code s.
Proof.
  intros T TR H. pose proof (tc_qualified _ _ T) as C. inversion H as [implicit own owns used useds I S1 F1 S2 F2]; subst.
  apply keeps_app; [|apply keeps_app].
  - destruct I as [[_ [l [D ->]]]|[_ ->]]; [|apply keeps_nil]. apply (default_line_code _ _ _ _ C TR) in D. keeping.
  - apply (forall2_concat _ _ _ _ F1). intros m t I' X. apply (selection_In _ _ _ S1) in I'. destruct I' as [I' [_ [_ [U _]]]].
    unfold own_constructors in I'. apply filter_In in I'. destruct I' as [I' _].
    exact (constructor_text_code _ _ _ _ _ _ _ (tc_function _ _ T m None (methods_candidate _ _ _ I') U) C TR X).
  - apply (forall2_concat _ _ _ _ F2). intros m t I' X. apply (selection_In _ _ _ S2) in I'. destruct I' as [I' [U _]].
    exact (constructor_text_code _ _ _ _ _ _ _ (tc_function _ _ T m (Some r) (used_candidate _ _ _ I') U) C TR X).
Qed.
Lemma class_keyword_code : keeps Code $"class ".
Proof. keeping. Qed.
Lemma returned_code w lifted M k ret alias k' : tidy_function w lifted M -> returned w M k ret alias k' -> keeps Code ret /\ keeps Code alias.
Proof.
  intros T H. assert (R : keeps Code ($"_binder_ret_" ++ dec k)) by keeping.
  inversion H as [t X _|t X _|t X _ _]; subst; destruct (tf_return _ _ _ T _ X) as [Y _]; apply tidy_code in Y.
  - split; [exact Y|apply keeps_nil].
  - split; [exact R|]. apply (code_suffix _ _ class_keyword_code) in Y. keeping.
  - split; [exact R|]. keeping.
Qed.
Lemma declared_code w lifted M s : tidy_function w lifted M -> declared_parameters w M s -> keeps Code s.
Proof.
  intros T [texts [params [F [L [H S0]]]]]. apply (keeps_separated _ _ _ _ S0); [auto with lex|]. intros x I. apply In_nth_error in I. destruct I as [i I].
  assert (I' : i < length texts) by (rewrite <- L; apply nth_error_Some; rewrite I; discriminate).
  destruct (nth_error texts i) as [t|] eqn:E; [|apply nth_error_None in E; lia]. rewrite (H i t x E I).
  destruct (forall2_map _ _ _ _ F t (nth_error_In _ _ E)) as [p [P1 P2]]. pose proof (tf_parameter _ _ _ T p t P1 P2).
  pose proof (parameter_name_code i). keeping.
Qed.
Lemma method_name_plain w lifted M s : tidy_function w lifted M -> method_name M s -> plain s.
Proof. intros T [[_ H]|[[_ [-> _]]|[_ ->]]]; [exact (operator_plain _ _ _ H)|exact plain_nil|]. destruct (tf_name _ _ _ T) as [H _]. exact H. Qed.
Lemma exception_code est s : est <= 11 -> exception_text est s -> keeps Code s.
Proof.
  intros L [A [B C]]. assert (K : s = [] \/ s = $"noexcept " \/ s = $"throw() ").
  { cbn [In] in *. do 12 (destruct est as [|est]; [try (left; apply A; lia); try (right; left; apply B; reflexivity); try (right; right; apply C; lia)|]). lia. }
  destruct K as [-> | [-> | ->]]; keeping.
Qed.
Lemma lines_code l : (forall x, In x l -> keeps Code x) -> keeps Code (SpecClass.lines l).
Proof. intros H. unfold SpecClass.lines. apply keeps_concat. intros x I. apply in_map_iff in I. destruct I as [y [<- I]]. pose proof (H y I). keeping. Qed.
Lemma ask_python_code cls name args ret : tidy cls -> plain name -> keeps Code args -> keeps Code ret -> keeps Code (SpecClass.lines (ask_python cls name args ret)).
Proof.
  intros C N A R. unfold SpecClass.lines, ask_python, quoted. cbn [map concat]. keeping.
Qed.
Lemma overrider_code w r m cls k s k' : tidy_settings w -> tidy_class w r -> In (MMethod m) (r_members (rec_ w r)) -> ~ unbindable w (fun_ w m) -> tidy cls ->
  overrider_for w r m cls (callback_structure_name w r) k s k' -> keeps Code s.
Proof.
  intros TS T I U C H. pose proof (tc_function _ _ T m None (method_candidate _ _ _ I) U) as TF.
  inversion H as [ret alias k1 params args name spec body R N D _ SN X B]; subst.
  destruct (returned_code _ _ _ _ _ _ _ TF R) as [R1 R2]. apply (method_name_plain _ _ _ _ TF) in N. apply (declared_code _ _ _ _ TF) in D. apply names_code in SN.
  apply (exception_code _ _ (tf_exceptions _ _ _ TF)) in X. pose proof (tc_name _ _ T) as CN. pose proof (tf_name _ _ _ TF) as FN. pose proof (tc_structure _ _ T) as CS.
  assert (K : keeps Code body).
  { destruct B as [[_ ->]|[custom [L [_ ->]]]].
    - apply keeps_app; [apply indent_code; [intros c [<-|[<-|[]]]; reflexivity|apply ask_python_code; assumption]|]. destruct (f_pure (fun_ w m)); keeping.
    - pose proof (ts_call _ TS custom_trampoline_functions _ _ (or_intror (or_intror (or_intror (or_intror (or_introl eq_refl))))) L) as TC.
      assert (A : keeps Code (match args with [] => [] | _ => $", " ++ args end)) by (destruct args; [apply keeps_nil|keeping]). unfold quoted. keeping. }
  keeping.
Qed.
Lemma involved_trans w r i c : involved w r i -> involved w i c -> involved w r c.
Proof. intros A B. induction B as [|c b R B IH I E|c j B IH I E]; [exact A|exact (IV_base _ _ _ _ _ IH I E)|exact (IV_nested _ _ _ _ IH I E)]. Qed.
Lemma hierarchy_involved w : (forall r L, hierarchy w r L -> forall c, In c L -> involved w r c) /\
  (forall bs L, hierarchies w bs L -> forall r, incl bs (r_bases (rec_ w r)) -> forall c, In c L -> involved w r c).
Proof.
  apply hierarchy_both.
  - intros r l _ IH c [<-|I]; [apply IV_self|]. apply IH; [apply incl_refl|exact I].
  - intros r _ c [].
  - intros b bs R l1 l2 _ E _ IH1 _ IH2 r I c J. apply in_app_iff in J. destruct J as [J|J].
    + apply (involved_trans w r R); [|exact (IH1 c J)]. apply (IV_base w r r b R (IV_self w r)); [apply I; left; reflexivity|exact E].
    + apply IH2; [intros x X; apply I; right; exact X|exact J].
  - intros b bs l _ _ IH r I c J. apply IH; [intros x X; apply I; right; exact X|exact J].
Qed.
Scheme folded_lex_ind := Minimality for folded_bases Sort Prop
  with folded_from_lex_ind := Minimality for folded_from Sort Prop.
Combined Scheme folded_both from folded_lex_ind, folded_from_lex_ind.
Lemma folded_involved w : (forall r L, folded_bases w r L -> forall c, In c L -> involved w r c) /\
  (forall bs L, folded_from w bs L -> forall r, incl bs (r_bases (rec_ w r)) -> forall c, In c L -> involved w r c).
Proof.
  apply folded_both.
  - intros r _ c [].
  - intros r l _ _ IH c I. apply IH; [apply incl_refl|exact I].
  - intros r _ c [].
  - intros b bs R l1 l2 _ _ E _ _ IH1 _ IH2 r I c J. assert (X : involved w r R) by (apply (IV_base w r r b R (IV_self w r)); [apply I; left; reflexivity|exact E]).
    destruct J as [<-|J]; [exact X|]. apply in_app_iff in J. destruct J as [J|J]; [exact (involved_trans w r R c X (IH1 c J))|].
    apply IH2; [intros y Y; apply I; right; exact Y|exact J].
  - intros b bs l _ _ IH r I c J. apply IH; [intros x X; apply I; right; exact X|exact J].
Qed.
Lemma overriders_code w cls k l ss k' : tidy_settings w -> tidy cls -> overriders w cls k l ss k' ->
  (forall c m, In (c, m) l -> tidy_class w c /\ In (MMethod m) (r_members (rec_ w c)) /\ ~ unbindable w (fun_ w m)) -> keeps Code (concat ss).
Proof.
  intros TS C H. induction H as [k|k c m l s k1 ss k2 H1 H2 IH]; intros A; cbn [concat]; [apply keeps_nil|].
  destruct (A c m (or_introl eq_refl)) as [T [I U]]. apply keeps_app; [exact (overrider_code _ _ _ _ _ _ _ TS T I U C H1)|].
  apply IH. intros c' m' J. apply A. right. exact J.
Qed.
Lemma nearest_in w l c m : nearest w l c m -> In (c, m) l /\ overridable w (fun_ w m).
Proof. intros [before [after [s [-> [O _]]]]]. split; [apply in_app_iff; right; left; reflexivity|exact O]. Qed.
Lemma some_eq {A} (x y : A) : Some x = Some y -> x = y.
Proof. congruence. Qed.
Section Items.
Variable w : world.
Variable ops : list (str * nat).
Hypothesis TS : tidy_settings w.
Hypothesis TN : forall f, tidy (namespace_from_named_decl w (f_decl (fun_ w f))).

Lemma structure_code r tramp text incl : (forall c, involved w r c -> tidy_class w c) -> structure_of w r tramp text incl ->
  keeps Code text /\ (forall t, tramp = Some t -> tidy t).
Proof.
  intros T H. pose proof (T r (IV_self w r)) as TR. inversion H as [_|L l body k _ HI M _ _ O]; subst; [split; [apply keeps_nil|discriminate]|].
  split; [|intros t E; apply some_eq in E; rewrite <- E; exact (tc_structure _ _ TR)].
  pose proof (comment_code _ _ (tc_named _ _ TR)) as C. pose proof (tc_qualified _ _ TR) as Q. pose proof (tc_name _ _ TR) as N. pose proof (tc_structure _ _ TR) as S0.
  assert (B : keeps Code (concat body)).
  { apply (overriders_code _ _ _ _ _ _ TS Q O). intros c m I. apply M in I. destruct I as [I _]. apply nearest_in in I. destruct I as [I [_ [U _]]].
    apply versions_In in I. destruct I as [I J]. split; [apply T, (proj1 (hierarchy_involved w) r L HI c I)|]. split; [exact J|exact U]. }
  unfold structure_text. keeping.
Qed.
Lemma holder_code r s : tidy_class w r -> holder_text w r s -> keeps Code s.
Proof. intros T H. pose proof (tc_qualified _ _ T). pose proof (ts_holder _ TS). inversion H; subst; keeping. Qed.
Lemma class_line_code r hold tramp bases enclosing local : tidy_class w r -> keeps Code hold -> (forall t, tramp = Some t -> tidy t) ->
  (forall R, In R bases -> tidy (class_qualified_name w R)) -> keeps Code enclosing -> keeps Code (class_line w r hold tramp bases enclosing local).
Proof.
  intros T HO TR B E. pose proof (tc_qualified _ _ T). pose proof (tc_python _ _ T).
  assert (K1 : keeps Code (match tramp with Some t => $", " ++ t | None => [] end)).
  { destruct tramp as [t|]; [pose proof (TR t eq_refl); keeping|apply keeps_nil]. }
  assert (K2 : keeps Code (concat (map (fun R => $", " ++ class_qualified_name w R) bases))).
  { apply keeps_concat. intros x I. apply in_map_iff in I. destruct I as [R [<- I]]. pose proof (B R I). keeping. }
  unfold class_line, quoted. cbv zeta. keeping.
Qed.
Lemma str_code r s l : tidy_class w r -> str_text w ops r s l -> keeps Code s.
Proof.
  intros T H. inversion H as [_|_ _|f _ _]; subst; [apply keeps_nil|apply keeps_nil|]. pose proof (tc_qualified _ _ T). pose proof (TN f) as N.
  unfold printing, quoted. cbv zeta.
  assert (K : keeps Code (match namespace_from_named_decl w (f_decl (fun_ w f)) with [] => [] | _ => $" using namespace " ++ namespace_from_named_decl w (f_decl (fun_ w f)) ++ $";" end)).
  { destruct (namespace_from_named_decl w (f_decl (fun_ w f))); [apply keeps_nil|keeping]. }
  keeping.
Qed.
Lemma binder_call_code r binder : tidy_class w r -> lookup (SpecClass.class_name w r) (maps (wcfg w) Config.binders) = Some binder -> keeps Code (binder_call w r binder).
Proof.
  intros T L. pose proof (ts_call _ TS _ _ _ (or_introl eq_refl) L) as B. pose proof (comment_code _ _ (tc_named _ _ T)) as C. pose proof (tc_template _ _ T) as S0.
  pose proof (tn_namespace _ _ (tc_named _ _ T)) as N.
  assert (K : keeps Code (concat (map (fun a => $", " ++ quoted (fix_boolean_types (mangle_type_name (standard_name w (arg_text a)) true))) (targs_of (rec_ w r))))).
  { apply keeps_concat. intros x I. apply in_map_iff in I. destruct I as [a [<- I]]. pose proof (tc_argument _ _ T a I). unfold quoted. keeping. }
  unfold binder_call, quoted. keeping.
Qed.
Lemma add_on_code o : (forall b, o = Some b -> tidy b) -> keeps Code (add_on_call o).
Proof. intros H. destruct o as [b|]; [|apply keeps_nil]. pose proof (H b eq_refl). unfold add_on_call. keeping. Qed.
Lemma base_classes_In bs R : In R (base_classes bs) -> exists b, In b bs /\ base_record b = Some R.
Proof. intros I. apply in_flat_map in I. destruct I as [b [I J]]. exists b. split; [exact I|]. destruct (base_record b); [|destruct J]. destruct J as [<-|[]]. reflexivity. Qed.

Definition fine (b : cbound) : Prop := keeps Code (cb_code b) /\ keeps Code (cb_prefix b).
Lemma class_code : forall r b, class_binding w ops r b -> (forall c, involved w r c -> tidy_class w c) -> fine b.
Proof.
  fix IH 3. intros r b H T. pose proof (T r (IV_self w r)) as TR.
  destruct H as [r P|r binder P L|r tramp struct_text struct_incl hold local bases head ctors enums enum_texts data meths folded print_text print_incl inner inner_bound req
    P L SO HO LO HD CT SE FE DA ME FO ST SI FI].
  - split; apply keeps_nil.
  - split; [exact (binder_call_code r binder TR L)|apply keeps_nil].
  - assert (FINE : forall b, In b inner_bound -> fine b).
    { assert (J : forall i, In i inner -> forall c, involved w (definition_of w i) c -> tidy_class w c).
      { intros i I c V. apply T. apply (selection_In _ _ _ SI) in I. destruct I as [I1 I2]. exact (involved_trans w r _ c (IV_nested w r r i (IV_self w r) I1 I2) V). }
      clear - IH J FI. induction FI as [|i b l bs H1 H2 IH2]; intros x I; [destruct I|].
      destruct I as [<-|I]; [exact (IH _ _ H1 (J i (or_introl eq_refl)))|]. apply IH2; [intros i' I'; apply J; right; exact I'|exact I]. }
    clear IH FI. destruct (structure_code r _ _ _ T SO) as [K1 K2]. pose proof (holder_code r _ TR HO) as K3.
    pose proof (comment_code _ _ (tc_named _ _ TR)) as K4. pose proof (tn_namespace _ _ (tc_named _ _ TR)) as N.
    assert (K5 : keeps Code head).
    { destruct (r_anon (rec_ w r)); [destruct HD as [_ ->]; apply keeps_nil|]. destruct HD as [SB ->]. apply class_line_code; auto.
      - intros R I. apply base_classes_In in I. destruct I as [b [I E]]. apply (selection_In _ _ _ SB) in I. destruct I as [I _].
        apply tc_qualified, T. exact (IV_base w r r b R (IV_self w r) I E).
      - unfold quoted. keeping. }
    assert (K6 : keeps Code ctors).
    { destruct (r_anon (rec_ w r) || _); [rewrite CT; apply keeps_nil|]. exact (constructors_code w r tramp ctors TR K2 CT). }
    assert (K7 : keeps Code (concat (map (fun s => [nl] ++ s) enum_texts))).
    { apply keeps_concat. intros x I. apply in_map_iff in I. destruct I as [s [<- I]].
      assert (KE : keeps Code s).
      { clear - FE I SE TR. assert (X : forall e, In e enums -> tidy_enum w (enum_ w e)) by (intros e J; apply (selection_In _ _ _ SE) in J; destruct J; apply (tc_enum _ _ TR); assumption).
        clear SE. induction FE as [|e t l ts H1 H2 IH2]; [destruct I|]. destruct I as [<-|I]; [apply (enum_code w $"cl" _ _ (X e (or_introl eq_refl))); [keeping|exact H1]|].
        apply IH2; [exact I|intros e' J; apply X; right; exact J]. }
      keeping. }
    pose proof (data_code w r data TR DA) as K8. pose proof (methods_code w r meths TS TR ME) as K9.
    assert (K10 : keeps Code folded).
    { destruct FO as [l [ts [FB [F2 ->]]]]. apply (forall2_concat _ _ _ _ F2). intros R t I [d [m [D [M ->]]]].
      pose proof (T R (proj1 (folded_involved w) r l FB R I)) as T'. apply keeps_app; [exact (data_code w R d T' D)|exact (methods_code w R m TS T' M)]. }
    pose proof (str_code r _ _ TR ST) as K11.
    assert (K12 : keeps Code (add_on_call (lookup (SpecClass.class_name w r) (maps (wcfg w) add_on_binders)))).
    { apply add_on_code. intros b E. exact (ts_call _ TS add_on_binders _ _ (or_intror (or_introl eq_refl)) E). }
    assert (K13 : keeps Code (concat (map (fun b => cb_code b ++ [nl]) inner_bound))).
    { apply keeps_concat. intros x I. apply in_map_iff in I. destruct I as [b [<- I]]. destruct (FINE b I) as [X _]. keeping. }
    assert (K14 : keeps Code (match inner_bound with [] => [] | _ => [nl] ++ concat (map (fun b => cb_code b ++ [nl]) inner_bound) end)).
    { destruct inner_bound; [apply keeps_nil|keeping]. }
    split; cbn [cb_code cb_prefix].
    + apply indent_code; [intros c [<-|[]]; reflexivity|]. clear - K4 K5 K6 K7 K8 K9 K10 K11 K12 K14.
      set (enclosing := if n_member (r_decl (rec_ w r)) && negb (r_anon (rec_ w r)) then _ else _).
      assert (KE : keeps Code enclosing) by (unfold enclosing; keeping). clearbody enclosing. keeping.
    + apply keeps_app; [exact K1|]. apply keeps_concat. intros x I. apply in_map_iff in I. destruct I as [b [<- I]]. destruct (FINE b I) as [_ X]. exact X.
Qed.
Lemma item_code d code pre : tidy_item w d -> item_text w ops d code pre -> keeps Code code /\ keeps Code pre.
Proof.
  intros T H. inversion H as [f path line args k ls LO P K L D|e path line s LO E|r b CB]; subst; cbn [tidy_item] in T.
  - split; [|apply keeps_nil]. pose proof (tf_named _ _ _ T) as NA. destruct (location_line_rest_any w _ _ _ (tn_header _ _ NA) LO) as [L1 L2].
    pose proof (tn_qualified _ _ NA). pose proof (tn_namespace _ _ NA). pose proof (types_keep _ _ _ T args Rest P (or_intror eq_refl)).
    pose proof (annotation_code _ _ _ false T) as A.
    assert (B : keeps Code (concat (map (fun l => [tab] ++ module_of w (f_decl (fun_ w f)) ++ l ++ [nl]) ls))).
    { apply keeps_concat. intros x I. apply in_map_iff in I. destruct I as [l [<- I]]. apply In_nth_error in I. destruct I as [i I].
      pose proof (smallest_le _ _ K). assert (I' : i < length ls) by (apply nth_error_Some; rewrite I; discriminate).
      assert (N : k + i <= length (f_params (fun_ w f))) by lia. pose proof (def_line_code _ _ _ T _ _ _ TS N (D i l I)). unfold module_of, quoted. keeping. }
    keeping.
  - split; [|apply keeps_nil]. pose proof (te_named _ _ T) as NA.
    destruct (location_line_rest_any w _ _ _ (tn_header _ _ NA) LO) as [L1 L2]. pose proof (tn_standard _ _ NA). pose proof (tn_namespace _ _ NA).
    assert (S0 : keeps Code s) by (apply (enum_code w _ _ _ T) in E; [exact E|unfold module_of, quoted; keeping]). keeping.
  - apply (class_code _ _ CB T).
Qed.
End Items.
