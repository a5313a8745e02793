(** Properties of the code generated for classes.  The specifications are in
    SpecClass.v.  [const_is_method]: only member functions are const. *)
From Coq Require Import Ascii String Bool Arith NArith Lia Relations.
From Coq Require Import List.
From Verif Require Import Str StrFacts SpecUtil SpecConfig Util UtilFacts Config Ast Types Func Enum Includes Class Context SpecTypes TypesFacts NamesFacts SpecBind BindFacts SpecClass ClassFacts StructFacts Samples.
Import ListNotations.

(** The samples: n::Shape, n::Circle and n::Closed of Samples.v. *)
Tactic Notation "const_methods" integer(k) := intros f; do k (destruct f as [|f]; [vm_compute; intros; reflexivity || discriminate|]); vm_compute; intros H; destruct f; discriminate H.
Example sh_const : const_is_method (sh_w []).
Proof. const_methods 12. Qed.
Example sh_generated : generated (sh_w []) 0 /\ generated (sh_w []) 1 /\ generated (sh_w []) 2.
Proof. split; [|split]; apply generated_ok; vm_compute; reflexivity. Qed.
Example sh_bound : forall r, r < 3 -> bind_class 10 (sh_w []) [] r = Ok (bound_class (sh_w []) r).
Proof. intros [|[|[|r]]] H; [| | |lia]; vm_compute; reflexivity. Qed.
Example sh_structures : has_structure (sh_w []) 0 /\ has_structure (sh_w []) 1 /\ ~ has_structure (sh_w []) 2.
Proof.
  assert (A : forall r b c, is_callback_structure_needed 10 (sh_w []) r = Ok b -> is_callback_structure_constructible 10 (sh_w []) r = Ok c -> (has_structure (sh_w []) r <-> b = true /\ c = true))
    by (intros r b c; apply has_structure_iff, sh_const).
  split; [|split].
  - apply (A 0 true true); [vm_compute; reflexivity|vm_compute; reflexivity|split; reflexivity].
  - apply (A 1 true true); [vm_compute; reflexivity|vm_compute; reflexivity|split; reflexivity].
  - intros X. apply (A 2 false false) in X; [destruct X; discriminate|vm_compute; reflexivity|vm_compute; reflexivity].
Qed.

(** ** C67: the whole class *)

(** Whatever is generated for a class is as [class_binding] says: nothing for a
    Python type; the call of the configured binder; else the statement for the
    class with its bases, constructors, enums, data members, methods, those of
    template bases, the conversion to a string, the add-on call and the nested
    classes, in this order, and the call-back structure before it. *)
Theorem C67_class_binding : forall w ops fuel r b, const_is_method w -> bind_class fuel w ops r = Ok b -> class_binding w ops r b.
Proof. intros w ops fuel r b Wf H. exact (class_binding_spec w ops Wf fuel r b H). Qed.
Print Assumptions C67_class_binding.
Example C67_case : cb_code (bound_class (sh_w []) 0) =
$"	{ // n::Shape file:s.hh line:
		pybind11::class_<n::Shape, std::shared_ptr<n::Shape>, PyCallBack_n_Shape> cl(M(""n""), ""Shape"", """");
		cl.def( pybind11::init( [](int const & a0){ return new PyCallBack_n_Shape(a0); } ), ""doc"");
		cl.def( pybind11::init<int, int>(), pybind11::arg(""a""), pybind11::arg(""b"") );

		cl.def(pybind11::init<PyCallBack_n_Shape const &>());
		cl.def_readwrite(""width"", &n::Shape::width);
		cl.def_readonly(""kind"", &n::Shape::kind);
		cl.def(""area"", (int (n::Shape::*)(int) const) &n::Shape::area, ""C++: n::Shape::area(int) const --> int"", pybind11::arg(""scale""));
		cl.def(""draw"", (void (n::Shape::*)()) &n::Shape::draw, ""C++: n::Shape::draw() --> void"");
		cl.def(""label"", (int (n::Shape::*)()) &n::Shape::label, ""C++: n::Shape::label() --> int"");
	}
".
Proof. vm_compute; reflexivity. Qed.
Example C67_case_derived : cb_code (bound_class (sh_w []) 1) =
$"	{ // n::Circle file:s.hh line:
		pybind11::class_<n::Circle, std::shared_ptr<n::Circle>, PyCallBack_n_Circle, n::Shape> cl(M(""n""), ""Circle"", """");
		cl.def( pybind11::init( [](){ return new n::Circle(); }, [](){ return new PyCallBack_n_Circle(); } ) );
		cl.def(""hook"", [](n::Circle &o) -> void { return o.hook(); }, """");
		cl.def(""area"", (int (n::Circle::*)(int) const) &n::Circle::area, ""C++: n::Circle::area(int) const --> int"", pybind11::arg(""scale""));
		cl.def(""draw"", (void (n::Circle::*)()) &n::Circle::draw, ""C++: n::Circle::draw() --> void"");
	}
".
Proof. vm_compute; reflexivity. Qed.
(** A configured binder and a Python type. *)
Example C67_case_binder : cb_code (bound_class (sh_w ($"+binder n::Shape my_binder" ++ [nl])) 0) =
$"	// n::Shape file:s.hh line:
	my_binder(M(""n""));

".
Proof. vm_compute; reflexivity. Qed.
Example C67_case_python : cb_code (bound_class (sh_w ($"+python_builtin n::Shape" ++ [nl])) 0) = [].
Proof. vm_compute; reflexivity. Qed.

(** ** C49: members *)

(** The data members, the methods and the members of template bases stand one
    after the other in the code. *)
Theorem C49_members : forall w ops fuel r b, const_is_method w -> bind_class fuel w ops r = Ok b -> generated w r ->
  exists before data meths folded after,
    cb_code b = indent (before ++ data ++ meths ++ folded ++ after) [tab] /\
    data_text w r data /\ methods_text w r meths /\ folded_text w r folded.
Proof.
  intros w ops fuel r b Wf H G. destruct (class_binding_inv w ops r b (C67_class_binding w ops fuel r b Wf H) G)
    as [tramp [st [si [hold [local [bases [head [ctors [enums [ets [data [meths [folded [pt [pi [inner [ib [ST [HT [LT [HB [CT [ES [DT [MT [FT [RT [NS [E _]]]]]]]]]]]]]]]]]]]]]]]]]]]]].
  refine (ex_intro _ ($"{ " ++ generate_comment_for_declaration w (r_decl (rec_ w r))
          ++ (if n_member (r_decl (rec_ w r)) && negb (r_anon (rec_ w r)) then [tab] ++ $"auto & enclosing_class = cl;" ++ [nl] else [])
          ++ head ++ ctors ++ concat (map (fun s => [nl] ++ s) ets)) _).
  exists data, meths, folded. eexists. split; [|exact (conj DT (conj MT FT))]. rewrite E. f_equal. rewrite <- !app_assoc. reflexivity.
Qed.
Print Assumptions C49_members.
(** Which methods: exactly the candidates that satisfy [chosen], each as often
    and in the order in which it is declared. *)
Theorem C49_exactly_the_chosen : forall w r s, methods_text w r s ->
  exists l ts, Forall2 (method_text w) l ts /\ s = concat ts /\
    forall f how, In (f, how) l <-> In (f, how) (candidates w r) /\ offered w (fun_ w f) /\ (how = None -> public (f_decl (fun_ w f))).
Proof.
  intros w r s [l [ts [S [F ->]]]]. exists l, ts. split; [exact F|]. split; [reflexivity|]. intros f how. rewrite (selection_In _ _ _ S). unfold chosen. cbn [fst snd]. reflexivity.
Qed.
Print Assumptions C49_exactly_the_chosen.
(** Which data members. *)
Theorem C49_exactly_the_fields : forall w r s, data_text w r s ->
  exists fs ls, Forall2 (field_line w (class_qualified_name w r)) fs ls /\ s = concat ls /\
    forall f, In f fs <-> ~ field_skipped w f /\ exposable w f /\ (In f (used_fields (rec_ w r)) \/ In f (declared_fields (rec_ w r)) /\ public (fd_decl f)).
Proof.
  intros w r s [fs [ls [[used [own [-> [S1 S2]]]] [F ->]]]]. exists (used ++ own), ls. split; [exact F|]. split; [reflexivity|]. intros f.
  rewrite in_app_iff, (selection_In _ _ _ S1), (selection_In _ _ _ S2). tauto.
Qed.
Print Assumptions C49_exactly_the_fields.
(** In the sample: of Shape the fields width and kind (read-only), not hidden;
    area, draw and label(), not hook (protected), secret (private) and the const
    version of label; of Circle also hook, by the using declaration. *)
Definition named_in (names : list str) (s : str) : list bool := map (fun n => match find0 ($"""" ++ n ++ $"""") s with Some _ => true | None => false end) names.
Example C49_case :
  named_in [$"width"; $"kind"; $"hidden"; $"area"; $"draw"; $"hook"; $"secret"; $"label"] (cb_code (bound_class (sh_w []) 0)) = [true; true; false; true; true; false; false; true] /\
  named_in [$"area"; $"hook"; $"secret"] (cb_code (bound_class (sh_w []) 1)) = [true; true; false].
Proof. split; vm_compute; reflexivity. Qed.
Example C49_case_const : const_overload (sh_w []) (fun_ (sh_w []) 5) /\ ~ const_overload (sh_w []) (fun_ (sh_w []) 4).
Proof.
  split.
  - apply const_overload_iff; vm_compute; reflexivity.
  - intros [X _]. vm_compute in X. discriminate X.
Qed.

(** ** C50: overriders *)

(** The structure has one overrider for each virtual signature of the hierarchy
    whose first overridable version, in depth first order, is not final; that
    version is the one overridden. *)
Theorem C50_structure : forall w ops fuel r b, const_is_method w -> bind_class fuel w ops r = Ok b -> generated w r -> has_structure w r ->
  exists L l body k inner, hierarchy w r L /\
    cb_prefix b = structure_text w r (generate_comment_for_declaration w (r_decl (rec_ w r))) body ++ inner /\
    overriders w (class_qualified_name w r) 0 l body k /\
    (forall c m, In (c, m) l <-> nearest w (versions w L) c m /\ f_final (fun_ w m) = false) /\
    NoDup l /\
    (forall c m c' m' s, In (c, m) l -> In (c', m') l -> virtual_signature w (fun_ w m) s -> virtual_signature w (fun_ w m') s -> c = c' /\ m = m').
Proof.
  intros w ops fuel r b Wf H G HS. destruct (class_binding_inv w ops r b (C67_class_binding w ops fuel r b Wf H) G)
    as [tramp [st [si [hold [local [bases [head [ctors [enums [ets [data [meths [folded [pt [pi [inner [ib [ST [_ [_ [_ [_ [_ [_ [_ [_ [_ [_ [_ [P _]]]]]]]]]]]]]]]]]]]]]]]]]]]]]].
  destruct ST as [N|L l body k _ Hi Hl Hx Hd Ho]; [exfalso; exact (N HS)|].
  exists L, l, body, k, (concat (map cb_prefix ib)). split; [exact Hi|]. split; [exact P|]. split; [exact Ho|]. split; [exact Hl|]. split; [exact Hd|].
  intros c m c' m' s I1 I2. apply Hl in I1. apply Hl in I2. exact (nearest_unique w _ c m c' m' s (proj1 I1) (proj1 I2)).
Qed.
Print Assumptions C50_structure.
(** A class without one gets no structure of its own. *)
Theorem C50_no_structure : forall w ops fuel r b, const_is_method w -> bind_class fuel w ops r = Ok b -> generated w r -> ~ has_structure w r ->
  exists inner, Forall2 (fun i b' => class_binding w ops (definition_of w i) b') (fst inner) (snd inner) /\ cb_prefix b = concat (map cb_prefix (snd inner)).
Proof.
  intros w ops fuel r b Wf H G HS. destruct (class_binding_inv w ops r b (C67_class_binding w ops fuel r b Wf H) G)
    as [tramp [st [si [hold [local [bases [head [ctors [enums [ets [data [meths [folded [pt [pi [inner [ib [ST [_ [_ [_ [_ [_ [_ [_ [_ [_ [NS [_ [P _]]]]]]]]]]]]]]]]]]]]]]]]]]]]]].
  exists (inner, ib). cbn [fst snd]. split; [exact (proj2 NS)|]. rewrite P. destruct ST as [N|L l body k X _ _ _ _ _]; [reflexivity|exfalso; exact (HS X)].
Qed.
Print Assumptions C50_no_structure.
(** If no class occurs twice in the hierarchy, the version is the one of the
    most derived class: no class derived from its class has an overridable
    version of the signature. *)
Theorem C50_most_derived : forall w r L c m c' m' s, hierarchy w r L -> NoDup L -> nearest w (versions w L) c m -> virtual_signature w (fun_ w m) s ->
  In c' L -> descends w c' c -> In (MMethod m') (r_members (rec_ w c')) -> overridable w (fun_ w m') -> ~ virtual_signature w (fun_ w m') s.
Proof. exact nearest_most_derived. Qed.
Print Assumptions C50_most_derived.
Example C50_case_hierarchy : hierarchy (sh_w []) 1 [1; 0].
Proof.
  constructor. apply (HS_base (sh_w []) _ [] 0 [0] []); [discriminate|vm_compute; reflexivity| |constructor]. constructor. constructor.
Qed.
Example C50_case : NoDup [1; 0] /\ overridable (sh_w []) (fun_ (sh_w []) 8) /\ overridable (sh_w []) (fun_ (sh_w []) 0) /\
  virtual_signature (sh_w []) (fun_ (sh_w []) 8) $"area(int a0) const" /\ virtual_signature (sh_w []) (fun_ (sh_w []) 0) $"area(int a0) const" /\ descends (sh_w []) 1 0 /\
  nearest (sh_w []) (versions (sh_w []) [1; 0]) 1 8.
Proof.
  assert (O : forall m, callback_candidate (sh_w []) (fun_ (sh_w []) m) = Ok true -> overridable (sh_w []) (fun_ (sh_w []) m)).
  { intros m X. apply (overridable_iff _ _ _ (sh_const m) X). reflexivity. }
  assert (V : virtual_signature (sh_w []) (fun_ (sh_w []) 8) $"area(int a0) const") by (apply virtual_signature_iff; vm_compute; reflexivity).
  split; [repeat constructor; cbn; intuition discriminate|]. split; [apply O; vm_compute; reflexivity|]. split; [apply O; vm_compute; reflexivity|].
  split; [exact V|]. split; [apply virtual_signature_iff; vm_compute; reflexivity|]. split.
  - apply t_step. exact (XT (sh_w []) 1 (mkbase Public false (TRec false 0 [])) 0 (or_introl eq_refl) ltac:(discriminate) eq_refl).
  - exists []. eexists. exists $"area(int a0) const". split; [vm_compute; reflexivity|]. split; [apply O; vm_compute; reflexivity|]. split; [exact V|]. intros ? ? [].
Qed.
(** Without the restriction it is false: with the bases [virtual X] and Y, where
    Y has the base [virtual X], the overrider for f calls X::f although Y
    overrides it: D's own final overrider is Y::f. *)
Example di_const : const_is_method di_w.
Proof. const_methods 5. Qed.
Theorem C50_most_derived_refuted : ~ forall w r L c m c' m' s, hierarchy w r L -> nearest w (versions w L) c m -> virtual_signature w (fun_ w m) s ->
  In c' L -> descends w c' c -> In (MMethod m') (r_members (rec_ w c')) -> overridable w (fun_ w m') -> ~ virtual_signature w (fun_ w m') s.
Proof.
  intros H. assert (O : forall m, callback_candidate di_w (fun_ di_w m) = Ok true -> overridable di_w (fun_ di_w m)).
  { intros m X. apply (overridable_iff _ _ _ (di_const m) X). reflexivity. }
  assert (V0 : virtual_signature di_w (fun_ di_w 0) $"f()") by (apply virtual_signature_iff; vm_compute; reflexivity).
  assert (V1 : virtual_signature di_w (fun_ di_w 1) $"f()") by (apply virtual_signature_iff; vm_compute; reflexivity).
  apply (H di_w 2 [2; 0; 1; 0] 0 0 1 1 $"f()").
  - constructor. apply (HS_base di_w (di_base true 0) [di_base false 1] 0 [0] [1; 0]); [discriminate|reflexivity|constructor; constructor|].
    apply (HS_base di_w (di_base false 1) [] 1 [1; 0] []); [discriminate|reflexivity| |constructor]. constructor.
    apply (HS_base di_w (di_base true 0) [] 0 [0] []); [discriminate|reflexivity|constructor; constructor|constructor].
  - exists [], [(1, 1); (0, 0)], $"f()". split; [vm_compute; reflexivity|]. split; [apply O; vm_compute; reflexivity|]. split; [exact V0|]. intros ? ? [].
  - exact V0.
  - right; right; left; reflexivity.
  - apply t_step. exact (XT di_w 1 (di_base true 0) 0 (or_introl eq_refl) ltac:(discriminate) eq_refl).
  - left; reflexivity.
  - apply O; vm_compute; reflexivity.
  - exact V1.
Qed.
Print Assumptions C50_most_derived_refuted.
Example C50_refuted_text : occurs $"return X::f();" (cb_prefix (bound_class di_w 2)) /\ find0 $"Y::f" (cb_prefix (bound_class di_w 2)) = None.
Proof. split; [|vm_compute; reflexivity]. apply find0_occurs. vm_compute. discriminate. Qed.

(** ** C51: final methods *)

(** If the first overridable version of a signature is final, there is no
    overrider for it.  (In a hierarchy without repeated classes the first one
    is the most derived one, see above.) *)
Theorem C51_final_blocks : forall w ops fuel r b, const_is_method w -> bind_class fuel w ops r = Ok b -> generated w r -> has_structure w r ->
  exists L l body k inner, hierarchy w r L /\
    cb_prefix b = structure_text w r (generate_comment_for_declaration w (r_decl (rec_ w r))) body ++ inner /\
    overriders w (class_qualified_name w r) 0 l body k /\
    forall c m s, nearest w (versions w L) c m -> f_final (fun_ w m) = true -> virtual_signature w (fun_ w m) s ->
      forall c' m', In (c', m') l -> ~ virtual_signature w (fun_ w m') s.
Proof.
  intros w ops fuel r b Wf H G HS. destruct (C50_structure w ops fuel r b Wf H G HS) as [L [l [body [k [inner [A [B [C [D _]]]]]]]]].
  exists L, l, body, k, inner. split; [exact A|]. split; [exact B|]. split; [exact C|]. intros c m s N F V c' m' I V'. apply D in I. destruct I as [N' F'].
  destruct (nearest_unique w _ c m c' m' s N N' V V') as [-> ->]. rewrite F in F'. discriminate F'.
Qed.
Print Assumptions C51_final_blocks.
(** draw is final in Circle: no overrider for it, although Shape::draw is not. *)
Example C51_case : f_final (fun_ (sh_w []) 9) = true /\ find0 $"draw" (cb_prefix (bound_class (sh_w []) 1)) = None /\ occurs $"void draw() override" (cb_prefix (bound_class (sh_w []) 0)).
Proof. split; [reflexivity|]. split; [vm_compute; reflexivity|]. apply find0_occurs. vm_compute. discriminate. Qed.
(** In general false: Q::f is final and is to be skipped; the structure of Q
    overrides P::f, which C++ does not allow. *)
Theorem C51_final_refuted : ~ forall w ops fuel r b m c m' s L, const_is_method w -> bind_class fuel w ops r = Ok b -> generated w r ->
  In (MMethod m) (r_members (rec_ w r)) -> f_final (fun_ w m) = true -> virtual_signature w (fun_ w m) s ->
  hierarchy w r L -> nearest w (versions w L) c m' -> f_final (fun_ w m') = false -> ~ virtual_signature w (fun_ w m') s.
Proof.
  intros H. assert (O : forall m, callback_candidate di_w (fun_ di_w m) = Ok true -> overridable di_w (fun_ di_w m)).
  { intros m X. apply (overridable_iff _ _ _ (di_const m) X). reflexivity. }
  assert (V3 : virtual_signature di_w (fun_ di_w 3) $"f()") by (apply virtual_signature_iff; vm_compute; reflexivity).
  apply (H di_w [] 10 4 (bound_class di_w 4) 2 3 3 $"f()" [4; 3]).
  - exact di_const.
  - vm_compute; reflexivity.
  - apply generated_ok; vm_compute; reflexivity.
  - left; reflexivity.
  - reflexivity.
  - apply virtual_signature_iff; vm_compute; reflexivity.
  - constructor. apply (HS_base di_w (di_base false 3) [] 3 [3] []); [discriminate|reflexivity|constructor; constructor|constructor].
  - exists [(4, 2); (4, 4)], [], $"f()". split; [vm_compute; reflexivity|]. split; [apply O; vm_compute; reflexivity|]. split; [exact V3|].
    intros c' m' [X|[X|[]]] Om; injection X as <- <-.
    + exfalso. assert (Y : callback_candidate di_w (fun_ di_w 2) = Ok false) by (vm_compute; reflexivity).
      apply (overridable_iff _ _ _ (di_const 2) Y) in Om. discriminate Om.
    + intros X. apply virtual_signature_iff in X. vm_compute in X. discriminate X.
  - reflexivity.
  - exact V3.
Qed.
Print Assumptions C51_final_refuted.
Example C51_refuted_text : occurs $"void f() override" (cb_prefix (bound_class di_w 4)).
Proof. apply find0_occurs. vm_compute. discriminate. Qed.

(** ** C52: constructors of abstract classes *)

(** The constructors are generated exactly for classes that are not abstract
    and for those with a call-back structure, which is used exactly if it is
    generated; classes without a name have none. *)
Theorem C52_constructors : forall w ops fuel r b, const_is_method w -> bind_class fuel w ops r = Ok b -> generated w r ->
  exists before ctors after tramp, cb_code b = indent (before ++ ctors ++ after) [tab] /\
    (has_structure w r -> tramp = Some (callback_structure_name w r)) /\ (~ has_structure w r -> tramp = None) /\
    (r_anon (rec_ w r) = false -> r_abstract (rec_ w r) = false \/ has_structure w r -> constructors_text w r (class_qualified_name w r) tramp ctors) /\
    (r_anon (rec_ w r) = true \/ r_abstract (rec_ w r) = true /\ ~ has_structure w r -> ctors = []).
Proof.
  intros w ops fuel r b Wf H G. destruct (class_binding_inv w ops r b (C67_class_binding w ops fuel r b Wf H) G)
    as [tramp [st [si [hold [local [bases [head [ctors [enums [ets [data [meths [folded [pt [pi [inner [ib [ST [HT [LT [HB [CT [ES [DT [MT [FT [RT [NS [E _]]]]]]]]]]]]]]]]]]]]]]]]]]]]].
  refine (ex_intro _ ($"{ " ++ generate_comment_for_declaration w (r_decl (rec_ w r))
          ++ (if n_member (r_decl (rec_ w r)) && negb (r_anon (rec_ w r)) then [tab] ++ $"auto & enclosing_class = cl;" ++ [nl] else []) ++ head) _).
  exists ctors. eexists. exists tramp. split; [rewrite E; f_equal; rewrite <- !app_assoc; reflexivity|].
  assert (T : (has_structure w r /\ tramp = Some (callback_structure_name w r)) \/ (~ has_structure w r /\ tramp = None)) by (destruct ST as [N|L l body k X]; [right; split; [exact N|reflexivity]|left; split; [exact X|reflexivity]]).
  clear - T CT. split; [|split; [|split]].
  - intros X. destruct T as [[_ Y]|[Y _]]; [exact Y|exfalso; exact (Y X)].
  - intros X. destruct T as [[Y _]|[_ Y]]; [exfalso; exact (X Y)|exact Y].
  - intros A B. rewrite A in CT. cbn [orb] in CT. destruct T as [[X ->]|[X ->]].
    + rewrite andb_false_r in CT. exact CT.
    + destruct B as [B|B]; [|exfalso; exact (X B)]. rewrite B in CT. exact CT.
  - intros [A|[A B]]; [rewrite A in CT; exact CT|]. destruct T as [[X _]|[_ ->]]; [exfalso; exact (B X)|]. rewrite A, orb_true_r in CT. exact CT.
Qed.
Print Assumptions C52_constructors.
(** For an abstract class no constructed object is of the class itself: the
    text for a constructor does not depend on its name. *)
Theorem C52_abstract_builds_the_structure : forall w cls cls' tramp T s,
  constructor_text w true cls tramp T s -> constructor_text w true cls' tramp T s.
Proof.
  intros w cls cls' tramp T s H. destruct H as [const s C D|s C D P E|k ls C D F L X].
  - apply CT_copy with const; [exact C|]. inversion D; try discriminate. apply CO_abstract. reflexivity.
  - apply CT_default; [exact C|exact D|exact P|]. inversion E; try discriminate. apply DE_abstract. reflexivity.
  - apply CT_other with k; [exact C|exact D|exact F|exact L|]. intros i l I. destruct (X i l I) as [types N V Y|t f N A Y Z|t f g N A|f N A].
    + exact (CL_init w true cls' tramp T _ types N V Y).
    + exact (CL_abstract w true cls' tramp T _ t f N A Y Z).
    + discriminate A.
    + discriminate A.
Qed.
Print Assumptions C52_abstract_builds_the_structure.
(** Every pure method that an object would lack, apart from destructors and
    const overloads, has an overridable version, and the first one is overridden
    unless it is final. *)
Theorem C52_pure_methods_overridden : forall w ops fuel r b, const_is_method w -> bind_class fuel w ops r = Ok b -> generated w r -> has_structure w r ->
  exists L l body k inner, hierarchy w r L /\
    cb_prefix b = structure_text w r (generate_comment_for_declaration w (r_decl (rec_ w r))) body ++ inner /\
    overriders w (class_qualified_name w r) 0 l body k /\
    forall c m s, lacks w r c m -> ~ constructor (fun_ w m) -> f_dtor (fun_ w m) = false -> f_virtual (fun_ w m) = true -> ~ const_overload w (fun_ w m) ->
      virtual_signature w (fun_ w m) s ->
      exists c' m', virtual_signature w (fun_ w m') s /\ nearest w (versions w L) c' m' /\ (In (c', m') l \/ f_final (fun_ w m') = true).
Proof.
  intros w ops fuel r b Wf H G HS. destruct (class_binding_inv w ops r b (C67_class_binding w ops fuel r b Wf H) G)
    as [tramp [st [si [hold [local [bases [head [ctors [enums [ets [data [meths [folded [pt [pi [inner [ib [ST [_ [_ [_ [_ [_ [_ [_ [_ [_ [_ [_ [P _]]]]]]]]]]]]]]]]]]]]]]]]]]]]]].
  destruct ST as [N|L l body k _ Hi Hl Hx Hd Ho]; [exfalso; exact (N HS)|].
  exists L, l, body, k, (concat (map cb_prefix ib)). split; [exact Hi|]. split; [exact P|]. split; [exact Ho|].
  intros c m s La Nc Nd Vm No Vs. destruct (lacks_descends w r c m La) as [D1 [D2 D3]].
  assert (O : overridable w (fun_ w m)).
  { pose proof (fun B => proj2 HS (lacks_blocked w r c m La Nc B)) as NB. split; [intros X; apply NB; left; exact X|]. split; [intros X; apply NB; right; left; exact X|].
    split; [intros X; apply NB; right; right; exact X|]. exact (conj Nc (conj Nd (conj Vm No))). }
  destruct (Hx c m s (proj2 (versions_In w L c m) (conj (hierarchy_complete w r c D1 L Hi) D2)) O Vs) as [c' [m' [N' V']]].
  exists c', m'. split; [exact V'|]. split; [exact N'|]. destruct (f_final (fun_ w m')) eqn:F; [right; reflexivity|]. left. apply Hl. split; [exact N'|exact F].
Qed.
Print Assumptions C52_pure_methods_overridden.
Example C52_case : lacks (sh_w []) 0 0 0 /\ has_structure (sh_w []) 0 /\ r_abstract (rec_ (sh_w []) 0) = true /\
  ~ constructor (fun_ (sh_w []) 0) /\ f_dtor (fun_ (sh_w []) 0) = false /\ f_virtual (fun_ (sh_w []) 0) = true /\ ~ const_overload (sh_w []) (fun_ (sh_w []) 0).
Proof.
  split; [apply LK_own; [reflexivity|left; reflexivity|reflexivity]|]. split; [exact (proj1 sh_structures)|]. split; [reflexivity|].
  split; [intros X; apply X; reflexivity|]. split; [reflexivity|]. split; [reflexivity|].
  intros X. apply const_overload_iff in X; [|intros _; reflexivity]. vm_compute in X. discriminate X.
Qed.
(** n::Closed is abstract and has no structure: no constructors. *)
Example C52_case_closed : r_abstract (rec_ (sh_w []) 2) = true /\ ~ has_structure (sh_w []) 2 /\
  cb_code (bound_class (sh_w []) 2) = $"	{ // n::Closed file:s.hh line:
		pybind11::class_<n::Closed, std::shared_ptr<n::Closed>> cl(M(""n""), ""Closed"", """");
	}
".
Proof. split; [reflexivity|]. split; [exact (proj2 (proj2 sh_structures))|]. vm_compute; reflexivity. Qed.
(** The exception for const overloads is real: n::V gets a structure, but f() const
    of its base n::O stays pure, so objects of the structure cannot be made. *)
Example pu_const : const_is_method pu_w.
Proof. const_methods 3. Qed.
Theorem C52_every_pure_refuted : ~ forall w r L c m s, const_is_method w -> has_structure w r -> hierarchy w r L ->
  lacks w r c m -> ~ constructor (fun_ w m) -> f_dtor (fun_ w m) = false -> f_virtual (fun_ w m) = true -> virtual_signature w (fun_ w m) s ->
  exists c' m', nearest w (versions w L) c' m' /\ virtual_signature w (fun_ w m') s.
Proof.
  intros H. destruct (H pu_w 1 [1; 0] 0 1 $"f() const") as [c' [m' [[before [after [s [E [O [V Q]]]]]] V']]].
  - exact pu_const.
  - apply (has_structure_iff pu_w 10 10 1 true true pu_const); [vm_compute; reflexivity|vm_compute; reflexivity|split; reflexivity].
  - constructor. apply (HS_base pu_w (mkbase Public false (TRec false 0 [])) [] 0 [0] []); [discriminate|reflexivity|constructor; constructor|constructor].
  - apply (LK_base pu_w 1 0 0 1); [reflexivity| |].
    + exact (XT pu_w 1 (mkbase Public false (TRec false 0 [])) 0 (or_introl eq_refl) ltac:(discriminate) eq_refl).
    + apply LK_own; [reflexivity|right; left; reflexivity|reflexivity].
  - intros X; apply X; reflexivity.
  - reflexivity.
  - reflexivity.
  - apply virtual_signature_iff; vm_compute; reflexivity.
  - assert (I : In (c', m') (versions pu_w [1; 0])) by (rewrite E; apply in_or_app; right; left; reflexivity). clear E.
    assert (Y : callback_candidate pu_w (fun_ pu_w 1) = Ok false) by (vm_compute; reflexivity).
    cbn in I. destruct I as [X|[X|[X|[]]]]; injection X as <- <-; apply virtual_signature_iff in V'; try (vm_compute in V'; discriminate V').
    apply (overridable_iff _ _ _ (pu_const 1) Y) in O. discriminate O.
Qed.
Print Assumptions C52_every_pure_refuted.

(** ** C53: holder *)

Lemma class_line_holder w r h tramp bases enclosing local :
  exists p q, class_line w r ($", " ++ h) tramp bases enclosing local = p ++ [tab] ++ $"pybind11::class_<" ++ class_qualified_name w r ++ $", " ++ h ++ q.
Proof.
  unfold class_line. cbv zeta. generalize (class_qualified_name w r) (python_class_name w r) (standard_name w (n_qname (r_decl (rec_ w r)))). intros cls py name.
  match goal with |- exists p q, ?a ++ [tab] ++ ?b ++ cls ++ (_ ++ h) ++ ?c = _ => exists a, c end. rewrite <- (app_assoc $", " h). reflexivity.
Qed.
Theorem C53_holder : forall w ops fuel r b, const_is_method w -> bind_class fuel w ops r = Ok b -> generated w r -> r_anon (rec_ w r) = false ->
  exists before hold after,
    cb_code b = indent (before ++ [tab] ++ $"pybind11::class_<" ++ class_qualified_name w r ++ $", " ++ hold ++ after) [tab] /\
    (derives_shared w r \/ (forall a, r_dtor (rec_ w r) = Some a -> a = Public) -> hold = strs (wcfg w) holder_type ++ $"<" ++ class_qualified_name w r ++ $">") /\
    (~ derives_shared w r -> forall a, r_dtor (rec_ w r) = Some a -> a <> Public -> hold = class_qualified_name w r ++ $"*").
Proof.
  intros w ops fuel r b Wf H G An. destruct (class_binding_inv w ops r b (C67_class_binding w ops fuel r b Wf H) G)
    as [tramp [st [si [hold [local [bases [head [ctors [enums [ets [data [meths [folded [pt [pi [inner [ib [ST [HT [LT [HB [CT [ES [DT [MT [FT [RT [NS [E _]]]]]]]]]]]]]]]]]]]]]]]]]]]]].
  rewrite An in HB. destruct HB as [_ HB].
  assert (X : exists h, hold = $", " ++ h /\ (derives_shared w r \/ (forall a, r_dtor (rec_ w r) = Some a -> a = Public) -> h = strs (wcfg w) holder_type ++ $"<" ++ class_qualified_name w r ++ $">") /\
    (~ derives_shared w r -> forall a, r_dtor (rec_ w r) = Some a -> a <> Public -> h = class_qualified_name w r ++ $"*")).
  { clear - HT. destruct HT as [D|a D A N].
    - exists (strs (wcfg w) holder_type ++ $"<" ++ class_qualified_name w r ++ $">"). split; [reflexivity|]. split; [intros _; reflexivity|].
      intros D' a A N. exfalso. destruct D as [D|D]; [exact (D' D)|exact (N (D a A))].
    - exists (class_qualified_name w r ++ $"*"). split; [reflexivity|]. split; [|intros _ _ _ _; reflexivity].
      intros [X|X]; exfalso; [exact (D X)|exact (N (X a A))]. }
  destruct X as [h [X Hh]]. rewrite X in HB.
  destruct (class_line_holder w r h tramp (base_classes bases) (if n_member (r_decl (rec_ w r)) then $"enclosing_class" else $"M(" ++ quoted (namespace_from_named_decl w (r_decl (rec_ w r))) ++ $")") local) as [p [q Q]].
  rewrite Q in HB. clear Q. rewrite HB in E. clear HB.
  match type of E with _ = indent (?a ++ ?b ++ ?c ++ _ ++ ?t) _ => exists (a ++ b ++ c ++ p), h, (q ++ t) end. split; [|exact Hh].
  refine (eq_trans E _). f_equal. rewrite <- !app_assoc. reflexivity.
Qed.
Print Assumptions C53_holder.
(** The sample with the default holder, another one, and a class with a
    protected destructor. *)
Definition sh_protected : world :=
  let C := rec_ (sh_w []) 0 in
  mkworld (tu [mkrecord (r_decl C) (r_targs C) (r_struct C) (r_abstract C) (r_final C) (r_complete C) (r_is_def C) (r_definition C) (r_first C) (r_anon_ns C) (r_linkage C)
                        (r_anon C) (r_dependent C) (r_instantiated C) (r_has_default C) (r_needs_default C) (Some Protected) (r_bases C) (r_members C)]
              sh_fns [] (fun r => $"class n::" ++ sh_name r) (fun _ => [])) (wcfg (sh_w [])) (mix_options false false 1000%N).
Example C53_case : r_dtor (rec_ (sh_w []) 0) = None /\ r_dtor (rec_ sh_protected 0) = Some Protected /\
  occurs $"pybind11::class_<n::Shape, std::shared_ptr<n::Shape>" (cb_code (bound_class (sh_w []) 0)) /\
  occurs $"pybind11::class_<n::Shape, my::ptr<n::Shape>" (cb_code (bound_class (sh_w ($"+custom_shared my::ptr" ++ [nl])) 0)) /\
  occurs $"pybind11::class_<n::Shape, n::Shape*" (cb_code (bound_class sh_protected 0)).
Proof. split; [reflexivity|split; [reflexivity|split; [|split]]]; apply find0_occurs; vm_compute; discriminate. Qed.
