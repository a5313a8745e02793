(** Headers of the types that a generated definition names.  The specification
    is in SpecHeaders.v. *)
From Coq Require Import Ascii String Bool Arith NArith Lia Relations.
From Coq Require Import List.
From Verif Require Import Str StrFacts SpecUtil UtilFacts Util Config Ast Types Func Enum Includes Class Context SpecTypes SpecBind SpecClass SpecIncludes SpecContext SpecOutput SpecHeaders
  TypesFacts BindFacts ClassFacts IncludesFacts ContextFacts SortFacts WriteFacts RunFacts StructFacts Samples PropertiesTypes PropertiesContext PropertiesOutput.
Import ListNotations.

(** ** C91: headers of the types in a definition *)

Lemma reached_own w start d n : reached w start d n -> forall i, include_text w d i -> needs_header w start i.
Proof. intros R i T. exists d, n, d. split; [exact R|]. split; [destruct d; constructor|exact T]. Qed.
Lemma mentions_reached w start t d : mentions w t d -> forall n, (forall d', names_tag t d' -> reached w start d' n) -> exists n', reached w start d n'.
Proof.
  induction 1 as [t d N|t r u text d N I M IH]; intros n H; [exists n; exact (H d N)|].
  apply (IH (n + 1)). intros d' N'. exact (R_step _ _ _ _ _ _ (H _ N) (L_type_argument w r n u text d' I N')).
Qed.
Lemma function_reached w start f n t d i : reached w start (DFun f) n -> in_signature (fun_ w f) t -> mentions w t d -> include_text w d i -> needs_header w start i.
Proof.
  intros R G M T. destruct (mentions_reached w start t d M n) as [n' R'].
  - intros d' N. exact (R_step _ _ _ _ _ _ R (L_signature w f n t d' G N)).
  - exact (reached_own w start d n' R' i T).
Qed.
(** A file of a run begins with the headers its items need. *)
Lemma item_header w visits o g b i : run w visits = Ok o -> In g (out_files o) -> g_skip g = false -> In b (g_items g) -> b_code b <> [] -> wanted w i ->
  item_extra w (b_decl b) i \/ needs_header w (item_starts w (b_decl b) (b_incl b)) i -> includes (g_text g) i.
Proof.
  intros H Hg K Hb Nc W X. destruct (C12_file_includes w visits o g H Hg) as [l [body [E [_ L]]]]. exists l, body. split; [exact E|]. apply L. split; [|exact W].
  right. right. split; [exact K|].
  assert (J : In (b_decl b, b_incl b) (code_items (g_items g))).
  { unfold code_items. apply in_map_iff. exists b. split; [reflexivity|]. apply filter_In. split; [exact Hb|]. apply has_code_iff, Nc. }
  destruct X as [X|[d [n [d' [R [L' T]]]]]]; [left; exists (b_decl b), (b_incl b); auto|]. right. exists d, n, d'. split; [|auto].
  clear - R J. induction R as [d n S|d n d' n' R IH S]; [apply R_start; exists (b_decl b), (b_incl b); auto|exact (R_step _ _ _ _ _ _ IH S)].
Qed.
(** The header of the declaration itself, and of the public classes nested in it. *)
Theorem C91_own_header : forall w visits o g b i, run w visits = Ok o -> In g (out_files o) -> g_skip g = false -> In b (g_items g) -> b_code b <> [] -> wanted w i ->
  include_text w (b_decl b) i \/ (exists r c, b_decl b = DRec r /\ with_nested w r c /\ include_text w (DRec c) i) -> includes (g_text g) i.
Proof.
  intros w visits o g b i H Hg K Hb Nc W X. apply (item_header w visits o g b i H Hg K Hb Nc W). right. destruct X as [T|[r [c [D [N T]]]]].
  - apply (reached_own w _ (b_decl b) 0); [|exact T]. apply R_start. split; [reflexivity|]. destruct (b_decl b) as [f|r|e]; [reflexivity| |reflexivity].
    right. exists r. split; [constructor|reflexivity].
  - apply (reached_own w _ (DRec c) 0); [|exact T]. apply R_start. split; [reflexivity|]. rewrite D. right. exists c. auto.
Qed.
Print Assumptions C91_own_header.
(** A function: the headers of the types of its parameters, result and template
    arguments. *)
Theorem C91_functions : forall w visits o g b f t d i, run w visits = Ok o -> In g (out_files o) -> g_skip g = false -> In b (g_items g) -> b_code b <> [] ->
  b_decl b = DFun f -> in_signature (fun_ w f) t -> mentions w t d -> include_text w d i -> wanted w i -> includes (g_text g) i.
Proof.
  intros w visits o g b f t d i H Hg K Hb Nc D G M T W. apply (item_header w visits o g b i H Hg K Hb Nc W). right.
  apply (function_reached w _ f 0 t d i); try assumption. apply R_start. split; [reflexivity|]. rewrite D. reflexivity.
Qed.
Print Assumptions C91_functions.
(** A class and the classes nested in it: the headers of the types of their
    public constructors and methods, and of instances of method templates. *)
Theorem C91_classes : forall w visits o g b r c f t d i, run w visits = Ok o -> In g (out_files o) -> g_skip g = false -> In b (g_items g) -> b_code b <> [] ->
  b_decl b = DRec r -> with_nested w r c ->
  (In (MMethod f) (r_members (rec_ w c)) \/
   (exists l, In (MFunTemplate l) (r_members (rec_ w c)) /\ In f l /\ f_method (fun_ w f) = true /\ f_ctor (fun_ w f) = None /\ namespaces_consistent w /\ ~ function_skipped w (fun_ w f))) ->
  public (f_decl (fun_ w f)) -> ~ unbindable w (fun_ w f) -> f_dtor (fun_ w f) = false ->
  in_signature (fun_ w f) t -> mentions w t d -> include_text w d i -> wanted w i -> includes (g_text g) i.
Proof.
  intros w visits o g b r c f t d i H Hg K Hb Nc D N F P B Dt G M T W. apply (item_header w visits o g b i H Hg K Hb Nc W). right.
  apply bindable_iff in B.
  assert (R : reached w (item_starts w (b_decl b) (b_incl b)) (DRec c) 0).
  { apply R_start. split; [reflexivity|]. rewrite D. right. exists c. auto. }
  apply (function_reached w _ f 1 t d i); try assumption. refine (R_step _ _ _ _ _ _ R _).
  destruct F as [F|[l [F1 [F2 [F3 [F4 [NC F5]]]]]]]; [exact (L_method w c 0 f (Nat.le_0_l 1) F P B Dt)|]. apply (C47_decided w _ NC) in F5. exact (L_member_template w c 0 l f F1 F2 F3 P B F5 F4 Dt).
Qed.
Print Assumptions C91_classes.
(** A class with a call-back structure: the headers of the types of the methods
    that the structure overrides, whatever class declares them; and a class that
    can be printed: the header of the operator. *)
Lemma hierarchy_unique w : (forall r l, hierarchy w r l -> forall l', hierarchy w r l' -> l' = l).
Proof.
  apply (hierarchy_mut w (fun r l => forall l', hierarchy w r l' -> l' = l) (fun bs l => forall l', hierarchies w bs l' -> l' = l)).
  - intros r l _ IH l' H. inversion H as [r' l2 H2]; subst. f_equal. exact (IH _ H2).
  - intros l' H. inversion H. reflexivity.
  - intros b bs R l1 l2 A B _ IH1 _ IH2 l' H. inversion H as [|b' bs' R' l1' l2' A' B' H1 H2|b' bs' l3 X H2]; subst.
    + rewrite B in B'. injection B' as <-. rewrite (IH1 _ H1), (IH2 _ H2). reflexivity.
    + exfalso. destruct X as [X|X]; [exact (A X)|rewrite B in X; discriminate X].
  - intros b bs l X _ IH l' H. inversion H as [|b' bs' R' l1' l2' A' B' H1 H2|b' bs' l3 X' H2]; subst; [|exact (IH _ H2)].
    exfalso. destruct X as [X|X]; [exact (A' X)|rewrite B' in X; discriminate X].
Qed.
Lemma item_sorted w visits o g b : run w visits = Ok o -> In g (out_files o) -> g_skip g = false -> In b (g_items g) -> b_code b <> [] -> In b (out_sorted o).
Proof.
  intros H Hg K Hb Nc. destruct (C31_every_bound_item_in_one_file w visits o H) as [_ [W _]].
  assert (J : In b (filter has_code (written (out_files o)))).
  { apply filter_In. split; [|apply has_code_iff, Nc]. unfold written. apply in_flat_map. exists g. split; [exact Hg|]. rewrite K. exact Hb. }
  rewrite W in J. apply filter_In in J. exact (proj1 J).
Qed.
Theorem C91_structures : forall w visits o g b r L c m t d i, const_is_method w -> run w visits = Ok o -> In g (out_files o) -> g_skip g = false -> In b (g_items g) -> b_code b <> [] ->
  b_decl b = DRec r -> generated w r -> has_structure w r -> hierarchy w r L -> nearest w (versions w L) c m -> f_final (fun_ w m) = false ->
  in_signature (fun_ w m) t -> mentions w t d -> include_text w d i -> wanted w i -> includes (g_text g) i.
Proof.
  intros w visits o g b r L c m t d i CM H Hg K Hb Nc D G S HL NE NF SG M T W. apply (item_header w visits o g b i H Hg K Hb Nc W). right.
  destruct (C26_code_of_declaration w visits o b H (item_sorted w visits o g b H Hg K Hb Nc) Nc) as [gc [GC [_ [_ [EI _]]]]]. rewrite D in GC. cbn [generate_code] in GC.
  apply (class_binding_spec w _ CM) in GC. destruct (class_binding_inv w _ r gc GC G) as [tramp [st [si X]]]. decompose [ex and] X. clear X.
  match goal with Y : structure_of w r _ _ _ |- _ => inversion Y as [NS|L' l body k HS HL' Hl _ _ _ ET Ex Ei]; subst end; [contradiction|].
  rewrite (hierarchy_unique w _ _ HL _ HL') in Hl.
  assert (J : In m (b_incl b)).
  { rewrite EI. match goal with Y : cb_incl gc = _ |- _ => rewrite Y end. apply in_or_app. left. apply in_map_iff. exists (c, m). split; [reflexivity|]. apply Hl. auto. }
  apply (function_reached w _ m 0 t d i); try assumption. apply R_start. split; [reflexivity|]. rewrite D. left. exists m. auto.
Qed.
Print Assumptions C91_structures.
Theorem C91_printing : forall w visits o g b r f i, const_is_method w -> run w visits = Ok o -> In g (out_files o) -> g_skip g = false -> In b (g_items g) -> b_code b <> [] ->
  b_decl b = DRec r -> generated w r -> ~ no_printing w r -> lookup (printer_type w r) (operators w visits) = Some f -> include_text w (DFun f) i -> wanted w i -> includes (g_text g) i.
Proof.
  intros w visits o g b r f i CM H Hg K Hb Nc D G NP PR T W. apply (item_header w visits o g b i H Hg K Hb Nc W). right.
  destruct (C26_code_of_declaration w visits o b H (item_sorted w visits o g b H Hg K Hb Nc) Nc) as [gc [GC [_ [_ [EI _]]]]]. rewrite D in GC. cbn [generate_code] in GC.
  apply (class_binding_spec w _ CM) in GC. destruct (class_binding_inv w _ r gc GC G) as [tramp [st [si X]]]. decompose [ex and] X. clear X.
  assert (U : forall p, printer w (operators w visits) r p -> p = Some f).
  { intros p Y. inversion Y; congruence. }
  assert (J : In f (b_incl b)).
  { rewrite EI. match goal with Y : cb_incl gc = _ |- _ => rewrite Y end. apply in_or_app. right.
    match goal with Y : str_text w _ r _ _ |- _ => inversion Y as [NP'|_ PR'|f' _ PR']; subst end; [contradiction| |].
    - apply U in PR'. discriminate PR'.
    - apply U in PR'. injection PR' as <-. left. reflexivity. }
  apply (reached_own w _ (DFun f) 0); [|exact T]. apply R_start. split; [reflexivity|]. rewrite D. left. exists f. auto.
Qed.
Print Assumptions C91_printing.

(** *** The hypotheses are met *)

(** m::A in <a.hh>; n::V<m::A> in <v.hh>; n::B in <b.hh> with the virtual method
    g, whose parameter is a pointer to m::A, n::D derived from it in <d.hh>; the function n::f(V<A> &) in
    <f.hh>.  Also n::h, whose parameter type is an alias of a pointer to m::A, and n::C with
    a data member of the type V<A>, and n::E in <e.hh> with a nested class E::X
    derived from n::B. *)
Definition hdr_a : qty := TPtr false (TRec false 0 []).
Definition hdr_args : list targ := [Targ (KType (TRec false 0 [])) $"m::A"].
Definition hdr_n (name file : str) : named := nm name ($"n::" ++ name) file.
Definition hdr_rs : list record := [
  cls (nm $"A" $"m::A" $"<a.hh>") 0 [] [];
  (let c := cls (hdr_n $"V" $"<v.hh>") 1 [] [] in
   mkrecord (r_decl c) (Some hdr_args) (r_struct c) (r_abstract c) (r_final c) (r_complete c) (r_is_def c) (r_definition c) (r_first c) (r_anon_ns c) (r_linkage c)
     (r_anon c) (r_dependent c) true (r_has_default c) (r_needs_default c) (r_dtor c) (r_bases c) (r_members c));
  cls (hdr_n $"B" $"<b.hh>") 2 [] [MMethod 2];
  cls (hdr_n $"D" $"<d.hh>") 3 [mkbase Public false (TRec false 2 [])] [];
  cls (hdr_n $"C" $"<c.hh>") 4 [] [MField (mkfield (member_of 4 Public (nm $"p" $"n::C::p" $"<c.hh>")) (TRec false 1 hdr_args) false)];
  cls (hdr_n $"E" $"<e.hh>") 5 [] [MRec 6];
  cls (member_of 5 Public (nm $"X" $"n::E::X" $"<e.hh>")) 6 [mkbase Public false (TRec false 2 [])] []].
Definition hdr_fs : list fn := [
  fn0 (hdr_n $"f" $"<f.hh>") void [mkparam $"v" (TLRef (TRec false 1 hdr_args)) false];
  fn0 (hdr_n $"h" $"<h.hh>") void [mkparam $"a" (TSugar false $"n::AP" hdr_a) false];
  meth (member_of 2 Public (nm $"g" $"n::B::g" $"<b.hh>")) void [mkparam $"a" hdr_a false] false false true false].
Definition hdr_name (r : nat) : str := nth r [$"class m::A"; $"class n::V<class m::A>"; $"class n::B"; $"class n::D"; $"class n::C"; $"class n::E"; $"class n::E::X"] [].
Definition hdr_w : world :=
  mkworld (tu hdr_rs hdr_fs [] hdr_name (fun _ => []))
          (match setup default_config [$"n"] [] $"c" (Some []) with Ok c => c | _ => default_config end) (mix_options false false 1%N).
Lemma hdr_text : include_text hdr_w (DRec 0) $"<a.hh>".
Proof.
  exists $"m::A", $"<a.hh>". split; [apply (HN_free hdr_w (DRec 0)); reflexivity|]. split; [apply C62_header; vm_compute; reflexivity|]. split; [discriminate|reflexivity].
Qed.
Lemma hdr_wanted i : wanted hdr_w i.
Proof. intros [p [r [I _]]]. vm_compute in I. destruct I. Qed.
(** A function with a template argument; a class whose structure overrides an
    inherited method. *)
Example C91_case :
  (exists o g b t, run hdr_w [DRec 0; DRec 1; DFun 0] = Ok o /\ nth_error (out_files o) 1 = Some g /\ g_skip g = false /\ g_items g = [b] /\ b_code b <> [] /\ b_decl b = DFun 0 /\
     in_signature (fun_ hdr_w 0) t /\ mentions hdr_w t (DRec 0) /\ include_text hdr_w (DRec 0) $"<a.hh>" /\ wanted hdr_w $"<a.hh>") /\
  (exists o g b, run hdr_w [DRec 0; DRec 2; DRec 3] = Ok o /\ nth_error (out_files o) 2 = Some g /\ g_skip g = false /\ g_items g = [b] /\ b_code b <> [] /\ b_decl b = DRec 3 /\
     const_is_method hdr_w /\ b_incl b = [2] /\ includes (g_text g) $"<a.hh>").
Proof.
  split.
  - destruct (run hdr_w [DRec 0; DRec 1; DFun 0]) as [o| | | |] eqn:E; try (vm_compute in E; discriminate E). vm_compute in E. apply Ok_inj in E.
    exists o. eexists. eexists. exists (TLRef (TRec false 1 hdr_args)). split; [reflexivity|]. split; [rewrite <- E; reflexivity|]. split; [reflexivity|]. split; [reflexivity|].
    split; [discriminate|]. split; [reflexivity|]. split; [right; left; eexists; split; [left; reflexivity|reflexivity]|].
    split; [|split; [exact hdr_text|apply hdr_wanted]].
    apply (MT_argument hdr_w _ 1 (TRec false 0 []) $"m::A"); [apply NT_lvalue, NT_tag; reflexivity|left; reflexivity|apply MT_direct, NT_tag; reflexivity].
  - destruct (run hdr_w [DRec 0; DRec 2; DRec 3]) as [o| | | |] eqn:E; try (vm_compute in E; discriminate E). vm_compute in E. apply Ok_inj in E.
    exists o. eexists. eexists. split; [reflexivity|]. split; [rewrite <- E; reflexivity|]. split; [reflexivity|]. split; [reflexivity|].
    split; [discriminate|]. split; [reflexivity|]. split; [|split; [reflexivity|]].
    { intros F. destruct F as [|[|[|F]]]; try (intros X; discriminate X); destruct F; intros X; discriminate X. }
    exists [$"<a.hh>"; $"<b.hh>"; $"<d.hh>"; $"<sstream> // __str__"]. eexists. split; [reflexivity|left; reflexivity].
Qed.
(** The hypotheses of [C91_structures] for the class D, and those of
    [C91_classes] for B. *)
Lemma hdr_const : const_is_method hdr_w.
Proof. intros F. destruct F as [|[|[|F]]]; try (intros X; discriminate X); destruct F; intros X; discriminate X. Qed.
Example C91_structure_case : generated hdr_w 3 /\ has_structure hdr_w 3 /\ hierarchy hdr_w 3 [3; 2] /\ nearest hdr_w (versions hdr_w [3; 2]) 2 2 /\ f_final (fun_ hdr_w 2) = false /\
  in_signature (fun_ hdr_w 2) hdr_a /\ mentions hdr_w hdr_a (DRec 0) /\
  with_nested hdr_w 2 2 /\ In (MMethod 2) (r_members (rec_ hdr_w 2)) /\ public (f_decl (fun_ hdr_w 2)) /\ ~ unbindable hdr_w (fun_ hdr_w 2) /\ f_dtor (fun_ hdr_w 2) = false.
Proof.
  split; [split; [intros Py; apply (builtin_iff hdr_w (r_decl (rec_ hdr_w 3))) in Py; vm_compute in Py; discriminate Py|vm_compute; reflexivity]|].
  split; [apply (has_structure_iff hdr_w 5 5 3 true true hdr_const); [vm_compute; reflexivity|vm_compute; reflexivity|auto]|].
  split; [constructor; apply (HS_base hdr_w _ [] 2 [2] []); [discriminate|reflexivity|constructor; constructor|constructor]|].
  split.
  { exists [], [], $"g(class m::A * a0)". split; [reflexivity|]. split; [apply (overridable_iff _ _ true (hdr_const 2)); [vm_compute; reflexivity|reflexivity]|].
    split; [apply virtual_signature_iff; vm_compute; reflexivity|]. intros ? ? []. }
  split; [reflexivity|]. split; [right; left; eexists; split; [left; reflexivity|reflexivity]|]. split; [apply MT_direct, NT_pointer, NT_tag; reflexivity|].
  split; [constructor|]. split; [left; reflexivity|]. split; [reflexivity|]. split; [apply bindable_iff; vm_compute; reflexivity|reflexivity].
Qed.
(** What is not looked at: a type whose pointer is hidden in an alias, the types
    of data members, and the methods that the structure of a nested class
    overrides.  The header can then be missing. *)
Theorem C91_alias_refuted : exists w visits o g b f t c r args i,
  run w visits = Ok o /\ In g (out_files o) /\ g_skip g = false /\ In b (g_items g) /\ b_code b <> [] /\ b_decl b = DFun f /\
  in_signature (fun_ w f) t /\ canonical t = TPtr c (TRec false r args) /\ include_text w (DRec r) i /\ wanted w i /\ ~ occurs i (g_text g).
Proof.
  exists hdr_w, [DRec 0; DFun 1]. destruct (run hdr_w [DRec 0; DFun 1]) as [o| | | |] eqn:E; try (vm_compute in E; discriminate E). vm_compute in E. apply Ok_inj in E.
  exists o. eexists. eexists. exists 1, (TSugar false $"n::AP" hdr_a), false, 0, [], $"<a.hh>". split; [reflexivity|]. split; [rewrite <- E; left; reflexivity|]. split; [reflexivity|].
  split; [left; reflexivity|]. split; [discriminate|]. split; [reflexivity|]. split; [right; left; eexists; split; [left; reflexivity|reflexivity]|].
  split; [reflexivity|]. split; [exact hdr_text|]. split; [apply hdr_wanted|]. apply not_found. vm_compute. reflexivity.
Qed.
Print Assumptions C91_alias_refuted.
Theorem C91_data_members_refuted : exists w visits o g b r f d i,
  run w visits = Ok o /\ In g (out_files o) /\ g_skip g = false /\ In b (g_items g) /\ b_code b <> [] /\ b_decl b = DRec r /\
  In (MField f) (r_members (rec_ w r)) /\ occurs ($"cl.def_readwrite(" ++ quoted (n_name (fd_decl f))) (b_code b) /\
  mentions w (fd_type f) d /\ include_text w d i /\ wanted w i /\ ~ occurs i (g_text g).
Proof.
  exists hdr_w, [DRec 0; DRec 4]. destruct (run hdr_w [DRec 0; DRec 4]) as [o| | | |] eqn:E; try (vm_compute in E; discriminate E). vm_compute in E. apply Ok_inj in E.
  exists o. eexists. eexists. exists 4. eexists. exists (DRec 0), $"<a.hh>". split; [reflexivity|]. split; [rewrite <- E; left; reflexivity|]. split; [reflexivity|].
  split; [left; reflexivity|]. split; [discriminate|]. split; [reflexivity|]. split; [left; reflexivity|]. split; [apply find0_occurs; vm_compute; discriminate|].
  split; [apply (MT_argument hdr_w _ 1 (TRec false 0 []) $"m::A"); [apply NT_tag; reflexivity|left; reflexivity|apply MT_direct, NT_tag; reflexivity]|].
  split; [exact hdr_text|]. split; [apply hdr_wanted|]. apply not_found. vm_compute. reflexivity.
Qed.
Print Assumptions C91_data_members_refuted.
Theorem C91_nested_structures_refuted : exists w visits o g b r c d i,
  run w visits = Ok o /\ In g (out_files o) /\ g_skip g = false /\ In b (g_items g) /\ b_code b <> [] /\ b_decl b = DRec r /\
  with_nested w r c /\ occurs ($"struct " ++ callback_structure_name w c) (b_prefix b) /\ occurs (n_qname (r_decl (rec_ w d)) ++ $" *") (b_prefix b) /\
  include_text w (DRec d) i /\ wanted w i /\ ~ occurs i (g_text g).
Proof.
  exists hdr_w, [DRec 0; DRec 2; DRec 5]. destruct (run hdr_w [DRec 0; DRec 2; DRec 5]) as [o| | | |] eqn:E; try (vm_compute in E; discriminate E). vm_compute in E. apply Ok_inj in E.
  assert (G : exists g, nth_error (out_files o) 2 = Some g) by (rewrite <- E; eexists; reflexivity). destruct G as [g G].
  exists o, g. pose proof (nth_error_In _ _ G) as I. rewrite <- E in G. cbn [nth_error out_files] in G. injection G as <-. eexists. exists 5, 6, 0, $"<a.hh>". split; [reflexivity|]. split; [exact I|]. split; [reflexivity|].
  split; [left; reflexivity|]. split; [discriminate|]. split; [reflexivity|]. split; [apply (N_step hdr_w 5 5 6); [constructor|left; split; [left; reflexivity|reflexivity]]|].
  split; [apply find0_occurs; vm_compute; discriminate|]. split; [apply find0_occurs; vm_compute; discriminate|].
  split; [exact hdr_text|]. split; [apply hdr_wanted|]. apply not_found. vm_compute. reflexivity.
Qed.
Print Assumptions C91_nested_structures_refuted.
