(** C105: where a class that is left out can still appear *)
From Coq Require Import Ascii String Bool Arith NArith.
From Coq Require Import List.
From Verif Require Import Str StrFacts SpecUtil Util Config SpecConfig ConfigFacts SpecSettings Ast Types Func Enum Includes Class Context SpecTypes SpecBind SpecClass ClassFacts SpecContext ContextFacts SpecRequests SpecStyle SpecMonotone PropertiesTypes RunFacts OrderFacts RequestFacts PropertiesRequests PropertiesMonotone StructFacts PropertiesClass PropertiesContext SpecLeftOut Samples.
Import ListNotations.

Lemma listed_dec w k n : listed_in w k n \/ ~ listed_in w k n.
Proof. unfold listed_in. destruct (in_dec (list_eq_dec ascii_dec) (nospace n) (lists (wcfg w) k)); auto. Qed.
Lemma left_out_skipped w r args : left_out w r -> class_skipped w r args.
Proof.
  intros [L|N L|U S]; [exact (CS_exact _ _ _ L)| |exact (CS_namespace _ _ _ U S)].
  destruct (listed_dec w classes_to_skip (class_qualified_name w r)) as [E|E]; [exact (CS_exact _ _ _ E)|exact (CS_template _ _ _ E N L)].
Qed.
Lemma written_skipped w r t : left_out w r -> written_as r t -> type_skipped w t.
Proof.
  intros L W. induction W as [t c args E|c t _ I|t _ I|t _ I].
  - exact (TS_class _ _ _ _ _ E (left_out_skipped _ _ _ L)).
  - exact (TS_pointer _ _ _ I).
  - exact (TS_lvalue _ _ I).
  - exact (TS_rvalue _ _ I).
Qed.
Lemma precedence_asked w names (P : Prop) : P -> ~ by_precedence w functions_to_skip functions_to_bind names P -> exists n, In n names /\ listed_in w functions_to_bind n.
Proof.
  intros p. induction names as [|n l I]; cbn [by_precedence]; intros N; [destruct (N p)|].
  destruct (listed_dec w functions_to_bind n) as [Y|Y]; [exists n; split; [left; reflexivity|exact Y]|].
  destruct (listed_dec w functions_to_skip n) as [Z|Z]; [destruct (N (or_introl Z))|].
  destruct I as (m&M&Lm); [|exists m; split; [right; exact M|exact Lm]].
  intros B. apply N. right. split; [exact Z|split; [exact Y|exact B]].
Qed.
Lemma kept_asked w F r t : ~ function_skipped w F -> in_signature F t -> written_as r t -> left_out w r -> asked_by_name w F.
Proof.
  intros N S W L. unfold function_skipped in N.
  refine (precedence_asked w (function_names w F) _ _ N). right. right. exists t. split; [exact S|exact (written_skipped _ _ _ L W)].
Qed.

Fixpoint not_folded w r (L : left_out w r) k l (F : folded_bases w k l) {struct F} : ~ In r l
with not_folded_from w r (L : left_out w r) bs l (F : folded_from w bs l) {struct F} : ~ In r l.
Proof.
  - destruct F as [k E|k l E F]; [intros []|exact (not_folded_from w r L _ _ F)].
  - destruct F as [|b bs R l1 l2 A V E N F1 F2|b bs l O F].
    + intros [].
    + intros [->|I]; [exact (N (left_out_skipped _ _ _ L))|]. apply in_app_iff in I. destruct I as [I|I]; [exact (not_folded w r L _ _ F1 I)|exact (not_folded_from w r L _ _ F2 I)].
    + exact (not_folded_from w r L _ _ F).
Qed.

(** No run binds the class as an item of its own. (A nested class is bound with
    its enclosing class all the same: C90_skipping_nested_refuted.) *)
Theorem C105_not_bound : forall w visits o r, run w visits = Ok o -> left_out w r -> ~ bound o (DRec r).
Proof. intros w visits o r H L B. exact (C48_never_bound w visits o r H B (left_out_skipped _ _ _ L)). Qed.
Print Assumptions C105_not_bound.
(** A function that is bound has the class in its signature only if a +function
    line names the function. *)
Theorem C105_functions : forall w visits o f r t, run w visits = Ok o -> bound o (DFun f) ->
  in_signature (fun_ w f) t -> written_as r t -> left_out w r -> asked_by_name w (fun_ w f).
Proof. intros w visits o f r t H B S W L. exact (kept_asked w _ r t (C47_never_bound w visits o f H B) S W L). Qed.
Print Assumptions C105_functions.
(** So has a method in the statement for a class, own, folded in or brought in by
    using declarations. *)
Theorem C105_methods : forall w k text, methods_text w k text ->
  exists l ts, Forall2 (method_text w) l ts /\ text = concat ts /\
    forall f how r t, In (f, how) l -> in_signature (fun_ w f) t -> written_as r t -> left_out w r -> asked_by_name w (fun_ w f).
Proof.
  intros w k text M. destruct (C49_exactly_the_chosen w k text M) as (l&ts&F&E&A). exists l, ts. split; [exact F|split; [exact E|]].
  intros f how r t I S W L. destruct (proj1 (A f how) I) as (_&(_&N&_)&_). exact (kept_asked w _ r t N S W L).
Qed.
Print Assumptions C105_methods.
(** So has a constructor that the class itself declares. *)
Theorem C105_constructors : forall w m r t, bound_constructor w m -> in_signature (fun_ w m) t -> written_as r t -> left_out w r ->
  asked_by_name w (fun_ w m).
Proof. intros w m r t (_&_&_&N) S W L. exact (kept_asked w _ r t N S W L). Qed.
Print Assumptions C105_constructors.
(** The class is neither named as a base nor are its members folded into a
    class that derives from it. *)
Theorem C105_bases : forall w k r, left_out w r ->
  (forall bs, selection (named_base w) (r_bases (rec_ w k)) bs -> ~ In r (base_classes bs)) /\
  (forall l, folded_bases w k l -> ~ In r l).
Proof.
  intros w k r L. split.
  - intros bs S I. unfold base_classes in I. apply in_flat_map in I. destruct I as (b&I&J).
    apply (proj1 (selection_In _ _ _ S b)) in I. destruct I as (_&_&R&E&_&_&N). rewrite E in J. destruct J as [->|[]].
    exact (N (left_out_skipped _ _ _ L)).
  - apply (not_folded w r L).
Qed.
Print Assumptions C105_bases.

(** The same for the code that a run gives for a class: its statement consists of
    the line [head] that names the bases, the constructors, the data members, the
    methods and the members folded in from bases. *)
Theorem C105_classes : forall w visits o b k r, const_is_method w -> run w visits = Ok o -> In b (out_sorted o) -> b_code b <> [] ->
  b_decl b = DRec k -> generated w k -> left_out w r ->
  exists before head ctors middle meths folded after,
    b_code b = indent (before ++ head ++ ctors ++ middle ++ meths ++ folded ++ after) [tab] /\
    ~ In r (b_deps b) /\
    (r_anon (rec_ w k) = true /\ head = [] \/
     exists hold tramp enclosing local, head = class_line w k hold tramp (b_deps b) enclosing local) /\
    (ctors = [] \/
     exists tramp implicit own owns used useds, ctors = implicit ++ concat owns ++ concat useds /\
       Forall2 (fun m s => constructor_text w (r_abstract (rec_ w k)) (class_qualified_name w k) tramp (fun_ w m) s) own owns /\
       Forall2 (fun m s => constructor_text w (r_abstract (rec_ w k)) (class_qualified_name w k) tramp (fun_ w m) s) used useds /\
       incl used (used_constructors w k) /\ keeps_out w r own) /\
    (exists l ts, meths = concat ts /\ Forall2 (method_text w) l ts /\ keeps_out w r (map fst l)) /\
    (exists Rs ts, folded = concat ts /\ ~ In r Rs /\
       Forall2 (fun R t => exists d m l ls, data_text w R d /\ t = d ++ m /\ m = concat ls /\ Forall2 (method_text w) l ls /\ keeps_out w r (map fst l)) Rs ts).
Proof.
  intros w visits o b k r Wf H Hb Hc D G L.
  assert (M : forall R text, methods_text w R text -> exists l ts, text = concat ts /\ Forall2 (method_text w) l ts /\ keeps_out w r (map fst l)).
  { intros R text T. destruct (C105_methods w R text T) as (l&ts&F&E&A). exists l, ts. split; [exact E|split; [exact F|]].
    intros f t I S W. apply in_map_iff in I. destruct I as ([f' how]&<-&I). exact (A f' how r t I S W L). }
  destruct (C26_code_of_declaration w visits o b H Hb Hc) as (g&GC&EC&_&_&ED). rewrite D in GC. cbn [generate_code] in GC.
  apply (class_binding_spec w _ Wf) in GC.
  destruct (class_binding_inv w _ k g GC G)
    as [tramp [st [si [hold [local [bases [head [ctors [enums [ets [data [meths [folded [pt [pi [inner [ib [ST [HT [LT [HB [CT [ES [DT [MT [FT [RT [NS [E [_ [_ ED']]]]]]]]]]]]]]]]]]]]]]]]]]]]]]].
  rewrite EC, ED, ED', E.
  refine (ex_intro _ ($"{ " ++ generate_comment_for_declaration w (r_decl (rec_ w k))
          ++ (if n_member (r_decl (rec_ w k)) && negb (r_anon (rec_ w k)) then [tab] ++ $"auto & enclosing_class = cl;" ++ [nl] else [])) _).
  exists head, ctors, (concat (map (fun s => [nl] ++ s) ets) ++ data), meths, folded. eexists.
  split; [f_equal; rewrite <- !app_assoc; reflexivity|]. clear E RT NS ES EC ED GC.
  split; [|split; [|split; [|split]]].
  - destruct (r_anon (rec_ w k)); [destruct HB as [-> _]; intros []|]. exact (proj1 (C105_bases w k r L) bases (proj1 HB)).
  - destruct (r_anon (rec_ w k)); [left; split; [reflexivity|exact (proj2 HB)]|right]. destruct HB as [_ ->]. do 4 eexists. reflexivity.
  - destruct (r_anon (rec_ w k) || _); [left; exact CT|right].
    destruct CT as [implicit own owns used useds _ S1 F1 S2 F2]. exists tramp, implicit, own, owns, used, useds.
    split; [reflexivity|split; [exact F1|split; [exact F2|split]]].
    + intros m I. exact (proj1 (proj1 (selection_In _ _ _ S2 m) I)).
    + intros m t I S W. exact (C105_constructors w m r t (proj2 (proj1 (selection_In _ _ _ S1 m) I)) S W L).
  - exact (M k meths MT).
  - destruct FT as (Rs&ts&FB&F&->). exists Rs, ts. split; [reflexivity|split; [exact (proj2 (C105_bases w k r L) Rs FB)|]].
    clear FB. induction F as [|R t Rs ts (d&m&Dt&Mt&->) _ IH]; constructor; [|exact IH].
    destruct (M R m Mt) as (l&ls&E1&E2&E3). exists d, m, l, ls. auto.
Qed.
Print Assumptions C105_classes.

(** Class 0 is n::K, which is left out. Class 1 is n::A with a data member of
    type K, a method that takes a K and a constructor that takes a K. Class 2 is
    n::B, derived from A, with using A::A. Functions 2 to 5 are n::f(K &),
    n::g(KP) for a typedef KP of K *, n::h(K), which a +function line names,
    n::i(int), n::j, which takes a pointer to the class 3 in a namespace that is left out, and
    n::l(E) for an enum that is left out. *)
Definition lo_text : str := $"-class n::K" ++ [nl] ++ $"+function n::h" ++ [nl] ++ $"-namespace o" ++ [nl] ++ $"-enum n::E" ++ [nl].
Definition lo_k : qty := TRec false 0 [].
Definition lo_kp : qty := TSugar false $"KP" (TPtr false lo_k).
Definition lo_mem (p : nat) (c name : str) : named := member_of p Public (nm name ($"n::" ++ c ++ $"::" ++ name) $"<a.hh>").
Definition lo_field : field := mkfield (lo_mem 1 $"A" $"k") lo_k false.
Definition lo_fn (name : str) (t : qty) : fn := fn0 (nm name ($"n::" ++ name) $"<a.hh>") void [mkparam $"x" t false].
Definition lo_env : env :=
  tu [cls (nm $"K" $"n::K" $"<a.hh>") 0 [] [];
      cls (nm $"A" $"n::A" $"<a.hh>") 1 [] [MField lo_field; MMethod 0; MMethod 1];
      cls (nm $"B" $"n::B" $"<a.hh>") 2 [mkbase Public false (TRec false 1 [])] [MUsing Public [UMethod 1]];
      cls (nm $"L" $"o::L" $"<a.hh>") 3 [] []]
     [meth (lo_mem 1 $"A" $"m") void [mkparam $"x" lo_k false] false false false false;
      ctor_of (lo_mem 1 $"A" $"A") [mkparam $"x" (TLRef lo_k) false] (mkctor false None false) false;
      lo_fn $"f" (TLRef lo_k); lo_fn $"g" lo_kp; lo_fn $"h" lo_k; lo_fn $"i" int; lo_fn $"j" (TPtr false (TRec false 3 [])); lo_fn $"l" (TEnum false 0)]
     [mkenum (nm $"E" $"n::E" $"<a.hh>") true true false true [($"a", $"n::E::a")] None]
     (fun r => nth r [$"class n::K"; $"class n::A"; $"class n::B"; $"class o::L"] []) (fun _ => $"enum n::E").
Definition lo_w : world := mkworld lo_env (case_config [$"n"] lo_text) (mix_options false false 300).
Definition lo_visits : list decl := [DRec 0; DRec 1; DRec 2; DFun 2; DFun 3; DFun 4; DFun 5; DFun 6; DFun 7; DEnum 0].
Lemma occurs_there p s i : firstn (length p) (skipn i s) = p -> occurs p s.
Proof.
  intros E. exists (length (firstn i s)), (firstn i s), (skipn (length p) (skipn i s)). split; [|reflexivity].
  pose proof (firstn_skipn (length p) (skipn i s)) as F. rewrite E in F. rewrite F, firstn_skipn. reflexivity.
Qed.
Lemma lo_out : exists w visits o, run w visits = Ok o /\ w = lo_w /\ visits = lo_visits /\ left_out w 0 /\
  (exists b, In b (out_sorted o) /\ b_decl b = DRec 1 /\ occurs ($"cl.def_readwrite(" ++ quoted $"k" ++ $", &n::A::k)") (b_code b)) /\
  (exists b, In b (out_sorted o) /\ b_decl b = DRec 2 /\ occurs $"pybind11::init<class n::K &>()" (b_code b)) /\
  (bound o (DRec 1) /\ bound o (DRec 2) /\ bound o (DFun 3) /\ bound o (DFun 4) /\ bound o (DFun 5) /\ ~ bound o (DFun 2) /\ bound o (DFun 7) /\ ~ bound o (DFun 6) /\ ~ bound o (DEnum 0)).
Proof.
  destruct (run lo_w lo_visits) as [o| | | |] eqn:R; [|vm_compute in R; discriminate R..].
  exists lo_w, lo_visits, o. split; [exact R|]. split; [reflexivity|]. split; [reflexivity|].
  vm_compute in R. injection R as <-.
  split; [apply LO_named; vm_compute; left; reflexivity|].
  split; [eexists; split; [right; left; reflexivity|split; [reflexivity|]]; apply (occurs_there _ _ 156); vm_compute; reflexivity|].
  split; [eexists; split; [right; right; left; reflexivity|split; [reflexivity|]]; apply (occurs_there _ _ 170); vm_compute; reflexivity|].
  unfold bound. cbn [out_sorted].
  repeat split.
  - eexists; split; [right; left; reflexivity|split; [reflexivity|discriminate]].
  - eexists; split; [right; right; left; reflexivity|split; [reflexivity|discriminate]].
  - eexists; split; [do 4 right; left; reflexivity|split; [reflexivity|discriminate]].
  - eexists; split; [do 5 right; left; reflexivity|split; [reflexivity|discriminate]].
  - eexists; split; [do 6 right; left; reflexivity|split; [reflexivity|discriminate]].
  - intros (b&I&E&C). repeat (destruct I as [<-|I]; [first [discriminate E|exact (C eq_refl)]|]). destruct I.
  - eexists; split; [do 8 right; left; reflexivity|split; [reflexivity|discriminate]].
  - intros (b&I&E&C). repeat (destruct I as [<-|I]; [first [discriminate E|exact (C eq_refl)]|]). destruct I.
  - intros (b&I&E&C). repeat (destruct I as [<-|I]; [first [discriminate E|exact (C eq_refl)]|]). destruct I.
Qed.

(** A data member whose type is the class is exposed all the same. *)
Theorem C105_fields_refuted : ~ (forall w visits o b k r f, run w visits = Ok o -> In b (out_sorted o) -> b_decl b = DRec k ->
  In f (declared_fields (rec_ w k)) -> written_as r (fd_type f) -> left_out w r ->
  ~ occurs ($"cl.def_readwrite(" ++ quoted (n_name (fd_decl f)) ++ $", &" ++ n_qname (fd_decl f) ++ $")") (b_code b)).
Proof.
  intros N. destruct lo_out as (w&visits&o&R&->&->&L&(b&I&E&O)&_).
  refine (N lo_w lo_visits o b 1 0 lo_field R I E _ _ L O).
  - left. reflexivity.
  - exact (WA_class 0 lo_k false [] eq_refl).
Qed.
Print Assumptions C105_fields_refuted.
(** So is a constructor that a using declaration brings in. *)
Theorem C105_used_constructors_refuted : ~ (forall w visits o b k r m p s, run w visits = Ok o -> In b (out_sorted o) -> b_decl b = DRec k ->
  In m (used_constructors w k) -> type_text w (p_type p) s -> f_params (fun_ w m) = [p] -> written_as r (p_type p) -> left_out w r -> ~ asked_by_name w (fun_ w m) ->
  ~ occurs ($"pybind11::init<" ++ s ++ $">()") (b_code b)).
Proof.
  intros N. destruct lo_out as (w&visits&o&R&->&->&L&_&(b&I&E&O)&_).
  refine (N lo_w lo_visits o b 2 0 1 (mkparam $"x" (TLRef lo_k) false) $"class n::K &" R I E _ _ _ _ L _ O).
  - left. reflexivity.
  - refine (TT_other lo_w (TLRef lo_k) _). vm_compute. discriminate.
  - reflexivity.
  - exact (WA_lvalue 0 _ (WA_class 0 lo_k false [] eq_refl)).
  - intros (n&J&K). destruct J as [<-|[<-|[]]]; vm_compute in K; destruct K as [K|[]]; discriminate K.
Qed.
Print Assumptions C105_used_constructors_refuted.
(** So is a function that takes a pointer to the class by a typedef. *)
Theorem C105_typedef_refuted : ~ (forall w visits o f r t, run w visits = Ok o -> bound o (DFun f) ->
  in_signature (fun_ w f) t -> stands_for r t -> left_out w r -> asked_by_name w (fun_ w f)).
Proof.
  intros N. destruct lo_out as (w&visits&o&R&->&->&L&_&_&(_&_&B&_)).
  assert (S : in_signature (fun_ lo_w 3) lo_kp) by (right; left; exists (mkparam $"x" lo_kp false); split; [left; reflexivity|reflexivity]).
  destruct (N lo_w lo_visits o 3 0 lo_kp R B S) as (n&J&K).
  - apply SF_typedef, SF_written. exact (WA_pointer 0 _ _ (WA_class 0 lo_k false [] eq_refl)).
  - exact L.
  - destruct J as [<-|[<-|[]]]; vm_compute in K; destruct K as [K|[]]; discriminate K.
Qed.
Print Assumptions C105_typedef_refuted.

(** So is a function that takes an enum that is left out. *)
Theorem C105_enums_refuted : ~ (forall w visits o f e c, run w visits = Ok o -> bound o (DFun f) ->
  in_signature (fun_ w f) (TEnum c e) -> listed_in w enums_to_skip (n_qname (e_decl (enum_ w e))) -> asked_by_name w (fun_ w f)).
Proof.
  intros N. destruct lo_out as (w&visits&o&R&->&->&_&_&_&(_&_&_&_&_&_&B&_)).
  assert (S : in_signature (fun_ lo_w 7) (TEnum false 0)) by (right; left; exists (mkparam $"x" (TEnum false 0) false); split; [left; reflexivity|reflexivity]).
  destruct (N lo_w lo_visits o 7 0 false R B S) as (n&J&K).
  - vm_compute. left. reflexivity.
  - destruct J as [<-|[<-|[]]]; vm_compute in K; destruct K as [K|[]]; discriminate K.
Qed.
Print Assumptions C105_enums_refuted.

(** The hypotheses are met: h takes a K by value and is bound because a line
    names it, f takes a K and is left out. *)
Example C105_case : setup default_config [$"n"] [] $"c" (Some lo_text) = Ok (wcfg lo_w) /\ left_out lo_w 0 /\
  (exists o, run lo_w lo_visits = Ok o /\ ~ bound o (DRec 0) /\ bound o (DRec 1) /\ bound o (DFun 4) /\ bound o (DFun 5) /\ ~ bound o (DFun 2) /\ ~ bound o (DFun 6)) /\
  left_out lo_w 3 /\ in_signature (fun_ lo_w 4) lo_k /\ written_as 0 lo_k /\ asked_by_name lo_w (fun_ lo_w 4) /\
  in_signature (fun_ lo_w 2) (TLRef lo_k) /\ ~ asked_by_name lo_w (fun_ lo_w 2) /\ In (0, None) (candidates lo_w 1) /\ In 1 (own_constructors lo_w 1) /\
  const_is_method lo_w /\ generated lo_w 1 /\ generated lo_w 2.
Proof.
  destruct lo_out as (w&visits&o&R&->&->&L&_&_&(B1&_&_&B4&B5&B2&_&B6&_)).
  split; [vm_compute; reflexivity|]. split; [exact L|].
  split; [exists o; split; [exact R|split; [exact (C105_not_bound _ _ _ _ R L)|auto 10]]|].
  split.
  { assert (S : class_skipped lo_w 3 (targs_of (rec_ lo_w 3))) by (apply (C48_skipped lo_w 3 true); [vm_compute; reflexivity|reflexivity]).
    inversion S as [r' args E|r' args E N T|r' args U Sk|r' args t text U I]; subst.
    - exact (LO_named _ _ E).
    - exact (LO_template _ _ N T).
    - exact (LO_namespace _ _ U Sk).
    - destruct I. }
  split; [right; left; exists (mkparam $"x" lo_k false); split; [left; reflexivity|reflexivity]|].
  split; [exact (WA_class 0 lo_k false [] eq_refl)|].
  split; [exists $"n::h"; split; [right; left; vm_compute; reflexivity|vm_compute; left; reflexivity]|].
  split; [right; left; exists (mkparam $"x" (TLRef lo_k) false); split; [left; reflexivity|reflexivity]|].
  split; [intros (n&J&K); destruct J as [<-|[<-|[]]]; vm_compute in K; destruct K as [K|[]]; discriminate K|].
  split; [vm_compute; left; reflexivity|]. split; [vm_compute; left; reflexivity|].
  split; [intros f; do 8 (destruct f as [|f]; [intros K; vm_compute in K; discriminate K|]); destruct f; intros K; vm_compute in K; discriminate K|].
  split; (split; [|reflexivity]); intros [_ [P|[P|[P|[P _]]]]]; vm_compute in P; repeat (destruct P as [P|P]; [discriminate P|]); try discriminate P; destruct P.
Qed.
