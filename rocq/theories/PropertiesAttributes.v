(** Properties of what the generated code defines in a Python class.  The
    specification is in SpecAttributes.v. *)
From Coq Require Import Ascii String Bool Arith NArith Lia Permutation.
From Coq Require Import List.
From Verif Require Import Str StrFacts SpecUtil SpecConfig Util UtilFacts Config Ast Types Func Enum Includes Class Context SpecTypes TypesFacts NamesFacts SpecBind BindFacts SpecClass ClassFacts StructFacts
  SpecContext SpecOutput ContextFacts RunFacts SpecImport ImportFacts ImportText PropertiesOutput SpecAttributes AttributeFacts Samples.
Import ListNotations.

Local Opaque standard_name class_qualified_name python_class_name namespace_from_named_decl run.

(** ** C87: definitions in a class *)

(** The code of a class of a run has the statements for its definitions, in
    this order. *)
Theorem C87_statements : forall w visits o b r, const_is_method w -> proper_nesting w -> run w visits = Ok o -> In b (out_sorted o) -> b_code b <> [] -> b_decl b = DRec r ->
  exists l ts, class_attributes w (operators w visits) r l /\ Forall2 defined_by l ts /\ ((forall t, In t ts -> ~ In nl t) -> in_order ts (b_code b)).
Proof.
  intros w visits o b r CM PN H Hb Nc D. pose proof (C68_every_item w visits o b CM H Hb Nc) as T. rewrite D in T.
  inversion T as [| |r' cb CB E1 E2 E3]. subst r'. destruct (class_told w _ r cb PN CB) as [l [A [ts [F O]]]]. exists l, ts. auto.
Qed.
Print Assumptions C87_statements.

(** If no two names clash, all definitions are accepted and none replaces
    another. *)
Lemma split_nodup {A} (l1 : list A) x l2 y l3 : NoDup (l1 ++ x :: l2 ++ y :: l3) -> x <> y.
Proof. intros N E. apply NoDup_remove_2 in N. apply N. rewrite E. apply in_or_app. right. apply in_or_app. right. left. reflexivity. Qed.
Lemma latest_In l a : latest l a -> In a l.
Proof. intros [p [q [-> _]]]. apply in_or_app. right. left. reflexivity. Qed.
Lemma objects_In l a : In a l -> is_object a = true -> In (name_of a) (objects l).
Proof. intros I1 O1. apply in_map, filter_In. auto. Qed.
Lemma objects_split l1 a l2 b l3 : is_object a = true -> is_object b = true ->
  objects (l1 ++ a :: l2 ++ b :: l3) = objects l1 ++ name_of a :: objects l2 ++ name_of b :: objects l3.
Proof. intros A B. unfold objects. rewrite filter_app. cbn [filter]. rewrite A, filter_app. cbn [filter]. rewrite B, map_app. cbn [map]. rewrite map_app. reflexivity. Qed.
Theorem C87_separate : forall (inherited : str -> Prop) l,
  NoDup (objects l) ->
  (forall static n, In (Method static n) l -> ~ In n (objects l)) ->
  (forall n, ~ (In (Method true n) l /\ In (Method false n) l)) ->
  (forall static n, In (Method static n) l -> inherited n -> underscored n) ->
  all_accepted inherited l /\ nothing_lost l.
Proof.
  intros inh l N1 N2 N3 N4. assert (X : nothing_lost l).
  { intros l1 a l2 b l3 -> E. destruct (is_object a) eqn:A, (is_object b) eqn:B; [| | |auto]; exfalso.
    - rewrite (objects_split _ _ _ _ _ A B) in N1. exact (split_nodup _ _ _ _ _ N1 E).
    - destruct b as [st n| |]; try discriminate B. apply (N2 st n); [apply in_or_app; right; right; apply in_or_app; right; left; reflexivity|].
      change n with (name_of (Method st n)). rewrite <- E. apply objects_In; [apply in_or_app; right; left; reflexivity|exact A].
    - destruct a as [st n| |]; try discriminate A. apply (N2 st n); [apply in_or_app; right; left; reflexivity|].
      change n with (name_of (Method st n)). rewrite E. apply objects_In; [apply in_or_app; right; right; apply in_or_app; right; left; reflexivity|exact B]. }
  split; [|exact X]. intros before a after E.
  assert (Ia : In a l) by (rewrite E; apply in_or_app; right; left; reflexivity).
  assert (Ib : forall b, In b before -> In b l) by (intros b I; rewrite E; apply in_or_app; left; exact I).
  destruct a as [st n|n|n]; cbn [accepted].
  - split; [|split].
    + intros st' L. apply latest_In, Ib in L. destruct st, st'; try reflexivity; exfalso; apply (N3 n); auto.
    + intros b L E' O. exfalso. apply (N2 st n Ia). rewrite <- E'. apply objects_In; [exact (Ib _ (latest_In _ _ L))|exact O].
    + intros _ I. exact (N4 st n Ia I).
  - exact Logic.I.
  - intros b I E'. apply in_split in I. destruct I as [p [q ->]]. rewrite <- app_assoc in E. cbn [app] in E. destruct (X p b q (Type_ n) after E E') as [_ Y]. discriminate Y.
Qed.
Print Assumptions C87_separate.

Inductive subseq {A} : list A -> list A -> Prop :=
| SQ_nil : subseq [] []
| SQ_take x l l' : subseq l l' -> subseq (x :: l) (x :: l')
| SQ_drop x l l' : subseq l l' -> subseq l (x :: l').
Lemma subseq_refl {A} (l : list A) : subseq l l.
Proof. induction l; constructor; assumption. Qed.
Lemma subseq_none {A} (l : list A) : subseq [] l.
Proof. induction l; constructor; assumption. Qed.
Lemma subseq_app {A} (a b c d : list A) : subseq a b -> subseq c d -> subseq (a ++ c) (b ++ d).
Proof. intros H1 H2. induction H1; cbn [app]; [exact H2| |]; constructor; assumption. Qed.
Lemma subseq_In {A} (a b : list A) x : subseq a b -> In x a -> In x b.
Proof. induction 1; cbn; [auto| |]; intros H'; [destruct H'; auto|auto]. Qed.
Lemma subseq_NoDup {A} (a b : list A) : subseq a b -> NoDup b -> NoDup a.
Proof.
  induction 1 as [|x l l' H IH|x l l' H IH]; intros N; [constructor| |]; inversion N as [|? ? N1 N2]; subst; [|auto].
  constructor; [|auto]. intros I. apply N1. exact (subseq_In _ _ _ H I).
Qed.
Lemma subseq_map {A B} (f : A -> B) a b : subseq a b -> subseq (map f a) (map f b).
Proof. induction 1; cbn [map]; constructor; assumption. Qed.
Lemma selection_subseq {A} (P : A -> Prop) l l' : selection P l l' -> subseq l' l.
Proof. induction 1; constructor; assumption. Qed.
Lemma objects_app a b : objects (a ++ b) = objects a ++ objects b.
Proof. unfold objects. rewrite filter_app, map_app. reflexivity. Qed.
Lemma objects_methods st n k : objects (repeat (Method st n) k) = [].
Proof. induction k; [reflexivity|]. exact IHk. Qed.
Lemma method_objects w cs ms : Forall2 (method_attributes w) cs ms -> objects (concat ms) = [].
Proof. induction 1 as [|c m cs ms [k [n [_ [_ ->]]]] F IH]; [reflexivity|]. cbn [concat]. rewrite objects_app, IH, objects_methods. reflexivity. Qed.
Lemma objects_fields fs : objects (map field_attribute fs) = map (fun f => n_name (fd_decl f)) fs.
Proof. induction fs as [|f fs IH]; [reflexivity|]. unfold objects in *. cbn. rewrite IH. reflexivity. Qed.
Lemma objects_values (vs : list (str * str)) : objects (map (fun v => Value (fst v)) vs) = map fst vs.
Proof. induction vs as [|v vs IH]; [reflexivity|]. unfold objects in *. cbn. rewrite IH. reflexivity. Qed.
Definition enum_names (w : world) (l : list nat) : list str :=
  flat_map (fun e => n_name (e_decl (enum_ w e)) :: (if e_scoped (enum_ w e) then [] else map fst (e_values (enum_ w e)))) l.
Lemma enum_names_eq w (ms : list member) : flat_map (fun m => match m with
                     | MEnum e => n_name (e_decl (enum_ w e)) :: (if e_scoped (enum_ w e) then [] else map fst (e_values (enum_ w e)))
                     | _ => []
                     end) ms = enum_names w (flat_map (fun m => match m with MEnum e => [e] | _ => [] end) ms).
Proof. induction ms as [|m ms IH]; [reflexivity|]. cbn [flat_map]. rewrite IH. unfold enum_names. rewrite flat_map_app. destruct m; cbn [flat_map app]; rewrite ?app_nil_r; reflexivity. Qed.
Lemma enum_objects w l l' : (forall e, In e l -> e_scoped (enum_ w e) = true -> e_class_tag (enum_ w e) = true) -> subseq l' l ->
  subseq (objects (concat (map (fun e => enum_attributes (enum_ w e)) l'))) (enum_names w l).
Proof.
  intros S1 H. induction H as [|e l l' H IH|e l l' H IH]; [constructor| |].
  - cbn [map concat]. rewrite objects_app. unfold enum_names. cbn [flat_map]. apply subseq_app; [|apply IH; intros x X; apply S1; right; exact X].
    unfold enum_attributes. change (Type_ ?n :: ?t) with ([Type_ n] ++ t). rewrite objects_app. cbn [objects filter is_object map name_of app]. constructor.
    pose proof (S1 e (or_introl eq_refl)) as Y. destruct (e_class_tag (enum_ w e)); [apply subseq_none|].
    destruct (e_scoped (enum_ w e)); [discriminate (Y eq_refl)|]. rewrite objects_values. apply subseq_refl.
  - unfold enum_names. cbn [flat_map]. apply (subseq_app [] _ _ _ (subseq_none _)). apply IH. intros x X. apply S1. right. exact X.
Qed.
Lemma inner_objects w ops r inner ia : (forall i, In i (inner_classes w r) -> r_anon (rec_ w (definition_of w i)) = false) ->
  selection (bound_inner w) (inner_classes w r) inner -> Forall2 (fun i l => nested_attributes w ops (definition_of w i) l) inner ia ->
  subseq (objects (concat ia)) (map (fun i => python_class_name w (definition_of w i)) (filter (fun i => r_first (rec_ w i)) (inner_classes w r))) /\
  forall a, In a (concat ia) -> is_object a = true.
Proof.
  intros An S1. revert ia An. induction S1 as [|i l l' P S1 IH|i l l' P S1 IH]; intros ia An F.
  - inversion F; subst. split; [constructor|]. intros a [].
  - inversion F as [|? a0 ? ia' N F']; subst. destruct (IH ia' (fun j J => An j (or_intror J)) F') as [X1 X2]. pose proof (An i (or_introl eq_refl)) as Ai.
    cbn [concat filter]. rewrite (proj1 P). cbn [map]. rewrite objects_app.
    destruct N as [j x A _|j A _|j A _]; [rewrite A in Ai; discriminate Ai| |].
    + cbn [app]. split; [apply SQ_drop; exact X1|exact X2].
    + split; [apply (SQ_take _ _ _ X1)|]. intros a [<-|I]; [reflexivity|exact (X2 a I)].
  - destruct (IH ia (fun j J => An j (or_intror J)) F) as [X1 X2]. cbn [filter]. split; [|exact X2]. destruct (r_first (rec_ w i)); [apply SQ_drop|]; exact X1.
Qed.
Lemma method_origin w r cs ms st n : selection (chosen w) (candidates w r) cs -> Forall2 (method_attributes w) cs ms -> In (Method st n) (concat ms) ->
  exists c, chosen_name w r c n /\ is_static (fun_ w (fst c)) = st.
Proof.
  intros S1 F I. assert (X : exists c, In c cs /\ python_name w (fun_ w (fst c)) n /\ is_static (fun_ w (fst c)) = st).
  { clear S1. induction F as [|c m cs ms [k [x [_ [PN ->]]]] F IH]; [destruct I|]. cbn [concat] in I. apply in_app_iff in I. destruct I as [I|I].
    - apply repeat_spec in I. injection I as -> ->. exists c. split; [left; reflexivity|]. auto.
    - destruct (IH I) as [c' [X1 X2]]. exists c'. split; [right; exact X1|exact X2]. }
  destruct X as [c [X1 [X2 X3]]]. apply (selection_In _ _ _ S1) in X1. exists c. split; [|exact X3]. split; [exact (proj1 X1)|]. split; [exact (proj2 X1)|exact X2].
Qed.
Lemma plain_name w F n : python_name w F n -> f_operator F = false -> is_static F = false \/ strs (wcfg w) prefix_for_static_member_functions = [] -> n = n_name (f_decl F).
Proof.
  intros [b [-> H]] O D. destruct H as [[X _]|[[X _]|[_ ->]]]; [rewrite X in O; discriminate O|rewrite X in O; discriminate O|].
  destruct D as [->| ->]; [reflexivity|]. destruct (is_static F); reflexivity.
Qed.
(** Names as C++ has them are enough, under the further conditions of
    [separate_class]. *)
Theorem C87_class : forall w ops r l, class_attributes w ops r l -> separate_class w ops r ->
  all_accepted (offered_by_base w ops r) l /\ nothing_lost l.
Proof.
  intros w ops r l CA [OM Pl Na Sc Al Ss [St1 St2] Hi].
  destruct CA as [r NG|r enums own bases folded print pt pi inner ia G SE [fs [cs [ms [EX [SC [MA ->]]]]]] FB FM ST -> SI NI].
  { apply C87_separate; cbn; [constructor|intros ? ? []|intros n [[] _]|intros ? ? []]. }
  inversion FB as [r' _ E1 E2|r' l' T _ E1 E2]; subst; [|rewrite Pl in T; destruct (T eq_refl)]. inversion FM; subst. cbn [concat app].
  destruct (inner_objects w ops r inner ia Na SI NI) as [IO1 IO2].
  set (pr := match pi with [] => [] | _ => [Method false $"__str__"] end).
  assert (Pr : objects pr = [] /\ forall st n, In (Method st n) pr -> st = false /\ n = $"__str__").
  { unfold pr. destruct pi; split; try reflexivity; [intros ? ? []|intros ? ? [E|[]]; injection E as <- <-; auto]. }
  clearbody pr. destruct Pr as [Pr1 Pr2].
  assert (OE : subseq (objects (concat (map (fun e => enum_attributes (enum_ w e)) enums) ++ (map field_attribute fs ++ concat ms) ++ pr ++ concat ia)) (object_names w r)).
  { unfold object_names. rewrite enum_names_eq, !objects_app, Pr1, objects_fields, (method_objects w cs ms MA), app_nil_r. cbn [app].
    apply subseq_app; [apply enum_objects; [exact Sc|exact (selection_subseq _ _ _ SE)]|]. apply subseq_app; [|exact IO1].
    destruct EX as [used [ow [-> [X1 X2]]]]. apply subseq_map, subseq_app; [exact (selection_subseq _ _ _ X1)|exact (selection_subseq _ _ _ X2)]. }
  assert (MO : forall st n, In (Method st n) (concat (map (fun e => enum_attributes (enum_ w e)) enums) ++ (map field_attribute fs ++ concat ms) ++ pr ++ concat ia) ->
    (st = false /\ n = $"__str__") \/ exists c, chosen_name w r c n /\ is_static (fun_ w (fst c)) = st).
  { intros st n I. rewrite !in_app_iff in I. destruct I as [I|[[I|I]|[I|I]]].
    - exfalso. apply in_concat in I. destruct I as [x [I1 I2]]. apply in_map_iff in I1. destruct I1 as [e [<- _]]. destruct I2 as [I2|I2]; [discriminate I2|].
      destruct (e_class_tag (enum_ w e)); [destruct I2|]. apply in_map_iff in I2. destruct I2 as [v [E _]]. discriminate E.
    - exfalso. apply in_map_iff in I. destruct I as [f [E _]]. discriminate E.
    - right. exact (method_origin w r cs ms st n SC MA I).
    - left. exact (Pr2 st n I).
    - discriminate (IO2 _ I). }
  revert OE MO. generalize (concat (map (fun e => enum_attributes (enum_ w e)) enums) ++ (map field_attribute fs ++ concat ms) ++ pr ++ concat ia). intros l OE MO.
  apply C87_separate.
  - exact (subseq_NoDup _ _ OE (om_objects w r OM)).
  - intros st n I J. apply (subseq_In _ _ _ OE) in J. destruct (MO st n I) as [[_ ->]|[c [C _]]]; [exact (St1 J)|].
    destruct (f_operator (fun_ w (fst c))) eqn:Op; [exact (Al c n C (or_introl Op) J)|].
    destruct (is_static (fun_ w (fst c))) eqn:Is; [destruct (strs (wcfg w) prefix_for_static_member_functions) eqn:Px|].
    + rewrite (plain_name w _ n (proj2 (proj2 C)) Op (or_intror Px)) in J. exact (om_functions w r OM c (proj1 C) J).
    + apply (Al c n C); [right; split; [exact Is|intros Z; congruence]|exact J].
    + rewrite (plain_name w _ n (proj2 (proj2 C)) Op (or_introl Is)) in J. exact (om_functions w r OM c (proj1 C) J).
  - intros n [I1 I2]. destruct (MO _ _ I1) as [[E _]|[c1 [C1 D1]]]; [discriminate E|].
    destruct (MO _ _ I2) as [[_ ->]|[c2 [C2 D2]]]; [rewrite (St2 c1 C1) in D1; discriminate D1|]. rewrite (Ss c1 c2 n C1 C2), D2 in D1. discriminate D1.
  - intros st n I J. destruct (MO _ _ I) as [[_ ->]|[c [C _]]]; [eexists; reflexivity|exact (Hi c n C J)].
Qed.
Print Assumptions C87_class.
(** A prefix for static member functions that no other Python name of the class
    begins with keeps them apart. *)
Theorem C87_prefix : forall w r,
  (forall c n, chosen_name w r c n -> is_static (fun_ w (fst c)) = false -> ~ starts (strs (wcfg w) prefix_for_static_member_functions) n) ->
  forall c c' n, chosen_name w r c n -> chosen_name w r c' n -> is_static (fun_ w (fst c)) = is_static (fun_ w (fst c')).
Proof.
  intros w r H. assert (X : forall c c' n, chosen_name w r c n -> chosen_name w r c' n -> is_static (fun_ w (fst c)) = true -> is_static (fun_ w (fst c')) = false -> False).
  { intros c c' n C C' E E'. apply (H c' n C' E'). destruct C as [_ [_ [b [-> _]]]]. rewrite E. exists b. reflexivity. }
  intros c c' n C C'. destruct (is_static (fun_ w (fst c))) eqn:E, (is_static (fun_ w (fst c'))) eqn:E'; try reflexivity; exfalso; [exact (X c c' n C C' E E')|exact (X c' c n C' C E' E)].
Qed.
Print Assumptions C87_prefix.

(** *** The hypotheses are met, and needed *)

Definition python_method (w : world) (c : nat * option nat) : list attribute :=
  let F := fun_ w (fst c) in
  repeat (Method (is_static F) ((if f_method F && f_static F then strs (wcfg w) prefix_for_static_member_functions else []) ++ python_function_name F)) (length (f_params F) + 1 - first_bound F).
Definition python_members (w : world) (r : nat) (cs : list (nat * option nat)) : list attribute :=
  map field_attribute (exposed_fields w (rec_ w r)) ++ concat (map (python_method w) cs).
Lemma members_computed w r cs : const_is_method w -> exposed_methods w r = Ok cs -> member_attributes w r (python_members w r cs).
Proof.
  intros CM E. exists (exposed_fields w (rec_ w r)), cs, (map (python_method w) cs). split; [apply exposed_fields_spec|]. split; [exact (exposed_methods_spec w r cs CM E)|].
  split; [|reflexivity]. clear E. induction cs as [|c cs IH]; cbn [map]; constructor; [|exact IH].
  exists (first_bound (fun_ w (fst c))). eexists. split; [apply first_bound_spec|]. split; [apply python_name_spec|reflexivity].
Qed.
Lemma class_computed w ops r cs es bases bl : const_is_method w -> generated w r -> exposed_methods w r = Ok cs -> selection (bound_enum w) (inner_enums w r) es ->
  folded_bases w r bases -> Forall2 (member_attributes w) bases bl -> inner_classes w r = [] -> snd (bind_repr w ops r) = [] ->
  class_attributes w ops r (concat (map (fun e => enum_attributes (enum_ w e)) es) ++ python_members w r cs ++ concat bl ++ [] ++ []).
Proof.
  intros CM G E SE FB F Ni P. pose proof (str_spec w ops r) as St. rewrite P in St.
  apply (TA_class w ops r es (python_members w r cs) bases bl [] _ [] [] [] G SE (members_computed w r cs CM E) FB F St eq_refl); [rewrite Ni; constructor|constructor].
Qed.

(** n::A: [static void f(int)] and [void f()]; B: [enum struct K { size }] and
    [int size()]; C: the field [assign] and an assignment operator; D: the field
    [x]; E derived from D: [void x()]; S<int>: the field [x]; T<int> derived from
    S<int>: [void x()]; G: the field [a], [enum Kind { k }] and [static void f(int)],
    [void g()].  The function h takes a T<int>. *)
Definition at_name (r : nat) : str := nth r [$"A"; $"B"; $"C"; $"D"; $"E"; $"S"; $"T"; $"G"] [].
Definition at_n (r : nat) : named := nm (at_name r) ($"n::" ++ at_name r) $"<t.hh>".
Definition at_mem (r : nat) (name : str) : named := member_of r Public (nm name ($"n::" ++ at_name r ++ $"::" ++ name) $"<t.hh>").
Definition at_field (r : nat) (name : str) : member := MField (mkfield (at_mem r name) int false).
Definition instance_of (C : record) : record :=
  mkrecord (r_decl C) (Some [Targ (KType int) $"int"]) (r_struct C) false (r_final C) (r_complete C) (r_is_def C) (r_definition C) (r_first C) (r_anon_ns C) (r_linkage C)
           (r_anon C) (r_dependent C) true (r_has_default C) (r_needs_default C) (r_dtor C) (r_bases C) (r_members C).
Definition at_rs : list record := [
  cls (at_n 0) 0 [] [MMethod 0; MMethod 1];
  cls (at_n 1) 1 [] [MEnum 0; MMethod 2];
  cls (at_n 2) 2 [] [at_field 2 $"assign"; MMethod 3];
  cls (at_n 3) 3 [] [at_field 3 $"x"];
  cls (at_n 4) 4 [mkbase Public false (TRec false 3 [])] [MMethod 4];
  instance_of (cls (at_n 5) 5 [] [at_field 5 $"x"]);
  instance_of (cls (at_n 6) 6 [mkbase Public false (TRec false 5 [Targ (KType int) $"int"])] [MMethod 5]);
  cls (at_n 7) 7 [] [at_field 7 $"a"; MEnum 1; MMethod 6; MMethod 7]].
Definition at_fns : list fn := [
  meth (at_mem 0 $"f") void [mkparam $"i" int false] true false false false;
  meth (at_mem 0 $"f") void [] false false false false;
  meth (at_mem 1 $"size") int [] false false false false;
  assign_of (at_mem 2 $"operator=") 2;
  meth (at_mem 4 $"x") void [] false false false false;
  meth (at_mem 6 $"x") void [] false false false false;
  meth (at_mem 7 $"f") void [mkparam $"i" int true] true false false false;
  meth (at_mem 7 $"g") void [] false false false false;
  fn0 (nm $"h" $"n::h" $"<t.hh>") void [mkparam $"t" (TLRef (TRec false 6 [Targ (KType int) $"int"])) false]].
Definition at_es : list enum := [
  mkenum (at_mem 1 $"K") true false false true [($"size", $"n::B::K::size")] (Some 0);
  mkenum (at_mem 7 $"Kind") false false false true [($"k", $"n::G::k")] (Some 1)].
Definition at_text (r : nat) : str := $"class n::" ++ at_name r ++ (if (r =? 5) || (r =? 6) then $"<int>" else []).
Definition at_w : world :=
  mkworld (tu at_rs at_fns at_es at_text (fun e => nth e [$"enum n::B::K"; $"enum n::G::Kind"] []))
          (match setup default_config [$"n"] [] $"c" (Some []) with Ok c => c | _ => default_config end) (mix_options false false 1000%N).
Definition at_visits : list decl := map DRec [0; 1; 2; 3; 4; 5; 6; 7] ++ [DFun 8].
Lemma at_const : const_is_method at_w.
Proof. intros f. do 9 (destruct f as [|f]; [vm_compute; intros; reflexivity || discriminate|]). vm_compute. intros H. destruct f; discriminate H. Qed.
Local Transparent standard_name class_qualified_name python_class_name namespace_from_named_decl run.
Lemma at_generated r : r < 8 -> generated at_w r.
Proof. intros H. do 8 (destruct r as [|r]; [apply generated_ok; vm_compute; reflexivity|]). lia. Qed.
Lemma at_meaning r : r < 8 -> one_meaning at_w r.
Proof.
  intros H. do 8 (destruct r as [|r]; [split; [vm_compute; repeat constructor; intros X; repeat (destruct X as [X|X]; [discriminate X|]); exact X
    |intros c X Y; vm_compute in X; repeat (destruct X as [X|X]; [subst c; vm_compute in Y; repeat (destruct Y as [Y|Y]; [discriminate Y|]); exact Y|]); exact X]|]). lia.
Qed.
Lemma at_enum e : e < 2 -> bound_enum at_w e.
Proof.
  intros H. assert (X : is_public (e_decl (enum_ at_w e)) && is_bindable_enum (enum_ at_w e) = true /\ is_skipping_requested_enum at_w (enum_ at_w e) = Ok false).
  { destruct e as [|[|e]]; [| |lia]; split; vm_compute; reflexivity. }
  destruct X as [X Y]. apply enum_ok_iff in X. destruct X as [A [B [C D]]]. split; [exact A|]. split; [exact B|]. split; [exact C|]. split; [exact D|].
  intros Z. apply (skip_enum_iff _ _ _ Y) in Z. discriminate Z.
Qed.
Lemma at_class r cs es l : r < 8 -> exposed_methods at_w r = Ok cs -> selection (bound_enum at_w) (inner_enums at_w r) es ->
  r_targs (rec_ at_w r) = None -> concat (map (fun e => enum_attributes (enum_ at_w e)) es) ++ python_members at_w r cs ++ [] = l -> class_attributes at_w [] r l.
Proof.
  intros L E S T <-. apply (class_computed at_w [] r cs es [] []); [exact at_const|exact (at_generated r L)|exact E|exact S|exact (FB_plain at_w r T)|constructor| |];
    do 8 (destruct r as [|r]; [vm_compute; reflexivity|]); lia.
Qed.
Definition at_A : list attribute := [Method true $"f"; Method false $"f"].
Definition at_B : list attribute := [Type_ $"K"; Value $"size"; Method false $"size"].
Definition at_C : list attribute := [Value $"assign"; Method false $"assign"].
Definition at_E : list attribute := [Method false $"x"].
Definition at_T : list attribute := [Method false $"x"; Value $"x"].
Definition at_G : list attribute := [Type_ $"Kind"; Value $"k"; Value $"a"; Method true $"f"; Method true $"f"; Method false $"g"].
Lemma no_enums r : inner_enums at_w r = [] -> selection (bound_enum at_w) (inner_enums at_w r) [].
Proof. intros ->. constructor. Qed.
Lemma at_A_ok : class_attributes at_w [] 0 at_A.
Proof. apply (at_class 0 [(0, None); (1, None)] []); [lia|vm_compute; reflexivity|apply no_enums; reflexivity|reflexivity|vm_compute; reflexivity]. Qed.
Lemma at_B_ok : class_attributes at_w [] 1 at_B.
Proof. apply (at_class 1 [(2, None)] [0]); [lia|vm_compute; reflexivity|apply SEL_taken; [apply at_enum; lia|constructor]|reflexivity|vm_compute; reflexivity]. Qed.
Lemma at_C_ok : class_attributes at_w [] 2 at_C.
Proof. apply (at_class 2 [(3, None)] []); [lia|vm_compute; reflexivity|apply no_enums; reflexivity|reflexivity|vm_compute; reflexivity]. Qed.
Lemma at_D_ok : class_attributes at_w [] 3 [Value $"x"].
Proof. apply (at_class 3 [] []); [lia|vm_compute; reflexivity|apply no_enums; reflexivity|reflexivity|vm_compute; reflexivity]. Qed.
Lemma at_E_ok : class_attributes at_w [] 4 at_E.
Proof. apply (at_class 4 [(4, None)] []); [lia|vm_compute; reflexivity|apply no_enums; reflexivity|reflexivity|vm_compute; reflexivity]. Qed.
Lemma at_G_ok : class_attributes at_w [] 7 at_G.
Proof. apply (at_class 7 [(6, None); (7, None)] [1]); [lia|vm_compute; reflexivity|apply SEL_taken; [apply at_enum; lia|constructor]|reflexivity|vm_compute; reflexivity]. Qed.
Lemma at_T_ok : class_attributes at_w [] 6 at_T.
Proof.
  pose proof (class_computed at_w [] 6 [(5, None)] [] [5] [python_members at_w 5 []] at_const (at_generated 6 ltac:(lia))) as X.
  assert (E : concat (map (fun e => enum_attributes (enum_ at_w e)) []) ++ python_members at_w 6 [(5, None)] ++ concat [python_members at_w 5 []] ++ [] ++ [] = at_T) by (vm_compute; reflexivity).
  rewrite E in X. apply X; clear X E; [vm_compute; reflexivity|apply no_enums; reflexivity| | |vm_compute; reflexivity|vm_compute; reflexivity].
  - assert (B : base_ok at_w (mkbase Public false (TRec false 5 [Targ (KType int) $"int"])) = Ok true) by (vm_compute; reflexivity). apply base_ok_iff in B.
    destruct (proj1 B eq_refl) as [_ [R [ER [_ [_ NS]]]]]. injection ER as <-.
    apply FB_template; [discriminate|]. apply (FF_base at_w _ [] 5 [] []); [reflexivity|reflexivity|reflexivity|exact NS| |constructor].
    apply FB_template; [discriminate|constructor].
  - repeat constructor. apply members_computed; [exact at_const|vm_compute; reflexivity].
Qed.
Lemma not_underscored c s : c <> "_"%char -> ~ underscored (c :: s).
Proof. intros N [t E]. injection E as E _. exact (N E). Qed.
(** Although every name has one meaning in C++, the module cannot be imported,
    for: a static and another function of the same name; an [enum struct] with an
    enumerator that is also the name of a function; a data member named like the
    Python name of an operator; a function that hides a data member of a base.
    And of an instance of a class template, a function is replaced by the data
    member of a base that it hides. *)
Theorem C87_clashes_refuted : exists w visits o, run w visits = Ok o /\ operators w visits = [] /\ (forall r, In r [0; 1; 2; 4; 6] -> bound o (DRec r) /\ one_meaning w r) /\
  class_attributes w [] 0 [Method true $"f"; Method false $"f"] /\ ~ all_accepted (offered_by_base w [] 0) [Method true $"f"; Method false $"f"] /\
  class_attributes w [] 1 [Type_ $"K"; Value $"size"; Method false $"size"] /\ ~ all_accepted (offered_by_base w [] 1) [Type_ $"K"; Value $"size"; Method false $"size"] /\
  class_attributes w [] 2 [Value $"assign"; Method false $"assign"] /\ ~ all_accepted (offered_by_base w [] 2) [Value $"assign"; Method false $"assign"] /\
  class_attributes w [] 4 [Method false $"x"] /\ ~ all_accepted (offered_by_base w [] 4) [Method false $"x"] /\
  class_attributes w [] 6 [Method false $"x"; Value $"x"] /\ ~ nothing_lost [Method false $"x"; Value $"x"].
Proof.
  exists at_w, at_visits. destruct (run at_w at_visits) as [o| | | |] eqn:R; try (vm_compute in R; discriminate R). exists o. split; [reflexivity|]. split; [vm_compute; reflexivity|].
  split.
  { intros r Hr. split; [|apply at_meaning; destruct Hr as [<-|[<-|[<-|[<-|[<-|[]]]]]]; lia].
    assert (X : In (DRec r, true) (map (fun b => (b_decl b, match b_code b with [] => false | _ => true end)) (out_sorted o))).
    { assert (Y : exists l, map (fun b => (b_decl b, match b_code b with [] => false | _ => true end)) (out_sorted o) = l /\ forall r, In r [0; 1; 2; 4; 6] -> In (DRec r, true) l).
      { eexists. split.
        - assert (Z : match run at_w at_visits with Ok o => map (fun b => (b_decl b, match b_code b with [] => false | _ => true end)) (out_sorted o) | _ => [] end
                      = map (fun b => (b_decl b, match b_code b with [] => false | _ => true end)) (out_sorted o)) by (rewrite R; reflexivity).
          rewrite <- Z. vm_compute. reflexivity.
        - intros k [<-|[<-|[<-|[<-|[<-|[]]]]]]; cbn; tauto. }
      destruct Y as [l [-> Y]]. exact (Y r Hr). }
    apply in_map_iff in X. destruct X as [b [X I]]. injection X as D C. exists b. split; [exact I|]. split; [exact D|]. intros Z. rewrite Z in C. discriminate C. }
  split; [exact at_A_ok|]. split.
  { intros A. destruct (A [Method true $"f"] (Method false $"f") [] eq_refl) as [X _]. discriminate (X true). exists [], []. split; [reflexivity|intros b []]. }
  split; [exact at_B_ok|]. split.
  { intros A. destruct (A [Type_ $"K"; Value $"size"] (Method false $"size") [] eq_refl) as [_ [X _]]. refine (not_underscored _ _ _ (X (Value $"size") _ eq_refl eq_refl)); [discriminate|].
    exists [Type_ $"K"], []. split; [reflexivity|intros b []]. }
  split; [exact at_C_ok|]. split.
  { intros A. destruct (A [Value $"assign"] (Method false $"assign") [] eq_refl) as [_ [X _]]. refine (not_underscored _ _ _ (X (Value $"assign") _ eq_refl eq_refl)); [discriminate|].
    exists [], []. split; [reflexivity|intros b []]. }
  split; [exact at_E_ok|]. split.
  { intros A. destruct (A [] (Method false $"x") [] eq_refl) as [_ [_ X]]. refine (not_underscored _ _ _ (X (fun b (H : In b []) => match H with end) _)); [discriminate|].
    assert (B : base_ok at_w (mkbase Public false (TRec false 3 [])) = Ok true) by (vm_compute; reflexivity). apply base_ok_iff in B.
    apply (OB_direct at_w [] 4 (mkbase Public false (TRec false 3 [])) 3 [Value $"x"]); [left; reflexivity|exact (proj1 B eq_refl)|reflexivity|exact at_D_ok|].
    exists (Value $"x"). split; [|split; reflexivity]. exists [], []. split; [reflexivity|intros b []]. }
  split; [exact at_T_ok|]. intros N. destruct (N [] (Method false $"x") [] (Value $"x") [] eq_refl eq_refl) as [_ X]. discriminate X.
Qed.
Print Assumptions C87_clashes_refuted.
(** The class G: the hypotheses of [C87_class] hold, and its definitions. *)
Lemma at_G_names c n : chosen_name at_w 7 c n -> (c = (6, None) /\ n = $"f") \/ (c = (7, None) /\ n = $"g").
Proof.
  intros [I [_ P]]. cbn in I. destruct I as [<-|[<-|[]]]; [left|right]; (split; [reflexivity|]);
    exact (python_name_same _ _ _ _ P (python_name_spec at_w _)).
Qed.
Example C87_case : separate_class at_w [] 7 /\ class_attributes at_w [] 7 at_G /\ all_accepted (offered_by_base at_w [] 7) at_G /\ nothing_lost at_G.
Proof.
  assert (S1 : separate_class at_w [] 7).
  { split.
    - apply at_meaning. lia.
    - reflexivity.
    - intros i [].
    - intros e [<-|[]] E. discriminate E.
    - intros c n C [O|[_ O]]; [|destruct (O eq_refl)]. destruct (at_G_names c n C) as [[-> _]|[-> _]]; discriminate O.
    - intros c c' n C C'. destruct (at_G_names c n C) as [[-> E]|[-> E]], (at_G_names c' n C') as [[-> E']|[-> E']]; try reflexivity; rewrite E in E'; discriminate E'.
    - split; [intros X; vm_compute in X; repeat (destruct X as [X|X]; [discriminate X|]); exact X|]. intros c C. destruct (at_G_names c _ C) as [[_ E]|[_ E]]; discriminate E.
    - intros c n _ O. inversion O as [r b R l x I|r b R x I]; destruct I. }
  split; [exact S1|]. split; [exact at_G_ok|]. exact (C87_class at_w [] 7 at_G at_G_ok S1).
Qed.
(** A prefix helps. *)
Definition at_prefixed : world :=
  mkworld (wenv at_w) (match setup default_config [$"n"] [] $"c" (Some ($"+prefix_for_static_member_functions s_" ++ [nl])) with Ok c => c | _ => default_config end) (wopt at_w).
Example C87_case_prefix :
  (forall c n, chosen_name at_prefixed 0 c n -> is_static (fun_ at_prefixed (fst c)) = false -> ~ starts (strs (wcfg at_prefixed) prefix_for_static_member_functions) n) /\
  python_members at_prefixed 0 [(0, None); (1, None)] = [Method true $"s_f"; Method false $"f"].
Proof.
  split; [|vm_compute; reflexivity]. intros c n [I [_ P]] E [s X]. cbn in I. destruct I as [<-|[<-|[]]]; [discriminate E|].
  rewrite <- (python_name_same _ _ _ _ (python_name_spec at_prefixed _) P) in X. vm_compute in X. discriminate X.
Qed.
