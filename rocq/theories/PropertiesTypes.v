(** Properties C44-C48, C55-C57 and C60-C62: decisions on types, classes,
    functions and enums, and the texts derived from their names, for every
    translation unit, configuration and set of options. *)
From Coq Require Import Ascii String Bool Arith NArith Lia.
From Coq Require Import List.
From Verif Require Import Str StrFacts SpecUtil Util UtilFacts Config SpecConfig ConfigFacts Ast Types Func Enum Includes Class Context SpecContext SpecTypes SpecIncludes ContextFacts RunFacts TypesFacts Regex RegexFacts NamesFacts Samples.
Import ListNotations.

(** What a run binds is eligible (C27). *)
Lemma bound_eligible w visits o d : run w visits = Ok o -> bound o d -> eligible w d.
Proof.
  intros H B. pose proof B as B'. destruct B' as [b [Hb [Eb _]]]. destruct (run_item _ _ _ _ H Hb) as [i [Hi _]]. rewrite Eb in Hi.
  apply (bound_iff _ _ _ _ _ H Hi) in B. exact (needed_eligible _ _ _ _ _ B Hi).
Qed.

(** ** C44: operators *)

Theorem C44_operator_name : forall w F, is_bindable_fun w F = true -> f_operator F = true ->
  f_method F = true /\ operator_name (n_name (f_decl F)) (length (f_params F)) (python_function_name F).
Proof.
  intros w F B O.
  assert (N : ~ unbindable w F). { intros U. apply bindable_fun_iff in U. rewrite B in U. discriminate. }
  split. { destruct (f_method F) eqn:M; [reflexivity|]. exfalso; apply N. exact (UB_free_operator _ _ O M). }
  assert (P : python_function_name F = cpp_python_operator F). { unfold python_function_name. rewrite O. reflexivity. }
  rewrite P. apply operator_iff. split; [reflexivity|]. intros E.
  apply N. apply UB_operator; [exact O|]. intros name H. apply operator_iff in H. destruct H as [H1 H2]. apply H2. rewrite <- H1. exact E.
Qed.
Print Assumptions C44_operator_name.
(** At most one Python name per operator and number of parameters. *)
Theorem C44_one_name : forall op n a b, operator_name op n a -> operator_name op n b -> a = b.
Proof.
  intros op n a b Ha Hb.
  pose (F := fn0 (nm op op []) void (repeat (mkparam [] int false) n)).
  assert (E : operator_name (n_name (f_decl F)) (length (f_params F)) a /\ operator_name (n_name (f_decl F)) (length (f_params F)) b).
  { cbn [F fn0 f_params f_decl nm n_name]. rewrite repeat_length. auto. }
  destruct E as [E1 E2]. apply operator_iff in E1, E2. rewrite <- (proj1 E1). exact (proj1 E2).
Qed.
Print Assumptions C44_one_name.
(** No operator outside the list, and no operator that is not a member, is bound. *)
Theorem C44_unlisted_never_bound : forall w visits o f, run w visits = Ok o -> bound o (DFun f) -> f_operator (fun_ w f) = true ->
  f_method (fun_ w f) = true /\ exists name, operator_name (n_name (f_decl (fun_ w f))) (length (f_params (fun_ w f))) name.
Proof.
  intros w visits o f H B O. destruct (bound_eligible _ _ _ _ H B) as [C _]. cbn [can_bind] in C.
  destruct (C44_operator_name w _ C O) as [M N]. eauto.
Qed.
Print Assumptions C44_unlisted_never_bound.
Definition op_fn (name : str) (n : nat) (method : bool) : fn :=
  mkfn (nm name ($"A::" ++ name) $"<a.hh>") int (repeat (mkparam $"x" int false) n) method false false false false false false false true false false None TK_NonTemplate None 0 false.
Example C44_cases : let w := fns_w [] (mix_options false false 1000) [] in
  (is_bindable_fun w (op_fn $"operator-" 0 true), python_function_name (op_fn $"operator-" 0 true)) = (true, $"__neg__") /\
  (is_bindable_fun w (op_fn $"operator-" 1 true), python_function_name (op_fn $"operator-" 1 true)) = (true, $"__sub__") /\
  is_bindable_fun w (op_fn $"operator-" 1 false) = false /\ is_bindable_fun w (op_fn $"operator&&" 1 true) = false /\
  is_bindable_fun w (op_fn $"operator()" 3 true) = true.
Proof. vm_compute; repeat split; reflexivity. Qed.
(** A finding: the table has one name for [operator&], so the address-of
    operator is offered to Python as the binary [__and__]. *)
Theorem C44_unary_and_refuted : ~ forall w F, is_bindable_fun w F = true -> n_name (f_decl F) = $"operator&" -> length (f_params F) = 0 ->
  python_function_name F <> $"__and__".
Proof.
  intros H. apply (H (fns_w [] (mix_options false false 1000) []) (op_fn $"operator&" 0 true)); vm_compute; reflexivity.
Qed.
Print Assumptions C44_unary_and_refuted.

(** ** C45: what can be bound *)

Theorem C45_functions : forall w F, is_bindable_fun w F = true <-> ~ unbindable w F.
Proof.
  intros w F. pose proof (bindable_fun_iff w F) as H. destruct (is_bindable_fun w F).
  - split; [|reflexivity]. intros _ U. apply H in U. discriminate.
  - split; [discriminate|]. intros N. exfalso. apply N. apply H. reflexivity.
Qed.
Print Assumptions C45_functions.
Theorem C45_types : forall w t, is_bindable_q w t = true <-> ~ rejected w t.
Proof.
  intros w t. pose proof (bindable_q_iff w t) as H. destruct (is_bindable_q w t).
  - split; [|reflexivity]. intros _ U. apply H in U. discriminate.
  - split; [discriminate|]. intros N. exfalso. apply N. apply H. reflexivity.
Qed.
Print Assumptions C45_types.
Theorem C45_classes : forall w r, is_bindable_rec w r = true <-> ~ rejected_class w r (targs_of (rec_ w r)).
Proof.
  intros w r. pose proof (bindable_rec_iff w r) as H. destruct (is_bindable_rec w r).
  - split; [|reflexivity]. intros _ U. apply H in U. discriminate.
  - split; [discriminate|]. intros N. exfalso. apply N. apply H. reflexivity.
Qed.
Print Assumptions C45_classes.
(** The explicit list: a function with one of these as its return type, or as
    the canonical type of a parameter, is never bound. *)
Inductive unsupported (w : world) : qty -> Prop :=
| US_pointer_to_pointer c c' t : unsupported w (TPtr c (TPtr c' t))
| US_reference_to_pointer_to_pointer c c' t : unsupported w (TLRef (TPtr c (TPtr c' t)))
| US_function_pointer c r ps : unsupported w (TPtr c (TFun r ps))
| US_array c t : unsupported w (TArray c t)
| US_pointer_to_array c c' t : unsupported w (TPtr c (TArray c' t))
| US_reference_to_array c t : unsupported w (TLRef (TArray c t))
| US_rvalue_reference t : unsupported w (TRRef t)
| US_hidden_class c r args : hidden (r_decl (rec_ w r)) -> unsupported w (TRec c r args)
| US_hidden_enum c e : hidden (e_decl (enum_ w e)) -> unsupported w (TEnum c e)
| US_pointer_to_hidden c c' r args : hidden (r_decl (rec_ w r)) -> unsupported w (TPtr c (TRec c' r args))
| US_reference_to_hidden c r args : hidden (r_decl (rec_ w r)) -> unsupported w (TLRef (TRec c r args)).
Lemma unsupported_rejected w t : unsupported w t -> rejected w t.
Proof.
  destruct 1.
  - eapply RJ_pointer_to_pointer; reflexivity.
  - apply RJ_reference. eapply RJ_pointer_to_pointer; reflexivity.
  - eapply RJ_function_pointer; reflexivity.
  - eapply RJ_array; reflexivity.
  - eapply RJ_pointer_to_array; reflexivity.
  - apply RJ_reference. eapply RJ_array; reflexivity.
  - eapply RJ_rvalue_reference; reflexivity.
  - eapply RJ_class; [reflexivity|]. apply RC_hidden; assumption.
  - eapply RJ_enum; [reflexivity|assumption].
  - apply RJ_pointer. eapply RJ_class; [reflexivity|]. apply RC_hidden; assumption.
  - apply RJ_reference. eapply RJ_class; [reflexivity|]. apply RC_hidden; assumption.
Qed.
Theorem C45_unsupported_never_bound : forall w visits o f, run w visits = Ok o -> bound o (DFun f) ->
  ~ unbindable w (fun_ w f) /\ ~ unsupported w (f_ret (fun_ w f)) /\
  forall p, In p (f_params (fun_ w f)) -> ~ unsupported w (canonical (p_type p)).
Proof.
  intros w visits o f H B. destruct (bound_eligible _ _ _ _ H B) as [C _]. cbn [can_bind] in C. apply C45_functions in C.
  split; [exact C|]. split.
  - intros U. apply C. apply UB_return. apply unsupported_rejected, U.
  - intros p Hp U. apply C. apply (UB_parameter _ _ p Hp). apply unsupported_rejected, U.
Qed.
Print Assumptions C45_unsupported_never_bound.
Theorem C45_hidden_class_never_bound : forall w visits o r, run w visits = Ok o -> bound o (DRec r) ->
  ~ rejected_class w r (targs_of (rec_ w r)) /\ ~ hidden (r_decl (rec_ w r)).
Proof.
  intros w visits o r H B. destruct (bound_eligible _ _ _ _ H B) as [C _]. cbn [can_bind] in C. apply C45_classes in C.
  split; [exact C|]. intros U. apply C. apply RC_hidden, U.
Qed.
Print Assumptions C45_hidden_class_never_bound.
(** Class 0 is public, class 1 is a private member of it, class 2 is the
    specialization Box<A::P> of a public template. *)
Definition acc_rs : list record := [
  cls (nm $"A" $"A" $"<a.hh>") 0 [] [];
  cls (member_of 0 Private (nm $"P" $"A::P" $"<a.hh>")) 1 [] [];
  let R := cls (nm $"Box" $"Box" $"<a.hh>") 2 [] [] in
  mkrecord (r_decl R) (Some [Targ (KType (TRec false 1 [])) $"A::P"]) false false false true true (Some 2) true false true false false true true true None [] []].
Definition acc_w : world :=
  mkworld (tu acc_rs [] [] (fun r => nth r [$"class A"; $"class A::P"; $"class Box<class A::P>"] []) (fun _ => [])) mix_config (mix_options false false 1000).
Definition box : qty := TRec false 2 [Targ (KType (TRec false 1 [])) $"A::P"].
Example C45_cases :
  map (is_bindable_q acc_w) [int; TPtr false int; TPtr false (TPtr false int); TLRef (TRec false 0 []); TRec false 1 []; TPtr true (TRec true 1 []);
    TArray false int; TPtr false (TFun void [int]); TRRef int; TSugar true $"P_ref" (TRec false 1 [])] =
  [true; true; false; true; false; false; false; false; false; false].
Proof. vm_compute; reflexivity. Qed.
Example C45_case_unsupported : unsupported acc_w (TPtr true (TRec true 1 [])).
Proof. apply US_pointer_to_hidden. right. reflexivity. Qed.
(** A finding: template arguments are not looked at, so a private class used as
    a template argument is accepted (the generated code names the private
    class and does not compile). *)
Theorem C45_private_template_argument_refuted : ~ forall w F t text c r args,
  is_bindable_fun w F = true -> In (mkparam $"x" (TLRef (TRec c r args)) false) (f_params F) -> In (Targ (KType t) text) args -> ~ rejected w t.
Proof.
  intros H. apply (H acc_w (fn0 (nm $"f" $"f" $"<a.hh>") void [mkparam $"x" (TLRef box) false]) (TRec false 1 []) $"A::P" false 2
    [Targ (KType (TRec false 1 [])) $"A::P"]); [vm_compute; reflexivity|left; reflexivity|left; reflexivity|].
  apply unsupported_rejected. apply US_hidden_class. right. reflexivity.
Qed.
Print Assumptions C45_private_template_argument_refuted.

(** ** C46: spelling of types *)

Definition with_ret (F : fn) (t : qty) : fn :=
  mkfn (f_decl F) t (f_params F) (f_method F) (f_static F) (f_const F) (f_virtual F) (f_pure F) (f_final F) (f_variadic F) (f_deleted F)
       (f_operator F) (f_conversion F) (f_dtor F) (f_ctor F) (f_kind F) (f_targs F) (f_est F) (f_copy_assign F).
Definition with_params (F : fn) (ps : list param) : fn :=
  mkfn (f_decl F) (f_ret F) ps (f_method F) (f_static F) (f_const F) (f_virtual F) (f_pure F) (f_final F) (f_variadic F) (f_deleted F)
       (f_operator F) (f_conversion F) (f_dtor F) (f_ctor F) (f_kind F) (f_targs F) (f_est F) (f_copy_assign F).
(** Full statement, false of the code: the return type. *)
Theorem C46_return_spelling_refuted : ~ forall w F t, canonical t = canonical (f_ret F) -> is_bindable_fun w (with_ret F t) = is_bindable_fun w F.
Proof.
  intros H. specialize (H acc_w (fn0 (nm $"f" $"f" $"<a.hh>") (TPtr false (TPtr false int)) []) (TSugar false $"pp" (TPtr false (TPtr false int))) eq_refl).
  vm_compute in H. discriminate.
Qed.
Print Assumptions C46_return_spelling_refuted.
(** The spelling of parameter types (and the names and default values of
    parameters) does not matter. *)
Theorem C46_parameter_spelling : forall w F ps, map (fun p => canonical (p_type p)) ps = map (fun p => canonical (p_type p)) (f_params F) ->
  is_bindable_fun w (with_params F ps) = is_bindable_fun w F.
Proof.
  intros w F ps E.
  assert (L : length ps = length (f_params F)). { apply (f_equal (@length _)) in E. rewrite !map_length in E. exact E. }
  assert (B : forall l, forallb (fun p => is_bindable_q w (canonical (p_type p))) l = forallb (is_bindable_q w) (map (fun p => canonical (p_type p)) l)).
  { induction l as [|p l IH]; [reflexivity|]. cbn [forallb map]. rewrite IH. reflexivity. }
  assert (O : cpp_python_operator (with_params F ps) = cpp_python_operator F).
  { unfold cpp_python_operator, num_params. cbn [with_params f_decl f_params]. rewrite L. reflexivity. }
  unfold is_bindable_fun. rewrite O. cbn [with_params f_decl f_params f_operator f_method f_deleted f_kind f_conversion f_ret]. rewrite !B, E. reflexivity.
Qed.
Print Assumptions C46_parameter_spelling.
(** A return type without sugar is judged as a parameter would be. *)
Theorem C46_canonical_return : forall w F t, canonical t = f_ret F -> is_bindable_fun w F = true -> is_bindable_q w (canonical t) = true.
Proof.
  intros w F t E B. rewrite E. apply C45_types. intros R. apply C45_functions in B. apply B. apply UB_return, R.
Qed.
Print Assumptions C46_canonical_return.
Example C46_case : let f ps := fn0 (nm $"f" $"f" $"<a.hh>") void ps in
  let ps1 := [mkparam $"x" (TSugar false $"pp" (TPtr false (TPtr false int))) false] in let ps2 := [mkparam $"y" (TPtr false (TPtr false int)) true] in
  is_bindable_fun acc_w (f ps1) = false /\ is_bindable_fun acc_w (f ps2) = false /\ is_bindable_fun acc_w (f [mkparam [] (TSugar true $"i" int) false]) = true.
Proof. vm_compute; repeat split; reflexivity. Qed.

(** ** C47: selection of functions *)

Lemma decision (d : result bool) (P : Prop) : (forall b, d = Ok b -> (b = true <-> P)) -> (exists b, d = Ok b) ->
  (d = Ok true <-> P) /\ (d = Ok false <-> ~ P).
Proof.
  intros H [b E]. specialize (H b E). destruct b; rewrite E; split; split; intros X; try discriminate; try reflexivity.
  - apply H; reflexivity.
  - exfalso; apply X, H; reflexivity.
  - apply H in X; discriminate.
  - intros Y. apply H in Y; discriminate.
Qed.
Theorem C47_skipped : forall w F b, is_skipping_requested_fun w F = Ok b -> (b = true <-> function_skipped w F).
Proof. intros w F b. apply skip_fun_iff. Qed.
Print Assumptions C47_skipped.
Theorem C47_requested : forall w F b, is_binding_requested_fun w F = Ok b -> (b = true <-> function_requested w F).
Proof. intros w F b. apply bind_fun_iff. Qed.
Print Assumptions C47_requested.
(** There is always a decision unless a namespace is listed both ways. *)
Theorem C47_decided : forall w F, namespaces_consistent w ->
  (is_skipping_requested_fun w F = Ok true <-> function_skipped w F) /\ (is_skipping_requested_fun w F = Ok false <-> ~ function_skipped w F) /\
  (is_binding_requested_fun w F = Ok true <-> function_requested w F) /\ (is_binding_requested_fun w F = Ok false <-> ~ function_requested w F).
Proof.
  intros w F C.
  destruct (decision _ _ (skip_fun_iff w F) (skip_fun_ok w F C)) as [A B]. destruct (decision _ _ (bind_fun_iff w F) (bind_fun_ok w F C)) as [D E].
  exact (conj A (conj B (conj D E))).
Qed.
Print Assumptions C47_decided.
(** No function that is to be skipped is bound, whatever mentions it. *)
Theorem C47_never_bound : forall w visits o f, run w visits = Ok o -> bound o (DFun f) -> ~ function_skipped w (fun_ w f).
Proof.
  intros w visits o f H B S. destruct (bound_eligible _ _ _ _ H B) as [_ [C _]]. cbn [skip_decl] in C.
  apply C47_skipped in C. apply C in S. discriminate.
Qed.
Print Assumptions C47_never_bound.
Definition sel_text : str :=
  $"-function ns::f(int)" ++ [nl] ++ $"+function ns::f" ++ [nl] ++ $"-function ns::g" ++ [nl] ++ $"+function ns::g(int)" ++ [nl] ++
  $"-namespace ns" ++ [nl] ++ $"+namespace ns::in" ++ [nl] ++ $"-class ns::in::K" ++ [nl] ++ $"+class ns::V<int>" ++ [nl] ++ $"-class ns::V" ++ [nl] ++ $"-enum ns::in::E" ++ [nl] ++ $"+enum ns::H" ++ [nl].
Definition sel_config : config := match setup default_config [] [] $"c" (Some sel_text) with Ok c => c | _ => default_config end.
Definition sel_f (qn name : str) (ts : list qty) : fn := fn0 (nm name qn $"<a.hh>") void (map (fun t => mkparam $"x" t false) ts).
(** Class 0 is K, class 1 is V<int>, class 2 is V<K>, class 3 is W<K *>. *)
Definition spec_of (qn name : str) (self : nat) (t : qty) (text : str) : record :=
  mkrecord (nm name qn $"<a.hh>") (Some [Targ (KType t) text]) false false false true true (Some self) true false true false false true true true None [] [].
Definition sel_k : qty := TRec false 0 [].
Definition sel_rs : list record := [
  cls (nm $"K" $"ns::in::K" $"<a.hh>") 0 [] []; spec_of $"ns::V" $"V" 1 int $"int"; spec_of $"ns::V" $"V" 2 sel_k $"ns::in::K";
  spec_of $"ns::in::W" $"W" 3 (TPtr false sel_k) $"ns::in::K *"; spec_of $"ns::in::W" $"W" 4 int $"int"].
Definition sel_w : world := mkworld (tu sel_rs [] [] (fun r => nth r [$"class ns::in::K"; $"class ns::V<int>"; $"class ns::V<class ns::in::K>"; $"class ns::in::W<class ns::in::K *>"; $"class ns::in::W<int>"] []) (fun _ => []))
  sel_config (mix_options false false 1000).
Example C47_consistent : namespaces_consistent sel_w.
Proof. intros ns H1 H2. vm_compute in H1, H2. destruct H1 as [<-|[]]. destruct H2 as [H2|[]]. discriminate. Qed.
Example C47_cases : map (is_skipping_requested_fun sel_w)
    [sel_f $"ns::f" $"f" [int]; sel_f $"ns::f" $"f" []; sel_f $"ns::g" $"g" [int]; sel_f $"ns::g" $"g" []; sel_f $"ns::h" $"h" []; sel_f $"ns::in::h" $"h" [];
     sel_f $"ns::in::h" $"h" [TLRef sel_k]; sel_f $"ns::in::h" $"h" [TRec false 3 [Targ (KType (TPtr false sel_k)) $"ns::in::K *"]]] =
  map Ok [true; false; false; true; true; false; true; true].
Proof. vm_compute; reflexivity. Qed.

(** ** C48: selection of classes *)

Theorem C48_skipped : forall w r b, is_skipping_requested_rec w r = Ok b -> (b = true <-> class_skipped w r (targs_of (rec_ w r))).
Proof. intros w r b. apply skip_class_iff. Qed.
Print Assumptions C48_skipped.
Theorem C48_requested : forall w r b, is_binding_requested_rec w r = Ok b -> (b = true <-> class_requested w r).
Proof. intros w r b. apply bind_class_iff. Qed.
Print Assumptions C48_requested.
Theorem C48_decided : forall w r, namespaces_consistent w ->
  (is_skipping_requested_rec w r = Ok true <-> class_skipped w r (targs_of (rec_ w r))) /\
  (is_skipping_requested_rec w r = Ok false <-> ~ class_skipped w r (targs_of (rec_ w r))) /\
  (is_binding_requested_rec w r = Ok true <-> class_requested w r) /\ (is_binding_requested_rec w r = Ok false <-> ~ class_requested w r).
Proof.
  intros w r C.
  destruct (decision _ _ (skip_class_iff w r) (skip_class_ok w r C)) as [A B]. destruct (decision _ _ (bind_class_iff w r) (bind_class_ok w r C)) as [D E].
  exact (conj A (conj B (conj D E))).
Qed.
Print Assumptions C48_decided.
Theorem C48_never_bound : forall w visits o r, run w visits = Ok o -> bound o (DRec r) -> ~ class_skipped w r (targs_of (rec_ w r)).
Proof.
  intros w visits o r H B S. destruct (bound_eligible _ _ _ _ H B) as [_ [C _]]. cbn [skip_decl] in C.
  apply C48_skipped in C. apply C in S. discriminate.
Qed.
Print Assumptions C48_never_bound.
Example C48_cases : map (is_skipping_requested_rec sel_w) [0; 1; 2; 3; 4] = map Ok [true; false; true; true; false] /\
  map (is_binding_requested_rec sel_w) [0; 1; 2; 3; 4] = map Ok [true; true; false; false; false].
Proof. vm_compute; repeat split; reflexivity. Qed.

(** ** C61: selection of enums *)

Theorem C61_decided : forall w e, namespaces_consistent w ->
  (is_skipping_requested_enum w e = Ok true <-> enum_skipped w e) /\ (is_skipping_requested_enum w e = Ok false <-> ~ enum_skipped w e) /\
  (is_binding_requested_enum w e = Ok true <-> enum_requested w e) /\ (is_binding_requested_enum w e = Ok false <-> ~ enum_requested w e).
Proof.
  intros w e C.
  destruct (decision _ _ (skip_enum_iff w e) (skip_enum_ok w e C)) as [A B]. destruct (decision _ _ (bind_enum_iff w e) (bind_enum_ok w e C)) as [D E].
  exact (conj A (conj B (conj D E))).
Qed.
Print Assumptions C61_decided.
Theorem C61_never_bound : forall w visits o e, run w visits = Ok o -> bound o (DEnum e) -> ~ enum_skipped w (enum_ w e).
Proof.
  intros w visits o e H B S. destruct (bound_eligible _ _ _ _ H B) as [_ [C _]]. cbn [skip_decl] in C.
  apply skip_enum_iff in C. apply C in S. discriminate.
Qed.
Print Assumptions C61_never_bound.
(** [unnamed_enum e]: there is no name to offer it under. *)
Definition unnamed_enum (e : enum) : Prop := n_name (e_decl e) = [] \/ In ")"%char (n_name (e_decl e)).
Theorem C61_can_be_bound : forall w e, enum_bindable w e = true <->
  e_instance e = false /\ ~ unnamed_enum e /\ ~ banned_name (std_name w (e_decl e)).
Proof.
  intros w e. unfold enum_bindable, is_bindable_enum, unnamed_enum. rewrite !andb_true_iff, !negb_true_iff, orb_false_iff.
  assert (A : contains_char ")" (n_name (e_decl e)) = false <-> ~ In ")"%char (n_name (e_decl e))).
  { rewrite <- contains_iff. symmetry. apply not_true_iff_false. }
  assert (B : is_banned_symbol w (e_decl e) = false <-> ~ banned_name (std_name w (e_decl e))).
  { rewrite <- banned_iff. symmetry. apply not_true_iff_false. }
  assert (C : streqb (n_name (e_decl e)) [] = false <-> n_name (e_decl e) <> []).
  { rewrite <- streqb_eq. symmetry. apply not_true_iff_false. }
  rewrite A, B, C. tauto.
Qed.
Print Assumptions C61_can_be_bound.
Theorem C61_internals_never_bound : forall w visits o e, run w visits = Ok o -> bound o (DEnum e) ->
  e_instance (enum_ w e) = false /\ ~ unnamed_enum (enum_ w e) /\ ~ banned_name (std_name w (e_decl (enum_ w e))).
Proof. intros w visits o e H B. apply C61_can_be_bound. exact (proj1 (bound_eligible _ _ _ _ H B)). Qed.
Print Assumptions C61_internals_never_bound.
Definition sel_e (qn name : str) : enum := mkenum (nm name qn $"<a.hh>") false false false true [] (Some 0).
Example C61_cases : map (is_skipping_requested_enum sel_w) [sel_e $"ns::in::E" $"E"; sel_e $"ns::in::G" $"G"; sel_e $"ns::H" $"H"; sel_e $"ns::J" $"J"] = map Ok [true; false; false; true].
Proof. vm_compute; reflexivity. Qed.
Example C61_internals_case : map (enum_bindable sel_w) [sel_e $"ns::E" $"E"; sel_e $"std::_Ios_Seekdir" $"_Ios_Seekdir"; sel_e $"ns::" []; sel_e $"ns::(unnamed)" $"(unnamed)"] = [true; false; false; false].
Proof. vm_compute; reflexivity. Qed.

(** ** C55: normalised names *)

Theorem C55_simplification_ends : forall fs s, regex_engine fs ->
  exists r, simplify_opt fs s = Some r /\ simplify_std_class_name fs s = r.
Proof.
  intros fs s E. destruct (simplify_opt fs s) as [r|] eqn:S; [|exact (False_ind _ (simplify_total fs E s S))].
  exists r. split; [reflexivity|]. unfold simplify_std_class_name. rewrite S. reflexivity.
Qed.
Print Assumptions C55_simplification_ends.
Theorem C55_simplification_idempotent : forall fs s, regex_engine fs ->
  simplify_std_class_name fs (simplify_std_class_name fs s) = simplify_std_class_name fs s.
Proof. intros fs s E. apply simplify_idempotent, E. Qed.
Print Assumptions C55_simplification_idempotent.
(** There is an engine, so the hypothesis can be met. *)
Example C55_engine : regex_engine std_engine.
Proof. exact std_engine_spec. Qed.
Definition std_w : world :=
  mkworld (mkenv (recs (wenv acc_w)) (funs (wenv acc_w)) (enums (wenv acc_w)) (print (wenv acc_w)) std_engine 10) default_config (mix_options false false 1000).
(** Full statement, false of the code: normalising twice. *)
Theorem C55_idempotent_refuted : ~ forall w s, regex_engine (rx (wenv w)) -> standard_name w (standard_name w s) = standard_name w s.
Proof. intros H. specialize (H std_w $"nullptr_t" std_engine_spec). vm_compute in H. discriminate. Qed.
Print Assumptions C55_idempotent_refuted.
(** Names outside the standard library without the words of the table are left alone. *)
Theorem C55_other_names_unchanged : forall w s, (forall k, In k (map fst name_map) -> ~ occurs k s) -> ~ starts $"std::" s -> ~ occurs $"_Bool" s ->
  standard_name w s = s.
Proof. intros w s. apply ordinary_name. Qed.
Print Assumptions C55_other_names_unchanged.
Example C55_cases : map (standard_name std_w) [$"nullptr_t"; $"std::nullptr_t"; $"n::A"; $"std::vector<int, std::allocator<int> >"; $"std::__cxx11::basic_string<char>"] =
  [$"std::nullptr_t"; $"std::std::nullptr_t"; $"n::A"; $"std::vector<int>"; $"std::string"].
Proof. vm_compute; reflexivity. Qed.

(** ** C60: abbreviations *)

(** A standard library name is either looked up in the table of typedefs, or
    changed by dropping default template arguments of containers (or by the
    faulty rule for multisets). *)
Theorem C60_only_defaults_dropped : forall fs s, regex_engine fs ->
  In (s, simplify_std_class_name fs s) std_typedef_map \/
  steps (shortens (fun full short => with_defaults full short \/ multiset_rule full short)) s (simplify_std_class_name fs s).
Proof. intros fs s E. exact (simplify_steps fs E s). Qed.
Print Assumptions C60_only_defaults_dropped.
(** Full statement, false of the code: only default arguments are dropped. *)
Definition ms : str := $"multiset<int,std::less<void>,std::allocator<int>>".
Definition stars (s : str) : nat := count_occ Ascii.ascii_dec s "*"%char.
Lemma stars_app a b : stars (a ++ b) = stars a + stars b.
Proof. apply count_occ_app. Qed.
Lemma stars_nospace s : stars (nospace s) = stars s.
Proof.
  induction s as [|c s IH]; [reflexivity|]. rewrite nospace_cons, stars_app, IH. change (c :: s) with ([c] ++ s). rewrite stars_app. f_equal.
  unfold nospace, remove_char. cbn [filter]. destruct (Ascii.eqb c sp) eqn:E; cbn [negb]; [|reflexivity]. apply Ascii.eqb_eq in E; subst c. reflexivity.
Qed.
Lemma defaults_stars full short : with_defaults full short -> stars short <= stars full.
Proof. destruct 1; rewrite !stars_app; change (stars $">") with 0; lia. Qed.
Lemma steps_stars s s' : steps (shortens with_defaults) s s' -> stars s' <= stars s.
Proof.
  induction 1 as [s|s1 s2 s3 [a [m [z [full [short [-> [-> [E W]]]]]]]] _ IH]; [lia|].
  apply defaults_stars in W. apply (f_equal stars) in E. rewrite !stars_nospace in E. rewrite !stars_app in *. lia.
Qed.
Theorem C60_multiset_refuted : ~ forall fs s, regex_engine fs ->
  In (s, simplify_std_class_name fs s) std_typedef_map \/ steps (shortens with_defaults) s (simplify_std_class_name fs s).
Proof.
  intros H. specialize (H std_engine ms std_engine_spec).
  assert (E : simplify_std_class_name std_engine ms = $"multiset<int *>") by (vm_compute; reflexivity).
  rewrite E in H. destruct H as [H|H].
  - apply (in_map fst) in H. cbn [fst] in H. apply mem_In in H. vm_compute in H. discriminate.
  - apply steps_stars in H. vm_compute in H. inversion H.
Qed.
Print Assumptions C60_multiset_refuted.
Example C60_cases : map (simplify_std_class_name std_engine)
  [$"vector<std::vector<int, std::allocator<int> >, std::allocator<std::vector<int, std::allocator<int> > > >"; $"map<int,char, std::less<int>, std::allocator<std::pair<const int, char> > >"; $"vector<int, my::alloc<int> >"; ms] =
  [$"vector<std::vector<int>>"; $"map<int,char>"; $"vector<int, my::alloc<int> >"; $"multiset<int *>"].
Proof. vm_compute; reflexivity. Qed.

(** ** C56: the recorded include *)

Theorem C56_include : forall n data r, n_include n = Some data -> directive_text data r -> relevant_include n = r.
Proof. intros n data r E H. exact (include_sound _ _ H n E). Qed.
Print Assumptions C56_include.
(** Quoted includes, and anything else, are not recorded. *)
Theorem C56_nothing_else : forall n, (n_include n = None \/ exists data, n_include n = Some data /\ forall r, ~ directive_text data r) -> relevant_include n = [].
Proof.
  intros n [E|[data [E H]]]; [|exact (include_none _ H n E)].
  unfold relevant_include. rewrite E. reflexivity.
Qed.
Print Assumptions C56_nothing_else.
Theorem C56_quoted : forall n rest, n_include n = Some (dq :: rest) -> relevant_include n = [].
Proof.
  intros n rest E. apply C56_nothing_else. right. exists (dq :: rest). split; [exact E|].
  intros r H. inversion H.
Qed.
Print Assumptions C56_quoted.
Example C56_case : directive_text ($"<a/b.hh>" ++ nl :: $"#include <c.hh>") $"<a/b.hh>".
Proof.
  exact (IT_angle $"a/b.hh" (nl :: $"#include <c.hh>") ltac:(cbn; intuition discriminate) ltac:(discriminate)).
Qed.

(** ** C57: template specialisations *)

(** [texts]: the printed arguments, packs without their brackets. *)
Theorem C57_specialization : forall r args texts body, r_targs r = Some args -> Forall2 argument_text args texts ->
  commas (filter (fun s => match s with [] => false | _ => true end) texts) body ->
  rec_specialization r = fix_boolean_types ($"<" ++ body ++ $">").
Proof.
  intros r args texts body E F C. unfold rec_specialization. rewrite E. f_equal. exact (proj2 (spec_text_spec _ _ F) body C).
Qed.
Print Assumptions C57_specialization.
Theorem C57_no_template : forall r, r_targs r = None -> rec_specialization r = [].
Proof. intros r E. unfold rec_specialization. rewrite E. reflexivity. Qed.
Print Assumptions C57_no_template.
(** Full statement, false of the code: the text starts with the opening bracket. *)
Theorem C57_empty_pack_refuted : ~ forall r args, r_targs r = Some args -> starts $"<" (rec_specialization r).
Proof.
  intros H. pose (r := mkrecord (nm $"T" $"T" $"<a.hh>") (Some [Targ (KPack 0) $"<>"]) false false false true true (Some 0) true false true false false true true true None [] []).
  destruct (H r _ eq_refl) as [x E]. vm_compute in E. discriminate.
Qed.
Print Assumptions C57_empty_pack_refuted.
(** ... and this is the only exception. *)
Theorem C57_bare_bracket : forall r args texts, r_targs r = Some args -> Forall2 argument_text args texts ->
  (forall s, In s texts -> s = []) -> rec_specialization r = $">".
Proof.
  intros r args texts E F N. unfold rec_specialization. rewrite E.
  assert (K : kept texts = []). { clear F. induction texts as [|s l IH]; [reflexivity|]. rewrite (N s (or_introl eq_refl)). apply IH. intros x Hx. apply N. right. exact Hx. }
  rewrite (proj1 (spec_text_spec _ _ F) K). vm_compute. reflexivity.
Qed.
Print Assumptions C57_bare_bracket.
Example C57_case : exists texts body, Forall2 argument_text [Targ (KType int) $"int"; Targ (KPack 2) $"<A, _Bool>"; Targ (KPack 0) $"<>"] texts /\
  commas (filter (fun s => match s with [] => false | _ => true end) texts) body /\ fix_boolean_types ($"<" ++ body ++ $">") = $"<int,A, bool>".
Proof.
  exists [$"int"; $"A, _Bool"; []], $"int,A, _Bool". repeat split.
  - constructor; [|constructor; [|constructor; [|constructor]]].
    + exists $"int". split; [eexists; reflexivity|]. right. split; [reflexivity|]. intros x E. discriminate.
    + exists $"<A, _Bool>". split; [eexists; reflexivity|]. left. reflexivity.
    + exists $"<>". split; [eexists; reflexivity|]. left. reflexivity.
  - apply (CM_more $"int" [$"A, _Bool"]). apply CM_one.
Qed.

(** ** C62: the header written for a declaration *)

Theorem C62_header : forall name include h, header_of name include = h <-> header_for name include h.
Proof.
  intros name include h. split; [intros <-; apply header_found|]. intros H. exact (header_unique _ _ _ _ (header_found name include) H).
Qed.
Print Assumptions C62_header.
Theorem C62_added : forall w d s name h, header_name w d name ->
  header_for (standard_name w name) (relevant_include (named_of (wenv w) d)) h ->
  (h = [] -> add_relevant_include_for_decl w d s = s) /\
  (h <> [] -> add_relevant_include_for_decl w d s =
     mkis (incs s ++ [if annotate_includes (wopt w) then h ++ $" // " ++ standard_name w name else h]) (stack s)).
Proof.
  intros w d s name h N H. apply header_name_found in N. subst name. apply C62_header in H. unfold add_relevant_include_for_decl. rewrite H. split.
  - intros ->. reflexivity.
  - intros N. destruct h as [|c h]; [exact (False_ind _ (N eq_refl))|]. reflexivity.
Qed.
Print Assumptions C62_added.
Theorem C62_name_used : forall w d, exists name, header_name w d name /\ (forall name', header_name w d name' -> name' = name).
Proof.
  intros w d. exists (include_name w d). split; [apply include_name_found|]. intros n H. symmetry. apply header_name_found. exact H.
Qed.
Print Assumptions C62_name_used.
(** A header that has a public replacement is never written. *)
Theorem C62_never_internal : forall name include, ~ In (header_of name include) (map fst include_map).
Proof. intros name include. exact (header_public _ _ _ (header_found name include)). Qed.
Print Assumptions C62_never_internal.
Example C62_cases : map (fun p => header_of (fst p) (snd p)) [($"std::vector", $"<bits/stl_vector.h>"); ($"std::function", $"<bits/x.h>"); ($"n::A", $"<a.hh>"); ($"n::A", $"<bits/stl_vector.h>")] =
  [$"<vector>"; $"<functional>"; $"<a.hh>"; $"<vector>"].
Proof. vm_compute; reflexivity. Qed.
