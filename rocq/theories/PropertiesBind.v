(** Properties of the statements generated for functions, constructors and
    enums.  The specifications are in SpecBind.v. *)
From Coq Require Import Ascii String Bool Arith NArith.
From Coq Require Import List.
From Verif Require Import Str StrFacts SpecUtil Util UtilFacts Config Ast Types Func Enum Includes Class Context ContextFacts SpecTypes SpecBind BindFacts Samples.
Import ListNotations.

(** ** C42: one overload per arity *)

Theorem C42_arity_exists : forall F, exists k, smallest_arity F k /\ forall k', smallest_arity F k' -> k' = k.
Proof. intros F. exists (first_bound F). split; [apply first_bound_spec|]. intros k' H. exact (smallest_arity_unique F _ _ H (first_bound_spec F)). Qed.
Print Assumptions C42_arity_exists.

(** The text written for a function is an optional comment and one line for
    each number of arguments from the smallest to all, in this order. *)
Theorem C42_overloads : forall w module F lifted lambda s q k,
  bind_function w module F lifted lambda = Ok (s, q) -> smallest_arity F k ->
  exists lines, s = annotation w F false ++ concat (map (fun l => module ++ l ++ [nl]) lines) /\
    length lines = length (f_params F) + 1 - k /\
    forall i l, nth_error lines i = Some l -> def_line w F (k + i) lifted (lambda || f_variadic F) l.
Proof.
  intros w module F lifted lambda s q k H K. destruct (bind_function_spec w module F lifted lambda s q k H K) as [lines [A [B [C _]]]].
  exists lines. exact (conj A (conj B C)).
Qed.
Print Assumptions C42_overloads.

(** The same for a constructor.  An abstract class has a call-back structure
    whenever its constructors are bound (C52). *)
Theorem C42_constructor_overloads : forall w ci T s q k,
  (r_abstract (rec_ w (ci_class ci)) = true -> ci_trampoline ci = true) ->
  bind_constructor w ci T = Ok (s, q) -> first_default_at (f_params T) k ->
  exists lines, s = concat (map (fun l => annotation w T true ++ l ++ [nl]) lines) /\
    length lines = length (f_params T) + 1 - k /\
    forall i l, nth_error lines i = Some l ->
      constructor_line w (r_abstract (rec_ w (ci_class ci))) (ci_name ci)
        (if ci_trampoline ci then Some (ci_trampoline_name ci) else None) T (k + i) l.
Proof. exact constructor_spec. Qed.
Print Assumptions C42_constructor_overloads.

Definition bind_w : world := mix_w false false 1000%N.
Definition two_defaults : fn :=
  fn0 (nm $"f" $"n::f" $"<a.hh>") int [mkparam $"a" int false; mkparam $"b" (TLRef (TRec true 2 [])) true; mkparam $"c" int true].
Example C42_case_arity : smallest_arity two_defaults 1.
Proof.
  right. split.
  - intros [p [[<-|[<-|[<-|[]]]] H]]; inversion H; subst; match goal with H : function_type _ |- _ => inversion H end.
  - split; [repeat constructor|]. split; [intros p [<-|[]]; reflexivity|]. right. exists (mkparam $"b" (TLRef (TRec true 2 [])) true). split; reflexivity.
Qed.
Example C42_case : bind_function bind_w $"M(""n"")" two_defaults None false = Ok (
$"M(""n"").def(""f"", [](int const & a0) -> int { return n::f(a0); }, """", pybind11::arg(""a""));
M(""n"").def(""f"", [](int const & a0, const class S & a1) -> int { return n::f(a0, a1); }, """", pybind11::arg(""a""), pybind11::arg(""b""));
M(""n"").def(""f"", (int (*)(int, const class S &, int)) &n::f, ""C++: n::f(int, const class S &, int) --> int"", pybind11::arg(""a""), pybind11::arg(""b""), pybind11::arg(""c""));
", [$"class S"]).
Proof. vm_compute; reflexivity. Qed.
(** A parameter of function type: only the full arity. *)
Definition takes_callback : fn :=
  fn0 (nm $"h" $"n::h" $"<a.hh>") void [mkparam $"cb" (TPtr false (TFun void [int])) false; mkparam $"c" int true].
Example C42_case_callback : smallest_arity takes_callback 2 /\
  length (overload_counts takes_callback) = 1.
Proof.
  split; [|vm_compute; reflexivity]. left. split; [|reflexivity]. exists (mkparam $"cb" (TPtr false (TFun void [int])) false).
  split; [left; reflexivity|]. cbn. repeat constructor.
Qed.
Definition ctor_default : fn := ctor_of (member_of 0 Public (nm $"A" $"n::A::A" $"<a.hh>")) [mkparam $"a" int false; mkparam $"b" int true] (mkctor false None false) false.
Example C42_case_constructor : bind_constructor bind_w (mkci 0 true $"n::A" $"PyCallBack_n_A") ctor_default = Ok (
$"	cl.def( pybind11::init( [](int const & a0){ return new n::A(a0); }, [](int const & a0){ return new PyCallBack_n_A(a0); } ), ""doc"");
	cl.def( pybind11::init<int, int>(), pybind11::arg(""a""), pybind11::arg(""b"") );

", []).
Proof. vm_compute; reflexivity. Qed.

(** ** C43: arguments are forwarded in order *)

(** A line which is not for a plain pointer to the function contains a lambda
    with one parameter per argument, passes them all in order, and tells Python
    the names of the first C++ parameters. *)
Theorem C43_lambdas_forward : forall w F n request lifted lambda s q,
  n <= length (f_params F) -> n < length (f_params F) \/ lambda = true ->
  bind_overload w F n request lifted lambda = Ok (s, q) ->
  exists before self typed ret object passed after guard,
    forwards n self typed passed /\
    self = (if f_method F && negb (f_static F)
            then [class_qualified_name w (match lifted with Some r => r | None => parent_of F end) ++ (if f_const F then $" const" else []) ++ $" &o"] else []) /\
    s = before ++ $"[](" ++ typed ++ $") -> " ++ ret ++ $" { return " ++ object ++ $"(" ++ passed ++ $"); }" ++ after
        ++ concat (map (fun p => $", pybind11::arg(" ++ quoted (p_name p) ++ $")") (firstn n (f_params F))) ++ guard ++ $");" /\
    (f_method F && negb (f_static F) = true -> object = $"o." ++ n_name (f_decl F)) /\
    (f_method F && negb (f_static F) = false -> callee w F lifted object).
Proof.
  intros w F n request lifted lambda s q L D H. destruct (overload_spec w F n request lifted lambda s q L H) as [[name expr doc pol guard P E DC PO G] _].
  destruct E as [type cn E1 E2 _ _|params args typed names ret _ M1 M2 -> Ln LP S1 S2 _|params args typed names ret cn _ M -> Ln LP S1 S2 _ CN].
  - exfalso. destruct D as [D|D]; [subst n; exact (Nat.lt_irrefl _ D)|congruence].
  - exists ($".def" ++ (if is_static F then $"_static" else []) ++ $"(" ++ quoted name ++ $", "),
      [class_qualified_name w (match lifted with Some r => r | None => parent_of F end) ++ (if f_const F then $" const" else []) ++ $" &o"], typed, ret, ($"o." ++ n_name (f_decl F)), names, ($", " ++ quoted doc ++ pol), guard.
    split; [exact (lambda_forwards w F n [_] params typed names L Ln LP S1 S2)|]. rewrite M1, M2. split; [reflexivity|]. split; [|split; [reflexivity|discriminate]].
    rewrite <- !app_assoc. reflexivity.
  - exists ($".def" ++ (if is_static F then $"_static" else []) ++ $"(" ++ quoted name ++ $", "), [], typed, ret, cn, names, ($", " ++ quoted doc ++ pol), guard.
    split; [exact (lambda_forwards w F n [] params typed names L Ln LP S1 S2)|].
    assert (X : f_method F && negb (f_static F) = false). { destruct M as [M|M]; rewrite M; [reflexivity|apply andb_false_r]. }
    rewrite X. split; [reflexivity|]. split; [|split; [discriminate|intros _; exact CN]].
    rewrite <- !app_assoc. reflexivity.
Qed.
Print Assumptions C43_lambdas_forward.

(** The factories of constructors. *)
Theorem C43_factories_forward : forall w T n cls f, n <= length (f_params T) -> factory w T n cls f ->
  exists typed passed, forwards n [] typed passed /\ f = $"[](" ++ typed ++ $"){ return new " ++ cls ++ $"(" ++ passed ++ $"); }".
Proof.
  intros w T n cls f L [params typed names Ln LP S1 S2]. exists typed, names. split; [|reflexivity].
  exact (lambda_forwards w T n [] params typed names L Ln LP S1 S2).
Qed.
Print Assumptions C43_factories_forward.

(** The overriders of a call-back structure declare all parameters and pass
    all of them on. *)
Theorem C43_overriders_forward : forall w M,
  forwards (length (f_params M)) [] (fst (function_arguments_for_py_overload w M)) (snd (function_arguments_for_py_overload w M)).
Proof. exact override_forwards. Qed.
Print Assumptions C43_overriders_forward.

Definition method_default : fn :=
  meth (member_of 0 Public (nm $"m" $"n::A::m" $"<a.hh>")) (TLRef (TRec false 0 [])) [mkparam $"x" int false; mkparam $"y" (TPtr false int) true] false true false false.
Example C43_case : bind_overload bind_w method_default 1 false None false = Ok (
  $".def(""m"", [](n::A const &o, int const & a0) -> n::A & { return o.m(a0); }, """", pybind11::return_value_policy::automatic, pybind11::arg(""x""));", []).
Proof. vm_compute; reflexivity. Qed.

(** ** C63: the types of a signature are requested *)

(** Binding a function requests exactly the classes and enums found behind
    the pointers and references of its return and parameter types, except that
    types to be skipped are not entered. *)
Theorem C63_signature_types_requested : forall w module F lifted lambda s q,
  bind_function w module F lifted lambda = Ok (s, q) ->
  forall name, In name q <-> exists t, In t (canonical (f_ret F) :: map p_type (f_params F)) /\ announces w t name.
Proof.
  intros w module F lifted lambda s q H name. destruct (bind_function_spec w module F lifted lambda s q _ H (first_bound_spec F)) as [lines [_ [_ [_ Q]]]].
  exact (request_types_iff w _ q name Q).
Qed.
Print Assumptions C63_signature_types_requested.
Definition with_system_types : fn :=
  fn0 (nm $"f" $"n::f" $"<a.hh>") (TPtr false (TRec false 0 [])) [mkparam $"a" (TLRef (TRec true 2 [])) false; mkparam $"k" (TRec false 3 []) true].
Example C63_case : exists s, bind_function bind_w $"M" with_system_types None false = Ok (s, [$"class n::A"; $"class S"]).
Proof. eexists. vm_compute. reflexivity. Qed.

(** ** C64: return value policies and the Python definition *)

(** Every line is of the specified form, whose return value policy is
    determined by the kind of function and of return type. *)
Theorem C64_definition : forall w F n request lifted lambda s q,
  n <= length (f_params F) -> bind_overload w F n request lifted lambda = Ok (s, q) -> def_line w F n lifted lambda s.
Proof. intros w F n request lifted lambda s q L H. exact (proj1 (overload_spec w F n request lifted lambda s q L H)). Qed.
Print Assumptions C64_definition.
Theorem C64_policy : forall w F, exists p, policy w F p /\ forall p', policy w F p' -> p' = p.
Proof. intros w F. exists (return_policy w F). split; [apply policy_spec|]. intros p' H. exact (policy_unique w F _ _ H (policy_spec w F)). Qed.
Print Assumptions C64_policy.

(** ** C54: enums *)

Theorem C54_every_enumerator_once : forall w module e s, bind_enum w module e = Ok s ->
  exists local ending,
    is_module_local_requested (wcfg w) (namespace_from_named_decl w (e_decl e)) = Ok local /\
    s = enum_head module e local ++ concat (map (fun v => enum_entry (fst v) (snd v)) (e_values e)) ++ ending /\
    (e_class_tag e = true -> ending = not_exported) /\ (e_class_tag e = false -> ending = exported).
Proof.
  intros w module e s H. destruct (enum_spec w module e s H) as [local [E1 E2]]. exists local, (if e_class_tag e then not_exported else exported).
  split; [exact E1|]. split; [exact E2|]. split; intros ->; reflexivity.
Qed.
Print Assumptions C54_every_enumerator_once.
Example C54_case : bind_enum bind_w $"M(""n"")" mix_e = Ok
$"	pybind11::enum_<n::E>(M(""n""), ""E"", pybind11::arithmetic(), """")
		.value(""e1"", n::e1)
		.value(""e2"", n::e2)
		.export_values();

".
Proof. vm_compute; reflexivity. Qed.
(** The enumerators are exported also for [enum struct], which is scoped: the
    intended statement that exactly the unscoped enums are exported is false. *)
Definition enum_struct : enum := mkenum (nm $"E" $"n::E" $"<a.hh>") true false false true [($"e1", $"n::E::e1")] (Some 0).
Theorem C54_scoped_refuted : ~ forall w module e s, bind_enum w module e = Ok s -> e_scoped e = true -> ~ occurs $"export_values" s.
Proof.
  intros H. destruct (bind_enum bind_w $"M" enum_struct) as [s|?|?|?|] eqn:E; try (vm_compute in E; discriminate).
  apply (H bind_w $"M" enum_struct s E eq_refl). vm_compute in E. apply Ok_inj in E. subst s.
  match goal with |- occurs ?p ?s => destruct (find0 p s) as [i|] eqn:F end; [|vm_compute in F; discriminate].
  apply find0_some_first in F. destruct F as [a [b [F1 [F2 _]]]]. exists i, a, b. split; assumption.
Qed.
Print Assumptions C54_scoped_refuted.
