(** C82: the names of enumerators in the generated code (LLVM 5 and older). *)
From Coq Require Import Ascii String Bool.
From Coq Require Import List.
From Verif Require Import Str StrFacts Util Config Ast Types Func Enum Scope SpecScope SpecClass BindFacts Samples.
Import ListNotations.

Lemma ordinary_named cs : Forall ordinary cs -> named_contexts cs = cs.
Proof.
  induction 1 as [|c cs H _ IH]; [reflexivity|].
  destruct c; cbn in *; try contradiction; rewrite IH; reflexivity.
Qed.

Lemma spelled_cons x names : names <> [] -> spelled (x :: names) = x ++ $"::" ++ spelled names.
Proof. destruct names; [intros H; contradiction|reflexivity]. Qed.

Lemma finds_not_empty p names cs n e : finds p names cs n e -> names <> [].
Proof. induction 1; try discriminate; assumption. Qed.

Definition prefix (cs : list context) : str := concat (map context_text (rev cs)).

Lemma prefix_snoc cs c : prefix (cs ++ [c]) = context_text c ++ prefix cs.
Proof. unfold prefix. rewrite rev_app_distr. reflexivity. Qed.

Lemma stands_found p cs n s es :
  stands p cs n s es -> Forall ordinary cs -> forall e, In e es ->
  exists names, finds p names cs n e
    /\ prefix cs ++ (if s then n ++ $"::" else []) ++ e = spelled names.
Proof.
  induction 1 as [p n s es H|p m ds cs n s es H _ IH|p m a ds cs n s es H _ IH|p m ds cs n s es H _ IH|p ds cs n s es H _ IH];
    intros F e K.
  - destruct s.
    + exists [n; e]. split; [eapply f_enum; eassumption|].
      cbn. rewrite <- app_assoc. reflexivity.
    + exists [e]. split; [eapply f_unscoped; eassumption|reflexivity].
  - apply Forall_app in F as [F1 F2]. apply Forall_inv in F2. cbn in F2.
    destruct (IH F1 e K) as [names [A B]].
    exists (m :: names). split; [apply f_namespace with ds; assumption|].
    rewrite prefix_snoc, spelled_cons by exact (finds_not_empty _ _ _ _ _ A).
    rewrite <- B. cbn [context_text]. rewrite <- !app_assoc. reflexivity.
  - apply Forall_app in F as [F1 F2]. apply Forall_inv in F2. cbn in F2. subst a.
    destruct (IH F1 e K) as [names [A B]].
    exists ((m ++ []) :: names). split; [apply f_class with ds; assumption|].
    rewrite prefix_snoc, spelled_cons by exact (finds_not_empty _ _ _ _ _ A).
    rewrite <- B, app_nil_r. cbn [context_text]. rewrite <- !app_assoc. reflexivity.
  - apply Forall_app in F as [F1 F2]. apply Forall_inv in F2. contradiction.
  - apply Forall_app in F as [F1 F2]. apply Forall_inv in F2. contradiction.
Qed.

(** C82.  In every program, for every enum that stands in named namespaces and
    ordinary classes, the generated code has one line for every enumerator, in
    order; the line has the name of the enumerator, and a qualified name that
    C++ looks up from the global scope to exactly that enumerator. *)
Theorem C82_enumerators_found :
  forall p cs name scoped es,
    stands p cs name scoped es -> Forall ordinary cs -> ~ In [] es ->
    Forall2 (fun e v => fst v = e /\ exists names, snd v = spelled names /\ finds p names cs name e)
            es (values_llvm5 cs name scoped es).
Proof.
  intros p cs name scoped es S F Z.
  assert (G : forall e, In e es -> exists names, qualified_name_llvm5 (CEnum name scoped :: cs) e = spelled names /\ finds p names cs name e).
  { intros e K. destruct (stands_found p cs name scoped es S F e K) as [names [A B]].
    exists names. split; [|exact A]. rewrite <- B.
    unfold qualified_name_llvm5. cbn [named_contexts is_named_decl].
    rewrite ordinary_named by exact F. cbn [rev]. rewrite map_app, concat_app.
    destruct e as [|x e]; [contradiction|]. cbn. unfold prefix.
    rewrite app_nil_r, <- app_assoc. reflexivity. }
  clear S F Z. unfold values_llvm5. revert G.
  generalize (fun e => qualified_name_llvm5 (CEnum name scoped :: cs) e). intros q G.
  induction es as [|e es IH]; [constructor|]. constructor.
  - split; [reflexivity|]. apply G. left; reflexivity.
  - apply IH. intros x K. apply G. right; exact K.
Qed.
Print Assumptions C82_enumerators_found.

(** The same for the text of the binding. *)
Theorem C82_text :
  forall w module p cs e es s,
    stands p cs (n_name (e_decl e)) (e_scoped e) es -> Forall ordinary cs -> ~ In [] es ->
    e_values e = values_llvm5 cs (n_name (e_decl e)) (e_scoped e) es ->
    bind_enum w module e = Ok s ->
    exists head vs ending,
      s = head ++ concat (map (fun v => [nl; tab; tab] ++ $".value(" ++ [dq] ++ fst v ++ [dq] ++ $", " ++ snd v ++ $")") vs) ++ ending
      /\ Forall2 (fun x v => fst v = x /\ exists names, snd v = spelled names /\ finds p names cs (n_name (e_decl e)) x) es vs.
Proof.
  intros w module p cs e es s S F Z V H.
  destruct (enum_spec w module e s H) as [local [_ E2]].
  exists (SpecBind.enum_head module e local), (e_values e). eexists. split.
  - rewrite E2. f_equal. f_equal. f_equal. apply map_ext. intros [x y].
    unfold SpecBind.enum_entry, SpecBind.quoted. cbn [fst snd]. rewrite <- !app_assoc. reflexivity.
  - rewrite V. apply C82_enumerators_found; assumption.
Qed.
Print Assumptions C82_text.

(** Witness: an unscoped and a scoped enum in a class in two namespaces. *)
Definition scope_p : list decl :=
  [DNamespace $"a" [DNamespace $"b" [DClass $"K" [] [DEnum $"E" false [$"x"; $"y"]; DEnum $"S" true [$"x"]]]]].
Definition scope_cs : list context := [CClass $"K" []; CNamespace $"b"; CNamespace $"a"].
Example C82_case :
  (stands scope_p scope_cs $"E" false [$"x"; $"y"] /\ stands scope_p scope_cs $"S" true [$"x"])
  /\ Forall ordinary scope_cs
  /\ values_llvm5 scope_cs $"E" false [$"x"; $"y"] = [($"x", $"a::b::K::x"); ($"y", $"a::b::K::y")]
  /\ values_llvm5 scope_cs $"S" true [$"x"] = [($"x", $"a::b::K::S::x")].
Proof.
  assert (G : forall n s es, In (DEnum n s es) [DEnum $"E" false [$"x"; $"y"]; DEnum $"S" true [$"x"]] -> stands scope_p scope_cs n s es).
  { intros n s es H. change scope_cs with ((([] ++ [CClass $"K" []]) ++ [CNamespace $"b"]) ++ [CNamespace $"a"]).
    eapply st_namespace; [left; reflexivity|]. eapply st_namespace; [left; reflexivity|].
    eapply st_class; [left; reflexivity|]. apply st_enum. exact H. }
  repeat split.
  - apply G. left; reflexivity.
  - apply G. right; left; reflexivity.
  - repeat constructor; discriminate.
Qed.

(** The restriction to ordinary contexts is needed: each kind of context that is
    left out has an enum whose enumerators get a name that C++ does not find. *)
Definition found_by_printed (cs : list context) : Prop :=
  forall p name scoped es, stands p cs name scoped es -> ~ In [] es ->
    forall e, In e es -> exists names, spelled names = qualified_name_llvm5 (CEnum name scoped :: cs) e /\ finds p names cs name e.

Lemma snoc_inv {A} (l l' : list A) x y : l ++ [x] = l' ++ [y] -> l = l' /\ x = y.
Proof. apply app_inj_tail. Qed.

Ltac look H :=
  inversion H; subst; clear H;
  repeat match goal with
  | K : _ ++ [_] = [] |- _ => destruct (app_cons_not_nil _ _ _ (eq_sym K))
  | K : [] = _ ++ [_] |- _ => destruct (app_cons_not_nil _ _ _ K)
  | K : ?l ++ [_] = [?c; ?d] |- _ => change [c; d] with ([c] ++ [d]) in K; apply snoc_inv in K as [? K]; subst
  | K : ?l ++ [_] = [?c] |- _ => change [c] with ([] ++ [c]) in K; apply snoc_inv in K as [? K]; subst
  | K : CNamespace _ = CNamespace _ |- _ => injection K as K; subst
  | K : CClass _ _ = CClass _ _ |- _ => injection K as K ?; subst
  | K : CNamespace _ = CClass _ _ |- _ => discriminate K
  | K : CClass _ _ = CNamespace _ |- _ => discriminate K
  | K : CLinkage = CClass _ _ |- _ => discriminate K
  | K : CLinkage = CNamespace _ |- _ => discriminate K
  | K : CClass _ _ = CLinkage |- _ => discriminate K
  | K : CNamespace _ = CLinkage |- _ => discriminate K
  | K : _ = CFunction _ |- _ => discriminate K
  | K : In _ [_] |- _ => destruct K as [K|[]]; try discriminate K
  | K : DNamespace _ _ = DNamespace _ _ |- _ => injection K as ? ?; subst
  | K : DClass _ _ _ = DClass _ _ _ |- _ => injection K as ? ? ?; subst
  | K : DLinkage _ = DLinkage _ |- _ => injection K as ?; subst
  | K : DEnum _ _ _ = DEnum _ _ _ |- _ => injection K as ? ? ?; subst
  end; try contradiction.

(** an unnamed namespace inside a namespace: written [n::::x] *)
Theorem C82_unnamed_namespace_refuted : ~ found_by_printed [CNamespace []; CNamespace $"n"].
Proof.
  intros H.
  destruct (H [DNamespace $"n" [DNamespace [] [DEnum $"E" false [$"x"]]]] $"E" false [$"x"]) with (e := $"x") as [names [A B]].
  - change [CNamespace []; CNamespace $"n"] with (([] ++ [CNamespace []]) ++ [CNamespace $"n"]).
    eapply st_namespace; [left; reflexivity|]. eapply st_namespace; [left; reflexivity|]. apply st_enum. left; reflexivity.
  - intros [K|[]]; discriminate K.
  - left; reflexivity.
  - look B.
    match goal with K : finds _ _ _ _ _ |- _ => look K end.
    match goal with K : finds _ _ _ _ _ |- _ => look K end; vm_compute in A; discriminate A.
Qed.
Print Assumptions C82_unnamed_namespace_refuted.

(** a specialisation of a class template: the template arguments are not written *)
Theorem C82_template_arguments_refuted : ~ found_by_printed [CClass $"K" $"<int>"].
Proof.
  intros H.
  destruct (H [DClass $"K" $"<int>" [DEnum $"E" false [$"x"]]] $"E" false [$"x"]) with (e := $"x") as [names [A B]].
  - change [CClass $"K" $"<int>"] with ([] ++ [CClass $"K" $"<int>"]).
    eapply st_class; [left; reflexivity|]. apply st_enum. left; reflexivity.
  - intros [K|[]]; discriminate K.
  - left; reflexivity.
  - look B.
    match goal with K : finds _ _ _ _ _ |- _ => look K end; vm_compute in A; discriminate A.
Qed.
Print Assumptions C82_template_arguments_refuted.

(** an [extern] block in a namespace: the name of the namespace is not written *)
Theorem C82_linkage_refuted : ~ found_by_printed [CLinkage; CNamespace $"n"].
Proof.
  intros H.
  destruct (H [DNamespace $"n" [DLinkage [DEnum $"E" false [$"x"]]]] $"E" false [$"x"]) with (e := $"x") as [names [A B]].
  - change [CLinkage; CNamespace $"n"] with (([] ++ [CLinkage]) ++ [CNamespace $"n"]).
    eapply st_namespace; [left; reflexivity|]. eapply st_linkage; [left; reflexivity|]. apply st_enum. left; reflexivity.
  - intros [K|[]]; discriminate K.
  - left; reflexivity.
  - look B.
    match goal with K : finds _ _ _ _ _ |- _ => look K end.
    match goal with K : finds _ _ _ _ _ |- _ => look K end; vm_compute in A; discriminate A.
Qed.
Print Assumptions C82_linkage_refuted.

(** an enum that is local to a function: it is visited (main.cpp:176-184), and
    no name outside the function denotes it *)
Theorem C82_local_refuted : ~ found_by_printed [CFunction $"f"].
Proof.
  intros H.
  destruct (H [DFunction $"f" [DEnum $"E" false [$"x"]]] $"E" false [$"x"]) with (e := $"x") as [names [A B]].
  - change [CFunction $"f"] with ([] ++ [CFunction $"f"]).
    eapply st_function; [left; reflexivity|]. apply st_enum. left; reflexivity.
  - intros [K|[]]; discriminate K.
  - left; reflexivity.
  - look B.
Qed.
Print Assumptions C82_local_refuted.
