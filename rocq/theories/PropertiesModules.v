(** Properties of the Python modules of the generated code and of the file
    that lists them.  The specification is in SpecModules.v. *)
From Coq Require Import Ascii String Bool Arith NArith Lia Sorted.
From Coq Require Import List.
From Verif Require Import Str StrFacts SpecUtil SpecConfig Util UtilFacts Config Ast Types Func Enum Includes Class Context SpecTypes SpecBind BindFacts
  SpecContext SpecOutput ContextFacts RunFacts WriteFacts PropertiesContext SpecModules ModuleFacts Samples.
Import ListNotations.

(** ** C88: the modules and the list of modules *)

Definition submodules_of (o : output) : list (str * str) := map (fun n => (base_namespace n, last_namespace n)) (out_namespaces o).
Lemma listed_paths w visits o : run w visits = Ok o ->
  (forall b, In b (out_sorted o) -> b_code b <> [] -> binder_namespace w b = [] \/ exists cs, path_in_cpp cs (binder_namespace w b)) ->
  forall n, In n (out_namespaces o) -> exists cs, path_in_cpp cs n.
Proof.
  intros H P n Hn. destruct (C37_namespaces_listed _ _ _ H) as [_ [L _]]. apply L in Hn. destruct Hn as [b [B1 [B2 B3]]].
  destruct (P b B1 B2) as [E|[cs Q]]; [|exact (encloses_path _ _ B3 _ Q)].
  exfalso. rewrite E in B3. clear -B3. assert (X : forall m, encloses [] m -> False).
  { induction 1 as [A|m i x _ IH _ _]; [contradiction|exact IH]. }
  exact (X _ B3).
Qed.

(** On import, the root module makes one Python module for every namespace in
    the list and no other; its place below the root module follows the nesting
    of the namespaces. *)
Theorem C88_modules_made : forall w visits o, run w visits = Ok o ->
  (forall b, In b (out_sorted o) -> b_code b <> [] -> binder_namespace w b = [] \/ exists cs, path_in_cpp cs (binder_namespace w b)) ->
  exists made, create_modules (submodules_of o) [([], [])] = Some made /\
    (forall n, In n (map fst made) <-> n = [] \/ In n (out_namespaces o)) /\
    (forall n cs, In n (out_namespaces o) -> path_in_cpp cs n -> exists path, lookup n made = Some path /\ Forall2 module_name cs path).
Proof.
  intros w visits o H P. pose proof (listed_paths _ _ _ H P) as LP.
  destruct (C37_namespaces_listed _ _ _ H) as [_ [L B]]. destruct (run_inv _ _ _ H) as [l [_ [_ [_ EN]]]].
  destruct (create_all (out_namespaces o) [] [([], [])]) as [m [E [_ [Q R]]]].
  - rewrite EN. apply set_of_sorted.
  - exact LP.
  - intros n Hn Nb. cbn [app]. rewrite EN in *. destruct (base_namespace_cases n) as [[x [Ls _]]|[_ [Eb _]]]; [|congruence]. eapply nested_namespaces_closed; eassumption.
  - reflexivity.
  - intros n cs [].
  - exists m. split; [exact E|split].
    + intros n. rewrite R. cbn [map fst In]. intuition.
    + intros n cs Hn Pn. exists (map submodule_name cs). split; [apply Q; assumption|apply module_names].
Qed.
Print Assumptions C88_modules_made.

(** A list of names of modules as binder writes it: for every namespace, in the
    order of the list, the dotted name and a blank. *)
Definition listing (ns : list str) (t : str) : Prop :=
  exists css ds, Forall2 path_in_cpp css ns /\ Forall2 (separated $".") css ds /\ t = concat (map (fun d => d ++ $" ") ds).
Lemma modules_listing w visits o : run w visits = Ok o ->
  (forall b, In b (out_sorted o) -> b_code b <> [] -> binder_namespace w b = [] \/ exists cs, path_in_cpp cs (binder_namespace w b)) ->
  listing (out_namespaces o) (modules_text (out_namespaces o)).
Proof.
  intros H P. pose proof (listed_paths _ _ _ H P) as LP. clear -LP. generalize dependent (out_namespaces o). intros ns LP.
  assert (X : exists css, Forall2 path_in_cpp css ns).
  { induction ns as [|n ns IH]; [exists []; constructor|]. destruct (LP n (or_introl eq_refl)) as [cs Q]. destruct IH as [css F]; [intros m Hm; apply LP; right; exact Hm|].
    exists (cs :: css). constructor; assumption. }
  destruct X as [css F]. exists css, (map (join $".") css).
  assert (G : Forall2 (separated $".") css (map (join $".") css)) by (clear; induction css; constructor; [apply join_separated|assumption]).
  split; [exact F|split; [exact G|]]. exact (replace_list css ns _ F G).
Qed.

(** The file [<root>.modules] holds the list; without it (option
    [--single-file]) the root module ends with the list in a comment. *)
Theorem C88_listed : forall mkdir_ok can_open w visits o before_ after_, run w visits = Ok o ->
  (forall b, In b (out_sorted o) -> b_code b <> [] -> binder_namespace w b = [] \/ exists cs, path_in_cpp cs (binder_namespace w b)) ->
  write_output mkdir_ok can_open w o before_ = Ok after_ ->
  NoDup ((root_module (wopt w) ++ $".cpp") :: map g_name (out_files o)) ->
  let root := prefix (wopt w) ++ $"/" ++ root_module (wopt w) in
  if single_file (wopt w)
  then exists t l, content after_ (root ++ $".cpp") = t ++ [nl] ++ $"// Modules list file: " ++ root ++ $".modules" ++ [nl] ++ $"// " ++ l ++ [nl] /\ listing (out_namespaces o) l
  else can_open (root ++ $".modules") = true -> listing (out_namespaces o) (content after_ (root ++ $".modules")).
Proof.
  intros mkdir_ok can_open w visits o f f' H P E N root. pose proof (modules_listing _ _ _ H P) as ML.
  assert (R : root = root_path w) by (unfold root, root_path; rewrite ?app_assoc; reflexivity).
  destruct (single_file (wopt w)) eqn:SF.
  - unfold write_output in E. cbv zeta in E. rewrite SF in E. destruct (negb (can_open _)); [discriminate|]. apply Ok_inj in E. subst f'.
    assert (RF : prefix (wopt w) ++ $"/" ++ root_file_name w = root ++ $".cpp") by (unfold root, root_file_name; rewrite <- ?app_assoc; reflexivity).
    rewrite RF. unfold content, write_file. cbn [files]. rewrite lookup_update_eq.
    unfold single_file_text. rewrite R. eexists. exists (modules_text (out_namespaces o)). split; [|exact ML].
    rewrite !app_assoc. reflexivity.
  - intros K. rewrite R in *. destruct (run_inv _ _ _ H) as [l [_ [_ [W _]]]].
    destruct (write_output_effect _ _ _ _ _ _ SF E N (wrote_cpp _ _ _ _ _ _ W)) as [_ [_ [_ [D _]]]]. rewrite (D K). exact ML.
Qed.
Print Assumptions C88_listed.

(** If no namespace is called [nonlocal] or [global], the words of the list are
    exactly the names of the Python modules made below the root module. *)
Theorem C88_list_of_modules : forall w visits o t made, run w visits = Ok o ->
  (forall b, In b (out_sorted o) -> b_code b <> [] -> binder_namespace w b = [] \/ exists cs, path_in_cpp cs (binder_namespace w b)) ->
  (forall n cs c, In n (out_namespaces o) -> path_in_cpp cs n -> In c cs -> c <> $"nonlocal" /\ c <> $"global" /\ ~ In " "%char c) ->
  listing (out_namespaces o) t -> create_modules (submodules_of o) [([], [])] = Some made ->
  exists words, pieces_of " "%char t words /\
    forall x, In x words <-> exists n path, lookup n made = Some path /\ n <> [] /\ separated $"." path x.
Proof.
  intros w visits o t made H P Q [css [ds [F [G ->]]]] C.
  destruct (C88_modules_made _ _ _ H P) as [made' [C' [M1 M2]]]. rewrite C in C'. injection C' as <-.
  assert (K : Forall2 (fun n d => exists path, lookup n made = Some path /\ separated $"." path d) (out_namespaces o) ds).
  { assert (M3 : forall n cs, In n (out_namespaces o) -> path_in_cpp cs n -> lookup n made = Some cs).
    { intros n cs Hn Pn. destruct (M2 n cs Hn Pn) as [path [E MN]]. rewrite E. f_equal.
      assert (Z : forall c, In c cs -> c <> $"nonlocal" /\ c <> $"global") by (intros c Hc; destruct (Q n cs c Hn Pn Hc) as [Z1 [Z2 _]]; auto).
      clear -MN Z. induction MN as [|x y l l' X _ IH]; [reflexivity|]. destruct (Z x (or_introl eq_refl)) as [Z1 Z2].
      f_equal; [inversion X as [? [?|?]|]; subst; congruence|]. apply IH. intros c Hc. apply Z. right; exact Hc. }
    clear -M3 F G. revert ds G. generalize dependent (out_namespaces o). intros ns F M3. induction F as [|cs n css ns Pn F IH]; intros ds G; inversion G; subst; constructor.
    - exists cs. split; [apply M3; [left; reflexivity|exact Pn]|assumption].
    - apply IH; [|assumption]. intros m cs' Hm. apply M3. right; exact Hm. }
  exists ds. split.
  - exists ds, []. split; [rewrite app_nil_r; reflexivity|split; [|rewrite app_nil_r; reflexivity]].
    intros p [<-|Hp]; [intros []|]. intros B.
    assert (X : exists cs n, In n (out_namespaces o) /\ path_in_cpp cs n /\ separated $"." cs p).
    { clear -F G Hp. revert ds G Hp. induction F as [|cs n css ns Pn F IH]; intros ds G Hp; inversion G as [|? d ? ds' Sd G']; subst; [destruct Hp|].
      destruct Hp as [->|Hp]; [exists cs, n; split; [left; reflexivity|auto]|]. destruct (IH ds' G' Hp) as [c1 [m [A1 A2]]]. exists c1, m. split; [right; exact A1|exact A2]. }
    destruct X as [cs [n [Hn [Pn Sp]]]].
    assert (Z : forall c, In c cs -> ~ In " "%char c) by (intros c Hc; destruct (Q n cs c Hn Pn Hc) as [_ [_ Z1]]; exact Z1).
    clear -Z Sp B. induction Sp as [|x|x y l s _ IH]; [destruct B|exact (Z x (or_introl eq_refl) B)|].
    apply in_app_iff in B. destruct B as [B|B]; [exact (Z x (or_introl eq_refl) B)|]. apply in_app_iff in B. destruct B as [[B|[]]|B]; [discriminate|].
    apply IH; [exact B|]. intros c Hc. apply Z. right; exact Hc.
  - intros x. split.
    + intros Hx. clear -K Hx F. assert (L : forall n, In n (out_namespaces o) -> n <> []).
      { intros n Hn. assert (exists cs, path_in_cpp cs n) as [cs Pn]; [|exact (path_nonempty _ _ Pn)].
        clear -F Hn. induction F as [|cs m css ns Pn F IH]; [destruct Hn|]. destruct Hn as [->|Hn]; [eauto|auto]. }
      clear F. revert L. induction K as [|n d ns ds [path [E Sd]] K IH]; intros L; [destruct Hx|].
      destruct Hx as [->|Hx]; [exists n, path; split; [exact E|split; [apply L; left; reflexivity|exact Sd]]|]. apply IH; [exact Hx|]. intros m Hm; apply L; right; exact Hm.
    + intros [n [path [E [Nn Sx]]]].
      assert (Hn : In n (out_namespaces o)).
      { assert (X : In n (map fst made)) by (apply lookup_In in E; exact (in_map fst _ _ E)). apply M1 in X. destruct X; [contradiction|assumption]. }
      clear -K Hn E Sx. induction K as [|m d ns ds [path' [E' Sd]] K IH]; [destruct Hn|]. destruct Hn as [->|Hn]; [|right; auto].
      left. rewrite E in E'. injection E' as <-. exact (separated_fun _ _ _ _ Sd Sx).
Qed.
Print Assumptions C88_list_of_modules.

(** Different namespaces have different Python modules, unless one is called
    [nonlocal_] or [global_]. *)
Theorem C88_modules_differ : forall w visits o made n m path, run w visits = Ok o ->
  (forall b, In b (out_sorted o) -> b_code b <> [] -> binder_namespace w b = [] \/ exists cs, path_in_cpp cs (binder_namespace w b)) ->
  (forall n cs c, In n (out_namespaces o) -> path_in_cpp cs n -> In c cs -> c <> $"nonlocal_" /\ c <> $"global_") ->
  create_modules (submodules_of o) [([], [])] = Some made -> In n (out_namespaces o) -> In m (out_namespaces o) ->
  lookup n made = Some path -> lookup m made = Some path -> n = m.
Proof.
  intros w visits o made n m path H P Q C Hn Hm En Em. pose proof (listed_paths _ _ _ H P) as LP.
  destruct (C88_modules_made _ _ _ H P) as [made' [C' [_ M2]]]. rewrite C in C'. injection C' as <-.
  destruct (LP n Hn) as [cs Pn], (LP m Hm) as [cs' Pm].
  destruct (M2 n cs Hn Pn) as [p1 [E1 F1]], (M2 m cs' Hm Pm) as [p2 [E2 F2]]. rewrite En in E1. rewrite Em in E2. injection E1 as <-. injection E2 as <-.
  assert (Z : forall c, In c cs -> c <> $"nonlocal_" /\ c <> $"global_") by (intros c Hc; exact (Q n cs c Hn Pn Hc)).
  assert (Z' : forall c, In c cs' -> c <> $"nonlocal_" /\ c <> $"global_") by (intros c Hc; exact (Q m cs' c Hm Pm Hc)).
  assert (X : cs = cs').
  { clear -F1 F2 Z Z'. revert cs' F2 Z'. induction F1 as [|x y l l' X F IH]; intros cs' F2 Z'; inversion F2 as [|x' ? l2 ? X' F2']; subst; [reflexivity|].
    destruct (Z x (or_introl eq_refl)) as [Z1 Z2]. destruct (Z' x' (or_introl eq_refl)) as [Z3 Z4]. f_equal.
    - inversion X as [? D|]; inversion X' as [? D'|]; subst; try reflexivity.
      + match goal with E : _ ++ $"_" = _ ++ $"_" |- _ => apply app_inv_tail in E; symmetry; exact E end.
      + destruct D; subst; contradiction.
      + destruct D'; subst; contradiction.
    - apply IH; [|exact F2'|]; intros c Hc; [apply Z|apply Z']; right; exact Hc. }
  subst cs'. exact (separated_fun _ _ _ _ (proj2 (proj2 Pn)) (proj2 (proj2 Pm))).
Qed.
Print Assumptions C88_modules_differ.

(** Functions in the given namespaces. *)
Definition ml_fun (ns : str) : fn := fn0 (nm $"f" (ns ++ $"::f") $"<t.hpp>") void [].
Definition ml_w (nss : list str) : world :=
  mkworld (tu [] (map ml_fun nss) [] (fun _ => []) (fun _ => []))
          (match setup default_config nss [] $"c" (Some []) with Ok c => c | _ => default_config end) (mix_options false false 1000%N).
Definition ml_visits (nss : list str) : list decl := map DFun (seq 0 (length nss)).
Definition ml_out (nss : list str) : output := out_of (ml_w nss) (ml_visits nss).
Definition ml_words (nss : list str) : str := modules_text (out_namespaces (ml_out nss)).

Definition good_path (cs : list str) : bool :=
  match cs with [] => false | _ => forallb (fun c => match c with [] => false | _ => negb (existsb (Ascii.eqb ":") c) end) cs end.
Lemma ml_path cs : good_path cs = true -> path_in_cpp cs (join $"::" cs).
Proof.
  intros G. assert (N : cs <> []) by (intros ->; discriminate). split; [exact N|split; [|apply join_separated]].
  assert (F : forallb (fun c => match c with [] => false | _ => negb (existsb (Ascii.eqb ":") c) end) cs = true) by (destruct cs; [discriminate|exact G]).
  rewrite forallb_forall in F. apply Forall_forall. intros c Hc. specialize (F c Hc). destruct c as [|a c]; [discriminate|]. split; [discriminate|].
  apply negb_true_iff in F. intros H. assert (T : existsb (Ascii.eqb ":") (a :: c) = true) by (apply existsb_exists; exists ":"%char; auto). congruence.
Qed.
Lemma ml_ok w (l : list binder) css : map (binder_namespace w) l = map (join $"::") css -> forallb good_path css = true ->
  forall b, In b l -> exists cs, path_in_cpp cs (binder_namespace w b).
Proof.
  intros E G b Hb. assert (X : In (binder_namespace w b) (map (join $"::") css)) by (rewrite <- E; apply in_map; exact Hb).
  apply in_map_iff in X. destruct X as [cs [<- X]]. exists cs. rewrite forallb_forall in G. apply ml_path, G, X.
Qed.

(** The names of the modules and the list, three ways to go wrong: a namespace
    called [global] is listed as [global], but no module is; with a second
    namespace [global_] the two share one Python module; and other keywords of
    Python are kept as names of modules, which no [import] statement can
    name. *)
Theorem C88_names_refuted : exists w visits o made, run w visits = Ok o /\
  (forall b, In b (out_sorted o) -> b_code b <> [] -> exists cs, path_in_cpp cs (binder_namespace w b)) /\
  create_modules (submodules_of o) [([], [])] = Some made /\
  (exists words, pieces_of " "%char (modules_text (out_namespaces o)) words /\ In $"global" words /\ forall n, lookup n made <> Some [$"global"]) /\
  (exists path, lookup $"global" made = Some path /\ lookup $"global_" made = Some path) /\
  (exists n x y, lookup n made = Some [x; y] /\ keyword_in_python x /\ keyword_in_python y).
Proof.
  pose (l := [$"global"; $"global_"; $"in::lambda"]). exists (ml_w l), (ml_visits l), (ml_out l).
  exists [($"in::lambda", [$"in"; $"lambda"]); ($"in", [$"in"]); ($"global_", [$"global_"]); ($"global", [$"global_"]); ([], [])].
  split; [vm_compute; reflexivity|]. split.
  { intros b Hb _. apply (ml_ok (ml_w l) (out_sorted (ml_out l)) [[$"global"]; [$"global_"]; [$"in"; $"lambda"]]); [vm_compute; reflexivity|reflexivity|exact Hb]. }
  split; [vm_compute; reflexivity|]. split; [|split].
  - exists [$"global"; $"global_"; $"in"; $"in.lambda"]. split; [|split; [left; reflexivity|]].
    + exists [$"global"; $"global_"; $"in"; $"in.lambda"], []. split; [vm_compute; reflexivity|split; [|reflexivity]].
      intros p Hp B. repeat (destruct Hp as [<-|Hp]; [cbn in B; repeat (destruct B as [B|B]; [discriminate B|]); destruct B|]). destruct Hp.
    + intros n E. apply lookup_In in E. cbn [In] in E. repeat (destruct E as [E|E]; [discriminate E|]). destruct E.
  - exists [$"global_"]. split; reflexivity.
  - exists $"in::lambda", $"in", $"lambda". split; [reflexivity|]. unfold keyword_in_python. cbn [In]. split; tauto.
Qed.
Print Assumptions C88_names_refuted.

(** A run with nested namespaces: the conditions of the theorems hold, and
    this is what they give. *)
Definition ml_l : list str := [$"a"; $"a::b::c"; $"d::b"].
Example C88_case : run (ml_w ml_l) (ml_visits ml_l) = Ok (ml_out ml_l) /\
  (forall b, In b (out_sorted (ml_out ml_l)) -> b_code b <> [] -> binder_namespace (ml_w ml_l) b = [] \/ exists cs, path_in_cpp cs (binder_namespace (ml_w ml_l) b)) /\
  (forall n cs c, In n (out_namespaces (ml_out ml_l)) -> path_in_cpp cs n -> In c cs -> In c [$"a"; $"b"; $"c"; $"d"]) /\
  NoDup ((root_module (wopt (ml_w ml_l)) ++ $".cpp") :: map g_name (out_files (ml_out ml_l))) /\
  (exists f, write_output (fun _ => true) (fun _ => true) (ml_w ml_l) (ml_out ml_l) (mkfs [] []) = Ok f /\ content f $"out/root.modules" = $"a a.b a.b.c d d.b ") /\
  create_modules (submodules_of (ml_out ml_l)) [([], [])] =
    Some [($"d::b", [$"d"; $"b"]); ($"d", [$"d"]); ($"a::b::c", [$"a"; $"b"; $"c"]); ($"a::b", [$"a"; $"b"]); ($"a", [$"a"]); ([], [])].
Proof.
  split; [vm_compute; reflexivity|]. split.
  { intros b Hb _. right. apply (ml_ok (ml_w ml_l) (out_sorted (ml_out ml_l)) [[$"a"]; [$"a"; $"b"; $"c"]; [$"d"; $"b"]]); [vm_compute; reflexivity|reflexivity|exact Hb]. }
  split.
  { intros n cs c Hn P Hc. assert (E : out_namespaces (ml_out ml_l) = [$"a"; $"a::b"; $"a::b::c"; $"d"; $"d::b"]) by (vm_compute; reflexivity). rewrite E in Hn.
    clear E. assert (X : forall l, good_path l = true -> n = join $"::" l -> cs = l).
    { intros l G J. subst n. exact (path_unique _ _ _ P (ml_path l G)). }
    destruct Hn as [<-|[<-|[<-|[<-|[<-|[]]]]]];
      [rewrite (X [$"a"]) in Hc|rewrite (X [$"a"; $"b"]) in Hc|rewrite (X [$"a"; $"b"; $"c"]) in Hc|rewrite (X [$"d"]) in Hc|rewrite (X [$"d"; $"b"]) in Hc];
      try discriminate; try reflexivity; cbn [In] in Hc |- *; tauto. }
  split; [|split].
  - assert (E : (root_module (wopt (ml_w ml_l)) ++ $".cpp") :: map g_name (out_files (ml_out ml_l)) = [$"root.cpp"; $"t.cpp"; $"t_1.cpp"; $"t_2.cpp"]) by (vm_compute; reflexivity).
    rewrite E. repeat constructor; cbn [In]; intuition discriminate.
  - eexists. split; [vm_compute; reflexivity|vm_compute; reflexivity].
  - vm_compute. reflexivity.
Qed.
