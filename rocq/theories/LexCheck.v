(** Checkers for the hypotheses on names of [SpecLex], used to show that
    concrete inputs meet them. *)
From Coq Require Import Ascii String Bool Arith NArith Lia.
From Coq Require Import List.
From Verif Require Import Str Util Config Ast Types Func Enum Includes Class Context SpecTypes SpecBind SpecClass SpecContext SpecIncludes SpecOutput SpecLex
  StrFacts TypesFacts BindFacts ClassFacts LexFacts LexRun Samples.
Import ListNotations.

Tactic Notation "part" hyp(H) ident(x) := let a := fresh in let b := fresh in destruct (andb_prop _ _ H) as [a b]; clear H; rename a into H; rename b into x.
Lemma guarded b c : negb b || c = true -> b = true -> c = true.
Proof. intros H E. rewrite E in H. exact H. Qed.
Definition lacks (x : ascii) (s : str) : bool := forallb (fun c => negb (Ascii.eqb c x)) s.
Lemma lacks_ok x s : lacks x s = true -> ~ In x s.
Proof. unfold lacks. rewrite forallb_forall. intros H I. specialize (H _ I). rewrite Ascii.eqb_refl in H. discriminate H. Qed.
Definition ends_in (m : option SpecLex.place) (code slash : bool) : bool :=
  match m with Some (Code, []) => code | Some (Slash, []) => slash | _ => false end.
Definition tidyb (s : str) : bool := plainb s && lacks sq s && lacks "#" s && ends_in (scan_from (Some (Code, [])) s) true false.
Definition tidy_nameb (s : str) : bool := plainb s && lacks sq s && lacks "#" s && ends_in (scan_from (Some (Code, [])) s) true true.
Lemma tidyb_ok s : tidyb s = true -> tidy s.
Proof.
  unfold tidyb, tidy, well_formed. rewrite !andb_true_iff. intros [[[A B] C] D].
  split; [exact (plainb_ok _ A)|split; [exact (lacks_ok _ _ B)|split; [exact (lacks_ok _ _ C)|]]].
  destruct (scan_from (Some (Code, [])) s) as [[[| | | | |] [|? ?]]|]; cbn in D; try discriminate D; reflexivity.
Qed.
Lemma tidy_nameb_ok s : tidy_nameb s = true -> tidy_name s.
Proof.
  unfold tidy_nameb, tidy_name, well_formed. rewrite !andb_true_iff. intros [[[A B] C] D].
  split; [exact (plainb_ok _ A)|split; [exact (lacks_ok _ _ B)|split; [exact (lacks_ok _ _ C)|]]].
  destruct (scan_from (Some (Code, [])) s) as [[[| | | | |] [|? ?]]|]; cbn in D; try discriminate D; [left|right]; reflexivity.
Qed.
Fixpoint after (p s : str) : option str :=
  match p, s with
  | [], _ => Some s
  | a :: p', b :: s' => if Ascii.eqb a b then after p' s' else None
  | _ :: _, [] => None
  end.
Lemma after_app p s : after p (p ++ s) = Some s.
Proof. induction p as [|a p IH]; [reflexivity|]. cbn. rewrite Ascii.eqb_refl. exact IH. Qed.
Definition no_keywordb (s : str) : bool :=
  forallb (fun k => match after k s with Some _ => false | None => true end && match after ($"const " ++ k) s with Some _ => false | None => true end) keywords.
Lemma no_keywordb_ok s : no_keywordb s = true -> no_keyword s.
Proof.
  unfold no_keywordb. rewrite forallb_forall. intros H k I. specialize (H k I). apply andb_true_iff in H. destruct H as [A B].
  split; intros [t E]; rewrite E, after_app in *; discriminate.
Qed.
Definition keyword_once (t : str) : bool :=
  forallb (fun k => match after k t with Some s => no_keywordb s | None => true end &&
                    match after ($"const " ++ k) t with Some s => no_keywordb ($"const " ++ s) | None => true end) keywords.
Lemma keyword_once_ok t : keyword_once t = true ->
  (forall k s, In k keywords -> t = k ++ s -> no_keyword s) /\ (forall k s, In k keywords -> t = $"const " ++ k ++ s -> no_keyword ($"const " ++ s)).
Proof.
  unfold keyword_once. rewrite forallb_forall. intros H. split; intros k s I E; specialize (H k I); apply andb_true_iff in H; destruct H as [A B].
  - rewrite E, after_app in A. exact (no_keywordb_ok _ A).
  - rewrite app_assoc in E. rewrite E, after_app in B. exact (no_keywordb_ok _ B).
Qed.
Definition named_ok (w : world) (n : named) : bool :=
  one_lineb (n_qname n) && one_lineb (standard_name w (n_qname n)) && one_lineb (relevant_include n) && tidyb (namespace_from_named_decl w n).
Lemma named_ok_ok w n : named_ok w n = true -> tidy_named w n.
Proof.
  unfold named_ok. rewrite !andb_true_iff. intros [[[A B] C] D].
  split; [exact (one_lineb_ok _ A)|exact (one_lineb_ok _ B)|exact (one_lineb_ok _ C)|exact (tidyb_ok _ D)].
Qed.
Definition function_ok (w : world) (lifted : option nat) (F : fn) : bool :=
  named_ok w (f_decl F) && tidyb (standard_name_q w (f_ret F)) && keyword_once (standard_name_q w (f_ret F))
  && forallb (fun p => tidyb (standard_name_q w (p_type p)) && plainb (p_name p)) (f_params F)
  && tidy_nameb (n_name (f_decl F)) && tidy_nameb (bound_name w F lifted) && tidy_nameb (bound_name w F lifted ++ fun_specialization w F)
  && (negb (f_method F) || tidyb (class_qualified_name w (parent_of F)))
  && match lifted with Some r => tidyb (class_qualified_name w r) | None => true end
  && plainb (standard_name w (n_qname (f_decl F) ++ $"(" ++ function_arguments w F ++ $")" ++ (if f_method F && f_const F then $" const" else [])
                              ++ $" --> " ++ standard_name_q w (f_ret F)))
  && one_lineb (function_qualified_name w F true) && one_lineb (function_qualified_name w F false) && plainb (fun_id w F) && (f_est F <=? 11).
Lemma callee_unique w F lifted s : callee w F lifted s -> s = bound_name w F lifted.
Proof. unfold bound_name. destruct 1; reflexivity. Qed.
Lemma function_ok_ok w lifted F : function_ok w lifted F = true -> tidy_function w lifted F.
Proof.
  unfold function_ok. intros A. part A R. part A Q. part A P. part A V. part A X. part A M. part A L. part A K. part A J. part A G. part A D. part A C. part A B.
  rewrite forallb_forall in D. split.
  - exact (named_ok_ok _ _ A).
  - intros t T. pose proof (type_text_unique _ _ _ _ T (standard_type w _)) as E1. rewrite E1. split; [exact (tidyb_ok _ B)|exact (keyword_once_ok _ C)].
  - intros p t I T. pose proof (type_text_unique _ _ _ _ T (standard_type w _)) as E1. rewrite E1. specialize (D p I). apply andb_true_iff in D. exact (tidyb_ok _ (proj1 D)).
  - intros p I. specialize (D p I). apply andb_true_iff in D. exact (plainb_ok _ (proj2 D)).
  - exact (tidy_nameb_ok _ G).
  - intros s H. assert (Es : s = bound_name w F lifted) by (exact (callee_unique _ _ _ _ H)). rewrite Es; (split; [exact (tidy_nameb_ok _ J)|exact (tidy_nameb_ok _ K)]).
  - intros H. exact (tidyb_ok _ (guarded _ _ L H)).
  - intros r H. rewrite H in M. exact (tidyb_ok _ M).
  - intros args ret H T. pose proof (type_text_unique _ _ _ _ T (standard_type w _)) as E1. pose proof (parameter_types_unique _ _ _ _ H (arguments_types w F)) as E2.
    rewrite E1, E2. exact (plainb_ok _ X).
  - intros [|]; [exact (one_lineb_ok _ V)|exact (one_lineb_ok _ P)].
  - exact (plainb_ok _ Q).
  - apply Nat.leb_le, R.
Qed.
Definition enum_ok (w : world) (e : enum) : bool :=
  named_ok w (e_decl e) && tidyb (n_qname (e_decl e)) && plainb (n_name (e_decl e)) && forallb (fun v => plainb (fst v) && tidyb (snd v)) (e_values e).
Lemma enum_ok_ok w e : enum_ok w e = true -> tidy_enum w e.
Proof.
  unfold enum_ok. intros A. part A D. part A C. part A B. rewrite forallb_forall in D.
  split; [exact (named_ok_ok _ _ A)|exact (tidyb_ok _ B)|exact (plainb_ok _ C)|]. intros v I. specialize (D v I). apply andb_true_iff in D.
  split; [exact (plainb_ok _ (proj1 D))|exact (tidyb_ok _ (proj2 D))].
Qed.
Definition class_ok (w : world) (r : nat) : bool :=
  named_ok w (r_decl (rec_ w r)) && tidyb (n_name (r_decl (rec_ w r))) && tidyb (class_qualified_name w r) && plainb (python_class_name w r)
  && tidyb (callback_structure_name w r) && tidyb (standard_name w (rec_specialization (rec_ w r)))
  && forallb (fun a => plainb (fix_boolean_types (mangle_type_name (standard_name w (arg_text a)) true))) (targs_of (rec_ w r))
  && forallb (fun f => tidyb (n_name (fd_decl f))) (used_fields (rec_ w r) ++ declared_fields (rec_ w r))
  && forallb (fun fl => negb (is_bindable_fun w (fun_ w (fst fl))) || function_ok w (snd fl) (fun_ w (fst fl))) (candidates w r)
  && forallb (fun e => enum_ok w (enum_ w e)) (inner_enums w r).
Lemma class_ok_ok w r : class_ok w r = true -> tidy_class w r.
Proof.
  unfold class_ok. intros A. part A M. part A L. part A K. part A J. part A H. part A G. part A D. part A C. part A B.
  rewrite forallb_forall in J, K, L, M. split.
  - exact (named_ok_ok _ _ A).
  - exact (tidyb_ok _ B).
  - exact (tidyb_ok _ C).
  - exact (plainb_ok _ D).
  - exact (tidyb_ok _ G).
  - exact (tidyb_ok _ H).
  - intros a I. exact (plainb_ok _ (J a I)).
  - intros f I. exact (tidyb_ok _ (K f I)).
  - intros f lifted I NB. specialize (L _ I). cbn [fst snd] in L. apply orb_true_iff in L. destruct L as [L|L]; [|exact (function_ok_ok _ _ _ L)].
    exfalso. apply NB, bindable_fun_iff. apply negb_true_iff, L.
  - intros e I _. exact (enum_ok_ok _ _ (M e I)).
Qed.
(** A list of classes with all their bases and nested classes. *)
Definition closed_list (w : world) (l : list nat) : bool :=
  forallb (fun c => forallb (fun b => match base_record b with Some R => existsb (Nat.eqb R) l | None => true end) (r_bases (rec_ w c))
                    && forallb (fun i => existsb (Nat.eqb (definition_of w i)) l) (inner_classes w c)) l.
Lemma closed_list_ok w l r c : closed_list w l = true -> In r l -> involved w r c -> In c l.
Proof.
  unfold closed_list. rewrite forallb_forall. intros H I V. induction V as [|c b R V IH Ib Eb|c i V IH Ii Bi]; [exact I| |].
  - specialize (H _ IH). apply andb_true_iff in H. destruct H as [H _]. rewrite forallb_forall in H. specialize (H b Ib). rewrite Eb in H.
    apply existsb_exists in H. destruct H as [x [X Y]]. apply Nat.eqb_eq in Y. rewrite Y. exact X.
  - specialize (H _ IH). apply andb_true_iff in H. destruct H as [_ H]. rewrite forallb_forall in H. specialize (H i Ii).
    apply existsb_exists in H. destruct H as [x [X Y]]. apply Nat.eqb_eq in Y. rewrite Y. exact X.
Qed.
Definition item_ok (w : world) (l : list nat) (d : decl) : bool :=
  match d with
  | DFun f => function_ok w None (fun_ w f)
  | DEnum e => enum_ok w (enum_ w e)
  | DRec r => existsb (Nat.eqb r) l && closed_list w l && forallb (class_ok w) l
  end.
Lemma item_ok_ok w l d : item_ok w l d = true -> tidy_item w d.
Proof.
  destruct d as [f|r|e]; cbn [item_ok tidy_item].
  - exact (function_ok_ok _ _ _).
  - intros A c V. part A C. part A B. rewrite forallb_forall in C. apply class_ok_ok, C.
    apply existsb_exists in A. destruct A as [x [X Y]]. apply Nat.eqb_eq in Y. subst x. exact (closed_list_ok _ _ _ _ B X V).
  - exact (enum_ok_ok _ _).
Qed.
Definition settings_ok (w : world) : bool :=
  tidyb (strs (wcfg w) holder_type) && tidyb (strs (wcfg w) default_call_guard) && forallb (fun k => tidyb (strs (wcfg w) k)) policies
  && plainb (strs (wcfg w) prefix_for_static_member_functions)
  && forallb (fun m => forallb (fun p => tidyb (snd p)) (maps (wcfg w) m))
       [Config.binders; add_on_binders; binder_for_namespaces; add_on_binder_for_namespaces; custom_trampoline_functions]
  && one_lineb (strs (wcfg w) pybind11_include_file) && forallb one_lineb (lists (wcfg w) includes_to_add)
  && forallb (fun v => forallb (fun p => forallb one_lineb (snd p)) (vecs (wcfg w) v)) [class_includes; namespace_includes]
  && forallb (fun c => is_alnum c || Ascii.eqb c "_") (root_module (wopt w)) && one_lineb (prefix (wopt w)).
Lemma lookup_listed (A : Type) k (l : list (str * A)) v : lookup k l = Some v -> exists k', In (k', v) l.
Proof.
  induction l as [|[a b] l IH]; cbn [lookup]; [discriminate|]. destruct (streqb k a) eqn:Q.
  - intros H. inversion H; subst. exists a. left. reflexivity.
  - intros H. destruct (IH H) as [k' I]. exists k'. right. exact I.
Qed.
Lemma settings_ok_ok w : settings_ok w = true -> tidy_settings w.
Proof.
  unfold settings_ok. intros A. part A M. part A L. part A K. part A J. part A H. part A G. part A D. part A C. part A B. rewrite forallb_forall in C, G, J, K, L. split.
  - exact (tidyb_ok _ A).
  - exact (tidyb_ok _ B).
  - intros k I. exact (tidyb_ok _ (C k I)).
  - exact (plainb_ok _ D).
  - intros m k s I X. specialize (G m I). rewrite forallb_forall in G. destruct (lookup_listed _ _ _ _ X) as [k' Y]. exact (tidyb_ok _ (G _ Y)).
  - exact (one_lineb_ok _ H).
  - intros i I. exact (one_lineb_ok _ (J i I)).
  - intros v k l i X I. assert (V : In v [class_includes; namespace_includes]) by (destruct v; cbn; auto). specialize (K v V).
    rewrite forallb_forall in K. destruct (lookup_listed _ _ _ _ X) as [k' Y]. specialize (K _ Y). cbn [snd] in K. rewrite forallb_forall in K. exact (one_lineb_ok _ (K i I)).
  - intros c I. specialize (L c I). apply orb_true_iff in L. destruct L as [L|L]; [left; exact L|right; apply Ascii.eqb_eq, L].
  - exact (one_lineb_ok _ M).
Qed.
(** Worlds made with [tu]. *)
Definition unit_ok (w : world) (rs : list record) (fs : list fn) (es : list enum) : bool :=
  forallb (fun n => one_lineb (n_qname n) && one_lineb (standard_name w (n_qname n)) && one_lineb (relevant_include n))
    (map r_decl (norec :: rs) ++ map f_decl (nofn :: fs) ++ map e_decl (noenum :: es))
  && one_lineb (standard_name w []) && forallb (fun F => tidyb (namespace_from_named_decl w (f_decl F))) (nofn :: fs).
Lemma nth_listed (A : Type) n (l : list A) d : In (nth n l d) (d :: l).
Proof. destruct (nth_in_or_default n l d) as [I|I]; [right; exact I|left; symmetry; exact I]. Qed.
Lemma unit_ok_ok w rs fs es rn en : wenv w = tu rs fs es rn en -> unit_ok w rs fs es = true -> tidy_unit w.
Proof.
  intros W. unfold unit_ok. intros A. part A C. part A B. rewrite forallb_forall in A, C.
  assert (FU : forall f, In (fun_ w f) (nofn :: fs)) by (intros f; unfold fun_; rewrite W; apply nth_listed).
  assert (RE : forall f, In (rec_ w f) (norec :: rs)) by (intros f; unfold rec_; rewrite W; apply nth_listed).
  assert (EN : forall f, In (enum_ w f) (noenum :: es)) by (intros f; unfold enum_; rewrite W; apply nth_listed).
  split.
  - intros n D. assert (I : In n (map r_decl (norec :: rs) ++ map f_decl (nofn :: fs) ++ map e_decl (noenum :: es))).
    { rewrite !in_app_iff. destruct D as [[f ->]|[[r ->]|[e ->]]]; [right; left|left|right; right]; apply in_map; auto. }
    specialize (A _ I). part A Z. part A Y. split; [exact (one_lineb_ok _ A)|split; [exact (one_lineb_ok _ Y)|exact (one_lineb_ok _ Z)]].
  - exact (one_lineb_ok _ B).
  - intros f. exact (tidyb_ok _ (C _ (FU f))).
Qed.
Definition run_ok (w : world) (l : list nat) (o : output) : bool :=
  forallb (fun b => (match b_code b with [] => true | _ => false end || item_ok w l (b_decl b)) && (negb (trace (wopt w)) || plainb (decl_id w (b_decl b)))) (out_sorted o).
Lemma run_ok_ok w l o : run_ok w l o = true -> tidy_run w o.
Proof.
  unfold run_ok. rewrite forallb_forall. intros H. split; intros b I X; specialize (H b I); apply andb_true_iff in H; destruct H as [A B].
  - apply orb_true_iff in A. destruct A as [A|A]; [destruct (b_code b); [contradiction|discriminate A]|exact (item_ok_ok _ _ _ A)].
  - exact (plainb_ok _ (guarded _ _ B X)).
Qed.
