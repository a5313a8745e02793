(** A configuration that asks for more is answered with more: what is left out
    shrinks, what is asked for grows, and what can be bound stays the same. *)
From Coq Require Import Ascii String Bool Arith NArith Lia.
From Coq Require Import List.
From Verif Require Import Str StrFacts Util Config SpecConfig ConfigFacts Ast Types Func Enum Includes Class Context SpecTypes TypesFacts NamesFacts SpecBind BindFacts SpecClass ClassFacts StructFacts SpecContext ContextFacts SpecRequests RequestFacts SpecMonotone.
From Verif Require MonotoneNames.
Import ListNotations.

Section More.
Variables (e : env) (c c' : config) (o o' : options).
Hypothesis H : asks_for_more c c'.
Hypothesis Ho : options_for_more o o'.
Local Notation w := (mkworld e c o).
Local Notation w' := (mkworld e c' o').

(** ** Names and what can be bound *)
Lemma m_name : standard_name w' = standard_name w.
Proof. exact (MonotoneNames.f_standard_name e c c' o o' H Ho). Qed.
Lemma m_class : class_qualified_name w' = class_qualified_name w.
Proof. exact (MonotoneNames.f_class_qualified_name e c c' o o' H Ho). Qed.
Lemma m_namespace : namespace_from_named_decl w' = namespace_from_named_decl w.
Proof. exact (MonotoneNames.f_namespace_from_named_decl e c c' o o' H Ho). Qed.
Lemma m_function : function_qualified_name w' = function_qualified_name w.
Proof. exact (MonotoneNames.f_function_qualified_name e c c' o o' H Ho). Qed.
Lemma m_fun : fun_ w' = fun_ w.
Proof. exact (MonotoneNames.f_fun_ e c c' o o' H Ho). Qed.
Lemma m_rec : rec_ w' = rec_ w.
Proof. exact (MonotoneNames.f_rec_ e c c' o o' H Ho). Qed.
Lemma m_enum : enum_ w' = enum_ w.
Proof. exact (MonotoneNames.f_enum_ e c c' o o' H Ho). Qed.
Lemma m_rejected t : rejected w' t <-> rejected w t.
Proof. rewrite <- !bindable_q_iff, (MonotoneNames.s_is_bindable_q e c c' o o' H Ho). reflexivity. Qed.
Lemma m_rejected_class r : rejected_class w' r (targs_of (rec_ w' r)) <-> rejected_class w r (targs_of (rec_ w r)).
Proof. rewrite <- !bindable_rec_iff, (MonotoneNames.s_is_bindable_rec e c c' o o' H Ho). reflexivity. Qed.
Lemma m_unbindable F : unbindable w' F <-> unbindable w F.
Proof. rewrite <- !bindable_fun_iff, (MonotoneNames.s_is_bindable_fun e c c' o o' H Ho). reflexivity. Qed.
Lemma m_python s : python_type w' s <-> python_type w s.
Proof.
  unfold python_type. cbn [wcfg wopt]. destruct H as (_&_&B&N&_&T). rewrite B, N, T, (proj1 Ho). reflexivity.
Qed.
Lemma m_const_overload m : const_is_method w -> const_overload w' (fun_ w m) <-> const_overload w (fun_ w m).
Proof.
  intros Wf. rewrite <- (const_overload_iff w _ (Wf m)), <- (const_overload_iff w' _ (Wf m)), (MonotoneNames.f_is_const_overload e c c' o o' H Ho). reflexivity.
Qed.

(** ** The lists *)
Lemma l_wanted k n : In k wanted -> listed_in w k n -> listed_in w' k n.
Proof. intros K. apply (proj1 H k K). Qed.
Lemma l_unwanted k n : In k unwanted -> listed_in w' k n -> listed_in w k n.
Proof. intros K. apply (proj1 (proj2 H) k K). Qed.
Lemma l_dec v k n : listed_in v k n \/ ~ listed_in v k n.
Proof. unfold listed_in. destruct (in_dec str_eq_dec (nospace n) (lists (wcfg v) k)); auto. Qed.
Ltac key := cbn [In wanted unwanted]; tauto.

Lemma match_grows l l' ns k k' : incl l l' -> longest_match l ns k -> longest_match l' ns k' -> k <= k'.
Proof.
  intros I [_ [->|(p&P&Q&R)]] [B _]; [lia|]. subst k. apply B; [apply I, P|exact Q].
Qed.
Lemma l_namespace_skipped ns : namespace_skipped w' ns -> namespace_skipped w ns.
Proof.
  intros (b'&s'&B'&S'&L). destruct (longest_exists (lists c namespaces_to_bind) ns) as [b B], (longest_exists (lists c namespaces_to_skip) ns) as [s S].
  exists b, s. split; [exact B|]. split; [exact S|].
  pose proof (match_grows _ _ _ _ _ (proj1 H namespaces_to_bind ltac:(key)) B B').
  pose proof (match_grows _ _ _ _ _ (proj1 (proj2 H) namespaces_to_skip ltac:(key)) S' S). lia.
Qed.
Lemma l_namespace_requested ns : namespace_requested w ns -> namespace_requested w' ns.
Proof.
  intros (b&s&B&S&L). destruct (longest_exists (lists c' namespaces_to_bind) ns) as [b' B'], (longest_exists (lists c' namespaces_to_skip) ns) as [s' S'].
  exists b', s'. split; [exact B'|]. split; [exact S'|].
  pose proof (match_grows _ _ _ _ _ (proj1 H namespaces_to_bind ltac:(key)) B B').
  pose proof (match_grows _ _ _ _ _ (proj1 (proj2 H) namespaces_to_skip ltac:(key)) S' S).
  destruct L as [L|(E&F&G)]; [left; lia|]. destruct b' as [|b']; [|left; lia]. right. split; [reflexivity|]. split; [lia|].
  exact (proj1 H namespaces_to_bind ltac:(key) _ G).
Qed.
(** Precedence among the names of a declaration. *)
Lemma l_precedence no yes names (P P' : Prop) : In no unwanted -> In yes wanted -> (P' -> P) ->
  by_precedence w' no yes names P' -> by_precedence w no yes names P.
Proof.
  intros N Y I. induction names as [|n names IH]; cbn [by_precedence]; [exact I|].
  intros [L|(A&B&L)]; [left; exact (l_unwanted _ _ N L)|].
  destruct (l_dec w no n) as [D|D]; [left; exact D|right]. split; [exact D|]. split; [intros X; exact (B (l_wanted _ _ Y X))|apply IH, L].
Qed.

(** ** What is left out *)
Scheme type_skipped_mind := Minimality for type_skipped Sort Prop
  with class_skipped_mind := Minimality for class_skipped Sort Prop.
Lemma class_shrinks r args : class_skipped_by w' r (exists t text, In (Targ (KType t) text) args /\ (type_skipped w' t /\ type_skipped w t)) -> class_skipped w r args.
Proof.
  intros K. apply class_skipped_iff. unfold class_skipped_by, class_names in *. rewrite m_class, m_rec, m_name, m_namespace in K.
  revert K. apply l_precedence; [key|key|]. intros [K|(t&x&I&_&K)]; [left; exact (l_namespace_skipped _ K)|right; exists t, x; auto].
Qed.
Lemma by_exact v r : listed_in v classes_to_skip (class_qualified_name v r) -> forall P, class_skipped_by v r P.
Proof. intros K P. left. exact K. Qed.
Lemma type_shrinks t : type_skipped w' t -> type_skipped w t.
Proof.
  apply (type_skipped_mind w' (fun t => type_skipped w t) (fun r args => class_skipped w r args)).
  - intros; apply TS_pointer; assumption.
  - intros; apply TS_lvalue; assumption.
  - intros; apply TS_rvalue; assumption.
  - intros t' k r args D _ K. exact (TS_class w t' k r args D K).
  - intros r args L. apply class_shrinks. left. exact L.
  - intros r args L1 L2 L3. apply class_shrinks. right. split; [exact L1|]. split; [exact L2|]. left. exact L3.
  - intros r args U N. apply class_shrinks. destruct (U _ (or_introl eq_refl)) as [A B], (U _ (or_intror (or_introl eq_refl))) as [A' B'].
    right. split; [exact A|]. split; [exact B|]. right. split; [exact A'|]. split; [exact B'|]. left. exact N.
  - intros r args t' text U I S S'. apply class_shrinks. destruct (U _ (or_introl eq_refl)) as [A B], (U _ (or_intror (or_introl eq_refl))) as [A' B'].
    right. split; [exact A|]. split; [exact B|]. right. split; [exact A'|]. split; [exact B'|]. right. exists t', text. auto.
Qed.
Lemma class_skip_shrinks r args : class_skipped w' r args -> class_skipped w r args.
Proof.
  intros K. apply class_skipped_iff in K. apply class_shrinks. unfold class_skipped_by in *.
  cbn [by_precedence class_names] in *. destruct K as [K|(A&B&[K|(A'&B'&[K|(t&x&I&K)])])].
  - left. exact K.
  - right. split; [exact A|]. split; [exact B|]. left. exact K.
  - right. split; [exact A|]. split; [exact B|]. right. split; [exact A'|]. split; [exact B'|]. left. exact K.
  - right. split; [exact A|]. split; [exact B|]. right. split; [exact A'|]. split; [exact B'|]. right. exists t, x. split; [exact I|]. split; [exact K|exact (type_shrinks t K)].
Qed.
Lemma function_skip_shrinks F : function_skipped w' F -> function_skipped w F.
Proof.
  unfold function_skipped, function_names. rewrite m_function, m_name, m_namespace, m_rec. apply l_precedence; [key|key|].
  intros [K|[(A&B&K)|(t&S&K)]]; [left; exact (l_namespace_skipped _ K)|right; left|right; right; exists t; split; [exact S|exact (type_shrinks t K)]].
  split; [exact A|]. split; [exact B|]. exact (l_unwanted functions_to_skip _ ltac:(key) K).
Qed.
Lemma enum_skip_shrinks x : enum_skipped w' x -> enum_skipped w x.
Proof.
  intros [L|A B N].
  - apply ES_listed. rewrite m_name in L. exact (proj1 (proj2 H) enums_to_skip ltac:(key) _ L).
  - rewrite m_name in A, B. rewrite m_namespace in N.
    destruct (in_dec str_eq_dec (standard_name w (n_qname (e_decl x))) (lists (wcfg w) enums_to_skip)) as [D|D]; [exact (ES_listed w x D)|].
    apply ES_namespace; [exact D| |exact (l_namespace_skipped _ N)]. intros X. apply B. exact (proj1 H enums_to_bind ltac:(key) _ X).
Qed.

(** ** What is asked for *)
Lemma class_request_grows r : class_requested w r -> class_requested w' r.
Proof.
  intros [n I L|N B R A].
  - apply (CR_listed w' r n); [|exact (l_wanted classes_to_bind _ ltac:(key) L)].
    unfold class_names in *. rewrite m_class, m_name, m_rec. exact I.
  - destruct (l_dec w' classes_to_bind (class_qualified_name w' r)) as [D|D]; [exact (CR_listed w' r _ (or_introl eq_refl) D)|].
    destruct (l_dec w' classes_to_bind (standard_name w' (n_qname (r_decl (rec_ w' r))))) as [D'|D']; [exact (CR_listed w' r _ (or_intror (or_introl eq_refl)) D')|].
    apply CR_namespace.
    + intros n [<-|[<-|[]]]; assumption.
    + destruct B as [B|B]; [left; exact (proj2 Ho B)|right; exact B].
    + rewrite m_namespace. exact (l_namespace_requested _ R).
    + intros t text I S. exact (A t text I (type_shrinks t S)).
Qed.
Lemma type_request_grows t : type_requested w t -> type_requested w' t.
Proof.
  intros K. induction K as [k t K IH|t K IH|t K IH|t k r args D K]; [apply TR_pointer, IH|apply TR_lvalue, IH|apply TR_rvalue, IH|].
  exact (TR_class w' t k r args D (class_request_grows r K)).
Qed.
Lemma function_request_grows F : function_requested w F -> function_requested w' F.
Proof.
  unfold function_requested. rewrite m_function, m_namespace. intros [K|[K|[K|(t&S&K)]]].
  - left. exact (l_wanted functions_to_bind _ ltac:(key) K).
  - right. left. exact (l_wanted functions_to_bind _ ltac:(key) K).
  - right. right. left. exact (l_namespace_requested _ K).
  - right. right. right. exists t. split; [exact S|exact (type_request_grows t K)].
Qed.
Lemma enum_request_grows x : enum_requested w x -> enum_requested w' x.
Proof.
  intros [L|N]; [apply ER_listed; exact (proj1 H enums_to_bind ltac:(key) _ L)|apply ER_namespace]. rewrite m_namespace. exact (l_namespace_requested _ N).
Qed.

(** ** The decisions on an item *)
Lemma skip_decl_shrinks d : namespaces_consistent w' -> skip_decl w d = Ok false -> skip_decl w' d = Ok false.
Proof.
  intros C K. destruct d as [f|r|x]; cbn [skip_decl] in *.
  - rewrite m_fun. destruct (skip_fun_ok w' (fun_ w f) C) as [b B]. rewrite B. destruct b; [|reflexivity].
    pose proof (proj2 (skip_fun_iff w _ _ K) (function_skip_shrinks _ (proj1 (skip_fun_iff w' _ _ B) eq_refl))). discriminate.
  - destruct (skip_class_ok w' r C) as [b B]. rewrite B. destruct b; [|reflexivity].
    pose proof (proj2 (skip_class_iff w _ _ K) (class_skip_shrinks r _ (proj1 (skip_class_iff w' _ _ B) eq_refl))). discriminate.
  - rewrite m_enum. destruct (skip_enum_ok w' (enum_ w x) C) as [b B]. rewrite B. destruct b; [|reflexivity].
    pose proof (proj2 (skip_enum_iff w _ _ K) (enum_skip_shrinks _ (proj1 (skip_enum_iff w' _ _ B) eq_refl))). discriminate.
Qed.
Lemma bind_decl_grows d : namespaces_consistent w' -> bind_decl w d = Ok true -> bind_decl w' d = Ok true.
Proof.
  intros C K. destruct d as [f|r|x]; cbn [bind_decl] in *.
  - rewrite m_fun. destruct (bind_fun_ok w' (fun_ w f) C) as [b B]. rewrite B. f_equal.
    exact (proj2 (bind_fun_iff w' _ _ B) (function_request_grows _ (proj1 (bind_fun_iff w _ _ K) eq_refl))).
  - destruct (bind_class_ok w' r C) as [b B]. rewrite B. f_equal.
    exact (proj2 (bind_class_iff w' _ _ B) (class_request_grows _ (proj1 (bind_class_iff w _ _ K) eq_refl))).
  - rewrite m_enum. destruct (bind_enum_ok w' (enum_ w x) C) as [b B]. rewrite B. f_equal.
    exact (proj2 (bind_enum_iff w' _ _ B) (enum_request_grows _ (proj1 (bind_enum_iff w _ _ K) eq_refl))).
Qed.
Lemma can_bind_same d : can_bind w' d = can_bind w d.
Proof.
  destruct d as [f|r|x]; cbn [can_bind].
  - rewrite m_fun. apply (MonotoneNames.s_is_bindable_fun e c c' o o' H Ho).
  - apply (MonotoneNames.s_is_bindable_rec e c c' o o' H Ho).
  - rewrite m_enum, (MonotoneNames.f_enum_bindable e c c' o o' H Ho). reflexivity.
Qed.
Lemma eligible_grows d : namespaces_consistent w' -> eligible w d -> eligible w' d.
Proof.
  intros C (A&B&D). split; [rewrite can_bind_same; exact A|]. split; [exact (skip_decl_shrinks d C B)|].
  rewrite (MonotoneNames.s_is_python_builtin e c c' o o' H Ho). exact D.
Qed.

(** ** The types a class needs *)
Lemma named_base_grows b : named_base w b -> named_base w' b.
Proof.
  intros (P&R&B&S&N&K). split; [exact P|]. exists R. split; [exact B|]. split; [rewrite m_name, m_rec; exact S|].
  split; [intros X; exact (N (proj1 (m_rejected_class R) X))|]. rewrite m_rec. intros X. exact (K (class_skip_shrinks R _ X)).
Qed.
Lemma bound_constructor_grows m : bound_constructor w m -> bound_constructor w' m.
Proof.
  unfold bound_constructor. rewrite m_fun. intros (A&B&D&E). split; [exact A|]. split; [exact B|]. split; [intros X; exact (D (proj1 (m_unbindable _) X))|].
  intros X. exact (E (function_skip_shrinks _ X)).
Qed.
Lemma used_constructor_same m : used_constructor w' m <-> used_constructor w m.
Proof. unfold used_constructor. rewrite m_fun, m_unbindable. reflexivity. Qed.
Lemma chosen_grows cand : const_is_method w -> chosen w cand -> chosen w' cand.
Proof.
  unfold chosen, offered. rewrite m_fun. intros Wf ((A&B&D&E&F)&G). split; [|exact G].
  split; [intros X; exact (A (proj1 (m_unbindable _) X))|]. split; [intros X; exact (B (function_skip_shrinks _ X))|].
  split; [exact D|]. split; [exact E|]. intros X. exact (F (proj1 (m_const_overload _ Wf) X)).
Qed.
Lemma bound_enum_grows x : bound_enum w x -> bound_enum w' x.
Proof. unfold bound_enum. rewrite m_enum. intros (A&B&D&E&F). repeat (split; [assumption|]). intros X. exact (F (enum_skip_shrinks _ X)). Qed.
Lemma bound_inner_same i : bound_inner w' i <-> bound_inner w i.
Proof. unfold bound_inner. rewrite <- (m_rejected_class (definition_of w i)). unfold definition_of. rewrite m_rec. reflexivity. Qed.
Lemma needs_same r : const_is_method w -> needs_callback w r -> needs_callback w' r.
Proof.
  intros Wf K. induction K as [r m N F M A U V D|r b R N F B A E K IH].
  - apply (NC_own w' r m); rewrite ?m_rec, ?m_fun.
    + intros (X&p&P1&P2&P3). apply N. split; [exact X|]. exists p.  split; [exact P1|]. split; [exact P2|]. exact (proj1 (m_const_overload p Wf) P3).
    + exact F.
    + exact M.
    + exact A.
    + intros X. exact (U (proj1 (m_unbindable _) X)).
    + exact V.
    + exact D.
  - apply (NC_base w' r b R); rewrite ?m_rec.
    + intros (X&p&P1&P2&P3). apply N. split; [exact X|]. exists p. rewrite m_fun in P2, P3. split; [exact P1|]. split; [exact P2|]. exact (proj1 (m_const_overload p Wf) P3).
    + exact F.
    + exact B.
    + exact A.
    + exact E.
    + exact IH.
Qed.
Lemma blocked_shrinks r : blocked w' r -> blocked w r.
Proof.
  intros K. induction K as [r m A M P C D|r b R A B E P X|r b R A B E P K IH].
  - rewrite m_rec in A, M. rewrite m_fun in P, C, D. apply (BL_own w r m A M P C).
    destruct D as [D|[D|D]]; [left; exact D|right; left; exact (proj1 (m_unbindable _) D)|right; right; exact (function_skip_shrinks _ D)].
  - rewrite m_rec in A, B, X. exact (BL_private w r b R A B E P X).
  - rewrite m_rec in A, B. exact (BL_base w r b R A B E P IH).
Qed.
Lemma structure_grows r : const_is_method w -> has_structure w r -> has_structure w' r.
Proof. intros Wf [A B]. split; [exact (needs_same r Wf A)|]. intros X. exact (B (blocked_shrinks r X)). Qed.
Lemma constructible_grows r : const_is_method w -> constructible w r -> constructible w' r.
Proof. unfold constructible. rewrite m_rec. intros Wf [A [B|B]]; split; auto. right. exact (structure_grows r Wf B). Qed.
Lemma callable_grows r m : callable_constructor w r m -> callable_constructor w' r m.
Proof.
  unfold callable_constructor. intros [(A&B&D)|(A&B)]; [left|right].
  - split; [exact A|]. split; [exact (bound_constructor_grows m B)|exact D].
  - split; [exact A|]. exact (proj2 (used_constructor_same m) B).
Qed.
Lemma generated_same r : generated w' r <-> generated w r.
Proof. unfold generated, class_name. rewrite m_name, m_rec, m_python. rewrite (proj1 (proj2 (proj2 (proj2 (proj2 H))))). reflexivity. Qed.
Lemma folded_grows r l : folded_bases w r l -> forall l', folded_bases w' r l' -> incl l l'.
Proof.
  apply (folded_bases_mind w (fun r l => forall l', folded_bases w' r l' -> incl l l') (fun bs l => forall l', folded_from w' bs l' -> incl l l')).
  - intros r0 N l' F x [].
  - intros r0 l0 N _ IH l' F. inversion F as [r1 N1|r1 l1 N1 F1]; subst; [rewrite m_rec in N1; contradiction|]. apply IH. rewrite m_rec in F1. exact F1.
  - intros l' F x [].
  - intros b bs R l1 l2 A B E K _ IH1 _ IH2 l' F. inversion F as [|b0 bs0 R0 l1' l2' A0 B0 E0 K0 F1 F2|b0 bs0 l0 O F2]; subst.
    + rewrite E in E0. injection E0 as <-. intros x [<-|X]; [left; reflexivity|]. right. apply in_app_or in X. apply in_or_app.
      destruct X as [X|X]; [left; exact (IH1 _ F1 x X)|right; exact (IH2 _ F2 x X)].
    + exfalso. destruct O as [O|[O|[O|(R0&E0&K0)]]]; try congruence. rewrite E in E0. injection E0 as <-. apply K. rewrite m_rec in K0. exact (class_skip_shrinks R _ K0).
  - intros b bs l0 O _ IH l' F. inversion F as [|b0 bs0 R0 l1' l2' A0 B0 E0 K0 F1 F2|b0 bs0 l1 O1 F2]; subst; [|exact (IH _ F2)].
    intros x X. right. apply in_or_app. right. exact (IH _ F2 x X).
Qed.
(** If the code of the class can be generated with the new settings, it needs
    all types that it needed before. *)
Lemma class_uses_grows ops : const_is_method w -> forall r t, class_uses w r t -> forall b, class_binding w' ops r b -> class_uses w' r t.
Proof.
  intros Wf r t K. induction K as [r b G N I B|r m p G S M V P|r cand t G I X Y|r l R cand t G F I J X Y|r i t G I B K IH]; intros b' CB.
  - apply CU_base; [exact (proj2 (generated_same r) G)|rewrite m_rec; exact N|rewrite m_rec; exact I|exact (named_base_grows b B)].
  - apply (CU_constructor w' r m p); [exact (proj2 (generated_same r) G)|exact (constructible_grows r Wf S)|exact (callable_grows r m M)|rewrite m_fun; exact V|rewrite m_fun; exact P].
  - apply (CU_method w' r cand t); [exact (proj2 (generated_same r) G)|exact I|exact (chosen_grows cand Wf X)|rewrite m_fun; exact Y].
  - pose proof (proj2 (generated_same r) G) as G'. destruct (class_binding_inv w' ops r b' CB G') as (a1&a2&a3&a4&a5&a6&a7&a8&a9&a10&a11&a12&a13&a14&a15&a16&a17&_&_&_&_&_&_&_&_&FT&_).
    destruct FT as (l'&ts&F'&_). exact (CU_folded w' r l' R cand t G' F' (folded_grows r l F l' F' R I) J (chosen_grows cand Wf X) ltac:(rewrite m_fun; exact Y)).
  - pose proof (proj2 (generated_same r) G) as G'. destruct (class_binding_inv w' ops r b' CB G') as (a1&a2&a3&a4&a5&a6&a7&a8&a9&a10&a11&a12&a13&a14&a15&a16&a17&_&_&_&_&_&_&_&_&_&_&(SL&FA)&_).
    assert (I' : In i (inner_classes w' r)) by exact I. pose proof (proj2 (bound_inner_same i) B) as B'.
    assert (J : In i a16) by (apply (selection_In _ _ _ SL); split; assumption).
    assert (Q : exists b2, class_binding w' ops (definition_of w' i) b2).
    { clear - FA J. induction FA as [|x y l1 l2 Xy FA IH]; [destruct J|]. destruct J as [->|J]; [exists y; exact Xy|exact (IH J)]. }
    destruct Q as [b2 Q]. exact (CU_member w' r i t G' I' B' (IH b2 Q)).
Qed.
Lemma announces_grows t name : announces w t name -> announces w' t name.
Proof.
  assert (P : print (wenv w') = print (wenv w)) by reflexivity.
  intros K. induction K as [t r name S A B N|t x name S A B N|k t name S K IH|t name S K IH|t name S K IH].
  - apply (AN_class w' t r name); [intros X; exact (S (type_shrinks t X))|exact A|rewrite m_rec; exact B|].
    rewrite N, m_name, (MonotoneNames.f_rec_type e c c' o o' H Ho). reflexivity.
  - apply (AN_enum w' t x name); [intros X; exact (S (type_shrinks t X))|exact A|rewrite m_enum; exact B|]. rewrite N, m_name. reflexivity.
  - apply AN_pointer; [intros X; exact (S (type_shrinks _ X))|exact IH].
  - apply AN_lvalue; [intros X; exact (S (type_shrinks _ X))|exact IH].
  - apply AN_rvalue; [intros X; exact (S (type_shrinks _ X))|exact IH].
Qed.
Lemma required_grows ops items : const_is_method w -> namespaces_consistent w' ->
  (forall j d, required w' items j -> nth_error items j = Some d -> exists g, generate_code w' ops d = Ok g) ->
  forall i, required w items i -> required w' items i.
Proof.
  intros Wf C G i K. induction K as [i d Hi E S B|i j d dj t name Hi E R IH Hj U A NI].
  - exact (RQ_config w' items i d Hi (eligible_grows d C E) S (bind_decl_grows d C B)).
  - refine (RQ_used w' items i j d dj t name Hi (eligible_grows d C E) IH Hj _ (announces_grows t name A) _).
    + destruct U as [f t X|r t X]; [apply US_function; rewrite m_fun; exact X|apply US_class].
      destruct (G j (DRec r) IH Hj) as [g Hg]. cbn [generate_code] in Hg. apply (class_binding_spec w' ops Wf) in Hg. exact (class_uses_grows ops Wf r t X g Hg).
    + destruct NI as (d0&N1&N2&N3). exists d0. rewrite (MonotoneNames.f_type_names e c c' o o' H Ho). auto.
Qed.
End More.
