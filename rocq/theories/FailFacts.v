(** Proofs that the only exceptions of the binding phase are those of the
    queries of the settings: [clean P x] says that [x] ends without undefined
    behaviour and without [exit], and that its exception satisfies [P]. *)
From Coq Require Import Ascii String Bool Arith NArith Lia Permutation Relations.
From Coq Require Import List.
From Verif Require Import Str StrFacts SpecUtil Util UtilFacts Config SpecConfig ConfigFacts Ast Types Func Enum Includes Class Context SpecContext ContextFacts SortFacts WriteFacts TotalFacts IncludesFacts RunFacts.
Import ListNotations.

Definition clean (P : str -> Prop) {A} (x : result A) : Prop :=
  match x with Ok _ | Diverges => True | Throw m => P m | Exit1 _ | Undefined _ => False end.

Arguments clean _ {A} _ : simpl never.

Section Clean.
Context (w : world) (P : str -> Prop).
Local Notation clean := (clean P).
Hypothesis clean_ns_skip : forall ns, clean (is_namespace_skipping_requested (wcfg w) ns).
Hypothesis clean_ns_bind : forall ns, clean (is_namespace_binding_requested (wcfg w) ns).
Hypothesis clean_local : forall ns, clean (is_module_local_requested (wcfg w) ns).

Lemma clean_ok {A} (a : A) : clean (Ok a). Proof. exact I. Qed.
Lemma clean_bind {A B} (x : result A) (f : A -> result B) : clean x -> (forall a, x = Ok a -> clean (f a)) -> clean (bind_r x f).
Proof. destruct x; cbn [bind_r]; intros H F; try exact H; auto. Qed.
Lemma clean_if {A} (b : bool) (x y : result A) : clean x -> clean y -> clean (if b then x else y).
Proof. destruct b; auto. Qed.
Lemma clean_and b x : clean x -> clean (and_r b x).
Proof. destruct b; cbn; [auto|intros; apply clean_ok]. Qed.
Lemma clean_or_all l : forall b, Forall clean l -> clean (or_all b l).
Proof.
  induction l as [|x l IH]; intros b F; cbn [or_all]; [apply clean_ok|].
  inversion F; subst; apply clean_bind; auto.
Qed.
Lemma clean_exists {A} (f : A -> result bool) l : (forall x, In x l -> clean (f x)) -> clean (exists_r f l).
Proof.
  induction l as [|x l IH]; intros F; cbn [exists_r]; [apply clean_ok|].
  apply clean_bind; [apply F; left; reflexivity|]; intros b _; apply clean_if; [apply clean_ok|]; apply IH; intros; apply F; right; assumption.
Qed.
Lemma clean_filter {A} (f : A -> result bool) l : (forall x, In x l -> clean (f x)) -> clean (filter_r f l).
Proof.
  induction l as [|x l IH]; intros F; cbn [filter_r]; [apply clean_ok|].
  apply clean_bind; [apply F; left; reflexivity|]; intros b _.
  apply clean_bind; [apply IH; intros; apply F; right; assumption|]; intros; apply clean_ok.
Qed.
Lemma clean_emit l : (forall x, In x l -> clean x) -> clean (emit_all l).
Proof.
  induction l as [|x l IH]; intros F; cbn [emit_all]; [apply clean_ok|].
  apply clean_bind; [apply F; left; reflexivity|]; intros [s r] _.
  apply clean_bind; [apply IH; intros; apply F; right; assumption|]; intros [s' r'] _; apply clean_ok.
Qed.
Lemma clean_emit_map {A} (f : A -> result emitted) l : (forall x, In x l -> clean (f x)) -> clean (emit_all (map f l)).
Proof. intros F; apply clean_emit; intros x Hx; apply in_map_iff in Hx; destruct Hx as [y [<- Hy]]; auto. Qed.

Lemma clean_skip_rec r deps : Forall clean deps -> clean (skip_rec_with w r deps).
Proof.
  intros F; unfold skip_rec_with; cbv zeta; repeat (apply clean_if; [apply clean_ok|]).
  apply clean_bind; [apply clean_ns_skip|]; intros b _; apply clean_or_all; assumption.
Qed.
Lemma clean_skip_type t : forall s, clean (skip_type w s t).
Proof.
  induction t using type_ind; intros s; cbn [skip_type]; try apply clean_ok; try (destruct s; [apply clean_ok|auto]; fail); auto.
  apply clean_skip_rec. rewrite Forall_forall in *; intros x Hx; apply in_flat_map in Hx; destruct Hx as [[[] p] [Ha Hx]]; cbn in Hx; try contradiction.
  destruct Hx as [<-|[]]; apply (H _ Ha).
Qed.
Lemma clean_skip_q t : clean (is_skipping_requested_q w t). Proof. apply clean_skip_type. Qed.
Lemma Forall_map_clean {A B} (f : A -> result B) l : (forall x, clean (f x)) -> Forall clean (map f l).
Proof. intros F; apply Forall_forall; intros x Hx; apply in_map_iff in Hx; destruct Hx as [y [<- _]]; auto. Qed.
Lemma clean_skip_class r : clean (is_skipping_requested_rec w r).
Proof. unfold is_skipping_requested_rec; apply clean_skip_rec, Forall_map_clean; intros; apply clean_skip_q. Qed.
Lemma clean_bind_class_req r : clean (is_binding_requested_rec w r).
Proof.
  unfold is_binding_requested_rec; cbv zeta; repeat (apply clean_if; [apply clean_ok|]).
  apply clean_bind; [apply clean_ns_bind|]; intros b _.
  apply clean_bind; [apply clean_or_all, Forall_map_clean; intros; apply clean_skip_q|]; intros; apply clean_ok.
Qed.
Lemma clean_bind_type t : forall s, clean (bind_type w s t).
Proof.
  induction t using type_ind; intros s; cbn [bind_type]; try apply clean_ok; try (destruct s; [apply clean_ok|auto]; fail); auto.
  apply clean_bind_class_req.
Qed.
Lemma clean_skip_fun F : clean (is_skipping_requested_fun w F).
Proof.
  unfold is_skipping_requested_fun; cbv zeta; repeat (apply clean_if; [apply clean_ok|]).
  apply clean_bind; [apply clean_ns_skip|]; intros b _; apply clean_or_all, Forall_map_clean; intros; apply clean_skip_q.
Qed.
Lemma clean_bind_fun_req F : clean (is_binding_requested_fun w F).
Proof.
  unfold is_binding_requested_fun; apply clean_if; [apply clean_ok|].
  apply clean_bind; [apply clean_ns_bind|]; intros b _; apply clean_or_all, Forall_map_clean; intros; apply clean_bind_type.
Qed.
Lemma clean_skip_enum e : clean (is_skipping_requested_enum w e).
Proof. unfold is_skipping_requested_enum; cbv zeta; repeat (apply clean_if; [apply clean_ok|]); apply clean_ns_skip. Qed.
Lemma clean_skip_decl d : clean (skip_decl w d).
Proof. destruct d; cbn [skip_decl]; [apply clean_skip_fun|apply clean_skip_class|apply clean_skip_enum]. Qed.
Lemma clean_bind_decl d : clean (bind_decl w d).
Proof.
  destruct d; cbn [bind_decl]; [apply clean_bind_fun_req|apply clean_bind_class_req|].
  unfold is_binding_requested_enum; apply clean_if; [exact I|apply clean_ns_bind].
Qed.
Lemma clean_request_type t : clean (request_type w t).
Proof.
  induction t using type_ind; cbn [request_type]; cbv zeta; apply clean_bind; try apply clean_skip_q; intros b _;
    apply clean_if; try apply clean_ok; apply clean_bind; auto; intros; apply clean_ok.
Qed.
Lemma clean_request_types l : clean (request_types w l).
Proof.
  induction l as [|t l IH]; cbn [request_types]; [apply clean_ok|].
  apply clean_bind; [apply clean_request_type|]; intros; apply clean_bind; [assumption|]; intros; apply clean_ok.
Qed.
Lemma clean_bind_overload F n q p u : clean (bind_overload w F n q p u).
Proof.
  unfold bind_overload; cbv zeta; destruct (function_expression _ _ _ _ _).
  apply clean_bind; [apply clean_if; [apply clean_request_types|apply clean_ok]|]; intros; apply clean_ok.
Qed.
Lemma clean_bind_function m F p u : clean (bind_function w m F p u).
Proof.
  unfold bind_function; apply clean_bind.
  - apply clean_emit_map; intros n _; apply clean_bind; [apply clean_bind_overload|]; intros [s r] _; apply clean_ok.
  - intros [s r] _; apply clean_ok.
Qed.
Lemma clean_bind_enum m e : clean (bind_enum w m e).
Proof. unfold bind_enum; apply clean_bind; [apply clean_local|]; intros; apply clean_ok. Qed.
Lemma clean_plain F : clean (plain_method_ok w F).
Proof. unfold plain_method_ok; apply clean_and, clean_bind; [apply clean_skip_fun|]; intros; apply clean_ok. Qed.
Lemma clean_members r : clean (binding_public_member_functions w r).
Proof.
  unfold binding_public_member_functions; apply clean_bind.
  - unfold exposed_methods; cbv zeta; apply clean_filter; intros [f [x|]] _; cbn [candidate_ok];
      [apply clean_plain|unfold public_method_ok; apply clean_and, clean_plain].
  - intros l _; apply clean_emit_map; intros [f p] _; apply clean_bind_function.
Qed.

  Lemma clean_callback_methods r cn l : forall st, clean (callback_methods w r cn l st).
  Proof.
    induction l as [|m l IH]; intros st; cbn [callback_methods]; cbv zeta; [apply clean_ok|].
    apply clean_bind.
    { unfold callback_candidate; apply clean_and, clean_bind; [apply clean_skip_fun|]; intros; apply clean_ok. }
    intros ok _; apply clean_if; [|apply IH]; apply clean_if; [apply IH|].
    destruct (overrider_text _ _ _ _ _); apply clean_bind; [apply IH|]; intros [os st2] _; apply clean_ok.
  Qed.

(** Fuel exhausted. *)
Ltac at_zero :=
  cbn [inherits_enable_shared binding_template_bases is_callback_structure_needed is_callback_structure_constructible callback_overriders base_default_available]; cbv zeta;
  repeat first [apply clean_ok | exact I | apply clean_exists; intros; unfold blocking_method; apply clean_and | apply clean_skip_fun | apply clean_callback_methods
    | apply clean_if | apply clean_bind; intros | match goal with |- context[match r_bases ?x with _ => _ end] => destruct (r_bases x) | |- context[match ?x with (_, _) => _ end] => destruct x end].
  Lemma clean_shared fuel : forall r, clean (inherits_enable_shared fuel w r).
  Proof.
    induction fuel as [|fuel IH]; intros r; [at_zero|]; cbn [inherits_enable_shared]; cbv zeta.
    apply clean_if; [apply clean_ok|]; apply clean_if; [|apply clean_ok].
    apply clean_exists; intros b Hb; destruct (base_record b) eqn:E; [|apply clean_ok].
    apply IH.
  Qed.
  Lemma clean_template_bases fuel : forall r, clean (binding_template_bases fuel w r).
  Proof.
    induction fuel as [|fuel IH]; intros r; [at_zero|]; cbn [binding_template_bases]; cbv zeta.
    apply clean_if; [|apply clean_ok].
    apply clean_emit_map; intros b Hb; apply clean_if; [|apply clean_ok].
    destruct (base_record b) eqn:E; [|apply clean_ok].
    apply clean_bind; [apply clean_skip_class|]; intros k _; apply clean_if; [apply clean_ok|].
    apply clean_bind; [apply clean_members|]; intros [s1 q1] _.
    apply clean_bind; [apply IH|]; intros [s2 q2] _; apply clean_ok.
  Qed.
  Lemma clean_needed fuel : forall r, clean (is_callback_structure_needed fuel w r).
  Proof.
    induction fuel as [|fuel IH]; intros r; [at_zero|]; cbn [is_callback_structure_needed]; cbv zeta.
    repeat (apply clean_if; [apply clean_ok|]).
    apply clean_exists; intros b Hb; apply clean_if; [apply clean_ok|].
    destruct (base_record b) eqn:E; [|apply clean_ok].
    apply IH.
  Qed.
  Lemma clean_constructible fuel : forall r, clean (is_callback_structure_constructible fuel w r).
  Proof.
    induction fuel as [|fuel IH]; intros r; [at_zero|]; cbn [is_callback_structure_constructible]; cbv zeta.
    apply clean_if; [|apply clean_ok].
    apply clean_bind.
    { apply clean_exists; intros m _; unfold blocking_method; apply clean_and, clean_if; [apply clean_ok|apply clean_skip_fun]. }
    intros b0 _; apply clean_if; [apply clean_ok|].
    apply clean_bind; [|intros; apply clean_ok].
    apply clean_exists; intros b Hb; destruct (base_record b) eqn:E; [|apply clean_ok].
    apply clean_if; [apply clean_ok|].
    apply clean_bind; [apply IH|]; intros; apply clean_ok.
  Qed.
  Lemma clean_default fuel : forall r, clean (base_default_available fuel w r).
  Proof.
    induction fuel as [|fuel IH]; intros r; [at_zero|]; cbn [base_default_available]; cbv zeta.
    apply clean_bind; [|intros; apply clean_ok].
    apply clean_exists; intros b Hb; destruct (base_record b) eqn:E; [|apply clean_ok].
    repeat (apply clean_if; [apply clean_ok|]).
    apply clean_bind; [apply IH|]; intros; apply clean_ok.
  Qed.
  Lemma clean_overriders fuel : forall r cn st, clean (callback_overriders fuel w r cn st).
  Proof.
    induction fuel as [|fuel IH]; intros r cn st; [at_zero|]; cbn [callback_overriders]; cbv zeta.
    apply clean_bind; [apply clean_callback_methods|]; intros [own st1] _.
    apply clean_bind; [|intros [rest st2] _; apply clean_ok].
    revert st1; induction (r_bases (rec_ w r)) as [|b l IHl]; intros st1; [apply clean_ok|].
    apply clean_bind.
    { apply clean_if; [apply clean_ok|]; destruct (base_record b) eqn:E; [|apply clean_ok]; apply IH. }
    intros [os st'] _; apply clean_bind; [apply IHl|].
    intros [os' st''] _; apply clean_ok.
  Qed.
  Lemma clean_ctor_overload ci T n q : clean (bind_ctor_overload w ci T n q).
  Proof.
    unfold bind_ctor_overload; apply clean_if.
    - apply clean_bind; [apply clean_if; [apply clean_request_types|apply clean_ok]|]; intros; apply clean_ok.
    - destruct (function_arguments_for_lambda _ _ _); apply clean_ok.
  Qed.
  Lemma clean_constructor ci T : clean (bind_constructor w ci T).
  Proof.
    unfold bind_constructor; apply clean_emit_map; intros n _; apply clean_bind; [apply clean_ctor_overload|].
    intros [s q] _; apply clean_ok.
  Qed.
  Lemma clean_ctors r ci : clean (bind_ctors w r ci).
  Proof.
    unfold bind_ctors; cbv zeta; apply clean_bind.
    { apply clean_filter; intros t _; unfold ctor_ok; apply clean_and, clean_bind; [apply clean_skip_fun|]; intros; apply clean_ok. }
    intros own _; apply clean_bind.
    { apply clean_emit_map; intros t _; unfold bind_declared_ctor; repeat (apply clean_if; [apply clean_ok|]); apply clean_constructor. }
    intros [s1 q1] _; apply clean_bind.
    { apply clean_emit_map; intros t _; unfold bind_lifted_ctor; repeat (apply clean_if; [apply clean_ok|]); apply clean_constructor. }
    intros [s2 q2] _; apply clean_bind; [|intros; apply clean_ok].
    apply clean_if; [|apply clean_ok]; apply clean_default.
  Qed.
  Lemma clean_bind_enums l : clean (bind_enums w l).
  Proof.
    induction l as [|e l IH]; cbn [bind_enums]; [apply clean_ok|].
    apply clean_bind; [apply clean_skip_enum|]; intros k _; apply clean_bind.
    { apply clean_if; [apply clean_ok|]; apply clean_bind; [apply clean_bind_enum|]; intros; apply clean_ok. }
    intros s _; apply clean_bind; [assumption|]; intros; apply clean_ok.
  Qed.
  Lemma clean_prefix r : clean (generate_prefix_code w r).
  Proof.
    unfold generate_prefix_code; cbv zeta; apply clean_bind; [|intros [os st] _; apply clean_ok].
    apply clean_overriders.
  Qed.
  Lemma clean_base_ok b : clean (base_ok w b).
  Proof.
    unfold base_ok; apply clean_if; [|apply clean_ok]; destruct (base_record b); [|apply clean_ok].
    apply clean_and, clean_bind; [apply clean_skip_class|]; intros; apply clean_ok.
  Qed.
  Lemma clean_holder r : clean (holder w r).
  Proof.
    unfold holder; cbv zeta; apply clean_bind.
    - apply clean_shared.
    - intros b _; apply clean_if; [apply clean_ok|]; destruct (r_dtor _); apply clean_ok.
  Qed.

  Lemma clean_bind_class_fuel ops : forall fuel r, clean (bind_class fuel w ops r).
  Proof.
    assert (Hf : forall fuel, match fuel with 0 => True | S f => forall r, clean (bind_class f w ops r) end -> forall r, clean (bind_class fuel w ops r)).
    { intros fuel IH r.
      assert (Hover : match fuel with 0 => True | S f => forall l,
        clean ((fix over (l : list nat) : result (str * str * list str) :=
                 match l with
                 | [] => Ok ([], [], [])
                 | i :: l' =>
                     do b <- bind_class f w ops i;
                     do (s, p, q) <- over l';
                     Ok (cb_code b ++ [nl] ++ s, cb_prefix b ++ p, cb_req b ++ q)
                 end) l) end).
      { destruct fuel as [|fuel]; [exact I|]; induction l as [|i l IHl]; [apply clean_ok|].
        apply clean_bind; [apply IH|]; intros b _.
        apply clean_bind; [apply IHl|]; intros [[s p] q] _; apply clean_ok. }
      destruct fuel as [|fuel]; cbn [bind_class]; cbv zeta;
        (apply clean_if; [apply clean_ok|]);
        (destruct (lookup _ _); [apply clean_ok|]);
        (apply clean_bind; [apply clean_needed|]; intros cb _);
        (apply clean_bind; [apply clean_if; [apply clean_constructible|apply clean_ok]|]; intros tr _);
        (apply clean_bind; [apply clean_if; [apply clean_prefix|apply clean_ok]|]; intros [p0 i0] _);
        (apply clean_bind; [apply clean_holder|]; intros hold _);
        (apply clean_bind; [apply clean_local|]; intros loc _);
        (apply clean_bind;
          [apply clean_if; [|apply clean_ok];
           apply clean_bind; [apply clean_filter; intros; apply clean_base_ok|]; intros bs _;
           apply clean_bind; [apply clean_request_types|]; intros; apply clean_ok|]);
        intros [[head deps] q0] _;
        (apply clean_bind; [apply clean_if; [apply clean_ctors|apply clean_ok]|]; intros [s1 q1] _);
        (apply clean_bind; [apply clean_bind_enums|]; intros s2 _);
        (apply clean_bind; [apply clean_members|]; intros [s3 q3] _);
        (apply clean_bind; [apply clean_template_bases|]; intros [s4 q4] _);
        destruct (bind_repr w ops r) as [s5 i5];
        (apply clean_bind; [|intros [[s7 p7] q7] _; apply clean_ok]);
        destruct (bound_nested w (rec_ w r)) as [|i0' l0]; first [apply clean_ok|exact I|exact (Hover (i0' :: l0))]. }
    induction fuel as [|fuel IH]; intros r; apply Hf; [exact I|exact IH].
  Qed.
  Lemma clean_generate ops d : clean (generate_code w ops d).
  Proof.
    destruct d as [f|r|e]; cbn [generate_code].
    - apply clean_bind; [|intros [s q] _; apply clean_ok].
      unfold bind_fun; apply clean_bind; [apply clean_bind_function|]; intros [s q] _; apply clean_ok.
    - apply clean_bind_class_fuel.
    - apply clean_bind; [|intros; apply clean_ok].
      unfold bind_enum_binder; apply clean_bind; [apply clean_bind_enum|]; intros; apply clean_ok.
  Qed.

Lemma clean_map {A B} (f : A -> result B) l : (forall x, clean (f x)) -> clean (map_r f l).
Proof.
  intros H; induction l as [|x l IH]; cbn [map_r]; [apply clean_ok|].
  apply clean_bind; [apply H|]; intros y _; apply clean_bind; [exact IH|]; intros; apply clean_ok.
Qed.
Lemma clean_initial b : clean (initial_request w b).
Proof.
  unfold initial_request. destruct (bindable w b); [|apply clean_ok]. apply clean_bind; [apply clean_skip_decl|]. intros sk _.
  destruct sk; [apply clean_ok|]. destruct (n_system _); [apply clean_ok|]. apply clean_bind; [apply clean_bind_decl|intros; apply clean_ok].
Qed.
Lemma clean_pass c todo : forall l log, clean (bind_pass w c todo l log).
Proof.
  induction todo as [|i todo IH]; intros l log; cbn [bind_pass]; [apply clean_ok|].
  destruct (nth_error l i); [|apply clean_ok]. apply clean_if; [|apply IH].
  apply clean_bind; [apply clean_generate|]; intros g _; cbv zeta; apply IH.
Qed.
Lemma clean_loop c fuel : forall l log, clean (bind_loop fuel w c l log).
Proof.
  induction fuel as [|fuel IH]; intros l log; cbn [bind_loop]; [exact I|].
  apply clean_bind; [apply clean_pass|]; intros [l1 log1] _; apply clean_if; [apply clean_ok|apply IH].
Qed.
Lemma clean_bind_all c : clean (bind_all w c).
Proof. unfold bind_all; apply clean_bind; [apply clean_map, clean_initial|]; intros l _; apply clean_loop. Qed.

Lemma clean_spec_actions level l : clean (spec_actions w level l).
Proof.
  induction l as [|f l IH]; cbn [spec_actions]; [apply clean_ok|]. apply clean_bind.
  { apply clean_and. unfold member_ok; apply clean_and, clean_bind; [apply clean_skip_fun|]; intros; apply clean_ok. }
  intros ok _; apply clean_bind; [exact IH|]; intros; apply clean_ok.
Qed.
Lemma clean_actions d level : clean (actions w d level).
Proof.
  destruct d as [f|r|e]; cbn [actions]; try apply clean_ok. unfold rec_actions; cbv zeta.
  apply clean_bind; [apply clean_spec_actions|]; intros; apply clean_ok.
Qed.
Lemma clean_add_includes fuel : forall d level s, clean (add_includes fuel w d level s).
Proof.
  induction fuel as [|fuel IH]; intros d level s; cbn [add_includes]; destruct (add_decl d level s) as [s1|]; try apply clean_ok; [exact I|].
  apply clean_bind; [apply clean_actions|]; intros acts _. revert s1; induction acts as [|[d'|d' level'] acts IHa]; intros s1; [apply clean_ok|apply IHa|].
  apply clean_bind; [apply IH|]; intros s2 _; apply IHa.
Qed.
Lemma clean_run_actions fuel l : forall s, clean (run_actions fuel w l s).
Proof.
  induction l as [|[d'|d' level'] l IH]; intros s; rewrite ?run_nil, ?run_header, ?run_visit; [apply clean_ok|exact (IH _)|].
  apply clean_bind; [apply clean_add_includes|]; intros s2 _; apply IH.
Qed.
Lemma clean_class_includes inc_fuel fuel : forall r incl s, clean (class_includes_rec fuel inc_fuel w r incl s).
Proof.
  induction fuel as [|fuel IH]; intros r incl s; rewrite class_includes_eq; (apply clean_bind; [|intros s1 _; apply clean_bind; [apply clean_run_actions|intros; apply clean_ok]]).
  - destruct (nested_classes w (rec_ w r)); [apply clean_ok|exact I].
  - assert (Hn : forall l s, clean (nested_includes fuel inc_fuel w l s)).
    { induction l as [|i l IHl]; intros s0; [apply clean_ok|]. rewrite nested_cons. apply clean_bind; [apply IH|]; intros s1 _; apply IHl. }
    destruct (nested_classes w (rec_ w r)) as [|i l]; [apply clean_ok|apply Hn].
Qed.
Lemma clean_binder_includes b s : clean (binder_includes w b s).
Proof. unfold binder_includes; cbv zeta; destruct (b_decl b); [apply clean_add_includes|apply clean_class_includes|apply clean_add_includes]. Qed.
Lemma clean_fill ns skip rest : forall st, clean (fill w ns skip rest st).
Proof.
  induction rest as [|b rest IH]; intros st; cbn [fill]; [apply clean_ok|]. apply clean_if; [|apply clean_ok].
  apply clean_bind.
  { apply clean_if; [apply clean_ok|]. unfold add_item; cbv zeta. apply clean_bind; [|intros; apply clean_ok].
    apply clean_if; [apply clean_binder_includes|apply clean_ok]. }
  intros st1 _; apply clean_bind; [apply IH|]; intros [[taken later] st2] _; apply clean_ok.
Qed.
Lemma clean_write_loop fuel : forall rest fn en tc, clean (write_loop fuel w rest fn en tc).
Proof.
  induction fuel as [|fuel IH]; intros rest fn en tc; destruct rest as [|b rest]; cbn [write_loop]; try apply clean_ok; [exact I|].
  apply clean_if; [apply IH|]; cbv zeta. destruct (first_code _ _ _) as [call skip].
  apply clean_bind; [apply clean_fill|]; intros [[taken later] st] _.
  apply clean_bind; [apply IH|]; intros; apply clean_ok.
Qed.
End Clean.
