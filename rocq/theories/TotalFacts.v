(** Proofs that no recursion of the model runs out of fuel when the bound is
    as large as the translation unit. *)
From Coq Require Import Ascii String Bool Arith NArith Lia Permutation Relations.
From Coq Require Import List.
From Verif Require Import Str StrFacts SpecUtil Util UtilFacts Config Ast Types Func Enum Includes Class Context SpecContext ContextFacts SortFacts WriteFacts.
Import ListNotations.

Definition fine {A} (x : result A) : Prop := x <> Diverges.
Lemma fine_ok {A} (a : A) : fine (Ok a). Proof. discriminate. Qed.
Lemma fine_bind {A B} (x : result A) (f : A -> result B) : fine x -> (forall a, x = Ok a -> fine (f a)) -> fine (bind_r x f).
Proof. destruct x; cbn; intros H F; try discriminate; auto; exfalso; apply H; reflexivity. Qed.
Lemma fine_if {A} (b : bool) (x y : result A) : fine x -> fine y -> fine (if b then x else y).
Proof. destruct b; auto. Qed.
Lemma fine_and b x : fine x -> fine (and_r b x).
Proof. destruct b; cbn; [auto|intros; apply fine_ok]. Qed.
Lemma fine_or_all l : forall b, Forall fine l -> fine (or_all b l).
Proof.
  induction l as [|x l IH]; intros b F; cbn [or_all]; [apply fine_ok|].
  inversion F; subst; apply fine_bind; auto.
Qed.
Lemma fine_exists {A} (f : A -> result bool) l : (forall x, In x l -> fine (f x)) -> fine (exists_r f l).
Proof.
  induction l as [|x l IH]; intros F; cbn [exists_r]; [apply fine_ok|].
  apply fine_bind; [apply F; left; reflexivity|]; intros b _; apply fine_if; [apply fine_ok|]; apply IH; intros; apply F; right; assumption.
Qed.
Lemma fine_filter {A} (f : A -> result bool) l : (forall x, In x l -> fine (f x)) -> fine (filter_r f l).
Proof.
  induction l as [|x l IH]; intros F; cbn [filter_r]; [apply fine_ok|].
  apply fine_bind; [apply F; left; reflexivity|]; intros b _.
  apply fine_bind; [apply IH; intros; apply F; right; assumption|]; intros; apply fine_ok.
Qed.
Lemma fine_emit l : (forall x, In x l -> fine x) -> fine (emit_all l).
Proof.
  induction l as [|x l IH]; intros F; cbn [emit_all]; [apply fine_ok|].
  apply fine_bind; [apply F; left; reflexivity|]; intros [s r] _.
  apply fine_bind; [apply IH; intros; apply F; right; assumption|]; intros [s' r'] _; apply fine_ok.
Qed.
Lemma fine_emit_map {A} (f : A -> result emitted) l : (forall x, In x l -> fine (f x)) -> fine (emit_all (map f l)).
Proof. intros F; apply fine_emit; intros x Hx; apply in_map_iff in Hx; destruct Hx as [y [<- Hy]]; auto. Qed.

Lemma fine_ns_skip c ns : fine (is_namespace_skipping_requested c ns).
Proof.
  unfold is_namespace_skipping_requested; repeat (destruct (fold_left _ _ _)).
  repeat apply fine_if; discriminate.
Qed.
Lemma fine_ns_bind c ns : fine (is_namespace_binding_requested c ns).
Proof.
  unfold is_namespace_binding_requested; repeat (destruct (fold_left _ _ _)).
  repeat apply fine_if; discriminate.
Qed.
Lemma fine_local c ns : fine (is_module_local_requested c ns).
Proof. unfold is_module_local_requested; repeat apply fine_if; discriminate. Qed.

(** ** Induction on types *)

Definition targ_all (P : qty -> Prop) (a : targ) : Prop :=
  match a with
  | Targ (KType t) _ | Targ (KIntegral t) _ => P t
  | Targ (KDecl _ (Some (ret, ps))) _ => P ret /\ Forall P ps
  | _ => True
  end.
Section TypeInduction.
  Variable P : qty -> Prop.
  Hypothesis HBuiltin : forall c n, P (TBuiltin c n).
  Hypothesis HPtr : forall c t, P t -> P (TPtr c t).
  Hypothesis HLRef : forall t, P t -> P (TLRef t).
  Hypothesis HRRef : forall t, P t -> P (TRRef t).
  Hypothesis HArray : forall c t, P t -> P (TArray c t).
  Hypothesis HFun : forall r ps, P r -> Forall P ps -> P (TFun r ps).
  Hypothesis HRec : forall c r args, Forall (targ_all P) args -> P (TRec c r args).
  Hypothesis HEnum : forall c e, P (TEnum c e).
  Hypothesis HSugar : forall c n t, P t -> P (TSugar c n t).
  Hypothesis HDep : forall c n, P (TDep c n).
  Fixpoint type_ind (t : qty) : P t :=
    let all := fix all (l : list qty) : Forall P l :=
                 match l with [] => Forall_nil _ | x :: l' => Forall_cons _ (type_ind x) (all l') end in
    match t with
    | TBuiltin c n => HBuiltin c n
    | TPtr c t' => HPtr c t' (type_ind t')
    | TLRef t' => HLRef t' (type_ind t')
    | TRRef t' => HRRef t' (type_ind t')
    | TArray c t' => HArray c t' (type_ind t')
    | TFun r ps => HFun r ps (type_ind r) (all ps)
    | TRec c r args =>
        HRec c r args
          ((fix go (l : list targ) : Forall (targ_all P) l :=
              match l with
              | [] => Forall_nil _
              | a :: l' =>
                  Forall_cons _
                    (match a return targ_all P a with
                     | Targ k p =>
                         match k return targ_all P (Targ k p) with
                         | KType t' => type_ind t'
                         | KIntegral t' => type_ind t'
                         | KDecl d o =>
                             match o return targ_all P (Targ (KDecl d o) p) with
                             | Some pr =>
                                 match pr return targ_all P (Targ (KDecl d (Some pr)) p) with
                                 | (ret, ps) => conj (type_ind ret) (all ps)
                                 end
                             | None => I
                             end
                         | KTemplate _ => I
                         | KPack _ => I
                         | KOther => I
                         end
                     end) (go l')
              end) args)
    | TEnum c e => HEnum c e
    | TSugar c n t' => HSugar c n t' (type_ind t')
    | TDep c n => HDep c n
    end.
End TypeInduction.

Lemma fine_skip_rec w r deps : Forall fine deps -> fine (skip_rec_with w r deps).
Proof.
  intros F; unfold skip_rec_with; cbv zeta; repeat (apply fine_if; [apply fine_ok|]).
  apply fine_bind; [apply fine_ns_skip|]; intros b _; apply fine_or_all; assumption.
Qed.
Lemma fine_skip_type w t : forall s, fine (skip_type w s t).
Proof.
  induction t using type_ind; intros s; cbn [skip_type]; try apply fine_ok; try (destruct s; [apply fine_ok|auto]; fail); auto.
  apply fine_skip_rec. rewrite Forall_forall in *; intros x Hx; apply in_flat_map in Hx; destruct Hx as [[[] p] [Ha Hx]]; cbn in Hx; try contradiction.
  destruct Hx as [<-|[]]; apply (H _ Ha).
Qed.
Lemma fine_skip_q w t : fine (is_skipping_requested_q w t). Proof. apply fine_skip_type. Qed.
Lemma Forall_map_fine {A B} (f : A -> result B) l : (forall x, fine (f x)) -> Forall fine (map f l).
Proof. intros F; apply Forall_forall; intros x Hx; apply in_map_iff in Hx; destruct Hx as [y [<- _]]; auto. Qed.
Lemma fine_skip_class w r : fine (is_skipping_requested_rec w r).
Proof. unfold is_skipping_requested_rec; apply fine_skip_rec, Forall_map_fine; intros; apply fine_skip_q. Qed.
Lemma fine_bind_class_req w r : fine (is_binding_requested_rec w r).
Proof.
  unfold is_binding_requested_rec; cbv zeta; repeat (apply fine_if; [apply fine_ok|]).
  apply fine_bind; [apply fine_ns_bind|]; intros b _.
  apply fine_bind; [apply fine_or_all, Forall_map_fine; intros; apply fine_skip_q|]; intros; apply fine_ok.
Qed.
Lemma fine_bind_type w t : forall s, fine (bind_type w s t).
Proof.
  induction t using type_ind; intros s; cbn [bind_type]; try apply fine_ok; try (destruct s; [apply fine_ok|auto]; fail); auto.
  apply fine_bind_class_req.
Qed.
Lemma fine_skip_fun w F : fine (is_skipping_requested_fun w F).
Proof.
  unfold is_skipping_requested_fun; cbv zeta; repeat (apply fine_if; [apply fine_ok|]).
  apply fine_bind; [apply fine_ns_skip|]; intros b _; apply fine_or_all, Forall_map_fine; intros; apply fine_skip_q.
Qed.
Lemma fine_bind_fun_req w F : fine (is_binding_requested_fun w F).
Proof.
  unfold is_binding_requested_fun; apply fine_if; [apply fine_ok|].
  apply fine_bind; [apply fine_ns_bind|]; intros b _; apply fine_or_all, Forall_map_fine; intros; apply fine_bind_type.
Qed.
Lemma fine_skip_enum w e : fine (is_skipping_requested_enum w e).
Proof. unfold is_skipping_requested_enum; cbv zeta; repeat (apply fine_if; [apply fine_ok|]); apply fine_ns_skip. Qed.
Lemma fine_skip_decl w d : fine (skip_decl w d).
Proof. destruct d; cbn [skip_decl]; [apply fine_skip_fun|apply fine_skip_class|apply fine_skip_enum]. Qed.
Lemma fine_bind_decl w d : fine (bind_decl w d).
Proof.
  destruct d; cbn [bind_decl]; [apply fine_bind_fun_req|apply fine_bind_class_req|].
  unfold is_binding_requested_enum; apply fine_if; [discriminate|apply fine_ns_bind].
Qed.
Lemma fine_request_type w t : fine (request_type w t).
Proof.
  induction t using type_ind; cbn [request_type]; cbv zeta; apply fine_bind; try apply fine_skip_q; intros b _;
    apply fine_if; try apply fine_ok; apply fine_bind; auto; intros; apply fine_ok.
Qed.
Lemma fine_request_types w l : fine (request_types w l).
Proof.
  induction l as [|t l IH]; cbn [request_types]; [apply fine_ok|].
  apply fine_bind; [apply fine_request_type|]; intros; apply fine_bind; [assumption|]; intros; apply fine_ok.
Qed.
Lemma fine_bind_overload w F n q p u : fine (bind_overload w F n q p u).
Proof.
  unfold bind_overload; cbv zeta; destruct (function_expression _ _ _ _ _).
  apply fine_bind; [apply fine_if; [apply fine_request_types|apply fine_ok]|]; intros; apply fine_ok.
Qed.
Lemma fine_bind_function w m F p u : fine (bind_function w m F p u).
Proof.
  unfold bind_function; apply fine_bind.
  - apply fine_emit_map; intros n _; apply fine_bind; [apply fine_bind_overload|]; intros [s r] _; apply fine_ok.
  - intros [s r] _; apply fine_ok.
Qed.
Lemma fine_bind_enum w m e : fine (bind_enum w m e).
Proof. unfold bind_enum; apply fine_bind; [apply fine_local|]; intros; apply fine_ok. Qed.
Lemma fine_plain w F : fine (plain_method_ok w F).
Proof. unfold plain_method_ok; apply fine_and, fine_bind; [apply fine_skip_fun|]; intros; apply fine_ok. Qed.
Lemma fine_members w r : fine (binding_public_member_functions w r).
Proof.
  unfold binding_public_member_functions; apply fine_bind.
  - unfold exposed_methods; cbv zeta; apply fine_filter; intros [f [x|]] _; cbn [candidate_ok];
      [apply fine_plain|unfold public_method_ok; apply fine_and, fine_plain].
  - intros l _; apply fine_emit_map; intros [f p] _; apply fine_bind_function.
Qed.

(** ** Recursions over base classes *)

(** [R] has a rank function below [n]. *)
Definition bounded (R : nat -> nat -> Prop) (n : nat) : Prop :=
  exists rank : nat -> nat, (forall r c, R r c -> rank c < rank r) /\ forall r, rank r < n.

Section Hierarchy.
  Context (w : world) (rank : nat -> nat).
  Hypothesis Hrank : forall r c, inherits w r c -> rank c < rank r.

  Lemma base_lower r b c : In b (r_bases (rec_ w r)) -> base_record b = Some c -> rank c < rank r.
  Proof. intros Hb Hc; apply Hrank; exists b; auto. Qed.
  Lemma fine_shared fuel : forall r, rank r < fuel -> fine (inherits_enable_shared fuel w r).
  Proof.
    induction fuel as [|fuel IH]; intros r Hr; [lia|]; cbn [inherits_enable_shared]; cbv zeta.
    apply fine_if; [apply fine_ok|]; apply fine_if; [|apply fine_ok].
    apply fine_exists; intros b Hb; destruct (base_record b) eqn:E; [|apply fine_ok].
    apply IH; pose proof (base_lower _ _ _ Hb E); lia.
  Qed.
  Lemma fine_template_bases fuel : forall r, rank r < fuel -> fine (binding_template_bases fuel w r).
  Proof.
    induction fuel as [|fuel IH]; intros r Hr; [lia|]; cbn [binding_template_bases]; cbv zeta.
    apply fine_if; [|apply fine_ok].
    apply fine_emit_map; intros b Hb; apply fine_if; [|apply fine_ok].
    destruct (base_record b) eqn:E; [|apply fine_ok].
    apply fine_bind; [apply fine_skip_class|]; intros k _; apply fine_if; [apply fine_ok|].
    apply fine_bind; [apply fine_members|]; intros [s1 q1] _.
    apply fine_bind; [apply IH; pose proof (base_lower _ _ _ Hb E); lia|]; intros [s2 q2] _; apply fine_ok.
  Qed.
  Lemma fine_needed fuel : forall r, rank r < fuel -> fine (is_callback_structure_needed fuel w r).
  Proof.
    induction fuel as [|fuel IH]; intros r Hr; [lia|]; cbn [is_callback_structure_needed]; cbv zeta.
    repeat (apply fine_if; [apply fine_ok|]).
    apply fine_exists; intros b Hb; apply fine_if; [apply fine_ok|].
    destruct (base_record b) eqn:E; [|apply fine_ok].
    apply IH; pose proof (base_lower _ _ _ Hb E); lia.
  Qed.
  Lemma fine_constructible fuel : forall r, rank r < fuel -> fine (is_callback_structure_constructible fuel w r).
  Proof.
    induction fuel as [|fuel IH]; intros r Hr; [lia|]; cbn [is_callback_structure_constructible]; cbv zeta.
    apply fine_if; [|apply fine_ok].
    apply fine_bind.
    { apply fine_exists; intros m _; unfold blocking_method; apply fine_and, fine_if; [apply fine_ok|apply fine_skip_fun]. }
    intros b0 _; apply fine_if; [apply fine_ok|].
    apply fine_bind; [|intros; apply fine_ok].
    apply fine_exists; intros b Hb; destruct (base_record b) eqn:E; [|apply fine_ok].
    apply fine_if; [apply fine_ok|].
    apply fine_bind; [apply IH; pose proof (base_lower _ _ _ Hb E); lia|]; intros; apply fine_ok.
  Qed.
  Lemma fine_default fuel : forall r, rank r < fuel -> fine (base_default_available fuel w r).
  Proof.
    induction fuel as [|fuel IH]; intros r Hr; [lia|]; cbn [base_default_available]; cbv zeta.
    apply fine_bind; [|intros; apply fine_ok].
    apply fine_exists; intros b Hb; destruct (base_record b) eqn:E; [|apply fine_ok].
    repeat (apply fine_if; [apply fine_ok|]).
    apply fine_bind; [apply IH; pose proof (base_lower _ _ _ Hb E); lia|]; intros; apply fine_ok.
  Qed.
  Lemma fine_callback_methods r cn l : forall st, fine (callback_methods w r cn l st).
  Proof.
    induction l as [|m l IH]; intros st; cbn [callback_methods]; cbv zeta; [apply fine_ok|].
    apply fine_bind.
    { unfold callback_candidate; apply fine_and, fine_bind; [apply fine_skip_fun|]; intros; apply fine_ok. }
    intros ok _; apply fine_if; [|apply IH]; apply fine_if; [apply IH|].
    destruct (overrider_text _ _ _ _ _); apply fine_bind; [apply IH|]; intros [os st2] _; apply fine_ok.
  Qed.
  Lemma fine_overriders fuel : forall r cn st, rank r < fuel -> fine (callback_overriders fuel w r cn st).
  Proof.
    induction fuel as [|fuel IH]; intros r cn st Hr; [lia|]; cbn [callback_overriders]; cbv zeta.
    apply fine_bind; [apply fine_callback_methods|]; intros [own st1] _.
    apply fine_bind; [|intros [rest st2] _; apply fine_ok].
    assert (Hl : forall b, In b (r_bases (rec_ w r)) -> forall c, base_record b = Some c -> rank c < fuel)
      by (intros b Hb c E; pose proof (base_lower _ _ _ Hb E); lia).
    revert st1 Hl; induction (r_bases (rec_ w r)) as [|b l IHl]; intros st1 Hl; [apply fine_ok|].
    apply fine_bind.
    { apply fine_if; [apply fine_ok|]; destruct (base_record b) eqn:E; [|apply fine_ok]; apply IH; eapply Hl; [left; reflexivity|assumption]. }
    intros [os st'] _; apply fine_bind; [apply IHl; intros; eapply Hl; [right|]; eassumption|].
    intros [os' st''] _; apply fine_ok.
  Qed.
End Hierarchy.

(** A class nested in [r], as declared or by its definition. *)
Definition nested_in (w : world) (r i : nat) : Prop :=
  In i (nested_classes w (rec_ w r)) \/ In i (bound_nested w (rec_ w r)).

Section Classes.
  Context (w : world).
  Hypothesis Hbases : bounded (inherits w) (e_fuel (wenv w)).
  Hypothesis Hnested : bounded (nested_in w) (e_fuel (wenv w)).

  Lemma fine_ctor_overload ci T n q : fine (bind_ctor_overload w ci T n q).
  Proof.
    unfold bind_ctor_overload; apply fine_if.
    - apply fine_bind; [apply fine_if; [apply fine_request_types|apply fine_ok]|]; intros; apply fine_ok.
    - destruct (function_arguments_for_lambda _ _ _); apply fine_ok.
  Qed.
  Lemma fine_constructor ci T : fine (bind_constructor w ci T).
  Proof.
    unfold bind_constructor; apply fine_emit_map; intros n _; apply fine_bind; [apply fine_ctor_overload|].
    intros [s q] _; apply fine_ok.
  Qed.
  Lemma fine_ctors r ci : fine (bind_ctors w r ci).
  Proof.
    unfold bind_ctors; cbv zeta; apply fine_bind.
    { apply fine_filter; intros t _; unfold ctor_ok; apply fine_and, fine_bind; [apply fine_skip_fun|]; intros; apply fine_ok. }
    intros own _; apply fine_bind.
    { apply fine_emit_map; intros t _; unfold bind_declared_ctor; repeat (apply fine_if; [apply fine_ok|]); apply fine_constructor. }
    intros [s1 q1] _; apply fine_bind.
    { apply fine_emit_map; intros t _; unfold bind_lifted_ctor; repeat (apply fine_if; [apply fine_ok|]); apply fine_constructor. }
    intros [s2 q2] _; apply fine_bind; [|intros; apply fine_ok].
    apply fine_if; [|apply fine_ok]; destruct Hbases as [rank [H1 H2]]; eapply fine_default; eauto.
  Qed.
  Lemma fine_bind_enums l : fine (bind_enums w l).
  Proof.
    induction l as [|e l IH]; cbn [bind_enums]; [apply fine_ok|].
    apply fine_bind; [apply fine_skip_enum|]; intros k _; apply fine_bind.
    { apply fine_if; [apply fine_ok|]; apply fine_bind; [apply fine_bind_enum|]; intros; apply fine_ok. }
    intros s _; apply fine_bind; [assumption|]; intros; apply fine_ok.
  Qed.
  Lemma fine_prefix r : fine (generate_prefix_code w r).
  Proof.
    unfold generate_prefix_code; cbv zeta; apply fine_bind; [|intros [os st] _; apply fine_ok].
    destruct Hbases as [rank [H1 H2]]; eapply fine_overriders; eauto.
  Qed.
  Lemma fine_base_ok b : fine (base_ok w b).
  Proof.
    unfold base_ok; apply fine_if; [|apply fine_ok]; destruct (base_record b); [|apply fine_ok].
    apply fine_and, fine_bind; [apply fine_skip_class|]; intros; apply fine_ok.
  Qed.
  Lemma fine_holder r : fine (holder w r).
  Proof.
    unfold holder; cbv zeta; apply fine_bind.
    - destruct Hbases as [rank [H1 H2]]; eapply fine_shared; eauto.
    - intros b _; apply fine_if; [apply fine_ok|]; destruct (r_dtor _); apply fine_ok.
  Qed.

  Lemma fine_bind_class_fuel ops rank : (forall r i, nested_in w r i -> rank i < rank r) ->
    forall fuel r, rank r < fuel -> fine (bind_class fuel w ops r).
  Proof.
    intros Hr; induction fuel as [|fuel IH]; intros r Hl; [lia|]; cbn [bind_class]; cbv zeta.
    apply fine_if; [apply fine_ok|].
    destruct (lookup _ _); [apply fine_ok|].
    destruct Hbases as [brank [H1 H2]].
    apply fine_bind; [eapply fine_needed; eauto|]; intros cb _.
    apply fine_bind; [apply fine_if; [eapply fine_constructible; eauto|apply fine_ok]|]; intros tr _.
    apply fine_bind; [apply fine_if; [apply fine_prefix|apply fine_ok]|]; intros [p0 i0] _.
    apply fine_bind; [apply fine_holder|]; intros hold _.
    apply fine_bind; [apply fine_local|]; intros loc _.
    apply fine_bind.
    { apply fine_if; [|apply fine_ok].
      apply fine_bind; [apply fine_filter; intros; apply fine_base_ok|]; intros bs _.
      apply fine_bind; [apply fine_request_types|]; intros; apply fine_ok. }
    intros [[head deps] q0] _.
    apply fine_bind; [apply fine_if; [apply fine_ctors|apply fine_ok]|]; intros [s1 q1] _.
    apply fine_bind; [apply fine_bind_enums|]; intros s2 _.
    apply fine_bind; [apply fine_members|]; intros [s3 q3] _.
    apply fine_bind; [eapply fine_template_bases; eauto|]; intros [s4 q4] _.
    destruct (bind_repr w ops r) as [s5 i5].
    apply fine_bind; [|intros [[s7 p7] q7] _; apply fine_ok].
    assert (Hi : forall i, In i (bound_nested w (rec_ w r)) -> rank i < fuel)
      by (intros i Hi; specialize (Hr r i (or_intror Hi)); lia).
    assert (Hover : forall l, (forall i, In i l -> rank i < fuel) ->
      fine ((fix over (l : list nat) : result (str * str * list str) :=
               match l with
               | [] => Ok ([], [], [])
               | i :: l' =>
                   do b <- bind_class fuel w ops i;
                   do (s, p, q) <- over l';
                   Ok (cb_code b ++ [nl] ++ s, cb_prefix b ++ p, cb_req b ++ q)
               end) l)).
    { clear Hi; induction l as [|i l IHl]; intros Hi; [apply fine_ok|].
      apply fine_bind; [apply IH, Hi; left; reflexivity|]; intros b _.
      apply fine_bind; [apply IHl; intros; apply Hi; right; assumption|]; intros [[s p] q] _; apply fine_ok. }
    specialize (Hover _ Hi); destruct (bound_nested w (rec_ w r)) as [|i0' l0]; [apply fine_ok|exact Hover].
  Qed.
  Lemma fine_generate ops d : fine (generate_code w ops d).
  Proof.
    destruct d as [f|r|e]; cbn [generate_code].
    - apply fine_bind; [|intros [s q] _; apply fine_ok].
      unfold bind_fun; apply fine_bind; [apply fine_bind_function|]; intros [s q] _; apply fine_ok.
    - destruct Hnested as [rank [H1 H2]]; eapply fine_bind_class_fuel; eauto.
    - apply fine_bind; [|intros; apply fine_ok].
      unfold bind_enum_binder; apply fine_bind; [apply fine_bind_enum|]; intros; apply fine_ok.
  Qed.
End Classes.
