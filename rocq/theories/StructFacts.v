(** Proofs about whole class bindings and call-back structures. *)
From Coq Require Import Ascii String Bool Arith NArith Lia Relations.
From Coq Require Import List.
From Verif Require Import Str StrFacts SpecUtil SpecConfig Util UtilFacts Config Ast Types Func Enum Includes Class SpecTypes TypesFacts NamesFacts SpecBind BindFacts SpecClass ClassFacts.
Import ListNotations.

Lemma class_binding_inv w ops r b : class_binding w ops r b -> generated w r ->
  exists tramp struct_text struct_incl hold local bases head ctors enums enum_texts data meths folded print_text print_incl inner inner_bound,
    structure_of w r tramp struct_text struct_incl /\
    holder_text w r hold /\ local_to_module w (namespace_from_named_decl w (r_decl (rec_ w r))) local /\
    (if r_anon (rec_ w r) then bases = [] /\ head = []
     else selection (named_base w) (r_bases (rec_ w r)) bases /\
       head = class_line w r hold tramp (base_classes bases)
                (if n_member (r_decl (rec_ w r)) then $"enclosing_class" else $"M(" ++ quoted (namespace_from_named_decl w (r_decl (rec_ w r))) ++ $")") local) /\
    (if r_anon (rec_ w r) || r_abstract (rec_ w r) && (match tramp with None => true | Some _ => false end) then ctors = []
     else constructors_text w r (class_qualified_name w r) tramp ctors) /\
    (selection (bound_enum w) (inner_enums w r) enums /\ Forall2 (fun e s => enum_text w $"cl" (enum_ w e) s) enums enum_texts) /\
    data_text w r data /\ methods_text w r meths /\ folded_text w r folded /\
    str_text w ops r print_text print_incl /\
    (selection (bound_inner w) (inner_classes w r) inner /\ Forall2 (fun i b => class_binding w ops (definition_of w i) b) inner inner_bound) /\
    cb_code b = indent ($"{ " ++ generate_comment_for_declaration w (r_decl (rec_ w r))
          ++ (if n_member (r_decl (rec_ w r)) && negb (r_anon (rec_ w r)) then [tab] ++ $"auto & enclosing_class = cl;" ++ [nl] else [])
          ++ head ++ ctors ++ concat (map (fun s => [nl] ++ s) enum_texts) ++ data ++ meths ++ folded ++ print_text
          ++ add_on_call (lookup (class_name w r) (maps (wcfg w) add_on_binders))
          ++ (match inner_bound with [] => [] | _ => [nl] ++ concat (map (fun b => cb_code b ++ [nl]) inner_bound) end) ++ $"}" ++ [nl]) [tab] /\
    cb_prefix b = struct_text ++ concat (map cb_prefix inner_bound) /\
    cb_incl b = struct_incl ++ print_incl /\ cb_deps b = base_classes bases.
Proof.
  intros H [G1 G2]. destruct H as [r P|r binder P B|r tramp struct_text struct_incl hold local bases head ctors enums enum_texts data meths folded print_text print_incl inner inner_bound req
    NP NB ST HT LT HB CT ES EF DT MT FT RT NS NF].
  - exfalso. exact (G1 P).
  - exfalso. rewrite B in G2. discriminate G2.
  - exists tramp, struct_text, struct_incl, hold, local, bases, head, ctors, enums, enum_texts, data, meths, folded, print_text, print_incl, inner, inner_bound.
    cbn [cb_code cb_prefix cb_incl cb_deps].
    exact (conj ST (conj HT (conj LT (conj HB (conj CT (conj (conj ES EF) (conj DT (conj MT (conj FT (conj RT (conj (conj NS NF) (conj eq_refl (conj eq_refl (conj eq_refl eq_refl)))))))))))))).
Qed.

(** ** The order of the hierarchy *)

Scheme hierarchy_mut := Minimality for hierarchy Sort Prop
with hierarchies_mut := Minimality for hierarchies Sort Prop.
Combined Scheme hierarchy_both from hierarchy_mut, hierarchies_mut.

Lemma hierarchies_sub w bs l : hierarchies w bs l -> forall b R, In b bs -> b_access b <> Private -> base_record b = Some R -> exists l1, hierarchy w R l1 /\ incl l1 l.
Proof.
  induction 1 as [|b bs R l1 l2 A B H1 H2 IH|b bs l N H IH]; intros b' R' Hb A' B'; [destruct Hb| |].
  - destruct Hb as [<-|Hb].
    + rewrite B in B'. injection B' as <-. exists l1. split; [exact H1|]. intros x Hx. apply in_or_app. left. exact Hx.
    + destruct (IH _ _ Hb A' B') as [l3 [H3 I3]]. exists l3. split; [exact H3|]. intros x Hx. apply in_or_app. right. exact (I3 x Hx).
  - destruct Hb as [<-|Hb]; [|exact (IH _ _ Hb A' B')]. exfalso. destruct N as [N|N]; [exact (A' N)|]. rewrite N in B'. discriminate B'.
Qed.
Lemma hierarchy_complete w r c : clos_refl_trans_1n nat (extends w) r c -> forall L, hierarchy w r L -> In c L.
Proof.
  induction 1 as [r|r R c E _ IH]; intros L H; inversion H as [r' l HS]; subst; [left; reflexivity|].
  destruct E as [r b R Hb A B]. destruct (hierarchies_sub w _ _ HS b R Hb A B) as [l1 [H1 I1]]. right. exact (I1 _ (IH _ H1)).
Qed.
Lemma hierarchy_below w r l : hierarchies w (r_bases (rec_ w r)) l -> forall c, descends w r c -> In c l.
Proof.
  intros HS c D. apply clos_trans_t1n in D. destruct D as [c E|R c E D]; destruct E as [r b R Hb A B]; destruct (hierarchies_sub w _ _ HS b R Hb A B) as [l1 [H1 I1]]; apply I1.
  - exact (hierarchy_complete w R R (rt1n_refl _ _ _) _ H1).
  - refine (hierarchy_complete w R c _ _ H1). apply clos_rt_rt1n. apply clos_t1n_trans in D. clear - D. induction D; [apply rt_step; assumption|eapply rt_trans; eassumption].
Qed.
Lemma hierarchy_order w :
  (forall r L, hierarchy w r L -> forall c' c, In c' L -> descends w c' c -> exists L1 L2, L = L1 ++ c' :: L2 /\ In c L2) /\
  (forall bs L, hierarchies w bs L -> forall c' c, In c' L -> descends w c' c -> exists L1 L2, L = L1 ++ c' :: L2 /\ In c L2).
Proof.
  apply hierarchy_both.
  - intros r l HS IH c' c [<-|H] D.
    + exists [], l. split; [reflexivity|]. exact (hierarchy_below w r l HS c D).
    + destruct (IH c' c H D) as [L1 [L2 [-> X]]]. exists (r :: L1), L2. split; [reflexivity|exact X].
  - intros c' c [].
  - intros b bs R l1 l2 _ _ _ IH1 _ IH2 c' c H D. apply in_app_or in H. destruct H as [H|H].
    + destruct (IH1 c' c H D) as [L1 [L2 [-> X]]]. exists L1, (L2 ++ l2). rewrite <- app_assoc. split; [reflexivity|]. apply in_or_app. left. exact X.
    + destruct (IH2 c' c H D) as [L1 [L2 [-> X]]]. exists (l1 ++ L1), L2. rewrite <- app_assoc. split; [reflexivity|exact X].
  - intros b bs l _ _ IH. exact IH.
Qed.
Lemma versions_In w L c m : In (c, m) (versions w L) <-> In c L /\ In (MMethod m) (r_members (rec_ w c)).
Proof.
  unfold versions. rewrite in_flat_map. split.
  - intros [x [Hx Hm]]. apply in_map_iff in Hm. destruct Hm as [y [E Hy]]. injection E as -> ->. split; [exact Hx|]. apply In_methods. exact Hy.
  - intros [A B]. exists c. split; [exact A|]. apply in_map_iff. exists m. split; [reflexivity|]. apply In_methods. exact B.
Qed.
Lemma prefix_before {A} (x : A) : forall a p q b, a ++ p = q ++ x :: b -> ~ In x a -> incl a q.
Proof.
  induction a as [|y a IH]; intros p q b E N; [intros z []|]. destruct q as [|z q]; cbn [app] in E.
  - injection E as -> _. exfalso. apply N. left. reflexivity.
  - injection E as -> E. intros u [<-|Hu]; [left; reflexivity|]. right. apply (IH p q b E); [|exact Hu]. intros X. apply N. right. exact X.
Qed.
(** No class of the hierarchy that descends from the one of the chosen version
    has an overridable version of the signature, if no class occurs twice. *)
Lemma nearest_most_derived w r L c m c' m' s : hierarchy w r L -> NoDup L -> nearest w (versions w L) c m -> virtual_signature w (fun_ w m) s ->
  In c' L -> descends w c' c -> In (MMethod m') (r_members (rec_ w c')) -> overridable w (fun_ w m') -> ~ virtual_signature w (fun_ w m') s.
Proof.
  intros H ND [before [after [s' [E [O [V Q]]]]]] V' Hc D Hm O'. destruct (proj1 (hierarchy_order w) r L H c' c Hc D) as [L1 [L2 [EL X]]].
  rewrite (virtual_signature_unique _ _ _ _ V' V). apply (Q c' m'); [|exact O'].
  assert (P : incl (versions w (L1 ++ [c'])) before).
  { apply (prefix_before (c, m) _ (versions w L2) before after).
    - rewrite <- E, EL, <- versions_app, <- app_assoc. reflexivity.
    - intros Y. apply versions_In in Y. destruct Y as [Y _]. subst L. apply NoDup_remove in ND. destruct ND as [ND1 ND2]. apply in_app_or in Y. destruct Y as [Y|[<-|[]]].
      + clear - ND1 X Y. induction L1 as [|z L1 IH]; [destruct Y|]. cbn [app] in ND1. inversion ND1 as [|z' l' N1 N2]. subst. destruct Y as [->|Y]; [apply N1, in_or_app; right; exact X|exact (IH N2 Y)].
      + apply ND2. apply in_or_app. right. exact X. }
  apply P. apply versions_In. split; [apply in_or_app; right; left; reflexivity|exact Hm].
Qed.
Lemma nearest_unique w l c m c' m' s : nearest w l c m -> nearest w l c' m' -> virtual_signature w (fun_ w m) s -> virtual_signature w (fun_ w m') s -> c = c' /\ m = m'.
Proof.
  intros [b1 [a1 [s1 [E1 [O1 [V1 Q1]]]]]] [b2 [a2 [s2 [E2 [O2 [V2 Q2]]]]]] V V'.
  rewrite (virtual_signature_unique _ _ _ _ V1 V) in *. rewrite (virtual_signature_unique _ _ _ _ V2 V') in *. clear V1 V2.
  rewrite E1 in E2. clear E1. revert b2 E2 Q2. induction b1 as [|x b1 IH]; intros [|y b2] E2 Q2; cbn [app] in E2.
  - injection E2 as -> -> _. split; reflexivity.
  - injection E2 as <- _. exfalso. exact (Q2 c m (or_introl eq_refl) O1 V).
  - injection E2 as -> _. exfalso. exact (Q1 c' m' (or_introl eq_refl) O2 V').
  - injection E2 as <- E2. apply (IH (fun c0 m0 i => Q1 c0 m0 (or_intror i)) b2 E2). intros c0 m0 i. exact (Q2 c0 m0 (or_intror i)).
Qed.
(** ** Pure methods *)

Lemma lacks_descends w r c m : lacks w r c m -> clos_refl_trans_1n nat (extends w) r c /\ In (MMethod m) (r_members (rec_ w c)) /\ f_pure (fun_ w m) = true.
Proof.
  induction 1 as [r m A I P|r R c m A X L [IH1 IH2]]; [split; [apply rt1n_refl|split; assumption]|]. split; [|exact IH2]. exact (Relation_Operators.rt1n_trans _ _ _ _ _ X IH1).
Qed.
Lemma lacks_blocked w r c m : lacks w r c m -> ~ constructor (fun_ w m) ->
  n_access (f_decl (fun_ w m)) = Private \/ unbindable w (fun_ w m) \/ function_skipped w (fun_ w m) -> blocked w r.
Proof.
  induction 1 as [r m A I P|r R c m A X L IH]; intros N B; [exact (BL_own w r m A I P N B)|]. destruct X as [r b R Hb Ac Br]. exact (BL_base w r b R A Hb Br Ac (IH N B)).
Qed.

Lemma generated_ok w r : is_python_builtin w (r_decl (rec_ w r)) = false -> lookup (class_name w r) (maps (wcfg w) Config.binders) = None -> generated w r.
Proof. intros A B. split; [|exact B]. rewrite <- class_name_std. intros X. apply builtin_iff in X. rewrite A in X. discriminate X. Qed.
Lemma has_structure_iff w fuel1 fuel2 r b c : const_is_method w -> is_callback_structure_needed fuel1 w r = Ok b -> is_callback_structure_constructible fuel2 w r = Ok c ->
  (has_structure w r <-> b = true /\ c = true).
Proof. intros Wf N C. unfold has_structure. rewrite <- (needs_iff w Wf _ _ _ N), (constructible_iff w _ _ _ C). tauto. Qed.
