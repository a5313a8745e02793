(** The definitions in a Python class and the text of the class. *)
From Coq Require Import Ascii String Bool Arith NArith Lia.
From Coq Require Import List.
From Verif Require Import Str StrFacts SpecUtil Util UtilFacts Config Ast Types Func Enum Includes Class Context SpecTypes SpecBind SpecClass SpecContext SpecOutput SpecImport
  TypesFacts BindFacts ClassFacts ContextFacts ImportFacts ImportText PropertiesTypes SpecAttributes.
Import ListNotations.

Local Opaque standard_name class_qualified_name python_class_name namespace_from_named_decl.

Definition told (l : list attribute) (s : str) : Prop :=
  exists ts, Forall2 defined_by l ts /\ ((forall t, In t ts -> ~ In nl t) -> in_order ts s).
Lemma told_none s : told [] s.
Proof. exists []. split; [constructor|]. intros _. constructor. Qed.
Lemma told_app l1 s1 l2 s2 : told l1 s1 -> told l2 s2 -> told (l1 ++ l2) (s1 ++ s2).
Proof.
  intros [t1 [F1 O1]] [t2 [F2 O2]]. exists (t1 ++ t2). split; [apply Forall2_app; assumption|]. intros N.
  apply in_order_app; [apply O1|apply O2]; intros t T; apply N, in_or_app; auto.
Qed.
Lemma told_before l s x : told l s -> told l (x ++ s).
Proof. intros [t [F O]]. exists t. split; [exact F|]. intros N. apply in_order_before, O, N. Qed.
Lemma told_more l s x : told l s -> told l (s ++ x).
Proof. intros [t [F O]]. exists t. split; [exact F|]. intros N. apply in_order_more, O, N. Qed.
Lemma told_indent l s ind : told l s -> told l (indent s ind).
Proof. intros [t [F O]]. exists t. split; [exact F|]. intros N. apply in_order_indent, O, N. exact N. Qed.
Lemma told_one a t x y : defined_by a t -> told [a] (x ++ t ++ y).
Proof. intros D. exists [t]. split; [repeat constructor; exact D|]. intros _. apply in_order_one. Qed.

(** Enums. *)
Lemma values_told (vs : list (str * str)) : told (map (fun v => Value (fst v)) vs) (concat (map (fun v => enum_entry (fst v) (snd v)) vs)).
Proof.
  induction vs as [|v vs IH]; [apply told_none|]. cbn [map concat]. change (?a :: ?l) with ([a] ++ l). apply told_app; [|exact IH].
  unfold enum_entry.
  replace ([nl; tab; tab] ++ _) with ([nl; tab; tab] ++ ($".value(" ++ quoted (fst v) ++ $", ") ++ (snd v ++ $")")); [|rewrite <- !app_assoc; reflexivity].
  apply told_one, DB_enumerator.
Qed.
Lemma enum_told w e t : enum_text w $"cl" e t -> told (enum_attributes e) t.
Proof.
  intros [local [_ ->]]. unfold enum_attributes. change (Type_ ?n :: ?l) with ([Type_ n] ++ l). apply told_app.
  - unfold enum_head. set (q := (if e_scoped e then [] else _) ++ _). clearbody q.
    replace ([tab] ++ _) with ([tab] ++ ($"pybind11::enum_<" ++ n_qname (e_decl e) ++ $">(cl, " ++ quoted (n_name (e_decl e))) ++ q).
    + apply told_one, DB_enum.
    + repeat rewrite <- app_assoc. reflexivity.
  - destruct (e_class_tag e); [apply told_none|]. apply told_more, values_told.
Qed.
(** Data members. *)
Lemma field_told w cls f t : field_line w cls f t -> told [field_attribute f] t.
Proof.
  intros [owner how O1 H1 H2]. unfold field_attribute.
  assert (X : In how [$"readonly"; $"readwrite"]).
  { pose proof (frozen_iff w f) as I. destruct (is_const (fd_type f) || negb (is_field_assignable w f)).
    - left. symmetry. apply H1, I. reflexivity.
    - right. left. symmetry. apply H2. intros X. apply I in X. discriminate X. }
  replace ([tab] ++ _) with ([tab] ++ ($"cl.def_" ++ how ++ $"(" ++ quoted (n_name (fd_decl f)) ++ $", ") ++ ($"&" ++ owner ++ $"::" ++ n_name (fd_decl f) ++ $");" ++ [nl])).
  - apply told_one, DB_field, X.
  - repeat rewrite <- app_assoc. reflexivity.
Qed.
Lemma fields_told w cls fs ts : Forall2 (field_line w cls) fs ts -> told (map field_attribute fs) (concat ts).
Proof. induction 1 as [|f t fs ts H F IH]; [apply told_none|]. cbn [map concat]. change (?a :: ?l) with ([a] ++ l). apply told_app; [exact (field_told _ _ _ _ H)|exact IH]. Qed.
(** Functions. *)
Lemma python_name_same w F a b : python_name w F a -> python_name w F b -> a = b.
Proof.
  intros [x [-> X]] [y [-> Y]]. f_equal.
  destruct X as [[X1 X2]|[[X1 [-> X2]]|[X1 ->]]], Y as [[Y1 Y2]|[[Y1 [-> Y2]]|[Y1 ->]]]; try congruence.
  - exact (C44_one_name _ _ _ _ X2 Y2).
  - destruct (Y2 _ X2).
  - destruct (X2 _ Y2).
Qed.
Lemma def_told w F n lifted lambda l name : def_line w F n lifted lambda l -> python_name w F name -> told [Method (is_static F) name] ([tab] ++ $"cl" ++ l ++ [nl]).
Proof.
  intros [name' expr doc pol guard PN _ _ _ _] PN'. rewrite (python_name_same _ _ _ _ PN' PN).
  set (q := expr ++ _). clearbody q.
  replace ([tab] ++ _) with ([tab] ++ ($"cl.def" ++ (if is_static F then $"_static" else []) ++ $"(" ++ quoted name' ++ $", ") ++ (q ++ [nl])).
  - apply told_one, DB_method.
  - repeat rewrite <- app_assoc. reflexivity.
Qed.
Lemma lines_told w F lifted lambda name : python_name w F name -> forall ls k,
  (forall i l, nth_error ls i = Some l -> def_line w F (k + i) lifted lambda l) ->
  told (repeat (Method (is_static F) name) (length ls)) (concat (map (fun l => [tab] ++ $"cl" ++ l ++ [nl]) ls)).
Proof.
  intros PN. induction ls as [|l ls IH]; intros k H; [apply told_none|]. cbn [length repeat map concat]. change (?a :: ?x) with ([a] ++ x). apply told_app.
  - apply (def_told w F (k + 0) lifted lambda l name); [apply (H 0); reflexivity|exact PN].
  - apply (IH (S k)). intros i x X. rewrite plus_Sn_m, plus_n_Sm. apply (H (S i)). exact X.
Qed.
Lemma method_told w c t : method_text w c t -> exists l, method_attributes w c l /\ told l t.
Proof.
  intros [k [ls [SA [LL [H ->]]]]].
  exists (repeat (Method (is_static (fun_ w (fst c))) ((if f_method (fun_ w (fst c)) && f_static (fun_ w (fst c)) then strs (wcfg w) prefix_for_static_member_functions else []) ++ python_function_name (fun_ w (fst c)))) (length ls)).
  split.
  - eexists k, _. split; [exact SA|]. split; [apply python_name_spec|]. rewrite LL. reflexivity.
  - apply told_before. eapply lines_told; [apply python_name_spec|exact H].
Qed.
Lemma methods_told w cs ts : Forall2 (method_text w) cs ts -> exists ms, Forall2 (method_attributes w) cs ms /\ told (concat ms) (concat ts).
Proof.
  induction 1 as [|c t cs ts H F IH]; [exists []; split; [constructor|apply told_none]|]. destruct IH as [ms [F' T]]. destruct (method_told w c t H) as [l [M T']].
  exists (l :: ms). split; [constructor; assumption|]. cbn [concat]. apply told_app; assumption.
Qed.
Lemma members_told w r d m : data_text w r d -> methods_text w r m -> exists l, member_attributes w r l /\ told l (d ++ m).
Proof.
  intros [fs [ls [X [F ->]]]] [cs [ts [C [M ->]]]]. destruct (methods_told w cs ts M) as [ms [M' T]].
  exists (map field_attribute fs ++ concat ms). split; [exists fs, cs, ms; auto|]. apply told_app; [exact (fields_told _ _ _ _ F)|exact T].
Qed.
Lemma folded_told w r s : folded_text w r s -> exists bases ls, folded_bases w r bases /\ Forall2 (member_attributes w) bases ls /\ told (concat ls) s.
Proof.
  intros [l [ts [FB [F ->]]]]. exists l. assert (X : exists ls, Forall2 (member_attributes w) l ls /\ told (concat ls) (concat ts)).
  { clear FB. induction F as [|R t l ts [d [m [D [M ->]]]] F IH]; [exists []; split; [constructor|apply told_none]|].
    destruct IH as [ls [F' T]]. destruct (members_told w R d m D M) as [x [X1 X2]]. exists (x :: ls). split; [constructor; assumption|]. cbn [concat]. apply told_app; assumption. }
  destruct X as [ls [F' T]]. eauto.
Qed.
Lemma printing_told (cq x : str) : told [Method false $"__str__"] ([nl; tab] ++ $"cl.def(" ++ quoted $"__str__" ++ $", [](" ++ cq ++ x).
Proof.
  assert (E : forall n : str, [nl; tab] ++ $"cl.def(" ++ quoted n ++ $", [](" ++ cq ++ x = [nl; tab] ++ ($"cl.def" ++ (if false then $"_static" else []) ++ $"(" ++ quoted n ++ $", ") ++ ($"[](" ++ cq ++ x)).
  { intros n. rewrite <- !app_assoc. reflexivity. }
  rewrite E. apply told_one, DB_method.
Qed.
Lemma print_told w ops r t incl : str_text w ops r t incl -> told (match incl with [] => [] | _ => [Method false $"__str__"] end) t.
Proof. intros [N|N P|f N P]; [apply told_none|apply told_none|]. unfold printing. cbv zeta. apply printing_told. Qed.
(** The statement of a nested class. *)
Lemma class_line_told w r hold tramp bases local : n_member (r_decl (rec_ w r)) = true ->
  told [Type_ (python_class_name w r)]
    (class_line w r hold tramp bases (if n_member (r_decl (rec_ w r)) then $"enclosing_class" else $"M(" ++ quoted (namespace_from_named_decl w (r_decl (rec_ w r))) ++ $")") local).
Proof.
  intros ->. unfold class_line. cbv zeta. set (p := if mem _ (lists (wcfg w) smart_held_classes) then _ else _). clearbody p.
  set (q := quoted (documentation_string _) ++ _). clearbody q. set (y := concat (map _ bases)). clearbody y. set (z := match tramp with Some t => _ | None => _ end). clearbody z.
  generalize (class_qualified_name w r) (python_class_name w r). intros c n.
  replace (p ++ _) with ((p ++ [tab] ++ $"pybind11::class_<" ++ c ++ hold ++ z ++ y) ++ ($"> cl(enclosing_class, " ++ quoted n ++ $", ") ++ q).
  - apply told_one, DB_class.
  - rewrite <- !app_assoc. reflexivity.
Qed.

(** ** A class *)

Lemma class_told w ops r b : proper_nesting w -> class_binding w ops r b -> exists l, class_attributes w ops r l /\ told l (cb_code b).
Proof.
  intros PN. revert r b. fix IH 3. intros r b H.
  destruct H as [r Py|r binder NP L|r tramp st si hold local bases head ctors enums enum_texts data meths folded pt pi inner inner_bound req NP L _ _ _ HD _ SE FE DT MT FT ST SI F].
  - exists []. split; [apply TA_other; unfold generated; tauto|apply told_none].
  - exists []. split; [apply TA_other; unfold generated; rewrite L; intros [_ X]; discriminate X|apply told_none].
  - destruct (members_told w r data meths DT MT) as [own [O1 O2]]. destruct (folded_told w r folded FT) as [fb [fl [F1 [F2 F3]]]].
    pose proof (print_told w ops r pt pi ST) as P1.
    assert (X : exists ia, Forall2 (fun i l => nested_attributes w ops (definition_of w i) l) inner ia /\ told (concat ia) (concat (map (fun b => cb_code b ++ [nl]) inner_bound))).
    { assert (Fi' : forall i, In i inner -> n_member (r_decl (rec_ w (definition_of w i))) = true).
      { intros i I. apply (pn_member w PN _ r). destruct (proj1 (selection_In _ _ _ SI i) I) as [I1 I2]. exists i. split; [exact I1|]. split; [exact (proj1 I2)|reflexivity]. }
      clear - F IH Fi'. revert Fi'. induction F as [|i b inner inner_bound H F IHF]; intros Fi'; [exists []; split; [constructor|apply told_none]|].
      destruct (IHF (fun j J => Fi' j (or_intror J))) as [ia [X1 X2]].
      assert (Y : exists l, nested_attributes w ops (definition_of w i) l /\ told l (cb_code b)).
      { destruct (r_anon (rec_ w (definition_of w i))) eqn:An.
        - destruct (IH _ _ H) as [l [C1 C2]]. exists l. split; [apply NA_anonymous; assumption|exact C2].
        - pose proof (Fi' i (or_introl eq_refl)) as M.
          destruct H as [r Py|r binder NP L|r tramp st si hold local bases head ctors enums enum_texts data meths folded pt pi inn inn_bound req NP L _ _ _ HD _ _ _ _ _ _ _ _ _].
          + exists []. split; [apply NA_other; [exact An|unfold generated; tauto]|apply told_none].
          + exists []. split; [apply NA_other; [exact An|unfold generated; rewrite L; intros [_ X]; discriminate X]|apply told_none].
          + exists [Type_ (python_class_name w r)]. split; [apply NA_class; [exact An|split; assumption]|]. cbn [cb_code]. rewrite An in HD. destruct HD as [_ ->].
            apply told_indent. do 3 apply told_before. apply told_more. apply class_line_told, M. }
      destruct Y as [l [Y1 Y2]]. exists (l :: ia). split; [constructor; assumption|]. cbn [map concat]. apply told_app; [apply told_more, Y2|exact X2]. }
    destruct X as [ia [X1 X2]].
    assert (Y : told (concat (map (fun e => enum_attributes (enum_ w e)) enums)) (concat (map (fun s => [nl] ++ s) enum_texts))).
    { clear - FE. induction FE as [|e t enums ts H F IHF]; [apply told_none|]. cbn [map concat]. apply told_app; [apply told_before, (enum_told w _ _ H)|exact IHF]. }
    eexists. split; [exact (TA_class w ops r enums own fb fl _ pt pi inner ia (conj NP L) SE O1 F1 F2 ST eq_refl SI X1)|].
    cbn [cb_code]. apply told_indent. do 5 apply told_before. apply told_app; [exact Y|].
    rewrite (app_assoc data meths). apply told_app; [exact O2|]. apply told_app; [exact F3|]. apply told_app; [exact P1|]. apply told_before. apply told_more.
    destruct inner_bound as [|b0 bs]; [inversion F as [Ea Eb|]; subst inner; inversion X1; subst ia; apply told_none|].
    apply told_before, X2.
Qed.
