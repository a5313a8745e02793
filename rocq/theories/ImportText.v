(** The registrations and the text of an item. *)
From Coq Require Import Ascii String Bool Arith NArith Lia.
From Coq Require Import List.
From Verif Require Import Str StrFacts SpecUtil Util UtilFacts Config Ast Types Func Enum Includes Class Context SpecTypes SpecBind SpecClass SpecContext SpecOutput SpecImport
  TypesFacts BindFacts ClassFacts ContextFacts ImportFacts.
Import ListNotations.

Local Opaque standard_name class_qualified_name python_class_name namespace_from_named_decl.

Lemma in_order_more l s x : in_order l s -> in_order l (s ++ x).
Proof. induction 1 as [s|a t l s H IH]; [constructor|]. rewrite <- !app_assoc. constructor. exact IH. Qed.
Lemma in_order_before l s x : in_order l s -> in_order l (x ++ s).
Proof. destruct 1 as [s|a t l s H]; [constructor|]. rewrite app_assoc. constructor. exact H. Qed.
Lemma in_order_app l1 s1 l2 s2 : in_order l1 s1 -> in_order l2 s2 -> in_order (l1 ++ l2) (s1 ++ s2).
Proof. intros H1 H2. induction H1 as [s|a t l s H IH]; cbn [app]; [apply in_order_before, H2|]. rewrite <- !app_assoc. constructor. exact IH. Qed.
Lemma in_order_one a t b : in_order [t] (a ++ t ++ b).
Proof. constructor. constructor. Qed.
Lemma in_order_concat {A} (f : A -> list str) (g : A -> str) l : (forall x, In x l -> in_order (f x) (g x)) -> in_order (concat (map f l)) (concat (map g l)).
Proof. induction l as [|x l IH]; intros H; cbn; [constructor|]. apply in_order_app; [apply H; left; reflexivity|apply IH; intros y I; apply H; right; exact I]. Qed.

(** A text without line ends that occurs in two lines occurs in one of them. *)
Lemma split_at_nl : forall (a x t s b : str), ~ In nl t -> x ++ t ++ s = a ++ nl :: b ->
  (exists y, x = a ++ nl :: y /\ b = y ++ t ++ s) \/ (exists y, a = x ++ t ++ y /\ s = y ++ nl :: b).
Proof.
  induction a as [|c a IH]; intros x t s b N E.
  - destruct x as [|d x]; cbn in E.
    + destruct t as [|d t]; cbn in E.
      * right. exists []. auto.
      * injection E as -> _. exfalso. apply N. left. reflexivity.
    + injection E as -> E. left. exists x. auto.
  - destruct x as [|d x].
    + destruct t as [|d t]; cbn in E.
      * right. exists (c :: a). split; [reflexivity|exact E].
      * injection E as -> E. destruct (IH [] t s b (fun H => N (or_intror H)) E) as [[y [H _]]|[y [H1 H2]]]; [destruct a; discriminate H|].
        right. exists y. cbn in H1. cbn. rewrite H1. auto.
    + cbn in E. injection E as -> E. destruct (IH x t s b N E) as [[y [H1 H2]]|[y [H1 H2]]].
      * left. exists y. rewrite H1. auto.
      * right. exists y. rewrite H1. auto.
Qed.
Lemma in_order_split l s : in_order l s -> (forall t, In t l -> ~ In nl t) -> forall a b, s = a ++ nl :: b ->
  exists l1 l2, l = l1 ++ l2 /\ in_order l1 a /\ in_order l2 b.
Proof.
  induction 1 as [s|x t l s H IH]; intros N a b E.
  - exists [], []. repeat split; constructor.
  - destruct (split_at_nl a x t s b (N t (or_introl eq_refl)) E) as [[y [-> ->]]|[y [-> ->]]].
    + exists [], (t :: l). split; [reflexivity|]. split; [constructor|]. constructor. exact H.
    + destruct (IH (fun u I => N u (or_intror I)) y b eq_refl) as [l1 [l2 [-> [H1 H2]]]]. exists (t :: l1), l2. split; [reflexivity|]. split; [constructor; exact H1|exact H2].
Qed.
Lemma in_order_indent_line l s ind : in_order l s -> in_order l (indent_line ind s ++ [nl]).
Proof. intros H. apply in_order_more. destruct s; [exact H|]. apply in_order_before, H. Qed.
Lemma in_order_indent l s ind : (forall t, In t l -> ~ In nl t) -> in_order l s -> in_order l (indent s ind).
Proof.
  intros N H. rewrite indent_concat. destruct (split_pieces nl s) as [ts [r [E [Np ->]]]]. rewrite map_app, concat_app. rewrite E in H. clear E s Np.
  assert (G : forall ls, (forall t, In t ls -> ~ In nl t) -> in_order ls (concat (map (fun p => p ++ [nl]) ts) ++ r) ->
    exists l1 l2, ls = l1 ++ l2 /\ in_order l1 (concat (map (fun l => indent_line ind l ++ [nl]) ts)) /\ in_order l2 r).
  { clear. induction ts as [|p ts IH]; intros ls M X.
    - exists [], ls. split; [reflexivity|]. split; [constructor|exact X].
    - cbn [map concat] in X. rewrite <- !app_assoc in X. cbn [app] in X.
      destruct (in_order_split _ _ X M _ _ eq_refl) as [l1 [l2 [-> [X1 X2]]]].
      destruct (IH l2 (fun t I => M t (in_or_app _ _ _ (or_intror I))) X2) as [l3 [l4 [-> [X3 X4]]]].
      exists (l1 ++ l3), l4. split; [rewrite app_assoc; reflexivity|]. split; [|exact X4]. cbn [map concat]. apply in_order_app; [apply in_order_indent_line, X1|exact X3]. }
  destruct (G l N H) as [l1 [l2 [-> [X1 X2]]]]. destruct r as [|c r].
  - cbn [map concat]. rewrite app_nil_r. inversion X2 as [s Ea Eb|a t l s X3 Ea Eb].
    + rewrite app_nil_r. exact X1.
    + destruct a; [|discriminate Eb]. destruct t; [|discriminate Eb]. destruct s; [|discriminate Eb].
      rewrite <- (app_nil_r (concat _)). apply in_order_app; [exact X1|]. rewrite Ea. exact X2.
  - cbn [map concat]. rewrite app_nil_r. apply in_order_app; [exact X1|]. apply in_order_indent_line, X2.
Qed.

(** ** Statements *)

Definition fits (w : world) (s : scope) (r : nat) : Prop :=
  match s with
  | InModule ns => n_member (r_decl (rec_ w r)) = false /\ ns = namespace_from_named_decl w (r_decl (rec_ w r)) /\ r_anon (rec_ w r) = false
  | InClass _ => n_member (r_decl (rec_ w r)) = true
  end.
Lemma class_line_statement w r hold tramp bases s local : fits w s r ->
  exists t, statement w (Register (EClass r) bases s (python_class_name w r)) t /\
    in_order [t] (class_line w r hold tramp bases (if n_member (r_decl (rec_ w r)) then $"enclosing_class" else $"M(" ++ quoted (namespace_from_named_decl w (r_decl (rec_ w r))) ++ $")") local).
Proof.
  intros Fi. eexists. split; [exact (SM_class w r bases s (python_class_name w r) hold (match tramp with Some t => $", " ++ t | None => [] end))|].
  assert (E : (if n_member (r_decl (rec_ w r)) then $"enclosing_class" else $"M(" ++ quoted (namespace_from_named_decl w (r_decl (rec_ w r))) ++ $")")
              = match s with InModule ns => module_text ns | InClass _ => $"enclosing_class" end).
  { destruct s; cbn [fits] in Fi; [destruct Fi as [-> [-> _]]; reflexivity|rewrite Fi; reflexivity]. }
  rewrite E. clear E. unfold class_line. cbv zeta.
  set (p := if mem _ (lists (wcfg w) smart_held_classes) then _ else _). clearbody p.
  set (q := $", " ++ quoted (documentation_string _) ++ _). clearbody q.
  replace (p ++ [tab] ++ _) with ((p ++ [tab]) ++ ($"pybind11::class_<" ++ class_qualified_name w r ++ hold ++ (match tramp with Some t => $", " ++ t | None => [] end) ++ concat (map (fun c => $", " ++ class_qualified_name w c) bases)
     ++ $"> cl(" ++ (match s with InModule ns => module_text ns | InClass _ => $"enclosing_class" end) ++ $", " ++ quoted (python_class_name w r)) ++ q).
  - apply in_order_one.
  - repeat rewrite <- app_assoc. reflexivity.
Qed.
Lemma enum_statement w m e t s : enum_text w m (enum_ w e) t -> m = (match s with InModule ns => module_text ns | InClass _ => $"cl" end) ->
  exists u, statement w (register_enum w s e) u /\ in_order [u] t.
Proof.
  intros [local [_ ->]] ->. eexists. split; [exact (SM_enum w e s (n_name (e_decl (enum_ w e))))|].
  unfold enum_head. set (q := (if e_scoped (enum_ w e) then [] else _) ++ _). clearbody q.
  set (x := concat (map _ (e_values (enum_ w e))) ++ _). clearbody x.
  match goal with |- in_order [?u] _ => replace (([tab] ++ _) ++ x) with ([tab] ++ u ++ (q ++ x)) end; [apply in_order_one|].
  repeat rewrite <- app_assoc. reflexivity.
Qed.
Lemma call_statement w r binder :
  exists t, statement w (Delegate (namespace_from_named_decl w (r_decl (rec_ w r))) r) t /\ in_order [t] (binder_call w r binder).
Proof.
  eexists. split; [exact (SM_binder w (namespace_from_named_decl w (r_decl (rec_ w r))) r binder)|]. unfold binder_call.
  set (c := generate_comment_for_declaration w (r_decl (rec_ w r))). clearbody c. set (x := concat (map _ _) ++ _). clearbody x.
  generalize (standard_name w (rec_specialization (rec_ w r))) (namespace_from_named_decl w (r_decl (rec_ w r))). intros y z. unfold module_text.
  match goal with |- in_order [?u] _ => replace ([tab] ++ _) with (([tab] ++ c ++ [tab]) ++ u ++ x) end; [apply in_order_one|].
  repeat rewrite <- app_assoc. reflexivity.
Qed.
Lemma class_statements w ops r b s : proper_nesting w -> class_binding w ops r b -> fits w s r ->
  exists l ts, class_actions w s r l /\ Forall2 (statement w) l ts /\ ((forall t, In t ts -> ~ In nl t) -> in_order ts (cb_code b)).
Proof.
  intros PN. revert r b s. fix IH 4. intros r b s H Fi.
  destruct H as [r Py|r binder NP L|r tramp st si hold local bases head ctors enums enum_texts data meths folded pt pi inner inner_bound req NP L _ _ _ HD _ SE FE _ _ _ _ SI F].
  - exists [], []. split; [apply AC_python, Py|]. split; [constructor|]. intros _. constructor.
  - destruct (call_statement w r binder) as [t [S1 S2]]. exists [Delegate (namespace_from_named_decl w (r_decl (rec_ w r))) r], [t].
    split; [exact (AC_binder w s r binder NP L)|]. split; [repeat constructor; exact S1|]. intros _. exact S2.
  - set (s' := if r_anon (rec_ w r) then s else InClass r).
    assert (Fs : exists k, s' = InClass k).
    { unfold s'. destruct (r_anon (rec_ w r)) eqn:An; [|eauto]. destruct s as [ns|k]; [|eauto]. destruct Fi as [_ [_ X]]. rewrite X in An. discriminate An. }
    destruct Fs as [k Fs].
    assert (X : exists ia tss, Forall2 (fun i l => class_actions w s' (definition_of w i) l) inner ia /\ Forall2 (Forall2 (statement w)) ia tss /\
                ((forall t, In t (concat tss) -> ~ In nl t) -> in_order (concat tss) (concat (map (fun b => cb_code b ++ [nl]) inner_bound)))).
    { assert (Fi' : forall i, In i inner -> fits w s' (definition_of w i)).
      { intros i I. rewrite Fs. cbn [fits]. apply (pn_member w PN _ r). destruct (proj1 (selection_In _ _ _ SI i) I) as [I1 I2]. exists i. split; [exact I1|]. split; [exact (proj1 I2)|reflexivity]. }
      clear - F IH Fi'. revert Fi'. induction F as [|i b inner inner_bound H F IHF]; intros Fi'; [exists [], []; split; [constructor|]; split; [constructor|]; intros _; constructor|].
      destruct (IH _ _ s' H (Fi' i (or_introl eq_refl))) as [l [ts [C1 [C2 C3]]]]. destruct (IHF (fun j J => Fi' j (or_intror J))) as [ia [tss [X1 [X2 X3]]]].
      exists (l :: ia), (ts :: tss). split; [constructor; assumption|]. split; [constructor; assumption|]. cbn [concat map]. intros N.
      apply in_order_app; [apply in_order_more, C3; intros t T; apply N, in_or_app; left; exact T|apply X3; intros t T; apply N, in_or_app; right; exact T]. }
    destruct X as [ia [tss [X1 [X2 X3]]]].
    assert (Y : exists us, Forall2 (statement w) (map (register_enum w s') enums) us /\ in_order us (concat (map (fun s => [nl] ++ s) enum_texts))).
    { clear - FE Fs. induction FE as [|e t enums ts H F IHF]; [exists []; split; constructor|]. destruct IHF as [us [Y1 Y2]].
      destruct (enum_statement w _ e t s' H) as [u [U1 U2]]; [rewrite Fs; reflexivity|]. exists (u :: us). split; [constructor; assumption|]. cbn [map concat].
      change (u :: us) with ([u] ++ us). apply in_order_app; [apply in_order_before, U2|exact Y2]. }
    destruct Y as [us [Y1 Y2]].
    assert (Z : exists h hs, (if r_anon (rec_ w r) then s' = s /\ h = []
        else s' = InClass r /\ selection (named_base w) (r_bases (rec_ w r)) bases /\ h = [Register (EClass r) (base_classes bases) s (python_class_name w r)]) /\
        Forall2 (statement w) h hs /\ in_order hs head).
    { unfold s'. destruct (r_anon (rec_ w r)).
      - exists [], []. split; [auto|]. split; constructor.
      - destruct HD as [SB ->]. destruct (class_line_statement w r hold tramp (base_classes bases) s local Fi) as [t [T1 T2]].
        eexists. exists [t]. split; [auto|]. split; [repeat constructor; exact T1|exact T2]. }
    destruct Z as [h [hs [Z1 [Z2 Z3]]]].
    exists (h ++ map (register_enum w s') enums ++ concat ia), (hs ++ us ++ concat tss).
    split; [apply (AC_class w s s' r bases enums inner ia h); [split; assumption|exact Z1|exact SE|exact SI|exact X1]|].
    split; [apply Forall2_app; [exact Z2|apply Forall2_app; [exact Y1|]]; clear - X2; induction X2; cbn; [constructor|apply Forall2_app; assumption]|].
    intros N. cbn [cb_code]. apply in_order_indent; [exact N|]. apply in_order_before. apply in_order_before. apply in_order_before.
    apply in_order_app; [exact Z3|]. apply in_order_before. apply in_order_app; [exact Y2|]. do 5 apply in_order_before. apply in_order_more.
    destruct inner_bound as [|b0 bs]; [inversion F as [Ea Eb|]; subst inner; inversion X1; subst ia; inversion X2; subst tss; constructor|].
    apply in_order_before, X3. intros t T. apply N. apply in_or_app. right. apply in_or_app. right. exact T.
Qed.
Lemma item_statements w ops d code pre : proper_nesting w -> item_text w ops d code pre ->
  (forall r, d = DRec r -> n_member (r_decl (rec_ w r)) = false /\ r_anon (rec_ w r) = false) ->
  exists l ts, item_actions w d l /\ Forall2 (statement w) l ts /\ ((forall t, In t ts -> ~ In nl t) -> in_order ts code).
Proof.
  intros PN H NM. destruct H as [f path line args k ls LO PT SA LL Lines|e path line s LO ET|r b CB].
  - destruct ls as [|l ls]; [pose proof (smallest_arity_le _ _ SA); cbn in LL; lia|].
    destruct (Lines 0 l eq_refl) as [name expr doc pol guard PN' _ _ _ _].
    eexists. eexists. split; [exact (AI_function w f name PN')|]. split; [apply Forall2_cons; [exact (SM_function w _ name (if is_static (fun_ w f) then $"_static" else []))|apply Forall2_nil]|].
    intros _. do 11 apply in_order_before. apply in_order_more. cbn [map concat]. apply in_order_more.
    unfold module_of, module_text. set (q := $", " ++ expr ++ _). clearbody q. generalize (namespace_from_named_decl w (f_decl (fun_ w f))) (if is_static (fun_ w f) then $"_static" else []) (quoted name). intros y1 y2 y3.
    match goal with |- in_order [?u] ?z => replace z with ([tab] ++ u ++ (q ++ [nl])) end; [apply in_order_one|].
    cbn [app]. repeat rewrite <- app_assoc. reflexivity.
  - destruct (enum_statement w _ e s (InModule (namespace_from_named_decl w (e_decl (enum_ w e)))) ET eq_refl) as [u [U1 U2]].
    eexists. exists [u]. split; [exact (AI_enum w e)|]. split; [repeat constructor; exact U1|]. intros _. do 8 apply in_order_before. apply in_order_more. exact U2.
  - destruct (NM r eq_refl) as [M1 M2]. destruct (class_statements w ops r b (InModule (namespace_from_named_decl w (r_decl (rec_ w r)))) PN CB) as [l [ts [C1 [C2 C3]]]]; [cbn; auto|].
    exists l, ts. split; [exact (AI_class w r l C1)|]. auto.
Qed.
