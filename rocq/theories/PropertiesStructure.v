(** Call-back structures: their names and the exceptions of their functions. *)
From Coq Require Import Ascii String Bool Arith NArith Lia.
From Coq Require Import List.
From Verif Require Import Str StrFacts SpecUtil Util UtilFacts Config Ast Types Func Class Context SpecTypes SpecBind SpecClass SpecContext SpecLex SpecStructure
  BindFacts ClassFacts StructFacts ContextFacts Samples PropertiesUtil PropertiesClass.
Import ListNotations.

(** ** C80: names of call-back structures *)

Lemma ident_no s c : identifier s -> In c $" <>,:" -> ~ In c s.
Proof. intros H I J. destruct (H c J) as [X| ->]; [|vm_compute in I; intuition discriminate]. repeat (destruct I as [<-|I]; [discriminate X|]). destruct I. Qed.
Lemma colons_at a b i : ~ In ":"%char a -> i < length a -> ~ occurs_at $"::" (a ++ b) i.
Proof.
  intros N L [x [y [E Lx]]]. assert (nth_error (a ++ b) i = Some ":"%char).
  { rewrite E, nth_error_app2, Lx, Nat.sub_diag by lia. reflexivity. }
  rewrite nth_error_app1 in H by exact L. apply nth_error_In in H. contradiction.
Qed.
Lemma no_colons a : ~ In ":"%char a -> ~ occurs $"::" a.
Proof. intros N [i [x [y [-> _]]]]. apply N. apply in_or_app. right. left. reflexivity. Qed.
Lemma join_replaced qs s : separated $"::" qs s -> Forall part qs -> leftmost_replaced $"::" $"_" s (join $"_" qs).
Proof.
  intros H. induction H as [|x|x y l s H IH]; intros F.
  - apply LR_none. intros [i [a [b [E _]]]]. destruct a; discriminate E.
  - apply LR_none, no_colons. apply ident_no; [exact (proj2 (Forall_inv F))|]. vm_compute; auto 6.
  - change (join $"_" (x :: y :: l)) with (x ++ $"_" ++ join $"_" (y :: l)). apply LR_some; [|apply IH, (Forall_inv_tail F)].
    intros i L. apply colons_at; [|exact L]. apply ident_no; [exact (proj2 (Forall_inv F))|]. vm_compute; auto 6.
Qed.
Lemma join_last qs x : Forall part qs -> (match join $"_" qs with [] => [] | _ => join $"_" qs ++ $"_" end) ++ x = join $"_" (qs ++ [x]).
Proof.
  intros F. destruct qs as [|q qs]; [reflexivity|].
  assert (N : join $"_" (q :: qs) <> []) by (destruct (Forall_inv F) as [N _]; destruct qs; cbn; [exact N|destruct q; [contradiction|discriminate]]).
  assert (E : forall y ys, join $"_" ((y :: ys) ++ [x]) = join $"_" (y :: ys) ++ $"_" ++ x).
  { clear. intros y ys. revert y. induction ys as [|z ys IH]; intros y; [reflexivity|]. change (join $"_" ((y :: z :: ys) ++ [x])) with (y ++ $"_" ++ join $"_" ((z :: ys) ++ [x])).
    rewrite IH. change (join $"_" (y :: z :: ys)) with (y ++ $"_" ++ join $"_" (z :: ys)). rewrite <- !app_assoc. reflexivity. }
  rewrite E. destruct (join $"_" (q :: qs)) as [|c ns]; [contradiction|]. rewrite <- app_assoc. reflexivity.
Qed.
Lemma join_ident qs : Forall part qs -> identifier (join $"_" qs).
Proof.
  induction qs as [|q [|r qs] IH]; intros F c I; [destruct I|exact (proj2 (Forall_inv F) c I)|].
  change (join $"_" (q :: r :: qs)) with (q ++ $"_" ++ join $"_" (r :: qs)) in I. apply in_app_iff in I. destruct I as [I|I]; [exact (proj2 (Forall_inv F) c I)|].
  destruct I as [<-|I]; [right; reflexivity|]. exact (IH (Forall_inv_tail F) c I).
Qed.
(** The name of the structure is made of the parts of the name of the class. *)
Theorem C80_name : forall w r ps, named_by w r ps -> exists s, separated $"_" ($"PyCallBack" :: ps) s /\ callback_structure_name w r = s /\ identifier s.
Proof.
  intros w r ps [qs [S [-> F]]]. exists (join $"_" ($"PyCallBack" :: qs ++ [python_class_name w r])).
  assert (FQ : Forall part qs) by (apply Forall_app in F; exact (proj1 F)).
  assert (P : part $"PyCallBack") by (split; [discriminate|]; intros c I; left; revert c I; apply forallb_forall; reflexivity).
  assert (ID : identifier (join $"_" ($"PyCallBack" :: qs ++ [python_class_name w r]))) by (apply join_ident; constructor; assumption).
  split; [|split; [|exact ID]].
  - clear. revert qs. assert (X : forall y ys, separated $"_" (y :: ys) (join $"_" (y :: ys))).
    { intros y ys. revert y. induction ys as [|z ys IH]; intros y; [constructor|]. change (join $"_" (y :: z :: ys)) with (y ++ $"_" ++ join $"_" (z :: ys)). constructor. apply IH. }
    intros qs. apply X.
  - unfold callback_structure_name. cbv zeta. assert (E : replace (namespace_from_named_decl w (r_decl (rec_ w r))) $"::" $"_" = join $"_" qs).
    { symmetry. apply (replace_spec _ $"::" $"_"); [discriminate|]. apply join_replaced; assumption. }
    rewrite E, (join_last qs _ FQ). assert (E2 : $"PyCallBack_" ++ join $"_" (qs ++ [python_class_name w r]) = join $"_" ($"PyCallBack" :: qs ++ [python_class_name w r])).
    { destruct (qs ++ [python_class_name w r]) as [|z zs] eqn:Q; [destruct qs; discriminate Q|]. reflexivity. }
    rewrite E2. apply C18_mangle_identity. intros x I J. exact (ident_no _ _ ID J I).
Qed.
Print Assumptions C80_name.
Lemma join_inj (c : ascii) : forall ps qs, (forall p, In p (ps ++ qs) -> ~ In c p) -> ps <> [] -> qs <> [] -> join [c] ps = join [c] qs -> ps = qs.
Proof.
  assert (CUT : forall (x y a b : str), ~ In c x -> ~ In c y -> x ++ c :: a = y ++ c :: b -> x = y /\ a = b).
  { induction x as [|d x IH]; intros y a b Nx Ny E; destruct y as [|e y]; cbn in E.
    - injection E as <-. auto.
    - injection E as -> _. exfalso. apply Ny. left. reflexivity.
    - injection E as -> _. exfalso. apply Nx. left. reflexivity.
    - injection E as -> E. destruct (IH y a b (fun H => Nx (or_intror H)) (fun H => Ny (or_intror H)) E) as [-> ->]. auto. }
  induction ps as [|p ps IH]; intros qs N P Q E; [contradiction|]. destruct qs as [|q qs]; [contradiction|].
  assert (Np : ~ In c p) by (apply N; left; reflexivity). assert (Nq : ~ In c q) by (apply N; apply in_or_app; right; left; reflexivity).
  destruct ps as [|p2 ps]; destruct qs as [|q2 qs].
  - cbn in E. rewrite E. reflexivity.
  - exfalso. change (p = q ++ c :: join [c] (q2 :: qs)) in E. apply Np. rewrite E. apply in_elt.
  - exfalso. change (p ++ c :: join [c] (p2 :: ps) = q) in E. apply Nq. rewrite <- E. apply in_elt.
  - change (p ++ c :: join [c] (p2 :: ps) = q ++ c :: join [c] (q2 :: qs)) in E. destruct (CUT _ _ _ _ Np Nq E) as [-> E2]. f_equal.
    apply IH; [|discriminate|discriminate|exact E2]. intros x I. apply N. apply in_app_iff in I. destruct I as [I|I]; [right; apply in_or_app; left; exact I|right; apply in_or_app; right; right; exact I].
Qed.
(** Different classes get different structures, if underscores are not used in
    names. *)
Theorem C80_distinct : forall w r r' ps ps', named_by w r ps -> named_by w r' ps' -> (forall p, In p (ps ++ ps') -> ~ In "_"%char p) -> ps <> ps' ->
  callback_structure_name w r <> callback_structure_name w r'.
Proof.
  intros w r r' ps ps' H1 H2 N D E. destruct (C80_name w r ps H1) as [s [S1 [E1 _]]]. destruct (C80_name w r' ps' H2) as [s' [S2 [E2 _]]]. rewrite E1, E2 in E.
  rewrite (separated_unique _ _ _ S1), (separated_unique _ _ _ S2) in E. apply (join_inj "_") in E; [|intros p I|discriminate|discriminate].
  - injection E as E. contradiction.
  - assert (PC : ~ In "_"%char $"PyCallBack") by (vm_compute; intuition discriminate).
    destruct I as [<-|I]; [exact PC|]. apply in_app_iff in I. destruct I as [I|[<-|I]]; [|exact PC|]; apply N; apply in_or_app; auto.
Qed.
Print Assumptions C80_distinct.
Definition st_n (name qname : str) : named := nm name qname $"<t.hh>".
Definition st_rs : list record := [
  cls (st_n $"A_B" $"n::A_B") 0 [] [MMethod 0];
  cls (st_n $"B" $"n_A::B") 1 [] [MMethod 1]].
Definition st_fns : list fn := [
  meth (member_of 0 Public (st_n $"f" $"n::A_B::f")) void [] false false true false;
  meth (member_of 1 Public (st_n $"f" $"n_A::B::f")) void [] false false true false].
Definition st_w : world :=
  mkworld (tu st_rs st_fns [] (fun r => nth r [$"class n::A_B"; $"class n_A::B"] []) (fun _ => []))
          (match setup default_config [$"n"; $"n_A"] [] $"c" (Some []) with Ok c => c | _ => default_config end) (mix_options false false 1000%N).
Example C80_case : named_by (sh_w []) 0 [$"n"; $"Shape"] /\ named_by (sh_w []) 1 [$"n"; $"Circle"] /\ has_structure (sh_w []) 0 /\ has_structure (sh_w []) 1 /\
  callback_structure_name (sh_w []) 0 = $"PyCallBack_n_Shape".
Proof.
  assert (P : forall s, s <> [] -> forallb (fun c => is_alnum c || Ascii.eqb c "_") s = true -> part s).
  { intros s N H. split; [exact N|]. intros c I. rewrite forallb_forall in H. specialize (H c I). apply orb_true_iff in H. destruct H as [H|H]; [left; exact H|right; apply Ascii.eqb_eq, H]. }
  split; [|split; [|split; [exact (proj1 sh_structures)|split; [exact (proj1 (proj2 sh_structures))|vm_compute; reflexivity]]]].
  - exists [$"n"]. split; [|split; [vm_compute; reflexivity|repeat apply Forall_cons; try apply Forall_nil; apply P; try discriminate; reflexivity]].
    assert (E : namespace_from_named_decl (sh_w []) (r_decl (rec_ (sh_w []) 0)) = $"n") by (vm_compute; reflexivity). rewrite E. apply SP_one.
  - exists [$"n"]. split; [|split; [vm_compute; reflexivity|repeat apply Forall_cons; try apply Forall_nil; apply P; try discriminate; reflexivity]].
    assert (E : namespace_from_named_decl (sh_w []) (r_decl (rec_ (sh_w []) 1)) = $"n") by (vm_compute; reflexivity). rewrite E. apply SP_one.
Qed.
(** In general they do not: n::A_B and n_A::B both get PyCallBack_n_A_B, two
    different structures with one name in one program. *)
Theorem C80_distinct_refuted : exists w visits o x y name, run w visits = Ok o /\ In x (out_sorted o) /\ In y (out_sorted o) /\ b_decl x <> b_decl y /\
  occurs ($"struct " ++ name ++ $" : public n::A_B {") (b_prefix x) /\ occurs ($"struct " ++ name ++ $" : public n_A::B {") (b_prefix y).
Proof.
  exists st_w, [DRec 0; DRec 1]. destruct (run st_w [DRec 0; DRec 1]) as [o| | | |] eqn:E; try (vm_compute in E; discriminate E). exists o.
  vm_compute in E. apply Ok_inj in E. destruct (out_sorted o) as [|x [|y l]] eqn:Eo; [rewrite <- E in Eo; discriminate Eo|rewrite <- E in Eo; discriminate Eo|].
  exists x, y, $"PyCallBack_n_A_B". split; [reflexivity|]. split; [left; reflexivity|]. split; [right; left; reflexivity|].
  rewrite <- E in Eo. cbn in Eo. injection Eo as <- <- _. split; [discriminate|].
  split; apply find0_occurs; vm_compute; discriminate.
Qed.
Print Assumptions C80_distinct_refuted.
(** A class nested in an instance of a class template: arguments of the template
    that are pointers or references leave their sign in the name, which is no
    identifier then. *)
Definition st_nested : world :=
  mkworld (tu [mkrecord (st_n $"A" $"n::A") (Some [Targ (KType (TPtr false int)) $"int *"]) false false false true true (Some 0) true false true false false false true true None [] [MRec 1];
               cls (member_of 0 Public (st_n $"B" $"n::A<int *>::B")) 1 [] [MMethod 0]]
              [meth (member_of 1 Public (st_n $"f" $"n::A<int *>::B::f")) void [] false false true false] []
              (fun r => nth r [$"class n::A<int *>"; $"class n::A<int *>::B"] []) (fun _ => []))
          (match setup default_config [$"n"] [] $"c" (Some []) with Ok c => c | _ => default_config end) (mix_options false false 1000%N).
Lemma st_const : const_is_method st_nested.
Proof. const_methods 2. Qed.
Theorem C80_identifier_refuted : exists w ops fuel r b s, bind_class fuel w ops r = Ok b /\ In 1 (inner_classes w r) /\ has_structure w 1 /\ s = callback_structure_name w 1 /\
  occurs ($"struct " ++ s ++ $" : public ") (cb_prefix b) /\ ~ identifier s.
Proof.
  exists st_nested, [], 10, 0. destruct (bind_class 10 st_nested [] 0) as [b| | | |] eqn:E; try (vm_compute in E; discriminate E). exists b, $"PyCallBack_n_A_int_*__B".
  split; [reflexivity|]. split; [left; reflexivity|]. split.
  { apply (has_structure_iff st_nested 10 10 1 true true st_const); [vm_compute; reflexivity|vm_compute; reflexivity|split; reflexivity]. }
  split; [vm_compute; reflexivity|]. vm_compute in E. apply Ok_inj in E. split; [rewrite <- E; apply find0_occurs; vm_compute; discriminate|].
  intros H. destruct (H "*"%char) as [X|X]; [vm_compute; do 19 right; left; reflexivity|discriminate X|discriminate X].
Qed.
Print Assumptions C80_identifier_refuted.

(** ** C81: exceptions of overriders *)

(** The exception specification of each function of a structure: it promises
    not to throw if the method does, unless this is written as [noexcept(true)],
    and nothing if the method has no exception specification. *)
Theorem C81_exceptions : forall w ops fuel r b, const_is_method w -> bind_class fuel w ops r = Ok b -> generated w r -> has_structure w r ->
  exists l body k inner, overriders w (class_qualified_name w r) 0 l body k /\
    cb_prefix b = structure_text w r (generate_comment_for_declaration w (r_decl (rec_ w r))) body ++ inner /\
    Forall2 (fun cm s => exists before spec after,
        s = before ++ $")" ++ (if f_const (fun_ w (snd cm)) then $" const" else []) ++ $" " ++ spec ++ $"override {" ++ after /\
        (throws_nothing (f_est (fun_ w (snd cm))) -> f_est (fun_ w (snd cm)) <> 8 -> text_throws_nothing spec) /\
        (f_est (fun_ w (snd cm)) = 0 -> spec = [])) l body.
Proof.
  intros w ops fuel r b Wf H G HS. destruct (C50_structure w ops fuel r b Wf H G HS) as [L [l [body [k [inner [_ [P [Ho _]]]]]]]].
  exists l, body, k, inner. split; [exact Ho|]. split; [exact P|]. clear - Ho. remember 0 as n eqn:En in Ho at 1. clear En. revert n body Ho. induction l as [|[c m] l IH]; intros n body Ho; inversion Ho as [|? ? ? ? s1 k1 ss k2 O1 O2]; subst; constructor.
  - clear - O1. destruct O1 as [ret alias k' params args name spec body _ _ _ _ _ [X0 [X4 X1]] _]. cbn [snd].
    exists (alias ++ [tab] ++ ret ++ $" " ++ n_name (f_decl (fun_ w m)) ++ $"(" ++ params), spec, (body ++ [tab] ++ $"}" ++ [nl]).
    split; [rewrite <- !app_assoc; reflexivity|]. split.
    + intros T N. destruct T as [T|[T|[T|[T|[]]]]]; symmetry in T.
      * right. apply X1. rewrite T. left. reflexivity.
      * left. apply X4. exact T.
      * right. apply X1. rewrite T. vm_compute; auto 10.
      * destruct (N T).
    + intros T. apply X0. rewrite T. left. reflexivity.
  - exact (IH k1 _ O2).
Qed.
Print Assumptions C81_exceptions.
Definition with_est (est : nat) (F : fn) : fn :=
  mkfn (f_decl F) (f_ret F) (f_params F) (f_method F) (f_static F) (f_const F) (f_virtual F) (f_pure F) (f_final F) (f_variadic F) (f_deleted F)
       (f_operator F) (f_conversion F) (f_dtor F) (f_ctor F) (f_kind F) (f_targs F) est (f_copy_assign F).
Definition st_est : world :=
  let f name est := with_est est (meth (member_of 0 Public (st_n name ($"n::A::" ++ name))) void [] false false true false) in
  mkworld (tu [cls (st_n $"A" $"n::A") 0 [] (map MMethod [0; 1; 2; 3; 4])] [f $"f" 0; f $"g" 5; f $"h" 1; f $"i" 8; f $"j" 7] []
              (fun r => $"class n::A") (fun _ => []))
          (match setup default_config [$"n"] [] $"c" (Some []) with Ok c => c | _ => default_config end) (mix_options false false 1000%N).
Lemma st_est_const : const_is_method st_est.
Proof. const_methods 5. Qed.
Lemma st_est_structure : has_structure st_est 0.
Proof. apply (has_structure_iff st_est 10 10 0 true true st_est_const); [vm_compute; reflexivity|vm_compute; reflexivity|split; reflexivity]. Qed.
(** f has no exception specification, g is [noexcept], h is [throw()]. *)
Example C81_case : const_is_method st_est /\ generated st_est 0 /\ has_structure st_est 0 /\ exists b, bind_class 10 st_est [] 0 = Ok b /\
  occurs $"void f() override {" (cb_prefix b) /\ occurs $"void g() throw() override {" (cb_prefix b) /\ occurs $"void h() throw() override {" (cb_prefix b).
Proof.
  split; [exact st_est_const|]. split; [apply generated_ok; vm_compute; reflexivity|]. split; [exact st_est_structure|].
  destruct (bind_class 10 st_est [] 0) as [b| | | |] eqn:E; try (vm_compute in E; discriminate E). exists b. split; [reflexivity|].
  vm_compute in E. apply Ok_inj in E. rewrite <- E. split; [|split]; apply find0_occurs; vm_compute; discriminate.
Qed.
(** i is [noexcept(true)]: its overrider has no exception specification, which
    C++ does not allow; j is [noexcept(false)]: an exception from Python ends the
    program. *)
Theorem C81_noexcept_true_refuted : exists w ops fuel r b m, bind_class fuel w ops r = Ok b /\ In m (methods (rec_ w r)) /\
  f_est (fun_ w m) = 8 /\ throws_nothing 8 /\ n_name (f_decl (fun_ w m)) = $"i" /\ occurs $"void i() override {" (cb_prefix b).
Proof.
  exists st_est, [], 10, 0. destruct (bind_class 10 st_est [] 0) as [b| | | |] eqn:E; try (vm_compute in E; discriminate E). exists b, 3. split; [reflexivity|].
  split; [vm_compute; auto 6|]. split; [reflexivity|]. split; [vm_compute; auto 6|]. split; [reflexivity|].
  vm_compute in E. apply Ok_inj in E. rewrite <- E. apply find0_occurs; vm_compute; discriminate.
Qed.
Print Assumptions C81_noexcept_true_refuted.
Theorem C81_noexcept_false_refuted : exists w ops fuel r b m, bind_class fuel w ops r = Ok b /\ In m (methods (rec_ w r)) /\
  f_est (fun_ w m) = 7 /\ throws_anything 7 /\ n_name (f_decl (fun_ w m)) = $"j" /\ occurs $"void j() throw() override {" (cb_prefix b).
Proof.
  exists st_est, [], 10, 0. destruct (bind_class 10 st_est [] 0) as [b| | | |] eqn:E; try (vm_compute in E; discriminate E). exists b, 4. split; [reflexivity|].
  split; [vm_compute; auto 6|]. split; [reflexivity|]. split; [vm_compute; auto 6|]. split; [reflexivity|].
  vm_compute in E. apply Ok_inj in E. rewrite <- E. apply find0_occurs; vm_compute; discriminate.
Qed.
Print Assumptions C81_noexcept_false_refuted.
