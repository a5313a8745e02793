(** Without line numbers every function of the model gives the same result for
    declarations that are moved to other lines. *)
From Coq Require Import Ascii String Bool Arith NArith.
From Coq Require Import List.
From Verif Require Import Str StrFacts Util Config Ast Types Func Enum Includes Class Context SpecContext SettingsFacts SettingsRun IncludesFacts SpecLayout SpecLines SpecSettings SpecStyle StyleFacts DocText.
Import ListNotations.

Lemma Forall2_filter {A B} (Q : A -> B -> Prop) f g l l' : Forall2 Q l l' -> (forall a b, Q a b -> g b = f a) -> Forall2 Q (filter f l) (filter g l').
Proof. intros F K. induction F as [|a b l l' H F IH]; cbn [filter]; [constructor|]. rewrite (K a b H). destruct (f a); [constructor|]; assumption. Qed.
Lemma Forall2_map {A B C} (Q : A -> B -> Prop) (f : A -> C) g l l' : Forall2 Q l l' -> (forall a b, Q a b -> g b = f a) -> map g l' = map f l.
Proof. intros F K. induction F as [|a b l l' H F IH]; cbn [map]; [reflexivity|]. rewrite (K a b H), IH. reflexivity. Qed.
Lemma Forall2_flat_map {A B C} (Q : A -> B -> Prop) (f : A -> list C) g l l' : Forall2 Q l l' -> (forall a b, Q a b -> g b = f a) -> flat_map g l' = flat_map f l.
Proof. intros F K. induction F as [|a b l l' H F IH]; cbn [flat_map]; [reflexivity|]. rewrite (K a b H), IH. reflexivity. Qed.
(** Equal results of two sorts with names and builtins given by equal functions. *)
Lemma move_deps_ext key key' known known' binded deps : (forall n, key' n = key n) -> (forall n, known' n = known n) ->
  forall suffix again, move_deps key' known' binded deps suffix again = move_deps key known binded deps suffix again.
Proof.
  intros HK HN. induction deps as [|d deps IH]; intros suffix again; cbn [move_deps]; [reflexivity|]. rewrite HK, HN.
  destruct (mem (key d) binded || known d); [apply IH|]. destruct (index_of (is_node d) suffix); [apply IH|]. destruct again; [apply IH|reflexivity].
Qed.
Lemma scan_ext key key' known known' rest : (forall n, key' n = key n) -> (forall n, known' n = known n) ->
  forall before binded, scan key' known' before binded rest = scan key known before binded rest.
Proof.
  intros HK HN. induction rest as [|b rest IH]; intros before binded; cbn [scan]; [reflexivity|]. destruct (node b); [|apply IH].
  rewrite (move_deps_ext key key' known known' binded (b_deps b) HK HN). apply bind_r_eq; [reflexivity|]. intros [suffix again].
  destruct again; [reflexivity|]. rewrite HK. apply IH.
Qed.
Lemma sort_loop_ext key key' known known' n : (forall n, key' n = key n) -> (forall n, known' n = known n) ->
  forall l, sort_loop n key' known' l = sort_loop n key known l.
Proof.
  intros HK HN. induction n as [|n IH]; intros l; cbn [sort_loop]; [reflexivity|]. rewrite (scan_ext key key' known known' l HK HN).
  apply bind_r_eq; [reflexivity|]. intros [a|a]; [apply IH|reflexivity].
Qed.
Lemma app_eq {A B} (f g : A -> B) a b : f = g -> a = b -> f a = g b.
Proof. intros -> ->. reflexivity. Qed.
Lemma head_eq {A B} (a : A) (f g : A -> B) : f = g -> f a = g a.
Proof. intros ->. reflexivity. Qed.

Section Moved.
(** Whether the comments may be any comments. *)
Variable free : bool.
Local Notation D := (if free then any_documentation else same_documentation).
Local Notation moved_named := (SpecLines.moved_named D).
Local Notation moved_field := (SpecLines.moved_field D).
Local Notation moved_target := (SpecLines.moved_target D).
Local Notation moved_member := (SpecLines.moved_member D).
Local Notation moved_record := (SpecLines.moved_record D).
Local Notation moved_fn := (SpecLines.moved_fn D).
Local Notation moved_enum := (SpecLines.moved_enum D).
(** Another line and another comment. Unless any comment is allowed, one that
    changes the documentation is not used. *)
Definition mark : Type := nat * option comment.
Definition mark_of (n : named) : mark := (n_line n, n_doc n).
Definition new_doc (d d' : option comment) : option comment :=
  if free then d' else if streqb (documentation_string d') (documentation_string d) then d' else d.
Definition renamed (k : mark) (n : named) : named :=
  mknamed (n_name n) (n_qname n) (n_include n) (fst k) (n_system n) (n_access n) (n_member n) (n_parent n) (new_doc (n_doc n) (snd k)).
Definition refn (k : mark) (F : fn) : fn :=
  mkfn (renamed k (f_decl F)) (f_ret F) (f_params F) (f_method F) (f_static F) (f_const F) (f_virtual F) (f_pure F) (f_final F) (f_variadic F) (f_deleted F)
       (f_operator F) (f_conversion F) (f_dtor F) (f_ctor F) (f_kind F) (f_targs F) (f_est F) (f_copy_assign F).
Definition reenum (k : mark) (E : enum) : enum :=
  mkenum (renamed k (e_decl E)) (e_scoped E) (e_class_tag E) (e_instance E) (e_complete E) (e_values E) (e_definition E).
Definition refield (k : mark) (f : field) : field := mkfield (renamed k (fd_decl f)) (fd_type f) (fd_anon f).
Lemma moved_renamed n n' : moved_named n n' -> n' = renamed (mark_of n') n.
Proof.
  destruct n as [a1 a2 a3 a4 a5 a6 a7 a8 a9], n' as [b1 b2 b3 b4 b5 b6 b7 b8 b9]. unfold SpecLines.moved_named, renamed, mark_of. cbn.
  intros (-> & -> & -> & -> & -> & -> & -> & A). f_equal. unfold new_doc. destruct free; [reflexivity|]. unfold same_documentation in A. rewrite A, streqb_refl. reflexivity.
Qed.
Lemma moved_refield f f' : moved_field f f' -> f' = refield (mark_of (fd_decl f')) f.
Proof. intros (N & T & A). unfold refield. rewrite <- (moved_renamed _ _ N). destruct f'. cbn in *. subst. reflexivity. Qed.
Variables (R R' : nat -> record) (Fs Fs' : nat -> fn) (Es Es' : nat -> enum) (pr : qty -> str) (x : list (str -> str)) (fl : nat) (c : config) (o : options).
Hypothesis HR : forall r, moved_record (R r) (R' r).
Hypothesis HF : forall f, moved_fn (Fs f) (Fs' f).
Hypothesis HE : forall n, moved_enum (Es n) (Es' n).
Hypothesis SK : skip_line_number o = true.
(** Needed for the texts that contain documentation only. *)
Hypothesis NF : free = false.
Local Notation w := (mkworld (mkenv R Fs Es pr x fl) c o).
Local Notation w' := (mkworld (mkenv R' Fs' Es' pr x fl) c o).

Definition dline (d : decl) : mark :=
  mark_of (match d with DFun f => f_decl (Fs' f) | DRec r => r_decl (R' r) | DEnum n => e_decl (Es' n) end).
Lemma l_fun f : fun_ w' f = refn (dline (DFun f)) (fun_ w f).
Proof.
  cbn -[dline]. destruct (HF f) as [N E]. pose proof (moved_renamed _ _ N) as D. rewrite E at 1. unfold refn, dline. rewrite <- D. reflexivity.
Qed.
Lemma l_enum f : enum_ w' f = reenum (dline (DEnum f)) (enum_ w f).
Proof.
  cbn -[dline]. destruct (HE f) as [N E]. pose proof (moved_renamed _ _ N) as D. rewrite E at 1. unfold reenum, dline. rewrite <- D. reflexivity.
Qed.
Lemma l_rdecl r : r_decl (rec_ w' r) = renamed (dline (DRec r)) (r_decl (rec_ w r)).
Proof. cbn. destruct (HR r) as [N _]. exact (moved_renamed _ _ N). Qed.
Lemma l_members r : Forall2 moved_member (r_members (rec_ w r)) (r_members (rec_ w' r)).
Proof. exact (proj1 (proj2 (HR r))). Qed.
Lemma l_r_targs r : r_targs (rec_ w' r) = r_targs (rec_ w r).
Proof. cbn. destruct (HR r) as (_ & _ & E). rewrite E. reflexivity. Qed.
Lemma l_r_struct r : r_struct (rec_ w' r) = r_struct (rec_ w r).
Proof. cbn. destruct (HR r) as (_ & _ & E). rewrite E. reflexivity. Qed.
Lemma l_r_abstract r : r_abstract (rec_ w' r) = r_abstract (rec_ w r).
Proof. cbn. destruct (HR r) as (_ & _ & E). rewrite E. reflexivity. Qed.
Lemma l_r_final r : r_final (rec_ w' r) = r_final (rec_ w r).
Proof. cbn. destruct (HR r) as (_ & _ & E). rewrite E. reflexivity. Qed.
Lemma l_r_complete r : r_complete (rec_ w' r) = r_complete (rec_ w r).
Proof. cbn. destruct (HR r) as (_ & _ & E). rewrite E. reflexivity. Qed.
Lemma l_r_is_def r : r_is_def (rec_ w' r) = r_is_def (rec_ w r).
Proof. cbn. destruct (HR r) as (_ & _ & E). rewrite E. reflexivity. Qed.
Lemma l_r_definition r : r_definition (rec_ w' r) = r_definition (rec_ w r).
Proof. cbn. destruct (HR r) as (_ & _ & E). rewrite E. reflexivity. Qed.
Lemma l_r_first r : r_first (rec_ w' r) = r_first (rec_ w r).
Proof. cbn. destruct (HR r) as (_ & _ & E). rewrite E. reflexivity. Qed.
Lemma l_r_anon_ns r : r_anon_ns (rec_ w' r) = r_anon_ns (rec_ w r).
Proof. cbn. destruct (HR r) as (_ & _ & E). rewrite E. reflexivity. Qed.
Lemma l_r_linkage r : r_linkage (rec_ w' r) = r_linkage (rec_ w r).
Proof. cbn. destruct (HR r) as (_ & _ & E). rewrite E. reflexivity. Qed.
Lemma l_r_anon r : r_anon (rec_ w' r) = r_anon (rec_ w r).
Proof. cbn. destruct (HR r) as (_ & _ & E). rewrite E. reflexivity. Qed.
Lemma l_r_dependent r : r_dependent (rec_ w' r) = r_dependent (rec_ w r).
Proof. cbn. destruct (HR r) as (_ & _ & E). rewrite E. reflexivity. Qed.
Lemma l_r_instantiated r : r_instantiated (rec_ w' r) = r_instantiated (rec_ w r).
Proof. cbn. destruct (HR r) as (_ & _ & E). rewrite E. reflexivity. Qed.
Lemma l_r_has_default r : r_has_default (rec_ w' r) = r_has_default (rec_ w r).
Proof. cbn. destruct (HR r) as (_ & _ & E). rewrite E. reflexivity. Qed.
Lemma l_r_needs_default r : r_needs_default (rec_ w' r) = r_needs_default (rec_ w r).
Proof. cbn. destruct (HR r) as (_ & _ & E). rewrite E. reflexivity. Qed.
Lemma l_r_dtor r : r_dtor (rec_ w' r) = r_dtor (rec_ w r).
Proof. cbn. destruct (HR r) as (_ & _ & E). rewrite E. reflexivity. Qed.
Lemma l_r_bases r : r_bases (rec_ w' r) = r_bases (rec_ w r).
Proof. cbn. destruct (HR r) as (_ & _ & E). rewrite E. reflexivity. Qed.
Local Opaque dline.
Lemma l_f_ret k F : f_ret (refn k F) = f_ret F.
Proof. reflexivity. Qed.
Lemma l_f_params k F : f_params (refn k F) = f_params F.
Proof. reflexivity. Qed.
Lemma l_f_method k F : f_method (refn k F) = f_method F.
Proof. reflexivity. Qed.
Lemma l_f_static k F : f_static (refn k F) = f_static F.
Proof. reflexivity. Qed.
Lemma l_f_const k F : f_const (refn k F) = f_const F.
Proof. reflexivity. Qed.
Lemma l_f_virtual k F : f_virtual (refn k F) = f_virtual F.
Proof. reflexivity. Qed.
Lemma l_f_pure k F : f_pure (refn k F) = f_pure F.
Proof. reflexivity. Qed.
Lemma l_f_final k F : f_final (refn k F) = f_final F.
Proof. reflexivity. Qed.
Lemma l_f_variadic k F : f_variadic (refn k F) = f_variadic F.
Proof. reflexivity. Qed.
Lemma l_f_deleted k F : f_deleted (refn k F) = f_deleted F.
Proof. reflexivity. Qed.
Lemma l_f_operator k F : f_operator (refn k F) = f_operator F.
Proof. reflexivity. Qed.
Lemma l_f_conversion k F : f_conversion (refn k F) = f_conversion F.
Proof. reflexivity. Qed.
Lemma l_f_dtor k F : f_dtor (refn k F) = f_dtor F.
Proof. reflexivity. Qed.
Lemma l_f_ctor k F : f_ctor (refn k F) = f_ctor F.
Proof. reflexivity. Qed.
Lemma l_f_kind k F : f_kind (refn k F) = f_kind F.
Proof. reflexivity. Qed.
Lemma l_f_targs k F : f_targs (refn k F) = f_targs F.
Proof. reflexivity. Qed.
Lemma l_f_est k F : f_est (refn k F) = f_est F.
Proof. reflexivity. Qed.
Lemma l_f_copy_assign k F : f_copy_assign (refn k F) = f_copy_assign F.
Proof. reflexivity. Qed.
Lemma l_f_decl k F : f_decl (refn k F) = renamed k (f_decl F).
Proof. reflexivity. Qed.
Lemma l_e_scoped k F : e_scoped (reenum k F) = e_scoped F.
Proof. reflexivity. Qed.
Lemma l_e_class_tag k F : e_class_tag (reenum k F) = e_class_tag F.
Proof. reflexivity. Qed.
Lemma l_e_instance k F : e_instance (reenum k F) = e_instance F.
Proof. reflexivity. Qed.
Lemma l_e_complete k F : e_complete (reenum k F) = e_complete F.
Proof. reflexivity. Qed.
Lemma l_e_values k F : e_values (reenum k F) = e_values F.
Proof. reflexivity. Qed.
Lemma l_e_definition k F : e_definition (reenum k F) = e_definition F.
Proof. reflexivity. Qed.
Lemma l_e_decl k F : e_decl (reenum k F) = renamed k (e_decl F).
Proof. reflexivity. Qed.
Lemma l_n_name k F : n_name (renamed k F) = n_name F.
Proof. reflexivity. Qed.
Lemma l_n_qname k F : n_qname (renamed k F) = n_qname F.
Proof. reflexivity. Qed.
Lemma l_n_include k F : n_include (renamed k F) = n_include F.
Proof. reflexivity. Qed.
Lemma l_n_system k F : n_system (renamed k F) = n_system F.
Proof. reflexivity. Qed.
Lemma l_n_access k F : n_access (renamed k F) = n_access F.
Proof. reflexivity. Qed.
Lemma l_n_member k F : n_member (renamed k F) = n_member F.
Proof. reflexivity. Qed.
Lemma l_n_parent k F : n_parent (renamed k F) = n_parent F.
Proof. reflexivity. Qed.
Lemma l_n_doc k F : documentation_string (n_doc (renamed k F)) = documentation_string (n_doc F).
Proof.
  cbn. unfold new_doc. rewrite NF. destruct (streqb_spec (documentation_string (snd k)) (documentation_string (n_doc F))) as [->|]; reflexivity.
Qed.
Lemma l_fd_decl k f : fd_decl (refield k f) = renamed k (fd_decl f).
Proof. reflexivity. Qed.
Lemma l_fd_type k f : fd_type (refield k f) = fd_type f.
Proof. reflexivity. Qed.
Lemma l_fd_anon k f : fd_anon (refield k f) = fd_anon f.
Proof. reflexivity. Qed.
Lemma l_over_members {B} (f g : member -> list B) r : (forall m m', moved_member m m' -> g m' = f m) ->
  flat_map g (r_members (rec_ w' r)) = flat_map f (r_members (rec_ w r)).
Proof. intros K. exact (Forall2_flat_map moved_member f g _ _ (l_members r) K). Qed.
Lemma l_over_targets {B} (f g : nat -> list B) l l' : Forall2 moved_target l l' -> (forall m, g m = f m) ->
  flat_map (fun t => match t with UMethod m => g m | _ => [] end) l' = flat_map (fun t => match t with UMethod m => f m | _ => [] end) l.
Proof. intros F K. apply (Forall2_flat_map moved_target); [exact F|]. intros a b [m|x1 x2 _]; [apply K|reflexivity]. Qed.
Lemma l_cfg : wcfg w' = wcfg w. Proof. reflexivity. Qed.
Lemma l_opt : wopt w' = wopt w. Proof. reflexivity. Qed.
Lemma l_pr : print (wenv w') = print (wenv w). Proof. reflexivity. Qed.
Lemma l_rx : rx (wenv w') = rx (wenv w). Proof. reflexivity. Qed.
Lemma l_fuel : e_fuel (wenv w') = e_fuel (wenv w). Proof. reflexivity. Qed.
Lemma fold_rec r : R' r = rec_ w' r. Proof. reflexivity. Qed.
Lemma l_named_of d : named_of (wenv w') d = renamed (dline d) (named_of (wenv w) d).
Proof. destruct d; cbn [named_of wenv]; [exact (f_equal f_decl (l_fun f))|exact (l_rdecl r)|exact (f_equal e_decl (l_enum e))]. Qed.
 Local Opaque documentation_string named_of renamed refn refield reenum rec_ fun_ enum_.
Ltac norm := idtac.
Ltac congr := match goal with
  | |- bind_r _ _ = bind_r _ _ => apply bind_r_eq; [|intros ?]
  | |- (if _ then _ else _) = _ => apply if_eq
  | |- filter_r _ _ = _ => apply filter_r_eq; intros ?
  | |- exists_r _ _ = _ => apply exists_r_eq; intros ?
  | |- existsb _ _ = _ => apply existsb_eq; intros ?
  | |- forallb _ _ = _ => apply forallb_eq; intros ?
  | |- filter _ _ = _ => apply filter_eq; intros ?
  | |- flat_map _ _ = _ => apply flat_map_eq; intros ?
  | |- map_r _ _ = _ => apply map_r_eq; intros ?
  | |- map _ _ = _ => apply map_ext; intros ?
  | |- (match ?y with _ => _ end) = _ => destruct y
  | |- ?f ?a = ?g ?b => first [constr_eq f g; apply (f_equal f) | constr_eq a b; apply (head_eq a) | apply app_eq]
  end.
Ltac same := match goal with |- ?a = ?b => constr_eq a b; reflexivity end.
Ltac go := intros; cbv beta zeta; norm; first [same | congr; go | reflexivity].
Ltac goh H := intros; cbv beta zeta; norm; rewrite ?H; first [same | congr; goh H | reflexivity].

(** ** Ast *)
Ltac norm ::= idtac.
Lemma l_methods r : methods (rec_ w' r) = methods (rec_ w r).
Proof. unfold methods. pose proof (l_members r) as M. induction M as [|a b l l' A M IH]; [reflexivity|]. cbn [flat_map]. rewrite IH. f_equal. destruct A; reflexivity. Qed.
Local Opaque methods.
Ltac norm ::= repeat progress rewrite ?l_r_targs.
Lemma l_targs_of r : targs_of (rec_ w' r) = targs_of (rec_ w r).
Proof. unfold targs_of. go. Qed.
Local Opaque targs_of.
Ltac norm ::= repeat progress rewrite ?l_r_targs.
Lemma l_is_specialization r : is_specialization (rec_ w' r) = is_specialization (rec_ w r).
Proof. unfold is_specialization. go. Qed.
Local Opaque is_specialization.
Ltac norm ::= repeat progress rewrite ?l_f_ctor.
Lemma l_is_ctor k f : is_ctor (refn k f) = is_ctor f.
Proof. unfold is_ctor. go. Qed.
Local Opaque is_ctor.
Ltac norm ::= repeat progress rewrite ?l_rdecl, ?l_targs_of.
Lemma l_rec_type r : rec_type w' r = rec_type w r.
Proof. unfold rec_type. go. Qed.
Local Opaque rec_type.

(** ** Types *)
Ltac norm ::= repeat progress rewrite ?l_pr, ?l_rx, ?l_fuel.
Lemma w_standard_name : standard_name w' = standard_name w.
Proof. unfold standard_name. norm. reflexivity. Qed.
Local Opaque standard_name.
Ltac norm ::= repeat progress rewrite ?l_pr, ?l_rx, ?l_fuel, ?w_standard_name.
Lemma w_standard_name_q : standard_name_q w' = standard_name_q w.
Proof. unfold standard_name_q. norm. reflexivity. Qed.
Local Opaque standard_name_q.
Ltac norm ::= repeat progress rewrite ?l_n_name, ?l_n_qname, ?w_standard_name.
Lemma w_namespace_from_named_decl : namespace_from_named_decl w' = namespace_from_named_decl w.
Proof. unfold namespace_from_named_decl. norm. reflexivity. Qed.
Lemma l_namespace_from_named_decl k n0 : namespace_from_named_decl w (renamed k n0) = namespace_from_named_decl w n0.
Proof. unfold namespace_from_named_decl. norm. reflexivity. Qed.
Local Opaque namespace_from_named_decl.
Ltac norm ::= repeat progress rewrite ?l_pr, ?l_rx, ?l_fuel, ?l_rec_type, ?w_standard_name.
Lemma l_typename_from_rec r : typename_from_rec w' r = typename_from_rec w r.
Proof. unfold typename_from_rec. go. Qed.
Local Opaque typename_from_rec.
Ltac norm ::= repeat progress rewrite ?l_pr, ?l_rx, ?l_fuel, ?w_standard_name.
Lemma w_typename_from_enum : typename_from_enum w' = typename_from_enum w.
Proof. unfold typename_from_enum. norm. reflexivity. Qed.
Local Opaque typename_from_enum.
Ltac norm ::= repeat progress rewrite ?l_opt.
Lemma w_line_number : line_number w' = line_number w.
Proof. unfold line_number. norm. reflexivity. Qed.
Lemma l_line_number k n : line_number w (renamed k n) = line_number w n.
Proof. unfold line_number. cbn [wopt]. rewrite SK. reflexivity. Qed.
Local Opaque line_number.
Ltac norm ::= repeat progress rewrite ?l_n_include.
Lemma l_relevant_include k n0 : relevant_include (renamed k n0) = relevant_include n0.
Proof. unfold relevant_include. go. Qed.
Local Opaque relevant_include.
Ltac norm ::= repeat progress rewrite ?w_line_number, ?l_line_number, ?l_n_qname, ?l_relevant_include, ?w_standard_name.
Lemma w_generate_comment_for_declaration : generate_comment_for_declaration w' = generate_comment_for_declaration w.
Proof. unfold generate_comment_for_declaration. norm. reflexivity. Qed.
Lemma l_generate_comment_for_declaration k n0 : generate_comment_for_declaration w (renamed k n0) = generate_comment_for_declaration w n0.
Proof. unfold generate_comment_for_declaration. norm. reflexivity. Qed.
Local Opaque generate_comment_for_declaration.
Ltac norm ::= repeat progress rewrite ?l_rdecl, ?l_n_qname.
Lemma l_qname_of_parent p : qname_of_parent w' p = qname_of_parent w p.
Proof. unfold qname_of_parent. go. Qed.
Local Opaque qname_of_parent.
Ltac norm ::= repeat progress rewrite ?l_fun, ?l_rdecl, ?l_named_of, ?l_pr, ?l_rx, ?l_fuel, ?l_f_method, ?l_n_member, ?l_n_parent, ?l_n_qname, ?l_qname_of_parent.
Lemma l_include_name d : include_name w' d = include_name w d.
Proof. unfold include_name. go. Qed.
Local Opaque include_name.
Ltac norm ::= repeat progress rewrite ?l_named_of, ?l_opt, ?l_pr, ?l_rx, ?l_fuel, ?l_include_name, ?l_relevant_include, ?w_standard_name.
Lemma l_add_relevant_include_for_decl d s : add_relevant_include_for_decl w' d s = add_relevant_include_for_decl w d s.
Proof. unfold add_relevant_include_for_decl. go. Qed.
Local Opaque add_relevant_include_for_decl.
Ltac norm ::= repeat progress rewrite ?l_cfg, ?l_opt.
Lemma w_builtin_name : builtin_name w' = builtin_name w.
Proof. unfold builtin_name. norm. reflexivity. Qed.
Local Opaque builtin_name.
Ltac norm ::= repeat progress rewrite ?w_builtin_name, ?l_n_qname, ?w_standard_name.
Lemma w_is_python_builtin : is_python_builtin w' = is_python_builtin w.
Proof. unfold is_python_builtin. norm. reflexivity. Qed.
Lemma l_is_python_builtin k n0 : is_python_builtin w (renamed k n0) = is_python_builtin w n0.
Proof. unfold is_python_builtin. norm. reflexivity. Qed.
Local Opaque is_python_builtin.
Ltac norm ::= repeat progress rewrite ?l_n_qname, ?w_standard_name.
Lemma w_is_banned_symbol : is_banned_symbol w' = is_banned_symbol w.
Proof. unfold is_banned_symbol. norm. reflexivity. Qed.
Lemma l_is_banned_symbol k n0 : is_banned_symbol w (renamed k n0) = is_banned_symbol w n0.
Proof. unfold is_banned_symbol. norm. reflexivity. Qed.
Local Opaque is_banned_symbol.
Ltac norm ::= repeat progress rewrite ?l_r_targs.
Lemma l_rec_specialization r : rec_specialization (rec_ w' r) = rec_specialization (rec_ w r).
Proof. unfold rec_specialization. go. Qed.
Local Opaque rec_specialization.
Ltac norm ::= repeat progress rewrite ?l_rdecl, ?l_n_qname, ?l_rec_specialization, ?w_standard_name.
Lemma l_class_qualified_name r : class_qualified_name w' r = class_qualified_name w r.
Proof. unfold class_qualified_name. go. Qed.
Local Opaque class_qualified_name.
Ltac norm ::= repeat progress rewrite ?l_rdecl, ?l_pr, ?l_rx, ?l_fuel, ?l_n_name, ?w_namespace_from_named_decl, ?l_namespace_from_named_decl, ?l_rec_specialization, ?w_standard_name.
Lemma l_class_name r : class_name w' r = class_name w r.
Proof. unfold class_name. go. Qed.
Local Opaque class_name.
Ltac norm ::= repeat progress rewrite ?l_class_name.
Lemma l_python_class_name r : python_class_name w' r = python_class_name w r.
Proof. unfold python_class_name. go. Qed.
Local Opaque python_class_name.
Ltac norm ::= repeat progress rewrite ?l_rdecl, ?w_is_banned_symbol, ?l_is_banned_symbol, ?w_is_python_builtin, ?l_is_python_builtin, ?l_is_specialization, ?l_n_access, ?l_n_member, ?l_n_qname, ?l_r_anon, ?l_r_anon_ns, ?l_r_complete, ?l_r_dependent, ?l_r_instantiated, ?l_r_linkage.
Lemma l_rec_bindable_raw r std_function_ok : rec_bindable_raw w' r std_function_ok = rec_bindable_raw w r std_function_ok.
Proof. unfold rec_bindable_raw. go. Qed.
Local Opaque rec_bindable_raw.
Ltac norm ::= repeat progress rewrite ?l_n_access.
Lemma l_tag_accessible k n0 : tag_accessible (renamed k n0) = tag_accessible n0.
Proof. unfold tag_accessible. go. Qed.
Local Opaque tag_accessible.
Ltac norm ::= repeat progress rewrite ?l_enum, ?l_rdecl, ?l_pr, ?l_rx, ?l_fuel, ?l_e_decl, ?l_rec_bindable_raw, ?w_standard_name, ?l_tag_accessible.
Fixpoint l_bindable_type s t {struct t} : bindable_type w' s t = bindable_type w s t.
Proof.
  destruct t as [| b p | p | p | | | b r args | | b n p |]; cbn [bindable_type]; norm; try reflexivity; rewrite ?l_bindable_type; try reflexivity.
  f_equal. f_equal. f_equal.
  induction args as [|a args IH]; cbn [forallb]; [reflexivity|]. f_equal; [|exact IH].
  destruct a as [k text]. destruct k as [t|t|d|d [[ret ps]|]|n|]; try reflexivity.
  rewrite l_bindable_type. f_equal. induction ps as [|p ps IHps]; cbn [forallb]; [reflexivity|]. rewrite l_bindable_type. f_equal. exact IHps.
Qed.
Local Opaque bindable_type.
Ltac norm ::= repeat progress rewrite ?l_bindable_type.
Lemma l_is_bindable_q t : is_bindable_q w' t = is_bindable_q w t.
Proof. unfold is_bindable_q. go. Qed.
Local Opaque is_bindable_q.
Ltac norm ::= repeat progress rewrite ?l_bindable_type.
Lemma l_is_std_function_bindable args : is_std_function_bindable w' args = is_std_function_bindable w args.
Proof. unfold is_std_function_bindable. go. Qed.
Local Opaque is_std_function_bindable.
Ltac norm ::= repeat progress rewrite ?l_rdecl, ?l_is_std_function_bindable, ?l_rec_bindable_raw, ?l_targs_of.
Lemma l_is_bindable_rec r : is_bindable_rec w' r = is_bindable_rec w r.
Proof. unfold is_bindable_rec. go. Qed.
Local Opaque is_bindable_rec.
Ltac norm ::= repeat progress rewrite ?l_rdecl, ?l_cfg, ?l_class_qualified_name, ?l_n_qname, ?w_namespace_from_named_decl, ?l_namespace_from_named_decl, ?w_standard_name.
Lemma l_skip_rec_with r deps : skip_rec_with w' r deps = skip_rec_with w r deps.
Proof. unfold skip_rec_with. go. Qed.
Local Opaque skip_rec_with.
Ltac norm ::= repeat progress rewrite ?l_skip_rec_with.
Fixpoint l_skip_type s t {struct t} : skip_type w' s t = skip_type w s t.
Proof.
  destruct t as [| b p | p | p | | | b r args | | b n p |]; cbn [skip_type]; norm; try reflexivity; try (rewrite l_skip_type; reflexivity).
  f_equal. induction args as [|[k text] args IH]; cbn [flat_map]; [reflexivity|]. f_equal; [|exact IH].
  destruct k; try reflexivity. rewrite l_skip_type. reflexivity.
Qed.
Local Opaque skip_type.
Ltac norm ::= repeat progress rewrite ?l_skip_type.
Lemma l_is_skipping_requested_q t : is_skipping_requested_q w' t = is_skipping_requested_q w t.
Proof. unfold is_skipping_requested_q. go. Qed.
Local Opaque is_skipping_requested_q.
Ltac norm ::= repeat progress rewrite ?l_rdecl, ?l_is_skipping_requested_q, ?l_skip_rec_with, ?l_targs_of.
Lemma l_is_skipping_requested_rec r : is_skipping_requested_rec w' r = is_skipping_requested_rec w r.
Proof. unfold is_skipping_requested_rec. go. Qed.
Local Opaque is_skipping_requested_rec.
Ltac norm ::= repeat progress rewrite ?l_rdecl, ?l_cfg, ?l_opt, ?l_class_qualified_name, ?l_is_skipping_requested_q, ?l_is_specialization, ?l_n_qname, ?w_namespace_from_named_decl, ?l_namespace_from_named_decl, ?w_standard_name, ?l_targs_of.
Lemma l_is_binding_requested_rec r : is_binding_requested_rec w' r = is_binding_requested_rec w r.
Proof. unfold is_binding_requested_rec. go. Qed.
Local Opaque is_binding_requested_rec.
Ltac norm ::= repeat progress rewrite ?l_is_binding_requested_rec.
Lemma l_bind_type s t : bind_type w' s t = bind_type w s t.
Proof. revert s. induction t; intros s; cbn [bind_type]; norm; try reflexivity; try (destruct s; [reflexivity|]); auto. Qed.
Local Opaque bind_type.
Ltac norm ::= repeat progress rewrite ?l_bind_type.
Lemma l_is_binding_requested_q t : is_binding_requested_q w' t = is_binding_requested_q w t.
Proof. unfold is_binding_requested_q. go. Qed.
Local Opaque is_binding_requested_q.
Ltac norm ::= repeat progress rewrite ?l_enum, ?l_rdecl, ?l_e_complete, ?l_is_specialization, ?l_r_complete, ?w_typename_from_enum, ?l_typename_from_rec.
Lemma l_request_name d : request_name w' d = request_name w d.
Proof. unfold request_name. go. Qed.
Local Opaque request_name.
Ltac norm ::= repeat progress rewrite ?l_is_skipping_requested_q, ?l_request_name.
Lemma l_request_type t : request_type w' t = request_type w t.
Proof. induction t; cbn [request_type]; try (goh IHt); go. Qed.
Local Opaque request_type.

(** ** Func *)
Ltac norm ::= repeat progress rewrite ?l_f_params.
Lemma l_num_params k F : num_params (refn k F) = num_params F.
Proof. unfold num_params. go. Qed.
Local Opaque num_params.
Ltac norm ::= repeat progress rewrite ?l_f_decl, ?l_n_name, ?l_num_params.
Lemma l_cpp_python_operator k F : cpp_python_operator (refn k F) = cpp_python_operator F.
Proof. unfold cpp_python_operator. go. Qed.
Local Opaque cpp_python_operator.
Ltac norm ::= repeat progress rewrite ?l_f_params, ?w_standard_name_q.
Lemma w_function_arguments : function_arguments w' = function_arguments w.
Proof. unfold function_arguments. norm. reflexivity. Qed.
Lemma l_function_arguments k F : function_arguments w (refn k F) = function_arguments w F.
Proof. unfold function_arguments. norm. reflexivity. Qed.
Local Opaque function_arguments.
Ltac norm ::= repeat progress rewrite ?w_standard_name_q.
Lemma w_lambda_param : lambda_param w' = lambda_param w.
Proof. unfold lambda_param. norm. reflexivity. Qed.
Local Opaque lambda_param.
Ltac norm ::= repeat progress rewrite ?l_f_params, ?w_lambda_param.
Lemma w_function_arguments_for_lambda : function_arguments_for_lambda w' = function_arguments_for_lambda w.
Proof. unfold function_arguments_for_lambda. norm. reflexivity. Qed.
Lemma l_function_arguments_for_lambda k F n0 : function_arguments_for_lambda w (refn k F) n0 = function_arguments_for_lambda w F n0.
Proof. unfold function_arguments_for_lambda. norm. reflexivity. Qed.
Local Opaque function_arguments_for_lambda.
Ltac norm ::= repeat progress rewrite ?l_f_params, ?w_standard_name_q.
Lemma w_function_arguments_for_py_overload : function_arguments_for_py_overload w' = function_arguments_for_py_overload w.
Proof. unfold function_arguments_for_py_overload. norm. reflexivity. Qed.
Lemma l_function_arguments_for_py_overload k F : function_arguments_for_py_overload w (refn k F) = function_arguments_for_py_overload w F.
Proof. unfold function_arguments_for_py_overload. norm. reflexivity. Qed.
Local Opaque function_arguments_for_py_overload.
Ltac norm ::= repeat progress rewrite ?l_f_kind, ?l_f_targs, ?w_standard_name.
Lemma w_fun_specialization : fun_specialization w' = fun_specialization w.
Proof. unfold fun_specialization. norm. reflexivity. Qed.
Lemma l_fun_specialization k F : fun_specialization w (refn k F) = fun_specialization w F.
Proof. unfold fun_specialization. norm. reflexivity. Qed.
Local Opaque fun_specialization.
Ltac norm ::= repeat progress rewrite ?l_cpp_python_operator, ?l_f_decl, ?l_f_operator, ?l_n_name.
Lemma l_python_function_name k F : python_function_name (refn k F) = python_function_name F.
Proof. unfold python_function_name. go. Qed.
Local Opaque python_function_name.
Ltac norm ::= repeat progress rewrite ?l_f_decl, ?l_n_parent.
Lemma l_parent_of k F : parent_of (refn k F) = parent_of F.
Proof. unfold parent_of. go. Qed.
Local Opaque parent_of.
Ltac norm ::= repeat progress rewrite ?l_f_const, ?l_f_method.
Lemma l_const_suffix k F : const_suffix (refn k F) = const_suffix F.
Proof. unfold const_suffix. go. Qed.
Local Opaque const_suffix.
Ltac norm ::= repeat progress rewrite ?l_class_qualified_name, ?l_const_suffix, ?l_f_method, ?l_f_ret, ?l_f_static, ?w_function_arguments, ?l_function_arguments, ?l_parent_of, ?w_standard_name_q.
Lemma l_function_pointer_type k F : function_pointer_type w' (refn k F) = function_pointer_type w F.
Proof. unfold function_pointer_type. go. Qed.
Local Opaque function_pointer_type.
Ltac norm ::= repeat progress rewrite ?l_const_suffix, ?l_f_decl, ?l_f_ret, ?w_fun_specialization, ?l_fun_specialization, ?w_function_arguments, ?l_function_arguments, ?l_n_qname, ?w_standard_name, ?w_standard_name_q.
Lemma w_function_qualified_name : function_qualified_name w' = function_qualified_name w.
Proof. unfold function_qualified_name. norm. reflexivity. Qed.
Lemma l_function_qualified_name k F omit_return_type : function_qualified_name w (refn k F) omit_return_type = function_qualified_name w F omit_return_type.
Proof. unfold function_qualified_name. norm. reflexivity. Qed.
Local Opaque function_qualified_name.
Ltac norm ::= repeat progress rewrite ?l_f_kind, ?l_f_params, ?l_f_ret, ?l_f_targs.
Lemma l_fun_type_dependencies k F : fun_type_dependencies (refn k F) = fun_type_dependencies F.
Proof. unfold fun_type_dependencies. go. Qed.
Local Opaque fun_type_dependencies.
Ltac norm ::= repeat progress rewrite ?l_cfg, ?l_f_decl, ?l_fun_type_dependencies, ?w_function_qualified_name, ?l_function_qualified_name, ?l_is_binding_requested_q, ?l_n_qname, ?w_namespace_from_named_decl, ?l_namespace_from_named_decl.
Lemma l_is_binding_requested_fun k F : is_binding_requested_fun w' (refn k F) = is_binding_requested_fun w F.
Proof. unfold is_binding_requested_fun. go. Qed.
Local Opaque is_binding_requested_fun.
Ltac norm ::= repeat progress rewrite ?l_rdecl, ?l_cfg, ?l_f_decl, ?l_f_method, ?l_fun_type_dependencies, ?w_function_qualified_name, ?l_function_qualified_name, ?l_is_skipping_requested_q, ?l_is_specialization, ?l_n_name, ?l_n_qname, ?w_namespace_from_named_decl, ?l_namespace_from_named_decl, ?l_parent_of, ?w_standard_name.
Lemma l_is_skipping_requested_fun k F : is_skipping_requested_fun w' (refn k F) = is_skipping_requested_fun w F.
Proof. unfold is_skipping_requested_fun. go. Qed.
Local Opaque is_skipping_requested_fun.
Ltac norm ::= repeat progress rewrite ?w_standard_name_q.
Lemma w_lambda_return_type : lambda_return_type w' = lambda_return_type w.
Proof. unfold lambda_return_type. norm. reflexivity. Qed.
Local Opaque lambda_return_type.
Ltac norm ::= repeat progress rewrite ?l_cfg, ?l_f_method, ?l_f_ret, ?l_f_static.
Lemma w_return_policy : return_policy w' = return_policy w.
Proof. unfold return_policy. norm. reflexivity. Qed.
Lemma l_return_policy k F : return_policy w (refn k F) = return_policy w F.
Proof. unfold return_policy. norm. reflexivity. Qed.
Local Opaque return_policy.
Ltac norm ::= repeat progress rewrite ?l_request_type.
Lemma l_request_types l : request_types w' l = request_types w l.
Proof. induction l as [|t l IH]; cbn [request_types]; [reflexivity|]. norm. rewrite IH. reflexivity. Qed.
Local Opaque request_types.
Ltac norm ::= repeat progress rewrite ?l_f_params.
Lemma l_py_args k F n0 : py_args (refn k F) n0 = py_args F n0.
Proof. unfold py_args. go. Qed.
Local Opaque py_args.
Ltac norm ::= repeat progress rewrite ?l_class_qualified_name, ?l_f_decl, ?l_n_name, ?l_n_qname, ?w_standard_name.
Lemma l_bound_name k F parent : bound_name w' (refn k F) parent = bound_name w F parent.
Proof. unfold bound_name. go. Qed.
Local Opaque bound_name.
Ltac norm ::= repeat progress rewrite ?l_bound_name, ?l_class_qualified_name, ?l_const_suffix, ?l_f_const, ?l_f_decl, ?l_f_method, ?l_f_ret, ?l_f_static, ?w_fun_specialization, ?l_fun_specialization, ?w_function_arguments, ?l_function_arguments, ?w_function_arguments_for_lambda, ?l_function_arguments_for_lambda, ?l_function_pointer_type, ?w_lambda_return_type, ?l_n_doc, ?l_n_name, ?l_n_qname, ?l_num_params, ?l_parent_of, ?w_standard_name, ?w_standard_name_q.
Lemma l_function_expression k F args_to_bind parent always_use_lambda : function_expression w' (refn k F) args_to_bind parent always_use_lambda = function_expression w F args_to_bind parent always_use_lambda.
Proof. unfold function_expression. go. Qed.
Lemma d_function_expression k F args_to_bind parent always_use_lambda :
  fst (function_expression w' (refn k F) args_to_bind parent always_use_lambda) = fst (function_expression w F args_to_bind parent always_use_lambda) /\
  but_documentation ([dq] ++ snd (function_expression w F args_to_bind parent always_use_lambda)) ([dq] ++ snd (function_expression w' (refn k F) args_to_bind parent always_use_lambda)).
Proof.
  unfold function_expression.
  repeat progress rewrite ?l_bound_name, ?l_class_qualified_name, ?l_const_suffix, ?l_f_const, ?l_f_decl, ?l_f_method, ?l_f_ret, ?l_f_static, ?w_fun_specialization, ?l_fun_specialization, ?w_function_arguments, ?l_function_arguments, ?w_function_arguments_for_lambda, ?l_function_arguments_for_lambda, ?l_function_pointer_type, ?w_lambda_return_type, ?l_n_name, ?l_n_qname, ?l_num_params, ?l_parent_of, ?w_standard_name, ?w_standard_name_q.
  destruct ((args_to_bind =? num_params F) && negb always_use_lambda).
  - cbv zeta. cbn [fst snd]. split; [reflexivity|]. rewrite !(app_assoc _ $"C++: "), !(app_assoc [dq]). apply bd_post.
    rewrite <- !(app_assoc [dq]). exact (bd_function (n_doc (f_decl F)) (n_doc (renamed k (f_decl F)))).
  - destruct (function_arguments_for_lambda w F args_to_bind) as [typed names]. cbv zeta. cbn [fst snd]. split; [reflexivity|apply bd_same].
Qed.
Local Opaque function_expression.
Ltac norm ::= repeat progress rewrite ?l_cfg, ?l_f_method, ?l_f_params, ?l_f_ret, ?l_f_static, ?l_function_expression, ?l_py_args, ?l_python_function_name, ?l_request_types, ?w_return_policy, ?l_return_policy.
Lemma l_bind_overload k F args_to_bind request parent always_use_lambda : bind_overload w' (refn k F) args_to_bind request parent always_use_lambda = bind_overload w F args_to_bind request parent always_use_lambda.
Proof. unfold bind_overload. go. Qed.
Lemma d_bind_overload k F args_to_bind request parent always_use_lambda :
  same_outcome redoc_emitted (bind_overload w F args_to_bind request parent always_use_lambda) (bind_overload w' (refn k F) args_to_bind request parent always_use_lambda).
Proof.
  unfold bind_overload. cbv zeta.
  repeat progress rewrite ?l_cfg, ?l_f_method, ?l_f_params, ?l_f_ret, ?l_f_static, ?l_py_args, ?l_python_function_name, ?l_request_types, ?w_return_policy, ?l_return_policy.
  destruct (d_function_expression k F args_to_bind parent always_use_lambda) as [A B].
  destruct (function_expression w F args_to_bind parent always_use_lambda) as [f d], (function_expression w' (refn k F) args_to_bind parent always_use_lambda) as [f' d'].
  cbn [fst snd] in A, B. subst f'. apply so_eq. intros qs. split; cbn [fst snd]; [|reflexivity].
  do 9 apply bd_pre. rewrite !(app_assoc [dq] d), !(app_assoc [dq] d'). apply bd_post. exact B.
Qed.
Local Opaque bind_overload.
Ltac norm ::= repeat progress rewrite ?l_f_params, ?l_num_params.
Lemma l_first_bound k F : first_bound (refn k F) = first_bound F.
Proof. unfold first_bound. go. Qed.
Local Opaque first_bound.
Ltac norm ::= repeat progress rewrite ?l_first_bound, ?l_num_params.
Lemma l_overload_counts k F : overload_counts (refn k F) = overload_counts F.
Proof. unfold overload_counts. go. Qed.
Local Opaque overload_counts.
Ltac norm ::= repeat progress rewrite ?l_opt, ?l_f_decl, ?w_function_arguments, ?l_function_arguments, ?w_function_qualified_name, ?l_function_qualified_name, ?w_line_number, ?l_line_number, ?l_relevant_include.
Lemma w_annotation : annotation w' = annotation w.
Proof. unfold annotation. norm. reflexivity. Qed.
Lemma l_annotation k F omit_return_type : annotation w (refn k F) omit_return_type = annotation w F omit_return_type.
Proof. unfold annotation. norm. reflexivity. Qed.
Local Opaque annotation.
Ltac norm ::= repeat progress rewrite ?w_annotation, ?l_annotation, ?l_bind_overload, ?l_f_variadic, ?l_num_params, ?l_overload_counts.
Lemma l_bind_function module k F parent always_use_lambda : bind_function w' module (refn k F) parent always_use_lambda = bind_function w module F parent always_use_lambda.
Proof. unfold bind_function. go. Qed.
Lemma d_bind_function module k F parent always_use_lambda :
  same_outcome redoc_emitted (bind_function w module F parent always_use_lambda) (bind_function w' module (refn k F) parent always_use_lambda).
Proof.
  unfold bind_function. repeat progress rewrite ?w_annotation, ?l_annotation, ?l_f_variadic, ?l_num_params, ?l_overload_counts. apply (so_bind redoc_emitted).
  - apply bd_emit. intros n. apply (so_bind redoc_emitted); [apply d_bind_overload|]. intros [s q] [s' q'] [E1 E2]. split; cbn [fst snd] in *; [|exact E2].
    apply bd_pre, bd_post. exact E1.
  - intros [s q] [s' q'] [E1 E2]. split; cbn [fst snd] in *; [apply bd_pre; exact E1|exact E2].
Qed.
Local Opaque bind_function.
Ltac norm ::= repeat progress rewrite ?w_function_qualified_name, ?l_function_qualified_name.
Lemma w_fun_id : fun_id w' = fun_id w.
Proof. unfold fun_id. norm. reflexivity. Qed.
Lemma l_fun_id k F : fun_id w (refn k F) = fun_id w F.
Proof. unfold fun_id. norm. reflexivity. Qed.
Local Opaque fun_id.
Ltac norm ::= repeat progress rewrite ?l_cpp_python_operator, ?l_f_conversion, ?l_f_decl, ?l_f_deleted, ?l_f_kind, ?l_f_method, ?l_f_operator, ?l_f_params, ?l_f_ret, ?w_is_banned_symbol, ?l_is_banned_symbol, ?l_is_bindable_q, ?l_n_qname.
Lemma l_is_bindable_fun k F : is_bindable_fun w' (refn k F) = is_bindable_fun w F.
Proof. unfold is_bindable_fun. go. Qed.
Local Opaque is_bindable_fun.
Ltac norm ::= repeat progress rewrite ?l_bind_function, ?l_f_decl, ?w_function_arguments, ?l_function_arguments, ?w_line_number, ?l_line_number, ?l_n_qname, ?w_namespace_from_named_decl, ?l_namespace_from_named_decl, ?l_relevant_include.
Lemma l_bind_fun k F : bind_fun w' (refn k F) = bind_fun w F.
Proof. unfold bind_fun. go. Qed.
Lemma d_bind_fun k F : same_outcome redoc_emitted (bind_fun w F) (bind_fun w' (refn k F)).
Proof.
  unfold bind_fun. repeat progress rewrite ?l_f_decl, ?w_function_arguments, ?l_function_arguments, ?w_line_number, ?l_line_number, ?l_n_qname, ?w_namespace_from_named_decl, ?l_namespace_from_named_decl, ?l_relevant_include.
  apply (so_bind redoc_emitted); [apply d_bind_function|]. intros [s q] [s' q'] [E1 E2]. cbn [fst snd] in E1, E2. subst q'. split; [|reflexivity]. cbn [fst].
  repeat first [apply bd_post; exact E1 | apply bd_pre | apply bd_cons].
Qed.
Local Opaque bind_fun.

(** ** Enum *)
Ltac norm ::= repeat progress rewrite ?l_e_decl, ?l_e_instance, ?l_n_name.
Lemma l_is_bindable_enum k e0 : is_bindable_enum (reenum k e0) = is_bindable_enum e0.
Proof. unfold is_bindable_enum. go. Qed.
Local Opaque is_bindable_enum.
Ltac norm ::= repeat progress rewrite ?l_cfg, ?l_e_decl, ?l_n_qname, ?w_namespace_from_named_decl, ?l_namespace_from_named_decl.
Lemma w_is_binding_requested_enum : is_binding_requested_enum w' = is_binding_requested_enum w.
Proof. unfold is_binding_requested_enum. norm. reflexivity. Qed.
Lemma l_is_binding_requested_enum k e0 : is_binding_requested_enum w (reenum k e0) = is_binding_requested_enum w e0.
Proof. unfold is_binding_requested_enum. norm. reflexivity. Qed.
Local Opaque is_binding_requested_enum.
Ltac norm ::= repeat progress rewrite ?l_cfg, ?l_e_decl, ?l_n_qname, ?w_namespace_from_named_decl, ?l_namespace_from_named_decl, ?w_standard_name.
Lemma w_is_skipping_requested_enum : is_skipping_requested_enum w' = is_skipping_requested_enum w.
Proof. unfold is_skipping_requested_enum. norm. reflexivity. Qed.
Lemma l_is_skipping_requested_enum k e0 : is_skipping_requested_enum w (reenum k e0) = is_skipping_requested_enum w e0.
Proof. unfold is_skipping_requested_enum. norm. reflexivity. Qed.
Local Opaque is_skipping_requested_enum.
Ltac norm ::= repeat progress rewrite ?l_enum, ?l_cfg, ?l_e_class_tag, ?l_e_decl, ?l_e_scoped, ?l_e_values, ?l_n_doc, ?l_n_name, ?l_n_qname, ?w_namespace_from_named_decl, ?l_namespace_from_named_decl.
Lemma l_bind_enum module k e0 : bind_enum w' module (reenum k e0) = bind_enum w module e0.
Proof. unfold bind_enum. go. Qed.
Lemma d_bind_enum module k e0 : same_outcome but_documentation (bind_enum w module e0) (bind_enum w' module (reenum k e0)).
Proof.
  unfold bind_enum. repeat progress rewrite ?l_enum, ?l_cfg, ?l_e_class_tag, ?l_e_decl, ?l_e_scoped, ?l_e_values, ?l_n_name, ?l_n_qname, ?w_namespace_from_named_decl, ?l_namespace_from_named_decl.
  apply so_eq. intros local. cbv zeta. apply bd_post.
  match goal with |- but_documentation (removelast ?a) (removelast ?b) => assert (X : exists x z, z <> [] /\ a = x ++ ([dq] ++ documentation_string (n_doc (e_decl e0)) ++ [dq]) ++ z /\
    b = x ++ ([dq] ++ documentation_string (n_doc (renamed k (e_decl e0))) ++ [dq]) ++ z) end.
  { exists ([tab] ++ $"pybind11::enum_<" ++ n_qname (e_decl e0) ++ $">(" ++ module ++ $", " ++ [dq] ++ n_name (e_decl e0) ++ [dq]
             ++ (if e_scoped e0 then [] else $", pybind11::arithmetic()") ++ $", "),
           ((if local then $", pybind11::module_local()" else []) ++ $")" ++ [nl] ++ concat (map enum_value (e_values e0))).
    split; [destruct local; discriminate|]. split; rewrite <- ?app_assoc; reflexivity. }
  destruct X as (x0 & z & Z & -> & ->). rewrite !app_assoc, !(removelast_tail _ z Z). apply bd_post. rewrite <- !app_assoc. apply bd_pre, bd_literal.
Qed.
Local Opaque bind_enum.
Ltac norm ::= repeat progress rewrite ?l_e_decl, ?l_n_qname.
Lemma l_enum_id k e0 : enum_id (reenum k e0) = enum_id e0.
Proof. unfold enum_id. go. Qed.
Local Opaque enum_id.
Ltac norm ::= repeat progress rewrite ?l_e_decl, ?w_is_banned_symbol, ?l_is_banned_symbol, ?l_is_bindable_enum.
Lemma w_enum_bindable : enum_bindable w' = enum_bindable w.
Proof. unfold enum_bindable. norm. reflexivity. Qed.
Lemma l_enum_bindable k e0 : enum_bindable w (reenum k e0) = enum_bindable w e0.
Proof. unfold enum_bindable. norm. reflexivity. Qed.
Local Opaque enum_bindable.
Ltac norm ::= repeat progress rewrite ?l_bind_enum, ?l_e_decl, ?w_generate_comment_for_declaration, ?l_generate_comment_for_declaration, ?w_namespace_from_named_decl, ?l_namespace_from_named_decl.
Lemma l_bind_enum_binder k e0 : bind_enum_binder w' (reenum k e0) = bind_enum_binder w e0.
Proof. unfold bind_enum_binder. go. Qed.
Lemma d_bind_enum_binder k e0 : same_outcome but_documentation (bind_enum_binder w e0) (bind_enum_binder w' (reenum k e0)).
Proof.
  unfold bind_enum_binder. repeat progress rewrite ?l_e_decl, ?w_generate_comment_for_declaration, ?l_generate_comment_for_declaration, ?w_namespace_from_named_decl, ?l_namespace_from_named_decl.
  apply (so_bind but_documentation); [apply d_bind_enum|]. intros s s' E. repeat first [apply bd_post; exact E | apply bd_pre].
Qed.
Local Opaque bind_enum_binder.

(** ** Includes *)
Ltac norm ::= repeat progress rewrite ?l_fun, ?l_fun_type_dependencies.
Lemma l_fun_actions f level : fun_actions w' f level = fun_actions w f level.
Proof. unfold fun_actions. go. Qed.
Local Opaque fun_actions.
Ltac norm ::= repeat progress rewrite ?l_enum, ?l_e_definition.
Lemma l_enum_actions e0 : enum_actions w' e0 = enum_actions w e0.
Proof. unfold enum_actions. go. Qed.
Local Opaque enum_actions.
Ltac norm ::= repeat progress rewrite ?l_n_access.
Lemma l_is_public k n0 : is_public (renamed k n0) = is_public n0.
Proof. unfold is_public. go. Qed.
Local Opaque is_public.
Ltac norm ::= repeat progress rewrite ?l_f_decl, ?l_f_dtor, ?l_is_bindable_fun, ?l_is_ctor, ?l_is_public, ?l_is_skipping_requested_fun.
Lemma l_member_ok k F : member_ok w' (refn k F) = member_ok w F.
Proof. unfold member_ok. go. Qed.
Local Opaque member_ok.
Ltac norm ::= repeat progress rewrite ?l_fun, ?l_f_method, ?l_member_ok.
Lemma l_spec_actions level l : spec_actions w' level l = spec_actions w level l.
Proof. induction l as [|f l IH]; cbn [spec_actions]; [reflexivity|]. norm. rewrite IH. reflexivity. Qed.
Local Opaque spec_actions.
Ltac norm ::= idtac.
Lemma l_member_template_specs r : member_template_specs (rec_ w' r) = member_template_specs (rec_ w r).
Proof. unfold member_template_specs. apply l_over_members. intros m m' A. destruct A; reflexivity. Qed.
Local Opaque member_template_specs.
Ltac norm ::= repeat progress rewrite ?l_fun, ?l_rdecl, ?l_f_decl, ?l_f_dtor, ?l_is_bindable_fun, ?l_is_public, ?l_member_template_specs, ?l_methods, ?l_spec_actions, ?l_targs_of.
Lemma l_rec_actions r level : rec_actions w' r level = rec_actions w r level.
Proof. unfold rec_actions. go. Qed.
Local Opaque rec_actions.
Ltac norm ::= repeat progress rewrite ?l_enum_actions, ?l_fun_actions, ?l_rec_actions.
Lemma l_actions d level : actions w' d level = actions w d level.
Proof. unfold actions. go. Qed.
Local Opaque actions.
Ltac norm ::= repeat progress rewrite ?l_actions, ?l_add_relevant_include_for_decl, ?l_fuel.
Lemma l_run_with fuel l : (forall d n s, add_includes fuel w' d n s = add_includes fuel w d n s) -> forall s, run_actions fuel w' l s = run_actions fuel w l s.
Proof.
  intros K. induction l as [|[d|d n] l IH]; intros s; [reflexivity| |].
  - rewrite !run_header. norm. apply IH.
  - rewrite !run_visit, K. apply bind_r_eq; [reflexivity|exact IH].
Qed.
Lemma l_add_includes fuel : forall d level s, add_includes fuel w' d level s = add_includes fuel w d level s.
Proof.
  induction fuel as [|fuel IH]; intros d level s; [reflexivity|]. rewrite !add_includes_eq. destruct (add_decl d level s); [|reflexivity]. norm.
  apply bind_r_eq; [reflexivity|]. intros acts. apply l_run_with. exact IH.
Qed.
Local Opaque add_includes.
Ltac norm ::= repeat progress rewrite ?l_add_includes, ?l_add_relevant_include_for_decl, ?l_fuel.
Lemma l_run_actions fuel l s : run_actions fuel w' l s = run_actions fuel w l s.
Proof. apply l_run_with. apply l_add_includes. Qed.
Local Opaque run_actions.
(** ** Class *)
Ltac norm ::= repeat progress rewrite ?l_fun, ?l_is_ctor, ?l_methods.
Lemma l_ctors r : ctors w' (rec_ w' r) = ctors w (rec_ w r).
Proof. unfold ctors. go. Qed.
Local Opaque ctors.
Ltac norm ::= repeat progress rewrite ?l_rdecl, ?l_fuel, ?l_n_qname, ?l_r_bases, ?l_r_complete.
Lemma l_inherits_enable_shared n : forall r, inherits_enable_shared n w' r = inherits_enable_shared n w r.
Proof.
  induction n as [|n IH]; intros r; cbn [inherits_enable_shared]; norm; [reflexivity|]. apply if_eq; [reflexivity|reflexivity|]. apply if_eq; [reflexivity| |reflexivity].
    apply exists_r_eq. intros b. destruct (base_record b); [apply IH|reflexivity].
Qed.
Local Opaque inherits_enable_shared.
Ltac norm ::= repeat progress rewrite ?l_rdecl, ?l_cfg, ?l_pr, ?l_rx, ?l_fuel, ?l_class_qualified_name, ?l_inherits_enable_shared, ?l_r_dtor.
Lemma l_holder r : holder w' r = holder w r.
Proof. unfold holder. go. Qed.
Local Opaque holder.
Ltac norm ::= repeat progress rewrite ?l_fun, ?l_rdecl, ?l_f_copy_assign, ?l_f_decl, ?l_f_deleted, ?l_fd_type, ?l_is_public, ?l_methods.
Lemma l_is_field_assignable k f : is_field_assignable w' (refield k f) = is_field_assignable w f.
Proof. unfold is_field_assignable. go. Qed.
Local Opaque is_field_assignable.
Ltac norm ::= repeat progress rewrite ?l_fd_anon, ?l_fd_type, ?l_is_bindable_q.
Lemma l_is_bindable_field k f : is_bindable_field w' (refield k f) = is_bindable_field w f.
Proof. unfold is_bindable_field. go. Qed.
Local Opaque is_bindable_field.
Ltac norm ::= repeat progress rewrite ?l_class_qualified_name, ?l_fd_decl, ?l_fd_type, ?l_is_field_assignable, ?l_n_name.
Lemma l_bind_data_member k f class_qualified_name : bind_data_member w' (refield k f) class_qualified_name = bind_data_member w f class_qualified_name.
Proof. unfold bind_data_member. go. Qed.
Local Opaque bind_data_member.
Ltac norm ::= idtac.
Lemma l_lifted_fields r : Forall2 moved_field (lifted_fields (rec_ w r)) (lifted_fields (rec_ w' r)).
Proof.
  unfold lifted_fields. pose proof (l_members r) as M. induction M as [|a b l l' A M IH]; cbn [flat_map]; [constructor|]. apply Forall2_app; [|exact IH].
  destruct A as [f f' A|a l1 l1' A|m N1 N2]; [constructor| |].
  - destruct a; try constructor. induction A as [|t t' k k' T A IHA]; cbn [flat_map]; [constructor|]. apply Forall2_app; [destruct T as [|g g' T]; [constructor|constructor; [exact T|constructor]]|exact IHA].
  - destruct m; try constructor. exfalso. eapply N2. reflexivity.
Qed.
Ltac norm ::= idtac.
Lemma l_own_fields r : Forall2 moved_field (own_fields (rec_ w r)) (own_fields (rec_ w' r)).
Proof.
  unfold own_fields. pose proof (l_members r) as M. induction M as [|a b l l' A M IH]; cbn [flat_map]; [constructor|]. apply Forall2_app; [|exact IH].
  destruct A as [f f' A|a l1 l1' A|m N1 N2].
  - constructor; [exact A|constructor].
  - constructor.
  - destruct m; try (constructor; fail). exfalso. eapply N1. reflexivity.
Qed.
Ltac norm ::= repeat progress rewrite ?l_cfg, ?l_fd_decl, ?l_is_bindable_field, ?l_is_public, ?l_n_qname.
Lemma l_exposed_fields r : Forall2 moved_field (exposed_fields w (rec_ w r)) (exposed_fields w' (rec_ w' r)).
Proof.
  unfold exposed_fields. apply Forall2_app.
  - apply Forall2_filter; [apply l_lifted_fields|]. intros a b Q. rewrite (moved_refield a b Q). norm. reflexivity.
  - apply Forall2_filter; [apply l_own_fields|]. intros a b Q. rewrite (moved_refield a b Q). norm. reflexivity.
Qed.
Local Opaque exposed_fields.
Ltac norm ::= repeat progress rewrite ?l_rdecl, ?l_bind_data_member, ?l_class_qualified_name.
Lemma l_binding_public_data_members r : binding_public_data_members w' r = binding_public_data_members w r.
Proof.
  unfold binding_public_data_members. f_equal. apply (Forall2_map moved_field); [apply l_exposed_fields|]. intros a b Q. rewrite (moved_refield a b Q). norm. reflexivity.
Qed.
Local Opaque binding_public_data_members.
Ltac norm ::= repeat progress rewrite ?l_fun, ?l_rdecl, ?l_f_const, ?l_f_decl, ?w_function_qualified_name, ?l_function_qualified_name, ?l_methods, ?l_n_access, ?l_parent_of.
Lemma l_is_const_overload k F : is_const_overload w' (refn k F) = is_const_overload w F.
Proof. unfold is_const_overload. go. Qed.
Local Opaque is_const_overload.
Ltac norm ::= repeat progress rewrite ?l_f_dtor, ?l_is_bindable_fun, ?l_is_const_overload, ?l_is_ctor, ?l_is_skipping_requested_fun.
Lemma l_plain_method_ok k F : plain_method_ok w' (refn k F) = plain_method_ok w F.
Proof. unfold plain_method_ok. go. Qed.
Local Opaque plain_method_ok.
Ltac norm ::= repeat progress rewrite ?l_f_decl, ?l_is_public, ?l_plain_method_ok.
Lemma l_public_method_ok k F : public_method_ok w' (refn k F) = public_method_ok w F.
Proof. unfold public_method_ok. go. Qed.
Local Opaque public_method_ok.
Ltac norm ::= repeat progress rewrite ?l_fun, ?l_f_method.
Lemma l_decl_candidates r m : decl_candidates w' r m = decl_candidates w r m.
Proof. unfold decl_candidates. go. Qed.
Local Opaque decl_candidates.
Ltac norm ::= repeat progress rewrite ?l_fun, ?l_plain_method_ok, ?l_public_method_ok.
Lemma l_candidate_ok c0 : candidate_ok w' c0 = candidate_ok w c0.
Proof. unfold candidate_ok. go. Qed.
Local Opaque candidate_ok.
Ltac norm ::= repeat progress rewrite ?l_rdecl, ?l_candidate_ok, ?l_decl_candidates, ?l_methods.
Lemma l_exposed_methods r : exposed_methods w' r = exposed_methods w r.
Proof.
  unfold exposed_methods. cbv zeta. norm.
  assert (E : flat_map (decl_candidates w' r) (r_members (rec_ w' r)) = flat_map (decl_candidates w r) (r_members (rec_ w r))).
  { apply l_over_members. intros m m' A. rewrite l_decl_candidates. Local Transparent decl_candidates. destruct A as [f f' A|a l1 l1' A|m N1 N2]; [reflexivity| |reflexivity].
    cbn [decl_candidates]. destruct a; try reflexivity. apply (l_over_targets (fun f => [(f, Some r)])); [exact A|reflexivity]. Local Opaque decl_candidates. }
  rewrite E. apply filter_r_eq. intros y. norm. reflexivity.
Qed.
Local Opaque exposed_methods.
Ltac norm ::= repeat progress rewrite ?l_fun, ?l_bind_function.
Lemma l_bind_member c0 : bind_member w' c0 = bind_member w c0.
Proof. unfold bind_member. go. Qed.
Lemma d_bind_member y : same_outcome redoc_emitted (bind_member w y) (bind_member w' y).
Proof. unfold bind_member. destruct y as [f q]. rewrite l_fun. apply d_bind_function. Qed.
Local Opaque bind_member.
Ltac norm ::= repeat progress rewrite ?l_bind_member, ?l_exposed_methods.
Lemma l_binding_public_member_functions r : binding_public_member_functions w' r = binding_public_member_functions w r.
Proof. unfold binding_public_member_functions. go. Qed.
Lemma d_binding_public_member_functions r : same_outcome redoc_emitted (binding_public_member_functions w r) (binding_public_member_functions w' r).
Proof. unfold binding_public_member_functions. rewrite l_exposed_methods. apply so_eq. intros l. apply bd_emit. apply d_bind_member. Qed.
Local Opaque binding_public_member_functions.
Ltac norm ::= repeat progress rewrite ?l_rdecl, ?l_binding_public_data_members, ?l_binding_public_member_functions, ?l_fuel, ?l_is_skipping_requested_rec, ?l_is_specialization, ?l_r_bases.
Lemma l_binding_template_bases n : forall r, binding_template_bases n w' r = binding_template_bases n w r.
Proof.
  induction n as [|n IH]; intros r; cbn [binding_template_bases]; norm; [reflexivity|]. apply if_eq; [reflexivity| |reflexivity].
  apply emit_map_eq. intros b. apply if_eq; [reflexivity| |reflexivity]. destruct (base_record b); [|reflexivity]. norm. rewrite IH. reflexivity.
Qed.
Lemma d_binding_template_bases n : forall r, same_outcome redoc_emitted (binding_template_bases n w r) (binding_template_bases n w' r).
Proof.
  assert (Z : redoc_emitted ([], []) ([], [])) by (split; [apply bd_same|reflexivity]).
  induction n as [|n IH]; intros r; cbn [binding_template_bases]; rewrite ?l_is_specialization, ?l_r_bases; (apply so_if; [|exact Z]).
  - destruct (r_bases (rec_ w r)); [exact Z|reflexivity].
  - apply bd_emit. intros b. apply so_if; [|exact Z]. destruct (base_record b) as [q|]; [|exact Z]. rewrite ?l_is_skipping_requested_rec, ?l_binding_public_data_members. apply so_eq. intros skip. apply so_if; [exact Z|].
    apply (so_bind redoc_emitted); [apply d_binding_public_member_functions|]. intros [s1 q1] [s1' q1'] [E1 F1].
    apply (so_bind redoc_emitted); [apply IH|]. intros [s2 q2] [s2' q2'] [E2 F2]. cbn [fst snd] in *. split; cbn [fst snd]; [|congruence].
    apply bd_pre, bd_app; assumption.
Qed.
Local Opaque binding_template_bases.
Ltac norm ::= repeat progress rewrite ?l_rdecl, ?w_namespace_from_named_decl, ?l_namespace_from_named_decl, ?l_python_class_name.
Lemma l_callback_structure_name r : callback_structure_name w' r = callback_structure_name w r.
Proof. unfold callback_structure_name. go. Qed.
Local Opaque callback_structure_name.
Ltac norm ::= repeat progress rewrite ?l_fun, ?l_rdecl, ?l_f_decl, ?l_f_dtor, ?l_f_pure, ?l_f_virtual, ?l_fuel, ?l_is_bindable_fun, ?l_is_const_overload, ?l_methods, ?l_n_access, ?l_r_abstract, ?l_r_bases, ?l_r_final.
Lemma l_is_callback_structure_needed n : forall r, is_callback_structure_needed n w' r = is_callback_structure_needed n w r.
Proof. induction n as [|n IH]; intros r; cbn [is_callback_structure_needed]; goh IH. Qed.
Local Opaque is_callback_structure_needed.
Ltac norm ::= repeat progress rewrite ?l_f_decl, ?l_f_pure, ?l_is_bindable_fun, ?l_is_ctor, ?l_is_skipping_requested_fun, ?l_n_access.
Lemma l_blocking_method k M : blocking_method w' (refn k M) = blocking_method w M.
Proof. unfold blocking_method. go. Qed.
Local Opaque blocking_method.
Ltac norm ::= repeat progress rewrite ?l_fun, ?l_rdecl, ?l_blocking_method, ?l_fuel, ?l_methods, ?l_r_abstract, ?l_r_bases.
Lemma l_is_callback_structure_constructible n : forall r, is_callback_structure_constructible n w' r = is_callback_structure_constructible n w r.
Proof. induction n as [|n IH]; intros r; cbn [is_callback_structure_constructible]; goh IH. Qed.
Local Opaque is_callback_structure_constructible.
Ltac norm ::= repeat progress rewrite ?l_f_const, ?l_f_decl, ?w_function_arguments_for_py_overload, ?l_function_arguments_for_py_overload, ?l_n_name.
Lemma w_callback_key : callback_key w' = callback_key w.
Proof. unfold callback_key. norm. reflexivity. Qed.
Lemma l_callback_key k M : callback_key w (refn k M) = callback_key w M.
Proof. unfold callback_key. norm. reflexivity. Qed.
Local Opaque callback_key.
Ltac norm ::= repeat progress rewrite ?l_f_decl, ?l_f_dtor, ?l_f_virtual, ?l_is_bindable_fun, ?l_is_const_overload, ?l_is_ctor, ?l_is_skipping_requested_fun, ?l_n_access.
Lemma l_callback_candidate k M : callback_candidate w' (refn k M) = callback_candidate w M.
Proof. unfold callback_candidate. go. Qed.
Local Opaque callback_candidate.
Ltac norm ::= repeat progress rewrite ?l_fun, ?l_rdecl, ?l_cfg, ?l_callback_structure_name, ?l_class_name, ?l_f_const, ?l_f_decl, ?l_f_est, ?l_f_pure, ?l_f_ret, ?w_function_arguments_for_py_overload, ?l_function_arguments_for_py_overload, ?l_n_name, ?w_namespace_from_named_decl, ?l_namespace_from_named_decl, ?l_python_function_name, ?w_standard_name_q.
Lemma l_overrider_text r m class_name ret_id : overrider_text w' r m class_name ret_id = overrider_text w r m class_name ret_id.
Proof.
  unfold overrider_text. norm. cbv zeta. destruct (function_arguments_for_py_overload w (fun_ w m)) as [typed names].
  destruct (contains_char "," _); norm; reflexivity.
Qed.
Local Opaque overrider_text.
Ltac norm ::= repeat progress rewrite ?l_fun, ?l_callback_candidate, ?w_callback_key, ?l_callback_key, ?l_class_name, ?l_f_final, ?l_overrider_text.
Lemma l_callback_methods r n l : forall st, callback_methods w' r n l st = callback_methods w r n l st.
Proof.
  induction l as [|m l IH]; intros st; cbn [callback_methods]; [reflexivity|]. norm. apply bind_r_eq; [reflexivity|]. intros ok. cbv zeta. norm.
  apply if_eq; [reflexivity| |apply IH]. apply if_eq; [reflexivity|apply IH|]. norm. destruct (overrider_text w r m n _) as [text i]. rewrite IH. reflexivity.
Qed.
Local Opaque callback_methods.
Ltac norm ::= repeat progress rewrite ?l_rdecl, ?l_callback_methods, ?l_class_name, ?l_fuel, ?l_methods, ?l_r_bases.
Lemma l_callback_overriders n : forall r name st, callback_overriders n w' r name st = callback_overriders n w r name st.
Proof.
  induction n as [|n IH]; intros r name st; cbn [callback_overriders]; norm; [reflexivity|]. apply bind_r_eq; [reflexivity|]. intros [own st1].
  apply bind_r_eq; [|reflexivity]. revert st1. induction (r_bases (rec_ w r)) as [|b l IHl]; intros st1; [reflexivity|].
  apply bind_r_eq; [apply if_eq; [reflexivity|reflexivity|]; destruct (base_record b); [apply IH|reflexivity]|]. intros [os st2]. rewrite IHl. reflexivity.
Qed.
Local Opaque callback_overriders.
Ltac norm ::= repeat progress rewrite ?l_rdecl, ?l_pr, ?l_rx, ?l_fuel, ?l_callback_overriders, ?l_callback_structure_name, ?l_class_qualified_name, ?w_generate_comment_for_declaration, ?l_generate_comment_for_declaration, ?l_n_name.
Lemma l_generate_prefix_code r : generate_prefix_code w' r = generate_prefix_code w r.
Proof. unfold generate_prefix_code. go. Qed.
Local Opaque generate_prefix_code.
Ltac norm ::= repeat progress rewrite ?l_fun, ?l_rdecl, ?l_ctors, ?l_f_ctor, ?l_f_decl, ?l_f_deleted, ?l_fuel, ?l_n_access, ?l_r_bases, ?l_r_has_default.
Lemma l_base_default_available n : forall r, base_default_available n w' r = base_default_available n w r.
Proof. induction n as [|n IH]; intros r; cbn [base_default_available]; goh IH. Qed.
Local Opaque base_default_available.
Ltac norm ::= repeat progress rewrite ?l_rdecl, ?w_annotation, ?l_annotation, ?l_f_params, ?l_f_variadic, ?w_function_arguments, ?l_function_arguments, ?w_function_arguments_for_lambda, ?l_function_arguments_for_lambda, ?l_num_params, ?l_py_args, ?l_r_abstract, ?l_request_types.
Lemma l_bind_ctor_overload ci k T args_to_bind request : bind_ctor_overload w' ci (refn k T) args_to_bind request = bind_ctor_overload w ci T args_to_bind request.
Proof. unfold bind_ctor_overload. go. Qed.
Local Opaque bind_ctor_overload.
Ltac norm ::= repeat progress rewrite ?l_f_params, ?l_num_params.
Lemma l_ctor_counts k T : ctor_counts (refn k T) = ctor_counts T.
Proof. unfold ctor_counts. go. Qed.
Local Opaque ctor_counts.
Ltac norm ::= repeat progress rewrite ?l_bind_ctor_overload, ?l_ctor_counts, ?l_num_params.
Lemma l_bind_constructor ci k T : bind_constructor w' ci (refn k T) = bind_constructor w ci T.
Proof. unfold bind_constructor. go. Qed.
Local Opaque bind_constructor.
Ltac norm ::= repeat progress rewrite ?l_rdecl, ?l_opt, ?w_annotation, ?l_annotation, ?l_r_abstract.
Lemma l_bind_default_constructor k ci T : bind_default_constructor w' ci (Some (refn k T)) = bind_default_constructor w ci (Some T).
Proof. unfold bind_default_constructor. go. Qed.
Lemma l_bind_default_none ci : bind_default_constructor w' ci None = bind_default_constructor w ci None.
Proof. unfold bind_default_constructor. go. Qed.
Local Opaque bind_default_constructor.
Ltac norm ::= repeat progress rewrite ?l_rdecl, ?w_annotation, ?l_annotation, ?l_f_ctor, ?l_f_decl, ?l_is_public, ?l_r_abstract.
Lemma l_bind_copy_constructor ci k T : bind_copy_constructor w' ci (refn k T) = bind_copy_constructor w ci T.
Proof. unfold bind_copy_constructor. go. Qed.
Local Opaque bind_copy_constructor.
Ltac norm ::= repeat progress rewrite ?l_f_ctor, ?l_f_decl, ?l_is_bindable_fun, ?l_is_public, ?l_is_skipping_requested_fun.
Lemma l_ctor_ok k T : ctor_ok w' (refn k T) = ctor_ok w T.
Proof. unfold ctor_ok. go. Qed.
Local Opaque ctor_ok.
Ltac norm ::= repeat progress rewrite ?l_f_ctor.
Lemma l_is_copy k T : is_copy (refn k T) = is_copy T.
Proof. unfold is_copy. go. Qed.
Local Opaque is_copy.
Ltac norm ::= repeat progress rewrite ?l_f_ctor.
Lemma l_is_default k T : is_default (refn k T) = is_default T.
Proof. unfold is_default. go. Qed.
Local Opaque is_default.
Ltac norm ::= repeat progress rewrite ?l_bind_constructor, ?l_bind_copy_constructor, ?l_bind_default_constructor, ?l_is_copy, ?l_is_default, ?l_num_params, ?l_bind_default_none.
Lemma l_bind_declared_ctor ci k T : bind_declared_ctor w' ci (refn k T) = bind_declared_ctor w ci T.
Proof. unfold bind_declared_ctor. go. Qed.
Local Opaque bind_declared_ctor.
Ltac norm ::= repeat progress rewrite ?l_fun, ?l_is_ctor.
Lemma l_lifted_ctors r : lifted_ctors w' (rec_ w' r) = lifted_ctors w (rec_ w r).
Proof.
  unfold lifted_ctors.
  rewrite (l_over_members (fun m => match m with MUsing Public ts => flat_map (fun t => match t with UMethod f => [f] | _ => [] end) ts | _ => [] end)).
  - apply filter_eq. intros f. norm. reflexivity.
  - intros m m' A. destruct A as [f f' A|a l1 l1' A|m N1 N2]; [reflexivity| |reflexivity]. destruct a; try reflexivity.
    apply (l_over_targets (fun f => [f])); [exact A|reflexivity].
Qed.
Local Opaque lifted_ctors.
Ltac norm ::= repeat progress rewrite ?l_bind_constructor, ?l_bind_default_constructor, ?l_is_bindable_fun, ?l_is_copy, ?l_is_default, ?l_num_params, ?l_bind_default_none.
Lemma l_bind_lifted_ctor ci k T : bind_lifted_ctor w' ci (refn k T) = bind_lifted_ctor w ci T.
Proof. unfold bind_lifted_ctor. go. Qed.
Local Opaque bind_lifted_ctor.
Ltac norm ::= repeat progress rewrite ?l_fun, ?l_rdecl, ?l_pr, ?l_rx, ?l_fuel, ?l_base_default_available, ?l_bind_declared_ctor, ?l_bind_default_constructor, ?l_bind_lifted_ctor, ?l_ctor_ok, ?l_ctors, ?l_is_default, ?l_lifted_ctors, ?l_r_needs_default, ?l_bind_default_none.
Lemma l_bind_ctors r ci : bind_ctors w' r ci = bind_ctors w r ci.
Proof. unfold bind_ctors. go. Qed.
Local Opaque bind_ctors.
Ltac norm ::= repeat progress rewrite ?l_rdecl, ?l_is_bindable_rec, ?l_is_skipping_requested_rec, ?l_n_qname, ?w_standard_name.
Lemma l_base_ok b : base_ok w' b = base_ok w b.
Proof. unfold base_ok. go. Qed.
Local Opaque base_ok.
Ltac norm ::= repeat progress rewrite ?l_base_ok, ?l_r_bases.
Lemma l_bound_bases r : bound_bases w' (rec_ w' r) = bound_bases w (rec_ w r).
Proof. unfold bound_bases. go. Qed.
Local Opaque bound_bases.
Ltac norm ::= repeat progress rewrite ?l_rdecl, ?w_generate_comment_for_declaration, ?l_generate_comment_for_declaration, ?w_namespace_from_named_decl, ?l_namespace_from_named_decl, ?l_rec_specialization, ?w_standard_name, ?l_targs_of.
Lemma l_bind_with r binder : bind_with w' r binder = bind_with w r binder.
Proof. unfold bind_with. go. Qed.
Local Opaque bind_with.
Ltac norm ::= repeat progress rewrite ?l_rdecl, ?l_class_qualified_name, ?l_r_struct.
Lemma l_insertion_operator_key r : insertion_operator_key w' r = insertion_operator_key w r.
Proof. unfold insertion_operator_key. go. Qed.
Local Opaque insertion_operator_key.
Ltac norm ::= repeat progress rewrite ?l_rdecl, ?l_n_name, ?w_standard_name, ?l_targs_of.
Lemma l_insertion_operator_template_key r : insertion_operator_template_key w' r = insertion_operator_template_key w r.
Proof. unfold insertion_operator_template_key. go. Qed.
Local Opaque insertion_operator_template_key.
Ltac norm ::= repeat progress rewrite ?l_rdecl, ?l_insertion_operator_key, ?l_insertion_operator_template_key, ?l_is_specialization.
Lemma l_global_insertion_operator ops r : global_insertion_operator w' ops r = global_insertion_operator w ops r.
Proof. unfold global_insertion_operator. go. Qed.
Local Opaque global_insertion_operator.
Ltac norm ::= repeat progress rewrite ?l_fun, ?l_rdecl, ?l_cfg, ?l_class_qualified_name, ?l_f_decl, ?l_global_insertion_operator, ?l_n_qname, ?w_namespace_from_named_decl, ?l_namespace_from_named_decl, ?w_standard_name.
Lemma l_bind_repr ops r : bind_repr w' ops r = bind_repr w ops r.
Proof. unfold bind_repr. go. Qed.
Local Opaque bind_repr.
Ltac norm ::= repeat progress rewrite ?l_rdecl, ?l_is_public.
Lemma l_nested_classes r : nested_classes w' (rec_ w' r) = nested_classes w (rec_ w r).
Proof.
  unfold nested_classes. apply l_over_members. intros m m' A. destruct A as [f f' A|a l1 l1' A|m N1 N2]; [reflexivity|reflexivity|]. destruct m; norm; same.
Qed.
Local Opaque nested_classes.
Ltac norm ::= repeat progress rewrite ?l_rdecl, ?l_is_bindable_rec, ?l_nested_classes, ?l_r_definition, ?l_r_first, ?l_r_is_def.
Lemma l_bound_nested r : bound_nested w' (rec_ w' r) = bound_nested w (rec_ w r).
Proof. unfold bound_nested. go. Qed.
Local Opaque bound_nested.
Ltac norm ::= repeat progress rewrite ?l_enum, ?l_e_decl, ?l_is_bindable_enum, ?l_is_public.
Lemma l_public_enums r : public_enums w' (rec_ w' r) = public_enums w (rec_ w r).
Proof.
  unfold public_enums. apply l_over_members. intros m m' A. destruct A as [f f' A|a l1 l1' A|m N1 N2]; [reflexivity|reflexivity|]. destruct m; norm; same.
Qed.
Local Opaque public_enums.
Ltac norm ::= repeat progress rewrite ?l_enum, ?l_bind_enum, ?w_is_skipping_requested_enum, ?l_is_skipping_requested_enum.
Lemma l_bind_enums l : bind_enums w' l = bind_enums w l.
Proof. induction l as [|y l IH]; cbn [bind_enums]; [reflexivity|]. norm. rewrite IH. reflexivity. Qed.
Lemma d_bind_enums l : same_outcome but_documentation (bind_enums w l) (bind_enums w' l).
Proof.
  induction l as [|y l IH]; cbn [bind_enums]; [apply bd_same|]. repeat progress rewrite ?l_enum, ?w_is_skipping_requested_enum, ?l_is_skipping_requested_enum.
  apply so_eq. intros skip. apply (so_bind but_documentation); [apply so_if; [apply bd_same|]; apply (so_bind but_documentation); [apply d_bind_enum|]; intros t t' E; apply bd_pre; exact E|]. intros s s' E.
  apply (so_bind but_documentation); [exact IH|]. intros t t' E'. apply bd_app; assumption.
Qed.
Local Opaque bind_enums.
Ltac norm ::= repeat progress rewrite ?l_rdecl, ?l_cfg, ?l_class_qualified_name, ?l_n_doc, ?l_n_qname, ?l_python_class_name, ?w_standard_name.
Lemma l_class_head r hold trampoline_text bases_text module_var extra : class_head w' r hold trampoline_text bases_text module_var extra = class_head w r hold trampoline_text bases_text module_var extra.
Proof. unfold class_head. go. Qed.
Lemma d_class_head r hold trampoline_text bases_text module_var extra :
  but_documentation (class_head w r hold trampoline_text bases_text module_var extra) (class_head w' r hold trampoline_text bases_text module_var extra).
Proof.
  unfold class_head. cbv zeta. repeat progress rewrite ?l_rdecl, ?l_cfg, ?l_class_qualified_name, ?l_n_qname, ?l_python_class_name, ?w_standard_name.
  do 11 apply bd_pre.
  assert (E : forall d z, $""", """ ++ d ++ $"""" ++ z = $""", " ++ ([dq] ++ d ++ [dq]) ++ z) by (intros; rewrite <- !app_assoc; reflexivity).
  rewrite !E. apply bd_pre, bd_post, bd_literal.
Qed.
Local Opaque class_head.
Ltac norm ::= repeat progress rewrite ?l_rdecl, ?l_cfg, ?l_pr, ?l_rx, ?l_fuel, ?l_bind_ctors, ?l_bind_enums, ?l_bind_repr, ?l_bind_with, ?l_binding_public_data_members, ?l_binding_public_member_functions, ?l_binding_template_bases, ?l_bound_bases, ?l_bound_nested, ?l_callback_structure_name, ?l_class_head, ?l_class_qualified_name, ?w_generate_comment_for_declaration, ?l_generate_comment_for_declaration, ?l_generate_prefix_code, ?l_holder, ?l_is_callback_structure_constructible, ?l_is_callback_structure_needed, ?w_is_python_builtin, ?l_is_python_builtin, ?l_n_member, ?l_n_qname, ?w_namespace_from_named_decl, ?l_namespace_from_named_decl, ?l_public_enums, ?l_r_abstract, ?l_r_anon, ?l_request_types, ?w_standard_name.
Lemma l_bind_class n : forall ops r, bind_class n w' ops r = bind_class n w ops r.
Proof.
  assert (O1 : forall {A B} (y z : option A) (f g : A -> B) p q, y = z -> (forall a, f a = g a) -> p = q ->
     match y with Some a => f a | None => p end = match z with Some a => g a | None => q end) by (intros ? ? ? [?|] ? ? ? ? -> ? ->; auto).
  assert (O2 : forall {A B C} (y z : A * B) (f g : A -> B -> C), y = z -> (forall a b, f a b = g a b) -> (let (a, b) := y in f a b) = (let (a, b) := z in g a b))
    by (intros ? ? ? ? [? ?] ? ? -> ?; auto).
  induction n as [|n IH]; intros ops r; cbn [bind_class]; cbv zeta.
  all: apply if_eq; [norm; same|norm; same|].
  all: apply O1; [norm; same|intros ?; norm; same|].
  all: (apply bind_r_eq; [norm; same|]); intros callback.
  all: (apply bind_r_eq; [norm; same|]); intros trampoline; (apply bind_r_eq; [norm; same|]); intros [prefix0 incl0].
  all: (apply bind_r_eq; [norm; same|]); intros hold; (apply bind_r_eq; [norm; same|]); intros local.
  all: (apply bind_r_eq; [apply if_eq; [norm; same| |norm; same]; apply bind_r_eq; [norm; same|]; intros bs; go|]); intros [[head deps] q0].
  all: (apply bind_r_eq; [norm; same|]); intros [s1 q1]; (apply bind_r_eq; [norm; same|]); intros s2; (apply bind_r_eq; [norm; same|]); intros [s3 q3].
  all: (apply bind_r_eq; [norm; same|]); intros [s4 q4]; apply O2; [norm; same|]; intros s5 incl5.
  all: apply bind_r_eq; [|intros [[s7 prefix7] q7]; norm; same].
  - norm. same.
  - rewrite l_bound_nested. destruct (bound_nested w (rec_ w r)) as [|y l]; [same|]. rewrite IH. apply bind_r_eq; [same|]. intros b. apply bind_r_eq; [|intros; same].
    induction l as [|i l IHl]; [reflexivity|]. rewrite IH, IHl. reflexivity.
Qed.
Ltac norm ::= repeat progress rewrite ?l_rdecl, ?l_cfg, ?l_pr, ?l_rx, ?l_fuel, ?l_bind_ctors, ?l_bind_repr, ?l_bind_with, ?l_binding_public_data_members, ?l_bound_bases, ?l_bound_nested, ?l_callback_structure_name, ?l_class_qualified_name, ?w_generate_comment_for_declaration, ?l_generate_comment_for_declaration, ?l_generate_prefix_code, ?l_holder, ?l_is_callback_structure_constructible, ?l_is_callback_structure_needed, ?w_is_python_builtin, ?l_is_python_builtin, ?l_n_member, ?l_n_qname, ?w_namespace_from_named_decl, ?l_namespace_from_named_decl, ?l_public_enums, ?l_r_abstract, ?l_r_anon, ?l_request_types, ?w_standard_name.
Definition redoc_head (a b : str * list nat * list str) : Prop := but_documentation (fst (fst a)) (fst (fst b)) /\ snd (fst b) = snd (fst a) /\ snd b = snd a.
Definition redoc_nested (a b : str * str * list str) : Prop := but_documentation (fst (fst a)) (fst (fst b)) /\ snd (fst b) = snd (fst a) /\ snd b = snd a.
Lemma d_bind_class n : forall ops r, same_outcome redoc_bound (bind_class n w ops r) (bind_class n w' ops r).
Proof.
  assert (RB : forall s s' p i d q, but_documentation s s' -> redoc_bound (mkcbound s p i d q) (mkcbound s' p i d q)) by (intros; repeat split; assumption).
  assert (RN : redoc_nested ([], [], []) ([], [], [])) by (split; [apply bd_same|split; reflexivity]).
  induction n as [|n IH]; intros ops r; cbn [bind_class]; cbv zeta; norm.
  all: (apply so_if; [apply RB, bd_same|]).
  all: (match goal with |- context [lookup ?a ?b] => destruct (lookup a b) as [bi|] end; [norm; apply RB, bd_same|norm]).
  all: apply so_eq; intros callback; norm; apply so_eq; intros trampoline; norm; apply so_eq; intros [prefix0 incl0]; norm; apply so_eq; intros hold; norm; apply so_eq; intros local; norm.
  all: (apply (so_bind redoc_head); [apply so_if; [|split; [apply bd_same|split; reflexivity]]; apply so_eq; intros bs; norm; apply so_eq; intros q; norm|]).
  1,3: (split; [|split; reflexivity]); cbn [fst];
       rewrite (map_ext (fun R0 => $", " ++ class_qualified_name w' R0) (fun R0 => $", " ++ class_qualified_name w R0) (fun a => f_equal (app $", ") (l_class_qualified_name a)));
       apply d_class_head.
  all: intros [[head deps] q0] [[head' deps'] q0'] (H1 & H2 & H3); cbn [fst snd] in H1, H2, H3; subst deps' q0'; norm.
  all: apply so_eq; intros [s1 q1]; norm.
  all: (apply (so_bind but_documentation); [apply d_bind_enums|]); intros s2 s2' H2; norm.
  all: (apply (so_bind redoc_emitted); [apply d_binding_public_member_functions|]); intros [s3 q3] [s3' q3'] [H3 E3]; cbn [fst snd] in H3, E3; subst q3'.
  all: (apply (so_bind redoc_emitted); [apply d_binding_template_bases|]); intros [s4 q4] [s4' q4'] [H4 E4]; cbn [fst snd] in H4, E4; subst q4'; norm.
  all: destruct (bind_repr w ops r) as [s5 incl5]; norm.
  all: apply (so_bind redoc_nested); [|intros [[s7 p7] q7] [[s7' p7'] q7'] (H7 & E7 & F7); cbn [fst snd] in H7, E7, F7; subst p7' q7'; norm;
        apply RB, bd_indent; do 3 apply bd_pre; apply bd_app; [exact H1|]; apply bd_pre; apply bd_app; [exact H2|]; apply bd_pre; apply bd_app; [exact H3|];
        apply bd_app; [exact H4|]; do 2 apply bd_pre; apply bd_post;
        pose proof (bd_nil_iff _ _ H7) as N7; destruct s7 as [|c7 s7], s7' as [|c7' s7'];
          [apply bd_same|discriminate (proj1 N7 eq_refl)|discriminate (proj2 N7 eq_refl)|apply bd_pre; exact H7]].
  - destruct (bound_nested w (rec_ w r)); [exact RN|reflexivity].
  - destruct (bound_nested w (rec_ w r)) as [|y l]; [exact RN|].
    assert (Z : forall l, same_outcome redoc_nested
                 ((fix over (l : list nat) : result (str * str * list str) :=
                   match l with
                   | [] => Ok ([], [], [])
                   | i :: l' => do b <- bind_class n w ops i; do (s, p, q) <- over l'; Ok (cb_code b ++ [nl] ++ s, cb_prefix b ++ p, cb_req b ++ q)
                   end) l)
                 ((fix over (l : list nat) : result (str * str * list str) :=
                   match l with
                   | [] => Ok ([], [], [])
                   | i :: l' => do b <- bind_class n w' ops i; do (s, p, q) <- over l'; Ok (cb_code b ++ [nl] ++ s, cb_prefix b ++ p, cb_req b ++ q)
                   end) l)).
    { clear - IH RN. induction l as [|i l IHl]; [exact RN|].
      apply (so_bind redoc_bound); [apply IH|]. intros b b' (_&_&B3&B4&B5).
      apply (so_bind redoc_nested); [exact IHl|]. intros [[s p] q] [[s' p'] q'] (E1 & E2 & E3). cbn [fst snd] in E1, E2, E3. subst p' q'. rewrite B3, B4.
      split; [|split; reflexivity]. cbn [fst]. apply bd_app; [exact B5|]. apply bd_pre. exact E1. }
    apply (Z (y :: l)).
Qed.
Local Opaque bind_class.
Ltac norm ::= repeat progress rewrite ?l_rdecl, ?l_cfg, ?l_opt, ?l_fuel, ?l_n_qname, ?l_nested_classes, ?l_run_actions, ?w_standard_name.
Lemma l_class_includes_rec fuel n : forall r incl s, class_includes_rec fuel n w' r incl s = class_includes_rec fuel n w r incl s.
Proof.
  induction fuel as [|fuel IH]; intros r incl s; cbn [class_includes_rec]; cbv zeta; norm; (apply bind_r_eq; [|intros s1; norm; reflexivity]);
    destruct (nested_classes w (rec_ w r)) as [|y l]; try reflexivity.
  match goal with |- context [fold_left ?f ?l0 s] => generalize (fold_left f l0 s) end. intros s0.
  apply bind_r_eq; [apply IH|]. induction l as [|z l IHl]; intros s2; [reflexivity|]. apply bind_r_eq; [apply IH|]. exact IHl.
Qed.
Local Opaque class_includes_rec.

(** ** Context *)
Ltac norm ::= repeat progress rewrite ?l_fun, ?l_enum, ?l_class_qualified_name, ?l_enum_id, ?w_fun_id, ?l_fun_id.
Lemma l_decl_id d : decl_id w' d = decl_id w d.
Proof. unfold decl_id. go. Qed.
Local Opaque decl_id.
Ltac norm ::= repeat progress rewrite ?w_typename_from_enum, ?l_typename_from_rec.
Lemma l_type_names d : type_names w' d = type_names w d.
Proof. unfold type_names. go. Qed.
Local Opaque type_names.
Ltac norm ::= repeat progress rewrite ?l_decl_id, ?l_type_names.
Lemma l_add d c0 : add w' d c0 = add w d c0.
Proof. unfold add. go. Qed.
Local Opaque add.
Ltac norm ::= repeat progress rewrite ?l_fun, ?l_function_pointer_type.
Lemma l_add_insertion_operator f c0 : add_insertion_operator w' f c0 = add_insertion_operator w f c0.
Proof. unfold add_insertion_operator. go. Qed.
Local Opaque add_insertion_operator.
Ltac norm ::= repeat progress rewrite ?l_fun, ?l_enum, ?l_rdecl, ?l_add, ?l_add_insertion_operator, ?l_e_decl, ?l_f_decl, ?l_f_method, ?l_f_operator, ?l_is_bindable_fun, ?l_is_bindable_rec, ?l_n_member, ?l_n_name.
Lemma l_visit d c0 : visit w' d c0 = visit w d c0.
Proof. unfold visit. go. Qed.
Local Opaque visit.
Ltac norm ::= repeat progress rewrite ?l_visit.
Lemma l_collect l : collect w' l = collect w l.
Proof.
  unfold collect. generalize empty_context. induction l as [|d l IH]; intros y; cbn [fold_left]; [reflexivity|]. norm. apply IH.
Qed.
Local Opaque collect.
Ltac norm ::= repeat progress rewrite ?l_fun, ?l_enum, ?w_enum_bindable, ?l_enum_bindable, ?l_is_bindable_fun, ?l_is_bindable_rec.
Lemma l_bindable b : bindable w' b = bindable w b.
Proof. unfold bindable. go. Qed.
Local Opaque bindable.
Ltac norm ::= repeat progress rewrite ?l_named_of, ?l_pr, ?l_rx, ?l_fuel.
Lemma l_named_decl b : named_decl w' b = renamed (dline (b_decl b)) (named_decl w b).
Proof. unfold named_decl. go. Qed.
Local Opaque named_decl.
Ltac norm ::= repeat progress rewrite ?w_is_python_builtin, ?l_is_python_builtin, ?l_named_decl.
Lemma l_builtin b : builtin w' b = builtin w b.
Proof. unfold builtin. go. Qed.
Local Opaque builtin.
Ltac norm ::= repeat progress rewrite ?l_builtin.
Lemma l_is_binded b : is_binded w' b = is_binded w b.
Proof. unfold is_binded. go. Qed.
Local Opaque is_binded.
Ltac norm ::= repeat progress rewrite ?l_fun, ?l_enum, ?w_is_skipping_requested_enum, ?l_is_skipping_requested_enum, ?l_is_skipping_requested_fun, ?l_is_skipping_requested_rec.
Lemma l_skip_decl d : skip_decl w' d = skip_decl w d.
Proof. unfold skip_decl. go. Qed.
Local Opaque skip_decl.
Ltac norm ::= repeat progress rewrite ?l_fun, ?l_enum, ?w_is_binding_requested_enum, ?l_is_binding_requested_enum, ?l_is_binding_requested_fun, ?l_is_binding_requested_rec.
Lemma l_bind_decl d : bind_decl w' d = bind_decl w d.
Proof. unfold bind_decl. go. Qed.
Local Opaque bind_decl.
Ltac norm ::= repeat progress rewrite ?l_bind_decl, ?l_bindable, ?l_n_system, ?l_named_decl, ?l_skip_decl.
Lemma l_initial_request b : initial_request w' b = initial_request w b.
Proof. unfold initial_request. go. Qed.
Local Opaque initial_request.
Ltac norm ::= repeat progress rewrite ?l_bindable, ?l_builtin, ?l_is_binded.
Lemma l_request types name l : request w' types name l = request w types name l.
Proof. unfold request. destruct (lookup name types); [|reflexivity]. apply update_nth_eq. intros b. norm. reflexivity. Qed.
Local Opaque request.
Ltac norm ::= repeat progress rewrite ?l_fun, ?l_enum, ?l_pr, ?l_rx, ?l_fuel, ?l_bind_class, ?l_bind_enum_binder, ?l_bind_fun.
Lemma l_generate_code ops d : generate_code w' ops d = generate_code w ops d.
Proof. unfold generate_code. go. Qed.
Lemma d_generate_code ops d : same_outcome redoc_bound (generate_code w ops d) (generate_code w' ops d).
Proof.
  destruct d as [f|r|i]; cbn [generate_code]; rewrite ?l_fun, ?l_enum, ?l_fuel.
  - apply (so_bind redoc_emitted); [apply d_bind_fun|]. intros [s q] [s' q'] [E1 E2]. cbn [fst snd] in *. subst q'. repeat split. exact E1.
  - apply d_bind_class.
  - apply (so_bind but_documentation); [apply d_bind_enum_binder|]. intros s s' E. repeat split. exact E.
Qed.
Local Opaque generate_code.
Ltac norm ::= repeat progress rewrite ?l_bindable, ?l_is_binded.
Lemma l_wants_binding b : wants_binding w' b = wants_binding w b.
Proof. unfold wants_binding. go. Qed.
Local Opaque wants_binding.
Ltac norm ::= repeat progress rewrite ?l_generate_code, ?l_request, ?l_wants_binding.
Lemma l_bind_pass y todo : forall l log, bind_pass w' y todo l log = bind_pass w y todo l log.
Proof.
  induction todo as [|i todo IH]; intros l log; cbn [bind_pass]; [reflexivity|]. destruct (nth_error l i) as [b|]; [|reflexivity]. norm.
  apply if_eq; [reflexivity| |apply IH]. apply bind_r_eq; [reflexivity|]. intros g. cbv zeta.
  assert (E : forall q l, fold_left (fun l n => request w' (x_types y) n l) q l = fold_left (fun l n => request w (x_types y) n l) q l).
  { induction q as [|n q IHq]; intros m; cbn [fold_left]; [reflexivity|]. rewrite l_request. apply IHq. }
  rewrite E. apply IH.
Qed.
Local Opaque bind_pass.
Ltac norm ::= repeat progress rewrite ?l_bind_pass, ?l_fuel.
Lemma l_bind_loop n : forall y l log, bind_loop n w' y l log = bind_loop n w y l log.
Proof.
  induction n as [|n IH]; intros y l log; cbn [bind_loop]; [reflexivity|]. norm. apply bind_r_eq; [reflexivity|]. intros [l1 log1]. rewrite IH. reflexivity.
Qed.
Local Opaque bind_loop.
Ltac norm ::= repeat progress rewrite ?l_bind_loop, ?l_initial_request.
Lemma l_bind_all c0 : bind_all w' c0 = bind_all w c0.
Proof. unfold bind_all. go. Qed.
Local Opaque bind_all.
Ltac norm ::= repeat progress rewrite ?l_rdecl, ?l_class_qualified_name, ?w_is_python_builtin, ?l_is_python_builtin.
Lemma l_sort_binders l : sort_binders w' l = sort_binders w l.
Proof. unfold sort_binders. apply sort_loop_ext; intros n; norm; reflexivity. Qed.
Local Opaque sort_binders.
Ltac norm ::= repeat progress rewrite ?l_named_decl, ?w_namespace_from_named_decl, ?l_namespace_from_named_decl.
Lemma l_binder_namespace b : binder_namespace w' b = binder_namespace w b.
Proof. unfold binder_namespace. go. Qed.
Local Opaque binder_namespace.
Ltac norm ::= repeat progress rewrite ?l_binder_namespace, ?l_named_decl, ?l_relevant_include.
Lemma l_file_name_prefix b : file_name_prefix w' b = file_name_prefix w b.
Proof. unfold file_name_prefix. go. Qed.
Local Opaque file_name_prefix.
Ltac norm ::= repeat progress rewrite ?l_cfg.
Lemma w_generate_include_directives : generate_include_directives w' = generate_include_directives w.
Proof. unfold generate_include_directives. norm. reflexivity. Qed.
Local Opaque generate_include_directives.
Ltac norm ::= repeat progress rewrite ?l_pr, ?l_rx, ?l_fuel, ?l_add_includes, ?l_class_includes_rec.
Lemma l_binder_includes b s : binder_includes w' b s = binder_includes w b s.
Proof. unfold binder_includes. go. Qed.
Local Opaque binder_includes.
Ltac norm ::= repeat progress rewrite ?l_opt, ?l_binder_includes, ?l_decl_id.
Lemma l_add_item b st : add_item w' b st = add_item w b st.
Proof. unfold add_item. go. Qed.
Local Opaque add_item.
Ltac norm ::= repeat progress rewrite ?l_opt.
Lemma w_fits : fits w' = fits w.
Proof. unfold fits. norm. reflexivity. Qed.
Local Opaque fits.
Ltac norm ::= repeat progress rewrite ?l_add_item, ?l_binder_namespace, ?w_fits.
Lemma l_fill ns skip rest : forall st, fill w' ns skip rest st = fill w ns skip rest st.
Proof.
  induction rest as [|b rest IH]; intros st; cbn [fill]; [reflexivity|]. norm. apply if_eq; [reflexivity| |reflexivity]. apply bind_r_eq; [reflexivity|].
  intros st1. rewrite IH. reflexivity.
Qed.
Local Opaque fill.
Ltac norm ::= repeat progress rewrite ?l_cfg.
Lemma w_first_code : first_code w' = first_code w.
Proof. unfold first_code. norm. reflexivity. Qed.
Local Opaque first_code.
Ltac norm ::= repeat progress rewrite ?l_opt, ?l_file_name_prefix.
Lemma l_name_prefix b : name_prefix w' b = name_prefix w b.
Proof. unfold name_prefix. go. Qed.
Local Opaque name_prefix.
Ltac norm ::= repeat progress rewrite ?l_opt.
Lemma w_file_stem : file_stem w' = file_stem w.
Proof. unfold file_stem. norm. reflexivity. Qed.
Local Opaque file_stem.
Ltac norm ::= repeat progress rewrite ?l_cfg.
Lemma w_pybind11_include_line : pybind11_include_line w' = pybind11_include_line w.
Proof. unfold pybind11_include_line. norm. reflexivity. Qed.
Local Opaque pybind11_include_line.
Ltac norm ::= repeat progress rewrite ?l_cfg, ?l_opt, ?w_generate_include_directives, ?l_holder, ?w_pybind11_include_line.
Lemma l_file_text fname st : file_text w' fname st = file_text w fname st.
Proof. unfold file_text. go. Qed.
Local Opaque file_text.
Ltac norm ::= repeat progress rewrite ?l_cfg, ?l_binder_namespace, ?w_file_stem, ?l_file_text, ?l_fill, ?w_first_code, ?l_fuel, ?l_name_prefix.
Lemma l_write_loop n : forall rest fnames entrance tc, write_loop n w' rest fnames entrance tc = write_loop n w rest fnames entrance tc.
Proof.
  induction n as [|n IH]; intros [|b rest] fnames entrance tc; cbn [write_loop]; try reflexivity. apply if_eq; [reflexivity|apply IH|]. cbv zeta. norm.
  destruct (first_code w _ _) as [call skip]. apply bind_r_eq; [norm; same|]. intros [[t l] st]. rewrite IH. norm. same.
Qed.
Local Opaque write_loop.
Ltac norm ::= repeat progress rewrite ?l_write_loop.
Lemma l_write_files l : write_files w' l = write_files w l.
Proof. unfold write_files. go. Qed.
Local Opaque write_files.
Ltac norm ::= repeat progress rewrite ?l_binder_namespace.
Lemma l_nested_namespaces l : nested_namespaces w' l = nested_namespaces w l.
Proof. unfold nested_namespaces. go. Qed.
Local Opaque nested_namespaces.
Ltac norm ::= repeat progress rewrite ?l_opt, ?w_pybind11_include_line.
Lemma w_root_text : root_text w' = root_text w.
Proof. unfold root_text. norm. reflexivity. Qed.
Local Opaque root_text.
Ltac norm ::= repeat progress rewrite ?l_opt.
Lemma w_root_file_name : root_file_name w' = root_file_name w.
Proof. unfold root_file_name. norm. reflexivity. Qed.
Local Opaque root_file_name.
Ltac norm ::= repeat progress rewrite ?w_root_file_name.
Lemma w_source_names : source_names w' = source_names w.
Proof. unfold source_names. norm. reflexivity. Qed.
Local Opaque source_names.
Ltac norm ::= repeat progress rewrite ?l_bind_all, ?l_nested_namespaces, ?l_sort_binders, ?l_write_files.
Lemma l_generate c0 : generate w' c0 = generate w c0.
Proof. unfold generate. go. Qed.
Local Opaque generate.
Ltac norm ::= repeat progress rewrite ?l_opt.
Lemma w_root_path : root_path w' = root_path w.
Proof. unfold root_path. norm. reflexivity. Qed.
Local Opaque root_path.
Ltac norm ::= repeat progress rewrite ?w_root_path, ?w_root_text, ?w_source_names.
Lemma w_single_file_text : single_file_text w' = single_file_text w.
Proof. unfold single_file_text. norm. reflexivity. Qed.
Local Opaque single_file_text.
Ltac norm ::= repeat progress rewrite ?l_opt, ?w_root_file_name, ?w_root_path, ?w_root_text, ?w_single_file_text, ?w_source_names.
Lemma l_write_output mkdir_ok can_open o0 f : write_output mkdir_ok can_open w' o0 f = write_output mkdir_ok can_open w o0 f.
Proof. unfold write_output. go. Qed.
Local Opaque write_output.
Ltac norm ::= repeat progress rewrite ?l_collect, ?l_generate, ?l_bind_all, ?l_sort_binders.
(** ** The run, with any comments *)
Local Notation sims := (Forall2 redocumented).
Lemma q_bindable b b' : redocumented b b' -> bindable w' b' = bindable w b.
Proof. Local Transparent bindable. intros (E & _ & S & _). rewrite l_bindable. unfold bindable. rewrite E, S. reflexivity. Qed.
Local Opaque bindable.
Lemma q_builtin b b' : redocumented b b' -> builtin w' b' = builtin w b.
Proof. Local Transparent builtin named_decl. intros (E & _). rewrite l_builtin. unfold builtin, named_decl. rewrite E. reflexivity. Qed.
Local Opaque builtin named_decl.
Lemma q_has_code b b' : redocumented b b' -> has_code b' = has_code b.
Proof.
  intros (_ & _ & _ & _ & _ & _ & B). apply bd_nil_iff in B. unfold has_code. destruct (b_code b), (b_code b'); try reflexivity; [discriminate (proj1 B eq_refl)|discriminate (proj2 B eq_refl)].
Qed.
Lemma q_is_binded b b' : redocumented b b' -> is_binded w' b' = is_binded w b.
Proof. Local Transparent is_binded. intros E. unfold is_binded. rewrite (q_builtin b b' E), (q_has_code b b' E). reflexivity. Qed.
Local Opaque is_binded.
Lemma q_set_bind b b' : redocumented b b' -> redocumented (set_bind b) (set_bind b').
Proof. intros (A1&A2&A3&A4&A5&A6&A7). repeat split; assumption. Qed.
Lemma q_set_code g g' b b' : redoc_bound g g' -> redocumented b b' -> redocumented (set_code g b) (set_code g' b').
Proof. intros (B1&B2&B3&B4&B5) (A1&A2&A3&A4&A5&A6&A7). repeat split; assumption. Qed.
Lemma q_request types n l l' : sims l l' -> sims (request w types n l) (request w' types n l').
Proof.
  Local Transparent request. intros F. unfold request. destruct (lookup n types); [|exact F]. apply qs_update; [|exact F]. intros b b' E.
  rewrite (q_is_binded b b' E), (q_bindable b b' E), (q_builtin b b' E), (proj1 (proj2 (proj2 E))).
  destruct (negb (is_binded w b) && bindable w b && negb (b_skip_req b) && negb (builtin w b)); [apply q_set_bind|]; exact E.
Qed.
Local Opaque request.
Lemma q_requests types q : forall l l', sims l l' -> sims (fold_left (fun l n => request w types n l) q l) (fold_left (fun l n => request w' types n l) q l').
Proof. induction q as [|n q IH]; intros l l' F; cbn [fold_left]; [exact F|]. apply IH, q_request, F. Qed.
Lemma q_wants b b' : redocumented b b' -> wants_binding w' b' = wants_binding w b.
Proof. Local Transparent wants_binding. intros E. unfold wants_binding. rewrite (q_is_binded b b' E), (q_bindable b b' E), (proj1 (proj2 E)). reflexivity. Qed.
Local Opaque wants_binding.
Definition q_state (a b : list binder * list nat) : Prop := sims (fst a) (fst b) /\ snd b = snd a.
Local Transparent bind_pass bind_loop bind_all sort_binders.
Lemma q_bind_pass y todo : forall l l' log, sims l l' -> same_outcome q_state (bind_pass w y todo l log) (bind_pass w' y todo l' log).
Proof.
  induction todo as [|i todo IH]; intros l l' log F; cbn [bind_pass]; [split; [exact F|reflexivity]|].
  pose proof (qs_nth redocumented l l' i F) as N. destruct (nth_error l i) as [b|], (nth_error l' i) as [b'|]; try contradiction; [|split; [exact F|reflexivity]].
  rewrite (q_wants b b' N). apply so_if; [|apply IH; exact F]. rewrite (proj1 N).
  apply (so_bind redoc_bound); [apply d_generate_code|]. intros g g' G. cbv zeta. rewrite (proj1 (proj2 (proj2 G))).
  apply IH. apply qs_update; [|apply q_requests; exact F]. intros z z' E. apply q_set_code; assumption.
Qed.
Local Opaque bind_pass.
Lemma q_bind_loop n : forall y l l' log, sims l l' -> same_outcome q_state (bind_loop n w y l log) (bind_loop n w' y l' log).
Proof.
  induction n as [|n IH]; intros y l l' log F; cbn [bind_loop]; [reflexivity|]. rewrite (qs_length redocumented l l' F).
  apply (so_bind q_state); [apply q_bind_pass; exact F|]. intros [l1 log1] [l1' log1'] [A B]. cbn [fst snd] in A, B. subst log1'.
  apply so_if; [split; [exact A|reflexivity]|]. apply IH. exact A.
Qed.
Local Opaque bind_loop.
Lemma q_bind_all y : same_outcome q_state (bind_all w y) (bind_all w' y).
Proof.
  unfold bind_all. rewrite (map_r_eq (initial_request w') (initial_request w) _ l_initial_request). apply so_eq. intros l. apply q_bind_loop. apply redocumented_refls.
Qed.
Local Opaque bind_all.
Lemma q_sort l l' : sims l l' -> same_outcome sims (sort_binders w l) (sort_binders w' l').
Proof.
  intros F. rewrite l_sort_binders. unfold sort_binders, sort_fuel. rewrite (qs_length redocumented l l' F). apply q_sort_loop; [| |exact F].
  - intros b b' E. apply E.
  - intros b b' E. apply E.
Qed.
Local Opaque sort_binders.
Theorem d_plan visits : same_outcome q_state (plan w visits) (plan w' visits).
Proof.
  unfold plan. rewrite l_collect. apply (so_bind q_state); [apply q_bind_all|]. intros [l log] [l' log'] [A B]. cbn [fst snd] in A, B. subst log'.
  apply (so_bind sims); [apply q_sort; exact A|]. intros s s' F. split; [exact F|reflexivity].
Qed.
Lemma d_same_namespaces l l' : Forall2 same_item l l' -> nested_namespaces w' l' = nested_namespaces w l.
Proof.
  Local Transparent nested_namespaces binder_namespace named_decl. intros F. rewrite l_nested_namespaces. unfold nested_namespaces. f_equal.
  induction F as [|b b' l l' E F IH]; cbn [flat_map]; [reflexivity|].
  assert (C : has_code b' = has_code b).
  { destruct E as (_&_&_&_&_&E). unfold has_code. destruct (b_code b), (b_code b'); try reflexivity; [discriminate (proj2 E eq_refl)|discriminate (proj1 E eq_refl)]. }
  rewrite C, IH. unfold binder_namespace, named_decl. rewrite (proj1 E). reflexivity.
Qed.
Local Opaque nested_namespaces binder_namespace named_decl.
Ltac norm ::= repeat progress rewrite ?l_collect, ?l_generate, ?l_bind_all, ?l_sort_binders.
Lemma l_run visits : run w' visits = run w visits.
Proof. unfold run. norm. same. Qed.
Lemma l_plan visits : plan w' visits = plan w visits.
Proof. unfold plan. norm. go. Qed.
End Moved.
