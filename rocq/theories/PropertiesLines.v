(** C96, C99: declarations that are moved to other lines or get other comments. *)
From Coq Require Import Ascii String Bool Arith NArith.
From Coq Require Import List.
From Verif Require Import Str Util Config Ast Types Func Enum Includes Class Context Program SpecContext SpecLayout SpecSettings SpecStyle SpecLines DocText LinesFacts
  StyleFacts StyleRun PropertiesStyle PropertiesContext RunFacts WriteFacts ContextFacts PropertiesLayout Samples.
Import ListNotations.

Definition with_skip_line_number (b : bool) (o : options) : options :=
  mkoptions (annotate_includes o) (annotate_functions o) (single_file o) (trace o) (flat o) (include_pybind11_stl o) (root_module o)
            (max_file_size o) b (prefix o) (bind_class_template_specialization o).

(** With --skip-line-number the whole result of a run, the text of every
    generated file or the failure, is the same for the moved declarations;
    their comments may be laid out in another way. *)
Theorem C96_same_output : forall e e' c o visits, moved same_documentation e e' -> skip_line_number o = true ->
  run (mkworld e' c o) visits = run (mkworld e c o) visits.
Proof.
  intros [R Fs Es p x fl] [R' Fs' Es' p' x' fl'] c o visits (HR & HF & HE & E1 & E2 & E3) SK. cbn in HR, HF, HE, E1, E2, E3. subst.
  exact (l_run false R R' Fs Fs' Es Es' p x fl c o HR HF HE SK eq_refl visits).
Qed.
Print Assumptions C96_same_output.

(** So is everything that an invocation on several source files leaves on the
    disk and the way in which it ends. *)
Definition moved_source (s s' : source) : Prop := moved same_documentation (so_env s) (so_env s') /\ so_visits s' = so_visits s.
Theorem C96_same_program : forall i l l' f, Forall2 moved_source l l' -> skip_line_number (i_options i) = true ->
  map d_disk (fst (program i l' f)) = map d_disk (fst (program i l f)) /\
  map d_output (fst (program i l' f)) = map d_output (fst (program i l f)) /\
  snd (program i l' f) = snd (program i l f).
Proof.
  intros i l l' f H SK. unfold program. generalize default_config as c. revert f.
  induction H as [|s s' l l' [M V] H IH]; intros f c; [repeat split|].
  cbn [process_all]. unfold process. destruct (setup c (i_bind i) (i_skip i) (i_config i) (i_config_text i)) as [c1| | | |]; cbn [bind_r]; try (repeat split; fail).
  rewrite V. pose proof (C96_same_output _ _ c1 _ (so_visits s) M SK) as Er. unfold run in Er. rewrite Er.
  destruct (generate _ (collect (mkworld (so_env s) c1 (i_options i)) (so_visits s))) as [o| | | |]; cbn [bind_r]; try (repeat split; fail).
  assert (W : forall g, write_output (i_mkdir_ok i) (i_can_open i) (mkworld (so_env s') c1 (i_options i)) o g =
                        write_output (i_mkdir_ok i) (i_can_open i) (mkworld (so_env s) c1 (i_options i)) o g).
  { intros g. reflexivity. }
  rewrite W. destruct (write_output (i_mkdir_ok i) (i_can_open i) (mkworld (so_env s) c1 (i_options i)) o f) as [g| | | |]; cbn [bind_r]; try (repeat split; fail).
  cbn [d_config d_disk]. specialize (IH g c1).
  destruct (process_all i l c1 g) as [ds r], (process_all i l' c1 g) as [ds' r']. cbn in IH |- *.
  destruct IH as (A & B & C). rewrite A, B, C. repeat split.
Qed.
Print Assumptions C96_same_program.

(** Decisions do not depend on --skip-line-number. *)
Lemma with_lines e e' c o visits :
  same_outcome (fun p p' => Forall2 same_item (fst p) (fst p') /\ snd p' = snd p)
    (plan (mkworld e c (with_skip_line_number true o)) visits) (plan (mkworld e' c (with_skip_line_number true o)) visits) ->
  same_outcome (fun p p' => Forall2 same_item (fst p) (fst p') /\ snd p' = snd p) (plan (mkworld e c o) visits) (plan (mkworld e' c o) visits).
Proof.
  intros Q.
  assert (SC : same_selection c c) by (repeat split; intros; try reflexivity; assumption).
  assert (S1 : same_selecting_options o (with_skip_line_number true o)) by (split; reflexivity).
  assert (S2 : same_selecting_options (with_skip_line_number true o) o) by (split; reflexivity).
  pose proof (C83_same_decisions e c c o _ visits SC S1) as K1. pose proof (C83_same_decisions e' c c _ o visits SC S2) as K2.
  assert (T : forall l1 l2 l3, Forall2 same_item l1 l2 -> Forall2 same_item l2 l3 -> Forall2 same_item l1 l3).
  { intros l1 l2 l3 A. revert l3. induction A as [|a b l1 l2 Hab A IH]; intros l3 B; inversion B as [|b' d l2' l3' Hbd B']; subst; constructor.
    - destruct Hab as (X1 & X2 & X3 & X4 & X5 & X6), Hbd as (Y1 & Y2 & Y3 & Y4 & Y5 & Y6).
      repeat split; try congruence; tauto.
    - apply IH. exact B'. }
  revert K1 K2 Q. unfold same_outcome.
  destruct (plan (mkworld e c o) visits), (plan (mkworld e c (with_skip_line_number true o)) visits), (plan (mkworld e' c (with_skip_line_number true o)) visits), (plan (mkworld e' c o) visits);
    intros K1 K2 Q; try contradiction; try congruence.
  destruct K1 as [A1 B1], K2 as [A2 B2], Q as [A3 B3]. split; [exact (T _ _ _ A1 (T _ _ _ A3 A2))|congruence].
Qed.

(** Without the option the texts may differ in the line numbers, but not the
    decisions: what is bound, in which order, what it depends on, what it
    includes, and how the run fails if it does. *)
Theorem C96_same_decisions : forall e e' c o visits, moved same_documentation e e' ->
  same_outcome (fun p p' => Forall2 same_item (fst p) (fst p') /\ snd p' = snd p) (plan (mkworld e c o) visits) (plan (mkworld e' c o) visits).
Proof.
  intros e e' c o visits M.
  assert (Q : plan (mkworld e' c (with_skip_line_number true o)) visits = plan (mkworld e c (with_skip_line_number true o)) visits).
  { destruct M as (HR & HF & HE & E1 & E2 & E3).
    destruct e as [R Fs Es p x fl], e' as [R' Fs' Es' p' x' fl']. cbn in HR, HF, HE, E1, E2, E3. subst.
    exact (l_plan false R R' Fs Fs' Es Es' p x fl c (with_skip_line_number true o) HR HF HE eq_refl eq_refl visits). }
  apply (with_lines e e' c o visits). rewrite Q. apply so_refl. intros [a b]. split; [apply sims_refl|reflexivity].
Qed.
Print Assumptions C96_same_decisions.

(** ** C99: comments *)
(** With other comments, and on other lines, the same items are bound in the
    same order and for the same reasons, and their texts are the same except
    for the documentation; if one run fails to decide so does the other, in
    the same way. *)
Theorem C99_only_documentation : forall e e' c o visits, moved any_documentation e e' -> skip_line_number o = true ->
  same_outcome (fun p p' => Forall2 redocumented (fst p) (fst p') /\ snd p' = snd p) (plan (mkworld e c o) visits) (plan (mkworld e' c o) visits).
Proof.
  intros [R Fs Es p x fl] [R' Fs' Es' p' x' fl'] c o visits (HR & HF & HE & E1 & E2 & E3) SK. cbn in HR, HF, HE, E1, E2, E3. subst.
  exact (d_plan true R R' Fs Fs' Es Es' p x fl c o HR HF HE SK visits).
Qed.
Print Assumptions C99_only_documentation.
(** The decisions are the same with line numbers, too. *)
Theorem C99_same_decisions : forall e e' c o visits, moved any_documentation e e' ->
  same_outcome (fun p p' => Forall2 same_item (fst p) (fst p') /\ snd p' = snd p) (plan (mkworld e c o) visits) (plan (mkworld e' c o) visits).
Proof.
  intros e e' c o visits M. apply (with_lines e e' c o visits).
  pose proof (C99_only_documentation e e' c (with_skip_line_number true o) visits M eq_refl) as K. revert K. unfold same_outcome.
  destruct (plan (mkworld e c (with_skip_line_number true o)) visits), (plan (mkworld e' c (with_skip_line_number true o)) visits); try (intros K; exact K).
  intros [A B]. split; [|exact B]. clear -A. induction A as [|b b' l l' E A IH]; constructor; [|exact IH].
  destruct E as (E1 & E2 & E3 & E4 & E5 & E6 & E7). apply bd_nil_iff in E7. repeat split; try assumption; apply E7.
Qed.
Print Assumptions C99_same_decisions.
(** The files of two successful runs bind the same declarations in the same
    order, in the same modules. *)
Theorem C99_same_items : forall e e' c o visits y y', moved any_documentation e e' ->
  run (mkworld e c o) visits = Ok y -> run (mkworld e' c o) visits = Ok y' ->
  out_log y' = out_log y /\ out_namespaces y' = out_namespaces y /\
  map b_decl (filter has_code (flat_map g_items (out_files y'))) = map b_decl (filter has_code (flat_map g_items (out_files y))).
Proof.
  intros e e' c o visits y y' M A A'. destruct (run_plan _ _ _ A) as [P N], (run_plan _ _ _ A') as [P' N'].
  pose proof (C99_same_decisions e e' c o visits M) as K. rewrite P, P' in K. destruct K as [B1 B2]. cbn [fst snd] in B1, B2.
  destruct (C31_every_bound_item_in_one_file _ _ _ A) as [I1 _], (C31_every_bound_item_in_one_file _ _ _ A') as [I2 _].
  split; [exact B2|]. split.
  - rewrite N, N'. destruct e as [R Fs Es p x fl], e' as [R' Fs' Es' p' x' fl']. destruct M as (HR & HF & HE & E1 & E2 & E3). cbn in HR, HF, HE, E1, E2, E3. subst p' x' fl'.
    exact (d_same_namespaces true R R' Fs Fs' Es Es' p x fl c o HR HF HE _ _ B1).
  - rewrite I1, I2. apply sims_decls, sims_filter. exact B1.
Qed.
Print Assumptions C99_same_items.

(** ** A case: everything in the sample program is moved. *)
Definition down (k : nat) (n : named) : named :=
  mknamed (n_name n) (n_qname n) (n_include n) (k + n_line n) (n_system n) (n_access n) (n_member n) (n_parent n) (n_doc n).
Definition down_field (k : nat) (f : field) : field := mkfield (down k (fd_decl f)) (fd_type f) (fd_anon f).
Definition down_member (k : nat) (m : member) : member :=
  match m with
  | MField f => MField (down_field k f)
  | MUsing a l => MUsing a (map (fun t => match t with UField f => UField (down_field k f) | t => t end) l)
  | m => m
  end.
Definition down_fn (k : nat) (F : fn) : fn :=
  mkfn (down k (f_decl F)) (f_ret F) (f_params F) (f_method F) (f_static F) (f_const F) (f_virtual F) (f_pure F) (f_final F) (f_variadic F) (f_deleted F)
       (f_operator F) (f_conversion F) (f_dtor F) (f_ctor F) (f_kind F) (f_targs F) (f_est F) (f_copy_assign F).
Definition down_enum (k : nat) (E : enum) : enum :=
  mkenum (down k (e_decl E)) (e_scoped E) (e_class_tag E) (e_instance E) (e_complete E) (e_values E) (e_definition E).
Definition down_record (k : nat) (C : record) : record :=
  mkrecord (down k (r_decl C)) (r_targs C) (r_struct C) (r_abstract C) (r_final C) (r_complete C) (r_is_def C) (r_definition C) (r_first C) (r_anon_ns C)
           (r_linkage C) (r_anon C) (r_dependent C) (r_instantiated C) (r_has_default C) (r_needs_default C) (r_dtor C) (r_bases C)
           (map (down_member k) (r_members C)).
Definition moved_down (k : nat) (e : env) : env :=
  mkenv (fun r => down_record k (recs e r)) (fun f => down_fn (2 * k) (funs e f)) (fun n => down_enum (3 * k) (enums e n)) (print e) (rx e) (e_fuel e).
Lemma moved_down_ok k e : moved same_documentation e (moved_down k e).
Proof.
  assert (D : forall j n, moved_named same_documentation n (down j n)) by (intros j n; repeat split).
  assert (DF : forall j f, moved_field same_documentation f (down_field j f)) by (intros j f; split; [apply D|split; reflexivity]).
  repeat split; try reflexivity. cbn. generalize (r_members (recs e r)) as l. intros l. induction l as [|m l IH]; constructor; [|exact IH].
  destruct m as [f|f|n|r0|a t|t|a t]; cbn; try (constructor; try apply DF; intros; discriminate).
  constructor. induction t as [|u t IHt]; constructor; [|exact IHt]. destruct u; constructor. apply DF.
Qed.
Example C96_case : moved same_documentation mix_env (moved_down 7 mix_env) /\ n_line (f_decl (funs (moved_down 7 mix_env) 0)) <> n_line (f_decl (funs mix_env 0)) /\
  skip_line_number (mix_options true false 1000%N) = true /\
  exists o, run (mkworld mix_env mix_config (mix_options true false 1000%N)) mix_visits = Ok o /\ 2 < length (out_files o) /\
    exists o', run (mkworld (moved_down 7 mix_env) mix_config (mix_options true false 1000%N)) mix_visits = Ok o' /\ map g_text (out_files o') = map g_text (out_files o).
Proof.
  split; [apply moved_down_ok|]. split; [cbv; discriminate|]. split; [reflexivity|].
  destruct (run (mkworld mix_env mix_config (mix_options true false 1000%N)) mix_visits) as [o| | | |] eqn:E; try (vm_compute in E; discriminate E).
  exists o. split; [reflexivity|]. split.
  - vm_compute in E. apply Ok_inj in E. rewrite <- E. vm_compute. repeat constructor.
  - exists o. split; [|reflexivity]. rewrite <- E. apply C96_same_output; [apply moved_down_ok|reflexivity].
Qed.
(** Without the option the numbers are part of the text. *)
Theorem C96_lines_refuted : ~ (forall e e' c o visits, moved same_documentation e e' -> run (mkworld e' c o) visits = run (mkworld e c o) visits).
Proof.
  intros H. specialize (H mix_env (moved_down 7 mix_env) mix_config (with_skip_line_number false (mix_options true false 1000%N)) mix_visits (moved_down_ok _ _)).
  vm_compute in H. discriminate H.
Qed.
Print Assumptions C96_lines_refuted.

(** ** A case: other comments for everything in the sample program. *)
Definition remark (t : str) (n : named) : named :=
  mknamed (n_name n) (n_qname n) (n_include n) (3 + n_line n) (n_system n) (n_access n) (n_member n) (n_parent n) (Some (CText 1 t)).
Definition remark_fn (t : str) (F : fn) : fn :=
  mkfn (remark t (f_decl F)) (f_ret F) (f_params F) (f_method F) (f_static F) (f_const F) (f_virtual F) (f_pure F) (f_final F) (f_variadic F) (f_deleted F)
       (f_operator F) (f_conversion F) (f_dtor F) (f_ctor F) (f_kind F) (f_targs F) (f_est F) (f_copy_assign F).
Definition remark_enum (t : str) (E : enum) : enum :=
  mkenum (remark t (e_decl E)) (e_scoped E) (e_class_tag E) (e_instance E) (e_complete E) (e_values E) (e_definition E).
Definition remark_record (t : str) (C : record) : record :=
  mkrecord (remark t (r_decl C)) (r_targs C) (r_struct C) (r_abstract C) (r_final C) (r_complete C) (r_is_def C) (r_definition C) (r_first C) (r_anon_ns C)
           (r_linkage C) (r_anon C) (r_dependent C) (r_instantiated C) (r_has_default C) (r_needs_default C) (r_dtor C) (r_bases C) (r_members C).
Definition remarked (t : str) (e : env) : env :=
  mkenv (fun r => remark_record t (recs e r)) (fun f => remark_fn t (funs e f)) (fun n => remark_enum t (enums e n)) (print e) (rx e) (e_fuel e).
Lemma remarked_ok t e : moved any_documentation e (remarked t e).
Proof.
  assert (D : forall n, moved_named any_documentation n (remark t n)) by (intros n; repeat split).
  repeat split; try apply D. cbn. generalize (r_members (recs e r)) as l. intros l. induction l as [|m l IH]; constructor; [|exact IH].
  assert (DF : forall f, moved_field any_documentation f f) by (intros f; repeat split).
  destruct m as [f|f|n|r0|a t0|t0|a t0]; try (constructor; try apply DF; intros; discriminate).
  constructor. induction t0 as [|u t0 IHt]; constructor; [|exact IHt]. destruct u; constructor. apply DF.
Qed.
Example C99_case : moved any_documentation mix_env (remarked $"a ""b""" mix_env) /\
  skip_line_number (mix_options true false 1000%N) = true /\
  exists o o', run (mkworld mix_env mix_config (mix_options true false 1000%N)) mix_visits = Ok o /\
    run (mkworld (remarked $"a ""b""" mix_env) mix_config (mix_options true false 1000%N)) mix_visits = Ok o' /\
    map b_code (out_sorted o') <> map b_code (out_sorted o) /\ length (filter has_code (out_sorted o)) = 5.
Proof.
  split; [apply remarked_ok|]. split; [reflexivity|].
  destruct (run (mkworld mix_env mix_config (mix_options true false 1000%N)) mix_visits) as [o| | | |] eqn:E; try (vm_compute in E; discriminate E).
  destruct (run (mkworld (remarked $"a ""b""" mix_env) mix_config (mix_options true false 1000%N)) mix_visits) as [o'| | | |] eqn:E'; try (vm_compute in E'; discriminate E').
  exists o, o'. split; [reflexivity|]. split; [reflexivity|].
  vm_compute in E. apply Ok_inj in E. rewrite <- E. vm_compute in E'. apply Ok_inj in E'. rewrite <- E'. clear E E' o o'. split; [vm_compute; discriminate|vm_compute; reflexivity].
Qed.
(** Comments count for the size of the files: with longer comments the items
    may be spread over more files. *)
Theorem C99_layout_refuted : ~ (forall e e' c o visits y y', moved any_documentation e e' -> skip_line_number o = true ->
  run (mkworld e c o) visits = Ok y -> run (mkworld e' c o) visits = Ok y' -> length (out_files y') = length (out_files y)).
Proof.
  intros H.
  pose (t := $"0123456789012345678901234567890123456789012345678901234567890123456789012345678901234567890123456789012345678901234567890123456789012345678901234567890123456789").
  destruct (run (mkworld mix_env mix_config (mix_options true false 1000%N)) mix_visits) as [o| | | |] eqn:E; try (vm_compute in E; discriminate E).
  destruct (run (mkworld (remarked (t ++ t ++ t ++ t ++ t ++ t) mix_env) mix_config (mix_options true false 1000%N)) mix_visits) as [o'| | | |] eqn:E'; try (vm_compute in E'; discriminate E').
  specialize (H mix_env (remarked (t ++ t ++ t ++ t ++ t ++ t) mix_env) mix_config (mix_options true false 1000%N) mix_visits o o' (remarked_ok _ _) eq_refl E E').
  vm_compute in E. apply Ok_inj in E. rewrite <- E in H. vm_compute in E'. apply Ok_inj in E'. rewrite <- E' in H. vm_compute in H. discriminate H.
Qed.
Print Assumptions C99_layout_refuted.
