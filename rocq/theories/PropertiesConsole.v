(** What the program reports.  The specification is in SpecConsole.v. *)
From Coq Require Import Ascii String Bool Arith NArith Lia.
From Coq Require Import List.
From Verif Require Import Str StrFacts Util UtilFacts Config Ast Types Func Enum Includes Class Context Program Console SpecUtil SpecContext SpecDisk SpecConsole
  ContextFacts RunFacts WriteFacts ProgramFacts ConsoleFacts Samples PropertiesContext.
Import ListNotations.
Local Opaque say_bind say_updates bind_all collect sort_binders write_files run write_output setup nested_namespaces root_text single_file_text modules_text.

(** ** C94: the lines on the console *)

Lemma output_said v m c w visits l log f gs f' : bind_all w (collect w visits) = Ok (l, log) ->
  (exists said, say_output v m c w l f = Ok (gs, f', said)) <->
  (exists o, run w visits = Ok o /\ write_output m c w o f = Ok f' /\ gs = out_files o).
Proof.
  intros B. Local Transparent run write_output. unfold say_output, run, generate. rewrite B. cbn [bind_r].
  split.
  - intros [said H]. cbv zeta in H. destruct (c (prefix (wopt w) ++ $"/" ++ root_file_name w)) eqn:C; cbn [negb] in H; [|discriminate H].
    apply bind_r_Ok in H. destruct H as [s [E1 H]]. rewrite E1. cbn [bind_r].
    apply bind_r_Ok in H. destruct H as [gs' [E2 H]]. rewrite E2. cbn [bind_r]. eexists. split; [reflexivity|].
    apply bind_r_Ok in H. destruct H as [[f1 x] [E3 H]]. apply Ok_inj in H. injection H as <- <- _. split; [|reflexivity].
    unfold write_output. cbv zeta. rewrite C. cbn [negb]. destruct (single_file (wopt w)).
    + apply Ok_inj in E3. injection E3 as <- _. Local Transparent single_file_text root_text. reflexivity.
    + apply bind_r_Ok in E3. destruct E3 as [[f2 y] [E3 E4]]. apply said_updates in E3. apply Ok_inj in E4. injection E4 as <- _.
      cbn [out_files out_namespaces]. rewrite E3. reflexivity.
  - intros [o [R [W ->]]].
    apply bind_r_Ok in R. destruct R as [s [E1 R]]. apply bind_r_Ok in R. destruct R as [gs' [E2 R]]. apply Ok_inj in R. subst o.
    unfold write_output in W. cbv zeta in W |- *. destruct (c (prefix (wopt w) ++ $"/" ++ root_file_name w)) eqn:C; cbn [negb] in W |- *; [|discriminate W]. rewrite E1. cbn [bind_r]. rewrite E2. cbn [bind_r out_files out_namespaces].
    destruct (single_file (wopt w)).
    + apply Ok_inj in W. subst f'. eexists. reflexivity.
    + apply bind_r_Ok in W. destruct W as [f1 [U W]]. apply Ok_inj in W. subst f'. cbn [out_files] in U. destruct (updates_said v _ _ _ _ _ _ U) as [said ->].
      eexists. reflexivity.
Qed.
Local Opaque write_output.
(** Whether -v is given or not: the program succeeds in the same cases and
    leaves the same files. *)
Theorem C94_same_run : forall v i file s c f gs f',
  (exists said, say_process v i file s c f = Ok (gs, f', said)) <->
  (exists d, process i s c f = Ok d /\ gs = out_files (d_output d) /\ f' = d_disk d).
Proof.
  intros v i file s c f gs f'. unfold say_process, process.
  destruct (setup c (i_bind i) (i_skip i) (i_config i) (i_config_text i)) as [c1| | | |]; cbn [bind_r];
    try (split; intros [x H]; [|destruct H as [H _]]; discriminate).
  cbv zeta. set (w := mkworld (so_env s) c1 (i_options i)). pose proof (bind_said w (so_visits s)) as B.
  fold (run w (so_visits s)).
  destruct (bind_all w (collect w (so_visits s))) as [[l log]| | | |] eqn:E.
  2-5: split; [intros [said H]; destruct (say_bind v w (collect w (so_visits s))) as [q| | | |] eqn:Q; cbn [bind_r] in H; try discriminate; destruct (B v q Q)|];
       intros [d [H _]]; apply bind_r_Ok in H; destruct H as [o [R _]]; destruct (run_inv _ _ _ R) as [l [X _]]; rewrite E in X; discriminate X.
  destruct B as [blocks [_ [_ Sb]]]. rewrite (Sb v). cbn [bind_r].
  pose proof (output_said v (i_mkdir_ok i) (i_can_open i) w (so_visits s) l log f gs f' E) as O. split.
  - intros [said H]. apply bind_r_Ok in H. destruct H as [[[gs1 f1] more] [H1 H]]. apply Ok_inj in H. injection H as -> -> _.
    destruct (proj1 O (ex_intro _ more H1)) as [o [R [W ->]]]. rewrite R. cbn [bind_r]. rewrite W. cbn [bind_r]. eexists. split; [reflexivity|]. split; reflexivity.
  - intros [d [H [-> ->]]]. apply bind_r_Ok in H. destruct H as [o [R H]]. apply bind_r_Ok in H. destruct H as [f1 [W H]]. apply Ok_inj in H. subst d. cbn [d_output d_disk] in *.
    destruct (proj2 O (ex_intro _ o (conj R (conj W eq_refl)))) as [said ->]. cbn [bind_r]. eexists. reflexivity.
Qed.
Print Assumptions C94_same_run.
Local Opaque run.
Lemma said_verbose l : said_of true l = map LBinding l.
Proof. unfold said_of. induction l as [|x l IH]; [reflexivity|]. exact (f_equal (cons (LBinding x)) IH). Qed.
Lemma said_quiet l : said_of false l = [].
Proof. unfold said_of. induction l as [|x l IH]; [reflexivity|]. exact IH. Qed.
Lemma passes_verbose n ids : passes_said true n ids = passes n ids.
Proof. revert n. induction ids as [|l ids IH]; intros n; cbn [passes_said passes]; [reflexivity|]. rewrite IH, said_verbose. reflexivity. Qed.
Lemma passes_quiet n ids : passes_said false n ids = filter (fun x => negb (detail x)) (passes n ids).
Proof.
  revert n. induction ids as [|l ids IH]; intros n; cbn [passes_said passes]; [reflexivity|]. cbn [filter detail negb]. rewrite filter_app, <- IH, said_quiet.
  replace (filter (fun x => negb (detail x)) (map LBinding l)) with (@nil line); [reflexivity|]. induction l as [|x l IHl]; [reflexivity|exact IHl].
Qed.
Lemma forall2_left {A B} (R : A -> B -> Prop) l l' : Forall2 R l l' -> forall x, In x l -> exists y, In y l' /\ R x y.
Proof. induction 1 as [|x y l l' H F IH]; intros z I; [destruct I|]. destruct I as [<-|I]; [exists y; split; [left; reflexivity|exact H]|]. destruct (IH z I) as [y' [I' H']]. exists y'. split; [right; exact I'|exact H']. Qed.
Lemma forall2_right {A B} (R : A -> B -> Prop) l l' : Forall2 R l l' -> forall y, In y l' -> exists x, In x l /\ R x y.
Proof. induction 1 as [|x y l l' H F IH]; intros z I; [destruct I|]. destruct I as [<-|I]; [exists x; split; [left; reflexivity|exact H]|]. destruct (IH z I) as [x' [I' H']]. exists x'. split; [right; exact I'|exact H']. Qed.
Lemma names_once w visits log ids : Forall2 (names w (collected_items w visits)) log ids -> NoDup log ->
  NoDup ids /\ forall id, In id ids <-> exists k d, In k log /\ nth_error (collected_items w visits) k = Some d /\ id = decl_id w d.
Proof.
  intros F ND. pose proof (proj1 (C24_collected_once w visits)) as U. split.
  - induction F as [|k id log ids [d [N ->]] F IH]; [constructor|]. inversion ND as [|? ? NI ND']; subst. constructor; [|exact (IH ND')].
    intros X. apply NI. clear -F N U X. induction F as [|k' id log ids [d' [N' ->]] F IH]; [destruct X|]. destruct X as [X|X]; [left|right; exact (IH X)].
    apply (proj1 (NoDup_nth_error (map (decl_id w) (collected_items w visits))) U).
    + apply nth_error_Some. rewrite nth_error_map, N'. discriminate.
    + rewrite !nth_error_map, N, N'. cbn [option_map]. rewrite X. reflexivity.
  - clear ND U. intros id. induction F as [|k id' log ids [d [N ->]] F IH].
    + split; [intros []|intros [k [d [[] _]]]].
    + split.
      * intros [<-|X]; [exists k, d; split; [left; reflexivity|auto]|]. destruct (proj1 IH X) as [k' [d' [I' R]]]. exists k', d'. split; [right; exact I'|exact R].
      * intros [k' [d' [[<-|I'] [N' ->]]]]; [left; congruence|right; apply IH; exists k', d'; auto].
Qed.
(** With -v: the lines tell, in this order, the source file and the config
    file; the passes, numbered from 1, each with what it has bound, the last one
    with nothing; and what became of each generated file.  Every item that is
    bound is reported exactly once and nothing else is.  A file is reported as
    written exactly when the disk had something else in its place. *)
Theorem C94_report : forall i file s c f gs f' said, say_process true i file s c f = Ok (gs, f', said) ->
  exists d ids lines, process i s c f = Ok d /\
    said = LInput file :: (match i_config i with [] => [] | p => [LConfig p] end) ++ passes 1 (ids ++ [[]])
             ++ [LSorting; LSorted; LWriting] ++ lines ++ [LWritten] /\
    Forall (fun l => l <> []) ids /\ NoDup (concat ids) /\
    (forall id, In id (concat ids) <->
       exists dc, In dc (collected_items (world_of i d) (so_visits s)) /\ bound (d_output d) dc /\ id = decl_id (world_of i d) dc) /\
    (single_file (i_options i) = true -> lines = []) /\
    (single_file (i_options i) = false -> NoDup ((root_module (i_options i) ++ $".cpp") :: map g_name gs) ->
       Forall2 (file_line (prefix (i_options i)) f) gs lines).
Proof.
  intros i file s c f gs f' said H. destruct (proj1 (C94_same_run true i file s c f gs f') (ex_intro _ said H)) as [d [P [-> ->]]].
  destruct (process_inv i s c f d P) as [Es [Ec [R _]]]. unfold say_process in H. rewrite Ec in H. cbn [bind_r] in H. cbv zeta in H.
  exists d. assert (Ew : world_of i d = mkworld (so_env s) (d_config d) (i_options i)) by (unfold world_of; rewrite Es; reflexivity). rewrite Ew. clear Ew.
  set (w := mkworld (so_env s) (d_config d) (i_options i)) in *.
  pose proof (bind_said w (so_visits s)) as B. destruct (run_inv _ _ _ R) as [l [E _]]. rewrite E in B. destruct B as [ids [F [NE Sb]]].
  rewrite (Sb true) in H. cbn [bind_r] in H. apply bind_r_Ok in H. destruct H as [[[gs1 f1] more] [H1 H]]. apply Ok_inj in H. injection H as E1 E2 Said.
  rewrite passes_verbose in Said. exists ids. unfold say_output in H1. cbv zeta in H1.
  destruct (negb (i_can_open i _)); [discriminate H1|]. apply bind_r_Ok in H1. destruct H1 as [so [_ H1]]. apply bind_r_Ok in H1. destruct H1 as [gs2 [_ H1]].
  apply bind_r_Ok in H1. destruct H1 as [[f2 lines] [H2 H1]]. apply Ok_inj in H1. injection H1 as X1 X2 X3. subst gs2 f2 more.
  exists lines. split; [exact P|]. split; [rewrite <- Said; destruct (i_config i); reflexivity|]. split; [exact NE|].
  destruct (names_once w (so_visits s) (out_log (d_output d)) (concat ids) F (C25_bound_at_most_once _ _ _ R)) as [N1 N2]. split; [exact N1|]. split.
  { intros id. rewrite N2. split.
    - intros [k [dc [I1 [N ->]]]]. exists dc. split; [exact (nth_error_In _ _ N)|]. split; [|reflexivity]. destruct (C26_bound_iff_needed w _ _ k dc R N) as [A B']. tauto.
    - intros [dc [I1 [Bd ->]]]. apply In_nth_error in I1. destruct I1 as [k N]. exists k, dc. destruct (C26_bound_iff_needed w _ _ k dc R N) as [A B']. tauto. }
  change (wopt w) with (i_options i) in H2. split.
  - intros Sf. rewrite Sf in H2. apply Ok_inj in H2. injection H2 as _ <-. reflexivity.
  - intros Sf ND. rewrite Sf in H2. apply bind_r_Ok in H2. destruct H2 as [[f3 x] [H3 H2]]. apply Ok_inj in H2. injection H2 as _ ->. subst gs1.
    inversion ND as [|? ? NI ND']; subst. refine (file_lines _ _ _ _ ND' _ f _ _ _ H3). intros g I. unfold content, write_file. cbn [files]. rewrite lookup_update_neq; [reflexivity|].
    unfold path_of. intros X. apply app_inv_head in X. apply app_inv_head in X. apply NI. change (In (root_file_name w) (map g_name (out_files (d_output d)))). rewrite <- X. apply in_map. exact I.
Qed.
Print Assumptions C94_report.
(** Without -v the same lines are printed, except those on single items and files. *)
Theorem C94_quiet : forall i file s c f gs f' said, say_process true i file s c f = Ok (gs, f', said) ->
  say_process false i file s c f = Ok (gs, f', filter (fun x => negb (detail x)) said).
Proof.
  intros i file s c f gs f' said H. unfold say_process in *. apply bind_r_Ok in H. destruct H as [c1 [-> H]]. cbn [bind_r]. cbv zeta in *.
  set (w := mkworld (so_env s) c1 (i_options i)) in *.
  pose proof (bind_said w (so_visits s)) as B.
  destruct (bind_all w (collect w (so_visits s))) as [[l log]| | | |].
  2-5: destruct (say_bind true w (collect w (so_visits s))) as [q| | | |] eqn:Q; cbn [bind_r] in H; try discriminate H; destruct (B true q Q).
  destruct B as [ids [_ [_ E]]]. rewrite (E true) in H. rewrite (E false). cbn [bind_r] in *. rewrite passes_verbose in H. rewrite passes_quiet.
  apply bind_r_Ok in H. destruct H as [[[gs1 f1] more] [H1 H]]. apply Ok_inj in H. injection H as -> -> <-.
  assert (O : say_output false (i_mkdir_ok i) (i_can_open i) w l f = Ok (gs, f', filter (fun x => negb (detail x)) more)).
  { unfold say_output in *. cbv zeta in *. destruct (negb (i_can_open i _)); [discriminate H1|]. apply bind_r_Ok in H1. destruct H1 as [so [-> H1]]. cbn [bind_r]. apply bind_r_Ok in H1. destruct H1 as [gs2 [-> H1]].
    cbn [bind_r]. apply bind_r_Ok in H1. destruct H1 as [[f2 lines] [H2 H1]]. apply Ok_inj in H1. injection H1 as -> -> <-.
    change (wopt w) with (i_options i) in *. destruct (single_file (i_options i)).
    - apply Ok_inj in H2. injection H2 as <- <-. reflexivity.
    - apply bind_r_Ok in H2. destruct H2 as [[f3 x] [H3 H2]]. apply Ok_inj in H2. injection H2 as <- ->. destruct (quiet_updates _ _ _ _ _ _ _ H3) as [-> D]. cbn [bind_r].
      f_equal. f_equal. cbn [app filter detail negb]. rewrite filter_app. replace (filter (fun x => negb (detail x)) lines) with (@nil line); [reflexivity|].
      clear -D. induction lines as [|x lines IH]; [reflexivity|]. cbn [forallb filter] in *. apply andb_true_iff in D. destruct D as [-> D]. exact (IH D). }
  rewrite O. cbn [bind_r]. f_equal. f_equal. cbn [filter detail negb]. rewrite !filter_app. destruct (i_config i); reflexivity.
Qed.
Print Assumptions C94_quiet.
(** When nothing has changed, the second run reports every file as up to date. *)
Theorem C94_second_run : forall i file s c f gs f1 said gs' f2 said',
  say_process true i file s c f = Ok (gs, f1, said) -> say_process true i file s c f1 = Ok (gs', f2, said') ->
  single_file (i_options i) = false -> NoDup ((root_module (i_options i) ++ $".cpp") :: map g_name gs) ->
  gs' = gs /\ (forall p, ~ In (LWrite p) said') /\ (forall g, In g gs -> In (LUpToDate (prefix (i_options i) ++ $"/" ++ g_name g)) said').
Proof.
  intros i file s c f gs f1 said gs' f2 said' H H' Sf ND.
  destruct (C94_report _ _ _ _ _ _ _ _ H') as [d' [ids [lines [P' [Said [_ [_ [_ [_ L]]]]]]]]].
  destruct (proj1 (C94_same_run true i file s c f gs f1) (ex_intro _ said H)) as [d [P [-> ->]]].
  destruct (proj1 (C94_same_run true i file s c (d_disk d) gs' f2) (ex_intro _ said' H')) as [d2 [P2 [-> ->]]]. rewrite P' in P2. apply Ok_inj in P2. subst d2.
  destruct (process_inv i s c f d P) as [_ [Ec [R W]]]. destruct (process_inv i s c _ d' P') as [_ [Ec' [R' _]]]. rewrite Ec in Ec'. apply Ok_inj in Ec'.
  assert (Eo : d_output d' = d_output d). { rewrite <- Ec' in R'. rewrite R in R'. apply Ok_inj in R'. symmetry. exact R'. }
  rewrite Eo in *. specialize (L Sf ND). destruct (run_inv _ _ _ R) as [l0 [_ [_ [Wr _]]]].
  destruct (write_output_effect _ _ (mkworld (so_env s) (d_config d) (i_options i)) _ _ _ Sf W ND (wrote_cpp _ _ _ _ _ _ Wr)) as [A _].
  split; [reflexivity|].
  assert (Ls : forall x, In x lines -> exists g, In g (out_files (d_output d)) /\ x = LUpToDate (prefix (i_options i) ++ $"/" ++ g_name g)).
  { intros x I. destruct (forall2_right _ _ _ L x I) as [g [Ig [[_ ->]|[N _]]]]; [exists g; auto|]. destruct (N (A g Ig)). }
  split.
  - intros p I. rewrite Said in I. destruct I as [I|I]; [discriminate I|]. apply in_app_or in I. destruct I as [I|I]; [destruct (i_config i); [destruct I|cbn [In] in I; destruct I as [I|[]]; discriminate I]|].
    apply in_app_or in I. destruct I as [I|I].
    { revert I. generalize 1 (ids ++ [[]]). intros n l. revert n. induction l as [|b l IH]; intros n I; [destruct I|]. cbn [passes] in I. destruct I as [I|I]; [discriminate I|].
      apply in_app_or in I. destruct I as [I|I]; [|exact (IH _ I)]. apply in_map_iff in I. destruct I as [id [I _]]. discriminate I. }
    apply in_app_or in I. destruct I as [I|I]; [cbn [In] in I; intuition discriminate|]. apply in_app_or in I. destruct I as [I|I]; [|cbn [In] in I; intuition discriminate].
    destruct (Ls _ I) as [g [_ X]]. discriminate X.
  - intros g Ig. destruct (forall2_left _ _ _ L g Ig) as [x [Ix [[_ ->]|[N _]]]]; [|destruct (N (A g Ig))].
    rewrite Said. right. apply in_or_app. right. apply in_or_app. right. apply in_or_app. right. apply in_or_app. left. exact Ix.
Qed.
Print Assumptions C94_second_run.

(** Not every write is reported: the source of the root module and the two
    lists are written in every run, also in one that reports no write. *)
Definition console_i : invocation :=
  mkinvocation (mix_options false false 300) [ $"n" ] [] $"c.cfg" (Some []) (fun _ => true) (fun _ => true).
Definition console_s : source := mksource (wenv (mix_w false false 300)) mix_visits.
Definition console_first := say_process true console_i $"all.hpp" console_s default_config (mkfs [] []).
Definition console_second := match console_first with Ok (_, f, _) => say_process true console_i $"all.hpp" console_s default_config f | r => r end.
Local Transparent say_bind say_updates bind_all collect sort_binders write_files run write_output setup nested_namespaces root_text single_file_text modules_text.
Example C94_case :
  (match console_first with Ok (_, _, said) => concat (map line_text said) | _ => [] end) = $"Process input file all.hpp
Read config from file c.cfg
Generate bindings, pass 1...
Binding: void n::f(const class S &, class n::K *, int)
Binding: int n::g(const class S &, int)
Binding: n::m::B
Binding: n::A
Binding: n::E
Binding: S
Binding: n::K
Generate bindings, pass 2...
Sorting Binders...
Sorting Binders... Done.
Writing code...
Writing out/a.cpp
Writing out/a_1.cpp
Writing out/a_2.cpp
Writing out/s.cpp
Writing out/a_3.cpp
Writing out/b.cpp
Writing code... Done.
" /\
  (match console_second with Ok (_, _, said) => filter (fun x => match x with LWrite _ => true | _ => false end) said | _ => [LWritten] end) = [] /\
  (match console_second with Ok (gs, _, said) => (length gs, length (filter (fun x => match x with LUpToDate _ => true | _ => false end) said)) | _ => (0, 0) end) = (6, 6).
Proof. vm_compute. repeat split. Qed.
Theorem C94_every_write_reported_refuted :
  ~ (forall i file s c f gs f' said p, say_process true i file s c f = Ok (gs, f', said) -> In p (writes f') -> ~ In p (writes f) -> In (LWrite p) said).
Proof.
  intros H. destruct (say_process true console_i $"all.hpp" console_s default_config (mkfs [] [])) as [[[gs f'] said]| | | |] eqn:E; try (vm_compute in E; discriminate E).
  specialize (H _ _ _ _ _ _ _ _ $"out/root.modules" E). vm_compute in E. apply Ok_inj in E.
  injection E as _ <- <-. assert (X : In (LWrite $"out/root.modules") _) by (apply H; [cbn [writes In]; vm_compute; tauto|intros []]).
  clear H. vm_compute in X. repeat (destruct X as [X|X]; [discriminate X|]). destruct X.
Qed.
Print Assumptions C94_every_write_reported_refuted.
