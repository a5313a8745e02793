(** Property C70: what the disk shows during a run, when it fails, when it is
    killed, and when it is run again. *)
From Coq Require Import Ascii String Bool Arith NArith Lia Relations.
From Coq Require Import List.
From Verif Require Import Str StrFacts SpecUtil Util UtilFacts Config SpecConfig Ast Types Func Enum Includes Class Context SpecContext ContextFacts WriteFacts RunFacts Samples PropertiesContext Disk SpecDisk DiskFacts.
Import ListNotations.

Lemma prefix_path w n : in_dir w n = path_of (prefix (wopt w)) n.
Proof. reflexivity. Qed.
Lemma in_dir_root w x : in_dir w (root_module (wopt w) ++ x) = root_path w ++ x.
Proof. unfold in_dir, root_path. rewrite <- !app_assoc. reflexivity. Qed.
Lemma nothing_to_do m c pre f s : clos_refl_trans_1n state (step m c pre) (mkstate [] f [] false) s -> s = mkstate [] f [] false.
Proof.
  intros R. remember (mkstate [] f [] false) as s0 eqn:E. induction R as [|s0 s1 s2 S1 R IH]; [reflexivity|]. subst s0. exfalso.
  inversion S1 as [p l f0 b E1 E2|p t l f0 b s E1 E2 E3|p l f0 b s E1 E2 E3|n t l f0 b f' E1 E2 E3|n t l f0 b f' E1 E2 E3|n t l f0 b E1 E2|p x y s E1 E2 E3 E4]; try discriminate.
  cbn [pending st_pending lookup] in E1. symmetry in E1. apply app_eq_nil in E1. destruct E1. contradiction.
Qed.

(** Every moment of a run that writes one file per group of items, whether it
    ends well, fails or is killed. *)
Theorem C70_any_moment : forall mkdir_ok can_open w visits f s,
  single_file (wopt w) = false -> NoDup ((root_module (wopt w) ++ $".cpp") :: map g_name (made can_open w visits)) ->
  during mkdir_ok can_open w visits f s ->
  let file g := in_dir w (g_name g) in
  let root := in_dir w (root_module (wopt w) ++ $".cpp") in
  let sources := in_dir w (root_module (wopt w) ++ $".sources") in
  let modules := in_dir w (root_module (wopt w) ++ $".modules") in
  (forall g, In g (made can_open w visits) -> unchanged s f (file g) \/ part_of s (file g) (g_text g)) /\
  (forall g h, In g (made can_open w visits) -> In h (made can_open w visits) ->
     ~ unchanged s f (file g) -> ~ shows s (file g) (g_text g) -> ~ unchanged s f (file h) -> ~ shows s (file h) (g_text h) -> g_name g = g_name h) /\
  (forall q, q = sources \/ q = modules -> ~ unchanged s f q -> forall g, In g (made can_open w visits) -> shows s (file g) (g_text g)) /\
  (forall q, (forall g, In g (made can_open w visits) -> q <> file g) -> q <> root -> q <> sources -> q <> modules -> unchanged s f q) /\
  (forall o, run w visits = Ok o ->
     (unchanged s f root \/ part_of s root (root_text w (out_namespaces o) (out_files o))) /\
     (unchanged s f sources \/ part_of s sources (sources_text ((root_module (wopt w) ++ $".cpp") :: map g_name (out_files o)))) /\
     (unchanged s f modules \/ part_of s modules (modules_text (out_namespaces o)))) /\
  ((forall o, run w visits <> Ok o) -> (unchanged s f root \/ shows s root []) /\ unchanged s f sources /\ unchanged s f modules).
Proof.
  intros m c w visits f s Sf ND R file root sources modules.
  assert (Es : sources = root_path w ++ $".sources") by apply in_dir_root.
  assert (Em : modules = root_path w ++ $".modules") by apply in_dir_root.
  unfold during, started, made, plan_of in *.
  destruct (plan_cases c w (collect w visits)) as [[A [Fs _]]|[ns [A [Cpp [Co [RE NE]]]]]].
  - rewrite A in R. apply nothing_to_do in R. subst s. rewrite Fs.
    assert (U : forall q, unchanged (mkstate [] f [] false) f q) by reflexivity.
    split; [intros g []|]. split; [intros g h []|]. split; [intros q _ N; destruct (N (U q))|]. split; [intros; apply U|].
    split; intros; repeat split; auto.
  - set (gs := p_files (generate_plan c w (collect w visits))) in *. rewrite A in R.
    remember (is_ok (p_end (generate_plan c w (collect w visits)))) as ok eqn:Eok.
    assert (Proj : forall q, snd (fst (proj (prefix (wopt w)) q s)) = lookup q (files (st_fs s))) by reflexivity.
    pose proof (at_file m c w gs ns ok f s Sf ND Cpp R) as HF.
    pose proof (at_root m c w gs ns ok f s Sf ND R) as HR.
    pose proof (at_list m c w gs ns ok f s R sources (sources_text (source_names w gs))) as HS.
    pose proof (at_list m c w gs ns ok f s R modules (modules_text ns)) as HM.
    rewrite Es in HS. rewrite Em in HM.
    specialize (HS (script_sources c w Sf gs ns ok Cpp)). specialize (HM (script_modules c w Sf gs ns ok Cpp)).
    rewrite <- Es in HS. rewrite <- Em in HM.
    assert (LS : forall q text, q <> root -> (forall g, In g gs -> q <> file g) ->
               (if ok && c q then streaming q [text] [Close q] (lookup q (files f)) (proj (prefix (wopt w)) q s) else proj (prefix (wopt w)) q s = ([], lookup q (files f), [])) ->
               filter (touches (prefix (wopt w)) q) (all_acts c w gs ns ok) = (if ok then list_acts c q text else []) ->
               (unchanged s f q \/ (ok = true /\ part_of s q text)) /\
               (~ unchanged s f q -> forall g, In g gs -> shows s (file g) (g_text g))).
    { intros q text Nr Ng H Sc. destruct (ok && c q) eqn:K.
      - pose proof (streaming_shows _ _ _ _ _ H) as [U|[rest U]].
        + split; [left; exact U|]. intros N. destruct (N U).
        + apply andb_true_iff in K. destruct K as [K1 K2]. split; [right; split; [exact K1|]; exists rest; cbn [concat] in U; rewrite app_nil_r in U; exact U|].
          intros N g Ig. apply (files_before_lists m c w gs ns ok f s Sf ND Cpp R q Nr); [| |exact Ng|exact Ig].
          * assert (X : In (Open q) (filter (touches (prefix (wopt w)) q) (all_acts c w gs ns ok))) by (rewrite Sc, K1; unfold list_acts; rewrite K2; left; reflexivity).
            apply filter_In in X. tauto.
          * intros X. apply (streaming_opened _ _ _ _ _ H); [intros Y; apply N; exact Y|right; reflexivity|].
            cbn [proj fst]. apply filter_In. split; [exact X|cbn [touches]; apply streqb_refl].
      - apply (f_equal (fun x => snd (fst x))) in H. split; [left; exact H|]. intros N. destruct (N H). }
    assert (Ns : sources <> root) by (rewrite Es; intros X; symmetry in X; exact (root_not_sources w X)).
    assert (Nm : modules <> root) by (rewrite Em; intros X; symmetry in X; exact (root_not_modules w X)).
    assert (Gs : forall g, In g gs -> sources <> file g).
    { intros g I X. destruct (Cpp g I) as [p E]. unfold file in X. rewrite prefix_path, E, Es in X. symmetry in X. exact (cpp_not_s w $".source" p X). }
    assert (Gm : forall g, In g gs -> modules <> file g).
    { intros g I X. destruct (Cpp g I) as [p E]. unfold file in X. rewrite prefix_path, E, Em in X. symmetry in X. exact (cpp_not_s w $".module" p X). }
    assert (SS := script_sources c w Sf gs ns ok Cpp). rewrite <- Es in SS.
    assert (SM := script_modules c w Sf gs ns ok Cpp). rewrite <- Em in SM.
    destruct (LS _ _ Ns Gs HS SS) as [S1 S2]. destruct (LS _ _ Nm Gm HM SM) as [M1 M2]. clear LS.
    pose proof (streaming_shows _ _ _ _ _ HR) as HR2.
    split; [|split; [|split; [|split; [|split]]]].
    + intros g I. specialize (HF g I). unfold proj in HF. exact (updating_shows _ _ _ _ _ _ _ HF).
    + intros g h Ig Ih Ug Sg Uh Sh. apply (one_at_a_time m c w gs ns ok f s Sf ND Cpp R g h Ig Ih).
      * pose proof (updating_partial _ _ _ _ _ (HF g Ig) Ug Sg) as X. unfold proj in X. cbn [fst] in X. apply filter_In in X. tauto.
      * pose proof (updating_partial _ _ _ _ _ (HF h Ih) Uh Sh) as X. unfold proj in X. cbn [fst] in X. apply filter_In in X. tauto.
    + intros q [->| ->]; assumption.
    + intros q N1 N2 N3 N4. apply (at_other m c w gs ns ok f s Sf R q); [|rewrite <- Es; exact N3|rewrite <- Em; exact N4].
      cbn [map In]. intros [X|X]; [apply N2; symmetry; exact X|]. rewrite map_map in X. apply in_map_iff in X. destruct X as [g [X I]]. exact (N1 g I (eq_sym X)).
    + intros o Ho. specialize (NE o Ho). destruct (RE NE) as [o' [Ho' [K2 K3]]]. unfold run in Ho. rewrite Ho in Ho'. apply Ok_inj in Ho'. subst o'.
      rewrite NE, K2, K3 in *. split; [|split].
      * destruct HR2 as [U|[rest U]]; [left; exact U|right; exists rest]. cbn [concat] in U. rewrite app_nil_r in U. exact U.
      * destruct S1 as [U|[_ U]]; [left; exact U|right; exact U].
      * destruct M1 as [U|[_ U]]; [left; exact U|right; exact U].
    + intros No. assert (K : ok = false).
      { destruct ok; [|reflexivity]. destruct (RE eq_refl) as [o [Eo _]]. destruct (No o Eo). }
      rewrite K in *. split; [|split].
      * destruct HR2 as [U|[rest U]]; [left; exact U|right]. cbn [concat] in U. symmetry in U. apply app_eq_nil in U. destruct U as [U _]. exact U.
      * destruct S1 as [U|[U _]]; [exact U|discriminate U].
      * destruct M1 as [U|[U _]]; [exact U|discriminate U].
Qed.
Print Assumptions C70_any_moment.

(** A file that is up to date is never touched. *)
Theorem C70_up_to_date : forall mkdir_ok can_open w visits f s g,
  single_file (wopt w) = false -> NoDup ((root_module (wopt w) ++ $".cpp") :: map g_name (made can_open w visits)) ->
  during mkdir_ok can_open w visits f s -> In g (made can_open w visits) ->
  content f (in_dir w (g_name g)) = g_text g -> unchanged s f (in_dir w (g_name g)).
Proof.
  intros m c w visits f s g Sf ND R I E. unfold during, started, made, plan_of in *.
  destruct (plan_cases c w (collect w visits)) as [[A [Fs _]]|[ns [A [Cpp _]]]]; [rewrite Fs in I; destruct I|]. rewrite A in R.
  pose proof (at_file m c w _ ns _ f s Sf ND Cpp R g I) as H. exact (updating_same _ _ _ _ _ H E).
Qed.
Print Assumptions C70_up_to_date.

(** When the program is done, the disk shows all of the output. *)
Theorem C70_finished : forall mkdir_ok can_open w visits f s o,
  single_file (wopt w) = false -> run w visits = Ok o -> can_open (in_dir w (root_module (wopt w) ++ $".cpp")) = true ->
  NoDup ((root_module (wopt w) ++ $".cpp") :: map g_name (out_files o)) ->
  during mkdir_ok can_open w visits f s -> finished s ->
  let root := in_dir w (root_module (wopt w) ++ $".cpp") in
  let sources := in_dir w (root_module (wopt w) ++ $".sources") in
  let modules := in_dir w (root_module (wopt w) ++ $".modules") in
  (forall g, In g (out_files o) -> shows s (in_dir w (g_name g)) (g_text g)) /\
  shows s root (root_text w (out_namespaces o) (out_files o)) /\
  (if can_open sources then shows s sources (sources_text ((root_module (wopt w) ++ $".cpp") :: map g_name (out_files o))) else unchanged s f sources) /\
  (if can_open modules then shows s modules (modules_text (out_namespaces o)) else unchanged s f modules) /\
  (forall q, (forall g, In g (out_files o) -> q <> in_dir w (g_name g)) -> q <> root -> q <> sources -> q <> modules -> unchanged s f q).
Proof.
  intros m c w visits f s o Sf Ho Co ND R [Fin _] root sources modules.
  assert (Es : sources = root_path w ++ $".sources") by apply in_dir_root.
  assert (Em : modules = root_path w ++ $".modules") by apply in_dir_root.
  unfold during, started, plan_of in *.
  destruct (plan_cases c w (collect w visits)) as [[_ [_ [_ N]]]|[ns [A [Cpp [_ [RE NE]]]]]]; [destruct (N Co o Ho)|].
  specialize (NE o Ho). destruct (RE NE) as [o' [Ho' [K2 K3]]]. unfold run in Ho. rewrite Ho in Ho'. apply Ok_inj in Ho'. subst o'.
  rewrite NE, K2, K3 in *. rewrite A in R. set (gs := out_files o) in *. set (ns0 := out_namespaces o) in *.
  assert (Z : forall q, fst (fst (proj (prefix (wopt w)) q s)) = []) by (intros q; cbn [proj fst]; rewrite Fin; reflexivity).
  split; [|split; [|split; [|split]]].
  - intros g I. exact (updating_end _ _ _ _ _ (at_file m c w gs ns0 true f s Sf ND Cpp R g I) (Z _)).
  - pose proof (streaming_end _ _ _ _ (at_root m c w gs ns0 true f s Sf ND R) (Z _)) as X. cbn [concat] in X. rewrite app_nil_r in X. exact X.
  - pose proof (at_list m c w gs ns0 true f s R sources (sources_text (source_names w gs))) as H.
    rewrite Es in H. specialize (H (script_sources c w Sf gs ns0 true Cpp)). rewrite <- Es in H. cbn [andb] in H.
    destruct (c sources).
    + pose proof (streaming_end _ _ _ _ H (Z _)) as X. cbn [concat] in X. rewrite app_nil_r in X. exact X.
    + apply (f_equal (fun x => snd (fst x))) in H. exact H.
  - pose proof (at_list m c w gs ns0 true f s R modules (modules_text ns0)) as H.
    rewrite Em in H. specialize (H (script_modules c w Sf gs ns0 true Cpp)). rewrite <- Em in H. cbn [andb] in H.
    destruct (c modules).
    + pose proof (streaming_end _ _ _ _ H (Z _)) as X. cbn [concat] in X. rewrite app_nil_r in X. exact X.
    + apply (f_equal (fun x => snd (fst x))) in H. exact H.
  - intros q N1 N2 N3 N4. apply (at_other m c w gs ns0 true f s Sf R q); [|rewrite <- Es; exact N3|rewrite <- Em; exact N4].
    cbn [map In]. intros [X|X]; [apply N2; symmetry; exact X|]. rewrite map_map in X. apply in_map_iff in X. destruct X as [g [X I]]. exact (N1 g I (eq_sym X)).
Qed.
Print Assumptions C70_finished.

Lemma one_of_dec {A} (F : A -> str) l q : {exists g, In g l /\ q = F g} + {forall g, In g l -> q <> F g}.
Proof.
  induction l as [|g l IH]; [right; intros g []|]. destruct (str_eq_dec q (F g)) as [E|E]; [left; exists g; split; [left; reflexivity|exact E]|].
  destruct IH as [IH|IH]; [left; destruct IH as [g' [I X]]; exists g'; split; [right; exact I|exact X]|].
  right. intros g' [<-|I]; [exact E|exact (IH g' I)].
Qed.
(** A run that is killed at any moment, or fails, and is repeated, leaves the
    same files as one that was not interrupted. *)
Theorem C70_repeated : forall mkdir_ok can_open w visits f s1 s2 s3 o,
  single_file (wopt w) = false -> run w visits = Ok o -> can_open (in_dir w (root_module (wopt w) ++ $".cpp")) = true ->
  NoDup ((root_module (wopt w) ++ $".cpp") :: map g_name (out_files o)) ->
  during mkdir_ok can_open w visits f s1 ->
  during mkdir_ok can_open w visits (st_fs s1) s2 -> finished s2 ->
  during mkdir_ok can_open w visits f s3 -> finished s3 ->
  forall q, content (st_fs s2) q = content (st_fs s3) q.
Proof.
  intros m c w visits f s1 s2 s3 o Sf Ho Co ND R1 R2 F2 R3 F3 q.
  destruct (C70_finished m c w visits (st_fs s1) s2 o Sf Ho Co ND R2 F2) as [A1 [A2 [A3 [A4 A5]]]].
  destruct (C70_finished m c w visits f s3 o Sf Ho Co ND R3 F3) as [B1 [B2 [B3 [B4 B5]]]].
  assert (Un : forall q, c q = false -> (q = in_dir w (root_module (wopt w) ++ $".sources") \/ q = in_dir w (root_module (wopt w) ++ $".modules")) -> unchanged s1 f q).
  { clear q. intros q C Q. unfold during, started, plan_of in R1.
    destruct (plan_cases c w (collect w visits)) as [[A _]|[ns [A [Cpp _]]]]; rewrite A in R1.
    - apply nothing_to_do in R1. subst s1. reflexivity.
    - destruct Q as [->| ->]; rewrite in_dir_root in *.
      + pose proof (at_list m c w _ ns _ f s1 R1 _ _ (script_sources c w Sf _ ns _ Cpp)) as H.
        rewrite C, andb_false_r in H. apply (f_equal (fun x => snd (fst x))) in H. exact H.
      + pose proof (at_list m c w _ ns _ f s1 R1 _ _ (script_modules c w Sf _ ns _ Cpp)) as H.
        rewrite C, andb_false_r in H. apply (f_equal (fun x => snd (fst x))) in H. exact H. }
  assert (Lst : forall q, (q = in_dir w (root_module (wopt w) ++ $".sources") \/ q = in_dir w (root_module (wopt w) ++ $".modules")) -> forall text,
            (if c q then shows s2 q text else unchanged s2 (st_fs s1) q) -> (if c q then shows s3 q text else unchanged s3 f q) -> content (st_fs s2) q = content (st_fs s3) q).
  { clear q. intros q Q text H1 H2. destruct (c q) eqn:C.
    - unfold shows in *. rewrite H1, H2. reflexivity.
    - unfold unchanged, content in *. rewrite H1, H2. rewrite (Un q C Q). reflexivity. }
  destruct (str_eq_dec q (in_dir w (root_module (wopt w) ++ $".cpp"))) as [->|N2]; [unfold shows in *; rewrite A2, B2; reflexivity|].
  destruct (str_eq_dec q (in_dir w (root_module (wopt w) ++ $".sources"))) as [->|N3]; [exact (Lst _ (or_introl eq_refl) _ A3 B3)|].
  destruct (str_eq_dec q (in_dir w (root_module (wopt w) ++ $".modules"))) as [->|N4]; [exact (Lst _ (or_intror eq_refl) _ A4 B4)|].
  destruct (one_of_dec (fun g => in_dir w (g_name g)) (out_files o) q) as [[g [I ->]]|N1].
  - unfold shows in *. rewrite (A1 g I), (B1 g I). reflexivity.
  - unfold content. rewrite (A5 q N1 N2 N3 N4), (B5 q N1 N2 N3 N4).
    destruct (C70_any_moment m c w visits f s1 Sf) as [_ [_ [_ [X _]]]]; [|exact R1|].
    + unfold made, plan_of. destruct (plan_cases c w (collect w visits)) as [[_ [_ [_ N]]]|[ns [_ [_ [_ [RE NE]]]]]]; [destruct (N Co o Ho)|].
      destruct (RE (NE o Ho)) as [o' [Ho' [K2 _]]]. unfold run in Ho. rewrite Ho in Ho'. apply Ok_inj in Ho'. subst o'. rewrite K2. exact ND.
    + rewrite (X q); [reflexivity| |exact N2|exact N3|exact N4]. intros g I. apply N1.
      revert I. unfold made, plan_of. destruct (plan_cases c w (collect w visits)) as [[_ [_ [_ N]]]|[ns [_ [_ [_ [RE NE]]]]]]; [destruct (N Co o Ho)|].
      destruct (RE (NE o Ho)) as [o' [Ho' [K2 _]]]. unfold run in Ho. rewrite Ho in Ho'. apply Ok_inj in Ho'. subst o'. rewrite K2. auto.
Qed.
Print Assumptions C70_repeated.

(** If the declarations cannot be bound or the root file cannot be opened, the
    disk is not touched. *)
Theorem C70_early_failure : forall mkdir_ok can_open w visits f s,
  (forall l, bind_all w (collect w visits) <> Ok l) \/ can_open (in_dir w (root_module (wopt w) ++ $".cpp")) = false ->
  during mkdir_ok can_open w visits f s -> st_fs s = f.
Proof.
  intros m c w visits f s H R. unfold during, started, plan_of in R.
  assert (A : p_acts (generate_plan c w (collect w visits)) = []).
  { unfold generate_plan. destruct (bind_all w (collect w visits)) as [[l log]|x|x|x|]; try reflexivity. destruct H as [H|H]; [destruct (H _ eq_refl)|].
    change (root_file w) with (in_dir w (root_module (wopt w) ++ $".cpp")). rewrite H. reflexivity. }
  rewrite A in R. apply nothing_to_do in R. subst s. reflexivity.
Qed.
Print Assumptions C70_early_failure.

(** From every moment without an exception the run can go on to its end or to
    an exception. *)
Theorem C70_goes_on : forall mkdir_ok can_open w visits f s, during mkdir_ok can_open w visits f s -> st_stopped s = false ->
  exists s', during mkdir_ok can_open w visits f s' /\ clos_refl_trans_1n state (step mkdir_ok can_open (prefix (wopt w))) s s' /\
             (finished s' \/ st_stopped s' = true).
Proof.
  intros m c w visits f [l f1 b st] R St. cbn [st_stopped] in St. subst st. destruct (goes_on m c (prefix (wopt w)) l f1 b) as [s' [R' E]]. exists s'. split.
  - unfold during in *. apply clos_rt_rt1n. eapply rt_trans; apply clos_rt1n_rt; eassumption.
  - split; [exact R'|]. destruct (st_stopped s') eqn:Es; [right; reflexivity|left]. destruct E as [E|E]; [split; assumption|discriminate E].
Qed.
Print Assumptions C70_goes_on.

(** The writing as one function (Context.v), which the other properties speak
    about, agrees with its operations: it succeeds exactly if no moment of the
    run has an exception, and then the disk shows the same at the end. *)
Theorem C70_as_one_step : forall mkdir_ok can_open w visits f o,
  single_file (wopt w) = false -> run w visits = Ok o -> can_open (in_dir w (root_module (wopt w) ++ $".cpp")) = true ->
  NoDup ((root_module (wopt w) ++ $".cpp") :: map g_name (out_files o)) ->
  ((exists f', write_output mkdir_ok can_open w o f = Ok f') <-> (forall s, during mkdir_ok can_open w visits f s -> st_stopped s = false)) /\
  (forall f' s, write_output mkdir_ok can_open w o f = Ok f' -> during mkdir_ok can_open w visits f s -> finished s ->
     forall q, content (st_fs s) q = content f' q).
Proof.
  intros m c w visits f o Sf Ho Co ND.
  destruct (run_inv _ _ _ Ho) as [l0 [_ [_ [W _]]]]. pose proof (wrote_cpp _ _ _ _ _ _ W) as Cpp.
  assert (Acts : exists ns, p_acts (generate_plan c w (collect w visits)) = all_acts c w (out_files o) ns true).
  { destruct (plan_cases c w (collect w visits)) as [[_ [_ [_ N]]]|[ns [A [_ [_ [RE NE]]]]]]; [destruct (N Co o Ho)|].
    specialize (NE o Ho). destruct (RE NE) as [o' [Ho' [K2 K3]]]. unfold run in Ho. rewrite Ho in Ho'. apply Ok_inj in Ho'. subst o'.
    rewrite NE, K2 in A. exists ns. exact A. }
  split.
  - destruct Acts as [ns A].
    assert (Upd : (exists f', write_output m c w o f = Ok f') <->
                  (forall g, In g (out_files o) -> exists f', update_source_file m c (prefix (wopt w)) (g_name g) (g_text g) f = Ok f')).
    { unfold write_output. change (prefix (wopt w) ++ $"/" ++ root_file_name w) with (in_dir w (root_module (wopt w) ++ $".cpp")). rewrite Co, Sf. cbn [negb].
      set (f1 := write_file (in_dir w (root_module (wopt w) ++ $".cpp")) [] f).
      assert (Loc : forall g, In g (out_files o) -> content f1 (path_of (prefix (wopt w)) (g_name g)) = content f (path_of (prefix (wopt w)) (g_name g))).
      { intros g I. unfold content, f1, write_file. cbn [files]. rewrite lookup_update_neq; [reflexivity|]. rewrite prefix_path. intros X. apply path_of_inj in X.
        apply NoDup_cons_iff in ND. apply (proj1 ND). rewrite <- X. apply in_map. exact I. }
      assert (ND1 : NoDup (map fst (map (fun g => (g_name g, g_text g)) (out_files o)))).
      { rewrite map_map. cbn [fst]. inversion ND; assumption. }
      pose proof (all_updates m c (prefix (wopt w)) _ f1 ND1) as AU. split.
      - intros [f' H] g I. destruct (update_all m c (prefix (wopt w)) (map (fun g0 => (g_name g0, g_text g0)) (out_files o)) f1) as [f2|x|x|x|] eqn:E; cbn [bind_r] in H; try discriminate H.
        destruct (proj1 AU (ex_intro _ f2 eq_refl) (g_name g) (g_text g)) as [f3 Y]; [apply in_map_iff; exists g; split; [reflexivity|exact I]|].
        exact (update_local _ _ _ _ _ _ _ _ (Loc g I) Y).
      - intros H. destruct (proj2 AU) as [f2 E]; [|rewrite E; cbn [bind_r]; eexists; reflexivity].
        intros n t I. apply in_map_iff in I. destruct I as [g [X I]]. injection X as <- <-. destruct (H g I) as [f3 Y].
        exact (update_local _ _ _ _ _ _ _ _ (eq_sym (Loc g I)) Y). }
    refine (iff_trans Upd _). unfold during, started, plan_of. rewrite A. split.
    + intros H s R. destruct (st_stopped s) eqn:St; [|reflexivity]. exfalso.
      destruct (stopped_why m c w (out_files o) ns true f Sf ND Cpp s R St) as [g [I [_ X]]]. destruct (H g I) as [f' Y]. exact (X f' Y).
    + intros H g I. destruct (goes_on m c (prefix (wopt w)) (all_acts c w (out_files o) ns true) f []) as [s [R E]].
      destruct E as [E|E]; [|rewrite (H s R) in E; discriminate E].
      destruct (passed m c w (out_files o) ns true f Sf ND Cpp s g R I) as [X|X]; [rewrite E in X; destruct X|exact X].
  - intros f' s E R F q. destruct (C70_finished m c w visits f s o Sf Ho Co ND R F) as [A1 [A2 [A3 [A4 A5]]]].
    destruct (write_output_effect _ _ _ _ _ _ Sf E ND Cpp) as [B1 [B2 [B3 [B4 B5]]]].
    assert (Un : forall q, c q = false -> (q = root_path w ++ $".sources" \/ q = root_path w ++ $".modules") -> lookup q (files f') = lookup q (files f)).
    { clear q. intros q C Q. unfold write_output in E. change (prefix (wopt w) ++ $"/" ++ root_file_name w) with (in_dir w (root_module (wopt w) ++ $".cpp")) in E.
      rewrite Co, Sf in E. cbn [negb] in E.
      destruct (update_all m c (prefix (wopt w)) (map (fun g0 => (g_name g0, g_text g0)) (out_files o)) _) as [f2|x|x|x|] eqn:E2; cbn [bind_r] in E; try discriminate E.
      apply Ok_inj in E. subst f'.
      assert (Put : forall p t g, lookup q (files (if c p then write_file p t g else g)) = lookup q (files g)).
      { intros p t g. destruct (c p) eqn:Cp; [|reflexivity]. unfold write_file. cbn [files]. apply lookup_update_neq. intros X. rewrite <- X, C in Cp. discriminate Cp. }
      rewrite !Put. unfold write_file. cbn [files].
      assert (Nr : q <> in_dir w (root_module (wopt w) ++ $".cpp")) by (intros X; rewrite X, Co in C; discriminate C).
      rewrite lookup_update_neq by exact Nr.
      assert (U : forall l f1 f2, update_all m c (prefix (wopt w)) (map (fun g => (g_name g, g_text g)) l) f1 = Ok f2 ->
                (forall g, In g l -> q <> path_of (prefix (wopt w)) (g_name g)) -> lookup q (files f2) = lookup q (files f1)).
      { clear. induction l as [|g l IH]; intros f1 f2 H N; cbn [map update_all] in H; [apply Ok_inj in H; subst; reflexivity|].
        destruct (update_source_file m c (prefix (wopt w)) (g_name g) (g_text g) f1) as [f3|x|x|x|] eqn:E; cbn [bind_r] in H; try discriminate H.
        rewrite (IH _ _ H) by (intros g' I; apply N; right; exact I). destruct (update_effect _ _ _ _ _ _ _ E) as [_ [U2 _]]. apply U2.
        intros X. exact (N g (or_introl eq_refl) X). }
      rewrite (U _ _ _ E2).
      - unfold write_file. cbn [files]. apply lookup_update_neq. exact Nr.
      - intros g I X. destruct (Cpp g I) as [p Ep]. rewrite Ep in X. destruct Q as [->| ->]; symmetry in X; [exact (cpp_not_s w $".source" p X)|exact (cpp_not_s w $".module" p X)]. }
    rewrite !in_dir_root in A3, A4. unfold shows in *.
    destruct (str_eq_dec q (in_dir w (root_module (wopt w) ++ $".cpp"))) as [->|N2]; [rewrite A2; symmetry; exact B2|].
    destruct (str_eq_dec q (root_path w ++ $".sources")) as [->|N3].
    { destruct (c (root_path w ++ $".sources")) eqn:C; [rewrite A3; symmetry; exact (B3 eq_refl)|]. unfold content. rewrite A3, (Un _ C (or_introl eq_refl)). reflexivity. }
    destruct (str_eq_dec q (root_path w ++ $".modules")) as [->|N4].
    { destruct (c (root_path w ++ $".modules")) eqn:C; [rewrite A4; symmetry; exact (B4 eq_refl)|]. unfold content. rewrite A4, (Un _ C (or_intror eq_refl)). reflexivity. }
    destruct (one_of_dec (fun g => in_dir w (g_name g)) (out_files o) q) as [[g [I ->]]|N1]; [rewrite (A1 g I); symmetry; exact (B1 g I)|].
    unfold content. rewrite (A5 q N1 N2); [|rewrite in_dir_root; exact N3|rewrite in_dir_root; exact N4]. rewrite (B5 q); [reflexivity| |exact N3|exact N4].
    unfold source_names. cbn [map In]. intros [X|X]; [apply N2; symmetry; exact X|]. rewrite map_map in X. apply in_map_iff in X. destruct X as [g [X I]]. exact (N1 g I (eq_sym X)).
Qed.
Print Assumptions C70_as_one_step.

(** In single-file mode only the root file is written, with everything in it. *)
Theorem C70_single_file : forall mkdir_ok can_open w visits f s,
  single_file (wopt w) = true -> during mkdir_ok can_open w visits f s ->
  let root := in_dir w (root_module (wopt w) ++ $".cpp") in
  st_stopped s = false /\
  (forall q, q <> root -> unchanged s f q) /\
  (forall o, run w visits = Ok o -> (unchanged s f root \/ part_of s root (single_file_text w o)) /\
     (finished s -> can_open root = true -> shows s root (single_file_text w o))) /\
  ((forall o, run w visits <> Ok o) -> unchanged s f root \/
     part_of s root (concat (map (fun g => $"// File: " ++ g_name g ++ [nl] ++ g_text g ++ [nl; nl]) (made can_open w visits)))).
Proof.
  intros m c w visits f s Sf R root. unfold during, started, made, plan_of in *.
  destruct (plan_cases c w (collect w visits)) as [[A [Fs [_ N]]]|[ns [A [_ [Co [RE NE]]]]]]; rewrite A in R.
  - apply nothing_to_do in R. subst s. split; [reflexivity|]. split; [intros; reflexivity|]. split; [|intros; left; reflexivity].
    intros o Ho. split; [left; reflexivity|]. intros _ C. destruct (N C o Ho).
  - set (gs := p_files (generate_plan c w (collect w visits))) in *. remember (is_ok (p_end (generate_plan c w (collect w visits)))) as ok eqn:Eok.
    rewrite (single_acts c w gs ns ok Sf) in R.
    set (ts := map single_chunk gs ++ (if ok then [root_text w ns gs; single_tail w ns gs] else [])) in *.
    set (tail := if ok then [Close (root_file w)] else []) in *.
    assert (T : tail = [] \/ tail = [Close root]) by (unfold tail; destruct ok; [right|left]; reflexivity).
    assert (H : streaming root ts tail (lookup root (files f)) (proj (prefix (wopt w)) root s)).
    { refine (reachable_inv m c (prefix (wopt w)) root _ _ _ _ _ R); [intros x y; apply streaming_step; exact T|].
      unfold proj. cbn [st_acts st_fs]. rewrite filter_all; [apply S_before|]. intros a I. rewrite (stream_touch _ root _ _ _ _ T I). apply streqb_refl. }
    split; [|split; [|split]].
    + clear H. assert (NU : forall n t, ~ In (Update n t) (Open (root_file w) :: map (Write (root_file w)) ts ++ tail)).
      { intros n t [I|I]; [discriminate I|]. apply in_app_or in I. destruct I as [I|I]; [apply in_map_iff in I; destruct I as [y [I _]]; discriminate I|].
        destruct T as [T|T]; rewrite T in I; [destruct I|]. destruct I as [I|[]]. discriminate I. }
      revert NU. generalize (Open (root_file w) :: map (Write (root_file w)) ts ++ tail) as l, R. clear. intros l R NU.
      assert (X : st_stopped s = false /\ forall n t, ~ In (Update n t) (st_acts s)); [|tauto].
      remember (mkstate l f [] false) as s0 eqn:E. assert (st_stopped s0 = false /\ forall n t, ~ In (Update n t) (st_acts s0)) as I0 by (subst; split; [reflexivity|exact NU]).
      clear E NU. induction R as [|s0 s1 s2 S1 R IH]; [exact I0|]. apply IH. destruct I0 as [I1 I2]. destruct S1; subst; cbn [st_acts st_stopped] in *;
        try (split; [reflexivity|intros n0 t0 X; exact (I2 n0 t0 (or_intror X))]); try (exfalso; exact (I2 n t (or_introl eq_refl))). split; assumption.
    + intros q Nq. assert (X : proj (prefix (wopt w)) q s = ([], lookup q (files f), [])).
      { refine (reachable_inv m c (prefix (wopt w)) q (fun x => x = ([], lookup q (files f), [])) _ _ _ _ R); [intros x y; apply untouched_step|].
        unfold proj. cbn [st_acts st_fs]. rewrite filter_none; [reflexivity|]. intros a I. rewrite (stream_touch _ q _ _ _ _ T I). apply streqb_neq. intros X. apply Nq. symmetry. exact X. }
      apply (f_equal (fun x => snd (fst x))) in X. exact X.
    + intros o Ho. specialize (NE o Ho). destruct (RE NE) as [o' [Ho' [K2 K3]]]. unfold run in Ho. rewrite Ho in Ho'. apply Ok_inj in Ho'. subst o'.
      assert (Txt : concat ts = single_file_text w o).
      { unfold ts, single_file_text. rewrite NE, K2, K3, concat_app. cbn [concat]. unfold single_tail.
        change (concat (map single_chunk (out_files o))) with (concat (map (fun g => $"// File: " ++ g_name g ++ [nl] ++ g_text g ++ [nl; nl]) (out_files o))).
        generalize (concat (map (fun g => $"// File: " ++ g_name g ++ [nl] ++ g_text g ++ [nl; nl]) (out_files o))), (root_text w (out_namespaces o) (out_files o)), (concat (map (fun s0 => $"// " ++ s0 ++ [nl]) (source_names w (out_files o)))), (modules_text (out_namespaces o)).
        intros v x y z. rewrite app_nil_r. reflexivity. }
      split.
      * destruct (streaming_shows _ _ _ _ _ H) as [U|[rest U]]; [left; exact U|right; exists rest]. rewrite Txt in U. exact U.
      * intros [Fin _] _. unfold tail in H. rewrite NE in H. unfold shows. rewrite <- Txt. apply (streaming_end _ _ _ _ H). cbn [proj fst]. rewrite Fin. reflexivity.
    + intros No. assert (K : ok = false) by (destruct ok; [destruct (RE eq_refl) as [o [Eo _]]; destruct (No o Eo)|reflexivity]).
      destruct (streaming_shows _ _ _ _ _ H) as [U|[rest U]]; [left; exact U|right; exists rest].
      unfold ts in U. rewrite K, app_nil_r in U. exact U.
Qed.
Print Assumptions C70_single_file.

(** Concrete moments: the program runs, no stream writes before it is closed. *)
Definition advance (m c : str -> bool) (pre : str) (s : state) : state :=
  if st_stopped s then s else
  match st_acts s with
  | [] => s
  | Open p :: l => mkstate l (run_op (st_fs s) (Truncate p)) (update p [] (st_pending s)) false
  | Write p t :: l => mkstate l (st_fs s) (update p (pending s p ++ t) (st_pending s)) false
  | Close p :: l => mkstate l (run_op (st_fs s) (Append p (pending s p))) (update p [] (st_pending s)) false
  | Update n t :: l =>
      match update_source_file m c pre n t (st_fs s) with
      | Ok _ => if streqb (content (st_fs s) (path_of pre n)) t then mkstate l (st_fs s) (st_pending s) false
                else mkstate (Open (path_of pre n) :: Write (path_of pre n) t :: Close (path_of pre n) :: l) (st_fs s) (st_pending s) false
      | _ => mkstate (st_acts s) (st_fs s) (st_pending s) true
      end
  end.
Lemma advance_reaches m c pre s : clos_refl_trans_1n state (step m c pre) s (advance m c pre s).
Proof.
  destruct s as [l f b st]. unfold advance. cbn [st_stopped st_acts st_fs st_pending]. destruct st; [apply Relation_Operators.rt1n_refl|].
  assert (One : forall s s', step m c pre s s' -> clos_refl_trans_1n state (step m c pre) s s') by (intros s s' H; eapply Relation_Operators.rt1n_trans; [exact H|apply Relation_Operators.rt1n_refl]).
  destruct l as [|[p|p t|p|n t] l]; [apply Relation_Operators.rt1n_refl| | | |]; apply One.
  - apply ST_open.
  - apply (ST_write m c pre p t l f b _ eq_refl).
  - apply (ST_close m c pre p l f b _ eq_refl).
  - destruct (update_source_file m c pre n t f) as [f'|x|x|x|] eqn:E; try (apply ST_fails; intros f'; rewrite E; discriminate).
    destruct (streqb (content f (path_of pre n)) t) eqn:Q.
    + apply (ST_same m c pre n t l f b f' E). apply streqb_eq. exact Q.
    + apply (ST_differs m c pre n t l f b f' E). intros X. rewrite X, streqb_refl in Q. discriminate Q.
Qed.
Lemma advances_during m c w visits f k : during m c w visits f (Nat.iter k (advance m c (prefix (wopt w))) (started c w visits f)).
Proof.
  unfold during. apply clos_rt_rt1n. induction k as [|k IH]; [apply rt_refl|]. cbn [Nat.iter nat_rect]. eapply rt_trans; [exact IH|]. apply clos_rt1n_rt. apply advance_reaches.
Qed.
Definition all_yes : str -> bool := fun _ => true.
Definition moment (k : nat) (f : fs) : state :=
  Nat.iter k (advance all_yes all_yes (prefix (wopt (mix_w true false 300)))) (started all_yes (mix_w true false 300) mix_visits f).
(** The list of sources may be complete while the root file is still empty:
    its stream is closed last. *)
Theorem C70_root_last_refuted :
  ~ (forall mkdir_ok can_open w visits f s o, single_file (wopt w) = false -> run w visits = Ok o ->
     NoDup ((root_module (wopt w) ++ $".cpp") :: map g_name (out_files o)) -> during mkdir_ok can_open w visits f s ->
     shows s (in_dir w (root_module (wopt w) ++ $".sources")) (sources_text ((root_module (wopt w) ++ $".cpp") :: map g_name (out_files o))) ->
     shows s (in_dir w (root_module (wopt w) ++ $".cpp")) (root_text w (out_namespaces o) (out_files o))).
Proof.
  intros H. set (w := mix_w true false 300) in H.
  assert (X := H all_yes all_yes w mix_visits (mkfs [] []) (moment 21 (mkfs [] [])) (out_of w mix_visits)). clear H.
  assert (Y : shows (moment 21 (mkfs [] [])) (in_dir w (root_module (wopt w) ++ $".cpp")) (root_text w (out_namespaces (out_of w mix_visits)) (out_files (out_of w mix_visits)))).
  { apply X; clear X; try (vm_compute; reflexivity).
    - vm_compute. repeat constructor; cbn; intuition discriminate.
    - apply advances_during. }
  clear X. apply (f_equal (@length ascii)) in Y. vm_compute in Y. discriminate Y.
Qed.
Print Assumptions C70_root_last_refuted.

(** The hypotheses are met: a run with four files, at a moment where the second
    is being written, at its end, repeated after a kill, and with a file that
    cannot be opened. *)
Example C70_case : let w := mix_w true false 300 in
  single_file (wopt w) = false /\ NoDup ((root_module (wopt w) ++ $".cpp") :: map g_name (made all_yes w mix_visits)) /\
  map g_name (made all_yes w mix_visits) = map g_name (out_files (out_of w mix_visits)) /\ length (made all_yes w mix_visits) = 4 /\
  run w mix_visits = Ok (out_of w mix_visits).
Proof. split; [reflexivity|]. split; [vm_compute; repeat constructor; cbn; intuition discriminate|]. split; [vm_compute; reflexivity|]. split; vm_compute; reflexivity. Qed.
Example C70_case_killed : let old := mkfs [($"out/a_1.cpp", $"old"); ($"out/s.cpp", $"older")] [] in
  during all_yes all_yes (mix_w true false 300) mix_visits old (moment 7 old) /\
  map (fun x => (fst x, length (snd x))) (files (st_fs (moment 7 old))) = [($"out/a_1.cpp", 0); ($"out/s.cpp", 5); ($"out/root.cpp", 0); ($"out/a.cpp", 807)].
Proof. split; [apply advances_during|vm_compute; reflexivity]. Qed.
Example C70_case_repeated : let old := mkfs [($"out/a_1.cpp", $"old")] [] in let s1 := moment 7 old in
  finished (moment 40 (st_fs s1)) /\ finished (moment 40 old) /\ during all_yes all_yes (mix_w true false 300) mix_visits (st_fs s1) (moment 40 (st_fs s1)) /\
  length (st_acts s1) > 0.
Proof. split; [vm_compute; split; reflexivity|]. split; [vm_compute; split; reflexivity|]. split; [apply advances_during|vm_compute; repeat constructor]. Qed.
Example C70_case_fails : let w := mix_w true false 300 in let can_open p := negb (streqb p $"out/s.cpp") in
  let s := Nat.iter 40 (advance all_yes can_open (prefix (wopt w))) (started can_open w mix_visits (mkfs [] [])) in
  st_stopped s = true /\ map (fun x => (fst x, length (snd x))) (files (st_fs s)) = [($"out/root.cpp", 0); ($"out/a.cpp", 807); ($"out/a_1.cpp", 852)].
Proof. vm_compute. split; reflexivity. Qed.
Example C70_case_single : let w := mkworld mix_env mix_config (mkoptions false false true true false false $"root" 300 true $"out" false) in
  let s := Nat.iter 40 (advance all_yes all_yes (prefix (wopt w))) (started all_yes w mix_visits (mkfs [] [])) in
  finished s /\ run w mix_visits = Ok (out_of w mix_visits) /\ map (fun x => (fst x, length (snd x))) (files (st_fs s)) = [($"out/root.cpp", 4976)].
Proof. split; [vm_compute; split; reflexivity|]. split; vm_compute; reflexivity. Qed.
