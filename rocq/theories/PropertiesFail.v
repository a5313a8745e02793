(** Property C95: every failure of a run has one of the listed causes. *)
From Coq Require Import Ascii String Bool Arith NArith Lia Permutation Relations.
From Coq Require Import List.
From Verif Require Import Str StrFacts SpecUtil Util UtilFacts Config SpecConfig ConfigFacts Ast Types Func Enum Includes Class Context SpecContext SpecIncludes ContextFacts SortFacts WriteFacts TotalFacts IncludesFacts RunFacts FailFacts Program ProgramFacts SpecFail Samples PropertiesContext.
Import ListNotations.

(** ** The queries *)

Lemma same_entry a b (e1 e2 ns : str) k : is_prefix e1 ns -> is_prefix e2 ns -> length e1 = k -> length e2 = k -> In e1 a -> In e2 b -> In e1 b.
Proof.
  intros [r1 H1] [r2 H2] L1 L2 I1 I2. assert (X : e1 = e2); [|subst; exact I2].
  assert (Y : firstn k ns = e1) by (rewrite H1, <- L1, firstn_app, Nat.sub_diag, firstn_all, firstn_O, app_nil_r; reflexivity).
  rewrite <- Y, H2, <- L2, firstn_app, Nat.sub_diag, firstn_all, firstn_O, app_nil_r; reflexivity.
Qed.
Lemma conflict_from c ns k : longest_match (lists c namespaces_to_bind) ns k -> longest_match (lists c namespaces_to_skip) ns k -> 0 < k ->
  namespaces_conflict c ns.
Proof.
  intros [_ [->|[e1 [I1 [P1 L1]]]]] [_ [Z|[e2 [I2 [P2 L2]]]]] K; try lia. exists e1.
  split; [intros ->; cbn in L1; lia|]. split; [exact P1|]. split; [exact I1|]. exact (same_entry _ _ _ _ _ _ P1 P2 L1 L2 I1 I2).
Qed.
Lemma clean_bind_query c ns : clean (about_conflict c) (is_namespace_binding_requested c ns).
Proof.
  destruct (longest_exists (lists c namespaces_to_bind) ns) as [b Hb], (longest_exists (lists c namespaces_to_skip) ns) as [s Hs].
  rewrite (binding_cases c ns b s Hb Hs). destruct (Nat.ltb_spec s b); [exact I|]. destruct (Nat.ltb_spec b s); [exact I|].
  destruct (Nat.ltb_spec 0 b); [|exact I]. assert (s = b) by lia; subst s.
  exists ns; left; split; [exact (conflict_from c ns b Hb Hs H1)|reflexivity].
Qed.
Lemma clean_skip_query c ns : clean (about_conflict c) (is_namespace_skipping_requested c ns).
Proof.
  destruct (longest_exists (lists c namespaces_to_bind) ns) as [b Hb], (longest_exists (lists c namespaces_to_skip) ns) as [s Hs].
  rewrite (skipping_cases c ns b s Hb Hs). destruct (Nat.ltb_spec s b); [exact I|]. destruct (Nat.ltb_spec b s); [exact I|].
  destruct (Nat.ltb_spec 0 b); [|exact I]. assert (s = b) by lia; subst s.
  exists ns; left; split; [exact (conflict_from c ns b Hb Hs H1)|reflexivity].
Qed.
Lemma clean_local_query c ns : clean (about_conflict c) (is_module_local_requested c ns).
Proof.
  unfold is_module_local_requested. destruct (mem $"@all_namespaces" _) eqn:A; [exact I|].
  destruct (mem ns (lists c module_local_namespaces_to_add)) eqn:E1; [|exact I].
  destruct (mem ns (lists c module_local_namespaces_to_skip)) eqn:E2; [|exact I].
  exists ns; right; split; [|reflexivity]. split; [rewrite <- mem_In, A; discriminate|]. split; apply mem_In; assumption.
Qed.

(** ** One run *)

Lemma missing_base w visits l log c : bind_all w (collect w visits) = Ok (l, log) ->
  missing (fun c => is_python_builtin w (r_decl (rec_ w c))) l c -> exists r, base_missing w visits r c.
Proof.
  intros E [K [[r [b [Hb [D Hc]]]] M]]. exists r. destruct (bound_deps_inherit _ _ _ _ E b r c Hb D Hc) as [_ [B _]].
  destruct (bind_all_spec _ _ _ _ E) as [It _]. unfold items in It.
  split; [unfold collected_items; rewrite <- It, <- D; apply in_map; exact Hb|]. split; [exact B|]. split; [|exact K].
  unfold collected_items; rewrite <- It; intros X. apply in_map_iff in X; destruct X as [b' [D' Hb']]. exact (M b' Hb' D').
Qed.

(** Whatever the declarations and the settings are: a run that ends by an
    exception does so because of two directives of opposite sign for one
    namespace, a run that ends by [exit] because of a base class without a
    binding, and both say which; no run has undefined behaviour. *)
Theorem C95_failures : forall w visits,
  match run w visits with
  | Ok _ => True
  | Throw m => about_conflict (wcfg w) m
  | Exit1 m => about_base w visits m
  | Undefined _ => False
  | Diverges => True
  end.
Proof.
  intros w visits. unfold run, generate.
  pose proof (clean_bind_all w _ (clean_skip_query (wcfg w)) (clean_bind_query (wcfg w)) (clean_local_query (wcfg w)) (collect w visits)) as B.
  destruct (bind_all w (collect w visits)) as [[l log]|m|m|m|] eqn:Eb; cbn [bind_r]; try exact B; try (destruct B; fail).
  pose proof (sort_binders_spec w l) as S; cbv zeta in S.
  destruct (sort_binders w l) as [s|m|m|m|]; cbn [bind_r]; try exact I; try (destruct S; fail).
  - pose proof (clean_write_loop w _ (clean_skip_query (wcfg w)) (write_fuel s) s [] [] 0) as W.
    unfold write_files. destruct (write_loop _ _ _ _ _ _) as [gs|m|m|m|]; cbn [bind_r]; first [exact W|destruct W].
  - destruct S as [c [M ->]]. destruct (missing_base _ _ _ _ _ Eb M) as [r R]. exists r, c; split; [exact R|reflexivity].
Qed.
Print Assumptions C95_failures.
(** So on a complete translation unit, with no such directives and with every
    base class that a binding names among the declarations or known to Python,
    the run succeeds. *)
Theorem C95_succeeds : forall w U visits,
  translation_unit w U -> hierarchy_acyclic w -> nesting_acyclic w -> incl visits U -> (0 < max_file_size (wopt w))%N ->
  (forall ns, ~ namespaces_conflict (wcfg w) ns) -> (forall ns, ~ locals_conflict (wcfg w) ns) ->
  (forall r c, ~ base_missing w visits r c) ->
  exists o, run w visits = Ok o.
Proof.
  intros w U visits T HA NA V M N1 N2 N3. pose proof (C95_failures w visits) as F.
  pose proof (C59_run_terminates w U visits T HA NA V M) as D.
  destruct (run w visits) as [o|m|m|m|]; [exists o; reflexivity| | |destruct F|destruct (D eq_refl)].
  - destruct F as [ns [[X _]|[X _]]]; [destruct (N1 ns X)|destruct (N2 ns X)].
  - destruct F as [r [c [X _]]]; destruct (N3 r c X).
Qed.
Print Assumptions C95_succeeds.

(** ** One source file of an invocation *)

Lemma directory_prefix prefix name : name <> [] ->
  is_prefix (fold_left (fun p d => p ++ $"/" ++ d) (removelast (split name $"/")) prefix) (prefix ++ $"/" ++ name).
Proof.
  intros Hn. destruct (split_pieces "/" name) as [t [r [Es [_ Hp]]]]. change ["/"%char] with $"/" in *. rewrite Hp. clear Hp.
  assert (G : forall l p, fold_left (fun p d => p ++ $"/" ++ d) l p = p ++ concat (map (fun d => $"/" ++ d) l)).
  { induction l as [|d l IH]; intros p; cbn [fold_left map concat]; [rewrite app_nil_r; reflexivity|]. rewrite IH, <- app_assoc; reflexivity. }
  assert (K : forall l tl, $"/" ++ concat (map (fun p => p ++ $"/") l) ++ tl = concat (map (fun d => $"/" ++ d) l) ++ $"/" ++ tl).
  { induction l as [|d l IH]; intros tl; cbn [map concat]; [reflexivity|]. rewrite <- !app_assoc.
    rewrite <- IH. reflexivity. }
  rewrite G. destruct r as [|ch r].
  - rewrite app_nil_r in *. destruct t as [|d t _] using rev_ind; [cbn in Es; congruence|].
    rewrite removelast_app by discriminate; cbn [removelast]; rewrite app_nil_r.
    exists ($"/" ++ d ++ $"/"). rewrite Es, map_app, concat_app. cbn [map concat]. rewrite app_nil_r, <- app_assoc, <- K. reflexivity.
  - rewrite removelast_app by discriminate; cbn [removelast]; rewrite app_nil_r.
    exists ($"/" ++ ch :: r). rewrite Es, <- app_assoc, <- K. reflexivity.
Qed.
Definition refused_file (mkdir_ok can_open : str -> bool) (prefix : str) (l : list (str * str)) (m : str) : Prop :=
  exists name code, In (name, code) l /\
    ((can_open (prefix ++ $"/" ++ name) = false /\ m = $"ERROR: Can not open file " ++ (prefix ++ $"/" ++ name) ++ $" for writing...") \/
     exists path, mkdir_ok path = false /\ is_prefix path (prefix ++ $"/" ++ name) /\ m = $"ERROR: Command ""mkdir -p " ++ path ++ $""" failed").
Lemma clean_update_all mkdir_ok can_open prefix l : (forall name code, In (name, code) l -> name <> []) ->
  forall f, clean (refused_file mkdir_ok can_open prefix l) (update_all mkdir_ok can_open prefix l f).
Proof.
  induction l as [|[name code] l IH]; intros N f; cbn [update_all]; [exact I|].
  assert (Hn : name <> []) by (apply (N name code); left; reflexivity).
  assert (C : clean (refused_file mkdir_ok can_open prefix ((name, code) :: l)) (update_source_file mkdir_ok can_open prefix name code f)).
  { unfold update_source_file. pose proof (directory_prefix prefix name Hn) as P. pose proof (split_slash_nonempty name Hn) as Z.
    destruct (split name $"/") as [|d ds]; [destruct (Z eq_refl)|]. cbv zeta.
    destruct (mkdir_ok (fold_left (fun p d => p ++ $"/" ++ d) (removelast (d :: ds)) prefix)) eqn:Em; cbn [negb].
    - destruct (streqb _ code); [exact I|]. destruct (can_open (prefix ++ $"/" ++ name)) eqn:Eo; cbn [negb]; [exact I|].
      exists name, code; split; [left; reflexivity|left; split; [exact Eo|reflexivity]].
    - exists name, code; split; [left; reflexivity|right]. eexists; split; [exact Em|split; [exact P|reflexivity]]. }
  destruct (update_source_file mkdir_ok can_open prefix name code f) as [f1|m|m|m|]; cbn [bind_r]; try exact C; try (destruct C; fail).
  specialize (IH (fun n c H => N n c (or_intror H)) f1). destruct (update_all mkdir_ok can_open prefix l f1) as [f2|m|m|m|]; try exact IH.
  destruct IH as [n [c [Hi H]]]; exists n, c; split; [right; exact Hi|exact H].
Qed.
Lemma clean_write_output i w visits o f : run w visits = Ok o -> clean (refused i w o) (write_output (i_mkdir_ok i) (i_can_open i) w o f).
Proof.
  intros R. unfold write_output; cbv zeta. unfold root_file_name at 1.
  destruct (i_can_open i (prefix (wopt w) ++ $"/" ++ root_module (wopt w) ++ $".cpp")) eqn:Er; cbn [negb].
  2:{ left; eexists; split; [exact Er|]. split; [reflexivity|left; reflexivity]. }
  destruct (single_file (wopt w)) eqn:Es; [exact I|].
  destruct (run_inv _ _ _ R) as [l [_ [_ [W _]]]].
  assert (N : forall name code, In (name, code) (map (fun g => (g_name g, g_text g)) (out_files o)) -> name <> []).
  { intros name code H. apply in_map_iff in H; destruct H as [g [H Hg]]; injection H as <- <-.
    destruct (wrote_cpp _ _ _ _ _ _ W g Hg) as [p ->]. destruct p; discriminate. }
  match goal with |- context[update_all ?a ?b ?c ?d ?e] => pose proof (clean_update_all a b c d N e) as C; destruct (update_all a b c d e) as [f1|m|m|m|] end;
    cbn [bind_r]; try exact C; try (destruct C; fail).
  destruct C as [name [code [Hi H]]]. apply in_map_iff in Hi; destruct Hi as [g [Hi Hg]]; injection Hi as <- <-.
  destruct H as [[H1 H2]|[path [H1 [H2 H3]]]].
  - left; eexists; split; [exact H1|]. split; [exact H2|]. right; split; [exact Es|]. exists g; split; [exact Hg|reflexivity].
  - right; exists path; split; [exact H1|]. split; [exact H3|]. split; [exact Es|]. exists g; split; [exact Hg|exact H2].
Qed.
Lemma update_all_total mkdir_ok can_open prefix l : forall f, update_all mkdir_ok can_open prefix l f <> Diverges.
Proof.
  induction l as [|[name code] l IH]; intros f; cbn [update_all]; [discriminate|].
  unfold update_source_file. destruct (split name $"/"); [discriminate|]. destruct (negb _); [discriminate|]. cbv zeta.
  destruct (streqb _ _); [apply IH|]. destruct (negb _); [discriminate|apply IH].
Qed.
Lemma write_output_total mkdir_ok can_open w o f : write_output mkdir_ok can_open w o f <> Diverges.
Proof.
  unfold write_output; cbv zeta. destruct (negb _); [discriminate|]. destruct (single_file _); [discriminate|].
  intros H. apply bind_r_Diverges in H. destruct H as [H|[f1 [_ H]]]; [exact (update_all_total _ _ _ _ _ H)|discriminate].
Qed.

(** The processing of a source file fails because of the config file, because
    of conflicting directives, because of a base class without a binding, or
    because the disk refuses a directory or a file of the output. *)
Theorem C95_program_failures : forall i s c f,
  let settings := setup c (i_bind i) (i_skip i) (i_config i) (i_config_text i) in
  match process i s c f with
  | Ok _ => True
  | Throw m =>
      (config_unreadable i /\ m = $"can not open file " ++ i_config i ++ $" for reading...") \/
      config_invalid i \/
      (exists c1, settings = Ok c1 /\ about_conflict c1 m) \/
      (exists c1 o, settings = Ok c1 /\ run (mkworld (so_env s) c1 (i_options i)) (so_visits s) = Ok o /\
         refused i (mkworld (so_env s) c1 (i_options i)) o m)
  | Exit1 m => exists c1, settings = Ok c1 /\ about_base (mkworld (so_env s) c1 (i_options i)) (so_visits s) m
  | Undefined _ => False
  | Diverges => True
  end.
Proof.
  intros i s c f settings. unfold process. fold settings.
  destruct settings as [c1|m|m|m|] eqn:Es; cbn [bind_r]; unfold settings, setup in Es.
  - set (w := mkworld (so_env s) c1 (i_options i)). cbv zeta. fold (run w (so_visits s)).
    pose proof (C95_failures w (so_visits s)) as F. change (wcfg w) with c1 in F.
    destruct (run w (so_visits s)) as [o|m|m|m|] eqn:Er; cbn [bind_r]; try exact F.
    + pose proof (clean_write_output i w _ o f Er) as C. destruct (write_output _ _ _ _ _) as [f1|m|m|m|]; cbn [bind_r]; try exact C; try (destruct C; fail).
      right; right; right. exists c1, o; split; [reflexivity|]. split; [exact Er|exact C].
    + right; right; left. exists c1; split; [reflexivity|exact F].
    + exists c1; split; [reflexivity|exact F].
  - destruct (i_config i) as [|ch file] eqn:Ec; [discriminate|]. destruct (i_config_text i) as [text|] eqn:Et; cbn [read] in Es.
    + right; left. split; [rewrite Ec; discriminate|]. destruct (proj1 (read_text_reject _ _) (ex_intro _ m Es)) as [ls [line H]].
      exists text, ls, line; split; [exact Et|exact H].
    + left. split; [split; [rewrite Ec; discriminate|exact Et]|]. injection Es as <-; reflexivity.
  - destruct (i_config i); [discriminate|]. destruct (i_config_text i) as [text|]; cbn [read] in Es; [|discriminate].
    destruct (read_lines_total (split text [nl]) (assign_list namespaces_to_skip (i_skip i) (assign_list namespaces_to_bind (i_bind i) c))) as [[x X]|[x X]];
      unfold read_text in Es; rewrite X in Es; discriminate.
  - destruct (i_config i); [discriminate|]. destruct (i_config_text i) as [text|]; cbn [read] in Es; [|discriminate].
    destruct (read_lines_total (split text [nl]) (assign_list namespaces_to_skip (i_skip i) (assign_list namespaces_to_bind (i_bind i) c))) as [[x X]|[x X]];
      unfold read_text in Es; rewrite X in Es; discriminate.
  - exact I.
Qed.
Print Assumptions C95_program_failures.
(** So an invocation with a readable and valid config file, or none, on a disk
    that refuses nothing, processes every such source file. *)
Theorem C95_program_succeeds : forall i s c f U,
  ~ config_unreadable i -> ~ config_invalid i -> (forall p, i_can_open i p = true) -> (forall p, i_mkdir_ok i p = true) ->
  (0 < max_file_size (i_options i))%N ->
  (forall c1, setup c (i_bind i) (i_skip i) (i_config i) (i_config_text i) = Ok c1 ->
     let w := mkworld (so_env s) c1 (i_options i) in
     translation_unit w U /\ hierarchy_acyclic w /\ nesting_acyclic w /\ incl (so_visits s) U /\
     (forall ns, ~ namespaces_conflict c1 ns) /\ (forall ns, ~ locals_conflict c1 ns) /\
     forall r b, ~ base_missing w (so_visits s) r b) ->
  exists d, process i s c f = Ok d.
Proof.
  intros i s c f U N1 N2 O K M H. pose proof (C95_program_failures i s c f) as F; cbv zeta in F.
  destruct (process i s c f) as [d|m|m|m|] eqn:Ep; [exists d; reflexivity| | |destruct F|].
  - exfalso. destruct F as [[X _]|[X|[[c1 [E1 [ns [[X _]|[X _]]]]]|[c1 [o [_ [_ X]]]]]]].
    + exact (N1 X).
    + exact (N2 X).
    + destruct (H c1 E1) as [_ [_ [_ [_ [Y _]]]]]; exact (Y ns X).
    + destruct (H c1 E1) as [_ [_ [_ [_ [_ [Y _]]]]]]; exact (Y ns X).
    + destruct X as [[p [X _]]|[p [X _]]]; [rewrite O in X|rewrite K in X]; discriminate X.
  - exfalso. destruct F as [c1 [E1 [r [b [X _]]]]]. destruct (H c1 E1) as [_ [_ [_ [_ [_ [_ Y]]]]]]; exact (Y r b X).
  - exfalso. unfold process in Ep. apply bind_r_Diverges in Ep. destruct Ep as [Es|[c1 [Es Ep]]].
    { unfold setup in Es. destruct (i_config i); [discriminate|]. destruct (i_config_text i) as [text|]; cbn [read] in Es; [|discriminate].
      destruct (read_lines_total (split text [nl]) (assign_list namespaces_to_skip (i_skip i) (assign_list namespaces_to_bind (i_bind i) c))) as [[x X]|[x X]];
      unfold read_text in Es; rewrite X in Es; discriminate. }
    destruct (H c1 Es) as [T [HA [NA [V [Y1 [Y2 Y3]]]]]]. cbv zeta in Ep. set (w := mkworld (so_env s) c1 (i_options i)) in *.
    destruct (C95_succeeds w U (so_visits s) T HA NA V M Y1 Y2 Y3) as [o Eo]. unfold run in Eo. rewrite Eo in Ep. cbn [bind_r] in Ep.
    pose proof (clean_write_output i w _ o f Eo) as C. apply bind_r_Diverges in Ep. destruct Ep as [Ep|[f1 [_ Ep]]]; [|discriminate].
    exact (write_output_total _ _ _ _ _ Ep).
Qed.
Print Assumptions C95_program_succeeds.

(** The mixed sample meets the conditions of success; a run with both
    [--bind math] and [--skip math], a class derived from a nested one, and a
    disk without permissions show the failures. *)
Lemma mix_conditions : forall tracing flat_names max, let w := mix_w tracing flat_names max in
  translation_unit w mix_unit /\ hierarchy_acyclic w /\ nesting_acyclic w /\ incl mix_visits mix_unit /\
  (forall ns, ~ namespaces_conflict (wcfg w) ns) /\ (forall ns, ~ locals_conflict (wcfg w) ns) /\
  forall r c, ~ base_missing w mix_visits r c.
Proof.
  intros tracing flat_names max w. split; [apply mix_is_unit|]. split; [|split; [|split; [|split; [|split]]]].
  - intros r H. assert (X : r = 1 /\ r = 0).
    { assert (G : forall a b, Relation_Operators.clos_trans nat (inherits w) a b -> a = 1 /\ b = 0).
      { clear. intros a b H. induction H as [a b H|a b c _ [A1 A2] _ [B1 B2]]; [exact (mix_inherits _ _ _ _ _ H)|split; assumption]. }
      exact (G r r H). }
    destruct X as [-> X]; discriminate X.
  - intros r H. apply Operators_Properties.clos_trans_t1n in H.
    destruct H as [y H|y z H _]; exact (mix_nests _ _ _ _ _ H).
  - intros d Hd. unfold mix_visits in Hd; cbn [In] in Hd; one_of Hd; subst d; cbn; tauto.
  - intros ns [n [_ [_ [_ X]]]]. vm_compute in X. exact X.
  - intros ns [_ [X _]]. vm_compute in X. exact X.
  - intros r c [_ [B [N _]]]. apply N. destruct (mix_inherits _ _ _ _ _ (bound_base_inherits _ _ _ B)) as [-> ->]. clear.
    unfold w, collected_items. destruct tracing, flat_names; vm_compute; tauto.
Qed.
Example C95_case :
  (forall tracing flat_names max, (0 < max)%N -> exists o, run (mix_w tracing flat_names max) mix_visits = Ok o) /\
  (exists m, run nest_w [DRec 0; DRec 1; DRec 2; DRec 3] = Exit1 m /\ base_missing nest_w [DRec 0; DRec 1; DRec 2; DRec 3] 3 1).
Proof.
  split.
  - intros tracing flat_names max M. destruct (mix_conditions tracing flat_names max) as [T [HA [NA [V [N1 [N2 N3]]]]]].
    exact (C95_succeeds _ _ _ T HA NA V M N1 N2 N3).
  - eexists; split; [vm_compute; reflexivity|]. split; [vm_compute; tauto|]. split; [|split; [vm_compute; intuition discriminate|vm_compute; reflexivity]].
    eexists; split; [vm_compute; left; reflexivity|]. split; [reflexivity|]. split; [reflexivity|]. split; [vm_compute; intuition discriminate|]. split; vm_compute; reflexivity.
Qed.
Definition fail_invocation (bind skip : list str) (config : str) (text : option str) (may_open : bool) : invocation :=
  mkinvocation (mix_options false false 1000%N) bind skip config text (fun _ => true) (fun _ => may_open).
Definition fail_source : source := mksource mix_env mix_visits.
Example C95_program_case :
  let config := $"-class n::K" ++ [nl] ++ $"+add_on_binder_for_namespace n add_n" ++ [nl] in
  let ended i := do _ <- process i fail_source default_config (mkfs [] []); Ok tt in
  ended (fail_invocation [$"n"; []] [] $"c" (Some config) true) = Ok tt /\
  ended (fail_invocation [$"n"] [$"n"] [] None true)
    = Throw $"Could not determent if namespace 'n' should be binded or not... please check if options --bind and --skip conflicting!!!" /\
  ended (fail_invocation [$"n"; []] [] $"c" None true) = Throw $"can not open file c for reading..." /\
  (exists m, ended (fail_invocation [$"n"; []] [] $"c" (Some $"class n::K") true) = Throw m) /\
  ended (fail_invocation [$"n"; []] [] $"c" (Some config) false) = Throw $"ERROR: Can not open file out/root.cpp for writing...".
Proof. cbv zeta. repeat split; try (vm_compute; reflexivity). eexists; vm_compute; reflexivity. Qed.
(** The conditions of [C95_program_succeeds]. *)
Example C95_program_conditions :
  let i := fail_invocation [$"n"; []] [] $"c" (Some ($"-class n::K" ++ [nl] ++ $"+add_on_binder_for_namespace n add_n" ++ [nl])) true in
  ~ config_unreadable i /\ ~ config_invalid i /\
  forall c1, setup default_config (i_bind i) (i_skip i) (i_config i) (i_config_text i) = Ok c1 ->
    mkworld (so_env fail_source) c1 (i_options i) = mix_w false false 1000%N.
Proof.
  cbv zeta. split; [intros [_ X]; discriminate X|]. split.
  - intros [_ [text [ls [line [X H]]]]]. destruct (proj2 (read_text_reject text default_config)) as [m M]; [exists ls, line; exact H|].
    cbn [i_config_text fail_invocation] in X. injection X as <-. vm_compute in M. discriminate M.
  - intros c1 H. unfold mix_w, mix_config. cbn [i_bind i_skip i_config i_config_text fail_invocation] in H. rewrite H. reflexivity.
Qed.
