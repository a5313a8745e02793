(** Sequences of runs.  The specification is in SpecHistory.v. *)
From Coq Require Import Ascii String Bool Arith NArith Lia Relations.
From Coq Require Import List.
From Verif Require Import Str StrFacts Util UtilFacts Config Ast Types Func Enum Includes Class Context Disk SpecUtil SpecContext SpecOutput SpecDisk SpecHistory
  ContextFacts WriteFacts RunFacts DiskFacts Samples PropertiesUtil PropertiesContext PropertiesOutput PropertiesDisk.
Import ListNotations.

(** ** C92: sequences of runs *)

Lemma written_or_not a q : {exists g, In g (made (a_open a) (a_world a) (a_visits a)) /\ q = in_dir (a_world a) (g_name g)} +
                           {forall g, In g (made (a_open a) (a_world a) (a_visits a)) -> q <> in_dir (a_world a) (g_name g)}.
Proof. apply one_of_dec. Qed.
(** One run. *)
Lemma one_run a f s : regular a -> during (a_mkdir a) (a_open a) (a_world a) (a_visits a) f s -> forall q,
  unchanged s f q \/ exists text, writes_text a q text /\ part_of s q text.
Proof.
  intros [SF ND] D q. destruct (C70_any_moment _ _ _ _ _ _ SF ND D) as [F [_ [_ [Q [G B]]]]].
  destruct (written_or_not a q) as [[g [I ->]]|N].
  { destruct (F g I) as [X|X]; [left; exact X|right]. exists (g_text g). split; [exact (WT_file a g I)|exact X]. }
  destruct (streqb q (root_file a $".cpp")) eqn:E1.
  { apply streqb_eq in E1. subst q. destruct (run (a_world a) (a_visits a)) as [o| | | |] eqn:R;
      [destruct (proj1 (G o eq_refl)) as [X|X]; [left; exact X|right]; eexists; split; [exact (WT_root a o R)|exact X]| | | |];
      (destruct (proj1 (B ltac:(intros o; discriminate))) as [X|X]; [left; exact X|right; exists []; split; [apply WT_no_root; intros o; rewrite R; discriminate|exists []; unfold shows in X; unfold root_file; rewrite X; reflexivity]]). }
  destruct (streqb q (root_file a $".sources")) eqn:E2.
  { apply streqb_eq in E2. subst q. destruct (run (a_world a) (a_visits a)) as [o| | | |] eqn:R;
      [destruct (proj1 (proj2 (G o eq_refl))) as [X|X]; [left; exact X|right]; eexists; split; [exact (WT_sources a o R)|exact X]| | | |];
      left; exact (proj1 (proj2 (B ltac:(intros o; discriminate)))). }
  destruct (streqb q (root_file a $".modules")) eqn:E3.
  { apply streqb_eq in E3. subst q. destruct (run (a_world a) (a_visits a)) as [o| | | |] eqn:R;
      [destruct (proj2 (proj2 (G o eq_refl))) as [X|X]; [left; exact X|right]; eexists; split; [exact (WT_modules a o R)|exact X]| | | |];
      left; exact (proj2 (proj2 (B ltac:(intros o; discriminate)))). }
  left. apply Q; [exact N| | |]; intros ->; unfold root_file in *; [rewrite streqb_refl in E1; discriminate E1|rewrite streqb_refl in E2; discriminate E2|rewrite streqb_refl in E3; discriminate E3].
Qed.
(** Whatever was run and wherever it was stopped: a file is as it was in the
    beginning, or holds a text that one of the runs writes there, or the first
    part of such a text. *)
Theorem C92_every_file_has_an_origin : forall f l f', history f l f' -> (forall a, In a l -> regular a) -> forall q,
  lookup q (files f') = lookup q (files f) \/ exists a text rest, In a l /\ writes_text a q text /\ text = content f' q ++ rest.
Proof.
  intros f l f' H R q. induction H as [|l f' a s H IH D]; [left; reflexivity|].
  destruct (one_run a f' s (R a ltac:(apply in_elt)) D q) as [U|[text [W [rest P]]]].
  - destruct (IH (fun x I => R x (in_or_app _ _ _ (or_introl I)))) as [E|[a' [text [rest [I [W P]]]]]].
    + left. rewrite U. exact E.
    + right. exists a', text, rest. split; [apply in_or_app; left; exact I|]. split; [exact W|]. unfold content in *. rewrite U. exact P.
  - right. exists a, text, rest. split; [apply in_elt|]. split; [exact W|exact P].
Qed.
Print Assumptions C92_every_file_has_an_origin.
(** A run that succeeds makes the files of its result. *)
Lemma made_by_success c w visits o : run w visits = Ok o -> c (in_dir w (root_module (wopt w) ++ $".cpp")) = true -> made c w visits = out_files o.
Proof.
  intros R C. unfold made, plan_of. destruct (plan_cases c w (collect w visits)) as [[_ [_ [_ N]]]|[ns [_ [_ [_ [RE NE]]]]]].
  - destruct (N C o R).
  - destruct (RE (NE o R)) as [o' [R' [E _]]]. unfold run in R. rewrite R in R'. apply Ok_inj in R'. subst o'. exact E.
Qed.
(** The last run counts: when it has finished, every file that it writes holds
    exactly its text, whatever happened before, and every other file is as the
    runs before have left it. *)
Theorem C92_last_run_counts : forall f l f' a s o, history f l f' ->
  during (a_mkdir a) (a_open a) (a_world a) (a_visits a) f' s -> finished s ->
  regular a -> run (a_world a) (a_visits a) = Ok o -> (forall q, a_open a q = true) ->
  history f (l ++ [a]) (st_fs s) /\
  (forall q text, writes_text a q text -> content (st_fs s) q = text) /\
  (forall q, (forall text, ~ writes_text a q text) -> lookup q (files (st_fs s)) = lookup q (files f')).
Proof.
  intros f l f' a s o H D Fi [SF ND] R AO. pose proof (made_by_success (a_open a) _ _ _ R (AO _)) as M. rewrite M in ND.
  destruct (C70_finished _ _ _ _ _ _ o SF R (AO _) ND D Fi) as [X1 [X2 [X3 [X4 X5]]]]. rewrite AO in X3, X4.
  split; [exact (HY_run _ _ _ _ _ H D)|]. split.
  - intros q text W. destruct W as [g I|o' R'|N|o' R'|o' R'].
    + rewrite M in I. exact (X1 g I).
    + rewrite R in R'. apply Ok_inj in R'. subst o'. exact X2.
    + destruct (N o R).
    + rewrite R in R'. apply Ok_inj in R'. subst o'. exact X3.
    + rewrite R in R'. apply Ok_inj in R'. subst o'. exact X4.
  - intros q N. apply X5; [intros g I ->|intros ->..].
    + rewrite <- M in I. exact (N _ (WT_file a g I)).
    + exact (N _ (WT_root a o R)).
    + exact (N _ (WT_sources a o R)).
    + exact (N _ (WT_modules a o R)).
Qed.
Print Assumptions C92_last_run_counts.
(** So two directories with different pasts agree, after the same run, on every
    file that the run writes. *)
Theorem C92_past_does_not_matter : forall f1 l1 f1' f2 l2 f2' a s1 s2 o, history f1 l1 f1' -> history f2 l2 f2' ->
  during (a_mkdir a) (a_open a) (a_world a) (a_visits a) f1' s1 -> finished s1 ->
  during (a_mkdir a) (a_open a) (a_world a) (a_visits a) f2' s2 -> finished s2 ->
  regular a -> run (a_world a) (a_visits a) = Ok o -> (forall q, a_open a q = true) ->
  forall q text, writes_text a q text -> content (st_fs s1) q = text /\ content (st_fs s2) q = text.
Proof.
  intros f1 l1 f1' f2 l2 f2' a s1 s2 o H1 H2 D1 F1 D2 F2 Rg R AO q text W. split.
  - exact (proj1 (proj2 (C92_last_run_counts _ _ _ _ _ _ H1 D1 F1 Rg R AO)) q text W).
  - exact (proj1 (proj2 (C92_last_run_counts _ _ _ _ _ _ H2 D2 F2 Rg R AO)) q text W).
Qed.
Print Assumptions C92_past_does_not_matter.

(** Two runs with the same settings, the second on a part of the input. *)
Definition hist_first : attempt := mkattempt all_yes all_yes (mix_w true false 300) mix_visits.
Definition hist_second : attempt := mkattempt all_yes all_yes (mix_w true false 300) (firstn 2 mix_visits).
Definition hist_after (k : nat) (a : attempt) (f : fs) : state :=
  Nat.iter k (advance (a_mkdir a) (a_open a) (prefix (wopt (a_world a)))) (started (a_open a) (a_world a) (a_visits a) f).
Lemma hist_during k a f : during (a_mkdir a) (a_open a) (a_world a) (a_visits a) f (hist_after k a f).
Proof. apply advances_during. Qed.
(** The program removes nothing: after a run on a smaller input, files of the
    run before it are still there, complete, though no list names them. *)
Theorem C92_directory_is_the_last_run_refuted :
  ~ (forall f l f' a s o q, history f l f' -> during (a_mkdir a) (a_open a) (a_world a) (a_visits a) f' s -> finished s ->
       regular a -> run (a_world a) (a_visits a) = Ok o -> (forall p, a_open a p = true) ->
       files f = [] -> content (st_fs s) q <> [] -> exists text, writes_text a q text).
Proof.
  intros H. set (f1 := st_fs (hist_after 60 hist_first (mkfs [] []))).
  destruct (H (mkfs [] []) [hist_first] f1 hist_second (hist_after 60 hist_second f1) (out_of (mix_w true false 300) (firstn 2 mix_visits)) $"out/s.cpp") as [text W].
  - exact (HY_run _ [] _ hist_first _ (HY_none _) (hist_during 60 hist_first _)).
  - apply hist_during.
  - vm_compute. split; reflexivity.
  - split; [reflexivity|vm_compute; repeat constructor; cbn; intuition discriminate].
  - vm_compute. reflexivity.
  - reflexivity.
  - reflexivity.
  - vm_compute. discriminate.
  - remember $"out/s.cpp" as q eqn:Q. destruct W as [g I|o R|N|o R|o R]; try (vm_compute in Q; discriminate Q).
    assert (X : In (g_name g) (map g_name (made (a_open hist_second) (a_world hist_second) (a_visits hist_second)))) by (apply in_map; exact I).
    revert X Q. generalize (g_name g) as n. intros n X Q. vm_compute in X.
    repeat match type of X with False => destruct X | _ => destruct X as [X|X]; [subst n; vm_compute in Q; discriminate Q|] end.
Qed.
Print Assumptions C92_directory_is_the_last_run_refuted.
(** The hypotheses are met: a killed run, a finished one on another input, then
    a finished one. *)
Example C92_case : let f0 := mkfs [($"out/a.cpp", $"old")] [] in
  let f1 := st_fs (hist_after 7 hist_first f0) in let f2 := st_fs (hist_after 60 hist_second f1) in let s := hist_after 60 hist_first f2 in
  history f0 [hist_first; hist_second] f2 /\ finished s /\ regular hist_first /\ regular hist_second /\
  st_acts (hist_after 7 hist_first f0) <> [] /\ run (a_world hist_first) (a_visits hist_first) = Ok (out_of (mix_w true false 300) mix_visits) /\
  content f2 $"out/a.cpp" <> content f0 $"out/a.cpp" /\ lookup $"out/s.cpp" (files f2) = None /\ length (content (st_fs s) $"out/s.cpp") > 100.
Proof.
  cbv zeta. split.
  { refine (HY_run _ [hist_first] _ hist_second _ _ (hist_during 60 hist_second _)). exact (HY_run _ [] _ hist_first _ (HY_none _) (hist_during 7 hist_first _)). }
  split; [vm_compute; split; reflexivity|].
  split; [split; [reflexivity|vm_compute; repeat constructor; cbn; intuition discriminate]|].
  split; [split; [reflexivity|vm_compute; repeat constructor; cbn; intuition discriminate]|].
  split; [vm_compute; discriminate|]. split; [vm_compute; reflexivity|]. split; [vm_compute; discriminate|].
  split; [vm_compute; reflexivity|]. vm_compute. lia.
Qed.
