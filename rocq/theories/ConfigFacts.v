(** Proofs about Config.v. *)
From Coq Require Import Ascii String Bool Arith Lia.
From Coq Require Import List.
From Verif Require Import Str StrFacts Util SpecUtil UtilFacts Config SpecConfig.
Import ListNotations.

(** ** Namespaces *)
Lemma begins_with_iff ns e : begins_with ns e = true <-> is_prefix e ns.
Proof. unfold begins_with; rewrite same_at_0, prefixb_iff; reflexivity. Qed.

Lemma longest_step_fold ns entries : forall acc,
  let r := fold_left (longest_step ns) entries acc in
  (forall e, In e entries -> is_prefix e ns -> length e <= length (fst r)) /\
  length (fst acc) <= length (fst r) /\
  (r = acc \/ (length (fst acc) < length (fst r) /\ In (fst r) entries /\ is_prefix (fst r) ns /\ snd r = true)).
Proof.
  induction entries as [|n entries IH]; intros acc; cbn [fold_left].
  - split; [intros e []|split; [apply le_n|left; reflexivity]].
  - destruct (IH (longest_step ns acc n)) as [H1 [H2 H3]]; cbv zeta.
    set (r := fold_left (longest_step ns) entries (longest_step ns acc n)) in *.
    unfold longest_step in H2, H3; destruct (begins_with ns n) eqn:Eb.
    + destruct (Nat.ltb_spec (length (fst acc)) (length n)) as [L|L]; cbn [fst snd] in H2, H3.
      * split; [intros e [<-|He] Hp; [exact H2|apply H1; assumption]|split; [lia|right]].
        apply begins_with_iff in Eb; destruct H3 as [H3|[H3 [H4 [H5 H6]]]].
        -- rewrite H3; cbn [fst snd]; split; [exact L|split; [left; reflexivity|split; [exact Eb|reflexivity]]].
        -- split; [lia|split; [right; exact H4|split; [exact H5|exact H6]]].
      * split; [intros e [<-|He] Hp; [lia|apply H1; assumption]|split; [exact H2|]].
        destruct H3 as [H3|[H3 [H4 [H5 H6]]]]; [left; exact H3|right; split; [exact H3|split; [right; exact H4|auto]]].
    + split; [|split; [exact H2|]].
      * intros e [<-|He] Hp; [apply begins_with_iff in Hp; congruence|apply H1; assumption].
      * destruct H3 as [H3|[H3 [H4 [H5 H6]]]]; [left; exact H3|right; split; [exact H3|split; [right; exact H4|auto]]].
Qed.
Lemma longest_match_det entries ns k1 k2 : longest_match entries ns k1 -> longest_match entries ns k2 -> k1 = k2.
Proof.
  intros [U1 E1] [U2 E2]; apply Nat.le_antisymm.
  - destruct E1 as [->|[e [H1 [H2 <-]]]]; [lia|apply U2; assumption].
  - destruct E2 as [->|[e [H1 [H2 <-]]]]; [lia|apply U1; assumption].
Qed.
Lemma longest_fold ns entries : let r := fold_left (longest_step ns) entries ([], false) in
  longest_match entries ns (length (fst r)) /\ (snd r = true <-> 0 < length (fst r)).
Proof.
  destruct (longest_step_fold ns entries ([], false)) as [H1 [_ H3]]; cbv zeta.
  set (r := fold_left (longest_step ns) entries ([], false)) in *; cbn [fst] in H3.
  destruct H3 as [H3|[H3 [H4 [H5 H6]]]].
  - rewrite H3 in *; cbn [fst snd] in *; split; [split; [exact H1|left; reflexivity]|simpl; split; [discriminate|lia]].
  - split; [split; [exact H1|right; exists (fst r); auto]|split; [intros _; simpl in H3; lia|auto]].
Qed.
(** The bind scan: the flag is also set by an empty entry. *)
Definition bind_step (ns : str) (acc : str * bool) (n : str) : str * bool :=
  let acc := if length n =? 0 then (fst acc, true) else acc in longest_step ns acc n.
Lemma bind_step_eq ns s f f' n (seen : Prop) : (f = true <-> f' = true \/ seen) ->
  exists s1 f1 f1', bind_step ns (s, f) n = (s1, f1) /\ longest_step ns (s, f') n = (s1, f1') /\
    (f1 = true <-> f1' = true \/ (seen \/ n = [])).
Proof.
  intros H; unfold bind_step, longest_step; destruct n as [|c n]; cbn [length Nat.eqb fst].
  - replace (length s <? 0) with false by (symmetry; apply Nat.ltb_ge; lia).
    exists s, true, f'; destruct (begins_with ns []); repeat split; auto.
  - destruct (begins_with ns (c :: n)); [destruct (length s <? S (length n))|].
    + exists (c :: n), true, true; repeat split; auto.
    + exists s, f, f'; split; [reflexivity|split; [reflexivity|]]; rewrite H; intuition discriminate.
    + exists s, f, f'; split; [reflexivity|split; [reflexivity|]]; rewrite H; intuition discriminate.
Qed.
Lemma bind_fold_gen ns entries : forall s f f' (seen : Prop), (f = true <-> f' = true \/ seen) ->
  let r := fold_left (bind_step ns) entries (s, f) in
  let r' := fold_left (longest_step ns) entries (s, f') in
  fst r = fst r' /\ (snd r = true <-> snd r' = true \/ (seen \/ In [] entries)).
Proof.
  induction entries as [|n entries IH]; intros s f f' seen H; cbn [fold_left]; cbv zeta.
  - cbn [fst snd]; split; [reflexivity|]; simpl; tauto.
  - destruct (bind_step_eq ns s f f' n seen H) as [s1 [f1 [f1' [-> [-> H1]]]]].
    destruct (IH s1 f1 f1' _ H1) as [G1 G2]; cbv zeta in *; split; [exact G1|rewrite G2; simpl; intuition].
Qed.
Lemma bind_fold_eq ns entries :
  let r := fold_left (fun acc n => let acc := if length n =? 0 then (fst acc, true) else acc in longest_step ns acc n) entries ([], false) in
  let r' := fold_left (longest_step ns) entries ([], false) in
  fst r = fst r' /\ (snd r = true <-> snd r' = true \/ In [] entries).
Proof.
  destruct (bind_fold_gen ns entries [] false false False) as [G1 G2]; [intuition|].
  unfold bind_step in *; cbv zeta in *; split; [exact G1|rewrite G2; intuition].
Qed.
Lemma longest_exists entries ns : exists k, longest_match entries ns k.
Proof. destruct (longest_fold ns entries) as [H _]; eexists; exact H. Qed.

Lemma binding_cases c ns b s :
  longest_match (lists c namespaces_to_bind) ns b -> longest_match (lists c namespaces_to_skip) ns s ->
  is_namespace_binding_requested c ns =
    if s <? b then Ok true else if b <? s then Ok false else if 0 <? b then Throw (conflict_text ns)
    else Ok (mem [] (lists c namespaces_to_bind)).
Proof.
  intros Hb Hs; unfold is_namespace_binding_requested.
  destruct (longest_fold ns (lists c namespaces_to_skip)) as [Ls Fs]; cbv zeta in Ls, Fs.
  destruct (longest_fold ns (lists c namespaces_to_bind)) as [Lb Fb]; cbv zeta in Lb, Fb.
  destruct (bind_fold_eq ns (lists c namespaces_to_bind)) as [E1 E2]; cbv zeta in E1, E2.
  destruct (fold_left _ (lists c namespaces_to_bind) ([], false)) as [tb fb] eqn:Eb in |- *.
  destruct (fold_left _ (lists c namespaces_to_skip) ([], false)) as [ts fs] eqn:Es in |- *.
  rewrite Eb in E1, E2; rewrite Es in Ls, Fs; cbn [fst snd] in *.
  rewrite <- E1 in Lb, Fb.
  rewrite (longest_match_det _ _ _ _ Hb Lb), (longest_match_det _ _ _ _ Hs Ls) in *; clear Hb Hs.
  assert (E2' : fb = true <-> 0 < length tb \/ In [] (lists c namespaces_to_bind)).
  { rewrite E2, Fb; reflexivity. }
  destruct (Nat.ltb_spec (length ts) (length tb)); [reflexivity|].
  destruct (Nat.ltb_spec (length tb) (length ts)); [reflexivity|].
  assert (length tb = length ts) as El by lia.
  destruct (Nat.ltb_spec 0 (length tb)) as [L|L].
  - rewrite (proj2 E2' (or_introl L)), (proj2 Fs) by lia; reflexivity.
  - replace fs with false by (destruct fs; [destruct (proj1 Fs eq_refl); lia|reflexivity]); rewrite andb_false_r.
    destruct fb; destruct (mem [] (lists c namespaces_to_bind)) eqn:M; try reflexivity.
    + apply mem_false in M; destruct (proj1 E2' eq_refl); [lia|contradiction].
    + apply mem_In in M; discriminate (proj2 E2' (or_intror M)).
Qed.
Lemma skipping_cases c ns b s :
  longest_match (lists c namespaces_to_bind) ns b -> longest_match (lists c namespaces_to_skip) ns s ->
  is_namespace_skipping_requested c ns =
    if s <? b then Ok false else if b <? s then Ok true else if 0 <? b then Throw (conflict_text ns) else Ok false.
Proof.
  intros Hb Hs; unfold is_namespace_skipping_requested.
  destruct (longest_fold ns (lists c namespaces_to_skip)) as [Ls Fs]; cbv zeta in Ls, Fs.
  destruct (longest_fold ns (lists c namespaces_to_bind)) as [Lb Fb]; cbv zeta in Lb, Fb.
  destruct (fold_left _ (lists c namespaces_to_bind) ([], false)) as [tb fb] eqn:Eb in |- *.
  destruct (fold_left _ (lists c namespaces_to_skip) ([], false)) as [ts fs] eqn:Es in |- *.
  rewrite Eb in Lb, Fb; rewrite Es in Ls, Fs; cbn [fst snd] in *.
  rewrite (longest_match_det _ _ _ _ Hb Lb), (longest_match_det _ _ _ _ Hs Ls) in *; clear Hb Hs.
  destruct (Nat.ltb_spec (length ts) (length tb)); [reflexivity|].
  destruct (Nat.ltb_spec (length tb) (length ts)); [reflexivity|].
  destruct (Nat.ltb_spec 0 (length tb)) as [L|L].
  - rewrite (proj2 Fb L), (proj2 Fs) by lia; reflexivity.
  - replace fs with false by (destruct fs; [destruct (proj1 Fs eq_refl); lia|reflexivity]); rewrite andb_false_r; reflexivity.
Qed.

Lemma binding_spec c ns b s :
  longest_match (lists c namespaces_to_bind) ns b -> longest_match (lists c namespaces_to_skip) ns s ->
  (is_namespace_binding_requested c ns = Ok true <-> s < b \/ (b = 0 /\ s = 0 /\ In [] (lists c namespaces_to_bind))) /\
  (is_namespace_binding_requested c ns = Ok false <-> b < s \/ (b = 0 /\ s = 0 /\ ~ In [] (lists c namespaces_to_bind))) /\
  ((exists m, is_namespace_binding_requested c ns = Throw m) <-> b = s /\ 0 < b).
Proof.
  intros Hb Hs; rewrite (binding_cases c ns b s Hb Hs).
  destruct (Nat.ltb_spec s b); [split; [split; [auto|reflexivity]|split; [split; [discriminate|lia]|split; [intros [m E]; discriminate|lia]]]|].
  destruct (Nat.ltb_spec b s); [split; [split; [discriminate|lia]|split; [split; [auto|reflexivity]|split; [intros [m E]; discriminate|lia]]]|].
  destruct (Nat.ltb_spec 0 b).
  { split; [split; [discriminate|lia]|split; [split; [discriminate|lia]|split; [lia|eexists; reflexivity]]]. }
  rewrite <- mem_In; destruct (mem [] (lists c namespaces_to_bind)).
  - split; [split; [intros _; right; repeat split; lia|reflexivity]|split; [split; [discriminate|intuition lia]|split; [intros [m E]; discriminate|lia]]].
  - split; [split; [discriminate|intuition (lia || discriminate)]|split; [split; [intros _; right; repeat split; (lia || discriminate)|reflexivity]|split; [intros [m E]; discriminate|lia]]].
Qed.
Lemma skipping_spec c ns b s :
  longest_match (lists c namespaces_to_bind) ns b -> longest_match (lists c namespaces_to_skip) ns s ->
  (is_namespace_skipping_requested c ns = Ok true <-> b < s) /\
  (is_namespace_skipping_requested c ns = Ok false <-> s < b \/ (b = 0 /\ s = 0)) /\
  ((exists m, is_namespace_skipping_requested c ns = Throw m) <-> b = s /\ 0 < b).
Proof.
  intros Hb Hs; rewrite (skipping_cases c ns b s Hb Hs).
  destruct (Nat.ltb_spec s b); [split; [split; [discriminate|lia]|split; [split; [auto|reflexivity]|split; [intros [m E]; discriminate|lia]]]|].
  destruct (Nat.ltb_spec b s); [split; [split; [auto|reflexivity]|split; [split; [discriminate|lia]|split; [intros [m E]; discriminate|lia]]]|].
  destruct (Nat.ltb_spec 0 b).
  { split; [split; [discriminate|lia]|split; [split; [discriminate|lia]|split; [lia|eexists; reflexivity]]]. }
  split; [split; [discriminate|lia]|split; [split; [intros _; right; lia|reflexivity]|split; [intros [m E]; discriminate|lia]]].
Qed.
Lemma never_both c ns :
  ~ (is_namespace_binding_requested c ns = Ok true /\ is_namespace_skipping_requested c ns = Ok true) /\
  (forall m, is_namespace_binding_requested c ns = Throw m <-> is_namespace_skipping_requested c ns = Throw m).
Proof.
  destruct (longest_exists (lists c namespaces_to_bind) ns) as [b Hb], (longest_exists (lists c namespaces_to_skip) ns) as [s Hs].
  rewrite (binding_cases c ns b s Hb Hs), (skipping_cases c ns b s Hb Hs).
  destruct (s <? b), (b <? s), (0 <? b); split; try (intros [H1 H2]; discriminate); intros m; split; congruence.
Qed.
Lemma longest_match_ext l1 l2 ns k : (forall x, In x l1 <-> In x l2) -> longest_match l1 ns k -> longest_match l2 ns k.
Proof.
  intros H [U E]; split; [intros e He; apply U, H, He|].
  destruct E as [E|[e [H1 H2]]]; [left; exact E|right; exists e; split; [apply H, H1|exact H2]].
Qed.
Lemma namespace_ext c1 c2 ns :
  (forall x, In x (lists c1 namespaces_to_bind) <-> In x (lists c2 namespaces_to_bind)) ->
  (forall x, In x (lists c1 namespaces_to_skip) <-> In x (lists c2 namespaces_to_skip)) ->
  is_namespace_binding_requested c1 ns = is_namespace_binding_requested c2 ns /\
  is_namespace_skipping_requested c1 ns = is_namespace_skipping_requested c2 ns.
Proof.
  intros Eb Es; destruct (longest_exists (lists c1 namespaces_to_bind) ns) as [b Hb], (longest_exists (lists c1 namespaces_to_skip) ns) as [s Hs].
  rewrite (binding_cases c1 ns b s Hb Hs), (skipping_cases c1 ns b s Hb Hs).
  apply (longest_match_ext _ _ _ _ Eb) in Hb; apply (longest_match_ext _ _ _ _ Es) in Hs.
  rewrite (binding_cases c2 ns b s Hb Hs), (skipping_cases c2 ns b s Hb Hs).
  replace (mem [] (lists c2 namespaces_to_bind)) with (mem [] (lists c1 namespaces_to_bind)); [auto|].
  apply eq_true_iff_eq; rewrite !mem_In; apply Eb.
Qed.
(** Entries that are no prefix of [ns] and not empty have no influence. *)
Lemma longest_match_relevant l1 l2 ns k :
  (forall x, is_prefix x ns -> (In x l1 <-> In x l2)) -> longest_match l1 ns k -> longest_match l2 ns k.
Proof.
  intros H [U E]; split; [intros e He Hp; apply U; [apply H; assumption|exact Hp]|].
  destruct E as [E|[e [H1 [H2 H3]]]]; [left; exact E|right; exists e; split; [apply H; assumption|auto]].
Qed.
Lemma namespace_relevant c1 c2 ns :
  (forall x, is_prefix x ns -> (In x (lists c1 namespaces_to_bind) <-> In x (lists c2 namespaces_to_bind))) ->
  (forall x, is_prefix x ns -> (In x (lists c1 namespaces_to_skip) <-> In x (lists c2 namespaces_to_skip))) ->
  is_namespace_binding_requested c1 ns = is_namespace_binding_requested c2 ns /\
  is_namespace_skipping_requested c1 ns = is_namespace_skipping_requested c2 ns.
Proof.
  intros Eb Es; destruct (longest_exists (lists c1 namespaces_to_bind) ns) as [b Hb], (longest_exists (lists c1 namespaces_to_skip) ns) as [s Hs].
  rewrite (binding_cases c1 ns b s Hb Hs), (skipping_cases c1 ns b s Hb Hs).
  apply (longest_match_relevant _ _ _ _ Eb) in Hb; apply (longest_match_relevant _ _ _ _ Es) in Hs.
  rewrite (binding_cases c2 ns b s Hb Hs), (skipping_cases c2 ns b s Hb Hs).
  replace (mem [] (lists c2 namespaces_to_bind)) with (mem [] (lists c1 namespaces_to_bind)); [auto|].
  apply eq_true_iff_eq; rewrite !mem_In; apply Eb; exists ns; reflexivity.
Qed.

(** ** Lines *)
Lemma drop_cr_text line : line_text line (drop_cr line).
Proof.
  unfold drop_cr, line_text; destruct line as [|c l _] using rev_ind.
  - right; split; [reflexivity|intros t' E; destruct t'; discriminate].
  - rewrite rev_unit; destruct (Ascii.eqb_spec c cr) as [->|Hn].
    + rewrite rev_involutive; left; reflexivity.
    + right; split; [reflexivity|intros t' E; apply app_inj_tail in E as [_ E]; contradiction].
Qed.
Lemma line_text_det line t1 t2 : line_text line t1 -> line_text line t2 -> t1 = t2.
Proof.
  intros [->|[-> H1]] [E|[E H2]].
  - apply app_inj_tail in E as [E _]; exact E.
  - exfalso; exact (H2 t1 (eq_sym E)).
  - exfalso; exact (H1 t2 E).
  - exact E.
Qed.
Lemma find_char_Some s c i : find_char s c = Some i -> exists a b, s = a ++ c :: b /\ length a = i /\ ~ In c a.
Proof.
  revert i; induction s as [|x s IH]; intros i; cbn [find_char]; [discriminate|].
  destruct (Ascii.eqb_spec x c) as [->|Hn].
  - intros H; injection H as <-; exists [], s; simpl; tauto.
  - destruct (find_char s c) as [k|]; [|discriminate]; intros H; injection H as <-.
    destruct (IH k eq_refl) as [a [b [-> [<- Ha]]]]; exists (x :: a), b; simpl; intuition congruence.
Qed.
Lemma find_char_None s c : find_char s c = None -> ~ In c s.
Proof.
  induction s as [|x s IH]; cbn [find_char]; [simpl; tauto|].
  destruct (Ascii.eqb_spec x c) as [->|Hn]; [discriminate|].
  destruct (find_char s c); [discriminate|]; intros _ [H|H]; [contradiction|exact (IH eq_refl H)].
Qed.
Lemma find_char_app a c b : ~ In c a -> find_char (a ++ c :: b) c = Some (length a).
Proof.
  induction a as [|x a IH]; intros H; simpl.
  - rewrite Ascii.eqb_refl; reflexivity.
  - destruct (Ascii.eqb_spec x c) as [->|Hn]; [simpl in H; tauto|rewrite IH by (simpl in H; tauto); reflexivity].
Qed.
Lemma find_char_absent s c : ~ In c s -> find_char s c = None.
Proof.
  induction s as [|x s IH]; intros H; simpl; [reflexivity|].
  destruct (Ascii.eqb_spec x c) as [->|Hn]; [simpl in H; tauto|rewrite IH by (simpl in H; tauto); reflexivity].
Qed.

(** A line that says something is passed to [read_token]. *)
Lemma read_line_says c line bind token arg : says line bind token arg ->
  exists t, line_text line t /\ read_line c line = read_token c bind token arg t.
Proof.
  intros [Hc [Ht Hs]]; pose proof (line_text_det _ _ _ (drop_cr_text line) Ht) as E.
  set (sign := if bind then "+"%char else "-"%char) in *.
  assert (Hsg : sign <> sp) by (unfold sign; destruct bind; discriminate).
  exists (sign :: token ++ sp :: arg); split; [exact Ht|].
  unfold read_line; destruct line as [|ch line'] eqn:El.
  { destruct Ht as [H|[H _]]; discriminate. }
  destruct (Ascii.eqb_spec ch "#") as [->|Hn]; [exfalso; exact (Hc _ eq_refl)|].
  rewrite E; replace (negb (Ascii.eqb sign "+") && negb (Ascii.eqb sign "-")) with false by (unfold sign; destruct bind; reflexivity).
  change (sign :: token ++ sp :: arg) with ((sign :: token) ++ sp :: arg).
  rewrite find_char_app by (simpl; intuition).
  replace (Ascii.eqb sign "+") with bind by (unfold sign; destruct bind; reflexivity).
  f_equal.
  - unfold substr; cbn [length app skipn]; rewrite Nat.sub_0_r || (replace (S (length token) - 1) with (length token) by lia); apply firstn_app_exact.
  - cbn [length]; replace (S (length token) + 1) with (length ((sign :: token) ++ [sp])) by (rewrite app_length; simpl; lia).
    rewrite <- (skipn_app_exact ((sign :: token) ++ [sp]) arg) at 2; rewrite <- app_assoc; reflexivity.
Qed.
Lemma read_line_ignored c line : ignored_line line -> read_line c line = Ok c.
Proof.
  intros [->|[[r ->]| ->]]; reflexivity.
Qed.
(** Otherwise it is rejected. *)
Lemma line_trichotomy line : ignored_line line \/ (exists bind token arg, says line bind token arg) \/
  (forall c, exists m, read_line c line = Throw m) /\ ~ ignored_line line /\ ~ (exists bind token arg, says line bind token arg).
Proof.
  destruct line as [|ch line']; [left; left; reflexivity|].
  destruct (Ascii.eqb_spec ch "#") as [->|Hn]; [left; right; left; eexists; reflexivity|].
  set (line := ch :: line') in *; pose proof (drop_cr_text line) as Ht.
  destruct (drop_cr line) as [|sign t] eqn:Ed.
  { destruct Ht as [H|[H _]]; [left; right; right; exact H|discriminate]. }
  assert (Hni : ~ ignored_line line).
  { intros [H|[[r H]|H]]; [discriminate|injection H as H _; contradiction|].
    unfold line in *; injection H as -> ->; vm_compute in Ed; discriminate. }
  destruct (Ascii.eqb_spec sign "+") as [Ep|Np]; [|destruct (Ascii.eqb_spec sign "-") as [Em|Nm]].
  3: { right; right; split; [|split; [exact Hni|]].
       - intros c; unfold read_line; fold line; unfold line; apply Ascii.eqb_neq in Hn; rewrite Hn; fold line; rewrite Ed.
         apply Ascii.eqb_neq in Np, Nm; rewrite Np, Nm; eexists; reflexivity.
       - intros [bind [token [arg [_ [H _]]]]]; pose proof (line_text_det _ _ _ Ht H) as E; injection E as E _.
         destruct bind; congruence. }
  all: destruct (find_char (sign :: t) sp) as [i|] eqn:Ef.
  1, 3: right; left; apply find_char_Some in Ef as [a [b [Ea [_ Hna]]]]; destruct a as [|x a]; [simpl in Ea; injection Ea as H _; rewrite H in *; discriminate|];
        cbn [app] in Ea; injection Ea as Hx Ea; rewrite Ea in Ht.
  - exists true, a, b; split; [intros r E; injection E as E _; contradiction|split; [rewrite <- Ep; exact Ht|simpl in Hna; tauto]].
  - exists false, a, b; split; [intros r E; injection E as E _; contradiction|split; [rewrite <- Em; exact Ht|simpl in Hna; tauto]].
  - right; right; split; [|split; [exact Hni|]].
    + intros c; unfold read_line; fold line; unfold line; apply Ascii.eqb_neq in Hn; rewrite Hn; fold line; rewrite Ed.
      rewrite Ef; rewrite Ep; eexists; reflexivity.
    + intros [bind [token [arg [_ [H _]]]]]; pose proof (line_text_det _ _ _ Ht H) as E; rewrite E in Ef.
      apply find_char_None in Ef; apply Ef; right; apply in_app_iff; simpl; auto.
  - right; right; split; [|split; [exact Hni|]].
    + intros c; unfold read_line; fold line; unfold line; apply Ascii.eqb_neq in Hn; rewrite Hn; fold line; rewrite Ed.
      rewrite Ef; rewrite Em; eexists; reflexivity.
    + intros [bind [token [arg [_ [H _]]]]]; pose proof (line_text_det _ _ _ Ht H) as E; rewrite E in Ef.
      apply find_char_None in Ef; apply Ef; right; apply in_app_iff; simpl; auto.
Qed.
Lemma says_det line b1 t1 a1 b2 t2 a2 : says line b1 t1 a1 -> says line b2 t2 a2 -> b1 = b2 /\ t1 = t2 /\ a1 = a2.
Proof.
  intros [_ [H1 N1]] [_ [H2 N2]]; pose proof (line_text_det _ _ _ H1 H2) as E; injection E as Es E.
  assert (b1 = b2) as -> by (destruct b1, b2; try reflexivity; discriminate).
  split; [reflexivity|].
  pose proof (find_char_app t1 sp a1 N1) as F1; pose proof (find_char_app t2 sp a2 N2) as F2; rewrite E, F2 in F1; injection F1 as F.
  assert (t1 = t2) as ->.
  { apply (f_equal (firstn (length t1))) in E; rewrite firstn_app_exact in E; rewrite <- F, firstn_app_exact in E; exact E. }
  apply app_inv_head in E; injection E as ->; auto.
Qed.
Lemma says_not_ignored line bind token arg : says line bind token arg -> ~ ignored_line line.
Proof.
  intros [Hc [Ht _]] [->|[[r ->]| ->]].
  - destruct Ht as [H|[H _]]; discriminate.
  - exact (Hc r eq_refl).
  - destruct Ht as [H|[H _]]; [destruct token; discriminate|destruct bind; discriminate].
Qed.

(** ** Directives *)
Lemma two_parts_split arg err : (forall x v, two_parts arg x v -> split_in_two arg err = Ok (x, v)) /\
  ((~ exists x v, two_parts arg x v) -> split_in_two arg err = Throw err).
Proof.
  split.
  - intros x v [b [Hb [-> Hx]]]; unfold split_in_two.
    assert (E : match find_char (x ++ b :: v) sp, find_char (x ++ b :: v) tab with
                | Some a, Some b => Some (Nat.min a b) | Some a, None => Some a | None, b => b end = Some (length x)).
    { assert (Hgt : forall ch i, ~ In ch x -> ch <> b -> find_char (x ++ b :: v) ch = Some i -> length x <= i).
      { clear; intros ch i Hn Hne; revert i; induction x as [|y x IH]; intros i H; [simpl; lia|].
        simpl in H; destruct (Ascii.eqb_spec y ch); [simpl in Hn; tauto|].
        destruct (find_char (x ++ b :: v) ch) as [k|]; [|discriminate]; injection H as <-.
        assert (length x <= k) by (apply IH; [simpl in Hn; tauto|reflexivity]); simpl; lia. }
      assert (Hsp : ~ In sp x) by (intros H; apply (Hx _ H); left; reflexivity).
      assert (Htab : ~ In tab x) by (intros H; apply (Hx _ H); right; reflexivity).
      destruct Hb as [-> | ->].
      - rewrite (find_char_app x sp v Hsp); destruct (find_char (x ++ sp :: v) tab) as [i|] eqn:Ei; [|reflexivity].
        f_equal; apply Nat.min_l, (Hgt tab i Htab); [discriminate|exact Ei].
      - rewrite (find_char_app x tab v Htab); destruct (find_char (x ++ tab :: v) sp) as [i|] eqn:Ei; [|reflexivity].
        f_equal; apply Nat.min_r, (Hgt sp i Hsp); [discriminate|exact Ei]. }
    cbv zeta; rewrite E; f_equal; f_equal; [apply firstn_app_exact|].
    replace (length x + 1) with (length (x ++ [b])) by (rewrite app_length; simpl; lia).
    rewrite <- (skipn_app_exact (x ++ [b]) v) at 2; rewrite <- app_assoc; reflexivity.
  - intros Hn; unfold split_in_two.
    assert (Hmin : forall n s, length s <= n -> forall c, blank c -> In c s -> exists x v, two_parts s x v).
    { clear; induction n as [|n IH]; intros s Hl c Hc Hi; destruct s as [|y s]; [destruct Hi|simpl in Hl; lia|destruct Hi|].
      destruct (existsb (Ascii.eqb y) [sp; tab]) eqn:E.
      - exists [], s, y; split; [apply blank_test; exact E|split; [reflexivity|intros ? []]].
      - assert (Hny : ~ blank y) by (rewrite <- blank_test, E; discriminate).
        destruct Hi as [->|Hi]; [contradiction|].
        destruct (IH s ltac:(simpl in Hl; lia) c Hc Hi) as [x [v [b [Hb [-> Hx]]]]].
        exists (y :: x), v, b; split; [exact Hb|split; [reflexivity|intros d [<-|Hd]; auto]]. }
    rewrite (find_char_absent arg sp), (find_char_absent arg tab); [reflexivity| |];
      intros Hi; apply Hn; eapply (Hmin (length arg) arg (le_n _)); try exact Hi; [right|left]; reflexivity.
Qed.

Lemma push_adds key v c : adds_name key v c (push key v c).
Proof.
  unfold adds_name, push; cbn [lists maps vecs strs]; split; [destruct (list_key_eq key key); [reflexivity|contradiction]|].
  split; [intros k Hk; destruct (list_key_eq k key); [contradiction|reflexivity]|auto].
Qed.
Lemma put_sets key x v c : sets_key key x v c (put key x v c).
Proof.
  unfold sets_key, put; cbn [lists maps vecs strs].
  destruct (map_key_eq key key) as [_|]; [|contradiction].
  split; [apply lookup_update_eq|split; [intros y Hy; apply lookup_update_neq; exact Hy|]].
  split; [auto|split; [intros k Hk; destruct (map_key_eq k key); [contradiction|reflexivity]|auto]].
Qed.
Lemma put_vec_adds key x v c : adds_include key x v c (put_vec key x v c).
Proof.
  unfold adds_include, put_vec, get_vec; cbn [lists maps vecs strs].
  destruct (vec_key_eq key key) as [_|]; [|contradiction].
  split; [rewrite lookup_update_eq; reflexivity|split; [intros y Hy; rewrite lookup_update_neq by exact Hy; reflexivity|]].
  split; [auto|split; [auto|split; [intros k Hk; destruct (vec_key_eq k key); [contradiction|reflexivity]|auto]]].
Qed.
Lemma assign_sets key v c : sets_value key v c (assign key v c).
Proof.
  unfold sets_value, assign; cbn [lists maps vecs strs].
  split; [destruct (str_key_eq key key); [reflexivity|contradiction]|].
  split; [auto|split; [auto|split; [auto|intros k Hk; destruct (str_key_eq k key); [contradiction|reflexivity]]]].
Qed.
Lemma unchanged_refl c : unchanged c c.
Proof. unfold unchanged; auto. Qed.

(** The model of a directive by its kind. *)
Definition apply_kind (c : config) (k : kind) (bind : bool) (what name line : str) : result config :=
  match k with
  | Names plus minus => Ok (push (if bind then plus else minus) (remove_char sp name) c)
  | PlusNames key => Ok (if bind then push key (remove_char sp name) c else c)
  | MinusNames key => Ok (if bind then c else push key (remove_char sp name) c)
  | Keyed key true => if bind then keyed name line what type_binder_form (fun x v => put key x (trim v) c) else Ok c
  | Keyed key false => if bind then keyed name line what trampoline_form (fun x v => put key x v c) else Ok c
  | KeyedInclude key => if bind then keyed name line what type_include_form (fun x v => put_vec key x v c)
                        else Throw (what ++ $" must be '+' configuration.")
  | Scalar key => Ok (assign key (remove_char sp name) c)
  end.
Fixpoint find_kind (token : str) (l : list (str * kind)) : option kind :=
  match l with
  | [] => None
  | (t, k) :: l' => if streqb token t then Some k else find_kind token l'
  end.
Lemma read_token_kind c bind token name line :
  read_token c bind token name line =
  match find_kind token directives with
  | Some k => apply_kind c k bind token name line
  | None => Throw ($"Invalid token in config file! Each token must be either: namespace, class or function! For example: '+function aaa::bb::my_function'. Token: '"
              ++ token ++ $"' Line: '" ++ line ++ $"'")
  end.
Proof.
  unfold read_token, directives; cbn [find_kind].
  repeat (match goal with |- context [streqb token ?x] => destruct (streqb_spec token x) as [->|?] end; [reflexivity|]).
  reflexivity.
Qed.
Lemma find_kind_In token k : find_kind token directives = Some k <-> In (token, k) directives.
Proof.
  assert (Hd : NoDup (map fst directives)).
  { unfold directives; cbn [map fst]; repeat (constructor; [simpl; intros H; repeat (destruct H as [H|H]; [discriminate|]); exact H|]); constructor. }
  revert Hd; generalize directives; induction l as [|[t k'] l IH]; cbn [find_kind map fst]; [simpl; split; [discriminate|tauto]|].
  intros Hd; inversion Hd as [|? ? Hn Hd']; subst; destruct (streqb_spec token t) as [->|Hne].
  - split; [intros E; injection E as ->; left; reflexivity|intros [E|Hi]; [injection E as ->; reflexivity|]].
    exfalso; apply Hn, in_map_iff; exists (t, k); auto.
  - rewrite (IH Hd'); simpl; split; [auto|intros [E|Hi]; [injection E as -> ->; contradiction|exact Hi]].
Qed.
Lemma apply_kind_ok c k bind what name line : accepted k bind name ->
  exists c', apply_kind c k bind what name line = Ok c' /\ effect k bind name c c'.
Proof.
  destruct k as [plus minus|key|key|key trims|key|key]; cbn [accepted apply_kind effect]; intros Ha.
  - eexists; split; [reflexivity|apply push_adds].
  - destruct bind; eexists; (split; [reflexivity|]); [apply push_adds|apply unchanged_refl].
  - destruct bind; eexists; (split; [reflexivity|]); [apply unchanged_refl|apply push_adds].
  - destruct bind.
    + destruct (Ha eq_refl) as [x [v H]]; unfold keyed.
      assert (Hsplit : forall err, split_in_two name err = Ok (x, v)) by (intros err; apply (two_parts_split name err); exact H).
      assert (Hdet : forall x' v', two_parts name x' v' -> x' = x /\ v' = v).
      { intros x' v' H'; pose proof (Hsplit []) as E1; rewrite (proj1 (two_parts_split name []) x' v' H') in E1; injection E1 as -> ->; auto. }
      destruct trims; rewrite Hsplit; cbn [bind_r fst snd]; eexists; (split; [reflexivity|]);
        intros x' v' H'; destruct (Hdet x' v' H') as [-> ->].
      * exists (trim v); split; [apply trim_trimmed|apply put_sets].
      * exists v; split; [reflexivity|apply put_sets].
    + exists c; split; [destruct trims; reflexivity|apply unchanged_refl].
  - destruct Ha as [-> [x [v H]]]; unfold keyed.
    rewrite (proj1 (two_parts_split name _) x v H); cbn [bind_r fst snd]; eexists; split; [reflexivity|].
    intros x' v' H'; pose proof (proj1 (two_parts_split name []) x v H) as E1; rewrite (proj1 (two_parts_split name []) x' v' H') in E1.
    injection E1 as -> ->; apply put_vec_adds.
  - eexists; split; [reflexivity|apply assign_sets].
Qed.
Lemma two_parts_dec arg : (exists x v, two_parts arg x v) \/ ~ (exists x v, two_parts arg x v).
Proof.
  destruct (split_in_two arg []) as [p| | | |] eqn:E.
  - left; unfold split_in_two in E.
    assert (Hin : exists c, blank c /\ In c arg).
    { destruct (find_char arg sp) as [i|] eqn:E1; [apply find_char_Some in E1 as [a [b [-> _]]]; exists sp; split; [left; reflexivity|apply in_app_iff; simpl; auto]|].
      destruct (find_char arg tab) as [i|] eqn:E2; [apply find_char_Some in E2 as [a [b [-> _]]]; exists tab; split; [right; reflexivity|apply in_app_iff; simpl; auto]|discriminate]. }
    destruct Hin as [c [Hc Hi]]; clear E; induction arg as [|y s IH]; [destruct Hi|].
    destruct (existsb (Ascii.eqb y) [sp; tab]) eqn:Eb.
    + exists [], s, y; split; [apply blank_test; exact Eb|split; [reflexivity|intros ? []]].
    + assert (Hny : ~ blank y) by (rewrite <- blank_test, Eb; discriminate).
      destruct Hi as [->|Hi]; [contradiction|destruct (IH Hi) as [x [v [b [Hb [-> Hx]]]]]].
      exists (y :: x), v, b; split; [exact Hb|split; [reflexivity|intros d [<-|Hd]; auto]].
  - right; intros [x [v H]]; rewrite (proj1 (two_parts_split arg []) x v H) in E; discriminate.
  - right; intros [x [v H]]; rewrite (proj1 (two_parts_split arg []) x v H) in E; discriminate.
  - right; intros [x [v H]]; rewrite (proj1 (two_parts_split arg []) x v H) in E; discriminate.
  - right; intros [x [v H]]; rewrite (proj1 (two_parts_split arg []) x v H) in E; discriminate.
Qed.
Lemma apply_kind_reject k bind what name line : ~ accepted k bind name ->
  forall c, exists m, apply_kind c k bind what name line = Throw m.
Proof.
  destruct k as [plus minus|key|key|key trims|key|key]; cbn [accepted apply_kind]; intros Ha c; try (exfalso; apply Ha; exact I).
  - destruct bind; [|exfalso; apply Ha; discriminate].
    assert (Hn : ~ exists x v, two_parts name x v) by tauto.
    destruct trims; unfold keyed; rewrite (proj2 (two_parts_split name _) Hn); eexists; reflexivity.
  - destruct bind; [|eexists; reflexivity].
    assert (Hn : ~ exists x v, two_parts name x v) by tauto.
    unfold keyed; rewrite (proj2 (two_parts_split name _) Hn); eexists; reflexivity.
Qed.
Lemma accepted_dec k bind name : accepted k bind name \/ ~ accepted k bind name.
Proof. destruct k; cbn [accepted]; try (left; exact I); destruct (two_parts_dec name); destruct bind; intuition discriminate. Qed.

Lemma line_effect c line bind token arg k :
  says line bind token arg -> In (token, k) directives -> accepted k bind arg ->
  exists c', read_line c line = Ok c' /\ effect k bind arg c c'.
Proof.
  intros Hs Hk Ha; destruct (read_line_says c line bind token arg Hs) as [t [_ ->]].
  rewrite read_token_kind, (proj2 (find_kind_In token k) Hk); apply apply_kind_ok; exact Ha.
Qed.
Lemma line_reject_iff line :
  ((forall c, exists m, read_line c line = Throw m) <-> ~ ignored_line line /\ ~ valid_line line) /\
  (forall c, (exists m, read_line c line = Throw m) \/ exists c', read_line c line = Ok c').
Proof.
  assert (Hsome : config) by exact default_config.
  destruct (line_trichotomy line) as [Hi|[[bind [token [arg Hs]]]|[Ht [Hni Hns]]]].
  - split; [split; [intros H; destruct (H Hsome) as [m E]; rewrite (read_line_ignored Hsome line Hi) in E; discriminate|tauto]|].
    intros c; right; exists c; apply read_line_ignored; exact Hi.
  - assert (Hni := says_not_ignored _ _ _ _ Hs).
    destruct (find_kind token directives) as [k|] eqn:Ek.
    + apply find_kind_In in Ek; destruct (accepted_dec k bind arg) as [Ha|Ha].
      * split; [split|].
        -- intros H; destruct (H Hsome) as [m E]; destruct (line_effect Hsome line bind token arg k Hs Ek Ha) as [c' [E' _]]; congruence.
        -- intros [_ Hv]; exfalso; apply Hv; exists bind, token, arg, k; auto.
        -- intros c; right; destruct (line_effect c line bind token arg k Hs Ek Ha) as [c' [E' _]]; exists c'; exact E'.
      * assert (Hr : forall c, exists m, read_line c line = Throw m).
        { intros c; destruct (read_line_says c line bind token arg Hs) as [t [_ ->]].
          rewrite read_token_kind, (proj2 (find_kind_In token k) Ek); apply apply_kind_reject; exact Ha. }
        split; [split; [intros _; split; [exact Hni|]|intros _; exact Hr]|intros c; left; apply Hr].
        intros [b' [t' [a' [k' [Hs' [Hk' Ha']]]]]]; destruct (says_det _ _ _ _ _ _ _ Hs Hs') as [<- [<- <-]].
        apply find_kind_In in Ek, Hk'; rewrite Ek in Hk'; injection Hk' as <-; contradiction.
    + assert (Hr : forall c, exists m, read_line c line = Throw m).
      { intros c; destruct (read_line_says c line bind token arg Hs) as [t [_ ->]].
        rewrite read_token_kind, Ek; eexists; reflexivity. }
      split; [split; [intros _; split; [exact Hni|]|intros _; exact Hr]|intros c; left; apply Hr].
      intros [b' [t' [a' [k' [Hs' [Hk' Ha']]]]]]; destruct (says_det _ _ _ _ _ _ _ Hs Hs') as [<- [<- <-]].
      apply find_kind_In in Hk'; congruence.
  - split; [split; [intros _; split; [exact Hni|]|intros _; exact Ht]|intros c; left; apply Ht].
    intros [b' [t' [a' [k' [Hs' _]]]]]; apply Hns; eauto.
Qed.

(** ** Files *)
Lemma read_lines_app l1 l2 c : read_lines c (l1 ++ l2) = bind_r (read_lines c l1) (fun c' => read_lines c' l2).
Proof.
  revert c; induction l1 as [|l l1 IH]; intros c; [reflexivity|]; cbn [app read_lines].
  destruct (read_line c l); cbn [bind_r]; auto.
Qed.
Lemma split_nl_app a b : split (a ++ [nl] ++ b) [nl] = split (a ++ [nl]) [nl] ++ split b [nl].
Proof.
  symmetry; apply split_char_iff.
  destruct (split_pieces nl (a ++ [nl])) as [t1 [r1 [E1 [H1 P1]]]], (split_pieces nl b) as [t2 [r2 [E2 [H2 P2]]]].
  assert (r1 = []) as ->.
  { destruct r1 as [|x r1] using rev_ind; [reflexivity|].
    rewrite app_assoc in E1; apply app_inj_tail in E1 as [_ <-].
    exfalso; apply (H1 (r1 ++ [nl])); [left; reflexivity|apply in_app_iff; simpl; auto]. }
  exists (t1 ++ t2), r2; split; [|split].
  - rewrite map_app, concat_app, <- app_assoc; rewrite app_nil_r in E1; rewrite <- E1, <- E2, <- app_assoc; reflexivity.
  - intros p [<-|Hp]; [apply H2; left; reflexivity|apply in_app_or in Hp as [Hp|Hp]; [apply H1|apply H2]; right; exact Hp].
  - rewrite P1, P2, app_nil_r, app_assoc; reflexivity.
Qed.
Lemma read_concat c a b : read_text c (a ++ [nl] ++ b) = bind_r (read_text c (a ++ [nl])) (fun c' => read_text c' b).
Proof. unfold read_text; rewrite split_nl_app, read_lines_app; reflexivity. Qed.
Lemma read_lines_reject ls c : (exists m, read_lines c ls = Throw m) <-> exists l, In l ls /\ ~ ignored_line l /\ ~ valid_line l.
Proof.
  revert c; induction ls as [|l ls IH]; intros c; cbn [read_lines].
  - split; [intros [m E]; discriminate|intros [l [[] _]]].
  - destruct (line_reject_iff l) as [Hr Hc]; destruct (Hc c) as [[m E]|[c' E]]; rewrite E; cbn [bind_r].
    + split; [|intros _; eexists; reflexivity]; intros _.
      assert (Hbad : forall c0, exists m, read_line c0 l = Throw m).
      { intros c0; destruct (Hc c0) as [H|[c1 E1]]; [exact H|].
        destruct (line_trichotomy l) as [Hi|[[bind [token [arg Hs]]]|[Ht _]]].
        - rewrite (read_line_ignored c l Hi) in E; discriminate.
        - destruct (read_line_says c l bind token arg Hs) as [t [Ht Eq]]; destruct (read_line_says c0 l bind token arg Hs) as [t0 [Ht0 Eq0]].
          rewrite Eq, read_token_kind in E; rewrite Eq0, read_token_kind in E1; destruct (find_kind token directives) as [k|]; [|discriminate].
          destruct (accepted_dec k bind arg) as [Ha|Ha].
          + destruct (apply_kind_ok c k bind token arg t Ha) as [c2 [E2 _]]; congruence.
          + destruct (apply_kind_reject k bind token arg t0 Ha c0) as [m0 E2]; congruence.
        - apply Ht. }
      apply Hr in Hbad; exists l; split; [left; reflexivity|exact Hbad].
    + rewrite IH; split.
      * intros [x [Hx Hb]]; exists x; split; [right; exact Hx|exact Hb].
      * intros [x [[<-|Hx] Hb]]; [|exists x; auto]; destruct (proj2 Hr Hb c) as [m Em]; congruence.
Qed.
Lemma read_lines_total ls c : (exists m, read_lines c ls = Throw m) \/ exists c', read_lines c ls = Ok c'.
Proof.
  revert c; induction ls as [|l ls IH]; intros c; cbn [read_lines]; [right; eexists; reflexivity|].
  destruct (proj2 (line_reject_iff l) c) as [[m ->]|[c' ->]]; cbn [bind_r]; [left; eexists; reflexivity|apply IH].
Qed.
Lemma pieces_unique_In text ls line : pieces_of nl text ls -> (In line ls <-> In line (split text [nl])).
Proof. intros H; apply split_char_iff in H; subst; reflexivity. Qed.
Lemma read_text_reject text c : (exists m, read_text c text = Throw m) <->
  exists ls line, pieces_of nl text ls /\ In line ls /\ ~ ignored_line line /\ ~ valid_line line.
Proof.
  unfold read_text; rewrite read_lines_reject; split.
  - intros [l H]; exists (split text [nl]), l; split; [apply split_pieces|exact H].
  - intros [ls [l [Hp [Hi H]]]]; exists l; split; [apply (pieces_unique_In _ _ _ Hp); exact Hi|exact H].
Qed.

(** CRLF *)
Definition crlf (text : str) : str := replace text [nl] [cr; nl].
Lemma crlf_concat t r : (forall p, In p (r :: t) -> ~ In nl p) ->
  crlf (concat (map (fun p => p ++ [nl]) t) ++ r) = concat (map (fun p => (p ++ [cr]) ++ [nl]) t) ++ r.
Proof.
  unfold crlf; rewrite replace_char; intros H; rewrite flat_map_app.
  assert (Hid : forall p, ~ In nl p -> flat_map (fun x => if Ascii.eqb x nl then [cr; nl] else [x]) p = p).
  { clear; induction p as [|x p IH]; intros Hn; [reflexivity|]; cbn [flat_map].
    destruct (Ascii.eqb_spec x nl) as [->|Hx]; [simpl in Hn; tauto|rewrite IH by (simpl in Hn; tauto); reflexivity]. }
  rewrite (Hid r) by (apply H; left; reflexivity); f_equal.
  assert (Ht : forall p, In p t -> ~ In nl p) by (intros p Hp; apply H; right; exact Hp); clear H.
  induction t as [|p t IH]; [reflexivity|]; cbn [map concat]; rewrite !flat_map_app, IH by (intros q Hq; apply Ht; right; exact Hq).
  rewrite (Hid p) by (apply Ht; left; reflexivity); cbn [flat_map]; rewrite Ascii.eqb_refl, <- !app_assoc; reflexivity.
Qed.
Lemma read_line_cr c line : ~ In cr line -> read_line c (line ++ [cr]) = read_line c line.
Proof.
  intros Hn; destruct line as [|ch line]; [reflexivity|].
  cbn [app]; unfold read_line; destruct (Ascii.eqb ch "#"); [reflexivity|].
  change (ch :: line ++ [cr]) with ((ch :: line) ++ [cr]); unfold drop_cr; rewrite rev_unit, Ascii.eqb_refl, rev_involutive.
  destruct (rev (ch :: line)) as [|x r] eqn:E; [reflexivity|].
  destruct (Ascii.eqb_spec x cr) as [->|_]; [|reflexivity].
  exfalso; apply Hn, in_rev; rewrite E; left; reflexivity.
Qed.
Lemma read_crlf c text : ~ In cr text -> read_text c (crlf text) = read_text c text.
Proof.
  intros Hn; destruct (split_pieces nl text) as [t [r [E [H P]]]].
  assert (Hsplit : split (crlf text) [nl] = map (fun p => p ++ [cr]) t ++ (match r with [] => [] | _ => [r] end)).
  { symmetry; apply split_char_iff; exists (map (fun p => p ++ [cr]) t), r; split; [|split; [|reflexivity]].
    - rewrite E, crlf_concat by exact H; rewrite map_map; reflexivity.
    - intros p [<-|Hp]; [apply H; left; reflexivity|].
      apply in_map_iff in Hp as [q [<- Hq]]; rewrite in_app_iff; intros [Hi|[Hi|[]]]; [|discriminate].
      apply (H q); [right; exact Hq|exact Hi]. }
  unfold read_text; rewrite Hsplit, P, !read_lines_app; f_equal.
  assert (Ht : forall p, In p t -> ~ In cr p).
  { intros p Hp Hc; apply Hn; rewrite E; apply in_app_iff; left; apply in_concat; exists (p ++ [nl]); split; [|apply in_app_iff; auto].
    apply in_map_iff; exists p; auto. }
  clear -Ht; revert c; induction t as [|p t IH]; intros c; [reflexivity|]; cbn [map read_lines].
  rewrite read_line_cr by (apply Ht; left; reflexivity).
  destruct (read_line c p); cbn [bind_r]; try reflexivity; apply IH; intros q Hq; apply Ht; right; exact Hq.
Qed.

(** What ends up in the lists. *)
Definition fills (key : list_key) (k : kind) (bind : bool) : bool :=
  match k with
  | Names plus minus => if list_key_eq key (if bind then plus else minus) then true else false
  | PlusNames p => bind && if list_key_eq key p then true else false
  | MinusNames m => negb bind && if list_key_eq key m then true else false
  | _ => false
  end.
Lemma effect_lists k bind arg c c' key : accepted k bind arg -> effect k bind arg c c' ->
  lists c' key = lists c key ++ (if fills key k bind then [nospace arg] else []).
Proof.
  destruct k as [plus minus|p|p|p trims|p|p]; cbn [accepted effect fills].
  - intros _ [H1 [H2 _]]; destruct (list_key_eq key (if bind then plus else minus)) as [->|Hn]; [exact H1|rewrite app_nil_r; apply H2; exact Hn].
  - intros _; destruct bind; cbn [andb].
    + intros [H1 [H2 _]]; destruct (list_key_eq key p) as [->|Hn]; [exact H1|rewrite app_nil_r; apply H2; exact Hn].
    + intros [H _]; rewrite app_nil_r; apply H.
  - intros _; destruct bind; cbn [andb negb].
    + intros [H _]; rewrite app_nil_r; apply H.
    + intros [H1 [H2 _]]; destruct (list_key_eq key p) as [->|Hn]; [exact H1|rewrite app_nil_r; apply H2; exact Hn].
  - rewrite app_nil_r; destruct bind; [|intros _ [H _]; apply H].
    intros Ha H; destruct (Ha eq_refl) as [x [v Hv]]; destruct (H x v Hv) as [w [_ [_ [_ [H1 _]]]]]; apply H1.
  - rewrite app_nil_r; intros [_ [x [v Hv]]] H; destruct (H x v Hv) as [_ [_ [H1 _]]]; apply H1.
  - rewrite app_nil_r; intros _ [_ [H _]]; apply H.
Qed.
Lemma read_lines_lists key ls : forall c c', read_lines c ls = Ok c' ->
  forall x, In x (lists c' key) <-> In x (lists c key) \/
    exists line bind token arg k, In line ls /\ says line bind token arg /\ In (token, k) directives /\ fills key k bind = true /\ nospace arg = x.
Proof.
  induction ls as [|l ls IH]; intros c c' E x; cbn [read_lines] in E.
  - injection E as <-; split; [auto|intros [H|[line [? [? [? [? [[] _]]]]]]]; exact H].
  - destruct (read_line c l) as [c1| | | |] eqn:El; cbn [bind_r] in E; try discriminate.
    rewrite (IH c1 c' E x); clear E.
    destruct (line_trichotomy l) as [Hi|[[bind [token [arg Hs]]]|[Ht _]]].
    + rewrite (read_line_ignored c l Hi) in El; injection El as <-; split.
      * intros [H|[line [b [t [a [k [H1 H2]]]]]]]; [left; exact H|right; exists line, b, t, a, k; split; [right; exact H1|exact H2]].
      * intros [H|[line [b [t [a [k [[<-|H1] [H2 H3]]]]]]]]; [left; exact H| |right; exists line, b, t, a, k; auto].
        exfalso; exact (says_not_ignored _ _ _ _ H2 Hi).
    + assert (Hkind : exists k, In (token, k) directives /\ accepted k bind arg /\ effect k bind arg c c1).
      { destruct (find_kind token directives) as [k|] eqn:Ek.
        - apply find_kind_In in Ek; destruct (accepted_dec k bind arg) as [Ha|Ha].
          + destruct (line_effect c l bind token arg k Hs Ek Ha) as [c2 [E2 Hf]]; rewrite El in E2; injection E2 as <-; exists k; auto.
          + exfalso; destruct (read_line_says c l bind token arg Hs) as [t [_ Eq]].
            rewrite Eq, read_token_kind, (proj2 (find_kind_In token k) Ek) in El.
            destruct (apply_kind_reject k bind token arg t Ha c) as [m Em]; congruence.
        - exfalso; destruct (read_line_says c l bind token arg Hs) as [t [_ Eq]]; rewrite Eq, read_token_kind, Ek in El; discriminate. }
      destruct Hkind as [k [Hk [Ha Hf]]]; rewrite (effect_lists k bind arg c c1 key Ha Hf), in_app_iff; split.
      * intros [[H|H]|[line [b [t [a [k' [H1 H2]]]]]]].
        -- left; exact H.
        -- right; destruct (fills key k bind) eqn:F; [|destruct H]; destruct H as [<-|[]].
           exists l, bind, token, arg, k; split; [left; reflexivity|auto].
        -- right; exists line, b, t, a, k'; split; [right; exact H1|exact H2].
      * intros [H|[line [b [t [a [k' [[<-|H1] [H2 [H3 [H4 H5]]]]]]]]]]; [left; left; exact H| |].
        -- left; right; destruct (says_det _ _ _ _ _ _ _ Hs H2) as [<- [<- <-]].
           apply find_kind_In in Hk, H3; rewrite Hk in H3; injection H3 as <-; rewrite H4; left; exact H5.
        -- right; exists line, b, t, a, k'; auto.
    + exfalso; destruct (Ht c) as [m Em]; congruence.
Qed.
(** One list, one directive, one sign. *)
Definition feeds (key : list_key) : option (bool * str) :=
  match key with
  | namespaces_to_bind => Some (true, $"namespace") | namespaces_to_skip => Some (false, $"namespace")
  | classes_to_bind => Some (true, $"class") | classes_to_skip => Some (false, $"class")
  | functions_to_bind => Some (true, $"function") | functions_to_skip => Some (false, $"function")
  | enums_to_bind => Some (true, $"enum") | enums_to_skip => Some (false, $"enum")
  | includes_to_add => Some (true, $"include") | includes_to_skip => Some (false, $"include")
  | fields_to_skip => Some (false, $"field") | buffer_protocols => Some (true, $"buffer_protocol")
  | module_local_namespaces_to_add => Some (true, $"module_local_namespace")
  | module_local_namespaces_to_skip => Some (false, $"module_local_namespace")
  | smart_held_classes => Some (true, $"smart_holder")
  | python_builtins => Some (true, $"python_builtin") | not_python_builtins => Some (false, $"python_builtin")
  end.
Lemma fills_feeds key token k bind : In (token, k) directives -> fills key k bind = true <-> feeds key = Some (bind, token).
Proof.
  intros Hi; unfold directives in Hi; cbn [In] in Hi.
  repeat (destruct Hi as [Hi|Hi]; [injection Hi as <- <-; destruct bind, key; cbn; split; intros H; (reflexivity || discriminate)|]).
  destruct Hi.
Qed.
Lemma feeds_kind key bind token : feeds key = Some (bind, token) -> exists k, In (token, k) directives.
Proof.
  intros E; assert (H : find_kind token directives <> None).
  { destruct key; injection E as <- <-; vm_compute; discriminate. }
  destruct (find_kind token directives) as [k|] eqn:Ek; [exists k; apply find_kind_In; exact Ek|contradiction].
Qed.
Lemma read_text_lists c text c' key bind token : read_text c text = Ok c' -> feeds key = Some (bind, token) ->
  forall x, In x (lists c' key) <-> In x (lists c key) \/ listed text bind token x.
Proof.
  intros E Hf x; unfold read_text in E; rewrite (read_lines_lists key _ _ _ E x); split.
  - intros [H|[line [b [t [a [k [H1 [H2 [H3 [H4 H5]]]]]]]]]]; [left; exact H|right].
    apply (fills_feeds key t k b H3) in H4; rewrite Hf in H4; injection H4 as -> ->.
    exists a; split; [|exact H5]; exists (split text [nl]), line; split; [apply split_pieces|auto].
  - intros [H|[a [[ls [line [Hp [Hi Hs]]]] Hx]]]; [left; exact H|right].
    destruct (feeds_kind key bind token Hf) as [k Hk].
    exists line, bind, token, a, k; split; [apply (pieces_unique_In _ _ _ Hp); exact Hi|].
    split; [exact Hs|split; [exact Hk|split; [apply (fills_feeds key token k bind Hk); exact Hf|exact Hx]]].
Qed.
Lemma default_lists k : lists default_config k = [].
Proof. reflexivity. Qed.
Lemma read_default_lists text c key bind token : read_text default_config text = Ok c -> feeds key = Some (bind, token) ->
  forall x, In x (lists c key) <-> listed text bind token x.
Proof. intros E Hf x; rewrite (read_text_lists _ _ _ key bind token E Hf x), default_lists; simpl; tauto. Qed.

Lemma read_with_crlf c text : ~ In cr text -> read_text c (with_crlf text) = read_text c text.
Proof. unfold with_crlf; rewrite <- replace_char; apply read_crlf. Qed.

(** The settings after [setup]. *)
Lemma setup_lists bind skip file text c key b token :
  file <> [] -> setup default_config bind skip file (Some text) = Ok c -> feeds key = Some (b, token) ->
  forall x, In x (lists c key) <->
    (key = namespaces_to_bind /\ In x bind \/ key = namespaces_to_skip /\ In x skip) \/ listed text b token x.
Proof.
  intros Hf E Hk x; unfold setup, read in E; destruct file as [|ch file]; [contradiction|].
  rewrite (read_text_lists _ _ _ key b token E Hk x); unfold assign_list; cbn [lists].
  destruct (list_key_eq key namespaces_to_skip) as [->|]; [intuition discriminate|].
  destruct (list_key_eq key namespaces_to_bind) as [->|]; [intuition discriminate|].
  simpl; intuition.
Qed.
Lemma setup_other_lists bind skip file text c key b token :
  file <> [] -> setup default_config bind skip file (Some text) = Ok c -> feeds key = Some (b, token) ->
  key <> namespaces_to_bind -> key <> namespaces_to_skip ->
  forall x, In x (lists c key) <-> listed text b token x.
Proof. intros Hf E Hk N1 N2 x; rewrite (setup_lists _ _ _ _ _ key b token Hf E Hk x); tauto. Qed.

Lemma listed_no_space text b token x : listed text b token x -> ~ In sp x.
Proof. intros [arg [_ <-]]; apply remove_char_In. Qed.
Lemma mem_iff x l : mem x l = true <-> In x l.
Proof. apply mem_In. Qed.

(** ** Reading the same file again *)
Lemma line_keyed l c c1 : read_line c l = Ok c1 -> 
  (forall k, exists e : option (str * str), forall d, exists d1, read_line d l = Ok d1 /\
     forall x, lookup x (maps d1 k) = match e with Some (y, v) => if streqb x y then Some v else lookup x (maps d k) | None => lookup x (maps d k) end) /\
  (forall k, exists e : option str, forall d, exists d1, read_line d l = Ok d1 /\
     strs d1 k = match e with Some v => v | None => strs d k end) /\
  (forall k, exists e : option (str * str), forall d, exists d1, read_line d l = Ok d1 /\
     forall x, get_vec x (vecs d1 k) = get_vec x (vecs d k) ++ match e with Some (y, v) => if streqb x y then [v] else [] | None => [] end).
Proof.
  intros E; destruct (line_trichotomy l) as [Hi|[[bind [token [arg Hs]]]|[Ht _]]].
  - split; [|split]; intros k; exists None; intros d; exists d; (split; [apply read_line_ignored; exact Hi|]); intros; rewrite ?app_nil_r; reflexivity.
  - destruct (find_kind token directives) as [kd|] eqn:Ek.
    2: { exfalso; destruct (read_line_says c l bind token arg Hs) as [t [_ Eq]]; rewrite Eq, read_token_kind, Ek in E; discriminate. }
    assert (Ek' := Ek); apply find_kind_In in Ek'; destruct (accepted_dec kd bind arg) as [Ha|Ha].
    2: { exfalso; destruct (read_line_says c l bind token arg Hs) as [t [_ Eq]].
         rewrite Eq, read_token_kind, Ek in E; destruct (apply_kind_reject kd bind token arg t Ha c) as [m Em]; congruence. }
    assert (Hd : forall d, exists d1, read_line d l = Ok d1 /\ effect kd bind arg d d1) by (intros d; apply (line_effect d l bind token arg kd Hs Ek' Ha)).
    assert (Hnone : forall k : map_key, (forall d d1, effect kd bind arg d d1 -> maps d1 k = maps d k) ->
        exists e : option (str * str), forall d, exists d1, read_line d l = Ok d1 /\
        forall x, lookup x (maps d1 k) = match e with Some (y, v) => if streqb x y then Some v else lookup x (maps d k) | None => lookup x (maps d k) end).
    { intros k H; exists None; intros d; destruct (Hd d) as [d1 [E1 F]]; exists d1; split; [exact E1|intros x; rewrite (H _ _ F); reflexivity]. }
    assert (Hnones : forall k : str_key, (forall d d1, effect kd bind arg d d1 -> strs d1 k = strs d k) ->
        exists e : option str, forall d, exists d1, read_line d l = Ok d1 /\ strs d1 k = match e with Some v => v | None => strs d k end).
    { intros k H; exists None; intros d; destruct (Hd d) as [d1 [E1 F]]; exists d1; split; [exact E1|rewrite (H _ _ F); reflexivity]. }
    assert (Hnonev : forall k : vec_key, (forall d d1, effect kd bind arg d d1 -> vecs d1 k = vecs d k) ->
        exists e : option (str * str), forall d, exists d1, read_line d l = Ok d1 /\
        forall x, get_vec x (vecs d1 k) = get_vec x (vecs d k) ++ match e with Some (y, v) => if streqb x y then [v] else [] | None => [] end).
    { intros k H; exists None; intros d; destruct (Hd d) as [d1 [E1 F]]; exists d1; split; [exact E1|intros x; rewrite (H _ _ F), app_nil_r; reflexivity]. }
    destruct kd as [plus minus|p|p|p trims|p|p]; cbn [effect accepted] in *.
    + split; [|split]; intros k; [apply Hnone|apply Hnones|apply Hnonev]; intros d d1 [_ [_ [H1 [H2 H3]]]]; auto.
    + split; [|split]; intros k; [apply Hnone|apply Hnones|apply Hnonev]; intros d d1 H; destruct bind;
        [destruct H as [_ [_ [H1 [H2 H3]]]]|destruct H as [_ [H1 [H2 H3]]]| destruct H as [_ [_ [H1 [H2 H3]]]]|destruct H as [_ [H1 [H2 H3]]]|destruct H as [_ [_ [H1 [H2 H3]]]]|destruct H as [_ [H1 [H2 H3]]]]; auto.
    + split; [|split]; intros k; [apply Hnone|apply Hnones|apply Hnonev]; intros d d1 H; destruct bind;
        [destruct H as [_ [H1 [H2 H3]]]|destruct H as [_ [_ [H1 [H2 H3]]]]|destruct H as [_ [H1 [H2 H3]]]|destruct H as [_ [_ [H1 [H2 H3]]]]|destruct H as [_ [H1 [H2 H3]]]|destruct H as [_ [_ [H1 [H2 H3]]]]]; auto.
    + destruct bind.
      * destruct (Ha eq_refl) as [x0 [v0 Hxv]]; destruct (Hd c) as [d0 [_ F0]]; destruct (F0 x0 v0 Hxv) as [w [Hw _]].
        assert (Hw' : forall w', (if trims then trimmed v0 w' else w' = v0) -> w' = w).
        { intros w' H'; destruct trims; [apply trim_iff in Hw, H'; congruence|congruence]. }
        split; [|split]; intros k.
        -- destruct (map_key_eq k p) as [->|Hn].
           ++ exists (Some (x0, w)); intros d; destruct (Hd d) as [d1 [E1 F]]; exists d1; split; [exact E1|].
              destruct (F x0 v0 Hxv) as [w1 [Hw1 [S1 [S2 _]]]]; rewrite (Hw' w1 Hw1) in *.
              intros x; destruct (streqb_spec x x0) as [->|Hx]; [exact S1|apply S2; exact Hx].
           ++ apply Hnone; intros d d1 F; destruct (F x0 v0 Hxv) as [w1 [_ [_ [_ [_ [S3 _]]]]]]; apply S3; exact Hn.
        -- apply Hnones; intros d d1 F; destruct (F x0 v0 Hxv) as [w1 [_ [_ [_ [_ [_ [_ S3]]]]]]]; apply S3.
        -- apply Hnonev; intros d d1 F; destruct (F x0 v0 Hxv) as [w1 [_ [_ [_ [_ [_ [S3 _]]]]]]]; apply S3.
      * split; [|split]; intros k; [apply Hnone|apply Hnones|apply Hnonev]; intros d d1 [_ [H1 [H2 H3]]]; auto.
    + destruct Ha as [_ [x0 [v0 Hxv]]]; split; [|split]; intros k.
      * apply Hnone; intros d d1 F; destruct (F x0 v0 Hxv) as [_ [_ [_ [S _]]]]; apply S.
      * apply Hnones; intros d d1 F; destruct (F x0 v0 Hxv) as [_ [_ [_ [_ [_ S]]]]]; apply S.
      * destruct (vec_key_eq k p) as [->|Hn].
        -- exists (Some (x0, v0)); intros d; destruct (Hd d) as [d1 [E1 F]]; exists d1; split; [exact E1|].
           destruct (F x0 v0 Hxv) as [S1 [S2 _]]; intros x; destruct (streqb_spec x x0) as [->|Hx]; [exact S1|rewrite app_nil_r; apply S2; exact Hx].
        -- apply Hnonev; intros d d1 F; destruct (F x0 v0 Hxv) as [_ [_ [_ [_ [S _]]]]]; apply S; exact Hn.
    + split; [|split]; intros k.
      * apply Hnone; intros d d1 [_ [_ [H _]]]; apply H.
      * destruct (str_key_eq k p) as [->|Hn].
        -- exists (Some (nospace arg)); intros d; destruct (Hd d) as [d1 [E1 F]]; exists d1; split; [exact E1|apply F].
        -- apply Hnones; intros d d1 [_ [_ [_ [_ H]]]]; apply H; exact Hn.
      * apply Hnonev; intros d d1 [_ [_ [_ [H _]]]]; apply H.
  - exfalso; destruct (Ht c) as [m Em]; congruence.
Qed.
Lemma lines_keyed ls : forall c c1, read_lines c ls = Ok c1 ->
  (forall k, exists g : str -> option str, forall d, exists d1, read_lines d ls = Ok d1 /\
     forall x, lookup x (maps d1 k) = match g x with Some v => Some v | None => lookup x (maps d k) end) /\
  (forall k, exists e : option str, forall d, exists d1, read_lines d ls = Ok d1 /\
     strs d1 k = match e with Some v => v | None => strs d k end) /\
  (forall k, exists g : str -> list str, forall d, exists d1, read_lines d ls = Ok d1 /\
     forall x, get_vec x (vecs d1 k) = get_vec x (vecs d k) ++ g x).
Proof.
  induction ls as [|l ls IH]; intros c c1 E; cbn [read_lines] in *.
  - split; [|split]; intros k.
    + exists (fun _ => None); intros d; exists d; auto.
    + exists None; intros d; exists d; auto.
    + exists (fun _ => []); intros d; exists d; split; [reflexivity|intros x; rewrite app_nil_r; reflexivity].
  - destruct (read_line c l) as [c2| | | |] eqn:El; cbn [bind_r] in E; try discriminate.
    destruct (line_keyed l c c2 El) as [L1 [L2 L3]], (IH c2 c1 E) as [I1 [I2 I3]].
    split; [|split]; intros k.
    + destruct (L1 k) as [e He], (I1 k) as [g Hg].
      exists (fun x => match g x with Some v => Some v | None => match e with Some (y, v) => if streqb x y then Some v else None | None => None end end).
      intros d; destruct (He d) as [d1 [E1 G1]], (Hg d1) as [d2 [E2 G2]]; exists d2; rewrite E1; split; [exact E2|].
      intros x; rewrite G2, G1; destruct (g x); [reflexivity|]; destruct e as [[y v]|]; [destruct (streqb x y)|]; reflexivity.
    + destruct (L2 k) as [e He], (I2 k) as [g Hg].
      exists (match g with Some v => Some v | None => e end).
      intros d; destruct (He d) as [d1 [E1 G1]], (Hg d1) as [d2 [E2 G2]]; exists d2; rewrite E1; split; [exact E2|].
      rewrite G2, G1; destruct g; reflexivity.
    + destruct (L3 k) as [e He], (I3 k) as [g Hg].
      exists (fun x => match e with Some (y, v) => if streqb x y then [v] else [] | None => [] end ++ g x).
      intros d; destruct (He d) as [d1 [E1 G1]], (Hg d1) as [d2 [E2 G2]]; exists d2; rewrite E1; split; [exact E2|].
      intros x; rewrite G2, G1, app_assoc; reflexivity.
Qed.
Lemma setup_again bind skip file text c :
  setup default_config bind skip file (Some text) = Ok c ->
  exists c', setup c bind skip file (Some text) = Ok c' /\ same_settings c c'.
Proof.
  destruct file as [|ch file]; unfold setup; cbn [read].
  - intros E; injection E as <-; eexists; split; [reflexivity|].
    unfold same_settings, assign_list; cbn [lists maps strs vecs]; split; [|repeat split; auto].
    intros k x; destruct (list_key_eq k namespaces_to_skip), (list_key_eq k namespaces_to_bind); reflexivity.
  - set (init := fun c => assign_list namespaces_to_skip skip (assign_list namespaces_to_bind bind c)).
    fold (init default_config); fold (init c); unfold read_text; intros E.
    destruct (lines_keyed _ _ _ E) as [K1 [K2 K3]].
    destruct (read_lines_total (split text [nl]) (init c)) as [[m Em]|[c' E']].
    { exfalso; destruct (K2 holder_type) as [e He]; destruct (He (init c)) as [d1 [E1 _]]; congruence. }
    exists c'; split; [exact E'|]; split; [|split; [|split]].
    + intros k x; destruct (feeds k) as [[b token]|] eqn:Ef; [|destruct k; discriminate].
      rewrite (read_text_lists _ _ _ k b token E' Ef x), (read_text_lists _ _ _ k b token E Ef x).
      unfold init, assign_list; cbn [lists]; destruct (list_key_eq k namespaces_to_skip); [reflexivity|].
      destruct (list_key_eq k namespaces_to_bind) as [|N1]; [reflexivity|].
      rewrite (read_text_lists _ _ _ k b token E Ef x); unfold init, assign_list; cbn [lists].
      destruct (list_key_eq k namespaces_to_skip); [contradiction|]; destruct (list_key_eq k namespaces_to_bind); [contradiction|]; tauto.
    + intros k x; destruct (K1 k) as [g Hg]; destruct (Hg (init c)) as [d1 [E1 G1]]; rewrite E' in E1; injection E1 as <-.
      destruct (Hg (init default_config)) as [d2 [E2 G2]]; rewrite E in E2; injection E2 as <-.
      rewrite G1, G2; unfold init at 1, assign_list; cbn [maps]; rewrite G2; destruct (g x); reflexivity.
    + intros k; destruct (K2 k) as [g Hg]; destruct (Hg (init c)) as [d1 [E1 G1]]; rewrite E' in E1; injection E1 as <-.
      destruct (Hg (init default_config)) as [d2 [E2 G2]]; rewrite E in E2; injection E2 as <-.
      rewrite G1, G2; unfold init at 1, assign_list; cbn [strs]; rewrite G2; destruct g; reflexivity.
    + intros k x i; destruct (K3 k) as [g Hg]; destruct (Hg (init c)) as [d1 [E1 G1]]; rewrite E' in E1; injection E1 as <-.
      destruct (Hg (init default_config)) as [d2 [E2 G2]]; rewrite E in E2; injection E2 as <-.
      rewrite G1, G2; unfold init at 1, assign_list; cbn [vecs]; rewrite G2, !in_app_iff; tauto.
Qed.
Lemma same_queries c c' : same_settings c c' ->
  (forall n, is_namespace_binding_requested c' n = is_namespace_binding_requested c n /\
             is_namespace_skipping_requested c' n = is_namespace_skipping_requested c n /\
             is_module_local_requested c' n = is_module_local_requested c n /\
             is_function_binding_requested c' n = is_function_binding_requested c n /\
             is_function_skipping_requested c' n = is_function_skipping_requested c n /\
             is_class_binding_requested c' n = is_class_binding_requested c n /\
             is_class_skipping_requested c' n = is_class_skipping_requested c n /\
             is_enum_binding_requested c' n = is_enum_binding_requested c n /\
             is_enum_skipping_requested c' n = is_enum_skipping_requested c n /\
             is_field_skipping_requested c' n = is_field_skipping_requested c n /\
             is_buffer_protocol_requested c' n = is_buffer_protocol_requested c n /\
             is_smart_holder_requested c' n = is_smart_holder_requested c n /\
             is_include_skipping_requested c' n = is_include_skipping_requested c n /\
             is_custom_trampoline_function_requested c' n = is_custom_trampoline_function_requested c n).
Proof.
  intros [Hl [Hm _]] n.
  assert (M : forall k x, mem x (lists c' k) = mem x (lists c k)) by (intros k x; apply eq_true_iff_eq; rewrite !mem_In; apply Hl).
  destruct (namespace_ext c' c n (Hl namespaces_to_bind) (Hl namespaces_to_skip)) as [N1 N2].
  split; [exact N1|split; [exact N2|]]; unfold is_module_local_requested, is_function_binding_requested, is_function_skipping_requested,
    is_class_binding_requested, is_class_skipping_requested, is_enum_binding_requested, is_enum_skipping_requested,
    is_field_skipping_requested, is_buffer_protocol_requested, is_smart_holder_requested, is_custom_trampoline_function_requested.
  rewrite !M, Hm; repeat split.
  unfold is_include_skipping_requested; apply eq_true_iff_eq; rewrite !existsb_exists; split; intros [x [H1 H2]]; exists x; split; auto; apply Hl; exact H1.
Qed.
