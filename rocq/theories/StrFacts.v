(** Lemmas about the string operations of Str.v. *)
From Coq Require Import Ascii String Bool Arith NArith Lia Sorting.Sorted.
From Coq Require Import List.
From Verif Require Import Str.
Import ListNotations.

Lemma streqb_spec a b : reflect (a = b) (streqb a b).
Proof.
  revert b; induction a as [|x a IH]; destruct b as [|y b]; simpl; try (constructor; congruence).
  destruct (Ascii.eqb_spec x y) as [->|Hn]; simpl; [|constructor; congruence].
  destruct (IH b) as [->|Hn]; constructor; congruence.
Qed.
Lemma streqb_eq a b : streqb a b = true <-> a = b.
Proof. destruct (streqb_spec a b); split; congruence. Qed.
Lemma streqb_neq a b : streqb a b = false <-> a <> b.
Proof. destruct (streqb_spec a b); split; congruence. Qed.
Lemma streqb_refl a : streqb a a = true.
Proof. apply streqb_eq; reflexivity. Qed.
Lemma str_eq_dec (a b : str) : {a = b} + {a <> b}.
Proof. destruct (streqb_spec a b); auto. Qed.

Lemma mem_In s l : mem s l = true <-> In s l.
Proof.
  unfold mem; rewrite existsb_exists; split.
  - intros [x [Hx He]]; apply streqb_eq in He; subst; exact Hx.
  - intros H; exists s; split; [exact H|apply streqb_refl].
Qed.
Lemma mem_false s l : mem s l = false <-> ~ In s l.
Proof. rewrite <- mem_In; destruct (mem s l); split; congruence. Qed.

Lemma prefixb_iff p s : prefixb p s = true <-> exists r, s = p ++ r.
Proof.
  revert s; induction p as [|x p IH]; intros s; simpl.
  - split; [intros _; exists s; reflexivity|reflexivity].
  - destruct s as [|y s]; [split; [congruence|intros [r H]; discriminate]|].
    rewrite andb_true_iff, IH; split.
    + intros [He [r ->]]; apply Ascii.eqb_eq in He; subst; exists r; reflexivity.
    + intros [r H]; injection H as -> ->; split; [apply Ascii.eqb_refl|exists r; reflexivity].
Qed.

Lemma same_at_0 s p : same_at s 0 (length p) p = prefixb p s.
Proof.
  unfold same_at, substr; rewrite skipn_O.
  revert s; induction p as [|x p IH]; intros s; simpl; [reflexivity|].
  destruct s as [|y s]; simpl; [reflexivity|].
  rewrite IH; f_equal; apply Bool.eq_iff_eq_true; rewrite !Ascii.eqb_eq; split; congruence.
Qed.

Lemma firstn_eqb_prefixb s p : streqb (firstn (length p) s) p = prefixb p s.
Proof. rewrite <- same_at_0; reflexivity. Qed.

(** [find0]: the first position where [p] occurs. *)
Lemma find0_Some p s i : find0 p s = Some i ->
  i <= length s /\ prefixb p (skipn i s) = true /\ forall j, j < i -> prefixb p (skipn j s) = false.
Proof.
  revert i; induction s as [|c s IH]; intros i; cbn [find0].
  - destruct (prefixb p []) eqn:E; [|discriminate].
    intros H; injection H as <-; split; [apply le_n|split; [exact E|intros j Hj; lia]].
  - destruct (prefixb p (c :: s)) eqn:E.
    + intros H; injection H as <-; split; [apply Nat.le_0_l|split; [exact E|intros j Hj; lia]].
    + destruct (find0 p s) as [k|]; [|discriminate]; simpl; intros H; injection H as <-.
      destruct (IH k eq_refl) as [H1 [H2 H3]]; split; [simpl; lia|split; [exact H2|]].
      intros [|j] Hj; [exact E|apply H3; lia].
Qed.
Lemma find0_None p s : find0 p s = None -> forall j, j <= length s -> prefixb p (skipn j s) = false.
Proof.
  induction s as [|c s IH]; cbn [find0].
  - destruct (prefixb p []) eqn:E; [discriminate|].
    intros _ j Hj; destruct j; [exact E|simpl in Hj; lia].
  - destruct (prefixb p (c :: s)) eqn:E; [discriminate|].
    destruct (find0 p s); [discriminate|]; intros _ [|j] Hj; [exact E|apply IH; [reflexivity|simpl in Hj; lia]].
Qed.
Lemma find0_decomp p s i : find0 p s = Some i -> s = firstn i s ++ p ++ skipn (i + length p) s.
Proof.
  intros H; apply find0_Some in H as [Hl [Hp _]].
  apply prefixb_iff in Hp as [r Hr].
  rewrite <- (firstn_skipn i s) at 1; f_equal; rewrite Hr at 1; f_equal.
  assert (E : skipn (i + length p) s = skipn (length p) (skipn i s)).
  { clear; revert s; induction i as [|i IH]; intros s; simpl; [reflexivity|].
    destruct s; [rewrite !skipn_nil; reflexivity|apply IH]. }
  rewrite E, Hr, skipn_app, Nat.sub_diag, skipn_all2; [reflexivity|lia].
Qed.

Lemma skipn_app_exact {A} (a b : list A) : skipn (length a) (a ++ b) = b.
Proof. rewrite skipn_app, Nat.sub_diag, skipn_all2; [reflexivity|lia]. Qed.
Lemma firstn_app_exact {A} (a b : list A) : firstn (length a) (a ++ b) = a.
Proof. rewrite firstn_app, Nat.sub_diag, firstn_all, firstn_O, app_nil_r; reflexivity. Qed.

Lemma find_at_end (s a p : str) : find (a ++ s) p (length a) = option_map (fun i => length a + i) (find0 p s).
Proof.
  unfold find; rewrite skipn_app_exact.
  replace (length a <=? length (a ++ s)) with true; [reflexivity|].
  symmetry; apply Nat.leb_le; rewrite app_length; lia.
Qed.

Lemma splice_at (a m b t : str) : splice (a ++ m ++ b) (length a) (length m) t = a ++ t ++ b.
Proof.
  unfold splice; rewrite firstn_app_exact; f_equal; f_equal.
  rewrite app_assoc, <- app_length; apply skipn_app_exact.
Qed.

(** [strcmp] is a strict total order. *)
Lemma strcmp_eq a b : strcmp a b = Eq <-> a = b.
Proof.
  revert b; induction a as [|x a IH]; destruct b as [|y b]; simpl; try (split; congruence).
  destruct (N.compare_spec (N_of_ascii x) (N_of_ascii y)) as [E|L|L].
  - assert (x = y) as -> by (rewrite <- (ascii_N_embedding x), E; apply ascii_N_embedding).
    rewrite IH; split; congruence.
  - split; [congruence|intros H; injection H as -> _; lia].
  - split; [congruence|intros H; injection H as -> _; lia].
Qed.
Lemma strcmp_antisym a b : strcmp b a = CompOpp (strcmp a b).
Proof.
  revert b; induction a as [|x a IH]; destruct b as [|y b]; simpl; try reflexivity.
  rewrite (N.compare_antisym (N_of_ascii x)); destruct (N.compare (N_of_ascii x) (N_of_ascii y)); simpl; auto.
Qed.
Definition strlt (a b : str) : Prop := strcmp a b = Lt.
Lemma strlt_irrefl a : ~ strlt a a.
Proof. unfold strlt; intros H; assert (E := proj2 (strcmp_eq a a) eq_refl); congruence. Qed.
Lemma strlt_trans a b c : strlt a b -> strlt b c -> strlt a c.
Proof.
  unfold strlt; revert b c; induction a as [|x a IH]; intros [|y b] [|z c]; simpl; try congruence.
  destruct (N.compare_spec (N_of_ascii x) (N_of_ascii y)) as [E1|L1|L1];
  destruct (N.compare_spec (N_of_ascii y) (N_of_ascii z)) as [E2|L2|L2]; intros H1 H2; try discriminate;
  destruct (N.compare_spec (N_of_ascii x) (N_of_ascii z)) as [E3|L3|L3]; try lia; try reflexivity.
  apply (IH b); assumption.
Qed.
Lemma strlt_trichotomy a b : strlt a b \/ a = b \/ strlt b a.
Proof.
  unfold strlt; destruct (strcmp a b) eqn:E.
  - right; left; apply strcmp_eq; exact E.
  - left; reflexivity.
  - right; right; rewrite strcmp_antisym, E; reflexivity.
Qed.

Lemma set_insert_In s x l : In x (set_insert s l) <-> x = s \/ In x l.
Proof.
  induction l as [|y l IH]; simpl; [intuition congruence|].
  destruct (strcmp s y) eqn:E; simpl.
  - apply strcmp_eq in E; subst; intuition congruence.
  - intuition congruence.
  - rewrite IH; intuition congruence.
Qed.
Lemma set_insert_sorted s l : StronglySorted strlt l -> StronglySorted strlt (set_insert s l).
Proof.
  induction 1 as [|y l Hl IH Hy]; simpl; [repeat constructor|].
  destruct (strcmp s y) eqn:E.
  - constructor; assumption.
  - constructor; [constructor; assumption|constructor; [exact E|]].
    eapply Forall_impl; [|exact Hy]; intros z Hz; eapply strlt_trans; [exact E|exact Hz].
  - constructor; [exact IH|]; apply Forall_forall; intros z Hz; apply set_insert_In in Hz as [->|Hz].
    + unfold strlt; rewrite strcmp_antisym, E; reflexivity.
    + rewrite Forall_forall in Hy; auto.
Qed.
Lemma set_of_gen l acc : StronglySorted strlt acc ->
  StronglySorted strlt (fold_left (fun acc s => set_insert s acc) l acc) /\
  forall x, In x (fold_left (fun acc s => set_insert s acc) l acc) <-> In x l \/ In x acc.
Proof.
  revert acc; induction l as [|s l IH]; intros acc Ha; simpl.
  - split; [exact Ha|tauto].
  - destruct (IH (set_insert s acc) (set_insert_sorted s acc Ha)) as [H1 H2].
    split; [exact H1|]; intros x; rewrite H2, set_insert_In; intuition congruence.
Qed.
Lemma set_of_sorted l : StronglySorted strlt (set_of l).
Proof. apply (set_of_gen l []); constructor. Qed.
Lemma set_of_In l x : In x (set_of l) <-> In x l.
Proof. destruct (set_of_gen l [] (SSorted_nil _)) as [_ H]; unfold set_of; rewrite H; simpl; tauto. Qed.
Lemma sorted_NoDup l : StronglySorted strlt l -> NoDup l.
Proof.
  induction 1 as [|y l Hl IH Hy]; constructor; [|exact IH].
  intros Hin; rewrite Forall_forall in Hy; exact (strlt_irrefl y (Hy y Hin)).
Qed.
(** A strictly sorted list is determined by its elements. *)
Lemma sorted_ext l1 l2 : StronglySorted strlt l1 -> StronglySorted strlt l2 ->
  (forall x, In x l1 <-> In x l2) -> l1 = l2.
Proof.
  intros H1; revert l2; induction H1 as [|x l1 Hl IH Hx]; intros l2 H2 He.
  - destruct l2 as [|y l2]; [reflexivity|]; destruct (proj2 (He y)); left; reflexivity.
  - destruct H2 as [|y l2 H2 Hy]; [destruct (proj1 (He x)); left; reflexivity|].
    rewrite Forall_forall in Hx, Hy.
    assert (x = y) as <-.
    { destruct (proj1 (He x) (or_introl eq_refl)) as [->|Hi]; [reflexivity|].
      destruct (proj2 (He y) (or_introl eq_refl)) as [->|Hj]; [reflexivity|].
      exfalso; apply (strlt_irrefl x); eapply strlt_trans; [apply Hx; exact Hj|apply Hy; exact Hi]. }
    f_equal; apply IH; [exact H2|]; intros z; split; intros Hz.
    + destruct (proj1 (He z) (or_intror Hz)) as [->|H]; [|exact H].
      exfalso; exact (strlt_irrefl z (Hx z Hz)).
    + destruct (proj2 (He z) (or_intror Hz)) as [->|H]; [|exact H].
      exfalso; exact (strlt_irrefl z (Hy z Hz)).
Qed.
Lemma set_of_ext l1 l2 : (forall x, In x l1 <-> In x l2) -> set_of l1 = set_of l2.
Proof. intros H; apply sorted_ext; try apply set_of_sorted; intros x; rewrite !set_of_In; apply H. Qed.

(** Association lists. *)
Lemma lookup_update_eq {A} k (v : A) m : lookup k (update k v m) = Some v.
Proof.
  induction m as [|[k' v'] m IH]; simpl; [rewrite streqb_refl; reflexivity|].
  destruct (streqb k k') eqn:E; simpl; rewrite E; [reflexivity|exact IH].
Qed.
Lemma lookup_update_neq {A} k k1 (v : A) m : k <> k1 -> lookup k (update k1 v m) = lookup k m.
Proof.
  intros Hn; induction m as [|[k' v'] m IH]; simpl.
  - destruct (streqb_spec k k1); [contradiction|reflexivity].
  - destruct (streqb_spec k1 k') as [->|Hn1]; simpl.
    + destruct (streqb_spec k k'); [contradiction|reflexivity].
    + rewrite IH; reflexivity.
Qed.
Lemma lookup_In {A} k (v : A) m : lookup k m = Some v -> In (k, v) m.
Proof.
  induction m as [|[k' v'] m IH]; simpl; [discriminate|].
  destruct (streqb_spec k k') as [->|Hn]; [intros H; injection H as ->; left; reflexivity|right; auto].
Qed.
Lemma lookup_None {A} k (m : list (str * A)) : lookup k m = None <-> ~ In k (map fst m).
Proof.
  induction m as [|[k' v'] m IH]; simpl; [tauto|].
  destruct (streqb_spec k k') as [->|Hn]; [split; [discriminate|tauto]|].
  rewrite IH; intuition congruence.
Qed.

Lemma remove_char_In c s : ~ In c (remove_char c s).
Proof. unfold remove_char; rewrite filter_In, Ascii.eqb_refl; simpl; intros [_ H]; discriminate. Qed.
Lemma remove_char_id c s : ~ In c s -> remove_char c s = s.
Proof.
  induction s as [|x s IH]; simpl; [reflexivity|]; intros H.
  destruct (Ascii.eqb_spec x c) as [->|Hn]; simpl; [tauto|f_equal; apply IH; tauto].
Qed.
Lemma remove_char_idem c s : remove_char c (remove_char c s) = remove_char c s.
Proof. apply remove_char_id, remove_char_In. Qed.
Lemma remove_char_app c a b : remove_char c (a ++ b) = remove_char c a ++ remove_char c b.
Proof. apply filter_app. Qed.
