(** Facts on the substitutions of type.cpp: each one that applies makes the
    name shorter, so the simplification ends and its result is final. *)
From Coq Require Import Ascii String Bool Arith Lia.
From Coq Require Import List.
From Verif Require Import Str StrFacts Types Regex.
Import ListNotations.

(** ** The executable engine meets the description *)

Lemma strip_iff x s s' : strip x s = Some s' <-> s = x ++ s'.
Proof.
  revert s; induction x as [|c x IH]; intros s; cbn [strip].
  - split; [intros H; injection H as ->; reflexivity|intros ->; reflexivity].
  - destruct s as [|d s]; [split; discriminate|]. destruct (Ascii.eqb_spec c d) as [->|N].
    + rewrite IH. split; [intros ->; reflexivity|intros H; injection H; auto].
    + split; [discriminate|intros H; injection H; congruence].
Qed.
Lemma splits_iff s x y : In (x, y) (splits s) <-> s = x ++ y.
Proof.
  revert x; induction s as [|c s IH]; intros x; cbn [splits].
  - split; [intros [H|[]]; injection H as <- <-; reflexivity|]. destruct x; [cbn; intros <-; left; reflexivity|discriminate].
  - cbn [In]. rewrite in_map_iff. split.
    + intros [H|[[x' y'] [H1 H2]]]; [injection H as <- <-; reflexivity|]. cbn [fst snd] in H1. injection H1 as <- <-. apply IH in H2; subst; reflexivity.
    + destruct x as [|d x]; [cbn; intros <-; left; reflexivity|]. cbn; intros H; injection H as -> ->. right; exists (x, y); split; [reflexivity|apply IH; reflexivity].
Qed.
Lemma blank_tails_iff s s' : In s' (blank_tails s) <-> exists n, s = repeat " "%char n ++ s'.
Proof.
  revert s'; induction s as [|c s IH]; intros s'; cbn [blank_tails In].
  - split; [intros [<-|[]]; exists 0; reflexivity|intros [[|n] H]; [left; exact H|discriminate]].
  - split.
    + intros [<-|H]; [exists 0; reflexivity|]. destruct (Ascii.eqb_spec c " ") as [->|N]; [|destruct H]. apply IH in H; destruct H as [n ->]. exists (S n); reflexivity.
    + intros [[|n] H]; [left; exact H|]. cbn in H. injection H as -> ->. right. cbn [Ascii.eqb]. apply IH. exists n; reflexivity.
Qed.
Lemma all_matches_iff p : forall caps s caps' z, In (caps', z) (all_matches p caps s) <-> exists m, s = m ++ z /\ rmatch p caps m caps'.
Proof.
  induction p as [|k p IH]; intros caps s caps' z; cbn [all_matches].
  - split.
    + intros [H|[]]; injection H as <- <-. exists []; split; [reflexivity|constructor].
    + intros [m [-> H]]. inversion H; subst. left; reflexivity.
  - destruct k as [c| | |n].
    + destruct s as [|d s]; [split; [intros []|intros [m [H1 H2]]; inversion H2; subst; discriminate]|].
      destruct (Ascii.eqb_spec c d) as [->|N].
      * rewrite IH. split; intros [m [H1 H2]].
        -- exists (d :: m); subst; split; [reflexivity|constructor; exact H2].
        -- inversion H2 as [|c0 p0 k0 s0 k1 H3| | |]; subst. injection H1 as ->. exists s0; split; [reflexivity|exact H3].
      * split; [intros []|intros [m [H1 H2]]]. inversion H2; subst. injection H1; congruence.
    + rewrite in_flat_map. split.
      * intros [[x y] [H1 H2]]. apply splits_iff in H1. cbn [fst snd] in H2. apply IH in H2. destruct H2 as [m [-> H2]]. subst.
        exists (x ++ m); split; [rewrite app_assoc; reflexivity|constructor; exact H2].
      * intros [m [-> H]]. inversion H as [| |x p0 k0 s0 k1 H3| |]; subst. exists (x, s0 ++ z); split; [apply splits_iff; rewrite app_assoc; reflexivity|].
        cbn [fst snd]. apply IH. exists s0; split; [reflexivity|exact H3].
    + rewrite in_flat_map. split.
      * intros [y [H1 H2]]. apply blank_tails_iff in H1. destruct H1 as [n ->]. apply IH in H2. destruct H2 as [m [-> H2]].
        exists (repeat " "%char n ++ m); split; [rewrite app_assoc; reflexivity|constructor; exact H2].
      * intros [m [-> H]]. inversion H as [| | |n p0 k0 s0 k1 H3|]; subst. exists (s0 ++ z); split; [apply blank_tails_iff; exists n; rewrite app_assoc; reflexivity|].
        apply IH. exists s0; split; [reflexivity|exact H3].
    + split.
      * destruct (nth_error caps (n - 1)) as [x|] eqn:E; [|intros []]. destruct (strip x s) as [s1|] eqn:S1; [|intros []].
        apply strip_iff in S1. intros H. apply IH in H. destruct H as [m [-> H]]. subst. exists (x ++ m); split; [rewrite app_assoc; reflexivity|constructor; assumption].
      * intros [m [-> H]]. inversion H as [| | | |n0 x p0 k0 s0 k1 H3 H4]; subst. rewrite H3.
        assert (S1 : strip x ((x ++ s0) ++ z) = Some (s0 ++ z)) by (apply strip_iff; rewrite app_assoc; reflexivity).
        rewrite S1. apply IH. exists s0; split; [reflexivity|exact H4].
Qed.
Lemma best_spec l : match best l with
  | None => l = []
  | Some x => In x l /\ forall y, In y l -> length (snd x) <= length (snd y)
  end.
Proof.
  induction l as [|x l IH]; cbn [best]; [reflexivity|]. destruct (best l) as [y|].
  - destruct IH as [I1 I2]. destruct (Nat.leb_spec (length (snd x)) (length (snd y))) as [L|L].
    + split; [left; reflexivity|]. intros z [<-|Hz]; [lia|]. specialize (I2 z Hz); lia.
    + split; [right; exact I1|]. intros z [<-|Hz]; [lia|]. apply I2, Hz.
  - subst. split; [left; reflexivity|]. intros z [<-|[]]; lia.
Qed.
Lemma sub_exec_spec p t s : sub_spec p t s (sub_exec p t s).
Proof.
  induction s as [|c s IH].
  - cbn [sub_exec]. pose proof (best_spec (all_matches p [] [])) as B. destruct (best (all_matches p [] [])) as [[caps z]|].
    + destruct B as [B _]. apply all_matches_iff in B. destruct B as [m [E H]]. right. exists [], m, z, caps.
      split; [split; [exact E|exact H]|split; [reflexivity|]]. intros a' m' z' caps' [E' _].
      symmetry in E'. apply app_eq_nil in E'. destruct E' as [-> E']. apply app_eq_nil in E'. destruct E' as [-> _]. right; split; [reflexivity|cbn; lia].
    + left. split; [|reflexivity]. intros a m z caps [E H]. symmetry in E. apply app_eq_nil in E. destruct E as [-> E]. apply app_eq_nil in E. destruct E as [-> ->].
      assert (X : In (caps, []) (all_matches p [] [])) by (apply all_matches_iff; exists []; split; [reflexivity|exact H]). rewrite B in X; destruct X.
  - cbn [sub_exec]. pose proof (best_spec (all_matches p [] (c :: s))) as B. destruct (best (all_matches p [] (c :: s))) as [[caps z]|].
    + destruct B as [B1 B2]. apply all_matches_iff in B1. destruct B1 as [m [E H]]. right. exists [], m, z, caps.
      split; [split; [exact E|exact H]|split; [reflexivity|]]. intros a' m' z' caps' [E' H'].
      destruct a' as [|x a']; [|left; cbn; lia]. right; split; [reflexivity|].
      assert (X : In (caps', z') (all_matches p [] (c :: s))) by (apply all_matches_iff; exists m'; split; [exact E'|exact H']).
      specialize (B2 _ X). cbn [snd] in B2. cbn in E'. pose proof (f_equal (@length ascii) E) as L1. pose proof (f_equal (@length ascii) E') as L2.
      rewrite app_length in L1, L2. lia.
    + assert (N : forall m z caps, ~ (c :: s = m ++ z /\ rmatch p [] m caps)).
      { intros m z caps [E H]. assert (X : In (caps, z) (all_matches p [] (c :: s))) by (apply all_matches_iff; exists m; split; assumption). rewrite B in X; destruct X. }
      destruct IH as [[I1 I2]|[a [m [z [caps [[E H] [I2 I3]]]]]]].
      * left. split; [|rewrite I2; reflexivity]. intros [|x a] m z caps [E H]; [exact (N m z caps (conj E H))|]. injection E as -> E. exact (I1 a m z caps (conj E H)).
      * right. exists (c :: a), m, z, caps. split; [split; [cbn; f_equal; exact E|exact H]|split; [cbn; f_equal; exact I2|]].
        intros [|x a'] m' z' caps' [E' H']; [exfalso; exact (N m' z' caps' (conj E' H'))|]. cbn in E'. injection E' as -> E'.
        specialize (I3 a' m' z' caps' (conj E' H')). cbn [length]. lia.
Qed.
Lemma std_engine_spec : regex_engine std_engine.
Proof.
  unfold regex_engine, std_engine. induction regex_table as [|e l IH]; cbn [map]; constructor; [intros s; apply sub_exec_spec|exact IH].
Qed.

(** ** Every substitution shortens *)

Fixpoint chars (t : list tok) : nat := match t with [] => 0 | Chr _ :: t' => S (chars t') | _ :: t' => chars t' end.
Definition refs (t : list tok) : list nat := flat_map (fun k => match k with Ref n => [n - 1] | _ => [] end) t.
Fixpoint total (l : list str) : nat := match l with [] => 0 | x :: l' => length x + total l' end.
Lemma total_app a b : total (a ++ b) = total a + total b.
Proof. induction a as [|x a IH]; cbn [total app]; [reflexivity|]. rewrite IH; lia. Qed.
Lemma match_length p caps s caps' : rmatch p caps s caps' -> chars p + total caps' <= length s + total caps.
Proof.
  induction 1; cbn [chars length]; rewrite ?app_length; try lia. rewrite total_app in IHrmatch. cbn [total] in IHrmatch. lia.
Qed.
Lemma total_remove l : forall n, total (firstn n l ++ skipn (S n) l) + length (nth n l []) = total l.
Proof.
  induction l as [|x l IH]; intros [|n]; try reflexivity.
  - change (total l + length x = length x + total l). lia.
  - specialize (IH n). change (length x + total (firstn n l ++ skipn (S n) l) + length (nth n l []) = length x + total l). lia.
Qed.
Lemma refs_bound ns : forall l, NoDup ns -> list_sum (map (fun n => length (nth n l [])) ns) <= total l.
Proof.
  (* remove the referenced group *)
  induction ns as [|n ns IH]; intros l ND; [cbn; lia|]. inversion ND as [|? ? N1 N2]; subst.
  set (l' := firstn n l ++ [] :: skipn (S n) l).
  destruct (Nat.lt_ge_cases n (length l)) as [L|L].
  - assert (T : total l' + length (nth n l []) = total l).
    { rewrite <- (total_remove l n). unfold l'. rewrite !total_app. reflexivity. }
    assert (S : map (fun m => length (nth m l [])) ns = map (fun m => length (nth m l' [])) ns).
    { apply map_ext_in. intros m Hm. f_equal. assert (m <> n) by congruence. unfold l'.
      destruct (Nat.lt_ge_cases m n) as [M|M].
      - rewrite app_nth1 by (rewrite firstn_length; lia). rewrite <- (firstn_skipn n l) at 1. rewrite app_nth1 by (rewrite firstn_length; lia). reflexivity.
      - rewrite app_nth2 by (rewrite firstn_length; lia). rewrite firstn_length, Nat.min_l by lia.
        replace (m - n) with (Datatypes.S (m - n - 1)) by lia. cbn [nth].
        rewrite <- (firstn_skipn (S n) l) at 1. rewrite app_nth2 by (rewrite firstn_length; lia). rewrite firstn_length, Nat.min_l by lia. f_equal; lia. }
    cbn [map list_sum fold_right]. change (fold_right Nat.add 0 (map (fun m => length (nth m l [])) ns)) with (list_sum (map (fun m => length (nth m l [])) ns)).
    rewrite S. specialize (IH l' N2). lia.
  - cbn [map list_sum fold_right]. rewrite nth_overflow by lia. cbn [length]. specialize (IH l N2). unfold list_sum in IH. lia.
Qed.
Lemma expand_length t caps : length (expand t caps) = chars t + list_sum (map (fun n => length (nth n caps [])) (refs t)).
Proof.
  induction t as [|k t IH]; [reflexivity|]. destruct k; cbn [expand chars length].
  - rewrite IH. reflexivity.
  - exact IH.
  - exact IH.
  - rewrite app_length, IH. unfold refs. cbn [flat_map app map list_sum fold_right]. unfold list_sum. lia.
Qed.
(** The shape of the entries of the table. *)
Definition shrinking (p t : list tok) : Prop := NoDup (refs t) /\ chars t < chars p.
Lemma table_shrinks : Forall (fun e => shrinking (parse_regex (fst e)) (parse_template (snd e))) regex_table.
Proof.
  repeat (apply Forall_cons; [split; [vm_compute; repeat constructor; intros H; repeat (destruct H as [H|H]; [discriminate H|]); destruct H|apply Nat.ltb_lt; vm_compute; reflexivity]|]).
  apply Forall_nil.
Qed.
Lemma sub_shrinks p t s s' : shrinking p t -> sub_spec p t s s' -> s' = s \/ length s' < length s.
Proof.
  intros [ND L] [[_ H]|[a [m [z [caps [[E M] [H _]]]]]]]; [left; exact H|right].
  subst. rewrite !app_length, expand_length. pose proof (match_length _ _ _ _ M) as ML. pose proof (refs_bound (refs t) caps ND) as RB.
  change (total []) with 0 in ML. lia.
Qed.

(** ** The loop *)

Lemma engine_entry fs f : regex_engine fs -> In f fs ->
  exists e, In e regex_table /\ forall s, sub_spec (parse_regex (fst e)) (parse_template (snd e)) s (f s).
Proof.
  unfold regex_engine. induction 1 as [|e g l fs' H _ IH]; intros Hf; [destruct Hf|].
  destruct Hf as [<-|Hf]; [exists e; split; [left; reflexivity|exact H]|]. destruct (IH Hf) as [e' [H1 H2]]; exists e'; split; [right; exact H1|exact H2].
Qed.
Section Loop.
  Context (fs : list (str -> str)).
  Hypothesis Hfs : regex_engine fs.
  Lemma engine_shrinks : forall f, In f fs -> forall s, f s = s \/ length (f s) < length s.
  Proof.
    intros f Hf s. destruct (engine_entry _ _ Hfs Hf) as [e [He H]].
    exact (sub_shrinks _ _ _ _ (proj1 (Forall_forall _ _) table_shrinks e He) (H s)).
  Qed.
  Definition pass (s : str) : str := fold_left (fun r f => f r) fs s.
  Lemma pass_gen l : incl l fs -> forall s, let s' := fold_left (fun r f => f r) l s in
    length s' <= length s /\ (length s' = length s -> s' = s /\ forall f, In f l -> f s = s).
  Proof.
    induction l as [|f l IH]; intros I s; cbn [fold_left]; [split; [lia|intros _; split; [reflexivity|intros f []]]|].
    destruct (IH (fun g H => I g (or_intror H)) (f s)) as [I1 I2]. destruct (engine_shrinks f (I f (or_introl eq_refl)) s) as [F|F].
    - rewrite F in *. split; [exact I1|]. intros H. destruct (I2 H) as [I3 I4]. split; [exact I3|]. intros g [<-|Hg]; [exact F|exact (I4 g Hg)].
    - split; [cbn in I1 |- *; lia|]. intros H. exfalso. cbn in I1, H. lia.
  Qed.
  Lemma pass_shrinks s : pass s = s \/ length (pass s) < length s.
  Proof. destruct (pass_gen fs (fun _ H => H) s) as [P1 P2]. fold (pass s) in P1, P2. destruct (Nat.eq_dec (length (pass s)) (length s)) as [E|E]; [left; exact (proj1 (P2 E))|right; lia]. Qed.
  Definition final_name (s : str) : Prop := forall f, In f fs -> f s = s.
  Lemma pass_final s : length (pass s) = length s -> pass s = s /\ final_name s.
  Proof. apply (pass_gen fs (fun _ H => H) s). Qed.
  Lemma final_pass s : final_name s -> pass s = s.
  Proof.
    unfold final_name, pass. clear Hfs. induction fs as [|f l IH]; intros H; [reflexivity|]. cbn [fold_left]. rewrite (H f (or_introl eq_refl)). apply IH. intros g Hg; apply H; right; exact Hg.
  Qed.
  Lemma final_nil : final_name [].
  Proof. intros f Hf. destruct (engine_shrinks f Hf []) as [E|E]; [exact E|cbn in E; lia]. Qed.
  Lemma loop_spec fuel : forall s prev, length s < fuel -> (length s = prev -> final_name s) ->
    exists r, simplify_loop fuel fs s (length s) prev = Some r /\ final_name r /\ exists k, r = Nat.iter k pass s.
  Proof.
    induction fuel as [|fuel IH]; intros s prev L F; [lia|]. cbn [simplify_loop].
    destruct (Nat.eqb_spec (length s) prev) as [E|E].
    - exists s; split; [reflexivity|split; [exact (F E)|exists 0; reflexivity]].
    - cbv zeta. fold (pass s). destruct (pass_shrinks s) as [P|P].
      + (* unchanged: one more test *)
        destruct fuel as [|fuel']; [exists s; split; [|split; [|exists 0; reflexivity]]|].
        * rewrite P. cbn [simplify_loop]. rewrite Nat.eqb_refl. reflexivity.
        * apply pass_final. rewrite P; reflexivity.
        * rewrite P. exists s. cbn [simplify_loop]. rewrite Nat.eqb_refl. split; [reflexivity|split; [apply pass_final; rewrite P; reflexivity|exists 0; reflexivity]].
      + destruct (IH (pass s) (length s)) as [r [R1 [R2 [k R3]]]]; [lia|lia|]. exists r; split; [exact R1|split; [exact R2|]].
        exists (S k). rewrite R3. clear. induction k as [|k IHk]; [reflexivity|]. change (Nat.iter (S k) pass (pass s)) with (pass (Nat.iter k pass (pass s))). rewrite IHk; reflexivity.
  Qed.
  Lemma final_loop s fuel : final_name s -> simplify_loop (S fuel) fs s (length s) 0 = Some s.
  Proof.
    intros F. cbn [simplify_loop]. destruct (length s =? 0) eqn:E; [reflexivity|]. cbv zeta. fold (pass s). rewrite (final_pass s F).
    destruct fuel; cbn [simplify_loop]; rewrite Nat.eqb_refl; reflexivity.
  Qed.
End Loop.

(** ** The result is not abbreviated further *)

Definition containers : list str := [$"list<"; $"deque<"; $"vector<"; $"set<"; $"map<"].
Definition holds (x s : str) : Prop := exists a b, s = a ++ x ++ b.
Lemma holds_find x s : find0 x s = None -> ~ holds x s.
Proof.
  intros N [a [b ->]]. pose proof (find0_None x (a ++ x ++ b) N (length a)) as H. rewrite !app_length in H. specialize (H ltac:(lia)).
  rewrite skipn_app_exact in H. assert (T : prefixb x (x ++ b) = true) by (apply prefixb_iff; exists b; reflexivity). congruence.
Qed.
Lemma keys_no_container : forall k x, In k (map fst std_typedef_map) -> In x containers -> ~ holds x k.
Proof.
  intros k x Hk Hx. apply holds_find.
  assert (A : forallb (fun k => forallb (fun x => match find0 x k with None => true | _ => false end) containers) (map fst std_typedef_map) = true) by (vm_compute; reflexivity).
  rewrite forallb_forall in A. specialize (A k Hk). cbv beta in A. rewrite forallb_forall in A. specialize (A x Hx). cbv beta in A. destruct (find0 x k); [discriminate A|reflexivity].
Qed.
Fixpoint chr_prefix (x : str) (t : list tok) : bool :=
  match x, t with
  | [], _ => true
  | c :: x', Chr d :: t' => Ascii.eqb c d && chr_prefix x' t'
  | _, _ => false
  end.
Fixpoint tok_holds (x : str) (t : list tok) : bool :=
  chr_prefix x t || match t with [] => false | _ :: t' => tok_holds x t' end.
Lemma chr_prefix_expand x : forall t caps, chr_prefix x t = true -> exists b, expand t caps = x ++ b.
Proof.
  induction x as [|c x IH]; intros t caps H; [exists (expand t caps); reflexivity|]. destruct t as [|[d| | |n] t]; try discriminate H.
  cbn in H. apply andb_prop in H. destruct H as [H1 H2]. apply Ascii.eqb_eq in H1. subst. destruct (IH t caps H2) as [b Eb]. exists b. cbn. rewrite Eb; reflexivity.
Qed.
Lemma tok_holds_expand x t caps : tok_holds x t = true -> holds x (expand t caps).
Proof.
  induction t as [|k t IH]; intros H.
  - cbn in H. rewrite orb_false_r in H. destruct (chr_prefix_expand x [] caps H) as [b E]. exists [], b. exact E.
  - cbn [tok_holds] in H. apply orb_prop in H. destruct H as [H|H].
    + destruct (chr_prefix_expand x _ caps H) as [b E]. exists [], b. exact E.
    + destruct (IH H) as [a [b E]]. destruct k; cbn [expand]; rewrite E.
      * exists (c :: a), b; reflexivity.
      * exists a, b; reflexivity.
      * exists a, b; reflexivity.
      * exists (nth (n - 1) caps [] ++ a), b. rewrite <- app_assoc; reflexivity.
Qed.
Lemma table_containers : Forall (fun e => exists x, In x containers /\ tok_holds x (parse_template (snd e)) = true) regex_table.
Proof.
  apply Forall_forall. intros e He.
  assert (A : forallb (fun e => existsb (fun x => tok_holds x (parse_template (snd e))) containers) regex_table = true) by (vm_compute; reflexivity).
  rewrite forallb_forall in A. specialize (A e He). apply existsb_exists in A. exact A.
Qed.
Lemma sub_holds p t s s' x : tok_holds x t = true -> sub_spec p t s s' -> s' = s \/ holds x s'.
Proof.
  intros T [[_ H]|[a [m [z [caps [_ [H _]]]]]]]; [left; exact H|right]. destruct (tok_holds_expand x t caps T) as [u [v E]]. rewrite E in H.
  exists (a ++ u), (v ++ z). rewrite H, <- !app_assoc. reflexivity.
Qed.
Definition abbreviable (s : str) : Prop := In s (map fst std_typedef_map).
Section Keys.
  Context (fs : list (str -> str)).
  Hypothesis Hfs : regex_engine fs.
  Lemma engine_keys : forall f, In f fs -> forall s, f s = s \/ ~ abbreviable (f s).
  Proof.
    intros f Hf s. destruct (engine_entry _ _ Hfs Hf) as [e [He H]].
    destruct (proj1 (Forall_forall _ _) table_containers e He) as [x [X1 X2]].
    destruct (sub_holds _ _ _ _ x X2 (H s)) as [E|E]; [left; exact E|right]. intros K. exact (keys_no_container _ x K X1 E).
  Qed.
  Lemma pass_keys l : incl l fs -> forall s, ~ abbreviable s -> ~ abbreviable (fold_left (fun r f => f r) l s).
  Proof.
    induction l as [|f l IH]; intros I s N; [exact N|]. cbn [fold_left]. apply IH; [intros g Hg; apply I; right; exact Hg|].
    destruct (engine_keys f (I f (or_introl eq_refl)) s) as [E|E]; [rewrite E; exact N|exact E].
  Qed.
  Lemma iter_keys k s : ~ abbreviable s -> ~ abbreviable (Nat.iter k (pass fs) s).
  Proof. intros N. induction k as [|k IH]; [exact N|]. cbn [Nat.iter]. apply (pass_keys fs (fun _ H => H)), IH. Qed.
End Keys.

(** The loop of [simplify_std_class_name_raw] always ends. *)
Lemma simplify_total fs : regex_engine fs -> forall s, simplify_opt fs s <> None.
Proof.
  intros H s. unfold simplify_opt. destruct (lookup s std_typedef_map); [discriminate|].
  destruct (loop_spec fs H (S (length s)) s 0) as [r [R _]]; [lia| |rewrite R; discriminate].
  intros L. destruct s; [|discriminate L]. apply (final_nil fs H).
Qed.
Lemma simplify_final fs : regex_engine fs -> forall s, let r := simplify_std_class_name fs s in
  final_name fs r /\ ~ abbreviable r /\ (abbreviable s \/ exists k, r = Nat.iter k (pass fs) s).
Proof.
  intros H s. cbv zeta. unfold simplify_std_class_name, simplify_opt. destruct (lookup s std_typedef_map) as [r|] eqn:E.
  - apply lookup_In in E. pose proof (in_map snd _ _ E) as E2. cbn [snd] in E2. pose proof (in_map fst _ _ E) as E3. cbn [fst] in E3.
    assert (A : forallb (fun r => forallb (fun x => match find0 x r with None => true | _ => false end) [$"<"] && negb (mem r (map fst std_typedef_map))) (map snd std_typedef_map) = true) by (vm_compute; reflexivity).
    rewrite forallb_forall in A. specialize (A r E2). cbv beta in A. apply andb_prop in A. destruct A as [A1 A2].
    split; [|split; [apply mem_false, negb_true_iff, A2|left; exact E3]].
    cbn [forallb] in A1. destruct (find0 $"<" r) eqn:F0; [discriminate A1|]. clear A1 E E2 E3.
    (* no '<', so nothing can match *)
    apply holds_find in F0. intros f Hf.
    destruct (engine_entry _ _ H Hf) as [e [He H1]].
    assert (G1 : In (Chr "<"%char) (parse_regex (fst e))).
    { assert (B : forallb (fun e => existsb (fun k => match k with Chr c => Ascii.eqb c "<" | _ => false end) (parse_regex (fst e))) regex_table = true) by (vm_compute; reflexivity).
      rewrite forallb_forall in B. specialize (B e He). apply existsb_exists in B. destruct B as [[c| | |n] [B1 B2]]; try discriminate B2. apply Ascii.eqb_eq in B2. subst; exact B1. }
    destruct (H1 r) as [[_ X]|[a [m [z [caps [[X M] _]]]]]]; [exact X|]. exfalso. apply F0.
    assert (I : In "<"%char m).
    { clear -M G1. induction M; [destruct G1| | | |].
      - destruct G1 as [G1|G1]; [injection G1 as ->; left; reflexivity|right; exact (IHM G1)].
      - destruct G1 as [G1|G1]; [discriminate|apply in_or_app; right; exact (IHM G1)].
      - destruct G1 as [G1|G1]; [discriminate|apply in_or_app; right; exact (IHM G1)].
      - destruct G1 as [G1|G1]; [discriminate|apply in_or_app; right; exact (IHM G1)]. }
    apply in_split in I. destruct I as [u [v ->]]. exists (a ++ u), (v ++ z). rewrite X, <- !app_assoc. reflexivity.
  - apply lookup_None in E. destruct (loop_spec fs H (S (length s)) s 0) as [r [R1 [R2 [k R3]]]]; [lia| |].
    { intros L. destruct s; [|discriminate L]. apply (final_nil fs H). }
    rewrite R1. split; [exact R2|split; [|right; exists k; exact R3]]. rewrite R3. apply (iter_keys fs H), E.
Qed.
Lemma simplify_idempotent fs : regex_engine fs -> forall s, simplify_std_class_name fs (simplify_std_class_name fs s) = simplify_std_class_name fs s.
Proof.
  intros H s. destruct (simplify_final fs H s) as [F [K _]]. set (r := simplify_std_class_name fs s) in *. unfold simplify_std_class_name, simplify_opt.
  apply lookup_None in K. rewrite K, (final_loop fs r (length r) F). reflexivity.
Qed.
