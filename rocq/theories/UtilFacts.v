(** Proofs about Util.v. *)
From Coq Require Import Ascii String Bool Arith NArith ZArith Lia.
From Coq Require Import List.
From Verif Require Import Str StrFacts Util SpecUtil.
Import ListNotations.

(** ** replace *)
Lemma prefixb_occurs p s i : i <= length s -> prefixb p (skipn i s) = true <-> occurs_at p s i.
Proof.
  intros Hi; rewrite prefixb_iff; split.
  - intros [r Hr]; exists (firstn i s), r; rewrite <- Hr, firstn_skipn, firstn_length, Nat.min_l; auto.
  - intros [a [b [-> <-]]]; exists b; apply skipn_app_exact.
Qed.
Lemma find0_none_occurs p s : find0 p s = None -> ~ occurs p s.
Proof.
  intros H [i [a [b [E Hl]]]].
  assert (i <= length s) by (subst s; rewrite app_length; lia).
  assert (prefixb p (skipn i s) = true) by (apply prefixb_occurs; [assumption|exists a, b; auto]).
  rewrite (find0_None p s H i) in *; congruence.
Qed.
Lemma find0_some_first p s i : find0 p s = Some i ->
  exists a b, s = a ++ p ++ b /\ length a = i /\ forall j, j < i -> ~ occurs_at p s j.
Proof.
  intros H; pose proof (find0_decomp p s i H) as Hd; apply find0_Some in H as [Hl [_ Hf]].
  exists (firstn i s), (skipn (i + length p) s); split; [exact Hd|split; [rewrite firstn_length; lia|]].
  intros j Hj Ho; apply prefixb_occurs in Ho; [rewrite Hf in Ho; [discriminate|exact Hj]|lia].
Qed.

Lemma replace_loop_spec from to : from <> [] -> forall fuel done s,
  length s < fuel ->
  exists r, replace_loop fuel (done ++ s) from to (length done) = Some (done ++ r) /\ leftmost_replaced from to s r.
Proof.
  intros Hne; induction fuel as [|fuel IH]; intros done s Hf; [lia|]; cbn [replace_loop].
  rewrite find_at_end; destruct (find0 from s) as [i|] eqn:E; cbn [option_map].
  - apply find0_some_first in E as [a [b [-> [<- Hfst]]]].
    rewrite <- app_length, app_assoc, splice_at.
    destruct (IH (done ++ a ++ to) b) as [r [Hr Hs]].
    { rewrite !app_length in Hf; destruct from; [contradiction|]; simpl in Hf; lia. }
    exists (a ++ to ++ r); split; [|apply LR_some; assumption].
    rewrite !app_length in Hr; rewrite app_length.
    replace (length done + length a + length to) with (length done + (length a + length to)) by lia.
    rewrite <- !app_assoc in *; exact Hr.
  - exists s; split; [reflexivity|apply LR_none, find0_none_occurs, E].
Qed.
Lemma leftmost_det from to s r1 : leftmost_replaced from to s r1 -> from <> [] ->
  forall r2, leftmost_replaced from to s r2 -> r1 = r2.
Proof.
  induction 1 as [s Hn|a b r Hf Hr IH]; intros Hne r2 H2.
  - inversion H2 as [s' Hn'|a' b' r' Hf' Hr']; subst; [reflexivity|].
    exfalso; apply Hn; exists (length a'), a', b'; auto.
  - inversion H2 as [s' Hn'|a' b' r' Hf' Hr' E]; subst.
    + exfalso; apply Hn'; exists (length a), a, b; auto.
    + assert (length a = length a') as Hl.
      { destruct (Nat.lt_trichotomy (length a) (length a')) as [L|[L|L]]; [|exact L|].
        - exfalso; apply (Hf' (length a) L); exists a, b; auto.
        - exfalso; apply (Hf (length a') L); exists a', b'; auto. }
      assert (a = a') as <-.
      { apply (f_equal (firstn (length a))) in E; rewrite firstn_app_exact in E; rewrite Hl, firstn_app_exact in E; auto. }
      apply app_inv_head in E; apply app_inv_head in E; subst b'.
      rewrite (IH Hne r' Hr'); reflexivity.
Qed.
Lemma replace_total s from to : from <> [] -> forall fuel, length s < fuel ->
  exists r, replace_loop fuel s from to 0 = Some r /\ (forall r', leftmost_replaced from to s r' <-> r' = r).
Proof.
  intros Hne fuel Hf; destruct (replace_loop_spec from to Hne fuel [] s Hf) as [r [H1 H2]].
  exists r; split; [exact H1|]; intros r'; split; [intros H; symmetry; eapply leftmost_det; eassumption|intros ->; exact H2].
Qed.
Lemma replace_spec s from to : from <> [] -> forall r, leftmost_replaced from to s r <-> r = replace s from to.
Proof.
  intros Hne; unfold replace, replace_opt.
  destruct (replace_total s from to Hne (S (length s)) (Nat.lt_succ_diag_r _)) as [r [-> H]]; exact H.
Qed.
Lemma replace_empty_diverges s to : forall fuel, replace_loop fuel s [] to 0 = None.
Proof.
  assert (H : forall fuel a s, replace_loop fuel (a ++ s) [] to (length a) = None).
  { induction fuel as [|fuel IH]; intros a t; cbn [replace_loop]; [reflexivity|].
    rewrite find_at_end; cut (find0 [] t = Some 0); [intros ->|destruct t; reflexivity]; cbn [option_map].
    rewrite Nat.add_0_r; change t with ([] ++ t) at 1; rewrite (splice_at a [] t to).
    rewrite app_assoc, <- app_length; apply IH. }
  intros fuel; exact (H fuel [] s).
Qed.
(** Replacement of a single character is a character-wise substitution. *)
Lemma replace_char s c to : replace s [c] to = flat_map (fun x => if Ascii.eqb x c then to else [x]) s.
Proof.
  symmetry; apply (replace_spec s [c] to); [discriminate|].
  assert (H : forall n s, length s <= n -> leftmost_replaced [c] to s (flat_map (fun x => if Ascii.eqb x c then to else [x]) s)).
  { induction n as [|n IH]; intros t Ht.
    - destruct t; [|simpl in Ht; lia]; apply LR_none; intros [i [a [b [E _]]]]; destruct a; discriminate.
    - destruct (find0 [c] t) as [i|] eqn:E.
      + apply find0_some_first in E as [a [b [-> [<- Hf]]]].
        assert (Ha : flat_map (fun x => if Ascii.eqb x c then to else [x]) a = a).
        { assert (Hc : ~ In c a).
          { intros Hi; apply in_split in Hi as [a1 [a2 ->]]; apply (Hf (length a1)); [rewrite app_length; simpl; lia|].
            exists a1, (a2 ++ [c] ++ b); rewrite <- app_assoc; auto. }
          clear -Hc; induction a as [|x a IH]; simpl; [reflexivity|].
          destruct (Ascii.eqb_spec x c) as [->|]; [simpl in Hc; tauto|simpl; f_equal; apply IH; simpl in Hc; tauto]. }
        rewrite flat_map_app, Ha; cbn [flat_map app]; rewrite Ascii.eqb_refl.
        apply (LR_some [c] to a b); [exact Hf|apply IH; rewrite app_length in Ht; simpl in Ht; lia].
      + apply find0_none_occurs in E.
        assert (Ha : flat_map (fun x => if Ascii.eqb x c then to else [x]) t = t).
        { assert (Hc : ~ In c t).
          { intros Hi; apply in_split in Hi as [a1 [a2 ->]]; apply E; exists (length a1), a1, a2; auto. }
          clear -Hc; induction t as [|x a IH]; simpl; [reflexivity|].
          destruct (Ascii.eqb_spec x c) as [->|]; [simpl in Hc; tauto|simpl; f_equal; apply IH; simpl in Hc; tauto]. }
        rewrite Ha; apply LR_none; exact E. }
  apply (H (length s)); apply le_n.
Qed.

(** ** split, indent *)
Lemma split_loop_char c rest line lines :
  ~ In c line ->
  exists terminated last,
    line ++ rest = concat (map (fun p => p ++ [c]) terminated) ++ last /\
    (forall p, In p (last :: terminated) -> ~ In c p) /\
    split_loop [c] rest line lines = lines ++ terminated ++ (match last with [] => [] | _ => [last] end).
Proof.
  revert line lines; induction rest as [|x rest IH]; intros line lines Hl; cbn [split_loop].
  - exists [], line; split; [simpl; rewrite app_nil_r; reflexivity|split].
    + intros p [<-|[]]; exact Hl.
    + destruct line; simpl; [rewrite app_nil_r|]; reflexivity.
  - cbn [length firstn streqb andb]; rewrite andb_true_r; destruct (Ascii.eqb_spec x c) as [->|Hn].
    + destruct (IH [] (lines ++ [line])) as [t [l [E [Hp ->]]]]; [simpl; tauto|].
      exists (line :: t), l; split; [|split].
      * simpl; rewrite <- !app_assoc; simpl in E; rewrite E; reflexivity.
      * intros p [<-|[<-|Hi]]; [apply Hp; left; reflexivity|exact Hl|apply Hp; right; exact Hi].
      * rewrite <- app_assoc; reflexivity.
    + destruct (IH (line ++ [x]) lines) as [t [l [E [Hp ->]]]].
      { rewrite in_app_iff; simpl; intuition congruence. }
      exists t, l; split; [|split; [exact Hp|reflexivity]].
      rewrite <- E, <- app_assoc; reflexivity.
Qed.
Lemma split_pieces c s : pieces_of c s (split s [c]).
Proof.
  destruct (split_loop_char c s [] []) as [t [l [E [Hp H]]]]; [simpl; tauto|].
  exists t, l; split; [exact E|split; [exact Hp|exact H]].
Qed.
Lemma terminated_det c (t1 : list str) (r1 : str) (t2 : list str) (r2 : str) :
  (forall p, In p (r1 :: t1) -> ~ In c p) -> (forall p, In p (r2 :: t2) -> ~ In c p) ->
  concat (map (fun p => p ++ [c]) t1) ++ r1 = concat (map (fun p => p ++ [c]) t2) ++ r2 -> t1 = t2 /\ r1 = r2.
Proof.
  assert (Hcut : forall a b x y : str, ~ In c a -> ~ In c b -> a ++ c :: x = b ++ c :: y -> a = b /\ x = y).
  { induction a as [|z a IH]; intros [|w b] x y Ha Hb E; simpl in *.
    - injection E as ->; auto.
    - injection E as <- _; tauto.
    - injection E as -> _; tauto.
    - injection E as -> E; destruct (IH b x y) as [-> ->]; try tauto; auto. }
  revert t2; induction t1 as [|p t1 IH]; intros t2 H1 H2 E.
  - destruct t2 as [|q t2]; [split; [reflexivity|exact E]|].
    exfalso; simpl in E; subst r1; apply (H1 ((q ++ [c]) ++ concat (map (fun p => p ++ [c]) t2) ++ r2)).
    + left; rewrite <- app_assoc; reflexivity.
    + rewrite !in_app_iff; simpl; tauto.
  - destruct t2 as [|q t2].
    + exfalso; simpl in E; subst r2; apply (H2 ((p ++ [c]) ++ concat (map (fun p => p ++ [c]) t1) ++ r1)).
      * left; rewrite <- app_assoc; reflexivity.
      * rewrite !in_app_iff; simpl; tauto.
    + simpl in E; rewrite <- !app_assoc in E; simpl in E; apply Hcut in E as [-> E].
      * destruct (IH t2) as [-> ->]; [| |exact E|auto].
        { intros z [<-|Hz]; apply H1; simpl; auto. }
        { intros z [<-|Hz]; apply H2; simpl; auto. }
      * apply H1; simpl; auto.
      * apply H2; simpl; auto.
Qed.
Lemma pieces_det c s l1 l2 : pieces_of c s l1 -> pieces_of c s l2 -> l1 = l2.
Proof.
  intros [t1 [r1 [E1 [H1 ->]]]] [t2 [r2 [E2 [H2 ->]]]]; rewrite E1 in E2.
  apply terminated_det in E2 as [-> ->]; auto.
Qed.
Lemma split_char_iff c s l : pieces_of c s l <-> l = split s [c].
Proof. split; [intros H; eapply pieces_det; [exact H|apply split_pieces]|intros ->; apply split_pieces]. Qed.
Lemma split_no_char c s p : In p (split s [c]) -> ~ In c p.
Proof.
  destruct (split_pieces c s) as [t [r [_ [H ->]]]]; intros Hi; apply in_app_or in Hi as [Hi|Hi].
  - apply H; right; exact Hi.
  - apply H; left; destruct r; simpl in Hi; [tauto|destruct Hi as [<-|[]]; reflexivity].
Qed.
(** A text built from [c]-terminated pieces splits into these pieces. *)
Lemma split_terminated c (ls : list str) : (forall p, In p ls -> ~ In c p) ->
  split (concat (map (fun p => p ++ [c]) ls)) [c] = ls.
Proof.
  intros H; symmetry; apply split_char_iff; exists ls, []; split; [rewrite app_nil_r; reflexivity|split].
  - intros p [<-|Hp]; [simpl; tauto|auto].
  - rewrite app_nil_r; reflexivity.
Qed.
Lemma split_join_char c s : (forall s', s <> s' ++ [c]) -> join [c] (split s [c]) = s.
Proof.
  destruct (split_pieces c s) as [t [r [E [H ->]]]]; intros Hn.
  assert (Hj : forall t r, join [c] (t ++ [r]) = concat (map (fun p => p ++ [c]) t) ++ r).
  { clear; induction t as [|p t IH]; intros r; simpl; [reflexivity|].
    destruct t as [|q t]; [simpl; rewrite <- !app_assoc; reflexivity|].
    specialize (IH r); cbn [app map concat] in *; rewrite IH, <- !app_assoc; reflexivity. }
  destruct r as [|x r]; [|rewrite Hj; symmetry; exact E].
  destruct t as [|p t] using rev_ind; [simpl in E; subst; reflexivity|].
  exfalso; rewrite app_nil_r, map_app, concat_app in E; simpl in E; rewrite app_nil_r, app_assoc in E; exact (Hn _ E).
Qed.

Definition indent_line (ind l : str) : str := match l with [] => [] | _ => ind ++ l end.
Lemma indent_concat code ind :
  indent code ind = concat (map (fun l => indent_line ind l ++ [nl]) (split code [nl])).
Proof.
  unfold indent; generalize (split code [nl]); intros ls.
  assert (H : forall ls acc, fold_left (fun r l => r ++ (match l with [] => l ++ [nl] | _ => ind ++ l ++ [nl] end)) ls acc
                             = acc ++ concat (map (fun l => indent_line ind l ++ [nl]) ls)).
  { clear; induction ls as [|l ls IH]; intros acc; simpl; [rewrite app_nil_r; reflexivity|].
    rewrite IH, <- app_assoc; f_equal; f_equal; destruct l; simpl; [reflexivity|rewrite <- app_assoc; reflexivity]. }
  apply H.
Qed.
Lemma indent_lines code ind : ~ In nl ind ->
  split (indent code ind) [nl] = map (indent_line ind) (split code [nl]).
Proof.
  intros Hi; rewrite indent_concat.
  rewrite <- (map_map (indent_line ind) (fun l => l ++ [nl])), split_terminated; [reflexivity|].
  intros p Hp; apply in_map_iff in Hp as [l [<- Hl]]; apply split_no_char in Hl.
  destruct l; [exact Hl|]; unfold indent_line; rewrite in_app_iff; tauto.
Qed.

(** ** trim *)
Lemma blank_test c : existsb (Ascii.eqb c) [sp; tab] = true <-> blank c.
Proof.
  unfold blank; simpl; rewrite !orb_true_iff, !Ascii.eqb_eq; intuition congruence.
Qed.
Lemma first_not_of_None s : find_first_not_of s [sp; tab] = None -> Forall blank s.
Proof.
  induction s as [|c s IH]; cbn [find_first_not_of]; [constructor|].
  destruct (existsb (Ascii.eqb c) [sp; tab]) eqn:E; [|discriminate].
  destruct (find_first_not_of s [sp; tab]); [discriminate|]; intros _; constructor; [apply blank_test; exact E|auto].
Qed.
Lemma first_not_of_Some s i : find_first_not_of s [sp; tab] = Some i ->
  exists a c r, s = a ++ c :: r /\ length a = i /\ Forall blank a /\ ~ blank c.
Proof.
  revert i; induction s as [|c s IH]; intros i; cbn [find_first_not_of]; [discriminate|].
  destruct (existsb (Ascii.eqb c) [sp; tab]) eqn:E.
  - destruct (find_first_not_of s [sp; tab]) as [k|]; [|discriminate]; intros H; injection H as <-.
    destruct (IH k eq_refl) as [a [x [r [-> [<- [Ha Hx]]]]]].
    exists (c :: a), x, r; split; [reflexivity|split; [reflexivity|split; [|exact Hx]]].
    constructor; [apply blank_test; exact E|exact Ha].
  - intros H; injection H as <-; exists [], c, s; split; [reflexivity|split; [reflexivity|split; [constructor|]]].
    rewrite <- blank_test, E; discriminate.
Qed.
Lemma last_not_of_None s : find_last_not_of s [sp; tab] = None -> Forall blank s.
Proof.
  induction s as [|c s IH]; cbn [find_last_not_of]; [constructor|].
  destruct (find_last_not_of s [sp; tab]); [discriminate|].
  destruct (existsb (Ascii.eqb c) [sp; tab]) eqn:E; [|discriminate].
  intros _; constructor; [apply blank_test; exact E|auto].
Qed.
Lemma last_not_of_Some s i : find_last_not_of s [sp; tab] = Some i ->
  exists a c b, s = a ++ c :: b /\ length a = i /\ Forall blank b /\ ~ blank c.
Proof.
  revert i; induction s as [|c s IH]; intros i; cbn [find_last_not_of]; [discriminate|].
  destruct (find_last_not_of s [sp; tab]) as [k|] eqn:Ek.
  - intros H; injection H as <-; destruct (IH k eq_refl) as [a [x [r [-> [<- [Ha Hx]]]]]].
    exists (c :: a), x, r; auto.
  - destruct (existsb (Ascii.eqb c) [sp; tab]) eqn:E; [discriminate|].
    intros H; injection H as <-; exists [], c, s; split; [reflexivity|split; [reflexivity|split]].
    + apply last_not_of_None; exact Ek.
    + rewrite <- blank_test, E; discriminate.
Qed.
Lemma trimmed_nil s : Forall blank s -> trimmed s [].
Proof.
  intros H; exists s, []; split; [rewrite app_nil_r; reflexivity|split; [exact H|split; [constructor|]]].
  split; [discriminate|intros c t' E; destruct t'; discriminate].
Qed.
Lemma trim_trimmed s : trimmed s (trim s).
Proof.
  unfold trim; destruct (find_first_not_of s [sp; tab]) as [i|] eqn:E1.
  - destruct (find_last_not_of s [sp; tab]) as [j|] eqn:E2.
    + apply first_not_of_Some in E1 as [a [c [r [Hs [<- [Ha Hc]]]]]].
      apply last_not_of_Some in E2 as [a' [c' [b [Hs' [<- [Hb Hc']]]]]].
      assert (Hlen : length a <= length a').
      { destruct (le_lt_dec (length a) (length a')) as [L|L]; [exact L|exfalso].
        assert (E : nth_error s (length a') = Some c') by (rewrite Hs', nth_error_app2, Nat.sub_diag by lia; reflexivity).
        rewrite Hs, nth_error_app1 in E by exact L.
        apply nth_error_In in E; rewrite Forall_forall in Ha; auto. }
      assert (Hmid : exists m, a' = a ++ m).
      { exists (skipn (length a) a'); rewrite <- (firstn_skipn (length a) a') at 1; f_equal.
        apply (f_equal (firstn (length a))) in Hs; rewrite firstn_app_exact in Hs.
        rewrite Hs', firstn_app in Hs; replace (length a - length a') with 0 in Hs by lia.
        rewrite firstn_O, app_nil_r in Hs; exact Hs. }
      destruct Hmid as [m ->].
      replace (length (a ++ m) - length a + 1) with (length (m ++ [c'])) by (rewrite !app_length; simpl; lia).
      unfold substr; rewrite Hs', <- app_assoc, skipn_app_exact.
      replace (m ++ c' :: b) with ((m ++ [c']) ++ b) by (rewrite <- app_assoc; reflexivity).
      rewrite firstn_app_exact.
      exists a, b; split; [rewrite <- !app_assoc; reflexivity|split; [exact Ha|split; [exact Hb|split]]].
      * intros x t' Ht; rewrite Hs in Hs'; rewrite <- app_assoc in Hs'; apply app_inv_head in Hs'.
        destruct m as [|y m]; simpl in Ht, Hs'; congruence.
      * intros x t' Ht; apply app_inj_tail in Ht as [_ <-]; exact Hc'.
    + apply last_not_of_None in E2; apply trimmed_nil; exact E2.
  - apply trimmed_nil, first_not_of_None, E1.
Qed.
Lemma blank_strip_unique a1 x1 a2 x2 : Forall blank a1 -> Forall blank a2 ->
  (forall c t, x1 = c :: t -> ~ blank c) -> (forall c t, x2 = c :: t -> ~ blank c) ->
  x1 <> [] -> x2 <> [] -> a1 ++ x1 = a2 ++ x2 -> x1 = x2.
Proof.
  intros H1 H2 N1 N2 E1 E2; revert a2 H2; induction H1 as [|c a1 Hc Ha IH]; intros a2 H2 E.
  - destruct H2 as [|d a2 Hd H2]; [exact E|]; simpl in E; exfalso; exact (N1 d _ E Hd).
  - destruct H2 as [|d a2 Hd H2]; [simpl in E; exfalso; exact (N2 c _ (eq_sym E) Hc)|].
    injection E as _ E; exact (IH a2 H2 E).
Qed.
Lemma trimmed_blank s t : trimmed s t -> Forall blank s -> t = [].
Proof.
  intros [a [b [-> [_ [_ [Hf _]]]]]] H; destruct t as [|c t]; [reflexivity|].
  exfalso; apply (Hf c t eq_refl); rewrite Forall_forall in H; apply H; rewrite !in_app_iff; simpl; tauto.
Qed.
Lemma trimmed_nil_blank s : trimmed s [] -> Forall blank s.
Proof. intros [a [b [-> [Ha [Hb _]]]]]; apply Forall_app; auto. Qed.
Lemma trimmed_det s t1 t2 : trimmed s t1 -> trimmed s t2 -> t1 = t2.
Proof.
  intros H1 H2; destruct t1 as [|c1 t1]; [symmetry; eapply trimmed_blank; [exact H2|apply trimmed_nil_blank; exact H1]|].
  destruct t2 as [|c2 t2]; [eapply trimmed_blank; [exact H1|apply trimmed_nil_blank; exact H2]|].
  destruct H1 as [a1 [b1 [-> [Ha1 [Hb1 [F1 L1]]]]]], H2 as [a2 [b2 [E [Ha2 [Hb2 [F2 L2]]]]]].
  apply blank_strip_unique in E; auto; try discriminate.
  2: { intros c t Ht; simpl in Ht; injection Ht as <- _; eapply F1; reflexivity. }
  2: { intros c t Ht; simpl in Ht; injection Ht as <- _; eapply F2; reflexivity. }
  apply (f_equal (@rev ascii)) in E; rewrite !rev_app_distr in E.
  apply (f_equal (@rev ascii)) in E.
  assert (E' : rev b1 ++ rev (c1 :: t1) = rev b2 ++ rev (c2 :: t2)).
  { rewrite <- !rev_app_distr; f_equal; rewrite !rev_app_distr, !rev_involutive in E; exact E. }
  apply blank_strip_unique in E'.
  - rewrite <- (rev_involutive (c1 :: t1)), E', rev_involutive; reflexivity.
  - apply Forall_rev; exact Hb1.
  - apply Forall_rev; exact Hb2.
  - intros c t Ht; apply (L1 c (rev t)); rewrite <- (rev_involutive (c1 :: t1)), Ht; reflexivity.
  - intros c t Ht; apply (L2 c (rev t)); rewrite <- (rev_involutive (c2 :: t2)), Ht; reflexivity.
  - intros H; apply (f_equal (@rev ascii)) in H; rewrite rev_involutive in H; discriminate.
  - intros H; apply (f_equal (@rev ascii)) in H; rewrite rev_involutive in H; discriminate.
Qed.
Lemma trim_iff s t : trimmed s t <-> t = trim s.
Proof. split; [intros H; eapply trimmed_det; [exact H|apply trim_trimmed]|intros ->; apply trim_trimmed]. Qed.
Lemma trim_idem s : trim (trim s) = trim s.
Proof.
  symmetry; apply trim_iff; destruct (trim_trimmed s) as [a [b [_ [_ [_ [F L]]]]]].
  exists [], []; rewrite app_nil_r; auto.
Qed.

(** ** documentation strings *)
Definition esc1 (x : ascii) : str :=
  if Ascii.eqb x bs then [bs; bs] else if Ascii.eqb x dq then [bs; dq] else if Ascii.eqb x nl then [bs; "n"%char] else [x].
Lemma escape_text_flat t : escape_text t = flat_map esc1 t.
Proof.
  unfold escape_text; rewrite !replace_char.
  induction t as [|x t IH]; cbn [flat_map]; [reflexivity|].
  rewrite !flat_map_app, IH; f_equal; unfold esc1.
  destruct (Ascii.eqb_spec x bs) as [->|H1]; [reflexivity|cbn [flat_map app]].
  destruct (Ascii.eqb_spec x dq) as [->|H2]; [reflexivity|cbn [flat_map app]].
  destruct (Ascii.eqb_spec x nl) as [->|H3]; reflexivity.
Qed.
Lemma read_escape t : read_literal (escape_text t) = Some t.
Proof.
  rewrite escape_text_flat; induction t as [|x t IH]; [reflexivity|]; cbn [flat_map]; unfold esc1 at 1.
  destruct (Ascii.eqb_spec x bs) as [->|H1]; [simpl; rewrite IH; reflexivity|].
  destruct (Ascii.eqb_spec x dq) as [->|H2]; [simpl; rewrite IH; reflexivity|].
  destruct (Ascii.eqb_spec x nl) as [->|H3]; [simpl; rewrite IH; reflexivity|].
  cbn [app read_literal]; apply Ascii.eqb_neq in H1, H2, H3; rewrite H1, H2, H3; cbn [orb]; rewrite IH; reflexivity.
Qed.
Lemma skip_leading_spec s : without_leading s (skip_leading s).
Proof.
  induction s as [|c s IH]; cbn [skip_leading]; [exists []; repeat split; try constructor; discriminate|].
  destruct (Ascii.eqb_spec c sp) as [->|H1]; simpl.
  - destruct IH as [a [E [Ha H]]]; exists (sp :: a); split; [simpl; f_equal; exact E|split; [constructor; auto|exact H]].
  - destruct (Ascii.eqb_spec c nl) as [->|H2]; simpl.
    + destruct IH as [a [E [Ha H]]]; exists (nl :: a); split; [simpl; f_equal; exact E|split; [constructor; auto|exact H]].
    + exists []; split; [reflexivity|split; [constructor|]]; intros d t' E; injection E as <- _; auto.
Qed.
Lemma without_leading_det s t1 t2 : without_leading s t1 -> without_leading s t2 -> t1 = t2.
Proof.
  intros [a1 [-> [H1 F1]]] [a2 [E [H2 F2]]]; revert a2 H2 E; induction H1 as [|c a1 Hc H1 IH]; intros a2 H2 E.
  - destruct H2 as [|d a2 Hd H2]; [exact E|]; simpl in E; destruct (F1 d _ E); tauto.
  - destruct H2 as [|d a2 Hd H2]; [simpl in E; destruct (F2 c _ (eq_sym E)); tauto|].
    injection E as _ E; exact (IH a2 H2 E).
Qed.

(** ** mangle_type_name *)
(** The loop as a structural function: [u] tells whether the text produced so
    far ends with an underscore. *)
Fixpoint mangled (u : bool) (name : str) : str :=
  match name with
  | [] => []
  | c :: name' =>
      if mangled_punct c then (if u then mangled true name' else "_"%char :: mangled true name')
      else c :: mangled (Ascii.eqb c "_") name'
  end.
Lemma last_is_snoc r c d : last_is (r ++ [c]) d = Ascii.eqb c d.
Proof. unfold last_is; rewrite rev_unit; reflexivity. Qed.
Lemma mangle_loop_eq name r t :
  mangle_loop name r t = (r ++ mangled (last_is r "_") name, t || existsb template_punct name).
Proof.
  revert r t; induction name as [|c name IH]; intros r t; cbn [mangle_loop mangled existsb].
  - rewrite app_nil_r, orb_false_r; reflexivity.
  - rewrite IH; f_equal; [|rewrite orb_assoc; reflexivity].
    destruct (mangled_punct c).
    + destruct (last_is r "_") eqn:E; [rewrite E; reflexivity|].
      change $"_" with ["_"%char]; rewrite last_is_snoc, <- app_assoc; reflexivity.
    + rewrite last_is_snoc, <- app_assoc; reflexivity.
Qed.
Lemma mangled_no_punct u name x : In x (mangled u name) -> mangled_punct x = false.
Proof.
  revert u; induction name as [|c name IH]; intros u; cbn [mangled]; [intros []|].
  destruct (mangled_punct c) eqn:E.
  - destruct u; [apply IH|intros [<-|H]; [reflexivity|eapply IH; exact H]].
  - intros [<-|H]; [exact E|eapply IH; exact H].
Qed.
Definition kept (c : ascii) : bool := negb (mangled_punct c) && negb (Ascii.eqb c "_").
Lemma mangled_kept u name : filter kept (mangled u name) = filter kept name.
Proof.
  revert u; induction name as [|c name IH]; intros u; cbn [mangled]; [reflexivity|].
  destruct (mangled_punct c) eqn:E.
  - cbn [filter]; unfold kept at 2; rewrite E; cbn [negb andb]; destruct u; [apply IH|cbn [filter]; apply IH].
  - cbn [filter]; rewrite IH; reflexivity.
Qed.
Lemma mangled_id u name : forallb (fun c => negb (mangled_punct c)) name = true -> mangled u name = name.
Proof.
  revert u; induction name as [|c name IH]; intros u; cbn [mangled forallb]; [reflexivity|].
  rewrite andb_true_iff, negb_true_iff; intros [-> H]; rewrite IH; auto.
Qed.
Lemma template_punct_mangled c : template_punct c = true -> mangled_punct c = true.
Proof.
  unfold template_punct, mangled_punct; simpl; rewrite !orb_true_iff, !Ascii.eqb_eq; tauto.
Qed.
Lemma mangle_eq name mark : mangle_type_name name mark =
  if existsb template_punct name && mark
  then flat_map (fun x => if Ascii.eqb x "&" then $"_ref_" else [x])
         (flat_map (fun x => if Ascii.eqb x "*" then $"_star_" else [x]) (mangled false name)) ++ $"t"
  else mangled false name.
Proof.
  unfold mangle_type_name; rewrite mangle_loop_eq; cbn [app orb]; change (last_is [] "_") with false.
  change $"*" with ["*"%char]; change $"&" with ["&"%char]; rewrite !replace_char; reflexivity.
Qed.
Lemma mangle_no_punct name mark x : In x (mangle_type_name name mark) -> mangled_punct x = false.
Proof.
  rewrite mangle_eq; destruct (existsb template_punct name && mark); [|apply mangled_no_punct].
  rewrite in_app_iff; intros [H|[<-|[]]]; [|reflexivity].
  apply in_flat_map in H as [y [Hy Hx]]; destruct (Ascii.eqb y "&").
  - simpl in Hx; decompose [or] Hx; subst; try reflexivity; contradiction.
  - destruct Hx as [<-|[]]; apply in_flat_map in Hy as [z [Hz Hy]]; destruct (Ascii.eqb z "*").
    + simpl in Hy; decompose [or] Hy; subst; try reflexivity; contradiction.
    + destruct Hy as [<-|[]]; eapply mangled_no_punct; exact Hz.
Qed.
Lemma mangle_no_star_ref name x : existsb template_punct name = true -> In x (mangle_type_name name true) -> x <> "*"%char /\ x <> "&"%char.
Proof.
  rewrite mangle_eq; intros ->; cbn [andb].
  rewrite in_app_iff; intros [H|[<-|[]]]; [|split; discriminate].
  apply in_flat_map in H as [y [Hy Hx]]; destruct (Ascii.eqb_spec y "&") as [->|Hn].
  - simpl in Hx; decompose [or] Hx; subst; try (split; discriminate); contradiction.
  - destruct Hx as [<-|[]]; split; [|exact Hn].
    apply in_flat_map in Hy as [z [Hz Hy]]; destruct (Ascii.eqb_spec z "*") as [->|Hm].
    + simpl in Hy; decompose [or] Hy; subst; try discriminate; contradiction.
    + destruct Hy as [<-|[]]; exact Hm.
Qed.
Lemma mangle_id name mark : forallb (fun c => negb (mangled_punct c)) name = true -> mangle_type_name name mark = name.
Proof.
  intros H; rewrite mangle_eq; replace (existsb template_punct name) with false; [apply mangled_id; exact H|].
  symmetry; apply not_true_is_false; rewrite existsb_exists; intros [c [Hc Ht]].
  apply template_punct_mangled in Ht; rewrite forallb_forall in H; rewrite (H c Hc) in Ht || specialize (H c Hc); rewrite Ht in H; discriminate.
Qed.
Lemma mangle_kept_nontemplate name mark : existsb template_punct name = false \/ mark = false ->
  filter kept (mangle_type_name name mark) = filter kept name.
Proof.
  intros H; rewrite mangle_eq; replace (existsb template_punct name && mark) with false; [apply mangled_kept|].
  destruct H as [-> | ->]; [reflexivity|rewrite andb_false_r; reflexivity].
Qed.

(** ** namespaces *)
Lemma rfind_None s p : rfind s p = None -> ~ occurs p s.
Proof.
  induction s as [|c s IH]; cbn [rfind].
  - destruct (prefixb p []) eqn:E; [discriminate|]; intros _ [i [a [b [H _]]]].
    destruct a; [|discriminate]; simpl in H; assert (prefixb p [] = true) by (apply prefixb_iff; exists b; exact H); congruence.
  - destruct (rfind s p) eqn:R; [discriminate|]; destruct (prefixb p (c :: s)) eqn:E; [discriminate|].
    intros _ [i [a [b [H _]]]]; destruct a as [|x a].
    + assert (prefixb p (c :: s) = true) by (apply prefixb_iff; exists b; exact H); congruence.
    + injection H as -> H; apply IH; [reflexivity|exists (length a), a, b; auto].
Qed.
Lemma rfind_Some s p i : rfind s p = Some i ->
  exists a b, s = a ++ p ++ b /\ length a = i /\ forall j, i < j -> ~ occurs_at p s j.
Proof.
  revert i; induction s as [|c s IH]; intros i; cbn [rfind].
  - destruct (prefixb p []) eqn:E; [|discriminate]; intros H; injection H as <-.
    apply prefixb_iff in E as [r E]; exists [], r; split; [exact E|split; [reflexivity|]].
    intros j Hj [a [b [H Hl]]]; destruct a; [simpl in Hl; lia|discriminate].
  - destruct (rfind s p) as [k|] eqn:R.
    + intros H; injection H as <-; destruct (IH k eq_refl) as [a [b [-> [<- Hl]]]].
      exists (c :: a), b; split; [reflexivity|split; [reflexivity|]].
      intros [|j] Hj Ho; [lia|]; apply (Hl j); [lia|].
      destruct Ho as [a' [b' [H Hlen]]]; destruct a' as [|x a']; [discriminate|]; injection H as <- H.
      exists a', b'; split; [exact H|simpl in Hlen; lia].
    + destruct (prefixb p (c :: s)) eqn:E; [|discriminate]; intros H; injection H as <-.
      apply prefixb_iff in E as [r E]; exists [], r; split; [exact E|split; [reflexivity|]].
      intros j Hj [a [b [H Hl]]]; destruct a as [|x a]; [simpl in Hl; lia|].
      injection H as -> H; apply (rfind_None s p R); exists (length a), a, b; auto.
Qed.
Lemma namespace_split ns : occurs $"::" ns ->
  ns = base_namespace ns ++ $"::" ++ last_namespace ns /\ ~ occurs $"::" (last_namespace ns).
Proof.
  intros Ho; unfold base_namespace, last_namespace; destruct (rfind ns $"::") as [i|] eqn:E.
  2: { exfalso; exact (rfind_None _ _ E Ho). }
  apply rfind_Some in E as [a [b [Hs [<- Hl]]]].
  assert (Hlast : substr ns (length a + 2) (length ns - length a - 2) = b).
  { unfold substr; rewrite Hs; rewrite !app_length; cbn [length app list_ascii_of_string].
    change (a ++ ":"%char :: ":"%char :: b) with (a ++ [":"%char; ":"%char] ++ b); rewrite app_assoc.
    replace (length a + 2) with (length (a ++ [":"%char; ":"%char])) by (rewrite app_length; reflexivity).
    rewrite skipn_app_exact; apply firstn_all2; lia. }
  rewrite Hlast; unfold substr at 1; cbn [skipn].
  rewrite Hs at 2; rewrite firstn_app_exact; split; [exact Hs|].
  intros [j [x [y [-> Hx]]]]; apply (Hl (length a + 2 + j)); [lia|].
  exists (a ++ $"::" ++ x), y; split; [rewrite Hs, <- !app_assoc; reflexivity|rewrite !app_length, <- Hx; simpl; lia].
Qed.
Lemma namespace_top ns : ~ occurs $"::" ns -> base_namespace ns = [] /\ last_namespace ns = ns.
Proof.
  intros Ho; unfold base_namespace, last_namespace; destruct (rfind ns $"::") as [i|] eqn:E; [|auto].
  apply rfind_Some in E as [a [b [Hs _]]]; exfalso; apply Ho; exists (length a), a, b; auto.
Qed.
Lemma base_namespace_shorter ns : ns <> [] -> length (base_namespace ns) < length ns.
Proof.
  intros Hn; unfold base_namespace; destruct (rfind ns $"::") as [i|] eqn:E.
  - apply rfind_Some in E as [a [b [-> [<- _]]]]; unfold substr; cbn [skipn]; rewrite firstn_app_exact, app_length; simpl; lia.
  - destruct ns; [contradiction|simpl; lia].
Qed.
Lemma namespace_from_names_app ns n : namespace_from_names (ns ++ $"::" ++ n) n = ns.
Proof.
  unfold namespace_from_names; rewrite !app_length.
  replace (Z.of_nat (length ns + (length $"::" + length n)) - Z.of_nat (length n))%Z with (Z.of_nat (length ns) + 2)%Z by (simpl (length $"::"); lia).
  destruct (Z.ltb_spec 1 (Z.of_nat (length ns) + 2)); [|lia].
  replace (Z.of_nat (length ns) + 2 - 2)%Z with (Z.of_nat (length ns)) by lia.
  destruct (Z.ltb_spec (Z.of_nat (length ns)) 0); [lia|].
  rewrite Nat2Z.id; unfold substr; cbn [skipn]; apply firstn_app_exact.
Qed.
Lemma namespace_from_names_self n : namespace_from_names n n = [].
Proof. unfold namespace_from_names; rewrite Z.sub_diag; reflexivity. Qed.

(** ** fix_boolean_types *)
Lemma word_char_boundary o : word_char o = false <-> boundary o.
Proof.
  unfold word_char, boundary, alnum; destruct o as [c|].
  - rewrite orb_false_iff; split.
    + intros [H1 H2] x E; injection E as <-; rewrite H1, H2; intros [H|H]; discriminate.
    + intros H; specialize (H c eq_refl); destruct (is_alpha c), (is_digit c); intuition.
  - split; [intros _ x E; discriminate|reflexivity].
Qed.
Definition prev_of (done : str) : option ascii := match rev done with [] => None | c :: _ => Some c end.
Lemma prev_of_snoc d c : prev_of (d ++ [c]) = Some c.
Proof. unfold prev_of; rewrite rev_unit; reflexivity. Qed.

Lemma bool_word_dec prev s : {bool_word prev s} + {~ bool_word prev s}.
Proof.
  destruct (prefixb B s) eqn:E.
  - destruct (negb (word_char prev) && negb (word_char (hd_error (skipn 5 s)))) eqn:F.
    + left; apply prefixb_iff in E as [r ->]; rewrite andb_true_iff, !negb_true_iff, !word_char_boundary in F.
      exists r; auto.
    + right; intros [r [-> [H1 H2]]]; apply word_char_boundary in H1, H2.
      change (skipn 5 ($"_Bool" ++ r)) with r in F; rewrite H1, H2 in F; discriminate.
  - right; intros [r [-> _]]; assert (prefixb B ($"_Bool" ++ r) = true) by (apply prefixb_iff; exists r; reflexivity); congruence.
Qed.
Lemma bool_word_prefix prev s : bool_word prev s -> prefixb B s = true.
Proof. intros [r [-> _]]; apply prefixb_iff; exists r; reflexivity. Qed.

(** Text without an occurrence start is copied. *)
Lemma bool_fixed_copy a : forall prev s r,
  (forall j, j < length a -> prefixb B (skipn j (a ++ s)) = false) ->
  bool_fixed (match a with [] => prev | _ => prev_of a end) s r ->
  bool_fixed prev (a ++ s) (a ++ r).
Proof.
  induction a as [|c a IH]; intros prev s r Hn H; [exact H|]; simpl.
  apply BF_other.
  - intros Hw; apply bool_word_prefix in Hw; specialize (Hn 0 (Nat.lt_0_succ _)).
    cbn [skipn app] in Hn; rewrite Hn in Hw; discriminate.
  - apply IH.
    + intros j Hj; exact (Hn (S j) (proj1 (Nat.succ_lt_mono _ _) Hj)).
    + destruct a as [|d a]; [exact H|].
      unfold prev_of in *; cbn [rev] in *.
      destruct (rev a ++ [d]) eqn:E; [destruct (rev a); discriminate|simpl in H; exact H].
Qed.

(** Overlap: after an occurrence at [i], none starts at [i+1..i+4]. *)
Lemma no_overlap rest j : 1 <= j < 5 -> prefixb B (skipn j (B ++ rest)) = false.
Proof.
  intros Hj; destruct j as [|[|[|[|[|j]]]]]; try lia; reflexivity.
Qed.
Lemma no_overlap_bool rest j : j < 4 -> prefixb B (skipn j ($"bool" ++ rest)) = false.
Proof. intros Hj; destruct j as [|[|[|[|j]]]]; try lia; reflexivity. Qed.

Lemma find0_skip p x s : (forall j, j < length x -> prefixb p (skipn j (x ++ s)) = false) ->
  find0 p (x ++ s) = option_map (fun i => length x + i) (find0 p s).
Proof.
  induction x as [|c x IH]; intros H; [simpl; destruct (find0 p s); reflexivity|].
  assert (H0 : prefixb p ((c :: x) ++ s) = false) by (apply (H 0); simpl; lia).
  cbn [app] in *; cbn [find0]; rewrite H0.
  rewrite IH; [destruct (find0 p s); reflexivity|].
  intros j Hj; apply (H (S j)); simpl; lia.
Qed.
Lemma find_skip (d x s : str) : (forall j, j < length x -> prefixb B (skipn j (x ++ s)) = false) ->
  find (d ++ x ++ s) B (length d) = find ((d ++ x) ++ s) B (length (d ++ x)).
Proof.
  intros H; rewrite !find_at_end, (find0_skip B x s H), app_length; destruct (find0 B s); simpl; [f_equal; lia|reflexivity].
Qed.

Lemma nth_error_prev (d : str) s j' : length d = S j' -> nth_error (d ++ s) j' = prev_of d.
Proof.
  intros Hl; destruct d as [|c d] using rev_ind; [discriminate|].
  rewrite app_length in Hl; simpl in Hl; rewrite prev_of_snoc, <- app_assoc, nth_error_app2 by lia.
  replace (j' - length d) with 0 by lia; reflexivity.
Qed.
Lemma prev_of_app_nonempty d a : a <> [] -> prev_of (d ++ a) = prev_of a.
Proof.
  intros H; destruct a as [|c a] using rev_ind; [contradiction|]; rewrite app_assoc, !prev_of_snoc; reflexivity.
Qed.
Lemma hd_error_nth (d : str) s : nth_error (d ++ s) (length d) = hd_error s.
Proof. rewrite nth_error_app2, Nat.sub_diag by lia; destruct s; reflexivity. Qed.

Lemma loop_skip fuel (d x s : str) : (forall j, j < length x -> prefixb B (skipn j (x ++ s)) = false) ->
  fix_boolean_loop (S fuel) (d ++ x ++ s) (length d) = fix_boolean_loop (S fuel) ((d ++ x) ++ s) (length (d ++ x)).
Proof.
  intros H; cbn [fix_boolean_loop]; rewrite (find_skip d x s H), (app_assoc d x s); reflexivity.
Qed.

Lemma fix_boolean_loop_spec : forall fuel done s,
  length s < fuel ->
  exists r, fix_boolean_loop fuel (done ++ s) (length done) = Some (done ++ r) /\ bool_fixed (prev_of done) s r.
Proof.
  induction fuel as [|fuel IH]; intros done s Hf; [lia|].
  destruct (find0 B s) as [i|] eqn:E.
  2: { cbn [fix_boolean_loop]; rewrite find_at_end, E; cbn [option_map]; exists s; split; [reflexivity|].
       rewrite <- (app_nil_r s); apply bool_fixed_copy; [|constructor].
       intros j Hj; rewrite app_nil_r; apply (find0_None B s E); lia. }
  pose proof (find0_Some B s i E) as [Hil [_ Hfirst]].
  pose proof (find0_decomp B s i E) as Hd; change (length B) with 5 in Hd.
  remember (firstn i s) as a eqn:Ha; remember (skipn (i + 5) s) as rest eqn:Hr.
  assert (Hla : length a = i) by (subst a; rewrite firstn_length; lia); clear Ha Hr.
  subst s; subst i.
  cbn [fix_boolean_loop]; rewrite find_at_end, E; cbn [option_map].
  rewrite <- app_length, app_assoc.
  (* boundary tests *)
  set (before_ok := match length (done ++ a) with 0 => true | S j' => negb (word_char (nth_error ((done ++ a) ++ B ++ rest) j')) end).
  set (after_ok := (length (done ++ a) + length B =? length ((done ++ a) ++ B ++ rest)) || negb (word_char (nth_error ((done ++ a) ++ B ++ rest) (length (done ++ a) + length B)))).
  assert (Hb : before_ok = true <-> boundary (prev_of (done ++ a))).
  { unfold before_ok; rewrite <- word_char_boundary; destruct (length (done ++ a)) as [|j'] eqn:El.
    - destruct (done ++ a); [split; reflexivity|discriminate].
    - rewrite (nth_error_prev _ _ j' El), negb_true_iff; reflexivity. }
  assert (Haft : after_ok = true <-> boundary (hd_error rest)).
  { unfold after_ok; rewrite <- app_length, (app_assoc _ B rest), hd_error_nth, <- word_char_boundary.
    rewrite orb_true_iff, negb_true_iff, Nat.eqb_eq, (app_length _ rest); split; [|auto].
    intros [H|H]; [|exact H]; destruct rest; [reflexivity|simpl in H; lia]. }
  assert (Hprev : prev_of (done ++ a) = match a with [] => prev_of done | _ => prev_of a end).
  { destruct a as [|c a']; [rewrite app_nil_r; reflexivity|apply prev_of_app_nonempty; discriminate]. }
  assert (Hcopy : forall r, bool_fixed (prev_of (done ++ a)) (B ++ rest) r -> bool_fixed (prev_of done) (a ++ B ++ rest) (a ++ r)).
  { intros r H; apply bool_fixed_copy; [exact Hfirst|rewrite <- Hprev; exact H]. }
  rewrite !app_length in Hf; change (length B) with 5 in Hf.
  destruct fuel as [|fuel]; [lia|].
  destruct (before_ok && after_ok) eqn:Eok.
  - apply andb_true_iff in Eok as [E1 E2]; apply Hb in E1; apply Haft in E2.
    rewrite splice_at.
    destruct (IH ((done ++ a) ++ $"bool") rest) as [r [H1 H2]]; [lia|].
    exists (a ++ $"bool" ++ r); split.
    + replace (S (length (done ++ a))) with (length ((done ++ a) ++ ["b"%char])) by (rewrite (app_length _ ["b"%char]); simpl; lia).
      change ($"bool" ++ rest) with (["b"%char] ++ ["o"%char; "o"%char; "l"%char] ++ rest); rewrite (app_assoc (done ++ a)).
      rewrite loop_skip; [|intros j Hj; apply (no_overlap_bool rest (S j)); simpl in Hj; lia].
      rewrite <- !app_assoc in *; cbn [app] in *; exact H1.
    + apply Hcopy; apply BF_word; [exists rest; auto|].
      change $"bool" with ($"boo" ++ ["l"%char]) in H2; rewrite (app_assoc _ $"boo"), prev_of_snoc in H2; exact H2.
  - assert (Hnw : ~ bool_word (prev_of (done ++ a)) (B ++ rest)).
    { intros [r [H [H1 H2]]]; apply app_inv_head in H; subst r; apply Hb in H1; apply Haft in H2; rewrite H1, H2 in Eok; discriminate. }
    destruct (IH ((done ++ a) ++ B) rest) as [r [H1 H2]]; [lia|].
    exists (a ++ B ++ r); split.
    + replace (S (length (done ++ a))) with (length ((done ++ a) ++ ["_"%char])) by (rewrite (app_length _ ["_"%char]); simpl; lia).
      change (B ++ rest) with (["_"%char] ++ ["B"%char; "o"%char; "o"%char; "l"%char] ++ rest); rewrite (app_assoc (done ++ a)).
      rewrite loop_skip; [|intros j Hj; apply (no_overlap rest (S j)); simpl in Hj; lia].
      rewrite <- !app_assoc in *; cbn [app] in *; exact H1.
    + apply Hcopy.
      change (B ++ rest) with ("_"%char :: ["B"%char; "o"%char; "o"%char; "l"%char] ++ rest) in *.
      change (B ++ r) with ("_"%char :: ["B"%char; "o"%char; "o"%char; "l"%char] ++ r).
      apply BF_other; [exact Hnw|]; apply bool_fixed_copy.
      * intros j Hj; apply (no_overlap rest (S j)); simpl in Hj; lia.
      * change B with ($"_Boo" ++ ["l"%char]) in H2; rewrite (app_assoc _ $"_Boo"), prev_of_snoc in H2; exact H2.
Qed.
Lemma bool_fixed_det prev s r1 : bool_fixed prev s r1 -> forall r2, bool_fixed prev s r2 -> r1 = r2.
Proof.
  induction 1 as [prev|prev rest r Hw H IH|prev c s r Hn H IH]; intros r2 H2.
  - inversion H2; reflexivity.
  - inversion H2 as [|? rest' r' Hw' H' E1 E2|? c s' r' Hn' H' E1 E2]; subst.
    + f_equal; apply IH; assumption.
    + exfalso; exact (Hn' Hw).
  - inversion H2 as [|? rest' r' Hw' H' E1 E2|? c' s' r' Hn' H' E1 E2]; subst.
    + exfalso; exact (Hn Hw').
    + f_equal; apply IH; assumption.
Qed.
Lemma fix_boolean_total s : forall fuel, length s < fuel ->
  exists r, fix_boolean_loop fuel s 0 = Some r /\ (forall r', bool_fixed None s r' <-> r' = r).
Proof.
  intros fuel Hf; destruct (fix_boolean_loop_spec fuel [] s Hf) as [r [H1 H2]].
  exists r; split; [exact H1|]; intros r'; split; [intros H; symmetry; eapply bool_fixed_det; eassumption|intros ->; exact H2].
Qed.
Lemma fix_boolean_spec s r : bool_fixed None s r <-> r = fix_boolean_types s.
Proof.
  unfold fix_boolean_types; destruct (fix_boolean_total s (S (length s)) (Nat.lt_succ_diag_r _)) as [r0 [-> H]]; apply H.
Qed.
Lemma bool_fixed_hd c s r : alnum c -> bool_fixed (Some c) s r -> hd_error r = hd_error s.
Proof.
  intros Hc H; inversion H as [|? rest r' Hw|]; subst; try reflexivity.
  destruct Hw as [? [_ [Hb _]]]; exfalso; exact (Hb c eq_refl Hc).
Qed.
Lemma bool_fixed_step prev s x r : bool_fixed prev s (x :: r) -> x <> "b"%char -> exists s', s = x :: s' /\ bool_fixed (Some x) s' r.
Proof.
  intros H Hx; inversion H as [|? rest r' Hw H' E1 E2|? c s' r' Hn H']; subst.
  - exfalso; apply Hx; reflexivity.
  - exists s'; auto.
Qed.
Lemma bool_fixed_fix prev s r : bool_fixed prev s r -> bool_fixed prev r r.
Proof.
  induction 1 as [prev|prev rest r Hw H IH|prev c s r Hn H IH].
  - constructor.
  - apply (bool_fixed_copy $"bool"); [intros j Hj; apply no_overlap_bool; exact Hj|exact IH].
  - apply BF_other; [|exact IH]; intros [q [E [H1 H2]]]; apply Hn.
    simpl in E; injection E as -> ->.
    apply bool_fixed_step in H as [s1 [-> H]]; [|discriminate].
    apply bool_fixed_step in H as [s2 [-> H]]; [|discriminate].
    apply bool_fixed_step in H as [s3 [-> H]]; [|discriminate].
    apply bool_fixed_step in H as [s4 [-> H]]; [|discriminate].
    exists s4; split; [reflexivity|split; [exact H1|]].
    rewrite <- (bool_fixed_hd "l" s4 q); [exact H2|left; reflexivity|exact H].
Qed.
Lemma fix_boolean_idem s : fix_boolean_types (fix_boolean_types s) = fix_boolean_types s.
Proof.
  symmetry; apply fix_boolean_spec; eapply bool_fixed_fix; apply fix_boolean_spec; reflexivity.
Qed.

(** ** update_source_file *)
Lemma split_slash_nonempty (s : str) : s <> [] -> split s $"/" <> [].
Proof.
  intros H E; destruct (split_pieces "/" s) as [t [r [Es [_ Hp]]]]; change ["/"%char] with $"/" in Hp; rewrite E in Hp.
  destruct t; [|discriminate]; destruct r; [simpl in Es; contradiction|discriminate].
Qed.

Lemma path_of_inj prefix a b : path_of prefix a = path_of prefix b -> a = b.
Proof. unfold path_of; intros H; apply app_inv_head in H; apply app_inv_head in H; exact H. Qed.

(** [update_source_file] when directories can be made and files opened. *)
Lemma update_source_file_eq prefix name code f : name <> [] ->
  update_source_file (fun _ => true) (fun _ => true) prefix name code f =
  Ok (if streqb (content f (path_of prefix name)) code then f
      else mkfs (update (path_of prefix name) code (files f)) (writes f ++ [path_of prefix name])).
Proof.
  intros Hn; unfold update_source_file; pose proof (split_slash_nonempty name Hn) as Hs.
  destruct (split name $"/") as [|d ds]; [contradiction|]; cbn [negb].
  fold (path_of prefix name); fold (content f (path_of prefix name)).
  destruct (streqb (content f (path_of prefix name)) code); reflexivity.
Qed.
Lemma content_update_eq p c fl w : content (mkfs (update p c fl) w) p = c.
Proof. unfold content; simpl; rewrite lookup_update_eq; reflexivity. Qed.
Lemma content_update_neq p q c f w : p <> q -> content (mkfs (update q c (files f)) w) p = content f p.
Proof. intros H; unfold content; simpl; rewrite lookup_update_neq by exact H; reflexivity. Qed.

Lemma appends_spec p chunks : forall f,
  let f' := fold_left run_op (map (Append p) chunks) f in
  content f' p = content f p ++ concat chunks /\
  (forall q, q <> p -> lookup q (files f') = lookup q (files f)) /\ writes f' = writes f.
Proof.
  induction chunks as [|d chunks IH]; intros f; cbn [map fold_left concat].
  - cbv zeta; rewrite app_nil_r; auto.
  - destruct (IH (run_op f (Append p d))) as [H1 [H2 H3]]; split; [|split].
    + rewrite H1; simpl; rewrite content_update_eq, <- app_assoc; reflexivity.
    + intros q Hq; rewrite H2 by exact Hq; simpl; apply lookup_update_neq; exact Hq.
    + rewrite H3; reflexivity.
Qed.
Lemma ops_other prefix name code chunks n f q : q <> path_of prefix name ->
  lookup q (files (fold_left run_op (firstn n (update_ops prefix name code chunks f)) f)) = lookup q (files f).
Proof.
  intros Hq; unfold update_ops; fold (path_of prefix name); fold (content f (path_of prefix name)).
  destruct (streqb (content f (path_of prefix name)) code); [rewrite firstn_nil; reflexivity|].
  destruct n as [|n]; [reflexivity|]; cbn [firstn fold_left].
  rewrite firstn_map, (proj1 (proj2 (appends_spec _ _ _))) by exact Hq.
  simpl; apply lookup_update_neq; exact Hq.
Qed.
Lemma ops_full prefix name code chunks f : concat chunks = code ->
  content (fold_left run_op (update_ops prefix name code chunks f) f) (path_of prefix name) = code.
Proof.
  intros Hc; unfold update_ops; fold (path_of prefix name); fold (content f (path_of prefix name)).
  destruct (streqb_spec (content f (path_of prefix name)) code) as [E|E]; [exact E|].
  cbn [fold_left]; rewrite (proj1 (appends_spec _ _ _)); simpl run_op; rewrite content_update_eq; exact Hc.
Qed.
Lemma update_all_spec prefix l : Forall (fun x => fst x <> []) l -> forall f,
  NoDup (map fst l) ->
  exists f', update_all (fun _ => true) (fun _ => true) prefix l f = Ok f' /\
    (forall name code, In (name, code) l -> content f' (path_of prefix name) = code) /\
    (forall q, (forall name code, In (name, code) l -> q <> path_of prefix name) -> lookup q (files f') = lookup q (files f)) /\
    ((forall name code, In (name, code) l -> content f (path_of prefix name) = code) -> f' = f).
Proof.
  induction 1 as [|[name code] l Hn Hl IH]; intros f Hd.
  - exists f; split; [reflexivity|split; [intros ? ? []|split; auto]].
  - cbn [update_all]; rewrite update_source_file_eq by exact Hn; cbn [bind_r].
    cbn [map fst] in Hd; inversion Hd as [|? ? Hnot Hd']; subst.
    set (f1 := if streqb (content f (path_of prefix name)) code then f else _).
    destruct (IH f1 Hd') as [f' [E [H1 [H2 H3]]]]; exists f'; split; [exact E|].
    assert (Hc1 : content f1 (path_of prefix name) = code).
    { unfold f1; destruct (streqb_spec (content f (path_of prefix name)) code) as [E'|E']; [exact E'|apply content_update_eq]. }
    assert (Hne : forall n c, In (n, c) l -> path_of prefix name <> path_of prefix n).
    { intros n c Hi He; apply path_of_inj in He; apply Hnot, in_map_iff; exists (n, c); auto. }
    split; [|split].
    + intros n c [Hx|Hi]; [injection Hx as <- <-|apply H1; exact Hi].
      unfold content; rewrite H2; [exact Hc1|exact Hne].
    + intros q Hq; rewrite H2; [|intros n c Hi; apply (Hq n c); right; exact Hi].
      unfold f1; destruct (streqb _ code); [reflexivity|simpl; apply lookup_update_neq, (Hq name code); left; reflexivity].
    + intros Hall; assert (f1 = f) as E1.
      { unfold f1; rewrite (Hall name code (or_introl eq_refl)), streqb_refl; reflexivity. }
      rewrite H3, E1; [reflexivity|]; intros n c Hi; rewrite E1; apply Hall; right; exact Hi.
Qed.
Lemma interrupted_other prefix l f f' : interrupted prefix l f f' ->
  forall q, (forall name code, In (name, code) l -> q <> path_of prefix name) -> lookup q (files f') = lookup q (files f).
Proof.
  induction 1 as [l f|name code l chunks n f Hc|name code l chunks f f' Hc H IH]; intros q Hq.
  - reflexivity.
  - apply ops_other, (Hq name code); left; reflexivity.
  - rewrite IH; [|intros n c Hi; apply (Hq n c); right; exact Hi].
    rewrite <- (firstn_all (update_ops prefix name code chunks f)); apply ops_other, (Hq name code); left; reflexivity.
Qed.
Lemma rerun_repairs prefix l f f' :
  Forall (fun x => fst x <> []) l -> NoDup (map fst l) -> interrupted prefix l f f' ->
  exists f2, update_all (fun _ => true) (fun _ => true) prefix l f' = Ok f2 /\
    (forall name code, In (name, code) l -> content f2 (path_of prefix name) = code) /\
    (forall q, (forall name code, In (name, code) l -> q <> path_of prefix name) -> lookup q (files f2) = lookup q (files f)).
Proof.
  intros Hn Hd Hi; destruct (update_all_spec prefix l Hn f' Hd) as [f2 [E [H1 [H2 _]]]].
  exists f2; split; [exact E|split; [exact H1|]]; intros q Hq; rewrite (H2 q Hq).
  eapply interrupted_other; eassumption.
Qed.
(** The system-call sequence has the effect of the function. *)
Lemma ops_are_update prefix name code chunks f : name <> [] -> concat chunks = code ->
  exists f', update_source_file (fun _ => true) (fun _ => true) prefix name code f = Ok f' /\
    let g := fold_left run_op (update_ops prefix name code chunks f) f in
    (forall q, content g q = content f' q) /\ writes g = writes f'.
Proof.
  intros Hn Hc; rewrite update_source_file_eq by exact Hn; eexists; split; [reflexivity|]; cbv zeta.
  unfold update_ops; fold (path_of prefix name); fold (content f (path_of prefix name)).
  destruct (streqb_spec (content f (path_of prefix name)) code) as [E|E]; [auto|]; split.
  - intros q; destruct (str_eq_dec q (path_of prefix name)) as [->|Hq].
    + rewrite content_update_eq; cbn [fold_left]; rewrite (proj1 (appends_spec _ _ _)); simpl run_op; rewrite content_update_eq; exact Hc.
    + rewrite content_update_neq by exact Hq; cbn [fold_left]; unfold content; rewrite (proj1 (proj2 (appends_spec _ _ _))) by exact Hq.
      simpl; rewrite lookup_update_neq by exact Hq; reflexivity.
  - cbn [fold_left]; rewrite (proj2 (proj2 (appends_spec _ _ _))); reflexivity.
Qed.

Lemma update_effect mkdir_ok can_open prefix name code f f' :
  update_source_file mkdir_ok can_open prefix name code f = Ok f' ->
  content f' (path_of prefix name) = code /\
  (forall q, q <> path_of prefix name -> lookup q (files f') = lookup q (files f)) /\
  (lookup (path_of prefix name) (files f') = None <-> lookup (path_of prefix name) (files f) = None /\ code = []) /\
  (content f (path_of prefix name) = code -> writes f' = writes f /\ files f' = files f) /\
  (content f (path_of prefix name) <> code -> writes f' = writes f ++ [path_of prefix name]).
Proof.
  unfold update_source_file; destruct (split name $"/") as [|d ds]; [discriminate|].
  destruct (negb (mkdir_ok _)); [discriminate|].
  fold (path_of prefix name); fold (content f (path_of prefix name)).
  destruct (streqb_spec (content f (path_of prefix name)) code) as [E|E].
  - intros H; injection H as <-; split; [exact E|split; [reflexivity|split; [|split; [auto|contradiction]]]].
    split; [|tauto]; intros H; split; [exact H|]; unfold content in E; rewrite H in E; symmetry; exact E.
  - destruct (negb (can_open _)); [discriminate|]; intros H; injection H as <-.
    split; [apply content_update_eq|split; [intros q Hq; apply lookup_update_neq; exact Hq|split; [|split; [contradiction|reflexivity]]]].
    simpl; rewrite lookup_update_eq; split; [discriminate|].
    intros [H1 ->]; exfalso; apply E; unfold content; rewrite H1; reflexivity.
Qed.
Lemma update_ok_iff mkdir_ok can_open prefix name code f :
  (exists f', update_source_file mkdir_ok can_open prefix name code f = Ok f') <->
  name <> [] /\ mkdir_ok (fold_left (fun p d => p ++ $"/" ++ d) (removelast (split name $"/")) prefix) = true /\
  (content f (path_of prefix name) = code \/ can_open (path_of prefix name) = true).
Proof.
  unfold update_source_file; destruct (split name $"/") as [|d ds] eqn:Es.
  - split; [intros [f' H]; discriminate|intros [Hn _]; exfalso; exact (split_slash_nonempty name Hn Es)].
  - assert (Hn : name <> []) by (intros ->; discriminate).
    fold (path_of prefix name); fold (content f (path_of prefix name)).
    destruct (mkdir_ok _); cbn [negb]; [|split; [intros [f' H]; discriminate|intros [_ [H _]]; discriminate]].
    destruct (streqb_spec (content f (path_of prefix name)) code) as [E|E]; [split; [auto|intros _; eexists; reflexivity]|].
    destruct (can_open _); cbn [negb]; [split; [auto|intros _; eexists; reflexivity]|].
    split; [intros [f' H]; discriminate|intros [_ [_ [H|H]]]; [contradiction|discriminate]].
Qed.

Lemma mangled_punct_In x : mangled_punct x = true <-> In x $" <>,:".
Proof.
  unfold mangled_punct; rewrite existsb_exists; split.
  - intros [y [Hy He]]; apply Ascii.eqb_eq in He; subst; exact Hy.
  - intros H; exists x; split; [exact H|apply Ascii.eqb_refl].
Qed.
Lemma mangle_charset name mark x : In x (mangle_type_name name mark) -> ~ In x $" <>,:".
Proof. intros H; rewrite <- mangled_punct_In, (mangle_no_punct name mark x H); discriminate. Qed.
Lemma mangle_template_charset name x :
  (In "<" name \/ In ">" name \/ In "," name)%char -> In x (mangle_type_name name true) -> x <> "*"%char /\ x <> "&"%char.
Proof.
  intros H; apply mangle_no_star_ref, existsb_exists.
  destruct H as [H|[H|H]]; eexists; (split; [exact H|reflexivity]).
Qed.
Lemma mangle_identity name mark : (forall x, In x name -> ~ In x $" <>,:") -> mangle_type_name name mark = name.
Proof.
  intros H; apply mangle_id, forallb_forall; intros x Hx; apply H in Hx; rewrite <- mangled_punct_In in Hx.
  destruct (mangled_punct x); [exfalso; apply Hx|]; reflexivity.
Qed.
Lemma mangle_keeps name :
  filter (fun c => negb (mem [c] (map (fun x => [x]) $" <>,:_"))) (mangle_type_name name false) =
  filter (fun c => negb (mem [c] (map (fun x => [x]) $" <>,:_"))) name.
Proof.
  assert (H : forall l, filter (fun c => negb (mem [c] (map (fun x => [x]) $" <>,:_"))) l = filter kept l).
  { intros l; apply filter_ext; intros c; unfold kept, mangled_punct, mem; simpl; rewrite !andb_true_r.
    repeat (destruct (Ascii.eqb c _); [reflexivity|]); reflexivity. }
  rewrite !H; apply mangle_kept_nontemplate; right; reflexivity.
Qed.
Lemma mangle_inj_plain a b :
  (forall x, In x (a ++ b) -> ~ In x $" <>,:") -> mangle_type_name a true = mangle_type_name b true -> a = b.
Proof.
  intros H; rewrite !mangle_identity; [auto| |]; intros x Hx; apply H, in_app_iff; auto.
Qed.
Lemma rerun_idle prefix l f :
  Forall (fun x => fst x <> []) l -> NoDup (map fst l) ->
  exists f', update_all (fun _ => true) (fun _ => true) prefix l f = Ok f' /\
             update_all (fun _ => true) (fun _ => true) prefix l f' = Ok f'.
Proof.
  intros Hn Hd; destruct (update_all_spec prefix l Hn f Hd) as [f' [E [H1 _]]]; exists f'; split; [exact E|].
  destruct (update_all_spec prefix l Hn f' Hd) as [f2 [E2 [_ [_ H]]]]; rewrite E2, (H H1); reflexivity.
Qed.

(** ** Comments *)

Fixpoint text_loop (l : list comment) (previous : nat) : str :=
  match l with
  | [] => []
  | i :: l' => if negb (previous =? comment_line i) then [nl] ++ get_text i (comment_line i) ++ text_loop l' (comment_line i)
               else get_text i previous ++ text_loop l' previous
  end.
Lemma get_text_node line p l previous : get_text (CNode line p l) previous = (if p then [nl] else []) ++ text_loop l previous.
Proof. reflexivity. Qed.
Lemma get_text_reads : forall c, reads c (get_text c (comment_line c)).
Proof.
  fix IH 1. intros [line t|line p l]; [constructor|].
  assert (X : forall previous, reads_from previous l (text_loop l previous)).
  { induction l as [|c l IHl]; intros previous; [constructor|]. cbn [text_loop]. destruct (Nat.eqb_spec previous (comment_line c)) as [E|E]; cbn [negb].
    - apply RF_same; [symmetry; exact E|rewrite E; apply IH|apply IHl].
    - apply RF_new; [intros X; apply E; symmetry; exact X|apply IH|apply IHl]. }
  rewrite get_text_node. cbn [comment_line]. destruct p; [apply RD_paragraph|apply RD_part]; apply X.
Qed.
Lemma text_loop_reads l : forall previous, reads_from previous l (text_loop l previous).
Proof.
  induction l as [|c l IH]; intros previous; [constructor|]. cbn [text_loop]. destruct (Nat.eqb_spec previous (comment_line c)) as [E|E]; cbn [negb].
  - apply RF_same; [symmetry; exact E|rewrite E; apply get_text_reads|apply IH].
  - apply RF_new; [intros X; apply E; symmetry; exact X|apply get_text_reads|apply IH].
Qed.
Lemma get_text_comment c : comment_reads c (get_text c 0).
Proof. destruct c as [line t|line p l]; [reflexivity|]. exists (text_loop l 0). split; [apply text_loop_reads|apply get_text_node]. Qed.
Lemma reads_unique : forall c t1 t2, reads c t1 -> reads c t2 -> t1 = t2.
Proof.
  fix IH 1. intros c t1 t2 H1 H2. destruct c as [line t|line p l].
  - inversion H1; inversion H2; subst; congruence.
  - assert (X : forall line u1 u2, reads_from line l u1 -> reads_from line l u2 -> u1 = u2).
    { clear H1 H2. induction l as [|c l IHl]; intros line' u1 u2 F1 F2; [inversion F1; inversion F2; subst; reflexivity|].
      inversion F1 as [|? ? ? a1 b1 E1 R1 Q1|? ? ? a1 b1 E1 R1 Q1]; inversion F2 as [|? ? ? a2 b2 E2 R2 Q2|? ? ? a2 b2 E2 R2 Q2]; subst; try congruence;
        rewrite (IH _ _ _ R1 R2), (IHl _ _ _ Q1 Q2); reflexivity. }
    inversion H1 as [|? ? ? Q1|? ? ? Q1]; inversion H2 as [|? ? ? Q2|? ? ? Q2]; subst; try congruence; rewrite (X _ _ _ Q1 Q2); reflexivity.
Qed.
Lemma reads_from_unique l : forall line u1 u2, reads_from line l u1 -> reads_from line l u2 -> u1 = u2.
Proof.
  induction l as [|c l IHl]; intros line' u1 u2 F1 F2; [inversion F1; inversion F2; subst; reflexivity|].
  inversion F1 as [|? ? ? a1 b1 E1 R1 Q1|? ? ? a1 b1 E1 R1 Q1]; inversion F2 as [|? ? ? a2 b2 E2 R2 Q2|? ? ? a2 b2 E2 R2 Q2]; subst; try congruence;
    rewrite (reads_unique _ _ _ R1 R2), (IHl _ _ _ Q1 Q2); reflexivity.
Qed.
Lemma comment_reads_unique c t1 t2 : comment_reads c t1 -> comment_reads c t2 -> t1 = t2.
Proof.
  destruct c as [line t|line p l]; cbn [comment_reads]; [congruence|]. intros [u1 [A1 ->]] [u2 [A2 ->]]. rewrite (reads_from_unique _ _ _ _ A1 A2). reflexivity.
Qed.
Definition no_nl : str -> str := filter (fun c => negb (Ascii.eqb c nl)).
Lemma no_nl_app a b : no_nl (a ++ b) = no_nl a ++ no_nl b.
Proof. apply filter_app. Qed.
Lemma reads_texts : forall c t, reads c t -> no_nl t = no_nl (texts c).
Proof.
  fix IH 1. intros c t H. destruct c as [line t0|line p l]; [inversion H; reflexivity|]. cbn [texts].
  assert (X : forall line u, reads_from line l u -> no_nl u = no_nl (concat (map texts l))).
  { clear H. induction l as [|c l IHl]; intros line' u F; [inversion F; reflexivity|]. cbn [map concat].
    inversion F as [|? ? ? a1 b1 E1 R1 Q1|? ? ? a1 b1 E1 R1 Q1]; subst; rewrite !no_nl_app, (IH _ _ R1), (IHl _ _ Q1); reflexivity. }
  inversion H as [|? ? ? Q|? ? ? Q]; subst; [exact (X _ _ Q)|rewrite no_nl_app, (X _ _ Q); reflexivity].
Qed.
Lemma comment_texts c t : comment_reads c t -> no_nl t = no_nl (texts c).
Proof.
  destruct c as [line t0|line p l]; cbn [comment_reads]; [intros ->; reflexivity|]. intros [u [F ->]]. cbn [texts].
  assert (X : forall line u, reads_from line l u -> no_nl u = no_nl (concat (map texts l))).
  { clear F. induction l as [|c l IHl]; intros line' v F; [inversion F; reflexivity|]. cbn [map concat].
    inversion F as [|? ? ? a1 b1 E1 R1 Q1|? ? ? a1 b1 E1 R1 Q1]; subst; rewrite !no_nl_app, (reads_texts _ _ R1), (IHl _ _ Q1); reflexivity. }
  rewrite no_nl_app, (X _ _ F). destruct p; reflexivity.
Qed.
Lemma begins_iff s p : begins_with s p = true <-> exists r, s = p ++ r.
Proof. unfold begins_with. rewrite same_at_0, prefixb_iff. reflexivity. Qed.
Lemma ends_iff s p : ends_with s p = true <-> exists r, s = r ++ p.
Proof.
  unfold ends_with. destruct (Nat.ltb_spec (length s) (length p)) as [L|L].
  - split; [discriminate|]. intros [r ->]. rewrite app_length in L. lia.
  - assert (E : same_at s (length s - length p) (length p) p = prefixb p (skipn (length s - length p) s)).
    { rewrite <- same_at_0. unfold same_at, substr. rewrite skipn_O. reflexivity. }
    rewrite E, prefixb_iff. split.
    + intros [r R]. exists (firstn (length s - length p) s). rewrite <- (firstn_skipn (length s - length p) s) at 1. f_equal. rewrite R.
      assert (Z : length (skipn (length s - length p) s) = length p) by (rewrite skipn_length; lia). rewrite R, app_length in Z.
      destruct r; [apply app_nil_r|cbn in Z; lia].
    + intros [r ->]. exists []. rewrite app_nil_r, app_length. replace (length r + length p - length p) with (length r) by lia.
      rewrite skipn_app, skipn_all, Nat.sub_diag. reflexivity.
Qed.

(** A computed occurrence. *)
Lemma find0_occurs p s : find0 p s <> None -> occurs p s.
Proof.
  destruct (find0 p s) as [i|] eqn:E; [|intros X; destruct (X eq_refl)]. intros _. pose proof (find0_Some _ _ _ E) as [L _].
  exists i, (firstn i s), (skipn (i + length p) s). split; [exact (find0_decomp _ _ _ E)|]. rewrite firstn_length. lia.
Qed.
