(** Config files that differ in directives on the form of the code only. *)
From Coq Require Import Ascii String Bool Arith.
From Coq Require Import List.
From Verif Require Import Str StrFacts Util Config SpecConfig ConfigFacts SpecSettings SpecStyle.
Import ListNotations.

Lemma sel_refl c : same_selection c c.
Proof. split; [reflexivity|split; [intros n; tauto|reflexivity]]. Qed.
Lemma sel_sym c c' : same_selection c c' -> same_selection c' c.
Proof. intros (A&B&C). split; [intros k K; symmetry; apply A, K|split; [intros n; symmetry; apply B|symmetry; exact C]]. Qed.
Lemma sel_trans c c' c'' : same_selection c c' -> same_selection c' c'' -> same_selection c c''.
Proof.
  intros (A&B&C) (A'&B'&C'). split; [intros k K; rewrite (A' k K); apply A, K|split; [intros n; rewrite (B' n); apply B|rewrite C'; exact C]].
Qed.
Lemma lookup_update_none n x (v : str) m : lookup n (update x v m) = None <-> n <> x /\ lookup n m = None.
Proof.
  destruct (streqb n x) eqn:E.
  - apply streqb_eq in E. subst n. rewrite lookup_update_eq. split; [discriminate|]. intros [K _]. contradiction.
  - assert (N : n <> x) by (intros K; apply streqb_eq in K; congruence). rewrite (lookup_update_neq n x v m N). tauto.
Qed.
Lemma sel_push k v c c' : same_selection c c' -> same_selection (push k v c) (push k v c').
Proof.
  intros (A&B&C). split; [|split; [exact B|exact C]]. intros j J. cbn. destruct (list_key_eq j k); rewrite (A j J); reflexivity.
Qed.
Lemma sel_put k x v c c' : same_selection c c' -> same_selection (put k x v c) (put k x v c').
Proof.
  intros (A&B&C). split; [exact A|split; [|exact C]]. intros n. cbn [maps put]. destruct (map_key_eq binders k); [|apply B]. rewrite !lookup_update_none, B. reflexivity.
Qed.
Lemma sel_assign k v c c' : same_selection c c' -> same_selection (assign k v c) (assign k v c').
Proof. intros (A&B&C). split; [exact A|split; [exact B|]]. cbn. rewrite C. reflexivity. Qed.
Lemma sel_put_vec k x v c c' : same_selection c c' -> same_selection (put_vec k x v c) (put_vec k x v c').
Proof. intros (A&B&C). split; [exact A|split; [exact B|exact C]]. Qed.
Lemma sel_keyed name line what form f g :
  (forall x v, same_selection (f x v) (g x v)) -> same_outcome same_selection (keyed name line what form f) (keyed name line what form g).
Proof. intros K. unfold keyed. destruct (split_in_two _ _) as [[x v]| | | |]; cbn; auto. Qed.
Lemma sel_if (b : bool) x y x' y' : same_outcome same_selection x x' -> same_outcome same_selection y y' ->
  same_outcome same_selection (if b then x else y) (if b then x' else y').
Proof. destruct b; auto. Qed.

Lemma read_token_same c c' bind token name line : same_selection c c' ->
  same_outcome same_selection (read_token c bind token name line) (read_token c' bind token name line).
Proof.
  intros E. unfold read_token. cbv zeta.
  repeat (apply sel_if; [first
    [ exact (sel_push _ _ _ _ E)
    | exact (sel_assign _ _ _ _ E)
    | destruct bind; first
        [ reflexivity | exact E | exact (sel_push _ _ _ _ E)
        | apply sel_keyed; intros x v; first [apply sel_put_vec | apply sel_put]; exact E ] ]|]).
  reflexivity.
Qed.
Lemma read_line_same c c' line : same_selection c c' -> same_outcome same_selection (read_line c line) (read_line c' line).
Proof.
  intros E. unfold read_line. destruct line as [|ch line]; [exact E|]. destruct (Ascii.eqb ch "#"); [exact E|]. cbv zeta.
  destruct (drop_cr (ch :: line)) as [|sign rest]; [exact E|]. destruct (_ && _); [reflexivity|].
  destruct (find_char _ _); [|reflexivity]. apply read_token_same. exact E.
Qed.
Lemma Ok_out {A} (x y : A) : Ok x = Ok y -> x = y.
Proof. intros X. injection X. trivial. Qed.
Lemma sel_push1 k v c : ~ In k selecting -> same_selection c (push k v c).
Proof.
  intros N. split; [|split; [intros n; apply iff_refl|reflexivity]]. intros j J. cbn [lists push]. destruct (list_key_eq j k) as [->|]; [contradiction|reflexivity].
Qed.
Lemma sel_put1 k x v c : k <> binders -> same_selection c (put k x v c).
Proof.
  intros N. split; [reflexivity|split; [|reflexivity]]. intros n. cbn [maps put]. destruct (map_key_eq binders k) as [K|_]; [destruct N; exact (eq_sym K)|apply iff_refl].
Qed.
Lemma sel_assign1 k v c : k <> holder_type -> same_selection c (assign k v c).
Proof.
  intros N. split; [reflexivity|split; [intros n; apply iff_refl|]]. cbn [strs assign]. destruct (str_key_eq holder_type k) as [K|_]; [destruct N; exact (eq_sym K)|reflexivity].
Qed.
Lemma sel_put_vec1 k x v c : same_selection c (put_vec k x v c).
Proof. split; [reflexivity|split; [intros n; apply iff_refl|reflexivity]]. Qed.
Lemma keyed_ok name line what form f d : keyed name line what form f = Ok d -> exists x v, d = f x v.
Proof. unfold keyed. destruct (split_in_two _ _) as [[x v]| | | |]; cbn; try discriminate. intros X. injection X as <-. exists x, v. reflexivity. Qed.
Lemma not_selecting k : existsb (fun j => if list_key_eq j k then true else false) selecting = false -> ~ In k selecting.
Proof.
  intros X Y. assert (Z : existsb (fun j => if list_key_eq j k then true else false) selecting = true); [|congruence].
  apply existsb_exists. exists k. split; [exact Y|]. destruct (list_key_eq k k); [reflexivity|congruence].
Qed.
Lemma style_token c bind token arg t d : In token style_tokens -> read_token c bind token arg t = Ok d -> same_selection c d.
Proof.
  intros Tk. unfold style_tokens in Tk. cbn [In] in Tk.
  repeat (destruct Tk as [<-|Tk]; [unfold read_token; cbv zeta; 
    repeat match goal with |- context[streqb ?a ?b] => let v := eval vm_compute in (streqb a b) in change (streqb a b) with v; cbv iota end;
    destruct bind; intros R; try discriminate R;
    first [ apply Ok_out in R; subst d; first [apply sel_refl | apply sel_push1, not_selecting; reflexivity | apply sel_assign1; discriminate]
          | apply keyed_ok in R; destruct R as (x&v&->); first [apply sel_put1; discriminate | apply sel_put_vec1] ]|]).
  contradiction.
Qed.
Lemma style_line_same c l d : style_line l -> read_line c l = Ok d -> same_selection c d.
Proof.
  intros [Ig|(b&t&a&S&T)] R.
  - rewrite (read_line_ignored c l Ig) in R. apply Ok_out in R. subst d. apply sel_refl.
  - destruct (read_line_says c l b t a S) as (u&_&E). rewrite E in R. exact (style_token _ _ _ _ _ _ T R).
Qed.
Lemma binder_line c l x arg f d : says l true $"binder" arg -> two_parts arg x f -> read_line c l = Ok d -> exists v, d = put binders x v c.
Proof.
  intros S T R. destruct (read_line_says c l _ _ _ S) as (u&_&E). rewrite E in R. unfold read_token in R. cbv zeta in R.
  repeat match type of R with context[streqb ?a ?b] => let v := eval vm_compute in (streqb a b) in change (streqb a b) with v in R; cbv iota in R end.
  unfold keyed in R. rewrite (proj1 (two_parts_split _ _) _ _ T) in R. cbn in R. apply Ok_out in R. subst d. exists (trim f). reflexivity.
Qed.
Lemma sel_put2 x v v' c c' : same_selection c c' -> same_selection (put binders x v c) (put binders x v' c').
Proof.
  intros (A&B&C). split; [exact A|split; [|exact C]]. intros n. cbn [maps put]. destruct (map_key_eq binders binders); [|apply B]. rewrite !lookup_update_none, B. reflexivity.
Qed.
Lemma read_lines_style ls ls' : same_but_style ls ls' -> forall c c' d d', same_selection c c' ->
  read_lines c ls = Ok d -> read_lines c' ls' = Ok d' -> same_selection d d'.
Proof.
  intros R. induction R as [|l a b R IH|l a b S R IH|l a b S R IH|l l' x arg f arg' f' a b S T S' T' R IH]; intros c c' d d' E X Y; cbn [read_lines] in X, Y.
  - apply Ok_out in X. apply Ok_out in Y. subst. exact E.
  - pose proof (read_line_same c c' l E) as K. destruct (read_line c l) as [c1| | | |], (read_line c' l) as [c1'| | | |]; cbn [bind_r] in X, Y; try discriminate.
    exact (IH _ _ _ _ K X Y).
  - destruct (read_line c l) as [c1| | | |] eqn:L; cbn [bind_r] in X; try discriminate.
    exact (IH _ _ _ _ (sel_trans _ _ _ (sel_sym _ _ (style_line_same _ _ _ S L)) E) X Y).
  - destruct (read_line c' l) as [c1| | | |] eqn:L; cbn [bind_r] in Y; try discriminate.
    exact (IH _ _ _ _ (sel_trans _ _ _ E (style_line_same _ _ _ S L)) X Y).
  - destruct (read_line c l) as [c1| | | |] eqn:L; cbn [bind_r] in X; try discriminate.
    destruct (read_line c' l') as [c1'| | | |] eqn:L'; cbn [bind_r] in Y; try discriminate.
    destruct (binder_line _ _ _ _ _ _ S T L) as [v ->]. destruct (binder_line _ _ _ _ _ _ S' T' L') as [v' ->].
    exact (IH _ _ _ _ (sel_put2 _ _ _ _ _ E) X Y).
Qed.
