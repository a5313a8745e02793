(** Config files and options that ask for more. *)
From Coq Require Import Ascii String Bool Arith.
From Coq Require Import List.
From Verif Require Import Str StrFacts Util Config SpecConfig ConfigFacts SpecSettings SpecMonotone StyleConfig.
Import ListNotations.

Local Notation more := asks_for_more.
Lemma more_refl c : more c c.
Proof. split; [intros k _; apply incl_refl|split; [intros k _; apply incl_refl|split; [reflexivity|split; [reflexivity|split; [intros n; apply iff_refl|reflexivity]]]]]. Qed.
Lemma incl_snoc {A} (l l' : list A) x : incl l l' -> incl (l ++ [x]) (l' ++ [x]).
Proof. intros I. apply incl_app; [apply incl_appl, I|apply incl_appr, incl_refl]. Qed.
Lemma more_push k v c c' : more c c' -> more (push k v c) (push k v c').
Proof.
  intros (A&B&D&E&F&G). split; [|split; [|split; [|split; [|split; [exact F|exact G]]]]].
  - intros j J. cbn [lists push]. destruct (list_key_eq j k); [apply incl_snoc, A, J|apply A, J].
  - intros j J. cbn [lists push]. destruct (list_key_eq j k); [apply incl_snoc, B, J|apply B, J].
  - cbn [lists push]. rewrite D. reflexivity.
  - cbn [lists push]. rewrite E. reflexivity.
Qed.
Lemma more_put k x v c c' : more c c' -> more (put k x v c) (put k x v c').
Proof.
  intros (A&B&D&E&F&G). split; [exact A|split; [exact B|split; [exact D|split; [exact E|split; [|exact G]]]]].
  intros n. cbn [maps put]. destruct (map_key_eq binders k); [|apply F]. rewrite !lookup_update_none, F. reflexivity.
Qed.
Lemma more_assign k v c c' : more c c' -> more (assign k v c) (assign k v c').
Proof. intros (A&B&D&E&F&G). split; [exact A|split; [exact B|split; [exact D|split; [exact E|split; [exact F|]]]]]. cbn [strs assign]. rewrite G. reflexivity. Qed.
Lemma more_put_vec k x v c c' : more c c' -> more (put_vec k x v c) (put_vec k x v c').
Proof. intros (A&B&D&E&F&G). split; [exact A|split; [exact B|split; [exact D|split; [exact E|split; [exact F|exact G]]]]]. Qed.
Lemma more_keyed name line what form f g :
  (forall x v, more (f x v) (g x v)) -> same_outcome more (keyed name line what form f) (keyed name line what form g).
Proof. intros K. unfold keyed. destruct (split_in_two _ _) as [[x v]| | | |]; cbn; auto. Qed.
Lemma more_if (b : bool) x y x' y' : same_outcome more x x' -> same_outcome more y y' -> same_outcome more (if b then x else y) (if b then x' else y').
Proof. destruct b; auto. Qed.
Lemma token_more c c' bind token name line : more c c' -> same_outcome more (read_token c bind token name line) (read_token c' bind token name line).
Proof.
  intros E. unfold read_token. cbv zeta.
  repeat (apply more_if; [first
    [ exact (more_push _ _ _ _ E)
    | exact (more_assign _ _ _ _ E)
    | destruct bind; first
        [ reflexivity | exact E | exact (more_push _ _ _ _ E)
        | apply more_keyed; intros x v; first [apply more_put_vec | apply more_put]; exact E ] ]|]).
  reflexivity.
Qed.
Lemma line_more c c' line : more c c' -> same_outcome more (read_line c line) (read_line c' line).
Proof.
  intros E. unfold read_line. destruct line as [|ch line]; [exact E|]. destruct (Ascii.eqb ch "#"); [exact E|]. cbv zeta.
  destruct (drop_cr (ch :: line)) as [|sign rest]; [exact E|]. destruct (_ && _); [reflexivity|].
  destruct (find_char _ _); [|reflexivity]. apply token_more. exact E.
Qed.
Lemma push_wanted k v c c' : In k wanted -> more c c' -> more c (push k v c').
Proof.
  intros K (A&B&D&E&F&G).
  assert (N : forall j, ~ In j wanted -> lists (push k v c') j = lists c' j).
  { intros j J. cbn [lists push]. destruct (list_key_eq j k) as [->|]; [contradiction|reflexivity]. }
  split; [|split; [|split; [|split; [|split; [exact F|exact G]]]]].
  - intros j J. cbn [lists push]. destruct (list_key_eq j k); [apply incl_appl, A, J|apply A, J].
  - intros j J. rewrite N; [apply B, J|]. unfold unwanted, wanted in *. cbn [In] in *.
    intros X. repeat (destruct X as [<-|X]; [repeat (destruct J as [J|J]; [discriminate J|]); contradiction|]). contradiction.
  - rewrite N; [exact D|]. unfold wanted. cbn [In]. intros X. repeat (destruct X as [X|X]; [discriminate X|]). contradiction.
  - rewrite N; [exact E|]. unfold wanted. cbn [In]. intros X. repeat (destruct X as [X|X]; [discriminate X|]). contradiction.
Qed.
Lemma push_unwanted k v c c' : In k unwanted -> more c c' -> more (push k v c) c'.
Proof.
  intros K (A&B&D&E&F&G).
  assert (N : forall j, ~ In j unwanted -> lists (push k v c) j = lists c j).
  { intros j J. cbn [lists push]. destruct (list_key_eq j k) as [->|]; [contradiction|reflexivity]. }
  split; [|split; [|split; [|split; [|split; [exact F|exact G]]]]].
  - intros j J. rewrite N; [apply A, J|]. unfold unwanted, wanted in *. cbn [In] in *.
    intros X. repeat (destruct X as [<-|X]; [repeat (destruct J as [J|J]; [discriminate J|]); contradiction|]). contradiction.
  - intros j J. cbn [lists push]. destruct (list_key_eq j k); [apply incl_appl, B, J|apply B, J].
  - rewrite N; [exact D|]. unfold unwanted. cbn [In]. intros X. repeat (destruct X as [X|X]; [discriminate X|]). contradiction.
  - rewrite N; [exact E|]. unfold unwanted. cbn [In]. intros X. repeat (destruct X as [X|X]; [discriminate X|]). contradiction.
Qed.
Lemma wanting_more c c' l d : wanting_line l -> read_line c' l = Ok d -> more c c' -> more c d.
Proof.
  intros (token&arg&S&T) R M. destruct (read_line_says c' l _ _ _ S) as (u&_&E). rewrite E in R. clear E S. unfold wanting_tokens in T. cbn [In] in T.
  repeat (destruct T as [<-|T]; [unfold read_token in R; cbv zeta in R;
    repeat match type of R with context[streqb ?a ?b] => let v := eval vm_compute in (streqb a b) in change (streqb a b) with v in R; cbv iota in R end;
    apply Ok_out in R; subst d; apply push_wanted; [unfold wanted; cbn [In]; tauto|exact M]|]).
  contradiction.
Qed.
Lemma unwanting_more c c' l d : unwanting_line l -> read_line c l = Ok d -> more c c' -> more d c'.
Proof.
  intros (token&arg&S&T) R M. destruct (read_line_says c l _ _ _ S) as (u&_&E). rewrite E in R. clear E S. unfold unwanting_tokens in T. cbn [In] in T.
  repeat (destruct T as [<-|T]; [unfold read_token in R; cbv zeta in R;
    repeat match type of R with context[streqb ?a ?b] => let v := eval vm_compute in (streqb a b) in change (streqb a b) with v in R; cbv iota in R end;
    apply Ok_out in R; subst d; apply push_unwanted; [unfold unwanted; cbn [In]; tauto|exact M]|]).
  contradiction.
Qed.
Lemma read_lines_more ls ls' : file_for_more ls ls' -> forall c c' d d', more c c' -> read_lines c ls = Ok d -> read_lines c' ls' = Ok d' -> more d d'.
Proof.
  intros R. induction R as [|l a b R IH|l a b S R IH|l a b S R IH]; intros c c' d d' E X Y; cbn [read_lines] in X, Y.
  - apply Ok_out in X. apply Ok_out in Y. subst. exact E.
  - pose proof (line_more c c' l E) as K. destruct (read_line c l) as [c1| | | |], (read_line c' l) as [c1'| | | |]; cbn [bind_r] in X, Y; try discriminate.
    exact (IH _ _ _ _ K X Y).
  - destruct (read_line c' l) as [c1| | | |] eqn:L; cbn [bind_r] in Y; try discriminate. exact (IH _ _ _ _ (wanting_more _ _ _ _ S L E) X Y).
  - destruct (read_line c l) as [c1| | | |] eqn:L; cbn [bind_r] in X; try discriminate. exact (IH _ _ _ _ (unwanting_more _ _ _ _ S L E) X Y).
Qed.
Lemma assigned_more bind bind' skip skip' c : incl bind bind' -> incl skip' skip ->
  more (assign_list namespaces_to_skip skip (assign_list namespaces_to_bind bind c)) (assign_list namespaces_to_skip skip' (assign_list namespaces_to_bind bind' c)).
Proof.
  intros B S. split; [|split; [|split; [reflexivity|split; [reflexivity|split; [intros n; apply iff_refl|reflexivity]]]]].
  - intros k K. unfold wanted in K. cbn [In] in K. repeat (destruct K as [<-|K]; [cbn; first [exact B|apply incl_refl]|]). contradiction.
  - intros k K. unfold unwanted in K. cbn [In] in K. repeat (destruct K as [<-|K]; [cbn; first [exact S|apply incl_refl]|]). contradiction.
Qed.
