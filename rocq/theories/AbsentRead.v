(** Reading the config file keeps "the same settings for the program"; a line
    about nothing in the program establishes it. *)
From Coq Require Import Ascii String Bool Arith.
From Coq Require Import List.
From Verif Require Import Str StrFacts SpecUtil UtilFacts Util Config SpecConfig ConfigFacts Ast Types Func Includes Class Context SpecContext ContextFacts Program SpecSettings SpecAbsent AbsentFacts.
Import ListNotations.

Lemma same_refl w c : same_for_program w c c.
Proof. unfold same_for_program. repeat split; auto. Qed.
Lemma same_trans w a b c : same_for_program w a b -> same_for_program w b c -> same_for_program w a c.
Proof.
  intros (A1 & A2 & A3 & A4 & A5) (B1 & B2 & B3 & B4 & B5). unfold same_for_program. split; [|split; [|split; [|split]]].
  - intros k v H. rewrite (B1 k v H). apply A1. exact H.
  - congruence.
  - intros k x H. rewrite (B3 k x H). apply A3. exact H.
  - intros k x H. rewrite (B4 k x H). apply A4. exact H.
  - intros k. rewrite B5. apply A5.
Qed.

(** ** The names of the program do not depend on the settings. *)
Section World.
Variables (e : env) (o : options).
Notation W c := (mkworld e c o).
Lemma ns_cfg c c' s : in_namespace (W c) s -> in_namespace (W c') s.
Proof. intros [d]. cbn [wenv]. rewrite (w_namespace_from_named_decl e o c' c). exact (InNamespace (W c') d). Qed.
Lemma plain_cfg c c' s : plain_class (W c) s -> plain_class (W c') s.
Proof. intros [r]. rewrite (w_standard_name e o c' c). exact (PlainClass (W c') r). Qed.
Lemma class_cfg c c' s : class_in (W c) s -> class_in (W c') s.
Proof. intros [n H|r]; [apply ClassPlain, (plain_cfg c), H|]. rewrite (w_class_qualified_name e o c' c). apply ClassWithArguments. Qed.
Lemma function_cfg c c' s : function_in (W c) s -> function_in (W c') s.
Proof.
  intros [f|f|f|f|r|r].
  - exact (FunPlain (W c') f).
  - rewrite (w_standard_name e o c' c). exact (FunStandard (W c') f).
  - rewrite (w_function_qualified_name e o c' c). exact (FunFull (W c') f).
  - rewrite (w_standard_name e o c' c). exact (FunOfTemplate (W c') f).
  - rewrite (w_class_qualified_name e o c' c). exact (FunStr (W c') r).
  - rewrite (w_standard_name e o c' c). exact (FunStrPlain (W c') r).
Qed.
Lemma field_cfg c c' s : field_in (W c) s -> field_in (W c') s.
Proof. intros [r f H|r a ts f H1 H2]; [exact (FieldOwn (W c') r f H)|exact (FieldLifted (W c') r a ts f H1 H2)]. Qed.
Lemma method_cfg c c' s : method_in (W c) s -> method_in (W c') s.
Proof. intros [r f]. rewrite (w_namespace_from_named_decl e o c' c). exact (MethodIn (W c') r f). Qed.
Lemma concerns_cfg c c' k v : concerns (W c) k v -> concerns (W c') k v.
Proof.
  destruct k; cbn [concerns].
  all: match goal with
       | |- (exists n, in_namespace _ n /\ _) -> _ => intros [n [H1 H2]]; exists n; split; [exact (ns_cfg c c' n H1)|exact H2]
       | |- (exists n, class_in _ n /\ _) -> _ => intros [n [H1 H2]]; exists n; split; [exact (class_cfg c c' n H1)|exact H2]
       | |- (exists n, plain_class _ n /\ _) -> _ => intros [n [H1 H2]]; exists n; split; [exact (plain_cfg c c' n H1)|exact H2]
       | |- (exists n, function_in _ n /\ _) -> _ => intros [n [H1 H2]]; exists n; split; [exact (function_cfg c c' n H1)|exact H2]
       | |- field_in _ _ -> _ => apply field_cfg
       | |- _ \/ in_namespace _ _ -> _ => intros [H|H]; [left; exact H|right; exact (ns_cfg c c' _ H)]
       | |- True -> _ => intros _; exact I
       | |- _ => rewrite (w_standard_name e o c' c); cbn [wenv]; exact (fun x => x)
       end.
Qed.
Lemma concerns_key_cfg c c' k v : concerns_key (W c) k v -> concerns_key (W c') k v.
Proof. destruct k; cbn [concerns_key]; first [apply plain_cfg|apply ns_cfg|apply method_cfg]. Qed.
Lemma concerns_include_cfg c c' k v : concerns_include (W c) k v -> concerns_include (W c') k v.
Proof. destruct k; cbn [concerns_include]; first [apply plain_cfg|apply ns_cfg]. Qed.
Lemma same_cfg c1 c2 c c' : same_for_program (W c1) c c' -> same_for_program (W c2) c c'.
Proof.
  intros (A1 & A2 & A3 & A4 & A5). unfold same_for_program. split; [|split; [|split; [|split]]].
  - intros k v H. exact (A1 k v (concerns_cfg c2 c1 k v H)).
  - exact A2.
  - intros k v H. exact (A3 k v (concerns_key_cfg c2 c1 k v H)).
  - intros k v H. exact (A4 k v (concerns_include_cfg c2 c1 k v H)).
  - exact A5.
Qed.
End World.

(** ** Every step of the reading. *)
Section Steps.
Variable w : world.
Notation R := (same_for_program w).
Lemma same_push k v c c' : R c c' -> R (push k v c) (push k v c').
Proof.
  intros (A1 & A2 & A3 & A4 & A5). unfold same_for_program, push. cbn [lists maps vecs strs]. split; [|split; [|split; [|split]]]; auto.
  - intros k' x H. destruct (list_key_eq k' k); [|apply A1; exact H]. rewrite !in_app_iff, (A1 k' x H). reflexivity.
  - destruct (list_key_eq includes_to_add k); rewrite A2; reflexivity.
Qed.
Lemma same_put k x v c c' : R c c' -> R (put k x v c) (put k x v c').
Proof.
  intros (A1 & A2 & A3 & A4 & A5). unfold same_for_program, put. cbn [lists maps vecs strs]. split; [|split; [|split; [|split]]]; auto.
  intros k' y H. destruct (map_key_eq k' k); [|apply A3; exact H].
  destruct (streqb_spec y x) as [->|N]; [rewrite !lookup_update_eq; reflexivity|]. rewrite !lookup_update_neq by exact N. apply A3. exact H.
Qed.
Lemma same_put_vec k x v c c' : R c c' -> R (put_vec k x v c) (put_vec k x v c').
Proof.
  intros (A1 & A2 & A3 & A4 & A5). unfold same_for_program. split; [|split; [|split; [|split]]].
  - exact A1.
  - exact A2.
  - exact A3.
  - intros k' y H. unfold put_vec; cbn [vecs]. destruct (vec_key_eq k' k); [|apply A4; exact H].
    specialize (A4 k' y H). unfold get_vec in *.
    destruct (streqb_spec y x) as [->|N]; [rewrite !lookup_update_eq; rewrite A4; reflexivity|]. rewrite !lookup_update_neq by exact N. exact A4.
  - exact A5.
Qed.
Lemma same_assign k v c c' : R c c' -> R (assign k v c) (assign k v c').
Proof.
  intros (A1 & A2 & A3 & A4 & A5). unfold same_for_program, assign. cbn [lists maps vecs strs]. split; [|split; [|split; [|split]]]; auto.
  intros k'. destruct (str_key_eq k' k); auto.
Qed.
Lemma same_keyed name line what form f f' : (forall x v, R (f x v) (f' x v)) ->
  same_outcome R (keyed name line what form f) (keyed name line what form f').
Proof. intros H. unfold keyed. destruct (split_in_two _ _) as [p| | | |]; cbn [bind_r same_outcome]; auto. Qed.
Lemma same_apply k b what name line c c' : R c c' -> same_outcome R (apply_kind c k b what name line) (apply_kind c' k b what name line).
Proof.
  intros H. destruct k as [plus minus|p|p|p [|]|p|p]; destruct b; cbn [apply_kind same_outcome].
  all: try apply same_keyed; try intros x v.
  all: try apply same_push; try apply same_put; try apply same_put_vec; try apply same_assign; try exact H.
  all: reflexivity.
Qed.
Lemma same_read_line line c c' : R c c' -> same_outcome R (read_line c line) (read_line c' line).
Proof.
  intros H. unfold read_line. destruct line as [|ch r]; [exact H|]. destruct (Ascii.eqb ch "#"); [exact H|].
  destruct (drop_cr (ch :: r)) as [|sign r'] eqn:D; [exact H|]. destruct (_ && _); [reflexivity|].
  destruct (find_char (sign :: r') sp); [|reflexivity]. rewrite !read_token_kind.
  destruct (find_kind _ _); [apply same_apply; exact H|reflexivity].
Qed.
Lemma same_read_lines ls : forall c c', R c c' -> same_outcome R (read_lines c ls) (read_lines c' ls).
Proof.
  induction ls as [|l ls IH]; intros c c' H; cbn [read_lines]; [exact H|].
  pose proof (same_read_line l c c' H) as K.
  destruct (read_line c l), (read_line c' l); cbn [same_outcome bind_r] in *; try contradiction; try discriminate K; try exact K.
  apply IH. exact K.
Qed.
Lemma same_effect k b arg c c' : accepted k b arg -> idle w k b arg -> effect k b arg c c' -> R c c'.
Proof.
  assert (Add : forall key v, ~ concerns w key v -> adds_name key v c c' -> R c c').
  { intros key v N (A1 & A2 & A3 & A4 & A5). unfold same_for_program. split; [|split; [|split; [|split]]].
    - intros k' x H. destruct (list_key_eq k' key) as [->|D]; [|rewrite (A2 k' D); reflexivity].
      rewrite A1, in_app_iff. split; [intros [Q|[<-|[]]]; [exact Q|contradiction]|auto].
    - apply A2. intros <-. apply N. exact I.
    - intros k' x _. rewrite A3. reflexivity.
    - intros k' x _. rewrite A4. reflexivity.
    - exact A5. }
  assert (Un : unchanged c c' -> R c c').
  { intros (A1 & A3 & A4 & A5). unfold same_for_program. split; [|split; [|split; [|split]]].
    - intros k' x _. rewrite A1. reflexivity.
    - apply A1.
    - intros k' x _. rewrite A3. reflexivity.
    - intros k' x _. rewrite A4. reflexivity.
    - exact A5. }
  destruct k as [plus minus|p|p|p t|p|p]; cbn [accepted idle effect].
  - intros _ N H. exact (Add _ _ N H).
  - intros _ N H. destruct b; [exact (Add _ _ (N eq_refl) H)|exact (Un H)].
  - intros _ N H. destruct b; [exact (Un H)|exact (Add _ _ (N eq_refl) H)].
  - intros T N H. destruct b; [|exact (Un H)]. destruct (T eq_refl) as [x [v P]]. specialize (N eq_refl x v P).
    destruct (H x v P) as [u [_ (A1 & A2 & A3 & A4 & A5 & A6)]]. unfold same_for_program. split; [|split; [|split; [|split]]].
    + intros k' y _. rewrite A3. reflexivity.
    + apply A3.
    + intros k' y C. destruct (map_key_eq k' p) as [->|D]; [|rewrite (A4 k' D); reflexivity]. apply A2. intros ->. contradiction.
    + intros k' y _. rewrite A5. reflexivity.
    + exact A6.
  - intros [_ [x [v P]]] N H. specialize (N x v P). destruct (H x v P) as (A1 & A2 & A3 & A4 & A5 & A6). unfold same_for_program. split; [|split; [|split; [|split]]].
    + intros k' y _. rewrite A3. reflexivity.
    + apply A3.
    + intros k' y _. rewrite A4. reflexivity.
    + intros k' y C. destruct (vec_key_eq k' p) as [->|D]; [|rewrite (A5 k' D); reflexivity]. apply A2. intros ->. contradiction.
    + exact A6.
  - intros _ [].
Qed.
(** The lines with one line more. *)
Lemma same_more_lines before line after b token arg k : says line b token arg -> In (token, k) directives -> accepted k b arg -> idle w k b arg ->
  forall c c', R c c' -> same_outcome R (read_lines c (before ++ after)) (read_lines c' (before ++ line :: after)).
Proof.
  intros Sy D A N c c' H. rewrite !read_lines_app. pose proof (same_read_lines before c c' H) as K.
  destruct (read_lines c before) as [d| | | |], (read_lines c' before) as [d'| | | |]; cbn [same_outcome bind_r] in *; try contradiction; try discriminate K; try exact K.
  cbn [read_lines]. destruct (line_effect d' line b token arg k Sy D A) as [d2 [-> X]]. cbn [bind_r].
  apply same_read_lines. exact (same_trans _ _ _ _ K (same_effect _ _ _ _ _ A N X)).
Qed.
Lemma same_setup bind skip file before line after text text' b token arg k : pieces_of nl text (before ++ after) -> pieces_of nl text' (before ++ line :: after) ->
  says line b token arg -> In (token, k) directives -> accepted k b arg -> idle w k b arg ->
  forall c c', R c c' -> same_outcome R (setup c bind skip file (Some text)) (setup c' bind skip file (Some text')).
Proof.
  intros P P' Sy D A N c c' H. unfold setup.
  assert (Q : R (assign_list namespaces_to_skip skip (assign_list namespaces_to_bind bind c)) (assign_list namespaces_to_skip skip (assign_list namespaces_to_bind bind c'))).
  { destruct H as (A1 & A2 & A3 & A4 & A5). unfold same_for_program, assign_list. cbn [lists maps vecs strs]. split; [|split; [|split; [|split]]]; auto.
    intros k' x C. destruct (list_key_eq k' namespaces_to_skip); [reflexivity|]. destruct (list_key_eq k' namespaces_to_bind); [reflexivity|]. apply A1. exact C. }
  destruct file as [|ch file]; [exact Q|]. cbn [read]. unfold read_text. apply split_char_iff in P, P'. rewrite <- P, <- P'.
  eapply same_more_lines; eassumption.
Qed.
End Steps.
