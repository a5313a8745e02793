(** C104: --bind and --skip are namespace lines of the config file *)
From Coq Require Import Ascii String Bool Arith NArith.
From Coq Require Import List.
From Verif Require Import Str StrFacts SpecUtil Util UtilFacts Config SpecConfig ConfigFacts SpecSettings SpecStyle StyleConfig MonotoneConfig Ast Types Func Enum Includes Class Context SpecContext Program PropertiesProgram SpecOptionLines Samples.
Import ListNotations.

(** The settings agree once the lines [plus] and [minus] have been read. *)
Definition but_for (plus minus : list str) (c c' : config) : Prop :=
  (forall n, In n (lists c namespaces_to_bind) <-> In n (lists c' namespaces_to_bind) \/ In n plus) /\
  (forall n, In n (lists c namespaces_to_skip) <-> In n (lists c' namespaces_to_skip) \/ In n minus) /\
  (forall k, k <> namespaces_to_bind -> k <> namespaces_to_skip -> lists c' k = lists c k) /\
  (forall k, maps c' k = maps c k) /\ (forall k, vecs c' k = vecs c k) /\ (forall k, strs c' k = strs c k).
Local Notation bf := but_for.
Lemma bf_push p m k v c c' : bf p m c c' -> bf p m (push k v c) (push k v c').
Proof.
  intros (A&B&D&F). split; [|split; [|split; [|exact F]]].
  - intros n. cbn [lists push]. destruct (list_key_eq _ k); [|apply A]. rewrite !in_app_iff, A. tauto.
  - intros n. cbn [lists push]. destruct (list_key_eq _ k); [|apply B]. rewrite !in_app_iff, B. tauto.
  - intros j J J'. cbn [lists push]. destruct (list_key_eq j k) as [->|]; rewrite D by assumption; reflexivity.
Qed.
Lemma bf_put p m k x v c c' : bf p m c c' -> bf p m (put k x v c) (put k x v c').
Proof. intros (A&B&D&M&V&S). split; [exact A|split; [exact B|split; [exact D|split; [|split; [exact V|exact S]]]]]. intros j. cbn [maps put]. rewrite M. reflexivity. Qed.
Lemma bf_assign p m k v c c' : bf p m c c' -> bf p m (assign k v c) (assign k v c').
Proof. intros (A&B&D&M&V&S). split; [exact A|split; [exact B|split; [exact D|split; [exact M|split; [exact V|]]]]]. intros j. cbn [strs assign]. rewrite S. reflexivity. Qed.
Lemma bf_put_vec p m k x v c c' : bf p m c c' -> bf p m (put_vec k x v c) (put_vec k x v c').
Proof. intros (A&B&D&M&V&S). split; [exact A|split; [exact B|split; [exact D|split; [exact M|split; [|exact S]]]]]. intros j. cbn [vecs put_vec]. rewrite V. reflexivity. Qed.
Lemma bf_keyed p m name line what form f g :
  (forall x v, bf p m (f x v) (g x v)) -> same_outcome (bf p m) (keyed name line what form f) (keyed name line what form g).
Proof. intros K. unfold keyed. destruct (split_in_two _ _) as [[x v]| | | |]; cbn; auto. Qed.
Lemma bf_if p m (b : bool) x y x' y' : same_outcome (bf p m) x x' -> same_outcome (bf p m) y y' -> same_outcome (bf p m) (if b then x else y) (if b then x' else y').
Proof. destruct b; auto. Qed.
Lemma bf_token p m c c' bind token name line : bf p m c c' -> same_outcome (bf p m) (read_token c bind token name line) (read_token c' bind token name line).
Proof.
  intros E. unfold read_token. cbv zeta.
  repeat (apply bf_if; [first
    [ exact (bf_push _ _ _ _ _ _ E)
    | exact (bf_assign _ _ _ _ _ _ E)
    | destruct bind; first
        [ reflexivity | exact E | exact (bf_push _ _ _ _ _ _ E)
        | apply bf_keyed; intros x v; first [apply bf_put_vec | apply bf_put]; exact E ] ]|]).
  reflexivity.
Qed.
Lemma bf_line p m c c' line : bf p m c c' -> same_outcome (bf p m) (read_line c line) (read_line c' line).
Proof.
  intros E. unfold read_line. destruct line as [|ch line]; [exact E|]. destruct (Ascii.eqb ch "#"); [exact E|]. cbv zeta.
  destruct (drop_cr (ch :: line)) as [|sign rest]; [exact E|]. destruct (_ && _); [reflexivity|].
  destruct (find_char _ _); [|reflexivity]. apply bf_token. exact E.
Qed.
Lemma bf_plus p m v c c' : bf (v :: p) m c c' -> bf p m c (push namespaces_to_bind v c').
Proof.
  intros (A&B&D&F). split; [|split; [|split; [|exact F]]].
  - intros n. cbn [lists push]. destruct (list_key_eq _ _) as [_|Q]; [|destruct (Q eq_refl)]. rewrite in_app_iff, A. cbn [In]. tauto.
  - intros n. cbn [lists push]. destruct (list_key_eq _ _) as [Q|_]; [discriminate Q|apply B].
  - intros j J J'. cbn [lists push]. destruct (list_key_eq j _) as [Q|_]; [contradiction|apply D; assumption].
Qed.
Lemma bf_minus p m v c c' : bf p (v :: m) c c' -> bf p m c (push namespaces_to_skip v c').
Proof.
  intros (A&B&D&F). split; [|split; [|split; [|exact F]]].
  - intros n. cbn [lists push]. destruct (list_key_eq _ _) as [Q|_]; [discriminate Q|apply A].
  - intros n. cbn [lists push]. destruct (list_key_eq _ _) as [_|Q]; [|destruct (Q eq_refl)]. rewrite in_app_iff, B. cbn [In]. tauto.
  - intros j J J'. cbn [lists push]. destruct (list_key_eq j _) as [Q|_]; [contradiction|apply D; assumption].
Qed.
Lemma bf_lines ls ls' plus minus : namespace_lines ls ls' plus minus -> forall c c', bf plus minus c c' ->
  same_outcome (bf [] []) (read_lines c ls) (read_lines c' ls').
Proof.
  intros R. induction R as [|l a b p m R IH|l arg a b p m S R IH|l arg a b p m S R IH]; intros c c' E; cbn [read_lines].
  - exact E.
  - pose proof (bf_line p m c c' l E) as K. destruct (read_line c l), (read_line c' l); cbn [bind_r same_outcome] in *; try contradiction; try exact K. apply IH, K.
  - destruct (read_line_says c' l _ _ _ S) as (t&_&->). cbn [read_token streqb]. cbn [bind_r]. apply IH, bf_plus, E.
  - destruct (read_line_says c' l _ _ _ S) as (t&_&->). cbn [read_token streqb]. cbn [bind_r]. apply IH, bf_minus, E.
Qed.
Lemma bf_same c c' : bf [] [] c c' -> same_settings c c' /\ lists c' includes_to_add = lists c includes_to_add.
Proof.
  intros (A&B&D&M&V&S). split; [|apply D; discriminate]. split; [|split; [|split; [exact S|]]].
  - intros k x. destruct (list_key_eq k namespaces_to_bind) as [->|N]; [rewrite A; cbn [In]; tauto|].
    destruct (list_key_eq k namespaces_to_skip) as [->|N']; [rewrite B; cbn [In]; tauto|]. rewrite D by assumption. tauto.
  - intros k x. rewrite M. reflexivity.
  - intros k x i. rewrite V. tauto.
Qed.
Lemma bf_options bind skip bind' skip' plus minus : moved bind bind' plus -> moved skip skip' minus ->
  bf plus minus (assign_list namespaces_to_skip skip (assign_list namespaces_to_bind bind default_config))
    (assign_list namespaces_to_skip skip' (assign_list namespaces_to_bind bind' default_config)).
Proof.
  intros A B. split; [exact A|split; [exact B|split; [|split; [reflexivity|split; reflexivity]]]].
  intros k K K'. destruct k; try reflexivity; contradiction.
Qed.

(** Names may be moved from --bind and --skip to +namespace and -namespace lines
    anywhere in the config file: the file is accepted as before or rejected with
    the same message, and everything that is generated is the same. *)
Theorem C104_lines_for_options : forall bind skip bind' skip' plus minus file text text', file <> [] ->
  namespace_lines (split text [nl]) (split text' [nl]) plus minus -> moved bind bind' plus -> moved skip skip' minus ->
  match setup default_config bind skip file (Some text), setup default_config bind' skip' file (Some text') with
  | Ok c, Ok c' => same_settings c c' /\ forall e o visits, run (mkworld e c' o) visits = run (mkworld e c o) visits
  | Throw m, Throw m' => m' = m
  | _, _ => False
  end.
Proof.
  intros bind skip bind' skip' plus minus file text text' Nf L A B. unfold setup. cbv zeta. destruct file as [|ch f]; [contradiction|].
  unfold read, read_text. pose proof (bf_lines _ _ _ _ L _ _ (bf_options _ _ _ _ _ _ A B)) as K.
  destruct (read_lines_total (split text [nl]) (assign_list namespaces_to_skip skip (assign_list namespaces_to_bind bind default_config))) as [[m E]|[c E]];
    rewrite E in *; destruct (read_lines _ (split text' [nl])); cbn [same_outcome] in K; try contradiction; try discriminate; try congruence.
  destruct (bf_same _ _ K) as [S I]. split; [exact S|]. intros e o visits. exact (C73_equivalent_settings_same_includes e o _ _ visits S I).
Qed.
Print Assumptions C104_lines_for_options.
(** The same for a program that had no config file. *)
Theorem C104_file_for_options : forall bind skip plus minus file text c, file <> [] ->
  namespace_lines [] (split text [nl]) plus minus -> moved bind [] plus -> moved skip [] minus ->
  setup default_config bind skip [] None = Ok c ->
  exists c', setup default_config [] [] file (Some text) = Ok c' /\ same_settings c c' /\ forall e o visits, run (mkworld e c' o) visits = run (mkworld e c o) visits.
Proof.
  intros bind skip plus minus file text c Nf L A B E. pose proof (C104_lines_for_options bind skip [] [] plus minus file [] text Nf L A B) as K.
  unfold setup in *. cbv zeta in *. destruct file as [|ch f]; [contradiction|]. unfold read, read_text in *. change (split [] [nl]) with (@nil str) in K. cbn [read_lines] in K.
  apply Ok_out in E. subst c. destruct (read_lines _ (split text [nl])) as [c'| | | |]; try contradiction. exists c'. split; [reflexivity|exact K].
Qed.
Print Assumptions C104_file_for_options.

(** --bind n::m --bind o --skip n::x with a file of one line, and --bind n::m
    with the other names in the file. *)
Definition one_line : str := $"-class n::K" ++ [nl].
Definition three_lines : str := $"-namespace n::x" ++ [nl] ++ $"-class n::K" ++ [nl] ++ $"+namespace o" ++ [nl].
Example C104_case : namespace_lines (split one_line [nl]) (split three_lines [nl]) [$"o"] [$"n::x"] /\
  moved [$"n::m"; $"o"] [$"n::m"] [$"o"] /\ moved [$"n::x"] [] [$"n::x"] /\
  exists c c', setup default_config [$"n::m"; $"o"] [$"n::x"] $"c" (Some one_line) = Ok c /\ setup default_config [$"n::m"] [] $"c" (Some three_lines) = Ok c' /\
    exists x, run (mkworld mix_env c (mix_options false false 300)) mix_visits = Ok x /\ run (mkworld mix_env c' (mix_options false false 300)) mix_visits = Ok x /\
      map b_decl (filter has_code (out_sorted x)) = [DRec 0; DRec 1].
Proof.
  split; [|split; [|split]].
  - change (split one_line [nl]) with [$"-class n::K"]. change (split three_lines [nl]) with [$"-namespace n::x"; $"-class n::K"; $"+namespace o"].
    assert (Sp : forall l : str, existsb (Ascii.eqb sp) l = false -> ~ In sp l).
    { intros l F X. assert (T : existsb (Ascii.eqb sp) l = true) by (apply existsb_exists; exists sp; split; [exact X|apply Ascii.eqb_refl]). congruence. }
    assert (Ln : forall l : str, match rev l with c :: _ => Ascii.eqb c cr | [] => false end = false -> line_text l l).
    { intros l F. right. split; [reflexivity|]. intros t ->. rewrite rev_unit, Ascii.eqb_refl in F. discriminate. }
    apply (nl_minus _ $"n::x"); [split; [discriminate|split; [apply Ln; reflexivity|apply Sp; reflexivity]]|]. apply nl_same.
    apply (nl_plus _ $"o"); [split; [discriminate|split; [apply Ln; reflexivity|apply Sp; reflexivity]]|]. apply nl_end.
  - intros n. cbn [In]. tauto.
  - intros n. cbn [In]. tauto.
  - eexists _, _. split; [reflexivity|]. split; [reflexivity|]. eexists. split; [vm_compute; reflexivity|]. split; vm_compute; reflexivity.
Qed.
