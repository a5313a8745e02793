(** Texts that differ in documentation only, and items with such texts. *)
From Coq Require Import Ascii String Bool Arith NArith.
From Coq Require Import List.
From Verif Require Import Str StrFacts SpecUtil Util UtilFacts Config Ast Types Func Enum Includes Class Context SpecSettings SpecLines StyleFacts.
Import ListNotations.

(** ** Concatenation *)
Lemma bd_pre a s s' : but_documentation s s' -> but_documentation (a ++ s) (a ++ s').
Proof. intros H. apply bd_app; [apply bd_same|exact H]. Qed.
Lemma bd_post a s s' : but_documentation s s' -> but_documentation (s ++ a) (s' ++ a).
Proof. intros H. apply bd_app; [exact H|apply bd_same]. Qed.
Lemma bd_cons c s s' : but_documentation s s' -> but_documentation (c :: s) (c :: s').
Proof. apply (bd_pre [c]). Qed.
Lemma bd_nil_iff s s' : but_documentation s s' -> (s = [] <-> s' = []).
Proof.
  induction 1 as [s|a a' b b' _ IHa _ IHb|d d'|d d']; [tauto| |split; discriminate|split; discriminate].
  split; intros E; apply app_eq_nil in E; destruct E as [E1 E2].
  - rewrite (proj1 IHa E1), (proj1 IHb E2). reflexivity.
  - rewrite (proj2 IHa E1), (proj2 IHb E2). reflexivity.
Qed.

(** ** Indentation, character by character *)
Section Indent.
Variable ind : str.
Fixpoint walk (start : bool) (s : str) : str :=
  match s with
  | [] => []
  | c :: s' => if Ascii.eqb c nl then c :: walk true s' else (if start then ind else []) ++ c :: walk false s'
  end.
Fixpoint after (start : bool) (s : str) : bool :=
  match s with [] => start | c :: s' => after (Ascii.eqb c nl) s' end.
Definition closing (start : bool) : str := if start then [] else [nl].
Lemma walk_app b : forall a st, walk st (a ++ b) = walk st a ++ walk (after st a) b.
Proof.
  induction a as [|c a IH]; intros st; [reflexivity|]. cbn [app walk after]. destruct (Ascii.eqb c nl).
  - rewrite IH. reflexivity.
  - rewrite IH, <- app_assoc. reflexivity.
Qed.
Lemma after_app b : forall a st, after st (a ++ b) = after (after st a) b.
Proof. induction a as [|c a IH]; intros st; [reflexivity|]. cbn [app after]. apply IH. Qed.
Lemma walk_no_nl s : ~ In nl s -> forall st, walk st s = (if st then match s with [] => [] | _ => ind end else []) ++ s.
Proof.
  induction s as [|c s IH]; intros N st; [destruct st; reflexivity|]. cbn [walk].
  destruct (Ascii.eqb_spec c nl) as [->|E]; [destruct N; left; reflexivity|]. rewrite IH; [destruct st; reflexivity|]. intros X. apply N. right. exact X.
Qed.
Lemma after_no_nl s : ~ In nl s -> forall st, after st s = match s with [] => st | _ => false end.
Proof.
  induction s as [|c s IH]; intros N st; [reflexivity|]. cbn [after]. destruct (Ascii.eqb_spec c nl) as [->|E]; [destruct N; left; reflexivity|].
  rewrite IH; [destruct s; reflexivity|]. intros X. apply N. right. exact X.
Qed.
Lemma walk_lines (ls : list str) (rest : str) : (forall l, In l ls -> ~ In nl l) -> ~ In nl rest ->
  walk true (concat (map (fun l => l ++ [nl]) ls) ++ rest) ++ closing (after true (concat (map (fun l => l ++ [nl]) ls) ++ rest)) =
  concat (map (fun l => indent_line ind l ++ [nl]) (ls ++ (match rest with [] => [] | _ => [rest] end))).
Proof.
  intros A B. induction ls as [|l ls IH]; cbn [map concat app].
  - rewrite (walk_no_nl rest B), (after_no_nl rest B). destruct rest as [|c r]; [reflexivity|]. cbn [map concat closing indent_line]. rewrite app_nil_r, <- app_assoc. reflexivity.
  - assert (L : ~ In nl l) by (apply A; left; reflexivity). assert (K : forall x, In x ls -> ~ In nl x) by (intros x X; apply A; right; exact X).
    specialize (IH K). rewrite <- !app_assoc. rewrite (walk_app _ l true), (after_app _ l true), (walk_no_nl l L), (after_no_nl l L).
    cbn [app walk after]. rewrite Ascii.eqb_refl. cbn [app]. rewrite <- !app_assoc. cbn [app]. rewrite IH.
    unfold indent_line at 2. destruct l as [|c l]; cbn [app]; rewrite <- ?app_assoc; reflexivity.
Qed.
Lemma indent_walk s : indent s ind = walk true s ++ closing (after true s).
Proof.
  rewrite indent_concat. destruct (split_pieces nl s) as (t & r & -> & N & ->). symmetry. apply walk_lines.
  - intros l X. apply N. right. exact X.
  - apply N. left. reflexivity.
Qed.
Lemma escaped_no_nl t : ~ In nl (escape_text t).
Proof.
  rewrite escape_text_flat. intros X. apply in_flat_map in X. destruct X as (y & Y & X). revert X. unfold esc1.
  destruct (Ascii.eqb_spec y bs) as [E1|E1]; [intros [X|[X|[]]]; discriminate X|].
  destruct (Ascii.eqb_spec y dq) as [E2|E2]; [intros [X|[X|[]]]; discriminate X|].
  destruct (Ascii.eqb_spec y nl) as [E3|E3]; [intros [X|[X|[]]]; discriminate X|]. intros [X|[]]. exact (E3 X).
Qed.
Lemma documentation_no_nl d : ~ In nl (documentation_string d).
Proof. destruct d as [c|]; [apply escaped_no_nl|]. intros []. Qed.
Lemma comment_part_no_nl d : ~ In nl (comment_part d).
Proof.
  unfold comment_part. pose proof (documentation_no_nl d) as N. destruct (documentation_string d) as [|c x]; [exact N|].
  intros X. apply in_app_or in X. destruct X as [X|X]; [exact (N X)|]. cbn in X. repeat (destruct X as [X|X]; [discriminate X|]). exact X.
Qed.
Lemma walk_piece (a : str) c : ~ In nl (c :: a) -> forall st, walk st (c :: a) = (if st then ind else []) ++ c :: a /\ after st (c :: a) = false.
Proof. intros N st. rewrite walk_no_nl by exact N. rewrite after_no_nl by exact N. split; reflexivity. Qed.
Lemma bd_walk s s' : but_documentation s s' -> forall st, but_documentation (walk st s) (walk st s') /\ after st s' = after st s.
Proof.
  assert (Q : forall d t, ~ In nl d -> ~ In nl t -> ~ In nl (dq :: d ++ t)).
  { intros d t N T [X|X]; [discriminate X|]. apply in_app_or in X. destruct X as [X|X]; [exact (N X)|exact (T X)]. }
  assert (T1 : ~ In nl [dq]) by (intros [X|[]]; discriminate X).
  assert (T2 : ~ In nl $"C++: ") by (intros X; cbn in X; repeat (destruct X as [X|X]; [discriminate X|]); exact X).
  induction 1 as [s|a a' b b' _ IHa _ IHb|d d'|d d']; intros st.
  - split; [apply bd_same|reflexivity].
  - rewrite !walk_app, !after_app. destruct (IHa st) as [A1 A2]. rewrite A2. destruct (IHb (after st a)) as [B1 B2]. split; [apply bd_app; assumption|exact B2].
  - cbn [app]. destruct (walk_piece (documentation_string d ++ [dq]) dq (Q _ _ (documentation_no_nl d) T1) st) as [-> ->].
    destruct (walk_piece (documentation_string d' ++ [dq]) dq (Q _ _ (documentation_no_nl d') T1) st) as [-> ->].
    split; [exact (bd_pre _ _ _ (bd_literal d d'))|reflexivity].
  - cbn [app]. destruct (walk_piece (comment_part d ++ $"C++: ") dq (Q _ _ (comment_part_no_nl d) T2) st) as [-> ->].
    destruct (walk_piece (comment_part d' ++ $"C++: ") dq (Q _ _ (comment_part_no_nl d') T2) st) as [-> ->].
    split; [exact (bd_pre _ _ _ (bd_function d d'))|reflexivity].
Qed.
Lemma bd_indent s s' : but_documentation s s' -> but_documentation (indent s ind) (indent s' ind).
Proof. intros H. rewrite !indent_walk. destruct (bd_walk s s' H true) as [A B]. rewrite B. apply bd_post. exact A. Qed.
End Indent.

(** ** Emitted texts *)
Definition redoc_emitted (a b : emitted) : Prop := but_documentation (fst a) (fst b) /\ snd b = snd a.
Lemma bd_emit {A} (f g : A -> result emitted) l : (forall x, same_outcome redoc_emitted (f x) (g x)) ->
  same_outcome redoc_emitted (emit_all (map f l)) (emit_all (map g l)).
Proof.
  intros F. induction l as [|x l IH]; cbn [map emit_all]; [split; [apply bd_same|reflexivity]|].
  apply (so_bind redoc_emitted); [apply F|]. intros [s q] [s' q'] [E1 E2]. apply (so_bind redoc_emitted); [exact IH|].
  intros [t p] [t' p'] [F1 F2]. cbn in *. split; cbn; [apply bd_app; assumption|congruence].
Qed.
Lemma removelast_tail {A} (a b : list A) : b <> [] -> removelast (a ++ b) = a ++ removelast b.
Proof. apply removelast_app. Qed.

(** ** Lists of items *)
Section Items.
Variable Q : binder -> binder -> Prop.
Hypothesis QD : forall b b', Q b b' -> b_decl b' = b_decl b.
Hypothesis QP : forall b b', Q b b' -> b_deps b' = b_deps b.
Local Notation sims := (Forall2 Q).
Lemma qs_length l l' : sims l l' -> length l' = length l.
Proof. induction 1; cbn; congruence. Qed.
Lemma qs_nth l l' i : sims l l' -> match nth_error l i, nth_error l' i with Some b, Some b' => Q b b' | None, None => True | _, _ => False end.
Proof. intros F. revert i. induction F as [|x y l l' E F IH]; intros [|i]; cbn; [exact Logic.I|exact Logic.I|exact E|apply IH]. Qed.
Lemma qs_update (f g : binder -> binder) l l' i : (forall b b', Q b b' -> Q (f b) (g b')) -> sims l l' -> sims (update_nth i f l) (update_nth i g l').
Proof.
  intros K F. revert i. induction F as [|x y l l' E F IH]; intros [|i]; cbn [update_nth]; constructor; auto.
Qed.
Lemma qs_skipn n l l' : sims l l' -> sims (skipn n l) (skipn n l').
Proof. intros F. revert n. induction F as [|x y l l' E F IH]; intros [|n]; cbn [skipn]; [constructor|constructor|constructor; assumption|apply IH]. Qed.
Lemma qs_firstn n l l' : sims l l' -> sims (firstn n l) (firstn n l').
Proof. intros F. revert n. induction F as [|x y l l' E F IH]; intros [|n]; cbn [firstn]; try constructor; auto. Qed.
Lemma qs_rotate n l l' : sims l l' -> sims (rotate n l) (rotate n l').
Proof. intros F. unfold rotate. apply Forall2_app; [apply qs_skipn|apply qs_firstn]; exact F. Qed.
Lemma q_node b b' : Q b b' -> node b' = node b.
Proof. intros E. unfold node. rewrite (QD _ _ E). reflexivity. Qed.
Lemma qs_index i l l' : sims l l' -> index_of (is_node i) l' = index_of (is_node i) l.
Proof.
  induction 1 as [|x y l l' E F IH]; cbn [index_of]; [reflexivity|]. unfold is_node at 1 3. rewrite (q_node _ _ E), IH. reflexivity.
Qed.
Definition q_move (a b : list binder * bool) : Prop := sims (fst a) (fst b) /\ snd b = snd a.
Lemma q_move_deps key known binded deps : forall l l' again, sims l l' ->
  same_outcome q_move (move_deps key known binded deps l again) (move_deps key known binded deps l' again).
Proof.
  induction deps as [|i deps IH]; intros l l' again F; cbn [move_deps]; [split; [exact F|reflexivity]|].
  apply so_if; [apply IH; exact F|]. rewrite (qs_index i l l' F). destruct (index_of (is_node i) l).
  - apply IH. apply qs_rotate. exact F.
  - apply so_if; [apply IH; exact F|reflexivity].
Qed.
Definition q_scan (a b : list binder + list binder) : Prop :=
  match a, b with inl x, inl y | inr x, inr y => sims x y | _, _ => False end.
Lemma q_scan_same key known : forall rest rest' before before' binded, sims rest rest' -> sims before before' ->
  same_outcome q_scan (scan key known before binded rest) (scan key known before' binded rest').
Proof.
  intros rest rest' before before' binded F. revert before before' binded. induction F as [|x y l l' E F IH]; intros before before' binded G; cbn [scan]; [exact G|].
  rewrite (q_node _ _ E). destruct (node x).
  - rewrite (QP _ _ E).
    apply (so_bind q_move); [apply q_move_deps; constructor; assumption|]. intros [s again] [s' again'] [A B]. cbn [fst snd] in A, B. subst again'.
    apply so_if; [exact (Forall2_app G A)|]. apply IH. apply Forall2_app; [exact G|]. constructor; [exact E|constructor].
  - apply IH. apply Forall2_app; [exact G|]. constructor; [exact E|constructor].
Qed.
Lemma q_sort_loop key known n : forall l l', sims l l' -> same_outcome sims (sort_loop n key known l) (sort_loop n key known l').
Proof.
  induction n as [|n IH]; intros l l' F; cbn [sort_loop]; [reflexivity|].
  apply (so_bind q_scan); [apply q_scan_same; [exact F|constructor]|]. intros [a|a] [b|b] E; try contradiction; [apply IH; exact E|exact E].
Qed.
End Items.
Lemma redocumented_refl b : redocumented b b.
Proof. repeat split. apply bd_same. Qed.
Lemma redocumented_refls l : Forall2 redocumented l l.
Proof. induction l; constructor; [apply redocumented_refl|assumption]. Qed.
Definition redoc_bound (a b : cbound) : Prop :=
  cb_incl b = cb_incl a /\ cb_deps b = cb_deps a /\ cb_req b = cb_req a /\ cb_prefix b = cb_prefix a /\ but_documentation (cb_code a) (cb_code b).
