(** Proofs about the scanner of SpecLex.v. *)
From Coq Require Import Ascii String Bool Arith NArith Lia.
From Coq Require Import List.
From Verif Require Import Str StrFacts SpecUtil Util UtilFacts Config Ast Types Func Enum Includes Class Context SpecTypes SpecBind SpecClass SpecContext SpecIncludes SpecOutput TypesFacts BindFacts WriteFacts SpecLex.
Import ListNotations.

Lemma scan_app p a b : scan_from p (a ++ b) = scan_from (scan_from p a) b.
Proof. unfold scan_from. apply fold_left_app. Qed.
Lemma scan_none s : scan_from None s = None.
Proof. induction s as [|c s IH]; [reflexivity|exact IH]. Qed.
Lemma scan_nil p : scan_from p [] = p.
Proof. reflexivity. Qed.
Lemma scan_cons p c s : scan_from (Some p) (c :: s) = scan_from (scan_char p c) s.
Proof. reflexivity. Qed.

(** ** Brackets opened before *)
Lemma code_char_frame st c m st' rest : code_char st c = Some (m, st') -> code_char (st ++ rest) c = Some (m, st' ++ rest).
Proof.
  unfold code_char. intros H. repeat (match goal with |- context [if ?b then _ else _] => destruct b | |- context [match closer c with _ => _ end] => destruct (closer c) end;
    try discriminate; try (injection H as <- <-; reflexivity)).
  destruct st as [|d st]; [discriminate|]. cbn [app]. destruct (Ascii.eqb c d); [|discriminate]. injection H as <- <-. reflexivity.
Qed.
Lemma scan_char_frame m st c m' st' rest : scan_char (m, st) c = Some (m', st') -> scan_char (m, st ++ rest) c = Some (m', st' ++ rest).
Proof.
  intros H. destruct m; cbn [scan_char] in *.
  - apply code_char_frame, H.
  - repeat (match goal with |- context [if ?b then _ else _] => destruct b end; try discriminate; try (injection H as <- <-; reflexivity)). apply code_char_frame, H.
  - repeat (match goal with |- context [if ?b then _ else _] => destruct b end; try discriminate; try (injection H as <- <-; reflexivity)).
  - repeat (match goal with |- context [if ?b then _ else _] => destruct b end; try discriminate; try (injection H as <- <-; reflexivity)).
  - repeat (match goal with |- context [if ?b then _ else _] => destruct b end; try discriminate; try (injection H as <- <-; reflexivity)).
  - repeat (match goal with |- context [if ?b then _ else _] => destruct b end; try discriminate; try (injection H as <- <-; reflexivity)).
Qed.
Lemma scan_frame s rest : forall m st m' st', scan_from (Some (m, st)) s = Some (m', st') -> scan_from (Some (m, st ++ rest)) s = Some (m', st' ++ rest).
Proof.
  induction s as [|c s IH]; intros m st m' st' H.
  - injection H as <- <-. reflexivity.
  - rewrite scan_cons in *. destruct (scan_char (m, st) c) as [[m1 st1]|] eqn:E; [|rewrite scan_none in H; discriminate].
    rewrite (scan_char_frame _ _ _ _ _ rest E). exact (IH _ _ _ _ H).
Qed.

(** ** Neutral texts *)

(** The text leaves a place of the given mode unchanged. *)
Definition keeps (m : mode) (s : str) : Prop := forall st, scan_from (Some (m, st)) s = Some (m, st).
(** The same for names that can end with a slash. *)
Definition passes (s : str) : Prop := forall st, scan_from (Some (Code, st)) s = Some (Code, st) \/ scan_from (Some (Code, st)) s = Some (Slash, st).
Lemma keeps_nil m : keeps m [].
Proof. intros st. reflexivity. Qed.
Lemma keeps_app m a b : keeps m a -> keeps m b -> keeps m (a ++ b).
Proof. intros A B st. rewrite scan_app, A. apply B. Qed.
Lemma keeps_concat m l : (forall x, In x l -> keeps m x) -> keeps m (concat l).
Proof. induction l as [|x l IH]; intros H; cbn [concat]; [apply keeps_nil|]. apply keeps_app; [apply H; left; reflexivity|apply IH; intros y I; apply H; right; exact I]. Qed.
Lemma keeps_well_formed s : well_formed s <-> keeps Code s.
Proof. split; [|intros H; exact (H [])]. intros H st. exact (scan_frame s st _ _ _ _ H). Qed.
Lemma eqb_neq c d : c <> d -> Ascii.eqb c d = false.
Proof. apply Ascii.eqb_neq. Qed.
Lemma plain_lit s : plain s -> keeps (Lit dq) s.
Proof.
  intros H st. induction s as [|c s IH]; [reflexivity|]. rewrite scan_cons.
  assert (E : scan_char (Lit dq, st) c = Some (Lit dq, st)).
  { cbn [scan_char]. pose proof (H c (or_introl eq_refl)) as N. cbn [In] in N. rewrite !eqb_neq; [reflexivity| | |]; intros ->; tauto. }
  rewrite E. apply IH. intros d I. apply H. right. exact I.
Qed.
Lemma one_line_rest s : one_line s -> keeps Rest s.
Proof.
  intros H st. induction s as [|c s IH]; [reflexivity|]. rewrite scan_cons.
  assert (E : scan_char (Rest, st) c = Some (Rest, st)).
  { cbn [scan_char]. pose proof (H c (or_introl eq_refl)) as N. cbn [In] in N. rewrite !eqb_neq; [reflexivity| |]; intros ->; tauto. }
  rewrite E. apply IH. intros d I. apply H. right. exact I.
Qed.
Lemma plain_one_line s : plain s -> one_line s.
Proof. intros H c I X. apply (H c I). right. exact X. Qed.
Lemma tidy_code s : tidy s -> keeps Code s.
Proof. intros [_ [_ [_ H]]]. apply keeps_well_formed, H. Qed.
Lemma tidy_lit s : tidy s -> keeps (Lit dq) s.
Proof. intros [H _]. apply plain_lit, H. Qed.
Lemma tidy_rest s : tidy s -> keeps Rest s.
Proof. intros [H _]. apply one_line_rest, plain_one_line, H. Qed.
Lemma name_passes s : tidy_name s -> passes s.
Proof. intros [_ [_ [_ [H|H]]]] st; [left|right]; exact (scan_frame s st _ _ _ _ H). Qed.
Lemma name_lit s : tidy_name s -> keeps (Lit dq) s.
Proof. intros [H _]. apply plain_lit, H. Qed.
Lemma name_rest s : tidy_name s -> keeps Rest s.
Proof. intros [H _]. apply one_line_rest, plain_one_line, H. Qed.
Lemma tidy_is_name s : tidy s -> tidy_name s.
Proof. intros [A [B [C D]]]. repeat split; auto. Qed.
Lemma plain_app a b : plain a -> plain b -> plain (a ++ b).
Proof. intros A B c I. apply in_app_iff in I. destruct I as [I|I]; [apply A, I|apply B, I]. Qed.
Lemma one_line_app a b : one_line a -> one_line b -> one_line (a ++ b).
Proof. intros A B c I. apply in_app_iff in I. destruct I as [I|I]; [apply A, I|apply B, I]. Qed.
Lemma plain_part a s : plain s -> (forall c, In c a -> In c s) -> plain a.
Proof. intros H I c J. apply H, I, J. Qed.
Lemma one_line_part a s : one_line s -> (forall c, In c a -> In c s) -> one_line a.
Proof. intros H I c J. apply H, I, J. Qed.
(** Constant texts. *)
Definition plainb (s : str) : bool := forallb (fun c => negb (Ascii.eqb c dq) && negb (Ascii.eqb c bs) && negb (Ascii.eqb c nl)) s.
Lemma plainb_ok s : plainb s = true -> plain s.
Proof.
  unfold plainb. rewrite forallb_forall. intros H c I X. specialize (H c I). rewrite !andb_true_iff, !negb_true_iff in H. destruct H as [[A B] C].
  apply Ascii.eqb_neq in A, B, C. cbn [In] in X. destruct X as [X|[X|[X|[]]]]; congruence.
Qed.

(** ** Numbers *)
Lemma dec_plain n : plain (dec n).
Proof.
  intros c I. assert (D : forall d, is_digit d = false -> ~ In d (dec n)) by (intros d; apply dec_no_char).
  cbn [In]. intros [<-|[<-|[<-|[]]]]; revert I; apply D; reflexivity.
Qed.
Lemma digits_code s : (forall c, In c s -> is_digit c = true) -> keeps Code s.
Proof.
  intros H st. induction s as [|c s IH]; [reflexivity|]. rewrite scan_cons.
  assert (E : scan_char (Code, st) c = Some (Code, st)).
  { pose proof (H c (or_introl eq_refl)) as D. destruct c as [[] [] [] [] [] [] [] []]; try reflexivity; discriminate D. }
  rewrite E. apply IH. intros d I. apply H. right. exact I.
Qed.

Lemma dec_code n : keeps Code (dec n).
Proof. apply digits_code. intros c. apply dec_digits. Qed.
Lemma dec_rest n : keeps Rest (dec n).
Proof. apply one_line_rest, plain_one_line, dec_plain. Qed.

(** ** Documentation *)
Lemma escape_lit t : keeps (Lit dq) (escape_text t).
Proof.
  rewrite escape_text_flat. induction t as [|x t IH]; [apply keeps_nil|]. cbn [flat_map]. apply keeps_app; [|exact IH].
  unfold esc1. intros st. destruct (Ascii.eqb_spec x bs) as [->|N1]; [reflexivity|]. destruct (Ascii.eqb_spec x dq) as [->|N2]; [reflexivity|].
  destruct (Ascii.eqb_spec x nl) as [->|N3]; [reflexivity|]. rewrite scan_cons. cbn [scan_char]. rewrite !eqb_neq by assumption. reflexivity.
Qed.
Lemma documentation_lit c : keeps (Lit dq) (documentation_string c).
Proof. destruct c as [c|]; [apply escape_lit|apply keeps_nil]. Qed.

(** ** Indentation *)
Definition line_mode (m : mode) : Prop := m = Code \/ m = Rest.
Lemma scan_nl p m st : scan_char p nl = Some (m, st) -> line_mode m.
Proof.
  destruct p as [[| | | |q|q] st0]; cbn [scan_char].
  - change (Some (Code, st0) = Some (m, st) -> line_mode m). intros H. injection H as <- _. left; reflexivity.
  - change (Some (Code, st0) = Some (m, st) -> line_mode m). intros H. injection H as <- _. left; reflexivity.
  - change (Some (Code, st0) = Some (m, st) -> line_mode m). intros H. injection H as <- _. left; reflexivity.
  - change (Some (Rest, st0) = Some (m, st) -> line_mode m). intros H. injection H as <- _. right; reflexivity.
  - destruct (Ascii.eqb nl q); [intros H; injection H as <- _; left; reflexivity|]. change (None = Some (m, st) -> line_mode m). discriminate.
  - change (None = Some (m, st) -> line_mode m). discriminate.
Qed.
Lemma tabs_keep ind m : line_mode m -> (forall c, In c ind -> c = tab) -> keeps m ind.
Proof.
  intros L H st. induction ind as [|c ind IH]; [reflexivity|]. rewrite scan_cons, (H c (or_introl eq_refl)).
  assert (E : scan_char (m, st) tab = Some (m, st)) by (destruct L as [->| ->]; reflexivity). rewrite E. apply IH. intros d I. apply H. right. exact I.
Qed.
Lemma scan_indent_lines ind ls : (forall c, In c ind -> c = tab) -> forall p, (forall m st, p = Some (m, st) -> line_mode m) ->
  scan_from p (concat (map (fun l => indent_line ind l ++ [nl]) ls)) = scan_from p (concat (map (fun l => l ++ [nl]) ls)).
Proof.
  intros T. induction ls as [|l ls IH]; intros p L; [reflexivity|]. cbn [map concat]. rewrite !scan_app.
  assert (E : scan_from p (indent_line ind l) = scan_from p l).
  { unfold indent_line. destruct l as [|c l]; [reflexivity|]. destruct p as [[m st]|]; [|rewrite !scan_none; reflexivity].
    rewrite scan_app, (tabs_keep ind m (L _ _ eq_refl) T). reflexivity. }
  rewrite E. apply IH. intros m st. destruct (scan_from p l) as [q|]; [|discriminate]. apply scan_nl.
Qed.
Lemma indent_code ind s : (forall c, In c ind -> c = tab) -> keeps Code s -> keeps Code (indent s ind).
Proof.
  intros T H st. rewrite indent_concat, (scan_indent_lines ind _ T); [|intros m st0 X; injection X as <- _; left; reflexivity].
  destruct (split_pieces nl s) as [t [r [E [N ->]]]]. rewrite map_app, concat_app.
  destruct r as [|c r].
  - rewrite app_nil_r in E. cbn [map concat]. rewrite app_nil_r, <- E. apply H.
  - cbn [map concat]. rewrite app_nil_r, app_assoc, <- E, scan_app, H. reflexivity.
Qed.

(** ** Steps *)
Lemma scan_step p q r a b : scan_from p a = q -> scan_from q b = r -> scan_from p (a ++ b) = r.
Proof. intros A B. rewrite scan_app, A. exact B. Qed.
Lemma keeps_at m s st : keeps m s -> scan_from (Some (m, st)) s = Some (m, st).
Proof. intros H. apply H. Qed.
Definition head_ok (s : str) : bool := match s with [] => false | c :: _ => negb (Ascii.eqb c "/") && negb (Ascii.eqb c "*") end.
Lemma scan_name a b st r : passes a -> head_ok b = true -> scan_from (Some (Code, st)) b = r -> scan_from (Some (Code, st)) (a ++ b) = r.
Proof.
  intros P H <-. rewrite scan_app. destruct (P st) as [-> | ->]; [reflexivity|]. destruct b as [|c b]; [discriminate|].
  cbn [head_ok] in H. apply andb_true_iff in H. destruct H as [H1 H2]. rewrite negb_true_iff in H1, H2.
  rewrite !scan_cons. cbn [scan_char]. rewrite H1, H2. reflexivity.
Qed.
