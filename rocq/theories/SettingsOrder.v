(** Config files with the same directives give the same settings. *)
From Coq Require Import Ascii String Bool Arith.
From Coq Require Import List.
From Verif Require Import Str SpecUtil StrFacts Util UtilFacts Config SpecConfig ConfigFacts SpecSettings.
Import ListNotations.

(** What one accepted line does. *)
Lemma line_ok d l d1 : read_line d l = Ok d1 ->
  (ignored_line l /\ d1 = d) \/
  exists bind token arg k, says l bind token arg /\ In (token, k) directives /\ accepted k bind arg /\ effect k bind arg d d1.
Proof.
  intros E. destruct (line_trichotomy l) as [Hi|[[bind [token [arg Hs]]]|[Ht _]]].
  - left. split; [exact Hi|]. rewrite (read_line_ignored d l Hi) in E. congruence.
  - right. exists bind, token, arg. destruct (find_kind token directives) as [k|] eqn:Ek.
    + apply find_kind_In in Ek. exists k. destruct (accepted_dec k bind arg) as [Ha|Ha].
      * destruct (line_effect d l bind token arg k Hs Ek Ha) as [c2 [E2 Hf]]. rewrite E in E2. injection E2 as <-. auto.
      * exfalso. destruct (read_line_says d l bind token arg Hs) as [t [_ Eq]].
        rewrite Eq, read_token_kind, (proj2 (find_kind_In token k) Ek) in E. destruct (apply_kind_reject k bind token arg t Ha d) as [m Em]. congruence.
    + exfalso. destruct (read_line_says d l bind token arg Hs) as [t [_ Eq]]. rewrite Eq, read_token_kind, Ek in E. discriminate.
  - exfalso. destruct (Ht d) as [m Em]. congruence.
Qed.
Lemma kind_det token k k' : In (token, k) directives -> In (token, k') directives -> k = k'.
Proof. intros A B. apply find_kind_In in A, B. congruence. Qed.
Lemma two_parts_det arg x v x' v' : two_parts arg x v -> two_parts arg x' v' -> x = x' /\ v = v'.
Proof.
  intros A B. pose proof (proj1 (two_parts_split arg []) x v A) as P. pose proof (proj1 (two_parts_split arg []) x' v' B) as Q. rewrite P in Q. injection Q as -> ->. auto.
Qed.

(** The single-valued settings a line assigns, the lists it extends. *)
Definition sets_scalar (l : str) (k : str_key) (v : str) : Prop :=
  exists b t a, says l b t a /\ In (t, Scalar k) directives /\ v = nospace a.
Definition sets_keyed (l : str) (m : map_key) (x v : str) : Prop :=
  exists t a r u, says l true t a /\ In (t, Keyed m r) directives /\ two_parts a x u /\ (if r then trimmed u v else v = u).
Definition sets_vec (l : str) (k : vec_key) (x v : str) : Prop :=
  exists t a, says l true t a /\ In (t, KeyedInclude k) directives /\ two_parts a x v.

Ltac same_line H H' :=
  let A := fresh in let B := fresh in let C := fresh in
  destruct (says_det _ _ _ _ _ _ _ H H') as [A [B C]]; subst.

Lemma line_scalar d l d1 k : read_line d l = Ok d1 ->
  (exists v, sets_scalar l k v /\ strs d1 k = v) \/ ((forall v, ~ sets_scalar l k v) /\ strs d1 k = strs d k).
Proof.
  intros E. destruct (line_ok d l d1 E) as [[Hi ->]|[b [t [a [kd [Hs [Hk [Ha He]]]]]]]].
  - right. split; [|reflexivity]. intros v [b [t [a [Hs _]]]]. exact (says_not_ignored _ _ _ _ Hs Hi).
  - assert (N : (forall k', kd <> Scalar k' \/ k' <> k) -> forall v, ~ sets_scalar l k v).
    { intros X v [b' [t' [a' [Hs' [Hk' _]]]]]. same_line Hs Hs'. pose proof (kind_det _ _ _ Hk Hk') as ->. destruct (X k); congruence. }
    destruct kd as [plus minus|p|p|p trims|p|p]; cbn [effect accepted] in *.
    1-5: right; split; [apply N; intros k'; left; discriminate|].
    + apply He.
    + destruct b; apply He.
    + destruct b; apply He.
    + destruct b; [|apply He]. destruct (Ha eq_refl) as [x [v Hv]]. destruct (He x v Hv) as [w [_ [_ [_ [_ [_ [_ S3]]]]]]]. apply S3.
    + destruct Ha as [_ [x [v Hv]]]. destruct (He x v Hv) as [_ [_ [_ [_ [_ S3]]]]]. apply S3.
    + destruct (str_key_eq p k) as [->|Hn].
      * left. exists (nospace a). split; [exists b, t, a; auto|apply He].
      * right. split; [apply N; intros k'; destruct (str_key_eq k' k) as [->|]; [left; congruence|right; assumption]|]. apply He. congruence.
Qed.
Lemma line_keyed_set d l d1 m x : read_line d l = Ok d1 ->
  (exists v, sets_keyed l m x v /\ lookup x (maps d1 m) = Some v) \/ ((forall v, ~ sets_keyed l m x v) /\ lookup x (maps d1 m) = lookup x (maps d m)).
Proof.
  intros E. destruct (line_ok d l d1 E) as [[Hi ->]|[b [t [a [kd [Hs [Hk [Ha He]]]]]]]].
  - right. split; [|reflexivity]. intros v [t [a [r [u [Hs _]]]]]. exact (says_not_ignored _ _ _ _ Hs Hi).
  - assert (N : (forall r, kd <> Keyed m r) \/ b = false \/ (forall u, ~ two_parts a x u) -> forall v, ~ sets_keyed l m x v).
    { intros X v [t' [a' [r [u [Hs' [Hk' [Hp _]]]]]]]. same_line Hs Hs'. pose proof (kind_det _ _ _ Hk Hk') as ->. destruct X as [X|[X|X]]; [exact (X r eq_refl)|discriminate|exact (X u Hp)]. }
    destruct kd as [plus minus|p|p|p trims|p|p]; cbn [effect accepted] in *.
    1-3: right; split; [apply N; left; intros r; discriminate|].
    + destruct He as [_ [_ [He _]]]. rewrite He. reflexivity.
    + destruct b; [destruct He as [_ [_ [He _]]]|destruct He as [_ [He _]]]; rewrite He; reflexivity.
    + destruct b; [destruct He as [_ [He _]]|destruct He as [_ [_ [He _]]]]; rewrite He; reflexivity.
    + destruct b.
      2: { right. split; [apply N; auto|]. destruct He as [_ [He _]]. rewrite He. reflexivity. }
      destruct (Ha eq_refl) as [x0 [v0 Hv]]. destruct (He x0 v0 Hv) as [w [Hw [S1 [S2 [_ [S3 _]]]]]].
      destruct (map_key_eq m p) as [->|Hn].
      * destruct (streqb_spec x x0) as [->|Hx].
        -- left. exists w. split; [exists t, a, trims, v0; auto|exact S1].
        -- right. split; [|apply S2; exact Hx]. apply N. right; right. intros u Hu. apply Hx. apply (two_parts_det _ _ _ _ _ Hu Hv).
      * right. split; [|rewrite (S3 m Hn); reflexivity]. apply N. left. intros r. congruence.
    + right. split; [apply N; left; intros r; discriminate|]. destruct Ha as [_ [x0 [v Hv]]]. destruct (He x0 v Hv) as [_ [_ [_ [S3 _]]]]. rewrite S3. reflexivity.
    + right. split; [apply N; left; intros r; discriminate|]. destruct He as [_ [_ [He _]]]. rewrite He. reflexivity.
Qed.
Lemma line_vec d l d1 k x : read_line d l = Ok d1 ->
  forall i, In i (get_vec x (vecs d1 k)) <-> In i (get_vec x (vecs d k)) \/ sets_vec l k x i.
Proof.
  intros E i. destruct (line_ok d l d1 E) as [[Hi ->]|[b [t [a [kd [Hs [Hk [Ha He]]]]]]]].
  - split; [auto|]. intros [X|[t [a [Hs _]]]]; [exact X|]. destruct (says_not_ignored _ _ _ _ Hs Hi).
  - assert (N : kd <> KeyedInclude k \/ (forall u, ~ two_parts a x u) -> ~ sets_vec l k x i).
    { intros X [t' [a' [Hs' [Hk' Hp]]]]. same_line Hs Hs'. pose proof (kind_det _ _ _ Hk Hk') as ->. destruct X as [X|X]; [exact (X eq_refl)|exact (X i Hp)]. }
    assert (Q : vecs d1 k = vecs d k -> ~ sets_vec l k x i -> In i (get_vec x (vecs d1 k)) <-> In i (get_vec x (vecs d k)) \/ sets_vec l k x i) by (intros -> ?; tauto).
    destruct kd as [plus minus|p|p|p trims|p|p]; cbn [effect accepted] in *.
    + apply Q; [apply He|apply N; left; discriminate].
    + apply Q; [destruct b; apply He|apply N; left; discriminate].
    + apply Q; [destruct b; apply He|apply N; left; discriminate].
    + apply Q; [|apply N; left; discriminate]. destruct b; [|apply He]. destruct (Ha eq_refl) as [x0 [v Hv]]. destruct (He x0 v Hv) as [w [_ [_ [_ [_ [_ [S3 _]]]]]]]. apply S3.
    + destruct Ha as [-> [x0 [v Hv]]]. destruct (He x0 v Hv) as [S1 [S2 [_ [_ [S3 _]]]]]. destruct (vec_key_eq k p) as [->|Hn].
      * destruct (streqb_spec x x0) as [->|Hx].
        -- rewrite S1, in_app_iff. split; (intros [X|X]; [auto|right]).
           ++ destruct X as [<-|[]]. exists t, a. auto.
           ++ destruct X as [t' [a' [Hs' [_ Hp]]]]. same_line Hs Hs'. left. apply (two_parts_det _ _ _ _ _ Hv Hp).
        -- rewrite (S2 x Hx). assert (X : ~ sets_vec l p x i); [|tauto]. apply N. right. intros u Hu. apply Hx. apply (two_parts_det _ _ _ _ _ Hu Hv).
      * apply Q; [apply S3; exact Hn|apply N; left; congruence].
    + apply Q; [apply He|apply N; left; discriminate].
Qed.

Lemma lines_scalar k ls : forall d d1, read_lines d ls = Ok d1 ->
  (exists l v, In l ls /\ sets_scalar l k v /\ strs d1 k = v) \/ ((forall l v, In l ls -> ~ sets_scalar l k v) /\ strs d1 k = strs d k).
Proof.
  induction ls as [|l ls IH]; intros d d1 E; cbn [read_lines] in E.
  - injection E as <-. right. split; [intros l v []|reflexivity].
  - destruct (read_line d l) as [d0| | | |] eqn:El; cbn [bind_r] in E; try discriminate.
    destruct (IH d0 d1 E) as [[l0 [v [A [B D]]]]|[A B]].
    + left. exists l0, v. split; [right; exact A|auto].
    + destruct (line_scalar d l d0 k El) as [[v [P Q]]|[P Q]].
      * left. exists l, v. split; [left; reflexivity|split; [exact P|congruence]].
      * right. split; [|congruence]. intros l0 v [<-|X]; [apply P|apply A; exact X].
Qed.
Lemma lines_keyed_set m x ls : forall d d1, read_lines d ls = Ok d1 ->
  (exists l v, In l ls /\ sets_keyed l m x v /\ lookup x (maps d1 m) = Some v) \/
  ((forall l v, In l ls -> ~ sets_keyed l m x v) /\ lookup x (maps d1 m) = lookup x (maps d m)).
Proof.
  induction ls as [|l ls IH]; intros d d1 E; cbn [read_lines] in E.
  - injection E as <-. right. split; [intros l v []|reflexivity].
  - destruct (read_line d l) as [d0| | | |] eqn:El; cbn [bind_r] in E; try discriminate.
    destruct (IH d0 d1 E) as [[l0 [v [A [B D]]]]|[A B]].
    + left. exists l0, v. split; [right; exact A|auto].
    + destruct (line_keyed_set d l d0 m x El) as [[v [P Q]]|[P Q]].
      * left. exists l, v. split; [left; reflexivity|split; [exact P|congruence]].
      * right. split; [|congruence]. intros l0 v [<-|X]; [apply P|apply A; exact X].
Qed.
Lemma lines_vec k x ls : forall d d1, read_lines d ls = Ok d1 ->
  forall i, In i (get_vec x (vecs d1 k)) <-> In i (get_vec x (vecs d k)) \/ exists l, In l ls /\ sets_vec l k x i.
Proof.
  induction ls as [|l ls IH]; intros d d1 E i; cbn [read_lines] in E.
  - injection E as <-. split; [auto|intros [X|[l [[] _]]]; exact X].
  - destruct (read_line d l) as [d0| | | |] eqn:El; cbn [bind_r] in E; try discriminate.
    rewrite (IH d0 d1 E), (line_vec d l d0 k x El). split.
    + intros [[X|X]|[l0 [X Y]]]; [auto|right; exists l; cbn; auto|right; exists l0; cbn; auto].
    + intros [X|[l0 [[<-|X] Y]]]; [auto|auto|right; exists l0; auto].
Qed.

Lemma in_file text l : In l (split text [nl]) -> forall b t a, says l b t a -> file_says text b t a.
Proof. intros X b t a Y. exists (split text [nl]), l. split; [apply split_pieces|auto]. Qed.
Lemma file_line text b t a : file_says text b t a -> exists l, In l (split text [nl]) /\ says l b t a.
Proof. intros [ls [l [P [X Y]]]]. exists l. split; [apply (pieces_unique_In _ _ _ P); exact X|exact Y]. Qed.

Lemma read_same d d' text text' r r' : same_settings d d' ->
  read_text d text = Ok r -> read_text d' text' = Ok r' -> same_directives text text' -> consistent text -> same_settings r r'.
Proof.
  intros [D1 [D2 [D3 D4]]] E E' S [C1 C2]. repeat split.
  1-2: destruct (feeds k) as [[b token]|] eqn:Ef; [|destruct k; discriminate].
  1-2: rewrite (read_text_lists _ _ _ k b token E' Ef x), (read_text_lists _ _ _ k b token E Ef x), D1; unfold listed.
  1-2: intros [X|[arg [X Y]]]; [auto|right; exists arg; split; [apply S; exact X|exact Y]].
  - intros m x. unfold read_text in *. destruct (lines_keyed_set m x _ _ _ E) as [[l [v [A [B F]]]]|[A B]], (lines_keyed_set m x _ _ _ E') as [[l' [v' [A' [B' F']]]]|[A' B']].
    + rewrite F, F'. f_equal. destruct B as (t & a & r1 & u & P1 & P2 & P3 & P4), B' as (t' & a' & r1' & u' & P1' & P2' & P3' & P4').
      symmetry. apply (C2 m t r1 a t' r1' a' x u u' v v' P2 P2' (in_file _ _ A _ _ _ P1) (proj2 (S _ _ _) (in_file _ _ A' _ _ _ P1')) P3 P3' P4 P4').
    + exfalso. destruct B as (t & a & r1 & u & P1 & P2 & P3 & P4). destruct (file_line text' true t a) as [l0 [X Y]]; [apply S; exact (in_file _ _ A _ _ _ P1)|].
      apply (A' l0 v X). exists t, a, r1, u. auto.
    + exfalso. destruct B' as (t & a & r1 & u & P1 & P2 & P3 & P4). destruct (file_line text true t a) as [l0 [X Y]]; [apply S; exact (in_file _ _ A' _ _ _ P1)|].
      apply (A l0 v' X). exists t, a, r1, u. auto.
    + rewrite B, B'. apply D2.
  - intros k. unfold read_text in *.
    destruct (lines_scalar k _ _ _ E) as [[l [v [A [B F]]]]|[A B]], (lines_scalar k _ _ _ E') as [[l' [v' [A' [B' F']]]]|[A' B']].
    + rewrite F, F'. destruct B as (b & t & a & P1 & P2 & ->), B' as (b' & t' & a' & P1' & P2' & ->).
      symmetry. apply (C1 k t b a t' b' a' P2 P2' (in_file _ _ A _ _ _ P1)). apply S. exact (in_file _ _ A' _ _ _ P1').
    + exfalso. destruct B as (b & t & a & P1 & P2 & ->). destruct (file_line text' b t a) as [l0 [X Y]]; [apply S; exact (in_file _ _ A _ _ _ P1)|].
      apply (A' l0 (nospace a) X). exists b, t, a. auto.
    + exfalso. destruct B' as (b & t & a & P1 & P2 & ->). destruct (file_line text b t a) as [l0 [X Y]]; [apply S; exact (in_file _ _ A' _ _ _ P1)|].
      apply (A l0 (nospace a) X). exists b, t, a. auto.
    + rewrite B, B'. apply D3.
  - intros X. unfold read_text in *. rewrite (lines_vec k x _ _ _ E) . rewrite (lines_vec k x _ _ _ E') in X. rewrite D4 in X.
    destruct X as [X|[l [X (t & a & P1 & P2 & P3)]]]; [auto|right]. destruct (file_line text true t a) as [l0 [Y Z]]; [apply S; exact (in_file _ _ X _ _ _ P1)|].
    exists l0. split; [exact Y|]. exists t, a. auto.
  - intros X. unfold read_text in *. rewrite (lines_vec k x _ _ _ E'). rewrite (lines_vec k x _ _ _ E) in X. rewrite D4.
    destruct X as [X|[l [X (t & a & P1 & P2 & P3)]]]; [auto|right]. destruct (file_line text' true t a) as [l0 [Y Z]]; [apply S; exact (in_file _ _ X _ _ _ P1)|].
    exists l0. split; [exact Y|]. exists t, a. auto.
Qed.

(** The directives of a file, computed. *)
Definition parse (l : str) : list (bool * str * str) :=
  match l with
  | [] => []
  | ch :: _ =>
      if Ascii.eqb ch "#" then []
      else match drop_cr l with
           | sign :: t =>
               if Ascii.eqb sign "+" || Ascii.eqb sign "-" then
                 match find_char t sp with
                 | Some k => [(Ascii.eqb sign "+", firstn k t, skipn (S k) t)]
                 | None => []
                 end
               else []
           | [] => []
           end
  end.
Lemma parse_says l b t a : says l b t a <-> In (b, t, a) (parse l).
Proof.
  split.
  - intros [Hc [Ht Hs]]. pose proof (line_text_det _ _ _ (drop_cr_text l) Ht) as E. unfold parse. destruct l as [|ch l']; [destruct Ht as [H|[H _]]; discriminate|].
    destruct (Ascii.eqb_spec ch "#") as [->|_]; [destruct (Hc _ eq_refl)|]. rewrite E. rewrite (find_char_app t sp a Hs).
    replace (firstn (length t) (t ++ sp :: a)) with t by (symmetry; apply firstn_app_exact).
    replace (skipn (S (length t)) (t ++ sp :: a)) with a.
    + destruct b; cbn; auto.
    + replace (t ++ sp :: a) with ((t ++ [sp]) ++ a) by (rewrite <- app_assoc; reflexivity). replace (S (length t)) with (length (t ++ [sp])) by (rewrite app_length; cbn; rewrite Nat.add_1_r; reflexivity).
      symmetry. apply skipn_app_exact.
  - unfold parse. destruct l as [|ch l']; [intros []|]. destruct (Ascii.eqb_spec ch "#") as [->|Hn]; [intros []|]. pose proof (drop_cr_text (ch :: l')) as Ht.
    destruct (drop_cr (ch :: l')) as [|sign u]; [intros []|]. destruct (Ascii.eqb sign "+" || Ascii.eqb sign "-") eqn:Sg; [|intros []].
    destruct (find_char u sp) as [k|] eqn:F; [|intros []]. apply find_char_Some in F as [x [y [-> [<- Hx]]]].
    assert (Sk : skipn (S (length x)) (x ++ sp :: y) = y).
    { replace (x ++ sp :: y) with ((x ++ [sp]) ++ y) by (rewrite <- app_assoc; reflexivity). replace (S (length x)) with (length (x ++ [sp])) by (rewrite app_length; cbn; rewrite Nat.add_1_r; reflexivity).
      apply skipn_app_exact. }
    rewrite Sk, firstn_app_exact. intros [H|[]]. injection H as <- <- <-.
    split; [intros r X; injection X as X _; contradiction|]. split; [|exact Hx]. destruct (Ascii.eqb_spec sign "+") as [->|]; [exact Ht|]. cbn [orb] in Sg. apply Ascii.eqb_eq in Sg. subst sign. exact Ht.
Qed.
Lemma file_says_iff text b t a : file_says text b t a <-> In (b, t, a) (flat_map parse (split text [nl])).
Proof.
  rewrite in_flat_map. split.
  - intros F. apply file_line in F as [l [X Y]]. exists l. split; [exact X|apply parse_says; exact Y].
  - intros [l [X Y]]. apply parse_says in Y. exact (in_file _ _ X _ _ _ Y).
Qed.
