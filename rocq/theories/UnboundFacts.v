(** Sorting a list of items from which some are left out (C100). *)
From Coq Require Import Ascii String Bool Arith NArith Lia.
From Coq Require Import List.
From Verif Require Import Str StrFacts SpecUtil Util Config SpecConfig Ast Types Func Enum Includes Class Context SpecContext ContextFacts SortFacts RunFacts SpecOrder OrderFacts SpecUnbound.
Import ListNotations.

Section Filter.
Variables (key : nat -> str) (known : nat -> bool) (keep : binder -> bool).
Notation kept := (filter keep).

Lemma skip_index f : forall (l : list binder) e, index_of f l = Some e -> exists a b c, l = a ++ b :: c /\ length a = e /\ f b = true /\ index_of f a = None.
Proof.
  induction l as [|x l IH]; intros e H; cbn [index_of] in H; [discriminate|]. destruct (f x) eqn:E.
  - injection H as <-. exists [], x, l. auto.
  - destruct (index_of f l) as [n|] eqn:I; cbn in H; [|discriminate]. injection H as <-. destruct (IH n eq_refl) as (a&b&c&->&L&B&N).
    exists (x :: a), b, c. cbn [length index_of app]. rewrite E, N, L. auto.
Qed.
Lemma index_none (f : binder -> bool) l : index_of f l = None <-> forall b, In b l -> f b = false.
Proof.
  induction l as [|x l IH]; cbn [index_of]; [split; [intros _ b []|reflexivity]|]. destruct (f x) eqn:E.
  - split; [discriminate|intros H; rewrite (H x (or_introl eq_refl)) in E; discriminate].
  - destruct (index_of f l) eqn:I; cbn; (split; [|]); try discriminate.
    + intros H. exfalso. assert (X : Some n = None) by (apply IH; intros b Hb; apply H; right; exact Hb). discriminate X.
    + intros _ b [<-|Hb]; [exact E|apply IH; [reflexivity|exact Hb]].
    + reflexivity.
Qed.
Lemma index_app (f : binder -> bool) a b c : index_of f a = None -> f b = true -> index_of f (a ++ b :: c) = Some (length a).
Proof.
  intros N B. induction a as [|x a IH]; cbn [index_of app length]; [rewrite B; reflexivity|]. cbn [index_of] in N.
  destruct (f x); [discriminate|]. destruct (index_of f a) eqn:I; [discriminate|]. rewrite (IH eq_refl). reflexivity.
Qed.
Lemma rotate_app (a c : list binder) : rotate (length a) (a ++ c) = c ++ a.
Proof. unfold rotate. rewrite skipn_app, skipn_all, firstn_app, Nat.sub_diag, firstn_all. cbn. rewrite app_nil_r. reflexivity. Qed.
Lemma in_rotate e (l : list binder) b : In b (rotate e l) <-> In b l.
Proof. unfold rotate. rewrite in_app_iff. rewrite <- (firstn_skipn e l) at 3. rewrite in_app_iff. tauto. Qed.

(** What a kept item depends on is not among those left out. *)
Definition supplied (U : list binder) (c : nat) : Prop := forall b r, In b U -> node b = Some r -> key r = key c -> known c = true \/ keep b = true.
(** The names seen so far, with and without the items that are left out. *)
Definition seen (U : list binder) (binded binded' : list str) : Prop :=
  forall c, supplied U c -> known c = false -> mem (key c) binded' = mem (key c) binded.

Lemma node_is b r : node b = Some r -> is_node r b = true.
Proof. unfold is_node. intros ->. apply Nat.eqb_refl. Qed.
Lemma is_node_of b r : is_node r b = true -> node b = Some r.
Proof. unfold is_node. destruct (node b); [|discriminate]. intros H. apply Nat.eqb_eq in H. subst. reflexivity. Qed.

Lemma move_filter U binded binded' : seen U binded binded' -> forall deps suffix again s a, (forall c, In c deps -> supplied U c) -> incl suffix U ->
  move_deps key known binded deps suffix again = Ok (s, a) ->
  move_deps key known binded' deps (kept suffix) again = Ok (kept s, a) /\ incl s U.
Proof.
  intros S. induction deps as [|c deps IH]; intros suffix again s a D I H; cbn [move_deps] in *.
  - apply Ok_inj in H. injection H as <- <-. split; [reflexivity|exact I].
  - assert (D' : forall c, In c deps -> supplied U c) by (intros x Hx; apply D; right; exact Hx).
    destruct (known c) eqn:K.
    { rewrite orb_true_r in *. exact (IH _ _ _ _ D' I H). }
    rewrite (S c (D c (or_introl eq_refl)) K). rewrite orb_false_r in *. destruct (mem (key c) binded); [exact (IH _ _ _ _ D' I H)|].
    destruct (index_of (is_node c) suffix) as [e|] eqn:E.
    + destruct (skip_index _ _ _ E) as (x&b&y&->&L&B&N). pose proof (is_node_of _ _ B) as Nb.
      assert (Kb : keep b = true).
      { destruct (D c (or_introl eq_refl) b c (I b ltac:(apply in_or_app; right; left; reflexivity)) Nb eq_refl) as [X|X]; [congruence|exact X]. }
      rewrite <- L in H. rewrite rotate_app in H.
      rewrite filter_app. cbn [filter]. rewrite Kb. rewrite (index_app (is_node c) (kept x) b (kept y)); [|apply index_none; intros z Hz; apply filter_In in Hz; exact (proj1 (index_none _ _) N z (proj1 Hz))|exact B].
      rewrite rotate_app. replace ((b :: kept y) ++ kept x) with (kept ((b :: y) ++ x)) by (rewrite filter_app; cbn [filter]; rewrite Kb; reflexivity).
      apply IH; [exact D'| |exact H]. intros z Hz. apply I. rewrite in_app_iff in *. tauto.
    + assert (E' : index_of (is_node c) (kept suffix) = None) by (apply index_none; intros z Hz; apply filter_In in Hz; exact (proj1 (index_none _ _) E z (proj1 Hz))).
      rewrite E'. destruct again; [exact (IH _ _ _ _ D' I H)|discriminate].
Qed.

Definition kept_scan (r : list binder + list binder) : list binder + list binder := match r with inl l => inl (kept l) | inr l => inr (kept l) end.
Definition scan_list (r : list binder + list binder) : list binder := match r with inl l => l | inr l => l end.
Lemma scan_filter U : (forall b, In b U -> keep b = false -> b_deps b = []) -> (forall b c, In b U -> In c (b_deps b) -> supplied U c) ->
  forall rest before binded binded' r, seen U binded binded' -> incl before U -> incl rest U ->
  scan key known before binded rest = Ok r -> scan key known (kept before) binded' (kept rest) = Ok (kept_scan r) /\ incl (scan_list r) U.
Proof.
  intros F D. induction rest as [|b rest IH]; intros before binded binded' r S Ib Ir H; cbn [scan] in H.
  - apply Ok_inj in H. subst r. split; [reflexivity|exact Ib].
  - assert (Ub : In b U) by (apply Ir; left; reflexivity). assert (Ir' : incl rest U) by (intros z Hz; apply Ir; right; exact Hz).
    assert (Ib' : incl (before ++ [b]) U) by (intros z Hz; apply in_app_or in Hz; destruct Hz as [Hz|[<-|[]]]; [apply Ib; exact Hz|exact Ub]).
    cbn [filter]. destruct (keep b) eqn:K.
    + replace (kept before ++ [b]) with (kept (before ++ [b])) in * by (rewrite filter_app; cbn [filter]; rewrite K; reflexivity).
      cbn [scan]. destruct (node b) as [C|] eqn:Nb.
      * apply bind_r_Ok in H. destruct H as [[s again] [M H]].
        destruct (move_filter U binded binded' S (b_deps b) (b :: rest) false s again (fun c Hc => D b c Ub Hc) Ir M) as [M' Is].
        cbn [filter] in M'. rewrite K in M'. rewrite M'. cbn [bind_r]. destruct again.
        -- apply Ok_inj in H. subst r. cbn [kept_scan scan_list]. rewrite <- filter_app. split; [reflexivity|]. apply incl_app; assumption.
        -- replace (kept before ++ [b]) with (kept (before ++ [b])) by (rewrite filter_app; cbn [filter]; rewrite K; reflexivity).
           apply IH with (binded := key C :: binded); [|exact Ib'|exact Ir'|exact H].
           intros c Hc Kc. specialize (S c Hc Kc). unfold mem in *. cbn [existsb]. rewrite S. reflexivity.
      * replace (kept before ++ [b]) with (kept (before ++ [b])) by (rewrite filter_app; cbn [filter]; rewrite K; reflexivity).
        apply IH with (binded := binded); assumption.
    + replace (kept before) with (kept (before ++ [b])) by (rewrite filter_app; cbn [filter]; rewrite K; apply app_nil_r).
      destruct (node b) as [C|] eqn:Nb; [|apply IH with (binded := binded); assumption].
      rewrite (F b Ub K) in H. cbn [move_deps bind_r] in H. apply IH with (binded := key C :: binded); try assumption.
      intros c Hc Kc. rewrite (S c Hc Kc). unfold mem. cbn [existsb]. destruct (streqb (key c) (key C)) eqn:E; [|reflexivity].
      apply streqb_eq in E. destruct (Hc b C Ub Nb (eq_sym E)); congruence.
Qed.
Lemma sort_filter U : (forall b, In b U -> keep b = false -> b_deps b = []) -> (forall b c, In b U -> In c (b_deps b) -> supplied U c) ->
  forall n l s, incl l U -> sort_loop n key known l = Ok s -> sort_loop n key known (kept l) = Ok (kept s).
Proof.
  intros F D. induction n as [|n IH]; intros l s I H; cbn [sort_loop] in *; [discriminate|].
  apply bind_r_Ok in H. destruct H as [r [E H]].
  destruct (scan_filter U F D l [] [] [] r) as [E' Ir]; [intros c _ _; reflexivity|intros z []|exact I|exact E|].
  cbn [filter] in E'. rewrite E'. cbn [bind_r]. destruct r as [l1|l1]; cbn [kept_scan scan_list] in *; [apply IH; assumption|].
  apply Ok_inj in H. subst. reflexivity.
Qed.
(** The number of scans allowed does not matter. *)
Lemma sort_fuel_any n m l s s' : sort_loop n key known l = Ok s -> sort_loop m key known l = Ok s' -> s' = s.
Proof.
  revert m l. induction n as [|n IH]; intros [|m] l H H'; cbn [sort_loop] in *; try discriminate.
  apply bind_r_Ok in H. destruct H as [r [E H]]. rewrite E in H'. cbn [bind_r] in H'. destruct r as [l1|l1]; [exact (IH _ _ H H')|].
  apply Ok_inj in H, H'. congruence.
Qed.
End Filter.

(** ** Collection *)

Lemma items_visit w v d : distinct_identities w (v ++ [d]) ->
  (collectible w d /\ ~ In d (collected_items w v) /\ collected_items w (v ++ [d]) = collected_items w v ++ [d]) \/
  ((collectible w d -> In d (collected_items w v)) /\ collected_items w (v ++ [d]) = collected_items w v).
Proof.
  intros D. pose proof (collected_all w v) as C. unfold collected_items. rewrite collect_snoc.
  destruct (visit_cases w d (collect w v)) as [[Cd ->]|[N [->|[f ->]]]].
  - unfold add. destruct (mem (decl_id w d) (x_ids (collect w v))) eqn:M.
    + right. split; [|reflexivity]. intros _. apply mem_In, (col_ids _ _ _ C), in_map_iff in M. destruct M as [y [E Hy]].
      assert (y = d); [|subst; exact Hy]. pose proof Hy as Fy. apply (col_first _ _ _ C) in Fy. destruct Fy as [b [a [Ev [Cy _]]]].
      apply D; [rewrite Ev; apply in_or_app; left; apply in_or_app; right; left; reflexivity|apply in_or_app; right; left; reflexivity|exact Cy|exact Cd|exact E].
    + left. split; [exact Cd|]. split; [|cbn [x_binders]; rewrite map_app; reflexivity].
      intros X. assert (Y : mem (decl_id w d) (x_ids (collect w v)) = true) by (apply mem_In, (col_ids _ _ _ C), in_map; exact X). congruence.
  - right. split; [intros X; destruct (N X)|reflexivity].
  - right. split; [intros X; destruct (N X)|reflexivity].
Qed.
Lemma distinct_incl w v v' : incl v v' -> distinct_identities w v' -> distinct_identities w v.
Proof. intros I D d d' Hd Hd'. apply D; apply I; assumption. Qed.
Lemma collect_filter w keep v : distinct_identities w v -> collected_items w (filter keep v) = filter keep (collected_items w v).
Proof.
  induction v as [|d v IH] using rev_ind; intros D; [reflexivity|].
  assert (D0 : distinct_identities w v) by (apply (distinct_incl w v (v ++ [d])); [apply incl_appl, incl_refl|exact D]).
  specialize (IH D0). rewrite filter_app. cbn [filter]. destruct (keep d) eqn:K.
  - assert (D1 : distinct_identities w (filter keep v ++ [d])).
    { apply (distinct_incl w _ (v ++ [d])); [|exact D]. intros z Hz. rewrite in_app_iff, filter_In in *. tauto. }
    destruct (items_visit w v d D) as [(C&N&->)|(N&->)]; destruct (items_visit w (filter keep v) d D1) as [(C'&N'&->)|(N'&->)]; rewrite IH, ?filter_app; cbn [filter]; rewrite ?K; try reflexivity.
    + exfalso. apply N. specialize (N' C). rewrite IH in N'. apply filter_In in N'. exact (proj1 N').
    + exfalso. apply N'. rewrite IH. apply filter_In. split; [apply N, C'|exact K].
  - rewrite app_nil_r, IH. destruct (items_visit w v d D) as [(_&_&->)|(_&->)]; [|reflexivity].
    rewrite filter_app. cbn [filter]. rewrite K, app_nil_r. reflexivity.
Qed.
