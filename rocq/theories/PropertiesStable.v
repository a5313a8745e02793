(** Files that do not change when declarations are appended, and when a new
    file is started.  The specification is in SpecStable.v. *)
From Coq Require Import Ascii String Bool Arith NArith Lia.
From Coq Require Import List.
From Verif Require Import Str StrFacts Util UtilFacts Config Ast Types Func Enum Includes Class Context SpecUtil SpecContext SpecStable
  ContextFacts WriteFacts SortFacts RunFacts LexRun Samples PropertiesUtil PropertiesContext.
Import ListNotations.

(** ** C93: which generated files a change touches *)

Local Opaque standard_name class_qualified_name python_class_name namespace_from_named_decl decl_id class_includes_rec add_includes relevant_include first_code file_text.
(** What the writing looks at in an item. *)
Definition seen (b : binder) : binder :=
  mkbinder (b_decl b) false false (b_code b) (b_prefix b) (if has_code b then b_incl b else []) [].
Lemma seen_ns w b : binder_namespace w (seen b) = binder_namespace w b.
Proof. unfold binder_namespace, named_decl, seen. cbn [b_decl]. reflexivity. Qed.
Lemma name_prefix_seen w b : name_prefix w (seen b) = name_prefix w b.
Proof. unfold name_prefix, file_name_prefix. rewrite seen_ns. unfold named_decl, seen. cbn [b_decl]. reflexivity. Qed.
Lemma add_item_seen w b st : add_item w (seen b) st = add_item w b st.
Proof.
  destruct b as [d br sr code pre inc deps]. unfold add_item, seen, binder_includes, has_code. cbn [b_decl b_code b_prefix b_incl]. destruct code; reflexivity.
Qed.
Lemma fill_seen w ns skip rest : forall st taken later st', fill w ns skip rest st = Ok (taken, later, st') ->
  fill w ns skip (map seen rest) st = Ok (map seen taken, map seen later, st').
Proof.
  induction rest as [|b rest IH]; intros st taken later st' H; cbn [fill map] in *.
  - apply Ok_inj in H. injection H as <- <- <-. reflexivity.
  - rewrite seen_ns. destruct (fits w (s_code st) && streqb ns (binder_namespace w b)) eqn:F.
    + inv_all H. apply Ok_inj in H. injection H as <- <- <-. rewrite add_item_seen, E. cbn [bind_r]. rewrite (IH _ _ _ _ E0). reflexivity.
    + apply Ok_inj in H. injection H as <- <- <-. reflexivity.
Qed.
Definition seen_file (g : gen_file) : gen_file :=
  mkfile (g_name g) (g_fun g) (g_ns g) (g_call g) (g_skip g) (map seen (g_items g)) (g_body g) (g_text g).
Lemma wrote_seen w rest fnames entrance tc gs : wrote w rest fnames entrance tc gs ->
  wrote w (map seen rest) fnames entrance tc (map seen_file gs).
Proof.
  induction 1 as [| |b rest fnames entrance tc taken later st gs HC F W IH]; cbn [map].
  - constructor.
  - apply W_skip; assumption.
  - assert (M : seen_file (made_file w b fnames entrance taken st) = made_file w (seen b) fnames entrance (map seen taken) st).
    { unfold made_file, seen_file. cbv zeta. cbn [g_name g_fun g_ns g_call g_skip g_items g_body g_text]. rewrite name_prefix_seen, seen_ns. reflexivity. }
    rewrite M.
    apply (W_file w (seen b) (map seen rest) fnames entrance tc (map seen taken) (map seen later) st (map seen_file gs)); [exact HC| |rewrite name_prefix_seen, seen_ns; exact IH].
    rewrite seen_ns. exact (fill_seen _ _ _ _ _ _ _ _ F).
Qed.

(** More items after the present ones. *)
Lemma fill_more w ns skip more rest : forall st taken later st', fill w ns skip rest st = Ok (taken, later, st') -> later <> [] ->
  fill w ns skip (rest ++ more) st = Ok (taken, later ++ more, st').
Proof.
  induction rest as [|b rest IH]; intros st taken later st' H N; cbn [fill app] in *.
  - apply Ok_inj in H. injection H as <- <- <-. destruct (N eq_refl).
  - destruct (fits w (s_code st) && streqb ns (binder_namespace w b)) eqn:F.
    + inv_all H. apply Ok_inj in H. injection H as <- <- <-. try rewrite E. cbn [bind_r]. rewrite (IH _ _ _ _ E0 N). reflexivity.
    + apply Ok_inj in H. injection H as <- <- <-. reflexivity.
Qed.
Lemma fill_all w ns skip more rest : forall st taken st' taken2 later2 st2, fill w ns skip rest st = Ok (taken, [], st') ->
  fill w ns skip (rest ++ more) st = Ok (taken2, later2, st2) -> exists extra code, taken2 = taken ++ extra /\ more = extra ++ later2 /\ s_code st2 = s_code st' ++ code.
Proof.
  induction rest as [|b rest IH]; intros st taken st' taken2 later2 st2 H H2; cbn [fill app] in *.
  - apply Ok_inj in H. injection H as <- <-. destruct (fill_spec _ _ _ _ _ _ _ _ H2) as [A [_ [B _]]]. exists taken2. eexists. split; [reflexivity|]. split; [exact A|exact B].
  - destruct (fits w (s_code st) && streqb ns (binder_namespace w b)) eqn:F.
    + apply bind_r_Ok in H. destruct H as [st1 [E1 H]]. apply bind_r_Ok in H. destruct H as [[[t l] s] [E2 H]]. apply Ok_inj in H. injection H as <- -> <-.
      rewrite E1 in H2. cbn [bind_r] in H2. apply bind_r_Ok in H2. destruct H2 as [[[t' l'] s'] [E3 H2]]. apply Ok_inj in H2. injection H2 as <- <- <-.
      destruct (IH _ _ _ _ _ _ E2 E3) as [extra [code [-> [A B]]]]. exists extra, code. split; [reflexivity|]. split; assumption.
    + apply Ok_inj in H. injection H as _ H _. discriminate H.
Qed.
Lemma wrote_more w rest fnames entrance tc gs : wrote w rest fnames entrance tc gs -> forall more gs', wrote w (rest ++ more) fnames entrance tc gs' ->
  forall init g, gs = init ++ [g] -> exists g' tail, gs' = init ++ g' :: tail /\ continues g g'.
Proof.
  induction 1 as [|b rest fnames entrance tc gs HC W IH|b rest fnames entrance tc taken later st gs HC F W IH]; intros more gs' W' init g E.
  - destruct init; discriminate E.
  - cbn [app] in W'. inversion W' as [|? ? ? ? ? ? HC' W1|? ? ? ? ? ? ? ? ? HC' F1 W1]; subst; [|rewrite HC in HC'; discriminate HC']. exact (IH more gs' W1 init g eq_refl).
  - cbn [app] in W'. inversion W' as [|? ? ? ? ? ? HC' W1|? ? ? ? ? taken' later' st' gs1 HC' F1 W1]; subst; [rewrite HC in HC'; discriminate HC'|].
    destruct later as [|x later].
    + inversion W; subst. destruct init as [|i init]; [|destruct init; discriminate E]. injection E as <-.
      destruct (fill_all _ _ _ more _ _ _ _ _ _ _ F F1) as [extra [code [-> [_ C]]]].
      exists (made_file w b fnames entrance (taken ++ extra) st'), gs1. split; [reflexivity|].
      split; [reflexivity|]. split; [reflexivity|]. split; [reflexivity|]. split; [exists (map b_decl extra); cbn [made_file g_items]; apply map_app|exists code; exact C].
    + pose proof (fill_more _ _ _ more _ _ _ _ _ F ltac:(discriminate)) as F2. cbn [app] in F2. cbn [app] in F1. rewrite F2 in F1. apply Ok_inj in F1. injection F1 as <- <- <-.
      destruct init as [|i init].
      * injection E as <- ->. eexists _, gs1. split; [reflexivity|]. split; [reflexivity|]. split; [reflexivity|]. split; [reflexivity|].
        split; [exists []; rewrite app_nil_r; reflexivity|exists []; rewrite app_nil_r; reflexivity].
      * injection E as <- E. destruct (IH more gs1 W1 init g E) as [g' [tail [-> C]]]. exists g', tail. split; [reflexivity|exact C].
Qed.

(** The items of two runs, seen by the writing. *)
Lemma items_seen w visits visits' o o' b b' : run w visits = Ok o -> run w visits' = Ok o' -> operators w visits' = operators w visits ->
  In b (out_sorted o) -> In b' (out_sorted o') -> b_decl b' = b_decl b -> (b_code b <> [] <-> b_code b' <> []) -> seen b' = seen b.
Proof.
  intros R R' Op I I' D C. unfold seen. rewrite D. destruct (list_eq_dec Ascii.ascii_dec (b_code b) []) as [E|N].
  - assert (E' : b_code b' = []) by (destruct (list_eq_dec Ascii.ascii_dec (b_code b') []) as [X|X]; [exact X|destruct (proj2 C X E)]).
    unfold has_code. rewrite E, E', (run_clean _ _ _ _ R I E), (run_clean _ _ _ _ R' I' E'). reflexivity.
  - pose proof (proj1 C N) as N'. destruct (C26_code_of_declaration _ _ _ _ R I N) as [g [G [A1 [A2 [A3 _]]]]].
    destruct (C26_code_of_declaration _ _ _ _ R' I' N') as [g' [G' [B1 [B2 [B3 _]]]]]. rewrite Op, D, G in G'. apply Ok_inj in G'. subst g'.
    unfold has_code. rewrite B1, A1, B2, A2, B3, A3. reflexivity.
Qed.
Lemma items_nodup_sorted w visits o : run w visits = Ok o -> NoDup (map b_decl (out_sorted o)).
Proof. intros R. apply (Permutation.Permutation_NoDup (Permutation.Permutation_sym (C29_sorting_is_a_permutation _ _ _ R))). apply items_nodup. Qed.
Lemma unique_item w visits o b b' : run w visits = Ok o -> In b (out_sorted o) -> In b' (out_sorted o) -> b_decl b = b_decl b' -> b = b'.
Proof.
  intros R. pose proof (items_nodup_sorted _ _ _ R) as ND. revert ND. generalize (out_sorted o). intros l ND. induction l as [|x l IH]; intros I I' E; [destruct I|].
  cbn [map] in ND. inversion ND as [|? ? NI ND']; subst. destruct I as [<-|I], I' as [<-|I']; [reflexivity| | |exact (IH ND' I I' E)].
  - destruct NI. rewrite E. apply in_map. exact I'.
  - destruct NI. rewrite <- E. apply in_map. exact I.
Qed.
Lemma bound_code w visits o b : run w visits = Ok o -> In b (out_sorted o) -> (bound o (b_decl b) <-> b_code b <> []).
Proof.
  intros R I. split; [|intros N; exists b; repeat split; assumption]. intros [b' [I' [E N]]]. rewrite (unique_item _ _ _ _ _ R I I' (eq_sym E)). exact N.
Qed.
Lemma all_seen w visits visits' o o' : run w visits = Ok o -> run w visits' = Ok o' -> operators w visits' = operators w visits ->
  (forall d, In d (written_order o) -> (bound o d <-> bound o' d)) ->
  forall l l', incl l (out_sorted o) -> incl l' (out_sorted o') -> map b_decl l' = map b_decl l -> map seen l' = map seen l.
Proof.
  intros R R' Op B. induction l as [|b l IH]; intros [|b' l'] I I' E; try discriminate E; [reflexivity|]. cbn [map] in *. injection E as E1 E2.
  rewrite (IH l' (fun x H => I x (or_intror H)) (fun x H => I' x (or_intror H)) E2). f_equal.
  assert (J : In b (out_sorted o)) by (apply I; left; reflexivity). assert (J' : In b' (out_sorted o')) by (apply I'; left; reflexivity).
  apply (items_seen w visits visits' o o' b b' R R' Op J J' E1). rewrite <- (bound_code _ _ _ _ R J), <- (bound_code _ _ _ _ R' J'), E1.
  apply B. apply in_map. exact J.
Qed.
Lemma map_seen_files init g l' g' tail : map seen_file l' = map seen_file init ++ g' :: tail -> continues (seen_file g) g' ->
  exists a h b, l' = a ++ h :: b /\ Forall2 same_file init a /\ continues g h.
Proof.
  revert l'. induction init as [|i init IH]; intros [|x l'] E C; try discriminate E; cbn [map app] in E.
  - injection E as <- _. exists [], x, l'. split; [reflexivity|]. split; [constructor|]. destruct C as [C1 [C2 [C3 [[d C4] C5]]]].
    split; [exact C1|]. split; [exact C2|]. split; [exact C3|]. split; [|exact C5]. exists d. cbn [seen_file g_items] in C4. rewrite !map_map in C4. exact C4.
  - injection E as A1 A2 A3 A4 A5 A6 A7 A8 E2. destruct (IH l' E2 C) as [a [h [b [-> [F D]]]]]. exists (x :: a), h, b. split; [reflexivity|]. split; [|exact D]. constructor; [|exact F].
    split; assumption.
Qed.
(** If the items of a second run are those of the first, in the same order,
    with more behind them, and nothing else about them changes, then every
    generated file but the last is the same, and the last begins the same. *)
Theorem C93_earlier_files_stay : forall w visits visits' o o' more init g,
  run w visits = Ok o -> run w visits' = Ok o' -> operators w visits' = operators w visits ->
  written_order o' = written_order o ++ more -> (forall d, In d (written_order o) -> (bound o d <-> bound o' d)) ->
  out_files o = init ++ [g] ->
  exists init' g' tail, out_files o' = init' ++ g' :: tail /\ Forall2 same_file init init' /\ continues g g'.
Proof.
  intros w visits visits' o o' more init g R R' Op WO B FS.
  destruct (run_inv _ _ _ R) as [l [_ [_ [W _]]]]. destruct (run_inv _ _ _ R') as [l' [_ [_ [W' _]]]].
  unfold written_order in WO. apply map_eq_app in WO. destruct WO as [s1 [s2 [ES [E1 E2]]]].
  apply wrote_seen in W. apply wrote_seen in W'. rewrite ES, map_app in W'.
  rewrite (all_seen w visits visits' o o' R R' Op B (out_sorted o) s1) in W'; [|intros x I; exact I|rewrite ES; intros x I; apply in_or_app; left; exact I|exact E1].
  destruct (wrote_more _ _ _ _ _ _ W _ _ W' (map seen_file init) (seen_file g)) as [g' [tail [F C]]]; [rewrite FS, map_app; reflexivity|].
  destruct (map_seen_files _ _ _ _ _ F C) as [a [h [b [X [Y Z]]]]]. exists a, h, b. split; [exact X|]. split; [exact Y|exact Z].
Qed.
Print Assumptions C93_earlier_files_stay.
(** In particular when declarations are appended to a program in which every
    base class is visited before the classes derived from it. *)
Lemma collected_appended w visits new : exists more, collected_items w (visits ++ new) = collected_items w visits ++ more.
Proof.
  induction new as [|d new [more IH]] using rev_ind; [exists []; rewrite !app_nil_r; reflexivity|].
  rewrite app_assoc. unfold collected_items in *. rewrite collect_snoc.
  assert (V : forall c, exists m, map b_decl (x_binders (visit w d c)) = map b_decl (x_binders c) ++ m).
  { intros c. assert (A : exists m, map b_decl (x_binders (add w d c)) = map b_decl (x_binders c) ++ m).
    { unfold add. destruct (mem (decl_id w d) (x_ids c)); [exists []; rewrite app_nil_r; reflexivity|]. cbn [x_binders]. rewrite map_app. eexists. reflexivity. }
    assert (Z : exists m, map b_decl (x_binders c) = map b_decl (x_binders c) ++ m) by (exists []; rewrite app_nil_r; reflexivity).
    destruct d as [f|r|e]; cbn [visit].
    - destruct (f_method (fun_ w f)); [exact Z|]. destruct (is_bindable_fun w (fun_ w f)); [exact A|]. destruct (f_operator (fun_ w f) && _); exact Z.
    - destruct (n_member (r_decl (rec_ w r))); [exact Z|]. destruct (is_bindable_rec w r); [exact A|exact Z].
    - destruct (n_member (e_decl (enum_ w e))); [exact Z|exact A]. }
  destruct (V (collect w (visits ++ new))) as [m E]. exists (more ++ m). rewrite E, IH, app_assoc. reflexivity.
Qed.
Theorem C93_appended_declarations : forall w visits new o o' init g,
  run w visits = Ok o -> run w (visits ++ new) = Ok o' ->
  written_order o = collected_items w visits -> written_order o' = collected_items w (visits ++ new) ->
  operators w (visits ++ new) = operators w visits -> (forall d, In d (collected_items w visits) -> (bound o d <-> bound o' d)) ->
  out_files o = init ++ [g] ->
  exists init' g' tail, out_files o' = init' ++ g' :: tail /\ Forall2 same_file init init' /\ continues g g'.
Proof.
  intros w visits new o o' init g R R' O1 O2 Op B FS. destruct (collected_appended w visits new) as [more E].
  apply (C93_earlier_files_stay w visits (visits ++ new) o o' more init g R R' Op); [rewrite O1, O2; exact E|rewrite O1; exact B|exact FS].
Qed.
Print Assumptions C93_appended_declarations.

(** ** When a new file is started *)
Lemma wrote_next w rest fnames entrance tc gs : wrote w rest fnames entrance tc gs -> forall l1 g g' l2, gs = l1 ++ g :: g' :: l2 ->
  exists x b y, rest = x ++ g_items g ++ b :: y /\ (full w g \/ binder_namespace w b <> g_ns g) /\
    exists gap z, b :: y = gap ++ g_items g' ++ z /\ (forall c, In c gap -> has_code c = false).
Proof.
  induction 1 as [|b rest fnames entrance tc gs HC W IH|b rest fnames entrance tc taken later st gs HC F W IH]; intros l1 g g' l2 E.
  - destruct l1; discriminate E.
  - destruct (IH l1 g g' l2 E) as [x [c [y [-> H]]]]. exists (b :: x), c, y. split; [reflexivity|exact H].
  - destruct (fill_spec _ _ _ _ _ _ _ _ F) as [ER [_ [_ [_ [_ [_ Stop]]]]]]. destruct l1 as [|i l1].
    + injection E as <- ->. cbn [made_file g_items g_ns g_body].
      assert (G : exists gap z, later = gap ++ g_items g' ++ z /\ forall c, In c gap -> has_code c = false).
      { clear -W. revert W. generalize (bump (name_prefix w b) fnames), (bump (binder_namespace w b) entrance), (s_tc st). intros fn en k W. remember (g' :: l2) as gs eqn:E.
        induction W as [|c rest0 fn en k gs HC W IH|c rest0 fn en k taken0 later st0 gs HC F W IH]; [discriminate E| |].
        - destruct (IH E) as [gap [z [-> H]]]. exists (c :: gap), z. split; [reflexivity|]. intros x [<-|I]; [exact HC|exact (H x I)].
        - injection E as <- _. exists [], later. split; [exact (proj1 (fill_spec _ _ _ _ _ _ _ _ F))|intros x []]. }
      destruct later as [|c later]; [inversion W|]. exists [], c, later. split; [exact ER|]. split; [|exact G].
      destruct (Stop c later eq_refl) as [H|H]; [left|right; exact H]. unfold full. cbn [made_file g_body]. unfold fits in H. apply N.ltb_ge in H. exact H.
    + injection E as <- E. destruct (IH l1 g g' l2 E) as [x [c [y [-> H]]]]. exists (taken ++ x), c, y. rewrite <- app_assoc. split; [exact ER|exact H].
Qed.
(** A file ends when it is full or when the item that follows in the order of
    writing belongs to another namespace.  What lies between the items of two
    consecutive files is not bound. *)
Theorem C93_new_file : forall w visits o l1 g g' l2, run w visits = Ok o -> out_files o = l1 ++ g :: g' :: l2 ->
  exists x b y, out_sorted o = x ++ g_items g ++ b :: y /\ (full w g \/ binder_namespace w b <> g_ns g) /\
    exists gap z, b :: y = gap ++ g_items g' ++ z /\ (forall c, In c gap -> b_code c = []).
Proof.
  intros w visits o l1 g g' l2 R E. destruct (run_inv _ _ _ R) as [l [_ [_ [W _]]]]. destruct (wrote_next _ _ _ _ _ _ W l1 g g' l2 E) as [x [b [y [A [B [gap [z [C D]]]]]]]].
  exists x, b, y. split; [exact A|]. split; [exact B|]. exists gap, z. split; [exact C|]. intros c I. specialize (D c I). unfold has_code in D. destruct (b_code c); [reflexivity|discriminate D].
Qed.
Print Assumptions C93_new_file.

(** A declaration that is not bound also ends a file: two files of one
    namespace, neither of them full, may follow each other. *)
Theorem C93_files_are_filled_refuted :
  ~ (forall w visits o l1 g g' l2, run w visits = Ok o -> out_files o = l1 ++ g :: g' :: l2 -> g_ns g' = g_ns g -> full w g).
Proof.
  intros H. set (w := mix_w false false 10000) in H. set (v := [DFun 1; DRec 4; DEnum 0]).
  destruct (run w v) as [o| | | |] eqn:E; try (vm_compute in E; discriminate E).
  assert (N : map (fun g => (g_name g, g_ns g, length (g_body g) <? 1000)) (out_files o) = [($"a.cpp", $"n", true); ($"a_1.cpp", $"n", true)]).
  { vm_compute in E. apply Ok_inj in E. rewrite <- E. vm_compute. reflexivity. }
  destruct (out_files o) as [|g [|g' [|x l]]] eqn:F; try discriminate N. cbn [map] in N. injection N as N1 N2 N3 N4 N5 N6.
  specialize (H w v o [] g g' [] E F ltac:(congruence)). unfold full in H. apply Nat.ltb_lt in N3.
  change (max_file_size (wopt w)) with 10000%N in H. lia.
Qed.
Print Assumptions C93_files_are_filled_refuted.
(** When a class is visited before its base, moving the base to the front moves
    other items too, so that an appended declaration lands in an earlier file. *)
Theorem C93_any_order_refuted :
  ~ (forall w visits new o o' init g, run w visits = Ok o -> run w (visits ++ new) = Ok o' ->
       operators w (visits ++ new) = operators w visits -> (forall d, In d (collected_items w visits) -> (bound o d <-> bound o' d)) ->
       out_files o = init ++ [g] -> exists init' tail, out_files o' = init' ++ tail /\ Forall2 same_file init init').
Proof.
  intros H. set (w := mix_w false false 10000) in H. set (v := [DFun 1; DRec 1; DRec 0]). set (new := [DEnum 0]).
  destruct (run w v) as [o| | | |] eqn:E; try (vm_compute in E; discriminate E).
  destruct (run w (v ++ new)) as [o'| | | |] eqn:E'; try (vm_compute in E'; discriminate E').
  assert (N : map (fun g => (g_name g, length (g_items g))) (out_files o) = [($"a.cpp", 2); ($"b.cpp", 1)] /\
              match out_files o, out_files o' with g :: _, g' :: _ => length (g_text g) <? length (g_text g') = true | _, _ => False end /\
              filter (fun b => negb (has_code b)) (out_sorted o) = [] /\ filter (fun b => negb (has_code b)) (out_sorted o') = []).
  { vm_compute in E. apply Ok_inj in E. rewrite <- E. vm_compute in E'. apply Ok_inj in E'. rewrite <- E'. vm_compute. repeat split; reflexivity. }
  destruct N as [N [L [B B']]].
  destruct (out_files o) as [|g [|h [|x l]]] eqn:F; try discriminate N.
  assert (Every : forall vs x d, run w vs = Ok x -> filter (fun b => negb (has_code b)) (out_sorted x) = [] -> In d (collected_items w vs) -> bound x d).
  { intros vs x d R Z I. apply (Permutation.Permutation_in _ (Permutation.Permutation_sym (C29_sorting_is_a_permutation _ _ _ R))) in I. apply in_map_iff in I. destruct I as [b [<- I]].
    exists b. split; [exact I|]. split; [reflexivity|]. intros C. assert (X : In b (filter (fun b => negb (has_code b)) (out_sorted x))) by (apply filter_In; split; [exact I|unfold has_code; rewrite C; reflexivity]).
    rewrite Z in X. exact X. }
  destruct (H w v new o o' [g] h E E') as [init' [tail [X Y]]].
  - vm_compute. reflexivity.
  - intros d I. assert (I' : In d (collected_items w (v ++ new))) by (destruct (collected_appended w v new) as [more ->]; apply in_or_app; left; exact I).
    split; intros _; [exact (Every _ _ _ E' B' I')|exact (Every _ _ _ E B I)].
  - exact F.
  - inversion Y as [|? g' ? ? [_ T] Y']; subst. rewrite X in L. cbn [app] in L. rewrite T in L. rewrite Nat.ltb_irrefl in L. discriminate L.
Qed.
Print Assumptions C93_any_order_refuted.
(** The hypotheses are met: two declarations are appended, one of them bound,
    to a program with three files. *)
Example C93_case : let w := mix_w true false 300 in let v := [DFun 1; DRec 0; DRec 1] in let new := [DEnum 0; DRec 3] in
  exists o o', run w v = Ok o /\ run w (v ++ new) = Ok o' /\ written_order o = collected_items w v /\ written_order o' = collected_items w (v ++ new) /\
    operators w (v ++ new) = operators w v /\ map g_name (out_files o) = [$"a.cpp"; $"a_1.cpp"; $"b.cpp"] /\ map g_name (out_files o') = [$"a.cpp"; $"a_1.cpp"; $"b.cpp"; $"a_2.cpp"] /\
    (forall d, In d (collected_items w v) -> (bound o d <-> bound o' d)).
Proof.
  cbv zeta. set (w := mix_w true false 300). set (v := [DFun 1; DRec 0; DRec 1]). set (new := [DEnum 0; DRec 3]).
  destruct (run w v) as [o| | | |] eqn:E; try (vm_compute in E; discriminate E).
  destruct (run w (v ++ new)) as [o'| | | |] eqn:E'; try (vm_compute in E'; discriminate E').
  exists o, o'. split; [reflexivity|]. split; [reflexivity|]. vm_compute in E. apply Ok_inj in E. vm_compute in E'. apply Ok_inj in E'.
  split; [rewrite <- E; vm_compute; reflexivity|]. split; [rewrite <- E'; vm_compute; reflexivity|]. split; [vm_compute; reflexivity|].
  split; [rewrite <- E; vm_compute; reflexivity|]. split; [rewrite <- E'; vm_compute; reflexivity|].
  intros d I. vm_compute in I. destruct I as [<-|[<-|[<-|[]]]].
  all: split; intros _; [rewrite <- E'|rewrite <- E]; unfold bound; cbn [out_sorted];
    first [eexists; split; [left; reflexivity|split; [reflexivity|discriminate]] | eexists; split; [right; left; reflexivity|split; [reflexivity|discriminate]] | eexists; split; [right; right; left; reflexivity|split; [reflexivity|discriminate]]].
Qed.
