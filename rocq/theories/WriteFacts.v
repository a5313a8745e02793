(** Proofs about the writing of the files (Context.v). *)
From Coq Require Import Ascii String Bool Arith NArith Sorted Lia Permutation Relations DecimalString DecimalNat DecimalFacts.
From Coq Require Import List.
From Verif Require Import Str StrFacts SpecUtil Util UtilFacts Config Ast Types Func Enum Includes Class Context SpecContext ContextFacts.
Import ListNotations.

Lemma texts_app w l1 l2 tc : texts w tc (l1 ++ l2) = texts w tc l1 ++ texts w (tc + traced w l1) l2.
Proof.
  revert tc; induction l1 as [|b l1 IH]; intros tc; cbn [texts app].
  - unfold traced; cbn [length]. destruct (trace (wopt w)); rewrite Nat.add_0_r; reflexivity.
  - rewrite IH, <- !app_assoc. do 3 f_equal. unfold traced; cbn [length]. destruct (trace (wopt w)); f_equal; lia.
Qed.

Lemma add_item_spec w b st st' : add_item w b st = Ok st' ->
  s_code st' = s_code st ++ texts w (s_tc st) [b] /\ s_prefix st' = s_prefix st ++ b_prefix b /\
  s_tc st' = s_tc st + traced w [b].
Proof.
  unfold add_item. intros H. inv_all H. apply Ok_inj in H. subst st'. cbn [s_code s_prefix s_tc texts].
  unfold traced; cbn [length]. destruct (trace (wopt w)); rewrite ?app_nil_r, <- ?app_assoc; repeat split; lia.
Qed.

Lemma fill_spec w ns skip rest : forall st taken later st',
  fill w ns skip rest st = Ok (taken, later, st') ->
  rest = taken ++ later /\
  Forall (fun b => binder_namespace w b = ns) taken /\
  s_code st' = s_code st ++ (if skip then [] else texts w (s_tc st) taken) /\
  s_prefix st' = s_prefix st ++ (if skip then [] else concat (map b_prefix taken)) /\
  s_tc st' = s_tc st + (if skip then 0 else traced w taken) /\
  (forall p x q, taken = p ++ x :: q -> fits w (s_code st ++ (if skip then [] else texts w (s_tc st) p)) = true) /\
  (forall b t, later = b :: t -> fits w (s_code st') = false \/ binder_namespace w b <> ns).
Proof.
  induction rest as [|b rest IH]; cbn [fill]; intros st taken later st' H.
  - apply Ok_inj in H. injection H as <- <- <-. rewrite !app_nil_r. cbn.
    destruct skip; rewrite ?app_nil_r; repeat split; auto; try lia; try (unfold traced; destruct (trace _); cbn; lia);
      try (intros [|? ?] ? ? E; discriminate); discriminate.
  - destruct (fits w (s_code st) && streqb ns (binder_namespace w b)) eqn:F.
    + apply andb_prop in F. destruct F as [F1 F2]. apply streqb_eq in F2. inv_all H. apply Ok_inj in H. injection H as <- <- <-.
      destruct (IH _ _ _ _ E0) as [H1 [H2 [H3 [H4 [H5 [H6 H7]]]]]].
      split; [cbn; congruence|]. split; [constructor; auto|]. destruct skip.
      * apply Ok_inj in E. subst a. repeat split; auto. intros [|y p] x q Ep; cbn in Ep; injection Ep as <- Ep; [rewrite app_nil_r; assumption|eapply H6; eassumption].
      * apply add_item_spec in E. destruct E as [A1 [A2 A3]].
        assert (Tx : forall l, s_code a ++ texts w (s_tc a) l = s_code st ++ texts w (s_tc st) (b :: l)).
        { intros l'. rewrite A1, A3, <- app_assoc, <- texts_app. reflexivity. }
        split; [rewrite H3; apply Tx|]. split; [rewrite H4, A2, <- app_assoc; reflexivity|].
        split; [rewrite H5, A3; unfold traced; cbn [length]; destruct (trace (wopt w)); lia|].
        split; [|assumption].
        intros [|y p] x q Ep; cbn in Ep; injection Ep as <- Ep; [cbn [texts]; rewrite app_nil_r; assumption|].
        rewrite <- Tx. eapply H6; eassumption.
    + apply Ok_inj in H. injection H as <- <- <-. cbn [app texts concat map]. repeat split; auto.
      * destruct skip; rewrite app_nil_r; reflexivity.
      * destruct skip; rewrite app_nil_r; reflexivity.
      * unfold traced; destruct skip, (trace (wopt w)); cbn; lia.
      * intros [|? ?] ? ? E; discriminate.
      * intros b' t [= <- <-]. apply andb_false_iff in F. destruct F as [F|F]; [auto|]. right. intros E. subst ns.
        rewrite streqb_refl in F; discriminate.
Qed.

(** The loop of Context.v as a relation between what is left and the files. *)
Definition file_start (w : world) (ns : str) (call : str) (tc : nat) : file_state :=
  mkfst call [] (fold_left (fun s i => add_include i s)
                  (match lookup ns (vecs (wcfg w) namespace_includes) with Some l => l | None => [] end) (mkis [] [])) tc.
Definition made_file (w : world) (b : binder) (fnames entrance : list (str * nat)) (taken : list binder) (st : file_state) : gen_file :=
  let np := name_prefix w b in
  let stem := file_stem w np (count np fnames) in
  let ns := binder_namespace w b in
  mkfile (stem ++ $".cpp") (function_name stem) ns (fst (first_code w ns (count ns entrance))) (snd (first_code w ns (count ns entrance)))
         taken (s_code st) (file_text w (function_name stem) st).
Inductive wrote (w : world) : list binder -> list (str * nat) -> list (str * nat) -> nat -> list gen_file -> Prop :=
| W_nil fnames entrance tc : wrote w [] fnames entrance tc []
| W_skip b rest fnames entrance tc gs :
    has_code b = false -> wrote w rest fnames entrance tc gs -> wrote w (b :: rest) fnames entrance tc gs
| W_file b rest fnames entrance tc taken later st gs :
    has_code b = true ->
    fill w (binder_namespace w b) (snd (first_code w (binder_namespace w b) (count (binder_namespace w b) entrance))) (b :: rest)
         (file_start w (binder_namespace w b) (fst (first_code w (binder_namespace w b) (count (binder_namespace w b) entrance))) tc)
      = Ok (taken, later, st) ->
    wrote w later (bump (name_prefix w b) fnames) (bump (binder_namespace w b) entrance) (s_tc st) gs ->
    wrote w (b :: rest) fnames entrance tc (made_file w b fnames entrance taken st :: gs).

Lemma write_loop_wrote w fuel : forall rest fnames entrance tc gs,
  write_loop fuel w rest fnames entrance tc = Ok gs -> wrote w rest fnames entrance tc gs.
Proof.
  induction fuel as [|fuel IH]; intros [|b rest] fnames entrance tc gs H; cbn [write_loop] in H;
    try (apply Ok_inj in H; subst gs; constructor); [discriminate|].
  destruct (has_code b) eqn:HC; cbn [negb] in H; [|apply W_skip; auto].
  destruct (first_code w (binder_namespace w b) (count (binder_namespace w b) entrance)) as [call skip] eqn:FC.
  inv_all H. apply Ok_inj in H. subst gs.
  replace (mkfile _ _ _ _ _ _ _ _) with (made_file w b fnames entrance l f)
    by (unfold made_file; rewrite FC; reflexivity).
  eapply W_file; [assumption| |apply IH; eassumption]. rewrite FC. exact E.
Qed.

Lemma count_bump k m : count k (bump k m) = S (count k m).
Proof. unfold count at 1, bump. rewrite lookup_update_eq. reflexivity. Qed.
Lemma count_bump_other k k' m : k <> k' -> count k (bump k' m) = count k m.
Proof. intros N. unfold count at 1, bump. rewrite lookup_update_neq by assumption. reflexivity. Qed.

(** ** C31: items *)
Lemma wrote_items w rest fnames entrance tc gs : wrote w rest fnames entrance tc gs ->
  filter has_code (flat_map g_items gs) = filter has_code rest.
Proof.
  induction 1 as [| |b rest fnames entrance tc taken later st gs HC F W IH]; cbn [flat_map filter].
  - reflexivity.
  - rewrite H. assumption.
  - cbn [made_file g_items]. apply fill_spec in F. destruct F as [E _].
    change (if has_code b then b :: filter has_code rest else filter has_code rest) with (filter has_code (b :: rest)).
    rewrite E, !filter_app, IH. reflexivity.
Qed.
Lemma wrote_sub w rest fnames entrance tc gs : wrote w rest fnames entrance tc gs -> sublist (flat_map g_items gs) rest.
Proof.
  induction 1 as [| |b rest fnames entrance tc taken later st gs HC F W IH]; cbn [flat_map].
  - constructor.
  - constructor; assumption.
  - cbn [made_file g_items]. apply fill_spec in F. destruct F as [-> _]. clear -IH.
    induction taken; [assumption|]. cbn. constructor; assumption.
Qed.

Definition file_tc (w : world) (g : gen_file) : nat := if g_skip g then 0 else traced w (g_items g).
Fixpoint bodies (w : world) (tc : nat) (gs : list gen_file) : Prop :=
  match gs with
  | [] => True
  | g :: gs' => g_body g = g_call g ++ (if g_skip g then [] else texts w tc (g_items g)) /\ bodies w (tc + file_tc w g) gs'
  end.
Lemma wrote_bodies w rest fnames entrance tc gs : wrote w rest fnames entrance tc gs -> bodies w tc gs.
Proof.
  induction 1 as [| |b rest fnames entrance tc taken later st gs HC F W IH]; cbn [bodies]; [exact I|assumption|].
  cbn [made_file g_body g_call g_skip g_items]. apply fill_spec in F. destruct F as [_ [_ [Ec [_ [Et _]]]]].
  cbn [file_start s_code s_tc] in *. split; [assumption|].
  unfold file_tc; cbn [made_file g_skip g_items]. rewrite <- Et. assumption.
Qed.
Lemma bodies_texts w gs : forall tc, bodies w tc gs ->
  concat (map (fun g => skipn (length (g_call g)) (g_body g)) gs) = texts w tc (written gs).
Proof.
  induction gs as [|g gs IH]; intros tc; cbn [bodies map concat written flat_map]; [reflexivity|].
  intros [E B]. rewrite E, skipn_app_exact, (IH _ B), texts_app. unfold file_tc. fold (written gs).
  destruct (g_skip g); cbn [texts app]; [|reflexivity]. f_equal. unfold traced; cbn. destruct (trace _); reflexivity.
Qed.
Lemma texts_no_trace w tc l : trace (wopt w) = false -> texts w tc l = concat (map b_code l).
Proof. intros T. induction l as [|b l IH]; cbn [texts map concat]; [reflexivity|]. rewrite T in *. cbn. congruence. Qed.
Lemma texts_trace w tc l : trace (wopt w) = true ->
  texts w tc l = concat (map (fun p => trace_line (fst p) (decl_id w (b_decl (snd p))) ++ b_code (snd p)) (combine (seq tc (length l)) l)).
Proof.
  intros T. revert tc; induction l as [|b l IH]; intros tc; cbn [texts length seq combine map concat fst snd]; [reflexivity|].
  rewrite T in *. rewrite IH, <- app_assoc. reflexivity.
Qed.

(** ** C33, C34: files of a namespace *)
Lemma fits_small w s : fits w s = true <-> small w s.
Proof. unfold fits, small. apply N.ltb_lt. Qed.

Lemma list_snoc {A} (l : list A) : l = [] \/ exists p x, l = p ++ [x].
Proof. induction l as [|x l _] using rev_ind; [auto|right; eauto]. Qed.

Lemma wrote_files_ok w rest fnames entrance tc gs : wrote w rest fnames entrance tc gs -> Forall (file_ok w) gs.
Proof.
  induction 1 as [| |b rest fnames entrance tc taken later st gs HC F W IH]; [constructor|assumption|].
  constructor; [|assumption]. unfold file_ok. cbn [made_file g_items g_ns g_body g_call g_skip].
  apply fill_spec in F. destruct F as [_ [Ns [Ec [_ [_ [Sz _]]]]]]. cbn [file_start s_code s_tc] in *.
  split; [assumption|]. destruct (list_snoc taken) as [->|[p [x ->]]].
  - left. split; [reflexivity|]. rewrite Ec. destruct (snd _); cbn [texts]; rewrite app_nil_r; reflexivity.
  - right. specialize (Sz p x [] eq_refl). apply fits_small in Sz.
    destruct (snd (first_code _ _ _)).
    + exists p, x, (fst (first_code w (binder_namespace w b) (count (binder_namespace w b) entrance))), 0.
      rewrite app_nil_r in Sz. repeat split; auto.
    + eexists p, x, _, (tc + traced w p).
      split; [reflexivity|]. split; [exact Sz|].
      rewrite Ec, texts_app, <- app_assoc. cbn [texts]. rewrite app_nil_r. reflexivity.
Qed.

Lemma namespace_call_nonempty f ns : namespace_call f ns <> [].
Proof. unfold namespace_call. apply app_cons_neq. Qed.
Lemma first_code_0 w ns : first_code w ns 0 = (configured_call w ns, replaced_namespace w ns).
Proof.
  unfold first_code, configured_call, replaced_namespace. cbn [Nat.eqb].
  destruct (lookup ns (maps (wcfg w) binder_for_namespaces)) as [f|].
  - destruct (lookup ns (maps (wcfg w) add_on_binder_for_namespaces)); [|reflexivity].
    pose proof (namespace_call_nonempty f ns). destruct (namespace_call f ns); [congruence|reflexivity].
  - destruct (lookup ns (maps (wcfg w) add_on_binder_for_namespaces)); reflexivity.
Qed.
Lemma first_code_S w ns n : first_code w ns (S n) = ([], replaced_namespace w ns).
Proof.
  unfold first_code, replaced_namespace. cbn [Nat.eqb].
  destruct (lookup ns (maps (wcfg w) binder_for_namespaces)); destruct (lookup ns (maps (wcfg w) add_on_binder_for_namespaces)); reflexivity.
Qed.
Lemma first_code_skip w ns n : snd (first_code w ns n) = replaced_namespace w ns.
Proof. destruct n; [rewrite first_code_0|rewrite first_code_S]; reflexivity. Qed.

Lemma wrote_skip w rest fnames entrance tc gs : wrote w rest fnames entrance tc gs ->
  Forall (fun g => g_skip g = replaced_namespace w (g_ns g)) gs.
Proof.
  induction 1; [constructor|assumption|]. constructor; [|assumption]. cbn [made_file g_skip g_ns]. apply first_code_skip.
Qed.
Lemma wrote_calls w ns rest fnames entrance tc gs : wrote w rest fnames entrance tc gs ->
  map g_call (files_of ns gs) =
  match count ns entrance, files_of ns gs with
  | _, [] => []
  | 0, _ :: l => configured_call w ns :: map (fun _ => []) l
  | S _, l => map (fun _ => []) l
  end.
Proof.
  induction 1 as [| |b rest fnames entrance tc taken later st gs HC F W IH]; cbn [files_of filter].
  - destruct (count ns entrance); reflexivity.
  - assumption.
  - fold (files_of ns gs). change (g_ns (made_file w b fnames entrance taken st)) with (binder_namespace w b).
    destruct (streqb_spec (binder_namespace w b) ns) as [E|E].
    + subst ns. rewrite count_bump in IH. cbn [map].
      change (g_call (made_file w b fnames entrance taken st)) with (fst (first_code w (binder_namespace w b) (count (binder_namespace w b) entrance))).
      rewrite IH. destruct (count (binder_namespace w b) entrance).
      * rewrite first_code_0. cbn [fst]. destruct (files_of _ gs); reflexivity.
      * rewrite first_code_S. cbn [fst]. destruct (files_of _ gs); reflexivity.
    + rewrite count_bump_other in IH by congruence. assumption.
Qed.
Lemma wrote_ns_file w rest fnames entrance tc gs b : wrote w rest fnames entrance tc gs -> In b rest -> has_code b = true ->
  exists g, In g gs /\ In b (g_items g) /\ g_ns g = binder_namespace w b.
Proof.
  intros W Hb HC. assert (X : In b (flat_map g_items gs)).
  { apply (proj1 (filter_In has_code b _)). rewrite (wrote_items _ _ _ _ _ _ W). apply filter_In; auto. }
  apply in_flat_map in X. destruct X as [g [Hg Hi]]. exists g. split; [assumption|]. split; [assumption|].
  pose proof (proj1 (Forall_forall _ _) (wrote_files_ok _ _ _ _ _ _ W) g Hg) as [Ns _].
  symmetry. apply (proj1 (Forall_forall _ _) Ns b Hi).
Qed.

(** ** C32: termination *)
Lemma fill_total w ns skip rest : forall st, fill w ns skip rest st = Diverges ->
  exists b s, In b rest /\ binder_includes w b s = Diverges.
Proof.
  induction rest as [|b rest IH]; cbn [fill]; intros st H; [discriminate|].
  destruct (fits w (s_code st) && streqb ns (binder_namespace w b)); [|discriminate].
  apply bind_r_Diverges in H. destruct H as [H|[a [Ea H]]].
  - destruct skip; [discriminate|]. unfold add_item in H. apply bind_r_Diverges in H. destruct H as [H|[a [_ H]]]; [|discriminate].
    destruct (has_code b); [|discriminate]. eexists; eexists; split; [left; reflexivity|exact H].
  - apply bind_r_Diverges in H. destruct H as [H|[[[t l] s] [_ H]]]; [|discriminate].
    destruct (IH _ H) as [b' [s [Hb E]]]. exists b', s; split; [right; assumption|assumption].
Qed.
Lemma write_loop_total w fuel : (0 < max_file_size (wopt w))%N -> forall rest fnames entrance tc,
  (2 * length rest <= fuel \/
   (exists b t, rest = b :: t /\ count (binder_namespace w b) entrance <> 0 /\ 2 * length rest <= S fuel)) ->
  write_loop fuel w rest fnames entrance tc = Diverges ->
  exists b s, In b rest /\ binder_includes w b s = Diverges.
Proof.
  intros Mx. induction fuel as [|fuel IH]; intros [|b rest] fnames entrance tc Hf H; cbn [write_loop] in H; try discriminate.
  - cbn in Hf. exfalso. destruct Hf as [?|[? [? [? [? ?]]]]]; lia.
  - destruct (has_code b) eqn:HC; cbn [negb] in H.
    + destruct (first_code w (binder_namespace w b) (count (binder_namespace w b) entrance)) as [call skip] eqn:FC.
      apply bind_r_Diverges in H. destruct H as [H|[[[taken later] st] [E H]]]; [eapply fill_total; eassumption|].
      apply bind_r_Diverges in H. destruct H as [H|[? [_ H]]]; [|discriminate].
      destruct (fill_spec _ _ _ _ _ _ _ _ E) as [Er [_ [_ [_ [_ [_ Lt]]]]]].
      assert (T : taken <> [] \/ (taken = [] /\ count (binder_namespace w b) entrance = 0)).
      { destruct taken as [|x taken]; [right; split; [reflexivity|]|left; discriminate]. cbn in Er. subst later.
        destruct (count (binder_namespace w b) entrance); [reflexivity|]. exfalso.
        rewrite first_code_S in FC. injection FC as <- <-.
        destruct (fill_spec _ _ _ _ _ _ _ _ E) as [_ [_ [Ec _]]].
        destruct (Lt b rest eq_refl) as [X|X]; [|congruence]. rewrite Ec in X. cbn [s_code app] in X.
        destruct (replaced_namespace w _); cbn [texts] in X; unfold fits in X; apply N.ltb_ge in X; cbn in X; lia. }
      destruct T as [T|[-> C0]].
      * edestruct (IH later) as [b' [s [Hb Eb]]]; [|exact H|].
        -- left. destruct taken as [|x taken]; [congruence|]. apply (f_equal (@length binder)) in Er. rewrite app_length in Er.
           cbn [length] in *. destruct Hf as [?|[? [? [? [? ?]]]]]; lia.
        -- exists b', s. split; [|assumption]. rewrite Er, in_app_iff. auto.
      * cbn in Er. subst later. edestruct (IH (b :: rest)) as [b' [s [Hb Eb]]]; [|exact H|eauto].
        right. exists b, rest. split; [reflexivity|]. rewrite count_bump. split; [lia|].
        destruct Hf as [?|[b' [t [[= <- <-] [C1 _]]]]]; [lia|congruence].
    + edestruct (IH rest) as [b' [s [Hb Eb]]]; [|exact H|].
      * left. cbn [length] in *. destruct Hf as [?|[? [? [? [? ?]]]]]; lia.
      * exists b', s; split; [right; assumption|assumption].
Qed.
Lemma write_loop_stuck w : max_file_size (wopt w) = 0%N -> forall fuel rest fnames entrance tc,
  existsb has_code rest = true -> write_loop fuel w rest fnames entrance tc = Diverges.
Proof.
  intros Mx. assert (Nf : forall s, fits w s = false).
  { intros s. unfold fits. rewrite Mx. apply N.ltb_ge. lia. }
  induction fuel as [|fuel IH]; intros [|b rest] fnames entrance tc He; cbn [write_loop]; try discriminate; [reflexivity|].
  cbn [existsb] in He. destruct (has_code b) eqn:HC; cbn [negb]; [|apply IH; assumption].
  destruct (first_code _ _ _) as [call skip]. cbn [fill s_code]. rewrite Nf. cbn [andb bind_r].
  rewrite IH; [reflexivity|]. cbn. rewrite HC. reflexivity.
Qed.

(** ** C37: namespaces *)
Lemma base_namespace_cases n :
  (exists x, last_separator n (base_namespace n) x /\ x = last_namespace n) \/
  (~ occurs $"::" n /\ base_namespace n = [] /\ last_namespace n = n).
Proof.
  unfold base_namespace, last_namespace. destruct (rfind n $"::") as [i|] eqn:R.
  - left. pose proof (rfind_Some _ _ _ R) as [a [b [Hs [Hi Hl]]]].
    assert (O : occurs $"::" n) by (exists (length a), a, b; auto).
    pose proof (namespace_split n O) as [E _]. unfold base_namespace, last_namespace in E. rewrite R in E.
    eexists. split; [|reflexivity]. split; [exact E|]. intros j Hj. apply Hl. subst i.
    unfold substr in Hj. cbn [skipn] in Hj. rewrite Hs, firstn_app_exact in Hj. assumption.
  - right. split; [apply rfind_None; assumption|auto].
Qed.
Lemma last_separator_det n i1 x1 i2 x2 : last_separator n i1 x1 -> last_separator n i2 x2 -> i1 = i2 /\ x1 = x2.
Proof.
  intros [E1 L1] [E2 L2].
  assert (length i1 = length i2).
  { destruct (Nat.lt_trichotomy (length i1) (length i2)) as [H|[H|H]]; [|assumption|].
    - exfalso. apply (L1 _ H). exists i2, x2. auto.
    - exfalso. apply (L2 _ H). exists i1, x1. auto. }
  assert (i1 = i2).
  { rewrite E1 in E2. apply (f_equal (firstn (length i1))) in E2. rewrite firstn_app_exact in E2. rewrite H, firstn_app_exact in E2. assumption. }
  subst i2. split; [reflexivity|]. rewrite E1 in E2. apply app_inv_head in E2. apply app_inv_head in E2. assumption.
Qed.
Lemma enclosing_In fuel ns x : length ns <= fuel -> (In x (enclosing fuel ns) <-> encloses ns x).
Proof.
  assert (Up : forall n m, encloses (base_namespace n) m -> encloses n m).
  { intros n m H. destruct n as [|a n]; [cbn in H; exact H|].
    induction H as [H|m inner y _ IH S N]; [|eapply E_outer; eassumption].
    destruct (base_namespace_cases (a :: n)) as [[y [S _]]|[_ [E _]]]; [|congruence].
    eapply E_outer; [apply E_self; discriminate|exact S|assumption]. }
  assert (Down : forall n m, encloses n m -> m = n \/ encloses (base_namespace n) m).
  { intros n m H. induction H as [H|m inner y H IH S N]; [auto|]. right. destruct IH as [->|IH].
    - destruct (base_namespace_cases n) as [[y' [S' _]]|[O _]].
      + destruct (last_separator_det _ _ _ _ _ S S') as [-> _]. apply E_self. assumption.
      + exfalso. apply O. destruct S as [-> _]. exists (length inner), inner, y; auto.
    - eapply E_outer; eassumption. }
  assert (NE : forall m, ~ encloses [] m) by (intros m H; induction H; auto).
  revert ns. induction fuel as [|fuel IH]; intros [|a ns] L; cbn [enclosing].
  - split; [intros []|]. intros H; exfalso; exact (NE _ H).
  - cbn in L; lia.
  - split; [intros []|]. intros H; exfalso; exact (NE _ H).
  - cbn [In]. assert (Lb : length (base_namespace (a :: ns)) <= fuel).
    { pose proof (base_namespace_shorter (a :: ns)). cbn [length] in *. assert (length (base_namespace (a :: ns)) < S (length ns)) by (apply H; discriminate). lia. }
    rewrite (IH _ Lb). split.
    + intros [<-|H]; [apply E_self; discriminate|apply Up; assumption].
    + intros H. destruct (Down _ _ H) as [->|H']; auto.
Qed.
Lemma nested_namespaces_In w l x : In x (nested_namespaces w l) <->
  exists b, In b l /\ has_code b = true /\ encloses (binder_namespace w b) x.
Proof.
  unfold nested_namespaces. rewrite set_of_In, in_flat_map. split.
  - intros [b [Hb Hx]]. destruct (has_code b) eqn:HC; [|destruct Hx]. exists b. split; [assumption|]. split; [assumption|].
    exact (proj1 (enclosing_In _ _ _ (le_n _)) Hx).
  - intros [b [Hb [HC Hx]]]. exists b. split; [assumption|]. rewrite HC. exact (proj2 (enclosing_In _ _ _ (le_n _)) Hx).
Qed.
Lemma nested_namespaces_nonempty w l x : In x (nested_namespaces w l) -> x <> [].
Proof. intros H. apply nested_namespaces_In in H. destruct H as [b [_ [_ H]]]. destruct H; assumption. Qed.
Lemma nested_namespaces_closed w l n inner x : In n (nested_namespaces w l) -> last_separator n inner x -> inner <> [] ->
  In inner (nested_namespaces w l).
Proof. intros H S N. apply nested_namespaces_In in H. destruct H as [b [H1 [H2 H3]]]. apply nested_namespaces_In. exists b. split; [assumption|]. split; [assumption|]. eapply E_outer; eassumption. Qed.

Lemma strlt_prefix (a b : str) : b <> [] -> strlt a (a ++ b).
Proof.
  unfold strlt. intros N. induction a as [|c a IH]; cbn [app strcmp]; [destruct b; [congruence|reflexivity]|].
  rewrite N.compare_refl. assumption.
Qed.
Lemma sorted_before l x y : StronglySorted strlt l -> In x l -> In y l -> strlt x y -> before l x y.
Proof.
  intros S Hx Hy L. induction S as [|z l S IH F]; [destruct Hx|].
  destruct Hx as [<-|Hx].
  - destruct Hy as [<-|Hy]; [exfalso; eapply strlt_irrefl; eassumption|].
    apply in_split in Hy. destruct Hy as [l2 [l3 ->]]. exists [], l2, l3. reflexivity.
  - destruct Hy as [<-|Hy].
    + exfalso. apply (strlt_irrefl z). eapply strlt_trans; [|exact L]. rewrite Forall_forall in F. auto.
    + destruct (IH Hx Hy) as [l1 [l2 [l3 ->]]]. exists (z :: l1), l2, l3. reflexivity.
Qed.

(** The pairs of the generated table, run as the generated code runs them. *)
Definition pair_of (n : str) : str * str := (base_namespace n, last_namespace n).
Lemma module_key n : n <> [] -> prefixb $"::" n = false ->
  match base_namespace n with [] => last_namespace n | _ => base_namespace n ++ $"::" ++ last_namespace n end = n.
Proof.
  intros N P. destruct (base_namespace_cases n) as [[x [[E _] ->]]|[_ [E1 E2]]].
  - destruct (base_namespace n) eqn:B; [|symmetry; exact E]. exfalso. rewrite E in P. cbn in P. discriminate.
  - rewrite E1, E2. reflexivity.
Qed.
Lemma run_all l : forall done modules, StronglySorted strlt (done ++ l) ->
  (forall n, In n l -> n <> [] /\ prefixb $"::" n = false) ->
  (forall n, In n l -> base_namespace n <> [] -> In (base_namespace n) (done ++ l)) ->
  In [] modules -> (forall n, In n done -> In n modules) ->
  exists m, run_submodules (map pair_of l) modules = Some m /\ (forall n, In n (done ++ l) \/ In n modules -> In n m).
Proof.
  induction l as [|n l IH]; intros done modules S Hn Hb He Hd.
  - exists modules. split; [reflexivity|]. rewrite app_nil_r. intros n [H|H]; auto.
  - cbn [map run_submodules pair_of].
    destruct (Hn n (or_introl eq_refl)) as [N P].
    assert (Hm : In (base_namespace n) modules).
    { destruct (base_namespace n) as [|c bn] eqn:B; [assumption|]. apply Hd.
      assert (X : In (base_namespace n) (done ++ n :: l)) by (apply Hb; [left; reflexivity|rewrite B; discriminate]).
      rewrite B in X. apply in_app_iff in X. destruct X as [X|X]; [assumption|]. exfalso.
      assert (Lt : strlt (c :: bn) n).
      { destruct (base_namespace_cases n) as [[x [[E _] _]]|[_ [E _]]]; [|congruence].
        rewrite B in E. rewrite E. apply strlt_prefix. discriminate. }
      destruct X as [X|X]; [rewrite <- X in Lt at 1; apply (strlt_irrefl n); assumption|].
      assert (S' : StronglySorted strlt (n :: l)).
      { clear -S. induction done; [assumption|]. inversion S; auto. }
      inversion S' as [|? ? _ F]; subst. rewrite Forall_forall in F. apply (strlt_irrefl n). eapply strlt_trans; [apply F; exact X|exact Lt]. }
    rewrite (proj2 (mem_In _ _) Hm), (module_key n N P).
    destruct (IH (done ++ [n]) (n :: modules)) as [m [E Q]].
    + rewrite <- app_assoc. exact S.
    + intros n' H; apply Hn; right; assumption.
    + intros n' H B. rewrite <- app_assoc. apply Hb; [right; assumption|assumption].
    + right; assumption.
    + intros n' H. apply in_app_iff in H. destruct H as [H|[<-|[]]]; [right; auto|left; reflexivity].
    + exists m. split; [exact E|]. intros n' H. apply Q. rewrite <- app_assoc. cbn. destruct H as [H|H]; [left; exact H|right; right; assumption].
Qed.
Lemma prefixb_prefix p (a b : str) : prefixb p a = true -> prefixb p (a ++ b) = true.
Proof. rewrite !prefixb_iff. intros [r ->]. exists (r ++ b). rewrite <- app_assoc. reflexivity. Qed.
Lemma encloses_prefix ns n : encloses ns n -> exists r, ns = n ++ r.
Proof.
  induction 1 as [|m inner x _ [r ->] [-> _] _]; [exists []; rewrite app_nil_r; reflexivity|].
  exists ($"::" ++ x ++ r). rewrite <- !app_assoc. reflexivity.
Qed.
Lemma modules_exist w l :
  (forall b, In b l -> has_code b = true -> prefixb $"::" (binder_namespace w b) = false) ->
  exists m, run_submodules (map pair_of (nested_namespaces w l)) [[]] = Some m /\
    forall b, In b l -> has_code b = true -> In (binder_namespace w b) m.
Proof.
  intros P.
  destruct (run_all (nested_namespaces w l) [] [[]]) as [m [E Q]].
  - apply set_of_sorted.
  - intros n H. split; [eapply nested_namespaces_nonempty; eassumption|].
    apply nested_namespaces_In in H. destruct H as [b [H1 [H2 H3]]]. apply encloses_prefix in H3. destruct H3 as [r H3].
    destruct (prefixb $"::" n) eqn:X; [|reflexivity]. specialize (P b H1 H2). rewrite H3 in P.
    rewrite (prefixb_prefix _ _ r X) in P. discriminate.
  - intros n H N. destruct (base_namespace_cases n) as [[x [S _]]|[_ [Eb _]]]; [|congruence].
    eapply nested_namespaces_closed; eassumption.
  - left; reflexivity.
  - intros n [].
  - exists m. split; [exact E|]. intros b Hb HC. apply Q. cbn [app].
    destruct (binder_namespace w b) as [|c ns] eqn:B; [right; left; reflexivity|].
    left. apply nested_namespaces_In. exists b. repeat split; auto. rewrite B. apply E_self. discriminate.
Qed.

(** ** C35, C36: names *)
Definition is_digit (c : ascii) : bool := existsb (Ascii.eqb c) $"0123456789".
Lemma string_of_uint_digits d : forallb is_digit (list_ascii_of_string (DecimalString.NilEmpty.string_of_uint d)) = true.
Proof. induction d; cbn [DecimalString.NilEmpty.string_of_uint list_ascii_of_string forallb]; try (rewrite IHd); reflexivity. Qed.
Lemma dec_digits n c : In c (dec n) -> is_digit c = true.
Proof.
  assert (H : forallb is_digit (dec n) = true).
  { unfold dec, DecimalString.NilZero.string_of_uint. destruct (Nat.to_uint n) eqn:E; [reflexivity|..]; rewrite <- E; rewrite E; apply string_of_uint_digits. }
  rewrite forallb_forall in H. apply H.
Qed.
Lemma dec_inj n m : dec n = dec m -> n = m.
Proof.
  unfold dec. intros H. apply (f_equal string_of_list_ascii) in H. rewrite !string_of_list_ascii_of_string in H.
  assert (NZ : forall k, Nat.to_uint k <> Decimal.Nil).
  { intros k E. pose proof (DecimalNat.Unsigned.of_to k) as O. rewrite E in O. cbn in O. subst k. discriminate. }
  apply (f_equal DecimalString.NilZero.uint_of_string) in H. rewrite !DecimalString.NilZero.usu in H by apply NZ.
  injection H as H. apply DecimalNat.Unsigned.to_uint_inj. assumption.
Qed.
Lemma last_char_split (c : ascii) a x b y : ~ In c x -> ~ In c y -> a ++ c :: x = b ++ c :: y -> a = b /\ x = y.
Proof.
  intros Hx Hy E.
  assert (G : forall x y a b, ~ In c x -> ~ In c y -> x ++ c :: a = y ++ c :: b -> x = y /\ a = b).
  { clear. induction x as [|d x IH]; intros [|e y] a b Hx Hy E; cbn in E.
    - injection E as ->; auto.
    - injection E as -> _. exfalso; apply Hy; left; reflexivity.
    - injection E as -> _. exfalso; apply Hx; left; reflexivity.
    - injection E as -> E. destruct (IH y a b) as [-> ->]; auto; intros H; [apply Hx|apply Hy]; right; assumption. }
  apply (f_equal (@rev ascii)) in E. rewrite !rev_app_distr in E. cbn [rev] in E. rewrite <- !app_assoc in E. cbn [app] in E.
  apply G in E; [|rewrite <- in_rev; assumption|rewrite <- in_rev; assumption].
  destruct E as [E1 E2]. split; [rewrite <- (rev_involutive a), E2; apply rev_involutive|rewrite <- (rev_involutive x), E1; apply rev_involutive].
Qed.
Lemma dec_no_char c n : is_digit c = false -> ~ In c (dec n).
Proof. intros H I. apply dec_digits in I. congruence. Qed.
Lemma numbered_inj p n q m : p ++ $"_" ++ dec n = q ++ $"_" ++ dec m -> p = q /\ n = m.
Proof.
  intros E. apply last_char_split in E; [|apply dec_no_char; reflexivity|apply dec_no_char; reflexivity].
  destruct E as [-> E]. split; [reflexivity|apply dec_inj; assumption].
Qed.

Definition slash (c : ascii) : ascii := if Ascii.eqb c "/" then "_"%char else c.
Lemma replace_slash s : replace s $"/" $"_" = map slash s.
Proof.
  change $"/" with ["/"%char]. rewrite replace_char. induction s as [|c s IH]; [reflexivity|]. cbn [flat_map map]. rewrite IH.
  unfold slash. destruct (Ascii.eqb c "/"); reflexivity.
Qed.
Lemma slash_dec n : map slash (dec n) = dec n.
Proof.
  pose proof (dec_digits n) as H. induction (dec n) as [|c l IH]; [reflexivity|]. cbn [map]. rewrite IH by (intros; apply H; right; assumption).
  f_equal. specialize (H c (or_introl eq_refl)). unfold slash. destruct (Ascii.eqb_spec c "/"); [subst; discriminate|reflexivity].
Qed.

(** Every file has a prefix and a number of its own. *)
Lemma wrote_names w rest fnames entrance tc gs : wrote w rest fnames entrance tc gs ->
  exists ps : list (str * nat), NoDup ps /\
    map g_name gs = map (fun x => file_stem w (fst x) (snd x) ++ $".cpp") ps /\
    map g_fun gs = map (fun x => function_name (file_stem w (fst x) (snd x))) ps /\
    Forall (fun x => count (fst x) fnames <= snd x /\ exists b, In b rest /\ has_code b = true /\ fst x = name_prefix w b) ps.
Proof.
  induction 1 as [fn en tc|b rest fn en tc gs HC W IH|b rest fn en tc taken later st gs HC F W IH].
  - exists []. repeat split; constructor.
  - destruct IH as [ps [H1 [H2 [H3 H4]]]]. exists ps. repeat split; auto.
    eapply Forall_impl; [|exact H4]. intros x [A [b' [B [C D]]]]. split; [assumption|]. exists b'. repeat split; auto. right; assumption.
  - destruct IH as [ps [H1 [H2 [H3 H4]]]]. apply fill_spec in F. destruct F as [E _].
    exists ((name_prefix w b, count (name_prefix w b) fn) :: ps). rewrite Forall_forall in H4. split; [|split; [|split]].
    + constructor; [|assumption]. intros I. specialize (H4 _ I). cbn [fst snd] in H4. rewrite count_bump in H4. lia.
    + cbn [map]. rewrite H2. reflexivity.
    + cbn [map]. rewrite H3. reflexivity.
    + constructor; cbn [fst snd].
      * split; [auto|]. exists b. repeat split; auto. left; reflexivity.
      * apply Forall_forall. intros x I. specialize (H4 x I). destruct H4 as [A [b' [B [C D]]]]. split.
        -- destruct (streqb_spec (fst x) (name_prefix w b)) as [X|X]; [rewrite X in *; rewrite count_bump in A; lia|].
           rewrite count_bump_other in A by assumption. assumption.
        -- exists b'. repeat split; auto. rewrite E. apply in_or_app. right; assumption.
Qed.
Lemma wrote_flat w rest fnames entrance tc gs : flat (wopt w) = true -> wrote w rest fnames entrance tc gs ->
  map g_name gs = map (fun k => root_module (wopt w) ++ $"_" ++ dec k ++ $".cpp") (seq (count (root_module (wopt w) ++ $"_") fnames) (length gs)) /\
  map g_fun gs = map (fun k => $"bind_" ++ map slash (root_module (wopt w)) ++ $"_" ++ dec k) (seq (count (root_module (wopt w) ++ $"_") fnames) (length gs)).
Proof.
  intros Fl. induction 1 as [fn en tc|b rest fn en tc gs HC W IH|b rest fn en tc taken later st gs HC F W IH]; [split; reflexivity|assumption|].
  cbn [map length seq]. destruct IH as [I1 I2].
  assert (Np : name_prefix w b = root_module (wopt w) ++ $"_") by (unfold name_prefix; rewrite Fl; reflexivity).
  rewrite Np in I1, I2. rewrite count_bump in I1, I2. rewrite I1, I2.
  unfold made_file. rewrite Np. unfold file_stem. rewrite Fl. cbn [g_name g_fun]. unfold function_name.
  rewrite replace_slash, !map_app, slash_dec. split; f_equal; rewrite <- ?app_assoc; reflexivity.
Qed.
Lemma NoDup_map_inj {A B} (f : A -> B) l : NoDup l -> (forall x y, In x l -> In y l -> f x = f y -> x = y) -> NoDup (map f l).
Proof.
  induction 1 as [|x l Hx Hl IH]; intros Inj; cbn [map]; constructor.
  - intros I. apply in_map_iff in I. destruct I as [y [E I]]. apply Hx.
    replace x with y; [assumption|]. apply Inj; [right; assumption|left; reflexivity|assumption].
  - apply IH. intros; apply Inj; auto; right; assumption.
Qed.
Lemma flat_names w rest gs : flat (wopt w) = true -> wrote w rest [] [] 0 gs ->
  NoDup (root_file_name w :: map g_name gs) /\ NoDup (map g_fun gs).
Proof.
  intros Fl W. destruct (wrote_flat _ _ _ _ _ _ Fl W) as [E1 E2]. rewrite E1, E2. split; [constructor|].
  - intros I. apply in_map_iff in I. destruct I as [k [E _]]. unfold root_file_name in E. apply app_inv_head in E.
    apply (f_equal (@length ascii)) in E. rewrite !app_length in E. cbn in E. lia.
  - apply NoDup_map_inj; [apply seq_NoDup|]. intros a b _ _ E. apply app_inv_head in E. apply app_inv_head in E. apply app_inv_tail in E.
    apply dec_inj; assumption.
  - apply NoDup_map_inj; [apply seq_NoDup|]. intros a b _ _ E. do 3 apply app_inv_head in E. apply dec_inj; assumption.
Qed.
Lemma stem_inj w p n q m : flat (wopt w) = false ->
  (p <> q -> forall k, p <> q ++ $"_" ++ dec k /\ q <> p ++ $"_" ++ dec k) ->
  file_stem w p n = file_stem w q m -> p = q /\ n = m.
Proof.
  intros Fl D. unfold file_stem. rewrite Fl.
  assert (Self : forall (s : str) k, s <> s ++ $"_" ++ dec k).
  { intros s k E. apply (f_equal (@length ascii)) in E. rewrite !app_length in E. cbn in E. lia. }
  destruct (Nat.eqb_spec n 0) as [->|Hn], (Nat.eqb_spec m 0) as [->|Hm]; rewrite ?app_nil_r; intros E.
  - auto.
  - exfalso. destruct (streqb_spec p q) as [<-|N]; [exact (Self _ _ E)|exact (proj1 (D N m) E)].
  - exfalso. destruct (streqb_spec p q) as [<-|N]; [exact (Self _ _ (eq_sym E))|exact (proj2 (D N n) (eq_sym E))].
  - apply numbered_inj; assumption.
Qed.
Lemma prefix_names w rest gs : flat (wopt w) = false -> wrote w rest [] [] 0 gs ->
  (forall b b' k, In b rest -> In b' rest -> has_code b = true -> has_code b' = true ->
     file_name_prefix w b <> file_name_prefix w b' ++ $"_" ++ dec k) ->
  NoDup (map g_name gs).
Proof.
  intros Fl W D. destruct (wrote_names _ _ _ _ _ _ W) as [ps [H1 [H2 [_ H4]]]]. rewrite H2. rewrite Forall_forall in H4.
  apply NoDup_map_inj; [assumption|]. intros [p n] [q m] Hx Hy E. cbn [fst snd] in E. apply app_inv_tail in E.
  destruct (H4 _ Hx) as [_ [b [B1 [B2 B3]]]]. destruct (H4 _ Hy) as [_ [b' [C1 [C2 C3]]]]. cbn [fst] in *.
  unfold name_prefix in *. rewrite Fl in *. subst p q.
  apply stem_inj in E; [|assumption|intros _ k; split; apply D; auto]. destruct E as [-> ->]. reflexivity.
Qed.
Lemma map_slash_stem w p n : flat (wopt w) = false -> map slash (file_stem w p n) = file_stem w (map slash p) n.
Proof.
  intros Fl. unfold file_stem. rewrite Fl, map_app. f_equal. destruct (n =? 0); [reflexivity|]. rewrite map_app, slash_dec. reflexivity.
Qed.
Lemma prefix_functions w rest gs : flat (wopt w) = false -> wrote w rest [] [] 0 gs ->
  (forall b b' k, In b rest -> In b' rest -> has_code b = true -> has_code b' = true ->
     map slash (file_name_prefix w b) <> map slash (file_name_prefix w b') ++ $"_" ++ dec k) ->
  (forall b b', In b rest -> In b' rest -> has_code b = true -> has_code b' = true ->
     map slash (file_name_prefix w b) = map slash (file_name_prefix w b') -> file_name_prefix w b = file_name_prefix w b') ->
  NoDup (map g_fun gs).
Proof.
  intros Fl W D Inj. destruct (wrote_names _ _ _ _ _ _ W) as [ps [H1 [_ [H3 H4]]]]. rewrite H3. rewrite Forall_forall in H4.
  apply NoDup_map_inj; [assumption|]. intros [p n] [q m] Hx Hy E. cbn [fst snd] in E. unfold function_name in E. apply app_inv_head in E.
  rewrite !replace_slash, !map_slash_stem in E by assumption.
  destruct (H4 _ Hx) as [_ [b [B1 [B2 B3]]]]. destruct (H4 _ Hy) as [_ [b' [C1 [C2 C3]]]]. cbn [fst] in *.
  unfold name_prefix in *. rewrite Fl in *. subst p q.
  apply stem_inj in E; [|assumption|intros _ k; split; apply D; auto]. destruct E as [E1 ->]. f_equal. apply Inj; auto.
Qed.

(** ** C38: root module and output *)
Lemma write_output_effect mkdir_ok can_open w o f f' : single_file (wopt w) = false ->
  write_output mkdir_ok can_open w o f = Ok f' ->
  NoDup (root_file_name w :: map g_name (out_files o)) ->
  (forall g, In g (out_files o) -> exists p, g_name g = p ++ $".cpp") ->
  (forall g, In g (out_files o) -> content f' (path_of (prefix (wopt w)) (g_name g)) = g_text g) /\
  content f' (path_of (prefix (wopt w)) (root_file_name w)) = root_text w (out_namespaces o) (out_files o) /\
  (can_open (root_path w ++ $".sources") = true -> content f' (root_path w ++ $".sources") = sources_text (source_names w (out_files o))) /\
  (can_open (root_path w ++ $".modules") = true -> content f' (root_path w ++ $".modules") = modules_text (out_namespaces o)) /\
  (forall q, ~ In q (map (path_of (prefix (wopt w))) (source_names w (out_files o))) ->
     q <> root_path w ++ $".sources" -> q <> root_path w ++ $".modules" -> lookup q (files f') = lookup q (files f)).
Proof.
  intros Sf H ND Cpp. unfold write_output in H. rewrite Sf in H.
  destruct (negb (can_open (prefix (wopt w) ++ $"/" ++ root_file_name w))); [discriminate|].
  inv_all H. rename a into f1. apply Ok_inj in H.
  set (root := path_of (prefix (wopt w)) (root_file_name w)) in *.
  change (prefix (wopt w) ++ $"/" ++ root_file_name w) with root in *.
  assert (Last : forall (x y : str) (a b : ascii), x ++ [a] = y ++ [b] -> a = b) by (intros x y a b X; apply app_inj_tail in X; tauto).
  assert (NC : forall s x p : str, path_of (prefix (wopt w)) (p ++ $".cpp") <> root_path w ++ x ++ $"s").
  { intros _ x p X. unfold path_of in X.
    replace (prefix (wopt w) ++ $"/" ++ p ++ $".cpp") with ((prefix (wopt w) ++ $"/" ++ p ++ $".cp") ++ ["p"%char]) in X by (rewrite <- !app_assoc; reflexivity).
    rewrite (app_assoc (root_path w)) in X. apply Last in X. discriminate. }
  assert (Rs : root <> root_path w ++ $".sources") by (apply (NC [] $".source")).
  assert (Rm : root <> root_path w ++ $".modules") by (apply (NC [] $".module")).
  assert (Sm : root_path w ++ $".sources" <> root_path w ++ $".modules") by (intros X; apply app_inv_head in X; discriminate).
  inversion ND as [|? ? Nr ND']; subst.
  (* the files *)
  assert (Upd : forall l f0 f1, update_all mkdir_ok can_open (prefix (wopt w)) (map (fun g => (g_name g, g_text g)) l) f0 = Ok f1 ->
            NoDup (map g_name l) ->
            (forall g, In g l -> content f1 (path_of (prefix (wopt w)) (g_name g)) = g_text g) /\
            (forall q, ~ In q (map (path_of (prefix (wopt w))) (map g_name l)) -> lookup q (files f1) = lookup q (files f0))).
  { clear. induction l as [|g l IH]; intros f0 f1 H ND; cbn [map update_all] in H.
    - apply Ok_inj in H. subst f1. split; [intros ? []|auto].
    - inv_all H. inversion ND as [|? ? N ND']; subst. destruct (IH _ _ H ND') as [I1 I2].
      pose proof (update_effect _ _ _ _ _ _ _ E) as [U1 [U2 _]]. split.
      + intros g' [<-|I]; [|auto]. unfold content. rewrite I2; [exact U1|].
        intros X. apply in_map_iff in X. destruct X as [y [X Y]]. apply path_of_inj in X. subst y. contradiction.
      + intros q Q. cbn [map In] in Q. rewrite I2 by tauto. apply U2. intros X; apply Q; left; auto. }
  destruct (Upd _ _ _ E ND') as [U1 U2].
  assert (Put : forall p t q g, q <> p -> lookup q (files (if can_open p then write_file p t g else g)) = lookup q (files g)).
  { intros p t q g N. destruct (can_open p); [|reflexivity]. cbn [write_file files]. apply lookup_update_neq. assumption. }
  assert (PutEq : forall p t g, can_open p = true -> content (if can_open p then write_file p t g else g) p = t).
  { intros p t g ->. unfold write_file. apply content_update_eq. }
  split; [|split; [|split; [|split]]].
  - intros g I. unfold content. destruct (Cpp g I) as [p Ep].
    rewrite Put by (rewrite Ep; apply (NC [] $".module")). rewrite Put by (rewrite Ep; apply (NC [] $".source")).
    cbn [write_file files]. rewrite lookup_update_neq; [apply (U1 g I)|].
    intros X. apply path_of_inj in X. apply Nr. rewrite <- X. apply in_map. assumption.
  - unfold content. rewrite Put by assumption. rewrite Put by assumption. unfold write_file. apply content_update_eq.
  - intros C. unfold content. rewrite Put by assumption. apply PutEq. assumption.
  - intros C. apply PutEq. assumption.
  - intros q Q Qs Qm. rewrite !Put by assumption. cbn [write_file files].
    unfold source_names in Q. cbn [map In] in Q.
    rewrite lookup_update_neq by (intros X; apply Q; left; symmetry; exact X).
    rewrite U2 by tauto. cbn [write_file files]. apply lookup_update_neq. intros X; apply Q; left; symmetry; exact X.
Qed.
Lemma wrote_cpp w rest fnames entrance tc gs : wrote w rest fnames entrance tc gs -> forall g, In g gs -> exists p, g_name g = p ++ $".cpp".
Proof.
  intros W g I. destruct (wrote_names _ _ _ _ _ _ W) as [ps [_ [E _]]]. apply (in_map g_name) in I. rewrite E in I.
  apply in_map_iff in I. destruct I as [x [X _]]. eexists. symmetry. exact X.
Qed.
