(** Proofs about the caches of Memo.v. *)
From Coq Require Import Ascii String Bool Arith.
From Coq Require Import List.
From Verif Require Import Str StrFacts Util Config Ast Types Func Memo SpecMemo TotalFacts.
Import ListNotations.

Lemma found_snoc {K V} (eqb : K -> K -> bool) (l : list (K * V)) k v k' u :
  found eqb k' (l ++ [(k, v)]) = Some u -> found eqb k' l = Some u \/ (eqb k' k = true /\ u = v).
Proof.
  induction l as [|[k1 v1] l IH]; cbn [app found].
  - destruct (eqb k' k); [|intros X; discriminate X]. intros X; injection X as <-; auto.
  - destruct (eqb k' k1); [auto|exact IH].
Qed.

(** Computations that keep a property of the caches and, under it, give a certain answer. *)
Definition sound (P : caches -> Prop) {A} (m : cached A) (a : A) : Prop :=
  forall c, P c -> fst (m c) = a /\ P (snd (m c)).
Definition keeps (P : caches -> Prop) {A} (m : cached A) : Prop := forall c, P c -> P (snd (m c)).
Lemma sound_keeps P {A} (m : cached A) a : sound P m a -> keeps P m.
Proof. intros H c Hc; apply (H c Hc). Qed.
Lemma sound_ret P {A} (a : A) : sound P (ret a) a.
Proof. intros c Hc; auto. Qed.
Lemma keeps_ret P {A} (a : A) : keeps P (ret a).
Proof. intros c Hc; auto. Qed.
Lemma sound_then P {A B} (m : cached A) (f : A -> cached B) a b : sound P m a -> sound P (f a) b -> sound P (andthen m f) b.
Proof.
  intros Hm Hf c Hc. unfold andthen. destruct (Hm c Hc) as [E Q]. destruct (m c) as [a' c']; cbn [fst snd] in *. subst a'. apply Hf, Q.
Qed.
Lemma keeps_then P {A B} (m : cached A) (f : A -> cached B) : keeps P m -> (forall a, keeps P (f a)) -> keeps P (andthen m f).
Proof.
  intros Hm Hf c Hc. unfold andthen. specialize (Hm c Hc). destruct (m c) as [a' c']; cbn [fst snd] in *. apply Hf, Hm.
Qed.
Lemma sound_remember (P : caches -> Prop) {K V} (eqb : K -> K -> bool) (read : caches -> list (K * V)) write (k : K) (raw : cached V) v :
  (forall c u, P c -> found eqb k (read c) = Some u -> u = v) ->
  (forall c, P c -> P (write (read c ++ [(k, v)]) c)) ->
  sound P raw v -> sound P (remember eqb read write k raw) v.
Proof.
  intros Hr Hw Hraw c Hc. unfold remember. destruct (found eqb k (read c)) as [u|] eqn:F.
  - split; [exact (Hr c u Hc F)|exact Hc].
  - destruct (Hraw c Hc) as [E Q]. destruct (raw c) as [v' c']; cbn [fst snd] in *. subst v'. split; [reflexivity|apply Hw, Q].
Qed.
Lemma keeps_remember (P : caches -> Prop) {K V} (eqb : K -> K -> bool) (read : caches -> list (K * V)) write (k : K) (raw : cached V) :
  (forall c v, P c -> P (write (read c ++ [(k, v)]) c)) ->
  keeps P raw -> keeps P (remember eqb read write k raw).
Proof.
  intros Hw Hraw c Hc. unfold remember. destruct (found eqb k (read c)) as [u|] eqn:F; [exact Hc|].
  specialize (Hraw c Hc). destruct (raw c) as [v' c']; cbn [fst snd] in *. apply Hw, Hraw.
Qed.

(** What the caches hold is right. *)
Definition texts_right (rs : list (str -> str)) (c : caches) : Prop :=
  (forall k v, found streqb k (k_standard c) = Some v -> v = standard_name_raw rs k) /\
  (forall k v, found streqb k (k_simplified c) = Some v -> v = simplify_std_class_name rs k).
Definition declarations_right (w : world) (c : caches) : Prop :=
  (forall r v, found Nat.eqb r (k_records c) = Some v -> v = is_bindable_rec w r) /\
  (forall f v, found Nat.eqb f (k_functions c) = Some v -> v = is_bindable_fun w (fun_ w f)).
Definition right (w : world) (c : caches) : Prop := texts_right (rx (wenv w)) c /\ declarations_right w c.

(** A property of the caches that text answers keep: both kinds of property above. *)
Record text_stable (rs : list (str -> str)) (P : caches -> Prop) : Prop := {
  ts_right : forall c, P c -> texts_right rs c;
  ts_standard : forall c k, P c -> P (write_standard (k_standard c ++ [(k, standard_name_raw rs k)]) c);
  ts_simplified : forall c k, P c -> P (write_simplified (k_simplified c ++ [(k, simplify_std_class_name rs k)]) c)
}.
Lemma texts_stable rs : text_stable rs (texts_right rs).
Proof.
  split; [auto| |]; intros c k [A B]; split; cbn [write_standard write_simplified k_standard k_simplified]; try assumption;
  intros k' v H; apply found_snoc in H; destruct H as [H|[H ->]]; eauto; apply streqb_eq in H; subst; reflexivity.
Qed.
Lemma right_stable w : text_stable (rx (wenv w)) (right w).
Proof.
  destruct (texts_stable (rx (wenv w))) as [_ B C]. split; [intros c H; apply H| |]; intros c k [X [Y Z]]; split; auto; split; assumption.
Qed.

Section Texts.
Context (w : world) (P : caches -> Prop) (St : text_stable (rx (wenv w)) P).
Lemma simplify_sound s : sound P (simplify_c w s) (simplify_std_class_name (rx (wenv w)) s).
Proof.
  apply sound_remember; [|intros c Hc; apply (ts_simplified _ _ St c s Hc)|apply sound_ret].
  intros c u Hc F. apply (ts_right _ _ St c Hc), F.
Qed.
Lemma standard_raw_sound s : sound P (standard_name_raw_c w s) (standard_name_raw (rx (wenv w)) s).
Proof.
  unfold standard_name_raw_c, standard_name_raw. generalize (fold_left (fun r p => replace r (fst p) (snd p)) name_map s). intros r.
  destruct (begins_with r $"std::"); [|apply sound_ret]. eapply sound_then; [apply simplify_sound|apply sound_ret].
Qed.
Lemma standard_sound s : sound P (standard_name_c w s) (standard_name w s).
Proof.
  apply sound_remember; [|intros c Hc; apply (ts_standard _ _ St c s Hc)|apply standard_raw_sound].
  intros c u Hc F. apply (ts_right _ _ St c Hc), F.
Qed.
Lemma standard_q_sound t : sound P (standard_name_q_c w t) (standard_name_q w t).
Proof. unfold standard_name_q_c, standard_name_q. destruct (streqb (print (wenv w) t) $"std::size_t"); [apply sound_ret|apply standard_sound]. Qed.
Lemma builtin_sound n : sound P (is_python_builtin_c w n) (is_python_builtin w n).
Proof. unfold is_python_builtin_c, is_python_builtin. eapply sound_then; [apply standard_sound|apply sound_ret]. Qed.
Lemma banned_sound n : sound P (is_banned_symbol_c w n) (is_banned_symbol w n).
Proof. unfold is_banned_symbol_c, is_banned_symbol. eapply sound_then; [apply standard_sound|apply sound_ret]. Qed.

Lemma raw_sound r m b : sound P m b -> sound P (rec_bindable_raw_c w r m) (rec_bindable_raw w r b).
Proof.
  intros Hm. unfold rec_bindable_raw_c, rec_bindable_raw.
  destruct (r_anon_ns (rec_ w r)); [apply sound_ret|].
  destruct (negb (r_linkage (rec_ w r)) && negb (n_member (r_decl (rec_ w r)))); [apply sound_ret|].
  destruct (contains_char ")" (n_qname (r_decl (rec_ w r))) && r_linkage (rec_ w r)); [apply sound_ret|].
  destruct (contains_char ")" (n_qname (r_decl (rec_ w r))) && negb (r_linkage (rec_ w r)) && negb (r_anon (rec_ w r))); [apply sound_ret|].
  destruct (r_dependent (rec_ w r)); [apply sound_ret|].
  destruct (access_eqb (n_access (r_decl (rec_ w r))) Protected || access_eqb (n_access (r_decl (rec_ w r))) Private); [apply sound_ret|].
  assert (B : forall i, (i = true -> sound P (if i then ret false else let* banned := is_banned_symbol_c w (r_decl (rec_ w r)) in ret (negb banned)) false) /\
                        (i = false -> sound P (if i then ret false else let* banned := is_banned_symbol_c w (r_decl (rec_ w r)) in ret (negb banned)) (negb (is_banned_symbol w (r_decl (rec_ w r)))))).
  { intros [|]; split; intros X; try discriminate X; [apply sound_ret|]. eapply sound_then; [apply banned_sound|apply sound_ret]. }
  assert (C : forall (m' : cached bool) (i : bool), sound P m' i -> sound P (andthen m' (fun incomplete => if incomplete then ret false else let* banned := is_banned_symbol_c w (r_decl (rec_ w r)) in ret (negb banned)))
                          (if i then false else negb (is_banned_symbol w (r_decl (rec_ w r))))).
  { intros m' i' Hi. eapply sound_then; [exact Hi|]. cbv beta. destruct i'; [exact (proj1 (B true) eq_refl)|exact (proj2 (B false) eq_refl)]. }
  apply C. destruct (r_complete (rec_ w r)); cbn [negb andb]; [apply sound_ret|].
  destruct (is_specialization (rec_ w r)); [|apply sound_ret].
  destruct (streqb (n_qname (r_decl (rec_ w r))) $"std::function").
  - eapply sound_then; [exact Hm|apply sound_ret].
  - destruct (r_instantiated (rec_ w r)); cbn [negb andb]; [apply sound_ret|]. eapply sound_then; [apply builtin_sound|apply sound_ret].
Qed.
Lemma raw_keeps r m : keeps P m -> keeps P (rec_bindable_raw_c w r m).
Proof.
  intros Hm. unfold rec_bindable_raw_c.
  repeat match goal with |- keeps P (if ?b then _ else _) => destruct b; [apply keeps_ret|] end.
  apply keeps_then.
  - repeat match goal with |- keeps P (if ?b then _ else _) => destruct b end; try apply keeps_ret; apply keeps_then; intros; try apply keeps_ret; auto.
    eapply sound_keeps, builtin_sound.
  - intros [|]; [apply keeps_ret|]. apply keeps_then; [eapply sound_keeps, banned_sound|intros; apply keeps_ret].
Qed.
End Texts.

Lemma every_sound (P : caches -> Prop) {A} (f : A -> cached bool) (g : A -> bool) l : (forall x, In x l -> sound P (f x) (g x)) -> sound P (every f l) (forallb g l).
Proof.
  induction l as [|x l IH]; intros H; cbn [every forallb]; [apply sound_ret|].
  eapply sound_then; [apply H; left; reflexivity|]. cbv beta. destruct (g x); cbn [andb]; [|apply sound_ret]. apply IH; intros; apply H; right; assumption.
Qed.
Lemma every_keeps (P : caches -> Prop) {A} (f : A -> cached bool) l : (forall x, In x l -> keeps P (f x)) -> keeps P (every f l).
Proof.
  induction l as [|x l IH]; intros H; cbn [every]; [apply keeps_ret|].
  apply keeps_then; [apply H; left; reflexivity|]. intros [|]; [|apply keeps_ret]. apply IH; intros; apply H; right; assumption.
Qed.
Lemma evaluated_sound (P : caches -> Prop) {A} (f : A -> cached bool) (g : A -> bool) l : (forall x, In x l -> sound P (f x) (g x)) -> sound P (every_evaluated f l) (forallb g l).
Proof.
  induction l as [|x l IH]; intros H; cbn [every_evaluated forallb]; [apply sound_ret|].
  eapply sound_then; [apply H; left; reflexivity|]. eapply sound_then; [apply IH; intros; apply H; right; assumption|]. apply sound_ret.
Qed.
Lemma evaluated_keeps (P : caches -> Prop) {A} (f : A -> cached bool) l : (forall x, In x l -> keeps P (f x)) -> keeps P (every_evaluated f l).
Proof.
  induction l as [|x l IH]; intros H; cbn [every_evaluated]; [apply keeps_ret|].
  apply keeps_then; [apply H; left; reflexivity|]. intros b. apply keeps_then; [apply IH; intros; apply H; right; assumption|]. intros; apply keeps_ret.
Qed.

(** ** Types that clang builds *)
Lemma from_part w t u : part t u -> from_clang w t -> from_clang w u.
Proof.
  intros H F c r args Hu. apply (F c r args). clear F. induction H as [t|c0 t u H IH|t u H IH|t u H IH|c0 t u H IH|ret0 ps u H IH|ret0 ps t u I H IH|c0 n t u H IH|c0 r0 args0 t text u I H IH|c0 r0 args0 f ret0 ps text t u I J H IH].
  - exact Hu.
  - apply P_pointer, IH, Hu.
  - apply P_reference, IH, Hu.
  - apply P_rvalue, IH, Hu.
  - apply P_array, IH, Hu.
  - apply P_result, IH, Hu.
  - apply (P_param ret0 ps t _ I), IH, Hu.
  - apply P_typedef, IH, Hu.
  - apply (P_argument c0 r0 args0 t text _ I), IH, Hu.
  - apply (P_signature c0 r0 args0 f ret0 ps text t _ I J), IH, Hu.
Qed.
Lemma add_const_part c t c' r args : part (add_const c t) (TRec c' r args) -> exists c2, part t (TRec c2 r args).
Proof.
  destruct t as [c0 n|c0 t|t|t|c0 t|ret ps|c0 r0 args0|c0 e|c0 n t|c0 n]; cbn [add_const]; intros H; eauto.
  - inversion H.
  - inversion H; subst. eexists; apply P_pointer; eassumption.
  - inversion H; subst. eexists; apply P_array; eassumption.
  - inversion H; subst; eexists; [apply P_self|eapply P_argument; eassumption|eapply P_signature; eassumption].
  - inversion H.
  - inversion H; subst. eexists; apply P_typedef; eassumption.
  - inversion H.
Qed.
Lemma canonical_part t c r args : part (canonical t) (TRec c r args) -> exists c', part t (TRec c' r args).
Proof.
  revert c; induction t as [c0 n|c0 t IHt|t IHt|t IHt|c0 t IHt|ret ps IHt Hps|c0 r0 args0 Ha|c0 e|c0 n t IHt|c0 n] using type_ind; intros c; cbn [canonical]; intros H; eauto.
  - inversion H as [|? ? ? X| | | | | | | |]; subst. apply IHt in X; destruct X; eexists; apply P_pointer; eassumption.
  - inversion H as [| |? ? X| | | | | | |]; subst. apply IHt in X; destruct X; eexists; apply P_reference; eassumption.
  - inversion H as [| | |? ? X| | | | | |]; subst. apply IHt in X; destruct X; eexists; apply P_rvalue; eassumption.
  - inversion H as [| | | |? ? ? X| | | | |]; subst. apply IHt in X; destruct X; eexists; apply P_array; eassumption.
  - inversion H as [| | | | |? ? ? X|? ? ? ? I X| | |]; subst.
    + apply IHt in X; destruct X; eexists; apply P_result; eassumption.
    + apply in_map_iff in I; destruct I as [x [<- Hx]]. rewrite Forall_forall in Hps. apply (Hps x Hx) in X; destruct X. eexists; eapply P_param; eassumption.
  - apply add_const_part in H; destruct H as [c2 H]. apply IHt in H; destruct H; eexists; apply P_typedef; eassumption.
Qed.
Lemma canonical_from w t : from_clang w t -> from_clang w (canonical t).
Proof. intros F c r args H. apply canonical_part in H; destruct H as [c' H]. exact (F c' r args H). Qed.

(** ** The answers about types, classes and functions *)
Lemma records_sound w r m : sound (right w) m (is_std_function_bindable w (targs_of (rec_ w r))) ->
  sound (right w) (class_bindable_c w r m) (is_bindable_rec w r).
Proof.
  intros Hm. apply sound_remember.
  - intros c u [_ [H _]] F. apply H, F.
  - intros c [X [Y Z]]; split; [exact X|]. split; [|exact Z]. intros r' v H. apply found_snoc in H. destruct H as [H|[H ->]]; [apply Y, H|].
    apply Nat.eqb_eq in H; subst; reflexivity.
  - unfold is_bindable_rec. apply raw_sound; [apply right_stable|exact Hm].
Qed.
Lemma bindable_sound w t : forall sugared, from_clang w t -> sound (right w) (bindable_type_c w sugared t) (bindable_type w sugared t).
Proof.
  pose proof (right_stable w) as St.
  assert (E : forall (top x y : bool), (if x then false else top && y) = top && (negb x && y)) by (intros [] [] []; reflexivity).
  induction t as [c0 n|c0 t IHt|t IHt|t IHt|c0 t IHt|ret0 ps IHt Hps|c0 r0 args0 Ha|c0 e|c0 n t IHt|c0 n] using type_ind; intros sugared Hf;
    cbn [bindable_type bindable_type_c].
  - rewrite andb_true_r; apply sound_ret.
  - destruct sugared; cbn [orb]; [rewrite andb_true_r; apply sound_ret|].
    destruct (is_pointer t); cbn [negb andb]; [rewrite andb_false_r; apply sound_ret|].
    destruct (is_array t); cbn [negb andb]; [rewrite andb_false_r; apply sound_ret|].
    eapply sound_then; [apply standard_sound, St|]. cbv beta. destruct (pair_pointee (standard_name w (print (wenv w) t))); cbn [negb andb]; [rewrite andb_false_r; apply sound_ret|].
    eapply sound_then; [apply IHt; apply (from_part w _ _ (P_pointer c0 t t (P_self t)) Hf)|apply sound_ret].
  - destruct sugared; cbn [orb]; [rewrite andb_true_r; apply sound_ret|].
    eapply sound_then; [apply standard_sound, St|]. cbv beta. destruct (pair_referee (standard_name w (print (wenv w) t))); cbn [negb andb]; [rewrite andb_false_r; apply sound_ret|].
    eapply sound_then; [apply IHt; apply (from_part w _ _ (P_reference t t (P_self t)) Hf)|apply sound_ret].
  - destruct sugared; cbn [orb]; [rewrite andb_true_r; apply sound_ret|].
    eapply sound_then; [apply standard_sound, St|]. cbv beta. destruct (pair_referee (standard_name w (print (wenv w) t))); cbn [negb andb]; [rewrite andb_false_r; apply sound_ret|].
    eapply sound_then; [apply IHt; apply (from_part w _ _ (P_rvalue t t (P_self t)) Hf)|apply sound_ret].
  - rewrite andb_true_r; apply sound_ret.
  - rewrite andb_true_r; apply sound_ret.
  - pose proof (Hf _ _ _ (P_self _)) as Ea.
    eapply sound_then.
    + apply records_sound. rewrite <- Ea. unfold is_std_function_bindable. apply every_sound. intros [[t|t|d|d [[result ps]|]|k|] text] Hx; try apply sound_ret.
      rewrite Forall_forall in Ha. specialize (Ha _ Hx). cbn [targ_all] in Ha. destruct Ha as [Hr Hps]. rewrite Forall_forall in Hps.
      eapply sound_then; [apply Hr; apply (from_part w _ _ (P_signature c0 r0 args0 d result ps text result result Hx (or_introl eq_refl) (P_self _)) Hf)|].
      cbv beta. destruct (bindable_type w false result); cbn [andb]; [|apply sound_ret].
      apply every_sound. intros x Hxs. apply Hps; [exact Hxs|]. apply (from_part w _ _ (P_signature c0 r0 args0 d result ps text x x Hx (or_intror Hxs) (P_self _)) Hf).
    + cbv beta. unfold is_bindable_rec. rewrite <- Ea. fold (is_std_function_bindable w args0).
      destruct (tag_accessible (r_decl (rec_ w r0))).
      * rewrite andb_true_r. apply sound_ret.
      * rewrite !andb_false_r. apply sound_ret.
  - destruct (tag_accessible (e_decl (enum_ w e))); [rewrite andb_true_r|rewrite andb_false_r]; apply sound_ret.
  - eapply sound_then; [apply IHt; apply (from_part w _ _ (P_typedef c0 n t t (P_self t)) Hf)|apply sound_ret].
  - rewrite andb_true_r; apply sound_ret.
Qed.
Lemma class_sound w r : from_clang w (rec_type w r) -> sound (right w) (is_bindable_rec_c w r) (is_bindable_rec w r).
Proof.
  intros Hf. apply records_sound. unfold is_std_function_bindable. apply every_sound. intros [[t|t|d|d [[result ps]|]|k|] text] Hx; try apply sound_ret.
  eapply sound_then; [apply bindable_sound; apply (from_part w _ _ (P_signature _ _ _ d result ps text result result Hx (or_introl eq_refl) (P_self _)) Hf)|].
  cbv beta. destruct (bindable_type w false result); cbn [andb]; [|apply sound_ret].
  apply every_sound. intros x Hxs. apply bindable_sound. apply (from_part w _ _ (P_signature _ _ _ d result ps text x x Hx (or_intror Hxs) (P_self _)) Hf).
Qed.
Lemma function_sound w f : from_clang w (f_ret (fun_ w f)) -> (forall p, In p (f_params (fun_ w f)) -> from_clang w (p_type p)) ->
  sound (right w) (is_bindable_fun_c w f) (is_bindable_fun w (fun_ w f)).
Proof.
  intros Hr Hp. apply sound_remember.
  - intros c u [_ [_ H]] F. apply H, F.
  - intros c [X [Y Z]]; split; [exact X|]. split; [exact Y|]. intros r' v H. apply found_snoc in H. destruct H as [H|[H ->]]; [apply Z, H|].
    apply Nat.eqb_eq in H; subst; reflexivity.
  - unfold fun_bindable_raw_c, is_bindable_fun. destruct (bracket_ok (n_qname (f_decl (fun_ w f)))); cbn [negb andb]; [|apply sound_ret].
    destruct (f_operator (fun_ w f)); cbn [andb].
    1: destruct (f_method (fun_ w f) && negb (streqb (cpp_python_operator (fun_ w f)) [])); cbn [negb andb]; [|apply sound_ret].
    all: eapply sound_then; [apply bindable_sound, Hr|]; cbv beta.
    all: eapply sound_then; [apply evaluated_sound; intros p Hin; apply bindable_sound, canonical_from, Hp, Hin|]; cbv beta.
    all: unfold is_bindable_q; match goal with |- sound _ (if ?b then _ else _) _ => destruct b end; cbn [andb]; [|apply sound_ret].
    all: eapply sound_then; [apply banned_sound, right_stable|apply sound_ret].
Qed.

Lemma text_ask P w (q : question) : text_stable (rx (wenv w)) P -> about_text q -> forall c, P c -> fst (ask w q c) = fresh w q /\ P (snd (ask w q c)).
Proof.
  intros St Hq c Hc. destruct q as [s|s|t|d|d|t|r|f]; cbn [about_text] in Hq; try contradiction; cbn [ask fresh].
  - destruct (standard_sound w P St s c Hc) as [E Q]. destruct (standard_name_c w s c); cbn [fst snd] in *; subst; auto.
  - destruct (simplify_sound w P St s c Hc) as [E Q]. destruct (simplify_c w s c); cbn [fst snd] in *; subst; auto.
  - destruct (standard_q_sound w P St t c Hc) as [E Q]. destruct (standard_name_q_c w t c); cbn [fst snd] in *; subst; auto.
  - destruct (builtin_sound w P St (named_of (wenv w) d) c Hc) as [E Q]. destruct (is_python_builtin_c w (named_of (wenv w) d) c); cbn [fst snd] in *; subst; auto.
  - destruct (banned_sound w P St (named_of (wenv w) d) c Hc) as [E Q]. destruct (is_banned_symbol_c w (named_of (wenv w) d) c); cbn [fst snd] in *; subst; auto.
Qed.
Lemma ask_right w q c : question_from_clang w q -> right w c -> fst (ask w q c) = fresh w q /\ right w (snd (ask w q c)).
Proof.
  intros Hq Hc. destruct q as [s|s|t|d|d|t|r|f]; try (apply text_ask; [apply right_stable|exact I|exact Hc]); cbn [ask fresh question_from_clang] in *.
  - destruct (bindable_sound w t false Hq c Hc) as [E Q]. fold (is_bindable_q_c w t) in *. fold (is_bindable_q w t) in *. destruct (is_bindable_q_c w t c); cbn [fst snd] in *; subst; auto.
  - destruct (class_sound w r Hq c Hc) as [E Q]. destruct (is_bindable_rec_c w r c); cbn [fst snd] in *; subst; auto.
  - destruct Hq as [Hr Hp]. destruct (function_sound w f Hr Hp c Hc) as [E Q]. destruct (is_bindable_fun_c w f c); cbn [fst snd] in *; subst; auto.
Qed.
Lemma nothing_right w : right w no_caches.
Proof. repeat split; intros k v H; discriminate H. Qed.
Lemma answers_right w session c : right w c -> (forall p, In p session -> fst p = w /\ question_from_clang w (snd p)) ->
  answers session c = map (fun p => fresh w (snd p)) session.
Proof.
  revert c; induction session as [|[w' q] rest IH]; intros c Hc H; cbn [answers map]; [reflexivity|].
  destruct (H _ (or_introl eq_refl)) as [Ew Hq]. cbn [fst snd] in *. subst w'. destruct (ask_right w q c Hq Hc) as [E Q]. rewrite E. f_equal. apply IH; [exact Q|].
  intros p Hp; apply H; right; exact Hp.
Qed.

(** ** Several translation units *)
Lemma texts_records rs c l : texts_right rs c -> texts_right rs (write_records l c).
Proof. intros H; exact H. Qed.
Lemma texts_functions rs c l : texts_right rs c -> texts_right rs (write_functions l c).
Proof. intros H; exact H. Qed.
Lemma bindable_keeps w t : forall sugared, keeps (texts_right (rx (wenv w))) (bindable_type_c w sugared t).
Proof.
  pose proof (texts_stable (rx (wenv w))) as St.
  induction t as [c0 n|c0 t IHt|t IHt|t IHt|c0 t IHt|ret0 ps IHt Hps|c0 r0 args0 Ha|c0 e|c0 n t IHt|c0 n] using type_ind; intros sugared; cbn [bindable_type_c]; try apply keeps_ret.
  - repeat match goal with |- keeps _ (if ?b then _ else _) => destruct b; [apply keeps_ret|] end.
    apply keeps_then; [eapply sound_keeps, standard_sound, St|]. intros a. destruct (pair_pointee a); [apply keeps_ret|]. apply keeps_then; [apply IHt|intros; apply keeps_ret].
  - destruct sugared; [apply keeps_ret|]. apply keeps_then; [eapply sound_keeps, standard_sound, St|]. intros a. destruct (pair_referee a); [apply keeps_ret|]. apply keeps_then; [apply IHt|intros; apply keeps_ret].
  - destruct sugared; [apply keeps_ret|]. apply keeps_then; [eapply sound_keeps, standard_sound, St|]. intros a. destruct (pair_referee a); [apply keeps_ret|]. apply keeps_then; [apply IHt|intros; apply keeps_ret].
  - apply keeps_then; [|intros b; destruct (tag_accessible (r_decl (rec_ w r0))); apply keeps_ret].
    apply keeps_remember; [intros; apply texts_records; assumption|]. apply raw_keeps; [exact St|]. apply every_keeps.
    intros [[t|t|d|d [[result ps]|]|k|] text] Hx; try apply keeps_ret.
    rewrite Forall_forall in Ha. specialize (Ha _ Hx). cbn [targ_all] in Ha. destruct Ha as [Hr Hps]. rewrite Forall_forall in Hps.
    apply keeps_then; [apply Hr|]. intros [|]; [|apply keeps_ret]. apply every_keeps. intros x Hxs; apply (Hps x Hxs).
  - destruct (tag_accessible (e_decl (enum_ w e))); apply keeps_ret.
  - apply keeps_then; [apply IHt|intros; apply keeps_ret].
Qed.
Lemma class_keeps w r : keeps (texts_right (rx (wenv w))) (is_bindable_rec_c w r).
Proof.
  apply keeps_remember; [intros; apply texts_records; assumption|]. apply raw_keeps; [apply texts_stable|]. apply every_keeps.
  intros [[t|t|d|d [[result ps]|]|k|] text] Hx; try apply keeps_ret.
  apply keeps_then; [apply bindable_keeps|]. intros [|]; [|apply keeps_ret]. apply every_keeps. intros x Hxs; apply bindable_keeps.
Qed.
Lemma function_keeps w f : keeps (texts_right (rx (wenv w))) (is_bindable_fun_c w f).
Proof.
  apply keeps_remember; [intros; apply texts_functions; assumption|]. unfold fun_bindable_raw_c.
  repeat match goal with |- keeps _ (if ?b then _ else _) => destruct b; [apply keeps_ret|] end.
  apply keeps_then; [apply bindable_keeps|]. intros a. apply keeps_then; [apply evaluated_keeps; intros; apply bindable_keeps|]. intros b.
  match goal with |- keeps _ (if ?b then _ else _) => destruct b; [|apply keeps_ret] end.
  apply keeps_then; [eapply sound_keeps, banned_sound, texts_stable|intros; apply keeps_ret].
Qed.
Lemma ask_texts w q c : texts_right (rx (wenv w)) c -> texts_right (rx (wenv w)) (snd (ask w q c)).
Proof.
  intros Hc. destruct q as [s|s|t|d|d|t|r|f]; try (apply text_ask; [apply texts_stable|exact I|exact Hc]); cbn [ask].
  - pose proof (bindable_keeps w t false c Hc) as Q. fold (is_bindable_q_c w t) in *. destruct (is_bindable_q_c w t c); exact Q.
  - pose proof (class_keeps w r c Hc) as Q. destruct (is_bindable_rec_c w r c); exact Q.
  - pose proof (function_keeps w f c Hc) as Q. destruct (is_bindable_fun_c w f c); exact Q.
Qed.
Lemma after_texts rs session c : texts_right rs c -> (forall p, In p session -> rx (wenv (fst p)) = rs) -> texts_right rs (after session c).
Proof.
  revert c; induction session as [|[w q] rest IH]; intros c Hc H; cbn [after]; [exact Hc|].
  pose proof (H _ (or_introl eq_refl)) as E; cbn [fst] in E. apply IH; [|intros; apply H; right; assumption]. rewrite <- E in *. apply ask_texts, Hc.
Qed.
