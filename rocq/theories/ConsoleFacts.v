(** Facts about the lines on the console. *)
From Coq Require Import Ascii String Bool Arith NArith Lia.
From Coq Require Import List.
From Verif Require Import Str StrFacts Util UtilFacts Config Ast Types Func Enum Includes Class Context Program Console SpecUtil SpecContext SpecDisk SpecConsole ContextFacts RunFacts WriteFacts ProgramFacts.
Import ListNotations.

Definition names (w : world) (ds : list decl) (i : nat) (id : str) : Prop := exists d, nth_error ds i = Some d /\ id = decl_id w d.
Definition said_of (v : bool) (ids : list str) : list line := flat_map (fun id => if_verbose v (LBinding id)) ids.
Fixpoint passes_said (v : bool) (n : nat) (ids : list (list str)) : list line :=
  match ids with [] => [] | l :: ids' => LPass n :: said_of v l ++ passes_said v (S n) ids' end.
Definition some {A} (l : list A) : bool := match l with [] => false | _ => true end.

Lemma update_nth_decl (g : binder -> binder) : (forall b, b_decl (g b) = b_decl b) -> forall n l, map b_decl (update_nth n g l) = map b_decl l.
Proof. intros G n l. revert n. induction l as [|b l IH]; intros [|n]; cbn [update_nth map]; [reflexivity|reflexivity|rewrite G; reflexivity|rewrite IH; reflexivity]. Qed.
Lemma request_decl w types n l : map b_decl (request w types n l) = map b_decl l.
Proof. unfold request. destruct (lookup n types); [|reflexivity]. apply update_nth_decl. intros b. destruct (_ && _); reflexivity. Qed.
Lemma requests_decl w types ns : forall l, map b_decl (fold_left (fun l n => request w types n l) ns l) = map b_decl l.
Proof. induction ns as [|n ns IH]; intros l; cbn [fold_left]; [reflexivity|]. rewrite IH. apply request_decl. Qed.

Lemma pass_said w c ds todo : forall l log, map b_decl l = ds ->
  match bind_pass w c todo l log with
  | Ok (l', log') => exists more ids, log' = log ++ more /\ map b_decl l' = ds /\ Forall2 (names w ds) more ids /\
                       forall v, say_pass v w c todo l = Ok (l', said_of v ids, some ids)
  | _ => forall v p, say_pass v w c todo l <> Ok p
  end.
Proof.
  induction todo as [|i todo IH]; intros l log D; cbn [bind_pass say_pass].
  { exists [], []. rewrite app_nil_r. repeat split; auto. }
  destruct (nth_error l i) as [b|] eqn:Eb; [|exists [], []; rewrite app_nil_r; repeat split; auto].
  destruct (wants_binding w b); [|apply IH; exact D].
  destruct (generate_code w (x_ops c) (b_decl b)) as [g| | | |]; cbn [bind_r]; try (intros v p; discriminate).
  set (l1 := update_nth i (set_code g) _). assert (D1 : map b_decl l1 = ds).
  { unfold l1. rewrite update_nth_decl by reflexivity. rewrite requests_decl. exact D. }
  specialize (IH l1 (log ++ [i]) D1). destruct (bind_pass w c todo l1 (log ++ [i])) as [[l' log']| | | |].
  2-5: intros v p; destruct (say_pass v w c todo l1) as [q| | | |] eqn:Q; cbn [bind_r]; try discriminate; destruct (IH v q Q).
  destruct IH as [more [ids [E [D' [F Sy]]]]]. exists (i :: more), (decl_id w (b_decl b) :: ids).
  split; [rewrite E, <- app_assoc; reflexivity|]. split; [exact D'|]. split.
  { constructor; [|exact F]. exists (b_decl b). split; [|reflexivity]. rewrite <- D. rewrite nth_error_map, Eb. reflexivity. }
  intros v. rewrite (Sy v). cbn [bind_r]. reflexivity.
Qed.
Lemma loop_said w c ds fuel : forall l log n, map b_decl l = ds ->
  match bind_loop fuel w c l log with
  | Ok (l', log') => exists more blocks, log' = log ++ more /\ Forall2 (names w ds) more (concat blocks) /\ Forall (fun x => x <> []) blocks /\
                       forall v, say_loop fuel v w c n l = Ok (l', passes_said v n (blocks ++ [[]]))
  | _ => forall v p, say_loop fuel v w c n l <> Ok p
  end.
Proof.
  induction fuel as [|fuel IH]; intros l log n D; cbn [bind_loop say_loop]; [intros v p; discriminate|].
  pose proof (pass_said w c ds (seq 0 (length l)) l log D) as P.
  destruct (bind_pass w c (seq 0 (length l)) l log) as [[l1 log1]| | | |]; cbn [bind_r].
  2-5: intros v p; destruct (say_pass v w c (seq 0 (length l)) l) as [q| | | |] eqn:Q; cbn [bind_r]; try discriminate; destruct (P v q Q).
  destruct P as [more [ids [-> [D1 [F Sy]]]]].
  destruct more as [|i more].
  - inversion F; subst ids. rewrite app_nil_r, Nat.eqb_refl. exists [], []. rewrite app_nil_r. repeat split; auto. intros v. rewrite (Sy v). reflexivity.
  - assert (L : length (log ++ i :: more) =? length log = false) by (apply Nat.eqb_neq; rewrite app_length; cbn [length]; lia). rewrite L.
    inversion F as [|? id ? ids' N F' X1 X2]; subst ids. specialize (IH l1 (log ++ i :: more) (S n) D1).
    destruct (bind_loop fuel w c l1 (log ++ i :: more)) as [[l' log']| | | |].
    2-5: intros v p; rewrite (Sy v); cbn [bind_r]; destruct (say_loop fuel v w c (S n) l1) as [q| | | |] eqn:Q; cbn [bind_r]; try discriminate; destruct (IH v q Q).
    destruct IH as [more' [blocks [-> [F2 [NE Sy2]]]]]. exists ((i :: more) ++ more'), ((id :: ids') :: blocks).
    split; [rewrite <- app_assoc; reflexivity|]. split; [apply Forall2_app; assumption|]. split; [constructor; [discriminate|exact NE]|].
    intros v. rewrite (Sy v). cbn [bind_r some]. rewrite (Sy2 v). reflexivity.
Qed.
Lemma bind_said w visits :
  match bind_all w (collect w visits) with
  | Ok (l, log) => exists blocks, Forall2 (names w (collected_items w visits)) log (concat blocks) /\ Forall (fun x => x <> []) blocks /\
                     forall v, say_bind v w (collect w visits) = Ok (l, passes_said v 1 (blocks ++ [[]]))
  | _ => forall v p, say_bind v w (collect w visits) <> Ok p
  end.
Proof.
  unfold bind_all, say_bind. destruct (map_r (initial_request w) (x_binders (collect w visits))) as [l| | | |] eqn:M; cbn [bind_r]; try (intros v p; discriminate).
  pose proof (loop_said w (collect w visits) (map b_decl l) (S (length l)) l [] 1 eq_refl) as P.
  assert (D : map b_decl l = collected_items w visits).
  { unfold collected_items. revert l M P. generalize (x_binders (collect w visits)) as k. intros k l M _. revert l M. induction k as [|b k IH]; intros l M; cbn [map_r] in M.
    - apply Ok_inj in M. subst l. reflexivity.
    - inv_all M. apply Ok_inj in M. subst l. cbn [map]. rewrite (IH _ E0). f_equal. clear -E. unfold initial_request in E.
      destruct (bindable w b); [|apply Ok_inj in E; subst; reflexivity]. apply bind_r_Ok in E; destruct E as [sk [_ E]]. destruct sk; [apply Ok_inj in E; subst; reflexivity|].
      destruct (n_system _); [apply Ok_inj in E; subst; reflexivity|]. apply bind_r_Ok in E; destruct E as [bd [_ E]]. apply Ok_inj in E. subst. destruct bd; reflexivity. }
  destruct (bind_loop (S (length l)) w (collect w visits) l []) as [[l' log]| | | |]; try exact P.
  destruct P as [more [blocks [-> [F [NE Sy]]]]]. cbn [app]. exists blocks. rewrite D in F. auto.
Qed.

(** The files. *)
Lemma updates_said v m c dir l : forall f f1, update_all m c dir (map (fun g => (g_name g, g_text g)) l) f = Ok f1 ->
  exists said, say_updates v m c dir (map (fun g => (g_name g, g_text g)) l) f = Ok (f1, said).
Proof.
  induction l as [|g l IH]; intros f f1 H; cbn [map update_all say_updates] in *.
  - apply Ok_inj in H. subst. eexists. reflexivity.
  - apply bind_r_Ok in H. destruct H as [f2 [E H]]. unfold say_update. rewrite E. cbn [bind_r]. destruct (IH _ _ H) as [said ->]. cbn [bind_r]. eexists. reflexivity.
Qed.
Lemma said_updates v m c dir l : forall f f1 said, say_updates v m c dir (map (fun g => (g_name g, g_text g)) l) f = Ok (f1, said) ->
  update_all m c dir (map (fun g => (g_name g, g_text g)) l) f = Ok f1.
Proof.
  induction l as [|g l IH]; intros f f1 said H; cbn [map update_all say_updates] in *.
  - apply Ok_inj in H. injection H as <- _. reflexivity.
  - apply bind_r_Ok in H. destruct H as [[f2 s2] [E H]]. unfold say_update in E. apply bind_r_Ok in E. destruct E as [f3 [E E']]. apply Ok_inj in E'. injection E' as -> _.
    rewrite E. cbn [bind_r]. apply bind_r_Ok in H. destruct H as [[f4 s4] [E4 H]]. apply Ok_inj in H. injection H as -> _. exact (IH _ _ _ E4).
Qed.
Lemma other_content dir f f' g (p : str) : (forall q, q <> path_of dir (g_name g) -> lookup q (files f') = lookup q (files f)) -> p <> path_of dir (g_name g) -> content f' p = content f p.
Proof. intros H N. unfold content. rewrite (H p N). reflexivity. Qed.
Lemma update_other m c dir name code f f' : update_source_file m c dir name code f = Ok f' -> forall q, q <> path_of dir name -> lookup q (files f') = lookup q (files f).
Proof.
  unfold update_source_file. destruct (split name $"/"); [discriminate|]. destruct (negb _); [discriminate|]. cbv zeta. destruct (streqb _ code); [intros H q _; apply Ok_inj in H; subst; reflexivity|].
  destruct (negb _); [discriminate|]. intros H q N. apply Ok_inj in H. subst f'. cbn [files]. apply lookup_update_neq. exact N.
Qed.
Lemma file_lines m c dir l : NoDup (map g_name l) -> forall f f0 f1 said, (forall g, In g l -> content f (path_of dir (g_name g)) = content f0 (path_of dir (g_name g))) ->
  say_updates true m c dir (map (fun g => (g_name g, g_text g)) l) f = Ok (f1, said) -> Forall2 (file_line dir f0) l said.
Proof.
  induction l as [|g l IH]; intros ND f f0 f1 said Same H; cbn [map say_updates] in *.
  - apply Ok_inj in H. injection H as _ <-. constructor.
  - inversion ND as [|? ? NI ND']; subst. apply bind_r_Ok in H. destruct H as [[f2 s2] [E H]]. unfold say_update in E. apply bind_r_Ok in E. destruct E as [f3 [E E']]. apply Ok_inj in E'. injection E' as -> <-.
    apply bind_r_Ok in H. destruct H as [[f4 s4] [E4 H]]. apply Ok_inj in H. injection H as _ <-. cbn [if_verbose app]. constructor.
    + unfold file_line. pose proof (Same g (or_introl eq_refl)) as Q. cbv zeta. destruct (streqb _ (g_text g)) eqn:X.
      * left. apply streqb_eq in X. split; [exact (eq_trans (eq_sym Q) X)|reflexivity].
      * right. split; [|reflexivity]. intros Y. pose proof (eq_trans Q Y : _ = g_text g) as Z. apply streqb_eq in Z. change (streqb (content f (path_of dir (g_name g))) (g_text g) = false) in X. congruence.
    + apply (IH ND' f2 f0 f4 s4); [|exact E4]. intros g' I. rewrite <- (Same g' (or_intror I)). apply (other_content dir f f2 g).
      * exact (update_other _ _ _ _ _ _ _ E).
      * unfold path_of. intros Y. apply app_inv_head in Y. apply app_inv_head in Y. apply NI. rewrite <- Y. apply in_map. exact I.
Qed.
Lemma quiet_updates m c dir l : forall f f1 said, say_updates true m c dir (map (fun g => (g_name g, g_text g)) l) f = Ok (f1, said) ->
  say_updates false m c dir (map (fun g => (g_name g, g_text g)) l) f = Ok (f1, []) /\ forallb detail said = true.
Proof.
  induction l as [|g l IH]; intros f f1 said H; cbn [map say_updates] in *.
  - apply Ok_inj in H. injection H as <- <-. auto.
  - apply bind_r_Ok in H. destruct H as [[f2 s2] [E H]]. unfold say_update in *. apply bind_r_Ok in E. destruct E as [f3 [E E']]. apply Ok_inj in E'. injection E' as -> <-.
    rewrite E. cbn [bind_r]. apply bind_r_Ok in H. destruct H as [[f4 s4] [E4 H]]. apply Ok_inj in H. injection H as <- <-. destruct (IH _ _ _ E4) as [-> D]. cbn [bind_r if_verbose app].
    split; [reflexivity|]. cbn [forallb]. rewrite D. destruct (streqb _ _); reflexivity.
Qed.
