(** Facts about the disk during a run. *)
From Coq Require Import Ascii String Bool Arith NArith Relations Lia.
From Coq Require Import List.
From Verif Require Import Str StrFacts SpecUtil Util UtilFacts Config SpecConfig Ast Types Func Enum Includes Class Context SpecContext ContextFacts WriteFacts RunFacts Disk.
Import ListNotations.

Definition read (o : option str) : str := match o with Some c => c | None => [] end.
Definition touches (prefix q : str) (a : act) : bool :=
  match a with
  | Open p | Write p _ | Close p => streqb p q
  | Update n _ => streqb (path_of prefix n) q
  end.
(** What concerns one path. *)
Definition proj (prefix q : str) (s : state) : list act * option str * str :=
  (filter (touches prefix q) (st_acts s), lookup q (files (st_fs s)), pending s q).
Inductive pstep (prefix q : str) : list act * option str * str -> list act * option str * str -> Prop :=
| PS_open l o b : pstep prefix q (Open q :: l, o, b) (l, Some [], [])
| PS_write t l o b : pstep prefix q (Write q t :: l, o, b) (l, o, b ++ t)
| PS_close l o b : pstep prefix q (Close q :: l, o, b) (l, Some (read o ++ b), [])
| PS_same n t l o b : path_of prefix n = q -> read o = t -> pstep prefix q (Update n t :: l, o, b) (l, o, b)
| PS_differs n t l o b : path_of prefix n = q -> read o <> t ->
    pstep prefix q (Update n t :: l, o, b) (Open q :: Write q t :: Close q :: l, o, b)
| PS_flush l o b x y : x <> [] -> b = x ++ y -> pstep prefix q (l, o, b) (l, Some (read o ++ x), y).

Lemma lookup_run_append f p x q : lookup q (files (run_op f (Append p x))) = if streqb q p then Some (read (lookup p (files f)) ++ x) else lookup q (files f).
Proof.
  cbn [run_op files]. destruct (streqb q p) eqn:E.
  - apply streqb_eq in E. subst q. rewrite lookup_update_eq. reflexivity.
  - rewrite lookup_update_neq; [reflexivity|]. intros X. subst q. rewrite streqb_refl in E. discriminate.
Qed.
Lemma pending_update l f b st q p x : pending (mkstate l f (update p x b) st) q = if streqb q p then x else pending (mkstate l f b st) q.
Proof.
  unfold pending; cbn [st_pending]. destruct (streqb q p) eqn:E.
  - apply streqb_eq in E. subst q. rewrite lookup_update_eq. reflexivity.
  - rewrite lookup_update_neq; [reflexivity|]. intros X. subst q. rewrite streqb_refl in E. discriminate.
Qed.
Lemma streqb_sym a b : streqb a b = streqb b a.
Proof.
  destruct (streqb a b) eqn:E.
  - apply streqb_eq in E. subst. symmetry. apply streqb_refl.
  - destruct (streqb b a) eqn:F; [|reflexivity]. apply streqb_eq in F. subst. rewrite streqb_refl in E. discriminate.
Qed.

Lemma step_proj m c prefix q s s' : step m c prefix s s' -> proj prefix q s' = proj prefix q s \/ pstep prefix q (proj prefix q s) (proj prefix q s').
Proof.
  intros H. destruct H as [p l f b|p t l f b s E|p l f b s E|n t l f b f' E C|n t l f b f' E C|n t l f b E|p x y s E X].
  - unfold proj; cbn [st_acts st_fs filter touches]. rewrite pending_update. rewrite (streqb_sym q p).
    destruct (streqb p q) eqn:Q.
    + apply streqb_eq in Q. subst q. right. cbn [run_op files]. rewrite lookup_update_eq. constructor.
    + left. cbn [run_op files]. rewrite lookup_update_neq; [reflexivity|]. intros Y. subst q. rewrite streqb_refl in Q. discriminate.
  - subst s. unfold proj; cbn [st_acts st_fs filter touches]. rewrite pending_update. rewrite (streqb_sym q p).
    destruct (streqb p q) eqn:Q.
    + apply streqb_eq in Q. subst q. right. unfold pending; cbn [st_pending]. constructor.
    + left. unfold pending; cbn [st_pending]. reflexivity.
  - subst s. unfold proj; cbn [st_acts st_fs filter touches]. rewrite pending_update, lookup_run_append. rewrite (streqb_sym q p).
    destruct (streqb p q) eqn:Q.
    + apply streqb_eq in Q. subst q. right. unfold pending; cbn [st_pending]. constructor.
    + left. unfold pending; cbn [st_pending]. reflexivity.
  - unfold proj; cbn [st_acts st_fs filter touches]. destruct (streqb (path_of prefix n) q) eqn:Q; [|left; reflexivity].
    apply streqb_eq in Q. right. unfold pending; cbn [st_pending]. apply PS_same; [exact Q|]. rewrite <- Q. exact C.
  - unfold proj; cbn [st_acts st_fs filter touches]. destruct (streqb (path_of prefix n) q) eqn:Q; [|left; reflexivity].
    apply streqb_eq in Q. right. unfold pending; cbn [st_pending]. rewrite Q. apply PS_differs; [exact Q|]. rewrite <- Q. exact C.
  - left. reflexivity.
  - unfold proj; cbn [st_acts st_fs]. rewrite lookup_run_append.
    replace (pending (mkstate (st_acts s) (run_op (st_fs s) (Append p x)) (update p y (st_pending s)) (st_stopped s)) q)
      with (if streqb q p then y else pending s q) by (rewrite pending_update; reflexivity).
    destruct (streqb q p) eqn:Q.
    + apply streqb_eq in Q. subst q. right. apply PS_flush; [exact X|exact E].
    + left. reflexivity.
Qed.

Definition reachable (m c : str -> bool) (prefix : str) := clos_refl_trans_1n state (step m c prefix).
Lemma reachable_inv m c prefix q (P : list act * option str * str -> Prop) s s' :
  (forall x y, P x -> pstep prefix q x y -> P y) -> P (proj prefix q s) -> reachable m c prefix s s' -> P (proj prefix q s').
Proof.
  intros St H R. induction R as [|s s1 s2 S1 R IH]; [exact H|]. apply IH.
  destruct (step_proj _ _ _ q _ _ S1) as [E|E]; [rewrite E; exact H|exact (St _ _ H E)].
Qed.

Ltac no_flush := match goal with X : [] = ?u ++ _, Y : ?u <> [] |- _ => symmetry in X; apply app_eq_nil in X; destruct X; contradiction end.
(** ** The three kinds of paths *)
Inductive updating (prefix n t : str) (o : option str) : list act * option str * str -> Prop :=
| U_before : updating prefix n t o ([Update n t], o, [])
| U_open : read o <> t -> updating prefix n t o ([Open (path_of prefix n); Write (path_of prefix n) t; Close (path_of prefix n)], o, [])
| U_opened : read o <> t -> updating prefix n t o ([Write (path_of prefix n) t; Close (path_of prefix n)], Some [], [])
| U_writing a b : read o <> t -> a ++ b = t -> updating prefix n t o ([Close (path_of prefix n)], Some a, b)
| U_done : read o <> t -> updating prefix n t o ([], Some t, [])
| U_same : read o = t -> updating prefix n t o ([], o, []).
Lemma updating_step prefix n t o x y : updating prefix n t o x -> pstep prefix (path_of prefix n) x y -> updating prefix n t o y.
Proof.
  intros H S1. destruct H as [|N|N|a b N E|N|N]; inversion S1; try no_flush; subst.
  - apply U_same. reflexivity.
  - apply U_open. assumption.
  - apply U_opened. assumption.
  - apply U_writing; [assumption|reflexivity].
  - cbn [read]. apply U_done. assumption.
  - cbn [read]. apply U_writing; [assumption|]. rewrite <- app_assoc. reflexivity.
Qed.
Lemma updating_over prefix n t o x : updating prefix n t o x -> ~ In (Update n t) (fst (fst x)) -> ~ In (Close (path_of prefix n)) (fst (fst x)) ->
  read (snd (fst x)) = t.
Proof.
  intros H U C. destruct H as [|D|D|a b D E|D|D]; cbn [fst snd] in *; try (exfalso; apply U; cbn; tauto); try (exfalso; apply C; cbn; tauto); [reflexivity|exact D].
Qed.
Inductive streaming (q : str) (ts : list str) (tail : list act) (o : option str) : list act * option str * str -> Prop :=
| S_before : streaming q ts tail o (Open q :: map (Write q) ts ++ tail, o, [])
| S_writing done rest a b : ts = done ++ rest -> a ++ b = concat done -> streaming q ts tail o (map (Write q) rest ++ tail, Some a, b)
| S_done : streaming q ts tail o ([], Some (concat ts), []).
Lemma streaming_step prefix q ts tail o x y : tail = [] \/ tail = [Close q] -> streaming q ts tail o x -> pstep prefix q x y -> streaming q ts tail o y.
Proof.
  intros T H S1. destruct H as [|done rest a b E1 E2|].
  - inversion S1; try no_flush; subst.
    + apply (S_writing q ts tail o [] ts [] []); reflexivity.
  - destruct rest as [|t rest]; cbn [map app] in S1.
    + inversion S1; subst; try (destruct T as [T|T]; discriminate T).
      * destruct T as [T|T]; [discriminate T|]. apply (f_equal (@tl act)) in T. cbn [tl] in T. subst l.
        cbn [read]. rewrite app_nil_r. rewrite E2. apply S_done.
      * cbn [read]. eapply (S_writing _ _ _ _ done []); [reflexivity|]. rewrite <- E2, <- app_assoc. reflexivity.
    + inversion S1; subst.
      * apply (S_writing q (done ++ t :: rest) tail o (done ++ [t]) rest a (b ++ t)).
        -- rewrite <- app_assoc. reflexivity.
        -- rewrite concat_app, <- E2. cbn [concat]. rewrite app_nil_r, <- app_assoc. reflexivity.
      * cbn [read]. eapply (S_writing _ _ _ _ done (t :: rest)); [reflexivity|]. rewrite <- E2, <- app_assoc. reflexivity.
  - inversion S1; no_flush.
Qed.
Lemma untouched_step prefix q o x y : x = ([], o, []) -> pstep prefix q x y -> y = ([], o, []).
Proof.
  intros -> H. inversion H; no_flush.
Qed.

(** ** The files made *)
Lemma loop_files_spec w fuel : forall rest fnames entrance tc,
  ending (write_loop fuel w rest fnames entrance tc) = snd (loop_files fuel w rest fnames entrance tc) /\
  (forall gs, write_loop fuel w rest fnames entrance tc = Ok gs -> fst (loop_files fuel w rest fnames entrance tc) = gs).
Proof.
  induction fuel as [|fuel IH]; intros [|b rest] fnames entrance tc; cbn [write_loop loop_files]; try (split; [reflexivity|intros gs H; first [discriminate H|apply Ok_inj in H; exact H]]).
  destruct (negb (has_code b)); [apply IH|].
  destruct (first_code w (binder_namespace w b) (count (binder_namespace w b) entrance)) as [call skip].
  destruct (fill w (binder_namespace w b) skip (b :: rest) _) as [[[taken later] st]|m|m|m|]; cbn [ending bind_r]; try (split; [reflexivity|intros gs H; discriminate H]).
  destruct (IH later (bump (name_prefix w b) fnames) (bump (binder_namespace w b) entrance) (s_tc st)) as [A B].
  destruct (loop_files fuel w later (bump (name_prefix w b) fnames) (bump (binder_namespace w b) entrance) (s_tc st)) as [gs r].
  destruct (write_loop fuel w later (bump (name_prefix w b) fnames) (bump (binder_namespace w b) entrance) (s_tc st)) as [gs'|m|m|m|];
    cbn [snd fst ending bind_r] in *; (split; [exact A|intros l H; first [discriminate H|apply Ok_inj in H; rewrite (B _ eq_refl); exact H]]).
Qed.
Lemma loop_files_cpp w fuel : forall rest fnames entrance tc g,
  In g (fst (loop_files fuel w rest fnames entrance tc)) -> exists p, g_name g = p ++ $".cpp".
Proof.
  induction fuel as [|fuel IH]; intros [|b rest] fnames entrance tc g; cbn [loop_files]; try (intros []; fail).
  destruct (negb (has_code b)); [apply IH|].
  destruct (first_code w (binder_namespace w b) (count (binder_namespace w b) entrance)) as [call skip].
  destruct (fill w (binder_namespace w b) skip (b :: rest) _) as [[[taken later] st]|m|m|m|]; try (intros []; fail).
  specialize (IH later (bump (name_prefix w b) fnames) (bump (binder_namespace w b) entrance) (s_tc st) g).
  destruct (loop_files fuel w later (bump (name_prefix w b) fnames) (bump (binder_namespace w b) entrance) (s_tc st)) as [gs r].
  cbn [fst] in *. intros [<-|H]; [|exact (IH H)]. eexists. reflexivity.
Qed.

(** ** The operations on one path *)
Section Scripts.
Variables (can_open : str -> bool) (w : world).
Local Notation pre := (prefix (wopt w)).
Hypothesis Sf : single_file (wopt w) = false.
Lemma cpp_not_s (x p : str) : path_of pre (p ++ $".cpp") <> root_path w ++ x ++ $"s".
Proof.
  intros X. unfold path_of in X.
  replace (pre ++ $"/" ++ p ++ $".cpp") with ((pre ++ $"/" ++ p ++ $".cp") ++ ["p"%char]) in X by (rewrite <- !app_assoc; reflexivity).
  rewrite (app_assoc (root_path w)) in X. apply app_inj_tail in X. destruct X as [_ X]. discriminate X.
Qed.
Lemma root_not_sources : root_file w <> root_path w ++ $".sources".
Proof. exact (cpp_not_s $".source" (root_module (wopt w))). Qed.
Lemma root_not_modules : root_file w <> root_path w ++ $".modules".
Proof. exact (cpp_not_s $".module" (root_module (wopt w))). Qed.
Lemma sources_not_modules : root_path w ++ $".sources" <> root_path w ++ $".modules".
Proof. intros X. apply app_inv_head in X. discriminate X. Qed.

Lemma streqb_neq a b : a <> b -> streqb a b = false.
Proof. intros N. destruct (streqb a b) eqn:E; [|reflexivity]. apply streqb_eq in E. contradiction. Qed.

Lemma file_acts_eq g : file_acts w g = Update (g_name g) (g_text g).
Proof. unfold file_acts. rewrite Sf. reflexivity. Qed.
Lemma updates_of gs q : (forall g, In g gs -> path_of pre (g_name g) <> q) -> filter (touches pre q) (map (file_acts w) gs) = [].
Proof.
  induction gs as [|g gs IH]; intros H; [reflexivity|]. cbn [map filter]. rewrite file_acts_eq.
  cbn [touches]. rewrite (streqb_neq _ _ (H g (or_introl eq_refl))). apply IH. intros g' I. apply H. right. exact I.
Qed.
Lemma update_of gs g : NoDup (map g_name gs) -> In g gs ->
  filter (touches pre (path_of pre (g_name g))) (map (file_acts w) gs) = [Update (g_name g) (g_text g)].
Proof.
  induction gs as [|g' gs IH]; intros ND I; [destruct I|]. cbn [map] in ND. inversion ND as [|? ? N ND']; subst.
  cbn [map filter]. rewrite file_acts_eq. cbn [touches]. destruct I as [->|I].
  - rewrite streqb_refl. f_equal. apply updates_of. intros g' I X. apply path_of_inj in X. apply N. rewrite <- X. apply in_map. exact I.
  - rewrite streqb_neq; [apply IH; assumption|]. intros X. apply path_of_inj in X. apply N. rewrite X. apply in_map. exact I.
Qed.
Lemma list_acts_of path text q : filter (touches pre q) (list_acts can_open path text) =
  if streqb path q then list_acts can_open path text else [].
Proof. unfold list_acts. destruct (can_open path); cbn [filter touches]; destruct (streqb path q); reflexivity. Qed.

Variables (gs : list gen_file) (ns : list str) (ok : bool).
Hypothesis ND : NoDup (root_file_name w :: map g_name gs).
Hypothesis Cpp : forall g, In g gs -> exists p, g_name g = p ++ $".cpp".
Definition all_acts : list act := Open (root_file w) :: map (file_acts w) gs ++ (if ok then last_acts can_open w ns gs else []).

Lemma last_of q : filter (touches pre q) (last_acts can_open w ns gs) =
  (if streqb (root_file w) q then [Write (root_file w) (root_text w ns gs)] else [])
  ++ (if streqb (root_path w ++ $".sources") q then list_acts can_open (root_path w ++ $".sources") (sources_text (source_names w gs)) else [])
  ++ (if streqb (root_path w ++ $".modules") q then list_acts can_open (root_path w ++ $".modules") (modules_text ns) else [])
  ++ (if streqb (root_file w) q then [Close (root_file w)] else []).
Proof.
  unfold last_acts. rewrite Sf. rewrite !filter_app. cbn [filter touches]. rewrite !list_acts_of.
  generalize (root_text w ns gs), (sources_text (source_names w gs)), (modules_text ns); intros. rewrite <- !app_assoc. reflexivity.
Qed.
Lemma script_other q : ~ In q (map (path_of pre) (root_file_name w :: map g_name gs)) ->
  q <> root_path w ++ $".sources" -> q <> root_path w ++ $".modules" -> filter (touches pre q) all_acts = [].
Proof.
  intros N Ns Nm. cbn [map In] in N. unfold all_acts. cbn [filter touches].
  assert (R : streqb (root_file w) q = false) by (apply streqb_neq; intros X; apply N; left; exact X). rewrite R.
  rewrite filter_app, updates_of by (intros g I X; apply N; right; rewrite <- X; apply in_map, in_map; exact I).
  destruct ok; [|reflexivity]. rewrite last_of, R.
  rewrite (streqb_neq (root_path w ++ $".sources") q) by (intros X; apply Ns; symmetry; exact X).
  rewrite (streqb_neq (root_path w ++ $".modules") q) by (intros X; apply Nm; symmetry; exact X). reflexivity.
Qed.
Lemma script_file g : In g gs -> filter (touches pre (path_of pre (g_name g))) all_acts = [Update (g_name g) (g_text g)].
Proof.
  intros I. inversion ND as [|? ? N ND']; subst. unfold all_acts. cbn [filter touches].
  assert (R : streqb (root_file w) (path_of pre (g_name g)) = false).
  { apply streqb_neq. intros X. unfold root_file in X. apply path_of_inj in X. apply N. rewrite X. apply in_map. exact I. }
  rewrite R. rewrite filter_app, (update_of gs g ND' I). destruct ok; [|reflexivity]. rewrite last_of, R.
  destruct (Cpp g I) as [p E].
  rewrite (streqb_neq (root_path w ++ $".sources")) by (intros X; rewrite E in X; symmetry in X; exact (cpp_not_s $".source" p X)).
  rewrite (streqb_neq (root_path w ++ $".modules")) by (intros X; rewrite E in X; symmetry in X; exact (cpp_not_s $".module" p X)).
  reflexivity.
Qed.
Lemma script_root : filter (touches pre (root_file w)) all_acts =
  Open (root_file w) :: map (Write (root_file w)) (if ok then [root_text w ns gs] else []) ++ (if ok then [Close (root_file w)] else []).
Proof.
  inversion ND as [|? ? N ND']; subst. unfold all_acts. cbn [filter touches]. rewrite streqb_refl. f_equal.
  rewrite filter_app, updates_of by (intros g I X; unfold root_file in X; apply path_of_inj in X; apply N; rewrite <- X; apply in_map; exact I).
  destruct ok; [|reflexivity]. rewrite last_of, streqb_refl.
  rewrite (streqb_neq (root_path w ++ $".sources")) by (intros X; symmetry in X; exact (root_not_sources X)).
  rewrite (streqb_neq (root_path w ++ $".modules")) by (intros X; symmetry in X; exact (root_not_modules X)). reflexivity.
Qed.
Lemma script_sources : filter (touches pre (root_path w ++ $".sources")) all_acts =
  if ok then list_acts can_open (root_path w ++ $".sources") (sources_text (source_names w gs)) else [].
Proof.
  unfold all_acts. cbn [filter touches]. rewrite (streqb_neq _ _ root_not_sources).
  rewrite filter_app, updates_of by (intros g I X; destruct (Cpp g I) as [p E]; rewrite E in X; exact (cpp_not_s $".source" p X)).
  destruct ok; [|reflexivity]. rewrite last_of, streqb_refl, (streqb_neq _ _ root_not_sources).
  rewrite (streqb_neq (root_path w ++ $".modules")) by (intros X; symmetry in X; exact (sources_not_modules X)). cbn [app]. apply app_nil_r.
Qed.
Lemma script_modules : filter (touches pre (root_path w ++ $".modules")) all_acts =
  if ok then list_acts can_open (root_path w ++ $".modules") (modules_text ns) else [].
Proof.
  unfold all_acts. cbn [filter touches]. rewrite (streqb_neq _ _ root_not_modules).
  rewrite filter_app, updates_of by (intros g I X; destruct (Cpp g I) as [p E]; rewrite E in X; exact (cpp_not_s $".module" p X)).
  destruct ok; [|reflexivity]. rewrite last_of, streqb_refl, (streqb_neq _ _ root_not_modules), (streqb_neq _ _ sources_not_modules).
  cbn [app]. apply app_nil_r.
Qed.
End Scripts.

(** ** The plan *)
Definition is_ok {A} (r : result A) : bool := match r with Ok _ => true | _ => false end.
Lemma plan_cases can_open w c : let P := generate_plan can_open w c in
  (p_acts P = [] /\ p_files P = [] /\ is_ok (p_end P) = false /\ (can_open (root_file w) = true -> forall o, generate w c <> Ok o)) \/
  (exists ns, p_acts P = all_acts can_open w (p_files P) ns (is_ok (p_end P)) /\ (forall g, In g (p_files P) -> exists p, g_name g = p ++ $".cpp") /\
     can_open (root_file w) = true /\
     (is_ok (p_end P) = true -> exists o, generate w c = Ok o /\ p_files P = out_files o /\ ns = out_namespaces o) /\
     (forall o, generate w c = Ok o -> is_ok (p_end P) = true)).
Proof.
  unfold generate_plan, generate. destruct (bind_all w c) as [[l log]|m|m|m|]; cbn [bind_r];
    try (left; split; [reflexivity|split; [reflexivity|split; [reflexivity|intros _ o H; discriminate H]]]).
  destruct (can_open (root_file w)); cbn [negb]; [|left; split; [reflexivity|split; [reflexivity|split; [reflexivity|intros H; discriminate H]]]].
  destruct (sort_binders w l) as [s|m|m|m|]; cbn [bind_r];
    try (right; exists []; split; [reflexivity|split; [intros g []|split; [reflexivity|split; [intros H; discriminate H|intros o H; discriminate H]]]]).
  pose proof (loop_files_cpp w (write_fuel s) s [] [] 0) as Cpp.
  destruct (loop_files_spec w (write_fuel s) s [] [] 0) as [A B]. unfold write_files.
  destruct (loop_files (write_fuel s) w s [] [] 0) as [gs r]. right. exists (nested_namespaces w s). cbn [p_acts p_files p_end fst snd] in *.
  split; [unfold all_acts; destruct r; reflexivity|]. split; [exact Cpp|]. split; [reflexivity|].
  destruct (write_loop (write_fuel s) w s [] [] 0) as [gs'|m|m|m|]; cbn [bind_r ending] in *; subst r; cbn [is_ok];
    (split; [intros H; try discriminate H|intros o H; try discriminate H; reflexivity]).
  eexists. split; [reflexivity|]. split; [exact (B _ eq_refl)|reflexivity].
Qed.
(** ** The order of the operations *)
Inductive shape (prefix : str) (A : list act) : list act -> Prop :=
| SH_rest x l : A = x ++ l -> shape prefix A l
| SH_within x n t l y e : A = x ++ Update n t :: l ->
    [Open (path_of prefix n); Write (path_of prefix n) t; Close (path_of prefix n)] = y ++ e -> shape prefix A (e ++ l).
Lemma shape_tail prefix A a l : shape prefix A (a :: l) -> shape prefix A l.
Proof.
  intros H. inversion H as [x l0 E|x n t l0 y e E E2 E3]; subst.
  - apply (SH_rest _ _ (x ++ [a])). rewrite <- app_assoc. reflexivity.
  - destruct e as [|a' e]; cbn [app] in E3.
    + subst l0. apply (SH_rest _ _ (x ++ [Update n t; a])). rewrite <- app_assoc. reflexivity.
    + injection E3 as -> <-. apply (SH_within _ _ x n t l0 (y ++ [a]) e); [reflexivity|]. rewrite <- app_assoc. exact E2.
Qed.
Lemma shape_update prefix A n t l : shape prefix A (Update n t :: l) -> exists x, A = x ++ Update n t :: l.
Proof.
  intros H. inversion H as [x l0 E|x n0 t0 l0 y e E E2 E3]; subst; [exists x; reflexivity|].
  destruct e as [|a e]; cbn [app] in E3.
  - subst l0. exists (x ++ [Update n0 t0]). rewrite <- app_assoc. reflexivity.
  - injection E3 as -> <-. exfalso. assert (I : In (Update n t) [Open (path_of prefix n0); Write (path_of prefix n0) t0; Close (path_of prefix n0)]) by (rewrite E2; apply in_or_app; right; left; reflexivity).
    cbn [In] in I. destruct I as [I|[I|[I|[]]]]; discriminate I.
Qed.
Lemma step_shape m c prefix A s s' : step m c prefix s s' -> shape prefix A (st_acts s) -> shape prefix A (st_acts s').
Proof.
  intros H SH. destruct H; subst; cbn [st_acts] in *; try (apply shape_tail in SH; exact SH); try exact SH.
  destruct (shape_update _ _ _ _ _ SH) as [x E]. exact (SH_within prefix A x n t l [] _ E eq_refl).
Qed.
Lemma reachable_shape m c prefix A s s' : clos_refl_trans_1n state (step m c prefix) s s' -> shape prefix A (st_acts s) -> shape prefix A (st_acts s').
Proof. intros R. induction R as [|s s1 s2 S1 R IH]; intros H; [exact H|]. apply IH. exact (step_shape _ _ _ _ _ _ S1 H). Qed.

(** ** One path at any moment *)
Section Moments.
Variables (mkdir_ok can_open : str -> bool) (w : world) (gs : list gen_file) (ns : list str) (ok : bool) (f : fs) (s : state).
Local Notation pre := (prefix (wopt w)).
Hypothesis Sf : single_file (wopt w) = false.
Hypothesis ND : NoDup (root_file_name w :: map g_name gs).
Hypothesis Cpp : forall g, In g gs -> exists p, g_name g = p ++ $".cpp".
Hypothesis R : clos_refl_trans_1n state (step mkdir_ok can_open pre) (mkstate (all_acts can_open w gs ns ok) f [] false) s.

Lemma at_file g : In g gs -> updating pre (g_name g) (g_text g) (lookup (path_of pre (g_name g)) (files f)) (proj pre (path_of pre (g_name g)) s).
Proof.
  intros I. refine (reachable_inv mkdir_ok can_open pre _ _ _ _ _ _ R).
  - intros x y. apply updating_step.
  - unfold proj. cbn [st_acts st_fs]. rewrite (script_file can_open w Sf gs ns ok ND Cpp g I). apply U_before.
Qed.
Lemma at_root : streaming (root_file w) (if ok then [root_text w ns gs] else []) (if ok then [Close (root_file w)] else [])
  (lookup (root_file w) (files f)) (proj pre (root_file w) s).
Proof.
  refine (reachable_inv mkdir_ok can_open pre _ _ _ _ _ _ R).
  - intros x y. apply streaming_step. destruct ok; [right|left]; reflexivity.
  - unfold proj. cbn [st_acts st_fs]. rewrite (script_root can_open w Sf gs ns ok ND). apply S_before.
Qed.
Lemma at_list path text : filter (touches pre path) (all_acts can_open w gs ns ok) = (if ok then list_acts can_open path text else []) ->
  if ok && can_open path then streaming path [text] [Close path] (lookup path (files f)) (proj pre path s)
  else proj pre path s = ([], lookup path (files f), []).
Proof.
  intros E. destruct (ok && can_open path) eqn:K.
  - refine (reachable_inv mkdir_ok can_open pre _ _ _ _ _ _ R).
    + intros x y. apply streaming_step. right. reflexivity.
    + unfold proj. cbn [st_acts st_fs]. rewrite E. apply andb_true_iff in K. destruct K as [-> K]. unfold list_acts. rewrite K. apply (S_before path [text]).
  - refine (reachable_inv mkdir_ok can_open pre path (fun x => x = ([], lookup path (files f), [])) _ _ _ _ R).
    + intros x y. apply untouched_step.
    + unfold proj. cbn [st_acts st_fs]. rewrite E. unfold list_acts. destruct ok; [|reflexivity]. cbn [andb] in K. rewrite K. reflexivity.
Qed.
Lemma at_other q : ~ In q (map (path_of pre) (root_file_name w :: map g_name gs)) ->
  q <> root_path w ++ $".sources" -> q <> root_path w ++ $".modules" -> lookup q (files (st_fs s)) = lookup q (files f).
Proof.
  intros N Ns Nm.
  assert (X : proj pre q s = ([], lookup q (files f), [])).
  { refine (reachable_inv mkdir_ok can_open pre q (fun x => x = ([], lookup q (files f), [])) _ _ _ _ R).
    - intros x y. apply untouched_step.
    - unfold proj. cbn [st_acts st_fs]. rewrite (script_other can_open w Sf gs ns ok q N Ns Nm). reflexivity. }
  apply (f_equal (fun x => snd (fst x))) in X. exact X.
Qed.
Lemma the_shape : shape pre (all_acts can_open w gs ns ok) (st_acts s).
Proof. apply (reachable_shape _ _ _ _ _ _ R). apply (SH_rest _ _ []). reflexivity. Qed.

Lemma no_close g : In g gs -> ~ In (Close (path_of pre (g_name g))) (all_acts can_open w gs ns ok).
Proof.
  intros I X. assert (Y : In (Close (path_of pre (g_name g))) (filter (touches pre (path_of pre (g_name g))) (all_acts can_open w gs ns ok)))
    by (apply filter_In; split; [exact X|cbn [touches]; apply streqb_refl]).
  rewrite (script_file can_open w Sf gs ns ok ND Cpp g I) in Y. destruct Y as [Y|[]]. discriminate Y.
Qed.
(** A file being written is the one of the current [update_source_file]. *)
Lemma being_written g : In g gs -> In (Close (path_of pre (g_name g))) (st_acts s) ->
  exists x t l y e, all_acts can_open w gs ns ok = x ++ Update (g_name g) t :: l /\ st_acts s = e ++ l /\
    [Open (path_of pre (g_name g)); Write (path_of pre (g_name g)) t; Close (path_of pre (g_name g))] = y ++ e.
Proof.
  intros I C. pose proof the_shape as SH. inversion SH as [x l E E1|x n t l y e E E2 E3].
  - exfalso. apply (no_close g I). rewrite E. apply in_or_app. right. exact C.
  - rewrite <- E3 in C. apply in_app_or in C. destruct C as [C|C].
    + assert (D : In (Close (path_of pre (g_name g))) (y ++ e)) by (apply in_or_app; right; exact C). rewrite <- E2 in D.
      cbn [In] in D. destruct D as [D|[D|[D|[]]]]; try discriminate D. injection D as D. apply path_of_inj in D. subst n.
      exists x, t, l, y, e. split; [exact E|split; [reflexivity|exact E2]].
    + exfalso. apply (no_close g I). rewrite E. apply in_or_app. right. right. exact C.
Qed.
Lemma one_at_a_time g h : In g gs -> In h gs -> In (Close (path_of pre (g_name g))) (st_acts s) -> In (Close (path_of pre (g_name h))) (st_acts s) -> g_name g = g_name h.
Proof.
  intros Ig Ih Cg Ch. destruct (being_written g Ig Cg) as [x [t [l [y [e [E1 [E2 E3]]]]]]]. rewrite E2 in Ch. apply in_app_or in Ch. destruct Ch as [C|C].
  - assert (D : In (Close (path_of pre (g_name h))) (y ++ e)) by (apply in_or_app; right; exact C). rewrite <- E3 in D.
    cbn [In] in D. destruct D as [D|[D|[D|[]]]]; try discriminate D. injection D as D. apply path_of_inj in D. exact D.
  - exfalso. apply (no_close h Ih). rewrite E1. apply in_or_app. right. right. exact C.
Qed.
Lemma before_updates x n t l : all_acts can_open w gs ns ok = x ++ Update n t :: l -> forall p, p <> root_file w -> ~ In (Open p) x.
Proof.
  intros E p N I. apply in_split in I. destruct I as [x1 [x2 ->]]. unfold all_acts in E.
  destruct x1 as [|a x1]; cbn [app] in E; [injection E as E _; apply N; symmetry; exact E|]. injection E as _ E. rewrite <- app_assoc in E. cbn [app] in E.
  assert (U : forall v l1 l2, map (file_acts w) gs ++ v = l1 ++ Open p :: l2 -> exists v1, v = v1 ++ Open p :: l2).
  { clear -Sf. induction gs as [|g gs' IH]; intros v l1 l2 E; cbn [map app] in E; [exists l1; exact E|].
    destruct l1 as [|a l1]; cbn [app] in E; injection E as E0 E; [rewrite (file_acts_eq w Sf) in E0; discriminate E0|exact (IH _ _ _ E)]. }
  destruct (U _ _ _ E) as [v1 V]. assert (In (Update n t) (if ok then last_acts can_open w ns gs else [])) as X
    by (rewrite V; apply in_or_app; right; right; apply in_or_app; right; left; reflexivity).
  destruct ok; [|destruct X]. unfold last_acts in X. rewrite Sf in X. unfold list_acts in X.
  repeat (apply in_app_or in X; destruct X as [X|X]); try (destruct (can_open _)); cbn [In] in X;
    repeat (destruct X as [X|X]; [discriminate X|]); try destruct X.
Qed.
(** Once the list of sources is opened, every file is complete. *)
Lemma files_before_lists p : p <> root_file w -> In (Open p) (all_acts can_open w gs ns ok) -> ~ In (Open p) (st_acts s) ->
  (forall g, In g gs -> p <> path_of pre (g_name g)) -> forall g, In g gs -> content (st_fs s) (path_of pre (g_name g)) = g_text g.
Proof.
  intros N I O Ng g Ig.
  assert (NU : forall n t, ~ In (Update n t) (st_acts s)).
  { intros n t X. pose proof the_shape as SH. inversion SH as [x l E E1|x n0 t0 l y e E E2 E3].
    - apply in_split in X. destruct X as [a1 [a2 X]]. rewrite X in E. rewrite app_assoc in E.
      apply (before_updates _ _ _ _ E p N). rewrite E in I. apply in_app_or in I. destruct I as [I|I]; [exact I|]. exfalso. apply O. rewrite X.
      apply in_or_app. right. exact I.
    - apply O. rewrite <- E3. rewrite E in I. apply in_app_or in I. destruct I as [I|[I|I]].
      + exfalso. exact (before_updates _ _ _ _ E p N I).
      + discriminate I.
      + apply in_or_app. right. exact I. }
  assert (NC : ~ In (Close (path_of pre (g_name g))) (st_acts s)).
  { intros X. destruct (being_written g Ig X) as [x [t [l [y [e [E1 [E2 E3]]]]]]].
    apply O. rewrite E2. rewrite E1 in I. apply in_app_or in I. destruct I as [I|[I|I]].
    - exfalso. exact (before_updates _ _ _ _ E1 p N I).
    - discriminate I.
    - apply in_or_app. right. exact I. }
  pose proof (at_file g Ig) as H. unfold content. unfold proj in H.
  assert (F : forall a, In a (filter (touches pre (path_of pre (g_name g))) (st_acts s)) -> In a (st_acts s)) by (intros a X; apply filter_In in X; tauto).
  apply (updating_over _ _ _ _ _ H); cbn [fst].
  - intros X. apply (NU (g_name g) (g_text g)), F, X.
  - intros X. apply NC, F, X.
Qed.
End Moments.

(** ** Reading off what the disk shows *)
Lemma updating_shows prefix n t o acts o' b : updating prefix n t o (acts, o', b) -> o' = o \/ exists rest, t = read o' ++ rest.
Proof.
  intros H. inversion H; subst; try (left; reflexivity).
  - right. exists t. reflexivity.
  - right. eexists. reflexivity.
  - right. exists []. cbn [read]. symmetry. apply app_nil_r.
Qed.
Lemma updating_partial prefix n t o x : updating prefix n t o x -> snd (fst x) <> o -> read (snd (fst x)) <> t -> In (Close (path_of prefix n)) (fst (fst x)).
Proof.
  intros H A B. destruct H as [|D|D|a b D E|D|D]; cbn [fst snd read] in *; try contradiction; cbn; auto.
Qed.
Lemma updating_same prefix n t o x : updating prefix n t o x -> read o = t -> snd (fst x) = o.
Proof. intros H E. destruct H; cbn [fst snd]; try contradiction; reflexivity. Qed.
Lemma updating_end prefix n t o x : updating prefix n t o x -> fst (fst x) = [] -> read (snd (fst x)) = t.
Proof. intros H E. destruct H as [|D|D|a b D E'|D|D]; cbn [fst snd] in *; try discriminate E; [reflexivity|exact D]. Qed.
Lemma streaming_shows q ts tail o x : streaming q ts tail o x -> snd (fst x) = o \/ exists rest, concat ts = read (snd (fst x)) ++ rest.
Proof.
  intros H. destruct H as [|done rest a b E1 E2|]; cbn [fst snd read]; [left; reflexivity|right|right; exists []; symmetry; apply app_nil_r].
  subst ts. rewrite concat_app, <- E2, <- app_assoc. eexists. reflexivity.
Qed.
Lemma streaming_end q ts o x : streaming q ts [Close q] o x -> fst (fst x) = [] -> read (snd (fst x)) = concat ts.
Proof.
  intros H E. destruct H as [|done rest a b E1 E2|]; cbn [fst snd read] in *; [discriminate E| |reflexivity].
  destruct (map (Write q) rest); discriminate E.
Qed.
Lemma streaming_opened q ts tail o x : streaming q ts tail o x -> snd (fst x) <> o -> tail = [] \/ tail = [Close q] -> ~ In (Open q) (fst (fst x)).
Proof.
  intros H N T X. destruct H as [|done rest a b E1 E2|]; cbn [fst snd] in *; [contradiction| |destruct X].
  apply in_app_or in X. destruct X as [X|X].
  - apply in_map_iff in X. destruct X as [y [X _]]. discriminate X.
  - destruct T as [->| ->]; [destruct X|]. destruct X as [X|[]]. discriminate X.
Qed.
Lemma update_local m c pre n t f1 f2 f1' : content f1 (path_of pre n) = content f2 (path_of pre n) ->
  update_source_file m c pre n t f1 = Ok f1' -> exists f2', update_source_file m c pre n t f2 = Ok f2'.
Proof.
  unfold update_source_file, content. fold (path_of pre n). intros E H. destruct (split n $"/") as [|d ds]; [discriminate H|].
  destruct (negb (m _)); [discriminate H|]. rewrite <- E.
  destruct (streqb _ t); [eexists; reflexivity|]. destruct (negb (c (path_of pre n))); [discriminate H|]. eexists. reflexivity.
Qed.

(** ** Single-file mode *)
Definition single_chunk (g : gen_file) : str := $"// File: " ++ g_name g ++ [nl] ++ g_text g ++ [nl; nl].
Definition single_tail (w : world) (ns : list str) (gs : list gen_file) : str :=
  [nl] ++ $"// Source list file: " ++ root_path w ++ $".sources" ++ [nl]
  ++ concat (map (fun s => $"// " ++ s ++ [nl]) (source_names w gs))
  ++ [nl] ++ $"// Modules list file: " ++ root_path w ++ $".modules" ++ [nl] ++ $"// "
  ++ modules_text ns ++ [nl].
Lemma single_acts can_open w gs ns ok : single_file (wopt w) = true ->
  all_acts can_open w gs ns ok = Open (root_file w) :: map (Write (root_file w)) (map single_chunk gs ++ if ok then [root_text w ns gs; single_tail w ns gs] else [])
    ++ (if ok then [Close (root_file w)] else []).
Proof.
  intros Sf. unfold all_acts. f_equal. rewrite map_app, map_map. rewrite <- app_assoc. f_equal.
  - apply map_ext. intros g. unfold file_acts. rewrite Sf. reflexivity.
  - destruct ok; [|reflexivity]. unfold last_acts. rewrite Sf. reflexivity.
Qed.
Lemma filter_all {A} (p : A -> bool) l : (forall x, In x l -> p x = true) -> filter p l = l.
Proof. induction l as [|a l IH]; intros H; [reflexivity|]. cbn [filter]. rewrite (H a (or_introl eq_refl)). f_equal. apply IH. intros x I. apply H. right. exact I. Qed.
Lemma filter_none {A} (p : A -> bool) l : (forall x, In x l -> p x = false) -> filter p l = [].
Proof. induction l as [|a l IH]; intros H; [reflexivity|]. cbn [filter]. rewrite (H a (or_introl eq_refl)). apply IH. intros x I. apply H. right. exact I. Qed.
Lemma stream_touch prefix q r ts tail a : tail = [] \/ tail = [Close r] -> In a (Open r :: map (Write r) ts ++ tail) -> touches prefix q a = streqb r q.
Proof.
  intros T [<-|I]; [reflexivity|]. apply in_app_or in I. destruct I as [I|I].
  - apply in_map_iff in I. destruct I as [t [<- _]]. reflexivity.
  - destruct T as [->| ->]; [destruct I|]. destruct I as [<-|[]]. reflexivity.
Qed.

(** ** Which updates succeed *)
Lemma all_updates m c pre l : forall f, NoDup (map fst l) ->
  ((exists f2, update_all m c pre l f = Ok f2) <-> (forall n t, In (n, t) l -> exists f', update_source_file m c pre n t f = Ok f')).
Proof.
  induction l as [|[n t] l IH]; intros f ND; cbn [update_all].
  - split; [intros _ n t []|intros _; exists f; reflexivity].
  - cbn [map fst] in ND. inversion ND as [|? ? N ND']; subst.
    assert (Loc : forall f1, update_source_file m c pre n t f = Ok f1 -> forall n' t', In (n', t') l -> content f1 (path_of pre n') = content f (path_of pre n')).
    { intros f1 E n' t' I. pose proof (update_effect _ _ _ _ _ _ _ E) as [_ [U2 _]]. unfold content. rewrite U2; [reflexivity|].
      intros X. apply path_of_inj in X. subst n'. apply N. apply in_map_iff. exists (n, t'). split; [reflexivity|exact I]. }
    split.
    + intros [f2 H] n' t' [X|I].
      * injection X as <- <-. destruct (update_source_file m c pre n t f) as [f1|x|x|x|]; cbn [bind_r] in H; try discriminate H. exists f1. reflexivity.
      * destruct (update_source_file m c pre n t f) as [f1|x|x|x|] eqn:E; cbn [bind_r] in H; try discriminate H.
        destruct (proj1 (IH f1 ND') (ex_intro _ f2 H) n' t' I) as [f' Y]. exact (update_local _ _ _ _ _ _ _ _ (Loc f1 eq_refl n' t' I) Y).
    + intros H. destruct (H n t (or_introl eq_refl)) as [f1 E]. rewrite E. cbn [bind_r]. apply (IH f1 ND'). intros n' t' I.
      destruct (H n' t' (or_intror I)) as [f' Y]. exact (update_local _ _ _ _ _ _ _ _ (eq_sym (Loc f1 E n' t' I)) Y).
Qed.

Section Success.
Variables (mkdir_ok can_open : str -> bool) (w : world) (gs : list gen_file) (ns : list str) (ok : bool) (f : fs).
Local Notation pre := (prefix (wopt w)).
Hypothesis Sf : single_file (wopt w) = false.
Hypothesis ND : NoDup (root_file_name w :: map g_name gs).
Hypothesis Cpp : forall g, In g gs -> exists p, g_name g = p ++ $".cpp".
Local Notation start := (mkstate (all_acts can_open w gs ns ok) f [] false).
Local Notation steps := (clos_refl_trans_1n state (step mkdir_ok can_open pre)).

Lemma update_is_a_file s n t : steps start s -> In (Update n t) (st_acts s) -> exists g, In g gs /\ g_name g = n /\ g_text g = t.
Proof.
  intros R I. pose proof (the_shape mkdir_ok can_open w gs ns ok f s R) as SH.
  assert (J : In (Update n t) (all_acts can_open w gs ns ok)).
  { inversion SH as [x l E E1|x n0 t0 l y e E E2 E3].
    - rewrite E. apply in_or_app. right. exact I.
    - rewrite <- E3 in I. apply in_app_or in I. destruct I as [I|I].
      + exfalso. assert (D : In (Update n t) (y ++ e)) by (apply in_or_app; right; exact I). rewrite <- E2 in D.
        destruct D as [D|[D|[D|[]]]]; discriminate D.
      + rewrite E. apply in_or_app. right. right. exact I. }
  unfold all_acts in J. destruct J as [J|J]; [discriminate J|]. apply in_app_or in J. destruct J as [J|J].
  - apply in_map_iff in J. destruct J as [g [E Ig]]. rewrite (file_acts_eq w Sf) in E. injection E as <- <-. exists g. auto.
  - destruct ok; [|destruct J]. unfold last_acts in J. rewrite Sf in J. unfold list_acts in J.
    exfalso. repeat (apply in_app_or in J; destruct J as [J|J]); try (destruct (can_open _)); cbn [In] in J;
    repeat (destruct J as [J|J]; [discriminate J|]); try destruct J.
Qed.
Lemma update_pending s g : steps start s -> In g gs -> In (Update (g_name g) (g_text g)) (st_acts s) ->
  lookup (path_of pre (g_name g)) (files (st_fs s)) = lookup (path_of pre (g_name g)) (files f) /\ pending s (path_of pre (g_name g)) = [].
Proof.
  intros R Ig I. pose proof (at_file mkdir_ok can_open w gs ns ok f s Sf ND Cpp R g Ig) as H.
  assert (J : In (Update (g_name g) (g_text g)) (fst (fst (proj pre (path_of pre (g_name g)) s)))).
  { cbn [proj fst]. apply filter_In. split; [exact I|]. cbn [touches]. apply streqb_refl. }
  assert (X : forall x, updating pre (g_name g) (g_text g) (lookup (path_of pre (g_name g)) (files f)) x -> In (Update (g_name g) (g_text g)) (fst (fst x)) ->
              snd (fst x) = lookup (path_of pre (g_name g)) (files f) /\ snd x = []).
  { intros x U K. destruct U as [|D|D|a b D E|D|D]; cbn [fst snd] in *; try (split; reflexivity); exfalso.
    - destruct K as [K|[K|[]]]; discriminate K.
    - destruct K as [K|[]]; discriminate K.
    - destruct K. }
  exact (X _ H J).
Qed.
(** An exception means that the update of a file fails. *)
Lemma stopped_why s : steps start s -> st_stopped s = true ->
  exists g, In g gs /\ In (Update (g_name g) (g_text g)) (st_acts s) /\ forall f', update_source_file mkdir_ok can_open pre (g_name g) (g_text g) f <> Ok f'.
Proof.
  intros R. apply clos_rt1n_rt in R. apply clos_rt_rtn1 in R. induction R as [|s s' S1 R IH]; intros St; [discriminate St|].
  assert (R' : steps start s) by (apply clos_rt_rt1n, clos_rtn1_rt; exact R).
  destruct S1; subst; cbn [st_stopped st_acts] in *; try discriminate St.
  - destruct (update_is_a_file _ n t R' (or_introl eq_refl)) as [g [Ig [<- <-]]]. exists g. split; [exact Ig|]. split; [left; reflexivity|].
    intros f' X. destruct (update_pending _ g R' Ig (or_introl eq_refl)) as [L _]. cbn [st_fs] in L.
    destruct (update_local mkdir_ok can_open pre (g_name g) (g_text g) f f0 f') as [f2 Y]; [unfold content; rewrite L; reflexivity|exact X|exact (H f2 Y)].
  - exact (IH St).
Qed.
(** Every update gone through was possible. *)
Lemma passed s g : steps start s -> In g gs -> In (Update (g_name g) (g_text g)) (st_acts s) \/ exists f', update_source_file mkdir_ok can_open pre (g_name g) (g_text g) f = Ok f'.
Proof.
  intros R Ig. apply clos_rt1n_rt in R. apply clos_rt_rtn1 in R. induction R as [|s s' S1 R IH].
  - left. cbn [st_acts]. unfold all_acts. right. apply in_or_app. left. rewrite <- (file_acts_eq w Sf). apply in_map. exact Ig.
  - assert (R' : steps start s) by (apply clos_rt_rt1n, clos_rtn1_rt; exact R).
    destruct IH as [I|X]; [|right; exact X].
    assert (Up : forall n t l f0 b f', s = mkstate (Update n t :: l) f0 b false -> update_source_file mkdir_ok can_open pre n t f0 = Ok f' -> Update n t = Update (g_name g) (g_text g) ->
                 exists f', update_source_file mkdir_ok can_open pre (g_name g) (g_text g) f = Ok f').
    { intros n t l f0 b f' -> E X. injection X as -> ->. destruct (update_pending _ g R' Ig I) as [L _]. cbn [st_fs] in L.
      apply (update_local mkdir_ok can_open pre (g_name g) (g_text g) f0 f f'); [unfold content; rewrite L; reflexivity|exact E]. }
    destruct S1; subst; cbn [st_acts] in *; try (destruct I as [I|I]; [discriminate I|left; exact I]).
    + destruct I as [I|I]; [right; exact (Up _ _ _ _ _ _ eq_refl H I)|left; exact I].
    + destruct I as [I|I]; [right; exact (Up _ _ _ _ _ _ eq_refl H I)|left; right; right; right; exact I].
    + left. exact I.
    + left. exact I.
Qed.
End Success.

(** A run can always go on until it is done or fails. *)
Lemma goes_on m c pre l : forall f b, exists s, clos_refl_trans_1n state (step m c pre) (mkstate l f b false) s /\ (st_acts s = [] \/ st_stopped s = true).
Proof.
  assert (Len : forall k l f b, length l + 3 * length (filter (fun a => match a with Update _ _ => true | _ => false end) l) < k ->
            exists s, clos_refl_trans_1n state (step m c pre) (mkstate l f b false) s /\ (st_acts s = [] \/ st_stopped s = true)).
  { clear. induction k as [|k IH]; intros l f b K; [lia|]. destruct l as [|a l]; [eexists; split; [apply Relation_Operators.rt1n_refl|left; reflexivity]|].
    destruct a as [p|p t|p|n t]; cbn [length filter] in K.
    - destruct (IH l (run_op f (Truncate p)) (update p [] b)) as [s [R E]]; [lia|]. exists s. split; [|exact E]. eapply Relation_Operators.rt1n_trans; [apply ST_open|exact R].
    - destruct (IH l f (update p (pending (mkstate (Write p t :: l) f b false) p ++ t) b)) as [s [R E]]; [lia|]. exists s. split; [|exact E].
      eapply Relation_Operators.rt1n_trans; [apply (ST_write _ _ _ p t l f b _ eq_refl)|exact R].
    - destruct (IH l (run_op f (Append p (pending (mkstate (Close p :: l) f b false) p))) (update p [] b)) as [s [R E]]; [lia|]. exists s. split; [|exact E].
      eapply Relation_Operators.rt1n_trans; [apply (ST_close _ _ _ p l f b _ eq_refl)|exact R].
    - destruct (update_source_file m c pre n t f) as [f'|x|x|x|] eqn:E.
      + destruct (str_eq_dec (content f (path_of pre n)) t) as [C|C].
        * destruct (IH l f b) as [s [R E1]]; [cbn [length] in K; lia|]. exists s. split; [|exact E1]. eapply Relation_Operators.rt1n_trans; [apply (ST_same _ _ _ n t l f b f' E C)|exact R].
        * destruct (IH (Open (path_of pre n) :: Write (path_of pre n) t :: Close (path_of pre n) :: l) f b) as [s [R E1]]; [cbn [length filter] in *; lia|].
          exists s. split; [|exact E1]. eapply Relation_Operators.rt1n_trans; [apply (ST_differs _ _ _ n t l f b f' E C)|exact R].
      + eexists. split; [eapply Relation_Operators.rt1n_trans; [apply (ST_fails _ _ _ n t l f b); intros f'; rewrite E; discriminate|apply Relation_Operators.rt1n_refl]|right; reflexivity].
      + eexists. split; [eapply Relation_Operators.rt1n_trans; [apply (ST_fails _ _ _ n t l f b); intros f'; rewrite E; discriminate|apply Relation_Operators.rt1n_refl]|right; reflexivity].
      + eexists. split; [eapply Relation_Operators.rt1n_trans; [apply (ST_fails _ _ _ n t l f b); intros f'; rewrite E; discriminate|apply Relation_Operators.rt1n_refl]|right; reflexivity].
      + eexists. split; [eapply Relation_Operators.rt1n_trans; [apply (ST_fails _ _ _ n t l f b); intros f'; rewrite E; discriminate|apply Relation_Operators.rt1n_refl]|right; reflexivity]. }
  intros f b. eapply Len. apply Nat.lt_succ_diag_r.
Qed.
