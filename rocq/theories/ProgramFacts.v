(** Facts about one invocation on several source files. *)
From Coq Require Import Ascii String Bool Arith NArith Lia.
From Coq Require Import List.
From Verif Require Import Str StrFacts Util UtilFacts Config SpecConfig ConfigFacts Ast Types Func Enum Includes Class Context SpecContext SpecSettings SettingsOrder SettingsRun Program.
Import ListNotations.

Lemma same_settings_trans a b c : same_settings a b -> same_settings b c -> same_settings a c.
Proof.
  intros [A1 [A2 [A3 A4]]] [B1 [B2 [B3 B4]]]. split; [|split; [|split]].
  - intros k x. rewrite B1. apply A1.
  - intros k x. rewrite B2. apply A2.
  - intros k. rewrite B3. apply A3.
  - intros k x i. rewrite B4. apply A4.
Qed.
Lemma same_settings_refl a : same_settings a a.
Proof. repeat split; auto. Qed.
Lemma setup_same a b bind skip file text r : same_settings a b -> setup a bind skip file text = Ok r ->
  exists r', setup b bind skip file text = Ok r' /\ same_settings r r'.
Proof.
  intros S E.
  assert (I : same_settings (assign_list namespaces_to_skip skip (assign_list namespaces_to_bind bind a)) (assign_list namespaces_to_skip skip (assign_list namespaces_to_bind bind b))).
  { destruct S as [S1 [S2 [S3 S4]]]. unfold same_settings, assign_list; cbn [lists maps strs vecs]. split; [|repeat split; auto; apply S4].
    intros k x; destruct (list_key_eq k namespaces_to_skip), (list_key_eq k namespaces_to_bind); try reflexivity. apply S1. }
  destruct file as [|ch file]; unfold setup in *.
  - injection E as <-. eexists. split; [reflexivity|exact I].
  - destruct text as [text|]; cbn [read] in *; [|discriminate].
    revert E I. generalize (assign_list namespaces_to_skip skip (assign_list namespaces_to_bind bind a)), (assign_list namespaces_to_skip skip (assign_list namespaces_to_bind bind b)).
    clear a b S. intros a b E [S1 [S2 [S3 S4]]]. unfold read_text in *. destruct (lines_keyed _ _ _ E) as [K1 [K2 K3]].
    destruct (K2 holder_type) as [e He]. destruct (He b) as [r' [E' _]]. exists r'. split; [exact E'|]. split; [|split; [|split]].
    + intros k x. destruct (feeds k) as [[g token]|] eqn:Ef; [|destruct k; discriminate].
      rewrite (read_text_lists _ _ _ k g token E' Ef x), (read_text_lists _ _ _ k g token E Ef x), S1. reflexivity.
    + intros k x. destruct (K1 k) as [g Hg]. destruct (Hg a) as [d1 [E1 G1]], (Hg b) as [d2 [E2 G2]]. rewrite E in E1. injection E1 as <-. rewrite E' in E2. injection E2 as <-.
      rewrite G1, G2, S2. reflexivity.
    + intros k. destruct (K2 k) as [g Hg]. destruct (Hg a) as [d1 [E1 G1]], (Hg b) as [d2 [E2 G2]]. rewrite E in E1. injection E1 as <-. rewrite E' in E2. injection E2 as <-.
      rewrite G1, G2, S3. reflexivity.
    + intros k x i. destruct (K3 k) as [g Hg]. destruct (Hg a) as [d1 [E1 G1]], (Hg b) as [d2 [E2 G2]]. rewrite E in E1. injection E1 as <-. rewrite E' in E2. injection E2 as <-.
      rewrite G1, G2, !in_app_iff, S4. reflexivity.
Qed.
(** What a file adds to a list does not depend on the settings before. *)
Lemma line_list l key : exists g, forall d d1, read_line d l = Ok d1 -> lists d1 key = lists d key ++ g.
Proof.
  destruct (line_trichotomy l) as [Hi|[[bind [token [arg Hs]]]|[Ht _]]].
  - exists []. intros d d1 E. rewrite (read_line_ignored d l Hi) in E. injection E as <-. rewrite app_nil_r. reflexivity.
  - destruct (find_kind token directives) as [k|] eqn:Ek.
    + exists (if fills key k bind then [nospace arg] else []). intros d d1 E. destruct (line_ok d l d1 E) as [[Hi _]|[b' [t' [a' [k' [Hs' [Hk [Ha He]]]]]]]].
      * destruct (says_not_ignored _ _ _ _ Hs Hi).
      * destruct (says_det _ _ _ _ _ _ _ Hs Hs') as [<- [<- <-]]. apply find_kind_In in Ek. pose proof (kind_det _ _ _ Ek Hk) as <-. apply effect_lists; assumption.
    + exists []. intros d d1 E. exfalso. destruct (read_line_says d l bind token arg Hs) as [t [_ Eq]]. rewrite Eq, read_token_kind, Ek in E. discriminate.
  - exists []. intros d d1 E. exfalso. destruct (Ht d) as [m Em]. congruence.
Qed.
Lemma lines_list key ls : exists g, forall d d1, read_lines d ls = Ok d1 -> lists d1 key = lists d key ++ g.
Proof.
  induction ls as [|l ls [g G]].
  - exists []. intros d d1 E. injection E as <-. rewrite app_nil_r. reflexivity.
  - destruct (line_list l key) as [g0 G0]. exists (g0 ++ g). intros d d1 E. cbn [read_lines] in E.
    destruct (read_line d l) as [d0| | | |] eqn:El; cbn [bind_r] in E; try discriminate. rewrite (G _ _ E), (G0 _ _ El), app_assoc. reflexivity.
Qed.
Lemma setup_list bind skip file text key : key <> namespaces_to_bind -> key <> namespaces_to_skip ->
  exists g, forall d d1, setup d bind skip file text = Ok d1 -> lists d1 key = lists d key ++ g.
Proof.
  intros N1 N2. assert (I : forall d, lists (assign_list namespaces_to_skip skip (assign_list namespaces_to_bind bind d)) key = lists d key).
  { intros d. unfold assign_list. cbn [lists]. destruct (list_key_eq key namespaces_to_skip); [contradiction|]. destruct (list_key_eq key namespaces_to_bind); [contradiction|reflexivity]. }
  destruct file as [|ch file]; unfold setup.
  - exists []. intros d d1 E. injection E as <-. rewrite I, app_nil_r. reflexivity.
  - destruct text as [text|]; cbn [read]; [|exists []; intros; discriminate].
    destruct (lines_list key (split text [nl])) as [g G]. exists g. intros d d1 E. rewrite (G _ _ E), I. reflexivity.
Qed.
Lemma last_cons {A} (l : list A) : forall x d, last (x :: l) d = last l x.
Proof. induction l as [|y l IH]; intros x d; [reflexivity|]. rewrite IH. change (last (y :: l) d = last l y). apply IH. Qed.
(** The settings while the k-th source file is processed. *)
Section Invocation.
Variable i : invocation.
Local Notation set_up c := (setup c (i_bind i) (i_skip i) (i_config i) (i_config_text i)).
Lemma process_inv s c f d : process i s c f = Ok d ->
  d_source d = s /\ set_up c = Ok (d_config d) /\ run (mkworld (so_env s) (d_config d) (i_options i)) (so_visits s) = Ok (d_output d) /\
  write_output (i_mkdir_ok i) (i_can_open i) (mkworld (so_env s) (d_config d) (i_options i)) (d_output d) f = Ok (d_disk d).
Proof.
  unfold process. intros E. destruct (set_up c) as [c1| | | |]; cbn [bind_r] in E; try discriminate. cbv zeta in E. fold (run (mkworld (so_env s) c1 (i_options i)) (so_visits s)) in E.
  destruct (run (mkworld (so_env s) c1 (i_options i)) (so_visits s)) as [o| | | |] eqn:R; cbn [bind_r] in E; try discriminate.
  destruct (write_output _ _ _ o f) as [f1| | | |] eqn:W; cbn [bind_r] in E; try discriminate. injection E as <-. cbn [d_source d_config d_output d_disk]. auto.
Qed.
Lemma file_text_irrelevant c : i_config i = [] -> setup c (i_bind i) (i_skip i) (i_config i) (i_config_text i) = setup c (i_bind i) (i_skip i) (i_config i) (Some []).
Proof. intros ->. reflexivity. Qed.
Lemma setup_twice c1 : set_up default_config = Ok c1 -> exists c2, set_up c1 = Ok c2 /\ same_settings c1 c2.
Proof.
  intros E. destruct (i_config i) as [|ch file] eqn:Ef.
  - apply (setup_again (i_bind i) (i_skip i) [] [] c1). exact E.
  - destruct (i_config_text i) as [text|] eqn:Et; [|discriminate E]. apply (setup_again (i_bind i) (i_skip i) (ch :: file) text c1). exact E.
Qed.
Lemma all_settings l : forall c f ds r c1, set_up default_config = Ok c1 -> c = default_config \/ same_settings c1 c -> process_all i l c f = (ds, r) ->
  forall k d, nth_error ds k = Some d -> nth_error l k = Some (d_source d) /\ same_settings c1 (d_config d) /\
    run (mkworld (so_env (d_source d)) (d_config d) (i_options i)) (so_visits (d_source d)) = Ok (d_output d).
Proof.
  induction l as [|s l IH]; intros c f ds r c1 E C P; cbn [process_all] in P; [injection P as <- <-; intros [|k] d N; discriminate|].
  destruct (process i s c f) as [d0| | | |] eqn:Pr; cbn [bind_r] in P; try (injection P as <- <-; intros [|k] d N; discriminate).
  destruct (process_inv _ _ _ _ Pr) as [S [Su [Ru _]]].
  assert (Q : same_settings c1 (d_config d0)).
  { destruct C as [->|C]; [rewrite E in Su; injection Su as <-; apply same_settings_refl|].
    destruct (setup_twice c1 E) as [c2 [E2 S2]]. destruct (setup_same _ _ _ _ _ _ _ C E2) as [c3 [E3 S3]]. rewrite Su in E3. injection E3 as <-. exact (same_settings_trans _ _ _ S2 S3). }
  destruct (process_all i l (d_config d0) (d_disk d0)) as [ds' r'] eqn:Pl. injection P as <- <-. intros [|k] d N; cbn [nth_error] in *.
  - injection N as <-. rewrite S. auto.
  - apply (IH _ _ _ _ c1 E (or_intror Q) Pl k d N).
Qed.
Lemma all_includes key l : key <> namespaces_to_bind -> key <> namespaces_to_skip -> forall c f ds r c1, set_up default_config = Ok c1 -> process_all i l c f = (ds, r) ->
  forall k d, nth_error ds k = Some d -> lists (d_config d) key = lists c key ++ concat (repeat (lists c1 key) (S k)).
Proof.
  intros N1 N2. destruct (setup_list (i_bind i) (i_skip i) (i_config i) (i_config_text i) key N1 N2) as [g G].
  induction l as [|s l IH]; intros c f ds r c1 E P; cbn [process_all] in P; [injection P as <- <-; intros [|k] d N; discriminate|].
  destruct (process i s c f) as [d0| | | |] eqn:Pr; cbn [bind_r] in P; try (injection P as <- <-; intros [|k] d N; discriminate).
  destruct (process_inv _ _ _ _ Pr) as [S [Su _]]. assert (Eg : lists c1 key = g) by exact (G _ _ E).
  destruct (process_all i l (d_config d0) (d_disk d0)) as [ds' r'] eqn:Pl. injection P as <- <-. intros [|k] d N; cbn [nth_error] in *.
  - injection N as <-. rewrite (G _ _ Su), Eg. cbn. rewrite app_nil_r. reflexivity.
  - rewrite (IH _ _ _ _ c1 E Pl k d N), (G _ _ Su), Eg. cbn [repeat concat]. rewrite <- app_assoc. reflexivity.
Qed.
Lemma all_ends l : forall c f ds r, process_all i l c f = (ds, r) ->
  (ds = [] \/ exists d, In d ds) /\
  match nth_error l (length ds) with
  | None => r = Ok tt
  | Some s => r <> Ok tt /\ r = (do _ <- process i s (last (map d_config ds) c) (last (map d_disk ds) f); Ok tt)
  end.
Proof.
  induction l as [|s l IH]; intros c f ds r P; cbn [process_all] in P.
  - injection P as <- <-. split; [left; reflexivity|reflexivity].
  - destruct (process i s c f) as [d0| | | |] eqn:Pr; cbn [bind_r] in P;
      try (injection P as <- <-; cbn [length nth_error map last]; rewrite Pr; split; [left; reflexivity|split; [discriminate|reflexivity]]).
    destruct (process_all i l (d_config d0) (d_disk d0)) as [ds' r'] eqn:Pl. injection P as <- <-. destruct (IH _ _ _ _ Pl) as [_ Q].
    split; [right; exists d0; left; reflexivity|]. cbn [length nth_error]. destruct (nth_error l (length ds')) as [s'|]; [|exact Q].
    cbn [map]. rewrite !last_cons. exact Q.
Qed.
Lemma all_writes l : forall c f ds r, process_all i l c f = (ds, r) -> forall before_ d after_, ds = before_ ++ d :: after_ ->
  write_output (i_mkdir_ok i) (i_can_open i) (mkworld (so_env (d_source d)) (d_config d) (i_options i)) (d_output d) (last (map d_disk before_) f) = Ok (d_disk d) /\
  run (mkworld (so_env (d_source d)) (d_config d) (i_options i)) (so_visits (d_source d)) = Ok (d_output d).
Proof.
  induction l as [|s l IH]; intros c f ds r P before_ d after_ D; cbn [process_all] in P; [injection P as <- <-; destruct before_; discriminate|].
  destruct (process i s c f) as [d0| | | |] eqn:Pr; cbn [bind_r] in P; try (injection P as <- <-; destruct before_; discriminate).
  destruct (process_all i l (d_config d0) (d_disk d0)) as [ds' r'] eqn:Pl. injection P as <- <-. destruct (process_inv _ _ _ _ Pr) as [S [_ [Ru W]]].
  destruct before_ as [|d1 before_]; injection D as -> D.
  - rewrite S. split; [exact W|exact Ru].
  - cbn [map]. rewrite last_cons. apply (IH _ _ _ _ Pl _ _ _ D).
Qed.
End Invocation.
