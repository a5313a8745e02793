(** Generated files are lexically well formed. *)
From Coq Require Import Ascii String Bool Arith NArith Lia.
From Coq Require Import List.
From Verif Require Import Str StrFacts SpecUtil SpecConfig Util UtilFacts Config Ast Types Func Enum Includes Class Context SpecTypes SpecBind SpecClass SpecContext SpecIncludes SpecOutput
  TypesFacts BindFacts ClassFacts StructFacts ContextFacts SortFacts WriteFacts RunFacts PropertiesContext PropertiesOutput SpecLex LexFacts LexText.
Import ListNotations.

Local Opaque standard_name class_qualified_name python_class_name callback_structure_name namespace_from_named_decl function_qualified_name
  fun_specialization rec_specialization print documentation_string dec relevant_include function_arguments fix_boolean_types mangle_type_name
  scan_from indent decl_id run.
#[local] Hint Constants Opaque : lex.
#[local] Hint Resolve tidy_code tidy_lit tidy_rest name_lit name_rest plain_lit one_line_rest plain_one_line name_passes tidy_is_name dec_code dec_rest dec_plain documentation_lit keeps_nil : lex.

(** ** Items of a run *)
Lemma run_clean w visits o b : run w visits = Ok o -> In b (out_sorted o) -> b_code b = [] -> b_prefix b = [].
Proof.
  intros H Hb C. destruct (run_inv _ _ _ H) as [l [E1 [E2 _]]]. pose proof (sort_binders_spec w l) as S0; cbv zeta in S0; rewrite E2 in S0.
  apply (Permutation.Permutation_in _ (proj1 S0)) in Hb. apply bind_all_spec in E1. cbv zeta in E1. destruct E1 as [_ [_ [_ X]]].
  apply In_nth_error in Hb. destruct Hb as [i Hi]. destruct (X i b Hi) as [X1 [_ X3]]. apply X3. intros N. apply X1 in N. apply has_code_iff in N. contradiction.
Qed.
Lemma run_item_code w visits o b : const_is_method w -> tidy_settings w -> tidy_unit w -> run w visits = Ok o -> tidy_run w o -> In b (out_sorted o) ->
  keeps Code (b_code b) /\ keeps Code (b_prefix b).
Proof.
  intros CM TS TU H TR I. destruct (list_eq_dec ascii_dec (b_code b) []) as [E|N].
  - rewrite E, (run_clean _ _ _ _ H I E). split; apply keeps_nil.
  - exact (item_code w (operators w visits) TS (tu_namespace _ TU) _ _ _ (tr_item _ _ TR b I N) (C68_every_item w visits o b CM H I N)).
Qed.
Lemma item_namespace w d : tidy_item w d -> tidy (namespace_from_named_decl w (named_of (wenv w) d)).
Proof.
  destruct d as [f|r|e]; cbn [tidy_item]; intros T.
  - exact (tn_namespace _ _ (tf_named _ _ _ T)).
  - exact (tn_namespace _ _ (tc_named _ _ (T r (IV_self w r)))).
  - exact (tn_namespace _ _ (te_named _ _ T)).
Qed.
Lemma item_binder_namespace w b : tidy_item w (b_decl b) -> tidy (binder_namespace w b).
Proof. apply item_namespace. Qed.

(** ** Files *)
(** Every file comes from an item with code; its call is the configured one or
    empty. *)
Lemma wrote_origin w rest fnames entrance tc gs : wrote w rest fnames entrance tc gs -> forall g, In g gs ->
  (exists b, In b rest /\ has_code b = true /\ g_ns g = binder_namespace w b) /\ (g_call g = [] \/ g_call g = configured_call w (g_ns g)).
Proof.
  induction 1 as [|b rest fnames entrance tc gs HC W IH|b rest fnames entrance tc taken later st gs HC F W IH]; intros g I.
  - destruct I.
  - destruct (IH g I) as [[b' [J X]] Y]. split; [exists b'; split; [right; exact J|exact X]|exact Y].
  - destruct I as [<-|I].
    + split; [exists b; split; [left; reflexivity|]; split; [exact HC|reflexivity]|]. cbn [made_file g_call g_ns].
      destruct (count (binder_namespace w b) entrance); [right; rewrite first_code_0; reflexivity|left; rewrite first_code_S; reflexivity].
    + destruct (IH g I) as [[b' [J X]] Y]. split; [|exact Y]. exists b'. split; [|exact X]. apply fill_spec in F. destruct F as [F _].
      rewrite F. apply in_app_iff. right. exact J.
Qed.
Lemma wrote_items_in w rest fnames entrance tc gs g b : wrote w rest fnames entrance tc gs -> In g gs -> In b (g_items g) -> In b rest.
Proof.
  intros W G B. apply wrote_sub in W. apply (sublist_In _ _ _ W). apply in_flat_map. exists g. split; assumption.
Qed.
Definition neutral_char (c : ascii) : bool := is_alnum c || existsb (Ascii.eqb c) $"_<>.".
Lemma neutral_code s : (forall c, In c s -> neutral_char c = true) -> keeps Code s.
Proof.
  intros H st. induction s as [|c s IH]; [reflexivity|]. rewrite scan_cons.
  assert (E : scan_char (Code, st) c = Some (Code, st)).
  { pose proof (H c (or_introl eq_refl)) as D. destruct c as [[] [] [] [] [] [] [] []]; try reflexivity; discriminate D. }
  rewrite E. apply IH. intros d I. apply H. right. exact I.
Qed.

Definition stem_char (c : ascii) : bool := neutral_char c || Ascii.eqb c "/".
Definition stem_chars (s : str) : Prop := forall c, In c s -> stem_char c = true.
Lemma stem_app a b : stem_chars a -> stem_chars b -> stem_chars (a ++ b).
Proof. intros A B c I. apply in_app_iff in I. destruct I as [I|I]; [apply A, I|apply B, I]. Qed.
Lemma stem_part a b : stem_chars b -> (forall c, In c a -> In c b) -> stem_chars a.
Proof. intros B H c I. apply B, H, I. Qed.
Lemma stem_const s : forallb stem_char s = true -> stem_chars s.
Proof. intros H c. apply forallb_forall, H. Qed.
Lemma path_char_stem c : path_char c -> stem_char c = true.
Proof.
  intros [H|H]; unfold stem_char, neutral_char; [rewrite H; reflexivity|]. cbn in H. destruct H as [<-|[<-|[<-|[<-|[<-|[]]]]]]; reflexivity.
Qed.
Lemma header_path_stem i p : header_path i p -> stem_chars p.
Proof.
  intros H. inversion H as [a path b S0 _|s S0 _]; subst; [|apply stem_const; reflexivity].
  intros c I. apply path_char_stem. assert (J : In c (a :: p ++ [b])) by (right; apply in_app_iff; left; exact I). apply (selection_In _ _ _ S0) in J. tauto.
Qed.
Lemma placed_stem ns p q : placed ns p q -> stem_chars p -> stem_chars q.
Proof.
  intros H S0. inversion H as [_ _|rest _ ->|_ _]; subst; [exact S0| |].
  - apply stem_app; [apply stem_const; reflexivity|]. apply (stem_part _ _ S0). intros c I. apply in_app_iff. right. exact I.
  - apply stem_app; [apply stem_const; reflexivity|exact S0].
Qed.
Lemma replaced_stem from to s t : leftmost_replaced from to s t -> stem_chars to -> stem_chars s -> stem_chars t.
Proof.
  intros H T. induction H as [s _|a b r _ _ IH]; intros S0; [exact S0|]. apply stem_app; [|apply stem_app; [exact T|]].
  - apply (stem_part _ _ S0). intros c I. apply in_app_iff. left. exact I.
  - apply IH, (stem_part _ _ S0). intros c I. apply in_app_iff. right. apply in_app_iff. right. exact I.
Qed.
Lemma header_stem_chars w d stem : header_stem w d stem -> stem_chars stem.
Proof.
  intros [path [place [s1 [s2 [s3 [P [L [R1 [R2 [R3 R4]]]]]]]]]].
  assert (N : stem_chars []) by (intros c []). assert (U : stem_chars $"_") by (apply stem_const; reflexivity).
  apply (replaced_stem _ _ _ _ R4 U), (replaced_stem _ _ _ _ R3 N), (replaced_stem _ _ _ _ R2 N), (replaced_stem _ _ _ _ R1 N), (placed_stem _ _ _ L), (header_path_stem _ _ P).
Qed.
Lemma identifier_stem s : identifier s -> stem_chars s.
Proof. intros H c I. apply path_char_stem. destruct (H c I) as [X| ->]; [left; exact X|right; left; reflexivity]. Qed.
Lemma dec_stem n : stem_chars (dec n).
Proof. intros c I. apply path_char_stem. left. apply dec_digits in I. clear - I. destruct c as [[] [] [] [] [] [] [] []]; try reflexivity; discriminate I. Qed.
Lemma numbered_stem w d n p stem : identifier (root_module (wopt w)) -> numbered w d n p stem -> stem_chars stem.
Proof.
  intros R H. assert (U : stem_chars $"_") by (apply stem_const; reflexivity). inversion H as [_|stem0 _ X _|stem0 _ X _]; subst.
  - apply stem_app; [exact (identifier_stem _ R)|]. apply stem_app; [exact U|apply dec_stem].
  - exact (header_stem_chars _ _ _ X).
  - apply stem_app; [exact (header_stem_chars _ _ _ X)|]. apply stem_app; [exact U|apply dec_stem].
Qed.
Lemma stem_line s : stem_chars s -> one_line s.
Proof. intros H c I X. specialize (H c I). cbn [In] in X. destruct X as [<-|[<-|[]]]; discriminate H. Qed.
Lemma function_stem s : stem_chars s -> keeps Code ($"bind_" ++ map (fun c => if Ascii.eqb c "/" then "_"%char else c) s).
Proof.
  intros H. apply keeps_app; [keeping|]. apply neutral_code. intros c I. apply in_map_iff in I. destruct I as [d [<- I]]. specialize (H d I).
  unfold stem_char in H. destruct (Ascii.eqb d "/"); [reflexivity|]. rewrite orb_false_r in H. exact H.
Qed.
Lemma file_names w visits o g : identifier (root_module (wopt w)) -> run w visits = Ok o -> In g (out_files o) -> keeps Code (g_fun g) /\ one_line (g_name g).
Proof.
  intros R H I. destruct (C69_file_names w visits o H) as [ps [L X]]. apply In_nth_error in I. destruct I as [i I].
  assert (I' : i < length ps) by (rewrite L; apply nth_error_Some; rewrite I; discriminate).
  destruct (nth_error ps i) as [[d p]|] eqn:E; [|apply nth_error_None in E; lia].
  destruct (X i g d p I E) as [stem [N [-> [-> _]]]]. apply (numbered_stem _ _ _ _ _ R) in N. split; [exact (function_stem _ N)|].
  apply one_line_app; [exact (stem_line _ N)|]. apply plain_one_line, plainb_ok. reflexivity.
Qed.

(** ** Includes *)
Definition one_lineb (s : str) : bool := forallb (fun c => negb (Ascii.eqb c bs) && negb (Ascii.eqb c nl)) s.
Lemma one_lineb_ok s : one_lineb s = true -> one_line s.
Proof.
  unfold one_lineb. rewrite forallb_forall. intros H c I X. specialize (H c I). rewrite !andb_true_iff, !negb_true_iff in H. destruct H as [A B].
  apply Ascii.eqb_neq in A, B. cbn [In] in X. destruct X as [X|[X|[]]]; congruence.
Qed.
Lemma known_headers k h : In (k, h) type_map \/ In (k, h) name_map_old \/ In (k, h) include_map -> one_line h.
Proof.
  assert (X : forallb (fun p => one_lineb (snd p)) (type_map ++ name_map_old ++ include_map) = true) by (vm_compute; reflexivity).
  rewrite forallb_forall in X. intros H. apply one_lineb_ok. change h with (snd (k, h)). apply X. rewrite !in_app_iff. exact H.
Qed.
Lemma declared_named w d : declared w (named_of (wenv w) d).
Proof. destruct d as [f|r|e]; [left; exists f|right; left; exists r|right; right; exists e]; reflexivity. Qed.
Lemma include_text_line w d i : tidy_unit w -> include_text w d i -> one_line i.
Proof.
  intros TU [name [h [N [H [_ ->]]]]]. destruct (tu_named _ TU _ (declared_named w d)) as [_ [_ O]].
  assert (L : one_line h) by (inversion H; subst; [apply (known_headers (standard_name w name)); tauto|eapply known_headers; right; left; eassumption|eapply known_headers; right; right; eassumption|exact O]).
  destruct (annotate_includes (wopt w)); [|exact L]. apply one_line_app; [exact L|]. apply one_line_app; [apply one_lineb_ok; reflexivity|].
  inversion N; subst; try exact (tu_empty _ TU); apply (tu_named _ TU); try apply declared_named; right; left; eexists; reflexivity.
Qed.
Lemma file_needs_line w g i : tidy_settings w -> tidy_unit w -> file_needs w g i -> one_line i.
Proof.
  intros TS TU [[l [L I]]|[[_ [_ [_ ->]]]|[_ [[d [incl [_ X]]]|[d [level [d' [_ [_ X]]]]]]]]].
  - exact (ts_configured _ TS namespace_includes _ _ _ L I).
  - unfold trace_header. destruct (annotate_includes (wopt w)); apply one_lineb_ok; reflexivity.
  - destruct d as [f|r|e]; cbn [item_extra] in X; [destruct X| |destruct X]. destruct X as [->|[c [l [h [_ [L [I ->]]]]]]]; [apply one_lineb_ok; reflexivity|].
    pose proof (ts_configured _ TS class_includes _ _ _ L I) as O. destruct (annotate_includes (wopt w)); [|exact O]. apply one_line_app; [exact O|apply one_lineb_ok; reflexivity].
  - exact (include_text_line _ _ _ TU X).
Qed.

(** ** Whole files *)
Lemma lines_keep l : (forall x, In x l -> keeps Code (x ++ [nl])) -> keeps Code (SpecOutput.lines l).
Proof. intros H. unfold SpecOutput.lines. apply keeps_concat. intros x I. apply in_map_iff in I. destruct I as [y [<- I]]. exact (H y I). Qed.
Lemma include_line_code i : one_line i -> keeps Code (($"#include " ++ i) ++ [nl]).
Proof. intros H. keeping. Qed.
Lemma include_lines_code l : (forall i, In i l -> one_line i) -> keeps Code (SpecOutput.lines (map (fun i => $"#include " ++ i) l)).
Proof. intros H. apply lines_keep. intros x I. apply in_map_iff in I. destruct I as [i [<- I]]. apply include_line_code, H, I. Qed.
Lemma header_lines_code w : tidy_settings w -> keeps Code (SpecOutput.lines (header_lines w)).
Proof.
  intros TS. pose proof (ts_holder _ TS). pose proof (ts_pybind11 _ TS) as P. unfold header_lines. cbv zeta.
  assert (A : keeps Code (SpecOutput.lines (map (fun i => $"#include " ++ i) (lists (wcfg w) includes_to_add) ++ (if include_pybind11_stl (wopt w) then [$"#include <pybind11/stl.h>"] else [])))).
  { rewrite PropertiesOutput.lines_app. apply keeps_app; [exact (include_lines_code _ (ts_include _ TS))|]. destruct (include_pybind11_stl (wopt w)); [|apply keeps_nil].
    intros st. vm_compute. reflexivity. }
  set (added := map _ _ ++ _) in *. clearbody added. rewrite !PropertiesOutput.lines_app.
  assert (B : keeps Code (SpecOutput.lines (match added with [] => [] | _ => [[]] end))) by (destruct added; intros st; vm_compute; reflexivity).
  unfold SpecOutput.lines at 1 4. cbn [map concat]. keeping.
Qed.
Lemma items_text_code w l : (forall b, In b l -> keeps Code (b_code b)) -> (forall b, In b l -> trace (wopt w) = true -> plain (decl_id w (b_decl b))) ->
  forall k, keeps Code (items_text w k l).
Proof.
  induction l as [|b l IH]; intros C P k; cbn [items_text]; [apply keeps_nil|].
  assert (T : keeps Code (if trace (wopt w) then trace_text k (decl_id w (b_decl b)) else [])).
  { pose proof (P b (or_introl eq_refl)) as Q. destruct (trace (wopt w)); [|apply keeps_nil]. specialize (Q eq_refl). unfold trace_text. keeping. }
  apply keeps_app; [exact T|]. apply keeps_app; [apply C; left; reflexivity|]. apply IH; [intros x I; apply C; right; exact I|intros x I; apply P; right; exact I].
Qed.
Lemma call_code w ns : tidy_settings w -> tidy ns -> keeps Code (configured_call w ns).
Proof.
  intros TS N. assert (X : forall f, tidy f -> keeps Code (namespace_call f ns)) by (intros f F; unfold namespace_call; keeping).
  unfold configured_call. destruct (lookup ns (maps (wcfg w) binder_for_namespaces)) as [f|] eqn:E1; [|destruct (lookup ns (maps (wcfg w) add_on_binder_for_namespaces)) as [f|] eqn:E2; [|apply keeps_nil]].
  - apply X. apply (ts_call _ TS binder_for_namespaces ns f); [cbn [In]; tauto|exact E1].
  - apply X. apply (ts_call _ TS add_on_binder_for_namespaces ns f); [cbn [In]; tauto|exact E2].
Qed.
Lemma file_code w visits o g : const_is_method w -> tidy_settings w -> tidy_unit w -> run w visits = Ok o -> tidy_run w o -> In g (out_files o) -> keeps Code (g_text g).
Proof.
  intros CM TS TU H TR I. destruct (C66_layout w visits o g H I) as [l [k [L1 [_ ->]]]]. destruct (file_names w visits o g (ts_root _ TS) H I) as [F _].
  destruct (run_inv _ _ _ H) as [l0 [_ [_ [W _]]]]. destruct (wrote_origin _ _ _ _ _ _ W g I) as [[b [B1 [B2 B3]]] C].
  assert (N : tidy (g_ns g)) by (rewrite B3; apply item_binder_namespace, (tr_item _ _ TR b B1), has_code_iff, B2).
  assert (K1 : keeps Code (SpecOutput.lines (map (fun i => $"#include " ++ i) l))).
  { apply include_lines_code. intros i J. apply L1 in J. destruct J as [J _]. exact (file_needs_line _ _ _ TS TU J). }
  pose proof (header_lines_code w TS) as K2.
  assert (IT : forall b, In b (g_items g) -> keeps Code (b_code b) /\ keeps Code (b_prefix b)).
  { intros x J. apply (run_item_code w visits o x CM TS TU H TR). exact (wrote_items_in _ _ _ _ _ _ _ _ W I J). }
  assert (K3 : keeps Code (if g_skip g then [] else concat (map b_prefix (g_items g)))).
  { destruct (g_skip g); [apply keeps_nil|]. apply keeps_concat. intros x J. apply in_map_iff in J. destruct J as [y [<- J]]. apply IT, J. }
  assert (K4 : keeps Code (if g_skip g then [] else items_text w k (g_items g))).
  { destruct (g_skip g); [apply keeps_nil|]. apply items_text_code; [intros x J; apply IT, J|]. intros x J. apply (tr_id _ _ TR). exact (wrote_items_in _ _ _ _ _ _ _ _ W I J). }
  assert (K5 : keeps Code (g_call g)) by (destruct C as [-> | ->]; [apply keeps_nil|exact (call_code w (g_ns g) TS N)]).
  set (x3 := if g_skip g then [] else concat (map b_prefix (g_items g))) in *. set (x4 := if g_skip g then [] else items_text w k (g_items g)) in *. clearbody x3 x4.
  unfold signature. set (x1 := SpecOutput.lines (map (fun i => $"#include " ++ i) l)) in *. set (x2 := SpecOutput.lines (header_lines w)) in *. clearbody x1 x2.
  unfold SpecOutput.lines. cbn [map concat]. keeping.
Qed.

(** ** The root module *)
Lemma substr_plain s i n : plain s -> plain (substr s i n).
Proof. intros H. apply (plain_part _ s H). intros c I. unfold substr in I. apply firstn_In in I. exact (skipn_In _ _ _ I). Qed.
Lemma base_plain n : plain n -> plain (base_namespace n).
Proof. intros H. unfold base_namespace. destruct (rfind n $"::"); [apply substr_plain, H|exact plain_nil]. Qed.
Lemma last_plain n : plain n -> plain (last_namespace n).
Proof. intros H. unfold last_namespace. destruct (rfind n $"::"); [apply substr_plain, H|exact H]. Qed.
Lemma encloses_plain ns x : encloses ns x -> plain ns -> plain x.
Proof.
  intros H P. induction H as [_|n inner x H IH L _]; [exact P|]. destruct L as [E _]. apply (plain_part _ n IH). intros c I. rewrite E. apply in_app_iff. left. exact I.
Qed.
Lemma namespaces_plain w visits o : run w visits = Ok o -> tidy_run w o -> forall n, In n (out_namespaces o) -> plain n.
Proof.
  intros H TR n I. destruct (run_inv _ _ _ H) as [l [_ [_ [_ E]]]]. rewrite E in I. apply nested_namespaces_In in I. destruct I as [b [I [C X]]].
  apply (encloses_plain _ _ X). apply has_code_iff in C. destruct (item_binder_namespace w b (tr_item _ _ TR b I C)) as [P _]. exact P.
Qed.
Lemma identifier_code s : identifier s -> keeps Code s.
Proof. intros H. apply neutral_code. intros c I. unfold neutral_char. destruct (H c I) as [-> | ->]; reflexivity. Qed.
Lemma identifier_plain s : identifier s -> plain s.
Proof. intros H c I X. destruct (H c I) as [E|E]; cbn [In] in X; destruct X as [<-|[<-|[<-|[]]]]; discriminate E. Qed.
Lemma root_code w ns fs : tidy_settings w -> (forall n, In n ns -> plain n) -> (forall f, In f fs -> keeps Code f) -> keeps Code (SpecOutput.lines (root_lines w ns fs)).
Proof.
  intros TS N F. pose proof (identifier_code _ (ts_root _ TS)) as R1. pose proof (identifier_plain _ (ts_root _ TS)) as R2. pose proof (ts_pybind11 _ TS) as P.
  unfold root_lines. cbv zeta.
  assert (A : keeps Code (SpecOutput.lines (map (fun f => signature f ++ $";") fs))).
  { apply lines_keep. intros x I. apply in_map_iff in I. destruct I as [f [<- I]]. pose proof (F f I). unfold signature. keeping. }
  assert (B : keeps Code (SpecOutput.lines (flat_map namespace_entry ns))).
  { apply lines_keep. intros x I. apply in_flat_map in I. destruct I as [n [I J]]. pose proof (base_plain n (N n I)). pose proof (last_plain n (N n I)).
    unfold namespace_entry in J. destruct n as [|c n]; [destruct J|]. destruct J as [<-|[]]. unfold quoted. keeping. }
  assert (C : keeps Code (SpecOutput.lines (map (fun f => [tab] ++ f ++ $"(M);") fs))).
  { apply lines_keep. intros x I. apply in_map_iff in I. destruct I as [f [<- I]]. pose proof (F f I). keeping. }
  rewrite !PropertiesOutput.lines_app. generalize dependent (SpecOutput.lines (map (fun f => signature f ++ $";") fs)). intros a A.
  generalize dependent (SpecOutput.lines (flat_map namespace_entry ns)). intros b B. generalize dependent (SpecOutput.lines (map (fun f => [tab] ++ f ++ $"(M);") fs)). intros c C.
  unfold SpecOutput.lines, quoted. cbn [map concat]. keeping.
Qed.
Lemma root_file_code w visits o : tidy_settings w -> run w visits = Ok o -> tidy_run w o -> keeps Code (root_text w (out_namespaces o) (out_files o)).
Proof.
  intros TS H TR. rewrite root_text_lines. apply (root_code w _ _ TS); [exact (namespaces_plain w visits o H TR)|].
  intros f I. apply in_map_iff in I. destruct I as [g [<- I]]. exact (proj1 (file_names w visits o g (ts_root _ TS) H I)).
Qed.
Lemma replace_line s from to : from <> [] -> one_line s -> one_line to -> one_line (replace s from to).
Proof.
  intros N S0 T. pose proof (replace_leftmost s from to N) as H. induction H as [s _|a b r _ _ IH]; [exact S0|].
  apply one_line_app; [|apply one_line_app; [exact T|]]; [|apply IH]; apply (one_line_part _ _ S0); intros c I; rewrite !in_app_iff; tauto.
Qed.
Lemma single_code w visits o : const_is_method w -> tidy_settings w -> tidy_unit w -> run w visits = Ok o -> tidy_run w o -> keeps Code (single_file_text w o).
Proof.
  intros CM TS TU H TR. pose proof (root_file_code w visits o TS H TR) as R. pose proof (plain_one_line _ (identifier_plain _ (ts_root _ TS))) as RO. pose proof (ts_prefix _ TS) as PO.
  assert (A : keeps Code (concat (map (fun g => $"// File: " ++ g_name g ++ [nl] ++ g_text g ++ [nl; nl]) (out_files o)))).
  { apply keeps_concat. intros x I. apply in_map_iff in I. destruct I as [g [<- I]]. pose proof (file_code w visits o g CM TS TU H TR I).
    pose proof (proj2 (file_names w visits o g (ts_root _ TS) H I)). keeping. }
  assert (B : keeps Code (concat (map (fun s => $"// " ++ s ++ [nl]) (source_names w (out_files o))))).
  { apply keeps_concat. intros x I. apply in_map_iff in I. destruct I as [s [<- I]].
    assert (L : one_line s).
    { destruct I as [<-|I]; [unfold root_file_name; apply one_line_app; [exact RO|apply one_lineb_ok; reflexivity]|].
      apply in_map_iff in I. destruct I as [g [<- I]]. exact (proj2 (file_names w visits o g (ts_root _ TS) H I)). }
    keeping. }
  assert (M : one_line (modules_text (out_namespaces o))).
  { unfold modules_text. apply replace_line; [discriminate| |apply one_lineb_ok; reflexivity].
    intros c I. apply in_concat in I. destruct I as [x [I J]]. apply in_map_iff in I. destruct I as [n [<- I]]. revert c J.
    apply one_line_app; [exact (plain_one_line _ (namespaces_plain w visits o H TR n I))|apply one_lineb_ok; reflexivity]. }
  assert (P : one_line (root_path w)).
  { unfold root_path. apply one_line_app; [exact PO|]. apply one_line_app; [apply one_lineb_ok; reflexivity|exact RO]. }
  unfold single_file_text. keeping.
Qed.
