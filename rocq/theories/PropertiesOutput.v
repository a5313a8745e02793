(** Properties of the text of whole files.  The specifications are in
    SpecOutput.v. *)
From Coq Require Import Ascii String Bool Arith NArith Lia Sorted Relations.
From Coq Require Import List.
From Verif Require Import Str StrFacts SpecUtil SpecConfig Util UtilFacts Config Ast Types Func Enum Includes Class Context SpecTypes TypesFacts NamesFacts SpecBind BindFacts
  SpecContext ContextFacts WriteFacts RunFacts SpecIncludes IncludesFacts ConfigFacts SpecClass ClassFacts SpecOutput Samples PropertiesContext.
Import ListNotations.

Lemma lines_app a b : lines (a ++ b) = lines a ++ lines b.
Proof. unfold lines. rewrite map_app, concat_app. reflexivity. Qed.
Lemma lines_cons x l : lines (x :: l) = x ++ [nl] ++ lines l.
Proof. unfold lines. cbn [map concat]. rewrite <- app_assoc. reflexivity. Qed.
Lemma lines_nil : lines [] = [].
Proof. reflexivity. Qed.

(** ** C68: the text of every item *)

Lemma location_ok w n : location w n (include_body (relevant_include n)) (line_number w n).
Proof.
  split; [|split; [|reflexivity]].
  - intros a body b ->. unfold include_body, substr. cbn [app skipn length]. rewrite app_length. replace (S (length body + length [b]) - 2) with (length body) by (cbn; lia).
    rewrite firstn_app, firstn_all, Nat.sub_diag. cbn [firstn]. apply app_nil_r.
  - intros ->. reflexivity.
Qed.
Lemma enum_any w module e s : bind_enum w module e = Ok s -> enum_text w module e s.
Proof. intros H. destruct (enum_spec _ _ _ _ H) as [local [L E]]. exists local. split; [exact (local_spec _ _ _ L)|exact E]. Qed.
Lemma item_spec w ops d g : const_is_method w -> generate_code w ops d = Ok g -> item_text w ops d (cb_code g) (cb_prefix g).
Proof.
  intros Wf H. destruct d as [f|r|e]; cbn [generate_code] in H.
  - inv_ok H. destruct a as [s q]. apply Ok_inj in H. subst g. cbn [cb_code cb_prefix]. unfold bind_fun in H0. inv_ok H0. destruct a as [s1 q1].
    apply Ok_inj, pair_equal_spec in H0. destruct H0 as [<- <-]. destruct (bind_function_spec _ _ _ _ _ _ _ _ H1 (first_bound_spec _)) as [ls [-> [L [D _]]]].
    pose proof (IT_function w ops f _ _ _ _ ls (location_ok w (f_decl (fun_ w f))) (arguments_types w (fun_ w f)) (first_bound_spec (fun_ w f)) L D) as X.
    match type of X with item_text _ _ _ ?a _ => match goal with |- item_text _ _ _ ?b _ => assert (Y : a = b) end end.
    { clear. unfold module_of, module_variable_name, quoted.
      generalize (namespace_from_named_decl w (f_decl (fun_ w f))) (n_qname (f_decl (fun_ w f))) (function_arguments w (fun_ w f)) (include_body (relevant_include (f_decl (fun_ w f))))
        (line_number w (f_decl (fun_ w f))) (annotation w (fun_ w f) false). intros. cbn [app]. repeat (rewrite <- !app_assoc; cbn [app]). reflexivity. }
    rewrite <- Y. exact X.
  - exact (IT_class w ops r g (class_binding_spec w ops Wf _ r g H)).
  - inv_ok H. apply Ok_inj in H. subst g. cbn [cb_code cb_prefix]. unfold bind_enum_binder in H0. inv_ok H0. apply Ok_inj in H0. subst a.
    assert (M : module_variable_name (namespace_from_named_decl w (e_decl (enum_ w e))) = module_of w (e_decl (enum_ w e))).
    { unfold module_of, module_variable_name, quoted. rewrite <- !app_assoc. reflexivity. }
    rewrite M in H1. pose proof (IT_enum w ops e _ _ a0 (location_ok w (e_decl (enum_ w e))) (enum_any _ _ _ _ H1)) as X.
    unfold generate_comment_for_declaration. rewrite <- !app_assoc. exact X.
Qed.
(** Every item that is bound has the text that is specified for its
    declaration. *)
Theorem C68_every_item : forall w visits o b, const_is_method w -> run w visits = Ok o -> In b (out_sorted o) -> b_code b <> [] ->
  item_text w (operators w visits) (b_decl b) (b_code b) (b_prefix b).
Proof.
  intros w visits o b Wf H Hb Hc. destruct (run_item _ _ _ _ H Hb) as [i [_ [_ X]]]. destruct (X Hc) as [g [G [-> [-> _]]]]. exact (item_spec w _ _ g Wf G).
Qed.
Print Assumptions C68_every_item.
(** The hypothesis holds for the sample and its items. *)
Example C68_case : const_is_method (mix_w true false 300) /\
  exists o b, run (mix_w true false 300) mix_visits = Ok o /\ nth_error (out_sorted o) 1 = Some b /\ b_decl b = DFun 1 /\ b_code b =
$"	// n::g(const class S &, int) file:a.hh line:
	M(""n"").def(""g"", [](const class S & a0) -> int { return n::g(a0); }, """", pybind11::arg(""s""));
	M(""n"").def(""g"", (int (*)(const class S &, int)) &n::g, ""C++: n::g(const class S &, int) --> int"", pybind11::arg(""s""), pybind11::arg(""d""));

".
Proof.
  split; [intros [|[|[|f]]]; vm_compute; intros H; discriminate H|]. eexists; eexists. split; [vm_compute; reflexivity|]. split; [vm_compute; reflexivity|]. split; vm_compute; reflexivity.
Qed.

(** ** C66: layout of the files *)

Lemma texts_items w l : forall tc, exists k, texts w tc l = items_text w k l.
Proof.
  intros tc. exists tc. revert tc. induction l as [|b l IH]; intros tc; [reflexivity|]. cbn [texts items_text]. f_equal. f_equal.
  destruct (trace (wopt w)) eqn:T; [apply IH|]. rewrite IH. clear IH. revert tc. induction l as [|c l IH]; intros tc; [reflexivity|]. cbn [items_text]. rewrite T. cbn [app]. f_equal. apply IH.
Qed.
Lemma header_text w : module_header_text (pybind11_include_line w) (includes_code (wcfg w) (include_pybind11_stl (wopt w)))
       ($"PYBIND11_DECLARE_HOLDER_TYPE(T, " ++ strs (wcfg w) holder_type ++ $"<T>, false)") ($"PYBIND11_MAKE_OPAQUE(" ++ strs (wcfg w) holder_type ++ $"<void>)") = lines (header_lines w).
Proof.
  unfold module_header_text, header_lines. cbv zeta. rewrite !lines_app.
  assert (A : includes_code (wcfg w) (include_pybind11_stl (wopt w)) =
    lines (map (fun i => $"#include " ++ i) (lists (wcfg w) includes_to_add) ++ (if include_pybind11_stl (wopt w) then [$"#include <pybind11/stl.h>"] else []))
    ++ lines (match map (fun i => $"#include " ++ i) (lists (wcfg w) includes_to_add) ++ (if include_pybind11_stl (wopt w) then [$"#include <pybind11/stl.h>"] else []) with [] => [] | _ => [[]] end)).
  { unfold includes_code. cbv zeta. assert (B : flat_map (fun i => $"#include " ++ i ++ [nl]) (lists (wcfg w) includes_to_add) ++ (if include_pybind11_stl (wopt w) then $"#include <pybind11/stl.h>" ++ [nl] else []) =
      lines (map (fun i => $"#include " ++ i) (lists (wcfg w) includes_to_add) ++ (if include_pybind11_stl (wopt w) then [$"#include <pybind11/stl.h>"] else []))).
    { rewrite lines_app. f_equal; [|destruct (include_pybind11_stl (wopt w)); reflexivity]. induction (lists (wcfg w) includes_to_add) as [|x l IH]; [reflexivity|].
      cbn [flat_map map]. rewrite lines_cons, IH, <- !app_assoc. reflexivity. }
    rewrite B. destruct (map (fun i => $"#include " ++ i) (lists (wcfg w) includes_to_add) ++ (if include_pybind11_stl (wopt w) then [$"#include <pybind11/stl.h>"] else [])) as [|x l]; [reflexivity|].
    rewrite lines_cons. destruct x as [|c x]; reflexivity. }
  rewrite lines_app in A. rewrite A. clear A. rewrite <- !app_assoc. unfold pybind11_include_line. rewrite !lines_cons, !lines_nil, <- !app_assoc.
  generalize (lines (map (fun i => $"#include " ++ i) (lists (wcfg w) includes_to_add))) (lines (if include_pybind11_stl (wopt w) then [$"#include <pybind11/stl.h>"] else [])).
  match goal with |- context [lines (match ?x with [] => _ | _ => _ end)] => generalize (lines (match x with [] => [] | _ => [[]] end)) end.
  generalize (strs (wcfg w) pybind11_include_file) (strs (wcfg w) holder_type). intros a b c d e. reflexivity.
Qed.
Lemma skip_iff c i : is_include_skipping_requested c i = true <-> exists p r, In p (lists c includes_to_skip) /\ i = p ++ r.
Proof.
  unfold is_include_skipping_requested. rewrite existsb_exists. split.
  - intros [p [Hp B]]. apply begins_with_iff in B. destruct B as [r ->]. exists p, r. split; [exact Hp|reflexivity].
  - intros [p [r [Hp ->]]]. exists p. split; [exact Hp|]. apply begins_with_iff. exists r. reflexivity.
Qed.
Lemma include_block_lines l : include_block l = lines (map (fun i => $"#include " ++ i) l).
Proof. induction l as [|x l IH]; [reflexivity|]. unfold include_block in *. cbn [map concat]. rewrite lines_cons, <- IH, <- !app_assoc. reflexivity. Qed.
Theorem C66_layout : forall w visits o g, run w visits = Ok o -> In g (out_files o) -> file_layout w g.
Proof.
  intros w visits o g H Hg; destruct (run_inv _ _ _ H) as [l [_ [_ [W _]]]]. clear H. revert Hg.
  induction W as [|b rest fnames entrance tc gs Hh W IH|b rest fnames entrance tc taken later st gs Hh E W IH]; intros Hg; [destruct Hg|exact (IH Hg)|].
  destruct Hg as [<-|Hg]; [|exact (IH Hg)]. clear IH W.
  pose proof (file_includes w b rest fnames entrance tc taken later st E) as F. destruct (fill_spec _ _ _ _ _ _ _ _ E) as [_ [_ [C [P [T _]]]]].
  destruct (texts_items w taken tc) as [k K]. exists (filter (fun i => negb (is_include_skipping_requested (wcfg w) i)) (set_of (incs (s_incs st)))), k. split; [|split].
  - intros i. rewrite filter_In, set_of_In, F, negb_true_iff. split.
    + intros [A B]. split; [exact A|]. intros X. apply skip_iff in X. rewrite B in X. discriminate X.
    + intros [A B]. split; [exact A|]. destruct (is_include_skipping_requested (wcfg w) i) eqn:X; [|reflexivity]. exfalso. apply B, skip_iff, X.
  - assert (S : Sorted.StronglySorted strlt (set_of (incs (s_incs st)))) by apply set_of_sorted.
    assert (S' : Sorted.StronglySorted strlt (filter (fun i => negb (is_include_skipping_requested (wcfg w) i)) (set_of (incs (s_incs st))))).
    { clear - S; induction S as [|x l S IH Hx]; cbn [filter]; [constructor|]. destruct (negb _); [|exact IH].
      constructor; [exact IH|]. apply Forall_forall; intros y Hy; apply filter_In in Hy; rewrite Forall_forall in Hx; apply Hx, Hy. }
    exact (sorted_byte _ S').
  - unfold made_file; cbv zeta; cbn [g_text g_skip g_items g_fun g_call]; unfold file_text; cbv zeta. rewrite C, P. cbn [s_prefix s_code s_tc file_start]. rewrite header_text.
    unfold generate_include_directives. fold (include_block (filter (fun i => negb (is_include_skipping_requested (wcfg w) i)) (set_of (incs (s_incs st))))).
    rewrite include_block_lines, !lines_cons, !lines_nil, app_nil_r. unfold signature, module_function_suffix. cbn [s_tc file_start] in K. rewrite K. rewrite <- !app_assoc. reflexivity.
Qed.
Print Assumptions C66_layout.
(** The second file of the sample, with a class and an enum. *)
Definition mix_out : output := match run (mix_w true false 300) mix_visits with Ok o => o | _ => mkout [] [] [] [] end.
Example C66_case : run (mix_w true false 300) mix_visits = Ok mix_out /\ map g_name (out_files mix_out) = [$"a.cpp"; $"a_1.cpp"; $"s.cpp"; $"b.cpp"] /\
  map g_text (firstn 1 (skipn 1 (out_files mix_out))) = [
$"#include <a.hh>
#include <iostream>
#include <sstream> // __str__

#include <functional>
#include <pybind11/pybind11.h>
#include <string>

#ifndef BINDER_PYBIND11_TYPE_CASTER
	#define BINDER_PYBIND11_TYPE_CASTER
	PYBIND11_DECLARE_HOLDER_TYPE(T, std::shared_ptr<T>, false)
	PYBIND11_DECLARE_HOLDER_TYPE(T, T*, false)
	PYBIND11_MAKE_OPAQUE(std::shared_ptr<void>)
#endif

void bind_a_1(std::function< pybind11::module &(std::string const &namespace_) > &M)
{
	std::cout << ""B1_[n::A]"" << std::endl;
	{ // n::A file:a.hh line:
		pybind11::class_<n::A, std::shared_ptr<n::A>> cl(M(""n""), ""A"", """");
		cl.def( pybind11::init( [](){ return new n::A(); } ) );
	}
	std::cout << ""B2_[n::E]"" << std::endl;
	// n::E file:a.hh line:
	pybind11::enum_<n::E>(M(""n""), ""E"", pybind11::arithmetic(), """")
		.value(""e1"", n::e1)
		.value(""e2"", n::e2)
		.export_values();

;

}
"].
Proof. split; [|split]; vm_compute; reflexivity. Qed.
(** Configured includes are followed by an empty line. *)
Example C66_case_includes : lines (header_lines (fns_w [] (mkoptions false false false false false true $"root" 1000%N true $"out" false) ($"+include <x.hh>" ++ [nl]))) =
$"
#include <functional>
#include <pybind11/pybind11.h>
#include <string>
#include <x.hh>
#include <pybind11/stl.h>


#ifndef BINDER_PYBIND11_TYPE_CASTER
	#define BINDER_PYBIND11_TYPE_CASTER
	PYBIND11_DECLARE_HOLDER_TYPE(T, std::shared_ptr<T>, false)
	PYBIND11_DECLARE_HOLDER_TYPE(T, T*, false)
	PYBIND11_MAKE_OPAQUE(std::shared_ptr<void>)
#endif

".
Proof. vm_compute; reflexivity. Qed.

(** ** C38: the root module *)

Lemma decl_lines fs : concat (map (fun g => function_decl (g_fun g)) fs) = lines (map (fun f => signature f ++ $";") (map g_fun fs)).
Proof. induction fs as [|g fs IH]; [reflexivity|]. cbn [map concat]. rewrite lines_cons, <- IH. unfold function_decl, signature, module_function_suffix. rewrite <- !app_assoc. reflexivity. Qed.
Lemma call_lines fs : concat (map (fun g => function_call (g_fun g)) fs) = lines (map (fun f => [tab] ++ f ++ $"(M);") (map g_fun fs)).
Proof. induction fs as [|g fs IH]; [reflexivity|]. cbn [map concat]. rewrite lines_cons, <- IH. unfold function_call. rewrite <- !app_assoc. cbn [app]. rewrite <- !app_assoc. reflexivity. Qed.
Lemma namespace_lines l : concat (map namespace_pair l) = lines (flat_map namespace_entry l).
Proof.
  induction l as [|n l IH]; [reflexivity|]. cbn [map concat flat_map]. rewrite lines_app, <- IH. f_equal. unfold namespace_pair, namespace_entry.
  destruct n as [|c n]; [reflexivity|]. rewrite lines_cons, lines_nil. generalize (base_namespace (c :: n)) (last_namespace (c :: n)). intros a b. unfold quoted. rewrite <- !app_assoc. reflexivity.
Qed.
Lemma root_text_lines w namespaces fs : root_text w namespaces fs = lines (root_lines w namespaces (map g_fun fs)).
Proof.
  unfold root_text, root_lines. cbv zeta. rewrite decl_lines, call_lines, namespace_lines, !lines_app.
  generalize (lines (map (fun f => signature f ++ $";") (map g_fun fs))) (lines (map (fun f => [tab] ++ f ++ $"(M);") (map g_fun fs))) (lines (flat_map namespace_entry namespaces)).
  intros a b c. unfold main_module_text, pybind11_include_line, quoted. generalize (root_module (wopt w)) (strs (wcfg w) pybind11_include_file). intros root inc.
  rewrite !lines_cons, !lines_nil. repeat (rewrite <- !app_assoc; cbn [app]). reflexivity.
Qed.
(** The whole text of the root module: it defines the module of the configured
    name, makes the submodules in the order of the list, and declares and calls
    the functions of the files in file order. *)
Theorem C38_root_module : forall mkdir_ok can_open w visits o before_ after_, run w visits = Ok o -> single_file (wopt w) = false ->
  write_output mkdir_ok can_open w o before_ = Ok after_ ->
  NoDup ((root_module (wopt w) ++ $".cpp") :: map g_name (out_files o)) ->
  content after_ (prefix (wopt w) ++ $"/" ++ root_module (wopt w) ++ $".cpp") = lines (root_lines w (out_namespaces o) (map g_fun (out_files o))).
Proof.
  intros mkdir_ok can_open w visits o before_ after_ H S W N. destruct (C38_files_on_disk mkdir_ok can_open w visits o before_ after_ H S W N) as [_ [X _]].
  rewrite <- app_assoc in X. rewrite X. apply root_text_lines.
Qed.
Print Assumptions C38_root_module.
Example C38_case_text : map (fun k => nth k (root_lines (mix_w true false 300) (out_namespaces mix_out) (map g_fun (out_files mix_out))) []) [11; 14; 17; 39; 40; 46; 49] =
  [$"void bind_a(std::function< pybind11::module &(std::string const &namespace_) > &M);"; $"void bind_b(std::function< pybind11::module &(std::string const &namespace_) > &M);";
   $"PYBIND11_MODULE(root, root_module) {"; [tab; tab] ++ $"{"""", ""n""},"; [tab; tab] ++ $"{""n"", ""m""},"; [tab] ++ $"bind_a(M);"; [tab] ++ $"bind_b(M);"].
Proof. vm_compute; reflexivity. Qed.

(** ** C69: names of files and functions *)

Lemma filter_selection {A} (f : A -> bool) (P : A -> Prop) : (forall x, f x = true <-> P x) -> forall l, selection P l (filter f l).
Proof.
  intros H l. induction l as [|x l IH]; cbn [filter]; [constructor|]. destruct (f x) eqn:E.
  - apply SEL_taken; [apply H, E|exact IH].
  - apply SEL_left; [intros X; apply H in X; rewrite E in X; discriminate X|exact IH].
Qed.
Lemma file_char_iff c : file_char c = true <-> path_char c.
Proof.
  unfold file_char, path_char. rewrite orb_true_iff, existsb_exists. apply or_iff_compat_l. split.
  - intros [x [I E]]. apply Ascii.eqb_eq in E. subst x. exact I.
  - intros I. exists c. split; [exact I|apply Ascii.eqb_refl].
Qed.
Definition bare (include : str) : str :=
  let include := if length include <=? 2 then $"<unknown/unknown.hh>" else include in substr include 1 (length include - 2).
Lemma bare_spec include : header_path include (bare (filter file_char include)).
Proof.
  pose proof (filter_selection _ _ file_char_iff include) as Sel. unfold bare. cbv zeta. destruct (Nat.leb_spec (length (filter file_char include)) 2) as [L|L].
  - exact (HP_unknown include _ Sel L).
  - destruct (filter file_char include) as [|a l]; [cbn in L; lia|]. destruct (list_snoc l) as [->|[p [x ->]]]; [cbn in L; lia|].
    assert (E : substr (a :: p ++ [x]) 1 (length (a :: p ++ [x]) - 2) = p).
    { unfold substr. cbn [skipn length]. rewrite app_length. replace (S (length p + length [x]) - 2) with (length p) by (cbn; lia).
      rewrite firstn_app, firstn_all, Nat.sub_diag. cbn [firstn]. apply app_nil_r. }
    rewrite E. apply (HP_known include a p x); [exact Sel|]. intros ->. cbn in L. lia.
Qed.
Definition in_std (ns path : str) : str :=
  if streqb ns $"std" || begins_with ns $"std::" then $"std/" ++ (if begins_with path $"bits/" then substr path 5 (length path) else path) else path.
Lemma in_std_spec ns path : placed ns path (in_std ns path).
Proof.
  unfold in_std. destruct (streqb ns $"std" || begins_with ns $"std::") eqn:N.
  - assert (X : ns = $"std" \/ starts $"std::" ns). { apply orb_true_iff in N. destruct N as [N|N]; [left; apply streqb_eq, N|right; apply begins_with_iff in N; exact N]. }
    destruct (begins_with path $"bits/") eqn:B.
    + apply begins_with_iff in B. destruct B as [rest ->]. assert (E : substr ($"bits/" ++ rest) 5 (length ($"bits/" ++ rest)) = rest).
      { unfold substr. change (skipn 5 ($"bits/" ++ rest)) with rest. apply firstn_all2. rewrite app_length. lia. }
      rewrite E. exact (PL_bits ns _ rest X eq_refl).
    + apply PL_std; [exact X|]. intros Y. apply begins_with_iff in Y. rewrite B in Y. discriminate Y.
  - apply orb_false_iff in N. destruct N as [N1 N2]. apply PL_other.
    + intros ->. cbn in N1. discriminate N1.
    + intros Y. apply begins_with_iff in Y. rewrite N2 in Y. discriminate Y.
Qed.
Lemma replace_leftmost s from to : from <> [] -> leftmost_replaced from to s (replace s from to).
Proof. intros N. apply (replace_spec s from to N). reflexivity. Qed.
Definition undotted (path : str) : str := replace (replace (replace (replace path $".hh" []) $".hpp" []) $".h" []) $"." $"_".
Lemma file_name_prefix_eq w b : file_name_prefix w b =
  undotted (in_std (binder_namespace w b) (bare (filter file_char (relevant_include (named_decl w b))))).
Proof. unfold file_name_prefix. cbv zeta. unfold undotted, in_std, bare. cbv zeta. generalize (binder_namespace w b) (filter file_char (relevant_include (named_decl w b))). intros. reflexivity. Qed.
Lemma undotted_spec path : exists s1 s2 s3, leftmost_replaced $".hh" [] path s1 /\ leftmost_replaced $".hpp" [] s1 s2 /\ leftmost_replaced $".h" [] s2 s3 /\ leftmost_replaced $"." $"_" s3 (undotted path).
Proof.
  unfold undotted. set (s1 := replace path $".hh" []). set (s2 := replace s1 $".hpp" []). set (s3 := replace s2 $".h" []). exists s1, s2, s3.
  split; [apply (replace_leftmost path); discriminate|]. split; [apply (replace_leftmost s1); discriminate|]. split; [apply (replace_leftmost s2); discriminate|apply (replace_leftmost s3); discriminate].
Qed.
Lemma stem_of_name n ns : exists path place s1 s2 s3,
    header_path (relevant_include n) path /\ placed ns path place /\
    leftmost_replaced $".hh" [] place s1 /\ leftmost_replaced $".hpp" [] s1 s2 /\ leftmost_replaced $".h" [] s2 s3 /\
    leftmost_replaced $"." $"_" s3 (undotted (in_std ns (bare (filter file_char (relevant_include n))))).
Proof.
  generalize (bare_spec (relevant_include n)). generalize (bare (filter file_char (relevant_include n))). intros path B.
  generalize (in_std_spec ns path). generalize (in_std ns path). intros place P. destruct (undotted_spec place) as [s1 [s2 [s3 X]]].
  exists path, place, s1, s2, s3. exact (conj B (conj P X)).
Qed.
Lemma prefix_stem w b : header_stem w (b_decl b) (file_name_prefix w b).
Proof. rewrite file_name_prefix_eq. unfold binder_namespace, named_decl, header_stem. apply (stem_of_name (named_of (wenv w) (b_decl b)) (namespace_from_named_decl w (named_of (wenv w) (b_decl b)))). Qed.
Definition occurrences (p : str) (l : list (decl * str)) : nat := count_occ str_eq_dec (map snd l) p.
Lemma stem_numbered w b n : numbered w (b_decl b) n (name_prefix w b) (file_stem w (name_prefix w b) n).
Proof.
  unfold name_prefix, file_stem. destruct (flat (wopt w)) eqn:F.
  - rewrite <- app_assoc. apply NU_flat, F.
  - destruct n as [|n]; cbn [Nat.eqb].
    + rewrite app_nil_r. exact (NU_first w _ 0 _ F (prefix_stem w b) eq_refl).
    + exact (NU_more w _ (S n) _ F (prefix_stem w b) (Nat.neq_succ_0 n)).
Qed.
Lemma wrote_numbered w rest fnames entrance tc gs : wrote w rest fnames entrance tc gs ->
  exists ps : list (decl * str), length ps = length gs /\
    forall i g d p, nth_error gs i = Some g -> nth_error ps i = Some (d, p) -> exists stem,
      numbered w d (count p fnames + occurrences p (firstn i ps)) p stem /\ g_name g = stem ++ $".cpp" /\
      g_fun g = $"bind_" ++ map (fun c => if Ascii.eqb c "/" then "_"%char else c) stem /\
      exists b, In b rest /\ has_code b = true /\ b_decl b = d /\ (g_items g = [] \/ exists l, g_items g = b :: l).
Proof.
  induction 1 as [fn en tc|b rest fn en tc gs HC W IH|b rest fn en tc taken later st gs HC F W IH].
  - exists []. split; [reflexivity|]. intros [|i] g d p X; discriminate X.
  - destruct IH as [ps [L X]]. exists ps. split; [exact L|]. intros i g d p G P. destruct (X i g d p G P) as [stem [A [B [C [b' [D [E R]]]]]]].
    exists stem. split; [exact A|]. split; [exact B|]. split; [exact C|]. exists b'. split; [right; exact D|]. exact (conj E R).
  - destruct IH as [ps [L X]]. pose proof (fill_spec _ _ _ _ _ _ _ _ F) as [E _]. exists ((b_decl b, name_prefix w b) :: ps). split; [cbn [length]; rewrite L; reflexivity|].
    intros [|i] g d p G P; cbn [nth_error] in G, P.
    + injection G as <-. injection P as <- <-. exists (file_stem w (name_prefix w b) (count (name_prefix w b) fn)). split; [|split; [|split]].
      * cbn [firstn]. unfold occurrences. cbn [map count_occ]. rewrite Nat.add_0_r. apply stem_numbered.
      * reflexivity.
      * unfold made_file. cbv zeta. cbn [g_fun]. unfold function_name. rewrite replace_slash. reflexivity.
      * exists b. split; [left; reflexivity|]. split; [exact HC|]. split; [reflexivity|]. unfold made_file. cbv zeta. cbn [g_items].
        destruct taken as [|x taken]; [left; reflexivity|]. right. injection E as <- _. exists taken. reflexivity.
    + destruct (X i g d p G P) as [stem [A [B [C [b' [D [R1 R2]]]]]]]. exists stem. split; [|split; [exact B|split; [exact C|]]].
      * cbn [firstn]. unfold occurrences in *. cbn [map snd count_occ]. destruct (str_eq_dec (name_prefix w b) p) as [Y|Y].
        -- subst p. rewrite count_bump in A. rewrite Nat.add_succ_r. exact A.
        -- rewrite count_bump_other in A by (intros Z; apply Y; symmetry; exact Z). exact A.
      * exists b'. split; [rewrite E; apply in_or_app; right; exact D|]. exact (conj R1 R2).
Qed.
(** Every file is named after the header of its first item; the files made for
    the same header are numbered. *)
Theorem C69_file_names : forall w visits o, run w visits = Ok o ->
  exists ps : list (decl * str), length ps = length (out_files o) /\
    forall i g d p, nth_error (out_files o) i = Some g -> nth_error ps i = Some (d, p) -> exists stem,
      numbered w d (count_occ str_eq_dec (map snd (firstn i ps)) p) p stem /\ g_name g = stem ++ $".cpp" /\
      g_fun g = $"bind_" ++ map (fun c => if Ascii.eqb c "/" then "_"%char else c) stem /\
      exists b, In b (out_sorted o) /\ b_code b <> [] /\ b_decl b = d /\ (g_items g = [] \/ exists l, g_items g = b :: l).
Proof.
  intros w visits o H. destruct (run_inv _ _ _ H) as [l [_ [_ [W _]]]]. destruct (wrote_numbered _ _ _ _ _ _ W) as [ps [L X]]. exists ps. split; [exact L|].
  intros i g d p G P. destruct (X i g d p G P) as [stem [A [B [C [b [D [E R]]]]]]]. exists stem. split; [exact A|]. split; [exact B|]. split; [exact C|].
  exists b. split; [exact D|]. split; [apply has_code_iff, E|exact R].
Qed.
Print Assumptions C69_file_names.
Definition named_file (qname include : str) : str := file_name_prefix (fns_w [fn0 (nm $"f" qname include) void []] (mix_options false false 1%N) []) (mkbinder (DFun 0) false false [] [] [] []).
Example C69_case : map g_fun (out_files mix_out) = [$"bind_a"; $"bind_a_1"; $"bind_s"; $"bind_b"] /\
  named_file $"std::f" $"<bits/stl_vector.h>" = $"std/stl_vector" /\ named_file $"f" $"<d/x.fwd.hh>" = $"d/x_fwd" /\ named_file $"f" [] = $"unknown/unknown".
Proof. split; [|split; [|split]]; vm_compute; reflexivity. Qed.
