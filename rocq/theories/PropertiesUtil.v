(** Properties C13-C23: string helpers and output files. *)
From Coq Require Import Ascii String Bool Arith.
From Coq Require Import List.
From Verif Require Import Str Util SpecUtil StrFacts UtilFacts.
Import ListNotations.

(** C13 *)
Theorem C13_replace_exact : forall s from to, from <> [] -> forall steps, length s < steps ->
  exists r, replace_loop steps s from to 0 = Some r /\ (forall r', leftmost_replaced from to s r' <-> r' = r).
Proof. exact replace_total. Qed.
Print Assumptions C13_replace_exact.
Theorem C13_replace_value : forall s from to, from <> [] ->
  forall r, leftmost_replaced from to s r <-> r = replace s from to.
Proof. exact replace_spec. Qed.
Print Assumptions C13_replace_value.
Theorem C13_replace_empty_diverges : forall s to steps, replace_loop steps s [] to 0 = None.
Proof. exact replace_empty_diverges. Qed.
Print Assumptions C13_replace_empty_diverges.
Example C13_case : replace $"aXbXXc" $"X" $"YX" = $"aYXbYXYXc" /\ $"X" <> [] /\ replace $"aaaa" $"aaa" $"b" = $"ba".
Proof. repeat split; discriminate. Qed.

(** C14 *)
Theorem C14_indent_text : forall code ind,
  indent code ind = concat (map (fun l => (match l with [] => [] | _ => ind ++ l end) ++ [nl]) (split code [nl])).
Proof. exact indent_concat. Qed.
Print Assumptions C14_indent_text.
Theorem C14_indent_lines : forall code ind, ~ In nl ind ->
  split (indent code ind) [nl] = map (fun l => match l with [] => [] | _ => ind ++ l end) (split code [nl]).
Proof. exact indent_lines. Qed.
Print Assumptions C14_indent_lines.
Example C14_case : ~ In nl [tab] /\ indent ($"a" ++ [nl; nl] ++ $"b") [tab] = [tab] ++ $"a" ++ [nl; nl; tab] ++ $"b" ++ [nl].
Proof. split; [intros [H|[]]; discriminate|reflexivity]. Qed.

(** C15 *)
Theorem C15_split_exact : forall c s pieces, pieces_of c s pieces <-> pieces = split s [c].
Proof. exact split_char_iff. Qed.
Print Assumptions C15_split_exact.
Theorem C15_split_join : forall c s, (forall s', s <> s' ++ [c]) -> join [c] (split s [c]) = s.
Proof. exact split_join_char. Qed.
Print Assumptions C15_split_join.
Theorem C15_split_multichar_refuted : exists s sep, length sep = 2 /\
  (exists p, In p (split s sep) /\ In p [$":b"]) /\ join sep (split s sep) <> s.
Proof.
  exists $"a::b", $"::"; split; [reflexivity|split; [exists $":b"; simpl; auto|intros H; vm_compute in H; discriminate]].
Qed.
Print Assumptions C15_split_multichar_refuted.
Example C15_case : split $"a,,b," $"," = [$"a"; []; $"b"] /\ (forall s', $"a,,b" <> s' ++ $",").
Proof.
  split; [reflexivity|]; intros s' H; apply (f_equal (@rev ascii)) in H; rewrite rev_app_distr in H; discriminate.
Qed.

(** C16 *)
Theorem C16_trim_exact : forall s t, trimmed s t <-> t = trim s.
Proof. exact trim_iff. Qed.
Print Assumptions C16_trim_exact.
Theorem C16_trim_idempotent : forall s, trim (trim s) = trim s.
Proof. exact trim_idem. Qed.
Print Assumptions C16_trim_idempotent.
Example C16_case : trim ([tab; sp] ++ $"a b" ++ [sp]) = $"a b" /\ trim [sp; tab] = [].
Proof. split; reflexivity. Qed.

(** C17.  The plain text of a comment is determined by its parts, and
    the generated literal reads back as this text without leading blanks. *)
Theorem C17_documentation_round_trip : forall c t u, comment_reads c t -> without_leading t u ->
  read_literal (documentation_string (Some c)) = Some u.
Proof.
  intros c t u R H. rewrite (comment_reads_unique c t _ R (get_text_comment c)) in H.
  exact (eq_trans (read_escape _) (f_equal Some (without_leading_det _ _ _ (skip_leading_spec _) H))).
Qed.
Print Assumptions C17_documentation_round_trip.
Theorem C17_comment_text : forall c, exists t, comment_reads c t /\ forall t', comment_reads c t' -> t' = t.
Proof. intros c. exists (get_text c 0). split; [apply get_text_comment|]. intros t' H. exact (comment_reads_unique c _ _ H (get_text_comment c)). Qed.
Print Assumptions C17_comment_text.
(** No text of the comment is lost, repeated or reordered. *)
Theorem C17_all_text : forall c t, comment_reads c t ->
  filter (fun x => negb (Ascii.eqb x nl)) t = filter (fun x => negb (Ascii.eqb x nl)) (texts c).
Proof. exact comment_texts. Qed.
Print Assumptions C17_all_text.
Theorem C17_no_comment : documentation_string None = [].
Proof. reflexivity. Qed.
Print Assumptions C17_no_comment.
Definition doc_comment : comment :=
  CNode 1 false [CNode 1 true [CText 1 $" a \b"; CText 1 $" c"; CText 2 ([dq] ++ $"q" ++ [dq]); CText 2 $"r"]; CNode 4 true [CText 4 $"d"; CText 5 $"e"]].
Example C17_case :
  comment_reads doc_comment ([nl; nl] ++ $" a \b c" ++ [nl; dq] ++ $"q" ++ [dq] ++ $"r" ++ [nl; nl] ++ $"d" ++ [nl] ++ $"e") /\
  without_leading ([nl; nl] ++ $" a \b c" ++ [nl; dq] ++ $"q" ++ [dq] ++ $"r" ++ [nl; nl] ++ $"d" ++ [nl] ++ $"e")
                  ($"a \b c" ++ [nl; dq] ++ $"q" ++ [dq] ++ $"r" ++ [nl; nl] ++ $"d" ++ [nl] ++ $"e") /\
  documentation_string (Some doc_comment) = $"a \\b c\n\" ++ [dq] ++ $"q\" ++ [dq] ++ $"r\n\nd\ne".
Proof.
  split; [exact (get_text_comment doc_comment)|]. split; [|reflexivity]; exists [nl; nl; sp]; split; [reflexivity|split].
  - repeat apply Forall_cons; auto.
  - intros c t' E; injection E as <- _; split; discriminate.
Qed.

(** C65 *)
Theorem C65_begins_with : forall s p, begins_with s p = true <-> exists r, s = p ++ r.
Proof. exact begins_iff. Qed.
Print Assumptions C65_begins_with.
Theorem C65_ends_with : forall s p, ends_with s p = true <-> exists r, s = r ++ p.
Proof. exact ends_iff. Qed.
Print Assumptions C65_ends_with.
Example C65_case : ends_with $"a::b" $"a::b" = true /\ ends_with $"b" $"a::b" = false /\ begins_with $"a::b" $"a::" = true.
Proof. auto. Qed.

(** C18 *)
Theorem C18_mangle_charset : forall name mark x, In x (mangle_type_name name mark) -> ~ In x $" <>,:".
Proof. exact mangle_charset. Qed.
Print Assumptions C18_mangle_charset.
Theorem C18_mangle_template_charset : forall name x,
  (In "<" name \/ In ">" name \/ In "," name)%char -> In x (mangle_type_name name true) -> x <> "*"%char /\ x <> "&"%char.
Proof. exact mangle_template_charset. Qed.
Print Assumptions C18_mangle_template_charset.
Theorem C18_mangle_identity : forall name mark, (forall x, In x name -> ~ In x $" <>,:") -> mangle_type_name name mark = name.
Proof. exact mangle_identity. Qed.
Print Assumptions C18_mangle_identity.
(** Apart from the inserted underscores a non-template name keeps its other characters in order. *)
Theorem C18_mangle_keeps_text : forall name,
  filter (fun c => negb (mem [c] (map (fun x => [x]) $" <>,:_"))) (mangle_type_name name false) =
  filter (fun c => negb (mem [c] (map (fun x => [x]) $" <>,:_"))) name.
Proof. exact mangle_keeps. Qed.
Print Assumptions C18_mangle_keeps_text.
Example C18_case : mangle_type_name $"std::map<int *, A &>" true = $"std_map_int__star__A__ref__t"
  /\ (In "<" $"A<int>" \/ In ">" $"A<int>" \/ In "," $"A<int>")%char
  /\ (forall x, In x $"A_b" -> ~ In x $" <>,:").
Proof.
  split; [reflexivity|split; [left; simpl; auto|]].
  intros x Hx Hy; simpl in Hx, Hy; decompose [or] Hx; subst; decompose [or] Hy; try discriminate; contradiction.
Qed.

(** C19 *)
Theorem C19_distinct_names_refuted : exists a b, a <> b /\ mangle_type_name a true = mangle_type_name b true.
Proof. exists $"A<B<C>>", $"A<B, C>"; split; [discriminate|reflexivity]. Qed.
Print Assumptions C19_distinct_names_refuted.
Theorem C19_distinct_plain_names : forall a b,
  (forall x, In x (a ++ b) -> ~ In x $" <>,:") -> mangle_type_name a true = mangle_type_name b true -> a = b.
Proof. exact mangle_inj_plain. Qed.
Print Assumptions C19_distinct_plain_names.

(** C20 *)
Theorem C20_nested_recombines : forall ns, occurs $"::" ns ->
  ns = base_namespace ns ++ $"::" ++ last_namespace ns /\ ~ occurs $"::" (last_namespace ns).
Proof. exact namespace_split. Qed.
Print Assumptions C20_nested_recombines.
Theorem C20_top_level : forall ns, ~ occurs $"::" ns -> base_namespace ns = [] /\ last_namespace ns = ns.
Proof. exact namespace_top. Qed.
Print Assumptions C20_top_level.
Theorem C20_climbing_terminates : forall ns, ns <> [] -> length (base_namespace ns) < length ns.
Proof. exact base_namespace_shorter. Qed.
Print Assumptions C20_climbing_terminates.
Theorem C20_namespace_of_declaration : forall ns n,
  namespace_from_names (ns ++ $"::" ++ n) n = ns /\ namespace_from_names n n = [].
Proof. exact (fun ns n => conj (namespace_from_names_app ns n) (namespace_from_names_self n)). Qed.
Print Assumptions C20_namespace_of_declaration.
Example C20_case : occurs $"::" $"a::b::c" /\ base_namespace $"a::b::c" = $"a::b" /\ last_namespace $"a::b::c" = $"c" /\ ~ occurs $"::" $"abc".
Proof.
  split; [exists 1, $"a", $"b::c"; split; reflexivity|split; [reflexivity|split; [reflexivity|]]].
  intros [i [a [b [H _]]]]; repeat (destruct a as [|? a]; [discriminate|]; injection H as _ H); destruct a; discriminate.
Qed.

(** C21 *)
Theorem C21_bool_words : forall s r, bool_fixed None s r <-> r = fix_boolean_types s.
Proof. exact fix_boolean_spec. Qed.
Print Assumptions C21_bool_words.
Theorem C21_terminates : forall s steps, length s < steps -> exists r, fix_boolean_loop steps s 0 = Some r.
Proof. exact (fun s steps H => match fix_boolean_total s steps H with ex_intro _ r (conj E _) => ex_intro _ r E end). Qed.
Print Assumptions C21_terminates.
Theorem C21_idempotent : forall s, fix_boolean_types (fix_boolean_types s) = fix_boolean_types s.
Proof. exact fix_boolean_idem. Qed.
Print Assumptions C21_idempotent.
Theorem C21_identifiers_kept_refuted : exists s, (forall c, In c s -> is_alnum c = true \/ c = "_"%char) /\
  s <> $"_Bool" /\ fix_boolean_types s <> s.
Proof.
  exists $"my__Bool"; split; [|split; [discriminate|vm_compute; discriminate]].
  intros c Hc; simpl in Hc; decompose [or] Hc; subst; try (left; reflexivity); try (right; reflexivity); contradiction.
Qed.
Print Assumptions C21_identifiers_kept_refuted.
Example C21_case : fix_boolean_types $"A<_Bool, x_Bool, _Bool1, _Bool>" = $"A<bool, x_Bool, _Bool1, bool>".
Proof. reflexivity. Qed.

(** C22 *)
Theorem C22_update_effect : forall mkdir_ok can_open prefix name code f f',
  update_source_file mkdir_ok can_open prefix name code f = Ok f' ->
  content f' (path_of prefix name) = code /\
  (forall q, q <> path_of prefix name -> lookup q (files f') = lookup q (files f)) /\
  (lookup (path_of prefix name) (files f') = None <-> lookup (path_of prefix name) (files f) = None /\ code = []) /\
  (content f (path_of prefix name) = code -> writes f' = writes f /\ files f' = files f) /\
  (content f (path_of prefix name) <> code -> writes f' = writes f ++ [path_of prefix name]).
Proof. exact update_effect. Qed.
Print Assumptions C22_update_effect.
Theorem C22_update_succeeds_iff : forall mkdir_ok can_open prefix name code f,
  (exists f', update_source_file mkdir_ok can_open prefix name code f = Ok f') <->
  name <> [] /\ mkdir_ok (fold_left (fun p d => p ++ $"/" ++ d) (removelast (split name $"/")) prefix) = true /\
  (content f (path_of prefix name) = code \/ can_open (path_of prefix name) = true).
Proof. exact update_ok_iff. Qed.
Print Assumptions C22_update_succeeds_iff.
Theorem C22_rerun_writes_nothing : forall prefix l f,
  Forall (fun x => fst x <> []) l -> NoDup (map fst l) ->
  exists f', update_all (fun _ => true) (fun _ => true) prefix l f = Ok f' /\
             update_all (fun _ => true) (fun _ => true) prefix l f' = Ok f'.
Proof. exact rerun_idle. Qed.
Print Assumptions C22_rerun_writes_nothing.
Example C22_case :
  Forall (fun x : str * str => fst x <> []) [($"a/b.cpp", $"x"); ($"c.cpp", $"y")] /\
  NoDup (map fst [($"a/b.cpp", $"x"); ($"c.cpp", $"y")]) /\
  update_all (fun _ => true) (fun _ => true) $"out" [($"a/b.cpp", $"x"); ($"c.cpp", $"y")] (mkfs [($"out/c.cpp", $"y")] []) =
  Ok (mkfs [($"out/c.cpp", $"y"); ($"out/a/b.cpp", $"x")] [$"out/a/b.cpp"]).
Proof.
  split; [repeat constructor; discriminate|split; [|reflexivity]].
  repeat constructor; simpl; intuition discriminate.
Qed.
(** Without the hypothesis of distinct names the claim is false. *)
Theorem C22_rerun_writes_nothing_needs_distinct_names : exists prefix l f f' f'',
  update_all (fun _ => true) (fun _ => true) prefix l f = Ok f' /\
  update_all (fun _ => true) (fun _ => true) prefix l f' = Ok f'' /\ writes f'' <> writes f'.
Proof.
  exists [], [($"a.cpp", $"x"); ($"a.cpp", $"y")], (mkfs [] []); eexists; eexists; split; [reflexivity|split; [reflexivity|discriminate]].
Qed.
Print Assumptions C22_rerun_writes_nothing_needs_distinct_names.

(** C23 *)
Theorem C23_rerun_repairs : forall prefix l f f',
  Forall (fun x => fst x <> []) l -> NoDup (map fst l) -> interrupted prefix l f f' ->
  exists f2, update_all (fun _ => true) (fun _ => true) prefix l f' = Ok f2 /\
    (forall name code, In (name, code) l -> content f2 (path_of prefix name) = code) /\
    (forall q, (forall name code, In (name, code) l -> q <> path_of prefix name) -> lookup q (files f2) = lookup q (files f)).
Proof. exact rerun_repairs. Qed.
Print Assumptions C23_rerun_repairs.
(** The system-call sequence used to define [interrupted] is the one of the function. *)
Theorem C23_system_calls_adequate : forall prefix name code chunks f, name <> [] -> concat chunks = code ->
  exists f', update_source_file (fun _ => true) (fun _ => true) prefix name code f = Ok f' /\
    let g := fold_left run_op (update_ops prefix name code chunks f) f in
    (forall q, content g q = content f' q) /\ writes g = writes f'.
Proof. exact ops_are_update. Qed.
Print Assumptions C23_system_calls_adequate.
Example C23_case : interrupted $"o" [($"a", $"xyz")] (mkfs [($"o/a", $"old")] []) (mkfs [($"o/a", $"xy")] [$"o/a"]).
Proof.
  exact (I_within $"o" $"a" $"xyz" [] [$"xy"; $"z"] 2 (mkfs [($"o/a", $"old")] []) eq_refl).
Qed.
