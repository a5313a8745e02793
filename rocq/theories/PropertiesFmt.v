(** C86: names are put into the generated text as they are, and no format
    string of the sources fails. *)
From Coq Require Import Ascii String Bool Arith NArith Lia.
From Coq Require Import List.
From Verif Require Import Str StrFacts Util Config Ast Types Func Enum Includes Class Context ContextFacts Fmt SpecFmt FmtFacts FmtStrings FmtTexts Formatted.
Import ListNotations.

(** The library gives exactly the text the pieces stand for, whatever the
    arguments contain, if there are enough arguments and the two ways to refer to
    them are not mixed, *)
Theorem C86_exactly : forall ps args t, (N.of_nat (length args) <= 2147483647)%N ->
  format (format_string ps) args = Ok t <-> uniform ps /\ filled args 0 ps = Some t.
Proof. intros ps args t L. rewrite format_scan, scan_pieces. apply run_start, L. Qed.
Print Assumptions C86_exactly.

(** and otherwise throws an exception. *)
Theorem C86_otherwise : forall ps args, (N.of_nat (length args) <= 2147483647)%N -> ~ uniform ps \/ filled args 0 ps = None ->
  exists m, format (format_string ps) args = Throw m.
Proof.
  intros ps args L H. rewrite format_scan, scan_pieces. destruct (run_outcome args ps (Automatic 0)) as [[t R]|X]; [|exact X].
  apply (run_start args ps L) in R. destruct R as [U F], H as [H|H]; [destruct (H U)|congruence].
Qed.
Print Assumptions C86_otherwise.

(** A text that is not made of such pieces is never accepted. *)
Theorem C86_only_pieces : forall s args t, format s args = Ok t -> exists ps, s = format_string ps.
Proof. intros s args t H. rewrite format_scan in H. exact (scan_inv args (length s) s (le_n _) _ t H). Qed.
Print Assumptions C86_only_pieces.

(** The loop for short texts and the loop for long texts agree, on every text, and both end. *)
Theorem C86_two_loops : forall s args st, short_loop (length s) args [] s st = long_loop (length s) args s st /\ long_loop (length s) args s st <> Diverges.
Proof.
  intros s args st. rewrite long_scan by apply le_n. split; [apply scan_fuel, le_n|apply (scan_ends args (length s) s (le_n _))].
Qed.
Print Assumptions C86_two_loops.

Lemma concat_r_ok {A} (f : A -> result str) (g : A -> str) (l : list A) : (forall x, f x = Ok (g x)) -> concat_r (map f l) = Ok (concat (map g l)).
Proof. intros H. induction l as [|x l IH]; [reflexivity|]. cbn. rewrite H, IH. reflexivity. Qed.

Local Opaque standard_name standard_name_q class_qualified_name function_arguments fun_specialization bound_name function_arguments_for_lambda lambda_return_type
  fix_boolean_types return_policy documentation_string python_function_name namespace_from_named_decl is_module_local_requested
  function_arguments_for_py_overload callback_structure_name is_custom_trampoline_function_requested indent exception_specification python_class_name
  is_smart_holder_requested base_namespace last_namespace includes_code generate_include_directives dec contains_char begins_with substr strip_anonymous is_field_assignable.

(** All the texts of the generated code are what the format strings of the
    sources give; in particular formatting never fails.  Functions, *)
Theorem C86_functions : forall w F,
  function_pointer_type_f w F = Ok (function_pointer_type w F) /\
  (forall n parent always, function_expression_f w F n parent always = Ok (fst (function_expression w F n parent always))) /\
  (forall n request parent always s q, bind_overload w F n request parent always = Ok (s, q) -> bind_overload_f w F n parent always = Ok s).
Proof.
  intros w F.
  assert (P : function_pointer_type_f w F = Ok (function_pointer_type w F)).
  { unfold function_pointer_type_f, function_pointer_type. rewrite text_pointer. cbn [bind_r]. rewrite <- ?app_assoc. reflexivity. }
  assert (X : forall n parent always, function_expression_f w F n parent always = Ok (fst (function_expression w F n parent always))).
  { intros n parent always. unfold function_expression_f, function_expression. destruct (_ && _).
    - rewrite P. cbn [bind_r fst]. rewrite text_function. reflexivity.
    - destruct (function_arguments_for_lambda w F n) as [typed names]. cbn [fst]. destruct (_ && _).
      + rewrite text_lambda_member. rewrite <- ?app_assoc. reflexivity.
      + rewrite text_lambda. reflexivity. }
  split; [exact P|split; [exact X|]].
  intros n request parent always s q H. unfold bind_overload in H. unfold bind_overload_f. rewrite X. cbn [bind_r].
  destruct (function_expression w F n parent always) as [fe doc]. cbn [fst snd]. apply ok_bind in H. destruct H as (reqs&_&H). injection H as <- _.
  rewrite text_def. cbn [bind_r]. rewrite (concat_r_ok _ (fun p => $", pybind11::arg(" ++ [dq] ++ p_name p ++ [dq] ++ $")")) by (intros p; rewrite text_arg; reflexivity).
  cbn [bind_r]. unfold py_args. rewrite <- ?app_assoc. reflexivity.
Qed.
Print Assumptions C86_functions.

(** enums, *)
Theorem C86_enums : forall w module e, bind_enum_f w module e = bind_enum w module e.
Proof.
  intros w module e. unfold bind_enum_f, bind_enum. destruct (is_module_local_requested _ _) as [local| | | |]; cbn [bind_r]; try reflexivity.
  rewrite text_enum. cbn [bind_r]. rewrite (concat_r_ok _ enum_value) by (intros v; rewrite text_enum_value; reflexivity). cbn [bind_r].
  rewrite <- ?app_assoc. reflexivity.
Qed.
Print Assumptions C86_enums.

(** Names and other parts become variables before the texts are compared. *)
Local Ltac parts :=
  repeat match goal with
         | |- context [?a ++ _] =>
             lazymatch a with
             | list_ascii_of_string _ => fail
             | _ :: _ => fail
             | [] => fail
             | _ ++ _ => fail
             | _ => tryif is_var a then fail else (generalize a; intro)
             end
         end; vm_compute; reflexivity.
Lemma body_call_back a b c d : format fs_call_back [a; b; c; d] = Ok (call_back_body a b c d).
Proof. vm_compute. reflexivity. Qed.
Lemma member_formatted (w : world) (r : nat) : (forall f c, bind_data_member_f w f c = Ok (bind_data_member w f c)).
Proof.
  intros f c. unfold bind_data_member_f, bind_data_member. destruct (_ || _); [rewrite text_readonly|rewrite text_readwrite]; parts.
Qed.
Lemma overrider_formatted (w : world) (r : nat) : (forall m c k, overrider_text_f w r m c k = Ok (overrider_text w r m c k)).
Proof.
  intros m c k. unfold overrider_text_f, overrider_text. destruct (function_arguments_for_py_overload w (fun_ w m)) as [typed names].
  generalize (is_custom_trampoline_function_requested (wcfg w)
    ((match namespace_from_named_decl w (r_decl (rec_ w r)) with [] => [] | _ => namespace_from_named_decl w (r_decl (rec_ w r)) ++ $"::" end)
     ++ n_name (r_decl (rec_ w r)) ++ $"::" ++ n_name (f_decl (fun_ w m)))).
  intros custom. generalize (fix_boolean_types (standard_name_q w (f_ret (fun_ w m)))) (callback_structure_name w r) (python_function_name (fun_ w m))
    (n_name (r_decl (rec_ w r))) (n_name (f_decl (fun_ w m))) (if f_const (fun_ w m) then $" const" else []) (exception_specification (f_est (fun_ w m))) (f_pure (fun_ w m)).
  intros rt structure python_name cn mn cst spec pure. clear. destruct (contains_char "," rt).
  - generalize (if begins_with rt $"class " then substr rt 6 (length rt) else rt) ($"_binder_ret_" ++ dec k). intros rt1 a.
    rewrite text_alias. cbn [bind_r]. rewrite text_overrider. cbn [bind_r]. destruct custom as [|x xs].
    + rewrite body_call_back. cbn [bind_r]. generalize (indent (call_back_body c python_name names a) [tab; tab]). intros body.
      destruct pure; [rewrite text_pure_call|rewrite text_base_call]; cbn [bind_r]; rewrite <- ?app_assoc; reflexivity.
    + rewrite text_custom_call. cbn [bind_r]. generalize (x :: xs). intros cu.
      destruct names as [|y ys]; [|generalize (y :: ys); intros ns; rewrite text_custom_args]; cbn [bind_r]; rewrite <- ?app_assoc; vm_compute; reflexivity.
  - cbn [bind_r]. rewrite text_overrider. cbn [bind_r]. destruct custom as [|x xs].
    + rewrite body_call_back. cbn [bind_r]. generalize (indent (call_back_body c python_name names rt) [tab; tab]). intros body.
      destruct pure; [rewrite text_pure_call|rewrite text_base_call]; cbn [bind_r]; rewrite <- ?app_assoc; reflexivity.
    + rewrite text_custom_call. cbn [bind_r]. generalize (x :: xs). intros cu.
      destruct names as [|y ys]; [|generalize (y :: ys); intros ns; rewrite text_custom_args]; cbn [bind_r]; rewrite <- ?app_assoc; vm_compute; reflexivity.
Qed.
Lemma head_formatted (w : world) (r : nat) : (forall hold tramp bases var extra, class_head_f w r hold tramp bases var extra = Ok (class_head w r hold tramp bases var extra)).
Proof.
  intros hold tramp bases var extra. unfold class_head_f, class_head. destruct (is_smart_holder_requested _ _); [rewrite text_caster|]; cbn [bind_r];
    rewrite text_class_; cbn [bind_r]; rewrite <- ?app_assoc; parts.
Qed.
Lemma bases_formatted (w : world) (r : nat) : (forall l, bases_text_f w l = Ok (concat (map (fun R => $", " ++ class_qualified_name w R) l))).
Proof.
  intros l. apply concat_r_ok. intros x. apply text_base_class.
Qed.
Lemma ctor_formatted (w : world) (r : nat) : (forall ci T n request s q, bind_ctor_overload w ci T n request = Ok (s, q) -> exists t, bind_ctor_overload_f w ci T n = Ok t /\ s = annotation w T true ++ t).
Proof.
  intros ci T n request s q H. unfold bind_ctor_overload in H. unfold bind_ctor_overload_f. destruct (_ && _).
  + apply ok_bind in H. destruct H as (reqs&_&H). injection H as <- _. rewrite text_init. cbn [bind_r].
    rewrite (concat_r_ok _ (fun p => $", pybind11::arg(" ++ [dq] ++ p_name p ++ [dq] ++ $")")) by (intros p; rewrite text_ctor_arg; reflexivity). cbn [bind_r].
    eexists. split; [reflexivity|]. unfold py_args. rewrite <- ?app_assoc. parts.
  + destruct (function_arguments_for_lambda w T n) as [typed names].
    apply (f_equal (fun x => match x with Ok p => fst p | _ => [] end)) in H. cbn [fst] in H. rewrite <- H. clear H.
    rewrite (concat_r_ok _ (fun p => $", pybind11::arg(" ++ [dq] ++ p_name p ++ [dq] ++ $")")) by (intros p; rewrite text_ctor_arg2; reflexivity). cbn [bind_r].
    destruct (r_abstract _); [|destruct (ci_trampoline ci)]; [rewrite text_ctor_abstract|rewrite text_ctor_trampoline|rewrite text_ctor_plain];
      eexists; (split; [reflexivity|]); unfold py_args; cbv beta zeta; rewrite <- ?app_assoc; parts.
Qed.
Lemma default_formatted (w : world) (r : nat) : (forall ci T, exists t a, bind_default_constructor_f w ci = Ok t /\ bind_default_constructor w ci T = a ++ t).
Proof.
  intros ci T. unfold bind_default_constructor_f, bind_default_constructor.
  destruct (r_abstract _); [|destruct (ci_trampoline ci)]; [rewrite text_default_abstract|rewrite text_default_trampoline|rewrite text_default_plain];
    eexists _, _; (split; [reflexivity|]); cbv beta zeta; f_equal; rewrite <- ?app_assoc; parts.
Qed.
Lemma copy_formatted (w : world) (r : nat) : (forall ci T, exists t, bind_copy_constructor_f w ci T = Ok t /\ bind_copy_constructor w ci T = annotation w T true ++ t).
Proof.
  intros ci T. unfold bind_copy_constructor_f, bind_copy_constructor. destruct (ci_trampoline ci); [destruct (r_abstract _)|].
  + rewrite text_copy_abstract. eexists. split; [reflexivity|]. rewrite <- ?app_assoc. parts.
  + rewrite text_copy_trampoline. cbn [bind_r]. destruct (is_public _); [rewrite text_copy_class|]; cbn [bind_r]; eexists; (split; [reflexivity|]); cbv beta zeta; rewrite <- ?app_assoc; parts.
  + rewrite text_copy_plain. eexists. split; [reflexivity|]. rewrite <- ?app_assoc. parts.
Qed.
Lemma str_formatted (w : world) (r : nat) : (forall ops s q, bind_repr w ops r = (s, q) -> s <> [] ->
     exists f, global_insertion_operator w ops r = Some f /\ str_text_f (class_qualified_name w r) (namespace_from_named_decl w (f_decl (fun_ w f))) = Ok s).
Proof.
  intros ops s q H N. unfold bind_repr in H. cbv zeta in H. destruct (_ || _); [injection H as <- _; congruence|].
  destruct (global_insertion_operator w ops r) as [f|]; [|injection H as <- _; congruence].
  apply (f_equal fst) in H. cbn [fst] in H. rewrite <- H. clear H N. exists f. split; [reflexivity|].
  unfold str_text_f. destruct (namespace_from_named_decl w (f_decl (fun_ w f))) as [|y ys]; [|rewrite text_using_namespace]; cbn [bind_r]; rewrite text_str_function; rewrite <- ?app_assoc; parts.
Qed.
Lemma prefix_formatted (w : world) (r : nat) : (forall s q, generate_prefix_code w r = Ok (s, q) ->
     exists h body, structure_head_f w r = Ok h /\ s = generate_comment_for_declaration w (r_decl (rec_ w r)) ++ h ++ body ++ $"};" ++ [nl; nl]).
Proof.
  intros s q H. unfold generate_prefix_code in H. apply ok_bind in H. destruct H as ([os st]&_&H).
  apply (f_equal (fun x => match x with Ok p => fst p | _ => [] end)) in H. cbn [fst] in H. rewrite <- H. clear H.
  unfold structure_head_f. rewrite text_structure. eexists _, (concat (map o_text os)). split; [reflexivity|]. rewrite <- ?app_assoc. parts.
Qed.
Lemma holder_formatted (w : world) (r : nat) : (forall holder name, smart_holder_f holder name = Ok ($", " ++ holder ++ $"<" ++ name ++ $">")).
Proof.
  intros h n. apply text_holder.
Qed.
(** classes, *)
Theorem C86_classes : forall w r,
  (forall f c, bind_data_member_f w f c = Ok (bind_data_member w f c)) /\
  (forall m c k, overrider_text_f w r m c k = Ok (overrider_text w r m c k)) /\
  (forall hold tramp bases var extra, class_head_f w r hold tramp bases var extra = Ok (class_head w r hold tramp bases var extra)) /\
  (forall l, bases_text_f w l = Ok (concat (map (fun R => $", " ++ class_qualified_name w R) l))) /\
  (forall ci T n request s q, bind_ctor_overload w ci T n request = Ok (s, q) -> exists t, bind_ctor_overload_f w ci T n = Ok t /\ s = annotation w T true ++ t) /\
  (forall ci T, exists t a, bind_default_constructor_f w ci = Ok t /\ bind_default_constructor w ci T = a ++ t) /\
  (forall ci T, exists t, bind_copy_constructor_f w ci T = Ok t /\ bind_copy_constructor w ci T = annotation w T true ++ t) /\
  (forall ops s q, bind_repr w ops r = (s, q) -> s <> [] ->
     exists f, global_insertion_operator w ops r = Some f /\ str_text_f (class_qualified_name w r) (namespace_from_named_decl w (f_decl (fun_ w f))) = Ok s) /\
  (forall s q, generate_prefix_code w r = Ok (s, q) ->
     exists h body, structure_head_f w r = Ok h /\ s = generate_comment_for_declaration w (r_decl (rec_ w r)) ++ h ++ body ++ $"};" ++ [nl; nl]) /\
  (forall holder name, smart_holder_f holder name = Ok ($", " ++ holder ++ $"<" ++ name ++ $">")).
Proof.
  intros w r. exact (conj (member_formatted w r) (conj (overrider_formatted w r) (conj (head_formatted w r) (conj (bases_formatted w r) (conj (ctor_formatted w r) (conj (default_formatted w r) (conj (copy_formatted w r) (conj (str_formatted w r) (conj (prefix_formatted w r) (holder_formatted w r)))))))))).
Qed.
Print Assumptions C86_classes.

(** and files. *)
Theorem C86_files : forall w,
  (forall namespaces files, root_text_f w namespaces files = Ok (root_text w namespaces files)) /\
  (forall fname st, file_text_f w fname st = Ok (file_text w fname st)) /\
  (forall f ns, format fs_namespace_binder [f; ns] = Ok (namespace_call f ns) /\ format fs_namespace_add_on [f; ns] = Ok (namespace_call f ns)) /\
  (forall b, format fs_add_on [b] = Ok ([nl; tab] ++ b ++ $"(cl);" ++ [nl])).
Proof.
  intros w. repeat match goal with |- _ /\ _ => split end.
  - intros namespaces files. unfold root_text_f, root_text, main_module_text. rewrite (concat_r_ok _ namespace_pair).
    + cbn [bind_r]. rewrite text_main_module. rewrite <- ?app_assoc. parts.
    + intros [|c n]; [reflexivity|]. unfold namespace_pair_f, namespace_pair. rewrite text_namespace_pair. reflexivity.
  - intros fname st. unfold file_text_f, file_text, module_header_text. rewrite text_module_header. cbn [bind_r]. rewrite <- ?app_assoc. parts.
  - intros f ns. rewrite text_namespace_binder, text_namespace_add_on. split; reflexivity.
  - intros b. rewrite text_add_on. reflexivity.
Qed.
Print Assumptions C86_files.

(** Arguments that look like fields; a short and a long text; fields by number; texts that are refused. *)
Example C86_case :
  format (format_string [Copy $"f("; Next; Copy $") { "; Next; Copy $" }"]) [$"std::array<int, {}>"; $"{0}"] = Ok $"f(std::array<int, {}>) { {0} }" /\
  uniform [Copy $"f("; Next; Copy $") { "; Next; Copy $" }"] /\
  filled [$"std::array<int, {}>"; $"{0}"] 0 [Copy $"f("; Next; Copy $") { "; Next; Copy $" }"] = Some $"f(std::array<int, {}>) { {0} }" /\
  fs_ctor_plain = format_string [Copy [tab]; Copy $"cl.def( pybind11::init( []("; Number 0; Copy $"){ return new "; Number 2; Copy $"("; Number 1; Copy $"); } ), ""doc"" "; Number 3; Copy $");"] /\
  31 < length fs_ctor_plain /\ length fs_pointer < 32 /\
  format $"{} {0}" [$"a"] = Throw $"cannot switch from automatic to manual argument indexing" /\
  format $"{} {}" [$"a"] = Throw $"argument not found" /\
  format $"a } b" [] = Throw $"unmatched '}' in format string".
Proof.
  split; [vm_compute; reflexivity|]. split; [right; intros n H; cbn in H; intuition discriminate|]. split; [vm_compute; reflexivity|].
  split; [vm_compute; reflexivity|]. split; [apply Nat.ltb_lt; vm_compute; reflexivity|]. split; [apply Nat.ltb_lt; vm_compute; reflexivity|]. repeat split; vm_compute; reflexivity.
Qed.
