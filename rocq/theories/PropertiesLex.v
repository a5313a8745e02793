(** Lexical well-formedness of the generated C++ text.  The specification is in
    SpecLex.v. *)
From Coq Require Import Ascii String Bool Arith NArith Lia.
From Coq Require Import List.
From Verif Require Import Str StrFacts Util Config Ast Types Func Enum Includes Class Context SpecTypes SpecBind SpecClass SpecContext SpecIncludes SpecOutput
  TypesFacts BindFacts ClassFacts ContextFacts WriteFacts RunFacts Samples PropertiesContext PropertiesOutput SpecLex LexFacts LexText LexRun LexCheck.
Import ListNotations.

(** ** C78: every literal, comment and bracket of the generated code is closed *)

(** The code of one item. *)
Theorem C78_items : forall w ops d g, const_is_method w -> tidy_settings w -> (forall f, tidy (namespace_from_named_decl w (f_decl (fun_ w f)))) -> tidy_item w d ->
  generate_code w ops d = Ok g -> well_formed (cb_code g) /\ well_formed (cb_prefix g).
Proof.
  intros w ops d g CM TS TN TI H. rewrite !keeps_well_formed. exact (item_code w ops TS TN d _ _ TI (item_spec w ops d g CM H)).
Qed.
Print Assumptions C78_items.

(** The files of a run. *)
Theorem C78_files : forall w visits o, const_is_method w -> tidy_settings w -> tidy_unit w -> run w visits = Ok o -> tidy_run w o ->
  (forall g, In g (out_files o) -> well_formed (g_text g)) /\ well_formed (root_text w (out_namespaces o) (out_files o)) /\ well_formed (single_file_text w o).
Proof.
  intros w visits o CM TS TU H TR. split; [|split].
  - intros g I. apply keeps_well_formed. exact (file_code w visits o g CM TS TU H TR I).
  - apply keeps_well_formed. exact (root_file_code w visits o TS H TR).
  - apply keeps_well_formed. exact (single_code w visits o CM TS TU H TR).
Qed.
Print Assumptions C78_files.

(** What is on disk afterwards. *)
Theorem C78_on_disk : forall mkdir_ok can_open w visits o before_ after_, const_is_method w -> tidy_settings w -> tidy_unit w -> run w visits = Ok o -> tidy_run w o ->
  single_file (wopt w) = false -> write_output mkdir_ok can_open w o before_ = Ok after_ ->
  NoDup ((root_module (wopt w) ++ $".cpp") :: map g_name (out_files o)) ->
  forall name, In name ((root_module (wopt w) ++ $".cpp") :: map g_name (out_files o)) -> well_formed (content after_ (prefix (wopt w) ++ $"/" ++ name)).
Proof.
  intros mkdir_ok can_open w visits o before_ after_ CM TS TU H TR S W N name I.
  destruct (C78_files w visits o CM TS TU H TR) as [A [B _]].
  destruct (C38_files_on_disk mkdir_ok can_open w visits o before_ after_ H S W N) as [X [Y _]].
  destruct I as [<-|I].
  - rewrite app_assoc. rewrite Y. exact B.
  - apply in_map_iff in I. destruct I as [g [<- I]]. rewrite app_assoc. rewrite (X g I). exact (A g I).
Qed.
Print Assumptions C78_on_disk.

(** *** The hypotheses are met *)

(** Class Shape with overriders, constructors and data members; its derived class. *)
Example C78_case_class : const_is_method (sh_w []) /\ tidy_settings (sh_w []) /\ tidy_unit (sh_w []) /\
  (forall r, r < 3 -> tidy_item (sh_w []) (DRec r)) /\
  exists g, generate_code (sh_w []) [] (DRec 1) = Ok g /\ well_formed (cb_code g) /\ well_formed (cb_prefix g) /\ 100 < length (cb_code g) /\ 100 < length (cb_prefix g).
Proof.
  assert (CM : const_is_method (sh_w [])) by (intros f; do 12 (destruct f as [|f]; [vm_compute; intros H; (discriminate H || reflexivity)|]); destruct f; vm_compute; intros H; discriminate H).
  assert (TS : tidy_settings (sh_w [])) by (apply settings_ok_ok; vm_compute; reflexivity).
  assert (TU : tidy_unit (sh_w [])) by (apply (unit_ok_ok _ sh_rs sh_fns [] (fun r => $"class n::" ++ sh_name r) (fun _ => [])); [reflexivity|vm_compute; reflexivity]).
  assert (TI : forall r, r < 3 -> tidy_item (sh_w []) (DRec r)).
  { intros r L. apply (item_ok_ok _ [0; 1; 2]). destruct r as [|[|[|r]]]; [vm_compute; reflexivity|vm_compute; reflexivity|vm_compute; reflexivity|lia]. }
  split; [exact CM|]. split; [exact TS|]. split; [exact TU|]. split; [exact TI|].
  destruct (generate_code (sh_w []) [] (DRec 1)) as [g| | | |] eqn:E; try (vm_compute in E; discriminate E).
  exists g. split; [reflexivity|]. destruct (C78_items (sh_w []) [] (DRec 1) g CM TS (tu_namespace _ TU) (TI 1 ltac:(lia)) E) as [A B].
  split; [exact A|]. split; [exact B|]. vm_compute in E. apply Ok_inj in E. subst g. cbn [cb_code cb_prefix]. split; apply Nat.ltb_lt; vm_compute; reflexivity.
Qed.
(** The mix of functions, classes and enums, with traces. *)
Example C78_case : const_is_method (mix_w true false 300) /\ tidy_settings (mix_w true false 300) /\ tidy_unit (mix_w true false 300) /\
  exists o, run (mix_w true false 300) mix_visits = Ok o /\ tidy_run (mix_w true false 300) o /\ length (out_files o) = 4 /\
    forallb (fun g => Nat.ltb 100 (length (g_text g))) (out_files o) = true.
Proof.
  split; [intros [|[|[|f]]]; vm_compute; intros H; discriminate H|].
  split; [apply settings_ok_ok; vm_compute; reflexivity|].
  split; [apply (unit_ok_ok _ mix_recs [mix_f; mix_g] [mix_e] mix_rname (fun _ => $"enum n::E")); [reflexivity|vm_compute; reflexivity]|].
  destruct (run (mix_w true false 300) mix_visits) as [o| | | |] eqn:E; try (vm_compute in E; discriminate E).
  exists o. split; [reflexivity|]. vm_compute in E. apply Ok_inj in E. subst o.
  split; [apply (run_ok_ok _ [0; 1; 2; 3; 4]); vm_compute; reflexivity|]. split; vm_compute; reflexivity.
Qed.

(** *** Finding: a template argument that is a character *)

(** The class S with a double quote as its template argument: its type is proper C++, but the documentation shows it
    inside a string literal, and the literal ends at the quote. *)
Definition quote_w : world :=
  mkworld (tu [cls (nm $"S" $"S" $"<s.hh>") 0 [] []] [fn0 (nm $"f" $"f" $"<s.hh>") void [mkparam $"s" (TLRef (TRec false 0 [])) false]] []
              (fun _ => $"struct S<'""'>") (fun _ => []))
          default_config (mix_options false false 1000%N).
Theorem C78_character_argument_refuted : exists w f g t,
  const_is_method w /\ tidy_settings w /\ tidy_unit w /\
  map p_type (f_params (fun_ w f)) = [t] /\ (forall s, type_text w t s -> well_formed s) /\ identifier (n_name (f_decl (fun_ w f))) /\
  generate_code w [] (DFun f) = Ok g /\ ~ well_formed (cb_code g).
Proof.
  exists quote_w, 0. destruct (generate_code quote_w [] (DFun 0)) as [g| | | |] eqn:E; try (vm_compute in E; discriminate E).
  exists g, (TLRef (TRec false 0 [])). split; [intros [|[|f]]; vm_compute; intros H; discriminate H|].
  split; [apply settings_ok_ok; vm_compute; reflexivity|].
  split; [apply (unit_ok_ok _ [cls (nm $"S" $"S" $"<s.hh>") 0 [] []] [fn0 (nm $"f" $"f" $"<s.hh>") void [mkparam $"s" (TLRef (TRec false 0 [])) false]] []
                   (fun _ => $"struct S<'""'>") (fun _ => [])); [reflexivity|vm_compute; reflexivity]|].
  split; [reflexivity|]. split.
  { intros s T. pose proof (type_text_unique _ _ _ _ T (standard_type quote_w _)) as E1. rewrite E1. vm_compute. reflexivity. }
  split; [intros c [<-|[]]; left; reflexivity|]. split; [reflexivity|].
  vm_compute in E. apply Ok_inj in E. subst g. vm_compute. intros H. discriminate H.
Qed.
Print Assumptions C78_character_argument_refuted.
