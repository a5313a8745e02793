(** C61, continued: by which name an enum is asked for *)
From Coq Require Import Ascii String Bool Arith NArith.
From Coq Require Import List.
From Verif Require Import Str StrFacts SpecUtil Util Config SpecConfig ConfigFacts Ast Types Func Enum Includes Class Context SpecTypes SpecContext TypesFacts ContextFacts PropertiesConfig PropertiesTypes Samples.
Import ListNotations.

Lemma not_both w ns : namespace_skipped w ns -> ~ namespace_requested w ns.
Proof.
  intros (b&s&B&S&L) (b'&s'&B'&S'&R).
  apply (proj1 (C02_never_both_and_same_conflicts (wcfg w) ns)). split.
  - exact (proj2 (proj1 (C01_binding_requested (wcfg w) ns b' s' B' S')) R).
  - exact (proj2 (proj1 (C01_skipping_requested (wcfg w) ns b s B S)) L).
Qed.
(** An enum of a namespace that is left out is bound on request only if it is
    listed both under its name as written and under its normalised name. *)
Theorem C61_names_needed : forall w e, namespace_skipped w (namespace_from_named_decl w (e_decl e)) ->
  ~ In (std_name w (e_decl e)) (lists (wcfg w) enums_to_skip) ->
  (enum_requested w e /\ ~ enum_skipped w e <->
   In (n_qname (e_decl e)) (lists (wcfg w) enums_to_bind) /\ In (std_name w (e_decl e)) (lists (wcfg w) enums_to_bind)).
Proof.
  intros w e S N. split.
  - intros [R K]. split.
    + destruct R as [R|R]; [exact R|]. destruct (not_both _ _ S R).
    + destruct (in_dec str_eq_dec (std_name w (e_decl e)) (lists (wcfg w) enums_to_bind)) as [X|X]; [exact X|].
      exfalso. apply K. exact (ES_namespace w e N X S).
  - intros [A B]. split; [exact (ER_listed w e A)|]. intros [X|_ X _]; contradiction.
Qed.
Print Assumptions C61_names_needed.

(** The enum std::__1::order is normalised to std::order. *)
Definition order_enum : enum := mkenum (nm $"order" $"std::__1::order" $"<a.hh>") false false false true [] (Some 0).
Definition order_w (asked : list str) : world :=
  mkworld (tu [] [] [order_enum] (fun _ => []) (fun _ => $"enum std::__1::order"))
    (assign_list enums_to_bind asked (assign_list namespaces_to_skip [$"std"] (assign_list namespaces_to_bind [] default_config))) (mix_options false false 1000).
Definition order_bound (asked : list str) : option (list decl) :=
  match run (order_w asked) [DEnum 0] with Ok o => Some (map b_decl (filter has_code (out_sorted o))) | _ => None end.
Example C61_names_case : namespace_skipped (order_w [$"std::__1::order"]) (namespace_from_named_decl (order_w [$"std::__1::order"]) (e_decl order_enum)) /\
  ~ In (std_name (order_w []) (e_decl order_enum)) (lists (wcfg (order_w [])) enums_to_skip) /\
  map order_bound [[$"std::__1::order"]; [$"std::order"]; [$"std::order"; $"std::__1::order"]] = [Some []; Some []; Some [DEnum 0]].
Proof.
  split; [|split; [intros []|vm_compute; reflexivity]].
  exists 0, 3. split; [split; [intros e []|left; reflexivity]|]. split; [|auto].
  split; [intros e [<-|[]] _; apply le_n|]. right. exists $"std". split; [left; reflexivity|]. split; [exists []; vm_compute; reflexivity|reflexivity].
Qed.
(** So no single + line binds such an enum, neither with the one name nor with
    the other. *)
Theorem C61_one_line_refuted : ~ (forall w visits o e, run w visits = Ok o -> In (DEnum e) visits -> enum_bindable w (enum_ w e) = true ->
  n_system (e_decl (enum_ w e)) = false -> lists (wcfg w) enums_to_skip = [] ->
  In (n_qname (e_decl (enum_ w e))) (lists (wcfg w) enums_to_bind) \/ In (std_name w (e_decl (enum_ w e))) (lists (wcfg w) enums_to_bind) ->
  bound o (DEnum e)).
Proof.
  intros K. destruct (run (order_w [$"std::__1::order"]) [DEnum 0]) as [o| | | |] eqn:E; try (vm_compute in E; discriminate E).
  specialize (K _ _ o 0 E (or_introl eq_refl) eq_refl eq_refl eq_refl (or_introl (or_introl eq_refl))).
  destruct K as (b&I&_&Nc). vm_compute in E. apply Ok_inj in E. rewrite <- E in I. destruct I as [<-|[]]. apply Nc. reflexivity.
Qed.
Print Assumptions C61_one_line_refuted.
