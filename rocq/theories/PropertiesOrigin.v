(** C108: where bindings come from *)
From Coq Require Import Ascii String Bool Arith NArith.
From Coq Require Import List.
From Verif Require Import Str StrFacts SpecUtil Util Config SpecConfig ConfigFacts SpecSettings Ast Types Func Enum Includes Class Context SpecTypes TypesFacts SpecBind SpecClass ClassFacts SpecContext ContextFacts SpecRequests SpecStyle SpecOrder SpecMonotone SpecSkips PropertiesTypes RunFacts OrderFacts RequestFacts NamesFacts PropertiesRequests PropertiesMonotone PropertiesContext SpecLeftOut SpecFunctions PropertiesFunctions SpecBoundTypes PropertiesBoundTypes SpecOrigin Samples.
Import ListNotations.

Lemma asked_for_iff w d : n_system (named_of (wenv w) d) = false -> bind_decl w d = Ok true -> asked_for w d.
Proof.
  intros Sy B. split; [exact Sy|]. destruct d as [f|r|e]; cbn [bind_decl] in B.
  - exact (proj1 (C47_requested w _ true B) eq_refl).
  - exact (proj1 (C48_requested w r true B) eq_refl).
  - exact (proj1 (bind_enum_iff w _ true B) eq_refl).
Qed.
(** Whatever is bound is reached from something that the configuration asks for
    and that does not come from a system header. *)
Theorem C108_origin : forall w visits o d, const_is_method w -> run w visits = Ok o -> bound o d ->
  exists d0, asked_for w d0 /\ led_to w visits o d0 d.
Proof.
  intros w visits o d Wf R B. pose proof (bound_collected w visits o d R B) as I. apply In_nth_error in I. destruct I as [i Hi].
  pose proof (proj1 (C77_bound_iff_required _ visits o i d Wf R Hi) B) as Q. revert d B Hi.
  induction Q as [i d' Hd El Sy Bd|i j d' dj t name Hd El Rq IH Hj U An Ni]; intros d B Hi.
  - rewrite Hi in Hd. injection Hd as <-. exists d. split; [exact (asked_for_iff w d Sy Bd)|exact (LT_self w visits o d B)].
  - destruct (IH dj (proj2 (C77_bound_iff_required _ visits o j dj Wf R Hj) Rq) Hj) as (d0&A&L).
    exists d0. split; [exact A|exact (LT_use w visits o d0 dj d t name i L U An Ni Hi B)].
Qed.
Print Assumptions C108_origin.
(** The chain starts with something bound. *)
Theorem C108_start : forall w visits o d0 d, led_to w visits o d0 d -> bound o d0 /\ bound o d.
Proof. intros w visits o d0 d L. induction L as [B|d1 d t name i _ [B _] _ _ _ _ Bd]; split; assumption. Qed.
Print Assumptions C108_start.

Lemma nothing_namespace w ns : asks_nothing w -> ~ namespace_requested w ns.
Proof.
  intros N (b&s&(_&M)&_&D). rewrite (N namespaces_to_bind) in M, D by (cbn [In]; tauto).
  assert (E : b = 0) by (destruct M as [M|(e&[]&_)]; exact M). subst b. destruct D as [D|(_&_&[])]. inversion D.
Qed.
Lemma nothing_listed w k n : asks_nothing w -> In k [functions_to_bind; classes_to_bind] -> ~ listed_in w k n.
Proof. intros N I L. unfold listed_in in L. rewrite (N k) in L by (cbn [In] in *; tauto). exact L. Qed.
Lemma nothing_class w r : asks_nothing w -> ~ class_requested w r.
Proof.
  intros N [n _ L|_ _ Q _]; [|exact (nothing_namespace w _ N Q)]. exact (nothing_listed w classes_to_bind n N ltac:(cbn [In]; tauto) L).
Qed.
(** Without a line that asks for something, nothing is bound. *)
Theorem C108_nothing : forall w visits o d, const_is_method w -> run w visits = Ok o -> asks_nothing w -> ~ bound o d.
Proof.
  intros w visits o d Wf R N B. destruct (C108_origin w visits o d Wf R B) as (d0&(_&A)&_). destruct d0 as [f|r|e].
  - destruct A as [A|[A|[A|(t&_&T)]]].
    + exact (nothing_listed w functions_to_bind _ N ltac:(cbn [In]; tauto) A).
    + exact (nothing_listed w functions_to_bind _ N ltac:(cbn [In]; tauto) A).
    + exact (nothing_namespace w _ N A).
    + apply type_requested_iff in T. destruct T as (r&_&C). exact (nothing_class w r N C).
  - exact (nothing_class w r N A).
  - destruct A as [A|A]; [|exact (nothing_namespace w _ N A)]. rewrite (N enums_to_bind) in A by (cbn [In]; tauto). exact A.
Qed.
Print Assumptions C108_nothing.

(** The system class of the sample is reached from another declaration. *)
Example C108_case : exists o d0, const_is_method (mix_w true false 300) /\ run (mix_w true false 300) mix_visits = Ok o /\ bound o (DRec 2) /\
  asked_for (mix_w true false 300) d0 /\ led_to (mix_w true false 300) mix_visits o d0 (DRec 2) /\ d0 <> DRec 2.
Proof.
  destruct C107_case as (Wf&o&R&_&Sy&_&B&_). destruct (C108_origin (mix_w true false 300) mix_visits o (DRec 2) Wf R B) as (d0&A&L).
  exists o, d0. split; [exact Wf|split; [exact R|split; [exact B|split; [exact A|split; [exact L|]]]]].
  intros E. rewrite E in A. exact (diff_true_false (eq_trans (eq_sym Sy) (proj1 A))).
Qed.
(** A configuration that only leaves things out, with the declarations of the
    sample: the run ends normally and binds nothing. *)
Definition quiet_w : world := mkworld mix_env (case_config [] ($"-class n::K" ++ [nl] ++ $"-namespace m" ++ [nl])) (mix_options true false 300).
Example C108_nothing_case : const_is_method quiet_w /\ asks_nothing quiet_w /\ length (collected_items quiet_w mix_visits) = 8 /\
  exists o, run quiet_w mix_visits = Ok o.
Proof.
  split; [|split; [|split; [vm_compute; reflexivity|]]].
  - intros f; do 2 (destruct f as [|f]; [intros K; vm_compute in K; discriminate K|]); destruct f; intros K; vm_compute in K; discriminate K.
  - intros k I. cbn [In] in I. repeat (destruct I as [<-|I]; [vm_compute; reflexivity|]). destruct I.
  - destruct (run quiet_w mix_visits) as [o| | | |] eqn:R; [exists o; reflexivity|vm_compute in R; discriminate R..].
Qed.
