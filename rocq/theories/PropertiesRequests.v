(** C77: the types a class needs, and what is bound, by the declarations alone. *)
From Coq Require Import Ascii String Bool Arith NArith Lia.
From Coq Require Import List.
From Verif Require Import Str StrFacts Util Config Ast Types Func Enum Includes Class Context SpecTypes SpecBind BindFacts SpecClass ClassFacts SpecContext ContextFacts SortFacts RunFacts SpecOrder OrderFacts SpecRequests RequestFacts Samples.
Import ListNotations.

(** The code of a declaration asks for exactly the classes and enums found in
    the types it needs. *)
Theorem C77_requests : forall w ops d g, const_is_method w -> generate_code w ops d = Ok g ->
  forall name, In name (cb_req g) <-> exists t, uses w d t /\ announces w t name.
Proof. exact generated_asked. Qed.
Print Assumptions C77_requests.

(** What is bound: what the configuration asks for and what that needs. *)
Theorem C77_bound_iff_required : forall w visits o i d, const_is_method w -> run w visits = Ok o -> nth_error (collected_items w visits) i = Some d ->
  (bound o d <-> required w (collected_items w visits) i).
Proof.
  intros w visits o i d Wf H Hd. rewrite (bound_iff _ _ _ _ _ H Hd). apply needed_required; [exact Wf|].
  destruct (run_inv _ _ _ H) as [l [E _]]. intros j dj N Hj.
  exact (proj2 (proj1 (bind_all_succeeds_iff w visits) (ex_intro _ (l, out_log o) E)) j dj N Hj).
Qed.
Print Assumptions C77_bound_iff_required.

(** Class n::C: derived from B, with the constructors C(P &) and C(V &, ...),
    the method M * f(A), the data member v of class F and the member class N
    with a method g(Q &).  All other classes come from a system header. *)
Definition rq_name (r : nat) : str := nth r [$"C"; $"B"; $"P"; $"V"; $"M"; $"A"; $"F"; $"C::N"; $"Q"] [].
Definition rq_ref (r : nat) : qty := TLRef (TRec false r []).
Definition rq_mem (r : nat) (name : str) : named := member_of r Public (nm name ($"n::" ++ rq_name r ++ $"::" ++ name) $"<c.hh>").
Definition variadic_of (F : fn) : fn :=
  mkfn (f_decl F) (f_ret F) (f_params F) (f_method F) (f_static F) (f_const F) (f_virtual F) (f_pure F) (f_final F) true (f_deleted F)
       (f_operator F) (f_conversion F) (f_dtor F) (f_ctor F) (f_kind F) (f_targs F) (f_est F) (f_copy_assign F).
Definition rq_fns : list fn := [
  ctor_of (rq_mem 0 $"C") [mkparam $"p" (rq_ref 2) false] (mkctor false None false) false;
  variadic_of (ctor_of (rq_mem 0 $"C") [mkparam $"v" (rq_ref 3) false] (mkctor false None false) false);
  meth (rq_mem 0 $"f") (TPtr false (TRec false 4 [])) [mkparam $"a" (TRec false 5 []) false] false false false false;
  meth (rq_mem 7 $"g") void [mkparam $"q" (rq_ref 8) false] false false false false].
Definition rq_field : field := mkfield (rq_mem 0 $"v") (TRec false 6 []) false.
Definition rq_system (r : nat) : record := mix_cls (rq_name r) ($"n::" ++ rq_name r) $"<sys.hh>" true r [] [].
Definition rq_rs : list record := [
  cls (nm $"C" $"n::C" $"<c.hh>") 0 [mkbase Public false (TRec false 1 [])] [MMethod 0; MMethod 1; MMethod 2; MField rq_field; MRec 7];
  rq_system 1; rq_system 2; rq_system 3; rq_system 4; rq_system 5; rq_system 6;
  cls (member_of 0 Public (nm $"N" $"n::C::N" $"<c.hh>")) 7 [] [MMethod 3]; rq_system 8].
Definition rq_w : world :=
  mkworld (tu rq_rs rq_fns [] (fun r => $"class n::" ++ rq_name r) (fun _ => [])) (assign_list namespaces_to_bind [ $"n" ] default_config) (mix_options false false 1000%N).
Definition rq_visits : list decl := map DRec [0; 1; 2; 3; 4; 5; 6; 8].
Example C77_case : const_is_method rq_w /\
  (exists g, generate_code rq_w [] (DRec 0) = Ok g /\ cb_req g = map (fun r => $"class n::" ++ rq_name r) [1; 2; 4; 5; 8]) /\
  (exists o, run rq_w rq_visits = Ok o /\ out_log o = [0; 1; 2; 4; 5; 7] /\ collected_items rq_w rq_visits = rq_visits).
Proof.
  split; [|split].
  - intros f. do 4 (destruct f as [|f]; [intros _; reflexivity|]). destruct f; cbn; discriminate.
  - destruct (generate_code rq_w [] (DRec 0)) as [g| | | |] eqn:E; try (vm_compute in E; discriminate E). exists g. split; [reflexivity|].
    vm_compute in E. apply Ok_inj in E. subst g. vm_compute. reflexivity.
  - destruct (run rq_w rq_visits) as [o| | | |] eqn:E; try (vm_compute in E; discriminate E). exists o. split; [reflexivity|].
    vm_compute in E. apply Ok_inj in E. subst o. vm_compute. split; reflexivity.
Qed.

(** The type of a data member is not requested, though Python code that reads
    the member needs it. *)
Theorem C77_fields_refuted : ~ forall w ops r g fs f name, generate_code w ops (DRec r) = Ok g -> exposed w (rec_ w r) fs -> In f fs ->
  announces w (fd_type f) name -> In name (cb_req g).
Proof.
  intros H. destruct (generate_code rq_w [] (DRec 0)) as [g| | | |] eqn:E; try (vm_compute in E; discriminate E).
  assert (I : In $"class n::F" (cb_req g)).
  { apply (H rq_w [] 0 g [rq_field] rq_field $"class n::F" E); [|left; reflexivity|].
    - exists [], [rq_field]. split; [reflexivity|]. split; [constructor|]. apply SEL_taken; [|constructor]. split; [|split].
      + intros X. apply field_skip_iff in X. vm_compute in X. discriminate.
      + reflexivity.
      + apply exposable_iff. vm_compute. reflexivity.
    - apply (request_type_iff rq_w (TRec false 6 []) [ $"class n::F" ]); [vm_compute; reflexivity|left; reflexivity]. }
  vm_compute in E. apply Ok_inj in E. subst g. vm_compute in I. repeat (destruct I as [I|I]; [discriminate I|]). exact I.
Qed.
Print Assumptions C77_fields_refuted.
(** The parameter types of a constructor with an ellipsis are not requested,
    though Python can call it. *)
Theorem C77_ellipsis_refuted : ~ forall w ops r g m p name, generate_code w ops (DRec r) = Ok g -> constructible w r -> callable_constructor w r m ->
  In p (f_params (fun_ w m)) -> announces w (p_type p) name -> In name (cb_req g).
Proof.
  intros H. destruct (generate_code rq_w [] (DRec 0)) as [g| | | |] eqn:E; try (vm_compute in E; discriminate E).
  assert (I : In $"class n::V" (cb_req g)).
  { apply (H rq_w [] 0 g 1 (mkparam $"v" (rq_ref 3) false) $"class n::V" E).
    - split; [reflexivity|left; reflexivity].
    - left. split; [right; left; reflexivity|]. split.
      + apply (ctor_ok_iff rq_w 1 true); [vm_compute; reflexivity|reflexivity].
      + intros const [k [A B]]. injection A as <-. discriminate B.
    - left. reflexivity.
    - apply (request_type_iff rq_w (rq_ref 3) [ $"class n::V" ]); [vm_compute; reflexivity|left; reflexivity]. }
  vm_compute in E. apply Ok_inj in E. subst g. vm_compute in I. repeat (destruct I as [I|I]; [discriminate I|]). exact I.
Qed.
Print Assumptions C77_ellipsis_refuted.
