(** C97: directives about things that are not in the program change nothing. *)
From Coq Require Import Ascii String Bool Arith NArith.
From Coq Require Import List.
From Verif Require Import Str StrFacts SpecUtil UtilFacts Util Config SpecConfig ConfigFacts Ast Types Func Includes Class Context SpecContext ContextFacts SpecSettings SpecAbsent AbsentFacts AbsentRead Samples Program.
Import ListNotations.

(** Settings that differ only in names and keys that nothing in the program
    has give the same output, or fail alike. *)
Theorem C97_same_output : forall e o c c' visits, same_for_program (mkworld e c o) c c' ->
  run (mkworld e c' o) visits = run (mkworld e c o) visits.
Proof. intros e o c c' visits H. exact (l_run e o c c' H visits). Qed.
Print Assumptions C97_same_output.

(** One line more in the config file, about nothing in the program. *)
Theorem C97_line : forall e o c0 visits c bind skip file text text' before line after b token arg k,
  pieces_of nl text (before ++ after) -> pieces_of nl text' (before ++ line :: after) ->
  says line b token arg -> In (token, k) directives -> accepted k b arg -> idle (mkworld e c0 o) k b arg ->
  same_outcome (fun c1 c1' => run (mkworld e c1' o) visits = run (mkworld e c1 o) visits)
    (setup c bind skip file (Some text)) (setup c bind skip file (Some text')).
Proof.
  intros e o c0 visits c bind skip file text text' before line after b token arg k P P' Sy D A N.
  pose proof (same_setup (mkworld e c0 o) bind skip file before line after text text' b token arg k P P' Sy D A N c c (same_refl _ c)) as K.
  destruct (setup c bind skip file (Some text)) as [c1| | | |], (setup c bind skip file (Some text')) as [c1'| | | |]; cbn [same_outcome] in *; try contradiction; try exact K.
  apply C97_same_output. exact (same_cfg e o c0 c1 c1 c1' K).
Qed.
Print Assumptions C97_line.

(** The whole program: several source files, the files written, the failures. *)
Definition with_config_text (t : option str) (i : invocation) : invocation :=
  mkinvocation (i_options i) (i_bind i) (i_skip i) (i_config i) t (i_mkdir_ok i) (i_can_open i).
Definition left_behind (d : done) : source * output * fs := (d_source d, d_output d, d_disk d).


Section Files.
Variables (i : invocation) (text text' : str) (before : list str) (line : str) (after : list str) (b : bool) (token arg : str) (k : kind).
Hypotheses (P : pieces_of nl text (before ++ after)) (P' : pieces_of nl text' (before ++ line :: after))
  (Sy : says line b token arg) (D : In (token, k) directives) (A : accepted k b arg).
Notation I := (with_config_text (Some text) i).
Notation I' := (with_config_text (Some text') i).
Notation W s := (mkworld (so_env s) default_config (i_options i)).

Lemma process_absent s c c' f : idle (W s) k b arg -> same_for_program (W s) c c' ->
  match process I s c f, process I' s c' f with
  | Ok d, Ok d' => left_behind d' = left_behind d /\
      forall s', idle (W s') k b arg -> same_for_program (W s') c c' -> same_for_program (W s') (d_config d) (d_config d')
  | Ok _, _ | _, Ok _ => False
  | x, y => x = y
  end.
Proof.
  intros N H. pose proof (fun w => same_setup w (i_bind i) (i_skip i) (i_config i) before line after text text' b token arg k P P' Sy D A) as K.
  unfold process, with_config_text. cbn [i_options i_bind i_skip i_config i_config_text i_mkdir_ok i_can_open].
  pose proof (K _ N c c' H) as K1. pose proof (fun s' Ns Hs => K (W s') Ns c c' Hs) as K2.
  destruct (setup c (i_bind i) (i_skip i) (i_config i) (Some text)) as [c1| | | |], (setup c' (i_bind i) (i_skip i) (i_config i) (Some text')) as [c1'| | | |];
    cbn [same_outcome bind_r] in K1, K2 |- *;
    lazymatch type of K1 with False => destruct K1 | @eq _ _ _ => first [discriminate K1|injection K1 as ->; reflexivity|reflexivity] | _ => idtac end.
  assert (Q : same_for_program (mkworld (so_env s) c1 (i_options i)) c1 c1') by exact (same_cfg _ _ default_config c1 c1 c1' K1).
  pose proof (C97_same_output _ _ _ _ (so_visits s) Q) as X. unfold run in X. rewrite X.
  match goal with |- context [generate ?x ?y] => generalize (generate x y) end. intros [o| | | |]; cbn [bind_r]; [|reflexivity|reflexivity|reflexivity|reflexivity].
  rewrite (l_write_output _ _ _ _ Q). match goal with |- context [write_output ?x ?y ?z ?u ?v] => generalize (write_output x y z u v) end. intros [g| | | |]; cbn [bind_r]; [|reflexivity|reflexivity|reflexivity|reflexivity].
  split; [reflexivity|]. cbn [d_config]. exact K2.
Qed.
Lemma process_all_absent l : (forall s, In s l -> idle (W s) k b arg) ->
  forall c c' f, (forall s, In s l -> same_for_program (W s) c c') ->
  map left_behind (fst (process_all I' l c' f)) = map left_behind (fst (process_all I l c f)) /\
  snd (process_all I' l c' f) = snd (process_all I l c f).
Proof.
  induction l as [|s l IH]; intros N c c' f H; cbn [process_all]; [split; reflexivity|].
  pose proof (process_absent s c c' f (N s (or_introl eq_refl)) (H s (or_introl eq_refl))) as K.
  destruct (process I s c f) as [d| | | |], (process I' s c' f) as [d'| | | |]; cbn iota zeta in K;
    lazymatch type of K with False => destruct K | @eq _ _ _ => first [discriminate K|injection K as ->; split; reflexivity|split; reflexivity] | _ => idtac end.
  destruct K as [L K]. assert (Ef : d_disk d' = d_disk d) by (unfold left_behind in L; congruence). rewrite Ef.
  destruct (IH (fun x X => N x (or_intror X)) (d_config d) (d_config d') (d_disk d) (fun x X => K x (N x (or_intror X)) (H x (or_intror X)))) as [A1 A2].
  destruct (process_all I' l _ _), (process_all I l _ _). cbn [fst snd map] in *. split; [congruence|exact A2].
Qed.
End Files.

(** Whatever the source files: if the line is about nothing in any of them the
    program leaves the same files and ends the same way. *)
Theorem C97_program : forall i l f text text' before line after b token arg k,
  pieces_of nl text (before ++ after) -> pieces_of nl text' (before ++ line :: after) ->
  says line b token arg -> In (token, k) directives -> accepted k b arg ->
  (forall s, In s l -> idle (mkworld (so_env s) default_config (i_options i)) k b arg) ->
  map left_behind (fst (program (with_config_text (Some text') i) l f)) = map left_behind (fst (program (with_config_text (Some text) i) l f)) /\
  snd (program (with_config_text (Some text') i) l f) = snd (program (with_config_text (Some text) i) l f).
Proof.
  intros i l f text text' before line after b token arg k P P' Sy D A N. unfold program.
  apply (process_all_absent i text text' before line after b token arg k P P' Sy D A l N). intros s _. apply same_refl.
Qed.
Print Assumptions C97_program.

(** Lines about a class, a keyed setting and a namespace that [mix_env] does
    not have. *)
Example C97_case :
  pieces_of nl ($"+namespace n" ++ [nl]) ([$"+namespace n"] ++ []) /\
  pieces_of nl ($"+namespace n" ++ [nl] ++ $"-class n::Absent" ++ [nl]) ([$"+namespace n"] ++ $"-class n::Absent" :: []) /\
  says $"-class n::Absent" false $"class" $"n::Absent" /\
  idle (mkworld mix_env default_config (mix_options false false 1000%N)) (Names classes_to_bind classes_to_skip) false $"n::Absent" /\
  idle (mkworld mix_env default_config (mix_options false false 1000%N)) (Keyed binders true) true $"n::Absent my_binder" /\
  idle (mkworld mix_env default_config (mix_options false false 1000%N)) (Names namespaces_to_bind namespaces_to_skip) true $"n::other" /\
  ~ idle (mkworld mix_env default_config (mix_options false false 1000%N)) (Names classes_to_bind classes_to_skip) false $"n::A" /\
  exists c c', setup default_config [] [] $"c" (Some ($"+namespace n" ++ [nl])) = Ok c /\
    setup default_config [] [] $"c" (Some ($"+namespace n" ++ [nl] ++ $"-class n::Absent" ++ [nl])) = Ok c' /\
    lists c' classes_to_skip = [$"n::Absent"] /\ lists c classes_to_skip = [] /\
    exists o, run (mkworld mix_env c (mix_options false false 1000%N)) mix_visits = Ok o /\ 2 < length (out_files o).
Proof.
  split; [apply split_char_iff; vm_compute; reflexivity|]. split; [apply split_char_iff; vm_compute; reflexivity|].
  split. { split; [intros r; discriminate|]. split; [right; split; [reflexivity|]|].
    - intros t' X. apply (f_equal (@rev ascii)) in X. rewrite rev_app_distr in X. vm_compute in X. discriminate X.
    - cbn. intuition discriminate. }
  assert (Plain : forall n, plain_class (mkworld mix_env default_config (mix_options false false 1000%N)) n -> In n [$"n::A"; $"n::m::B"; $"S"; $"n::K"; $"U"; []]).
  { intros n [r]. do 5 (destruct r as [|r]; [vm_compute; tauto|]). destruct r; vm_compute; tauto. }
  assert (Full : forall r, In (class_qualified_name (mkworld mix_env default_config (mix_options false false 1000%N)) r) [$"n::A"; $"n::m::B"; $"S"; $"n::K"; $"U"; []]).
  { intros r. do 5 (destruct r as [|r]; [vm_compute; tauto|]). destruct r; vm_compute; tauto. }
  split. { cbn [idle concerns]. intros [n [H X]]. assert (J : In n [$"n::A"; $"n::m::B"; $"S"; $"n::K"; $"U"; []]) by (destruct H; [apply Plain; assumption|apply Full]).
    cbn [In] in J. repeat (destruct J as [<-|J]; [vm_compute in X; discriminate X|]). destruct J. }
  split. { cbn [idle concerns_key]. intros _ x v [bl [Hb [Ex Hx]]] H. apply Plain in H. cbn [In] in H. destruct Hb as [->| ->];
    repeat (destruct H as [<-|H]; [vm_compute in Ex; discriminate Ex|]); destruct H. }
  split. { cbn [idle concerns]. intros [n [[d] [r X]]].
    destruct d as [d|d|d]; do 6 (destruct d as [|d]; [vm_compute in X; discriminate X|]); destruct d; vm_compute in X; discriminate X. }
  split. { cbn [idle concerns]. intros H. apply H. exists $"n::A". split; [apply ClassPlain; exact (PlainClass (mkworld mix_env default_config (mix_options false false 1000%N)) 0)|reflexivity]. }
  destruct (setup default_config [] [] $"c" (Some ($"+namespace n" ++ [nl]))) as [c| | | |] eqn:Ec; try (vm_compute in Ec; discriminate Ec).
  destruct (setup default_config [] [] $"c" (Some ($"+namespace n" ++ [nl] ++ $"-class n::Absent" ++ [nl]))) as [c'| | | |] eqn:Ec'; try (vm_compute in Ec'; discriminate Ec').
  exists c, c'. split; [reflexivity|]. split; [reflexivity|]. vm_compute in Ec, Ec'. apply Ok_inj in Ec, Ec'. split; [rewrite <- Ec'; reflexivity|]. split; [rewrite <- Ec; reflexivity|].
  destruct (run (mkworld mix_env c (mix_options false false 1000%N)) mix_visits) as [o| | | |] eqn:E; try (rewrite <- Ec in E; vm_compute in E; discriminate E).
  exists o. split; [reflexivity|]. rewrite <- Ec in E. vm_compute in E. apply Ok_inj in E. rewrite <- E. vm_compute. repeat constructor.
Qed.

(** A namespace directive need not name a namespace to matter: any beginning
    of the name of one counts. *)
Theorem C97_namespace_named_refuted :
  ~ (forall e o c c' visits v, ~ in_namespace (mkworld e c o) v -> adds_name namespaces_to_bind v c c' ->
       run (mkworld e c' o) visits = run (mkworld e c o) visits).
Proof.
  set (e := tu [] [fn0 (nm $"f" $"nn::f" $"<a.hh>") void []] [] (fun _ => []) (fun _ => [])).
  set (o := mix_options false false 1000%N).
  intros H. specialize (H e o default_config (push namespaces_to_bind $"n" default_config) [DFun 0] $"n").
  assert (X : ~ in_namespace (mkworld e default_config o) $"n").
  { intros Q. inversion Q as [d D]. revert D. destruct d as [d|d|d]; do 2 (destruct d as [|d]; [vm_compute; discriminate|]); vm_compute; discriminate. }
  specialize (H X (push_adds namespaces_to_bind $"n" default_config)). vm_compute in H. discriminate H.
Qed.
Print Assumptions C97_namespace_named_refuted.
