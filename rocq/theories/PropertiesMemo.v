(** Property C41: remembered answers are the answers that would be computed. *)
From Coq Require Import Ascii String Bool Arith NArith.
From Coq Require Import List.
From Verif Require Import Str StrFacts Util Config Ast Types Func Regex Samples Memo SpecMemo MemoFacts.
Import ListNotations.

(** One translation unit: every question of a session is answered as if it had
    been asked first, whatever was asked before. *)
Theorem C41_same_answers : forall w questions, (forall q, In q questions -> question_from_clang w q) ->
  answers (map (fun q => (w, q)) questions) no_caches = map (fresh w) questions.
Proof.
  intros w qs H. rewrite (answers_right w); [rewrite map_map; reflexivity|apply nothing_right|].
  intros p Hp. apply in_map_iff in Hp. destruct Hp as [q [<- Hq]]. cbn [fst snd]; auto.
Qed.
Print Assumptions C41_same_answers.

(** The order of the questions and asking them again change no answer. *)
Theorem C41_order_irrelevant : forall w before before' q,
  (forall x, In x (q :: before ++ before') -> question_from_clang w x) ->
  fst (ask w q (after (map (fun x => (w, x)) before) no_caches)) = fst (ask w q (after (map (fun x => (w, x)) before') no_caches)).
Proof.
  intros w before before' q H.
  assert (A : forall l, (forall x, In x l -> question_from_clang w x) -> right w (after (map (fun x => (w, x)) l) no_caches)).
  { intros l. generalize (nothing_right w). generalize no_caches. induction l as [|x l IH]; intros c Hc Hl; cbn [map after]; [exact Hc|].
    apply IH; [|intros; apply Hl; right; assumption]. apply ask_right; [apply Hl; left; reflexivity|exact Hc]. }
  assert (B : forall l, (forall x, In x l -> In x (before ++ before')) -> fst (ask w q (after (map (fun x => (w, x)) l) no_caches)) = fresh w q).
  { intros l Hl. apply ask_right; [apply H; left; reflexivity|]. apply A. intros x Hx. apply H. right. apply Hl, Hx. }
  rewrite (B before), (B before'); [reflexivity|..]; intros x Hx; apply in_or_app; auto.
Qed.
Print Assumptions C41_order_irrelevant.

(** Several translation units in one run (binder accepts several source files):
    the answers about names never go wrong, whatever units were processed before. *)
Theorem C41_names_across_units : forall w session q, about_text q ->
  (forall p, In p session -> rx (wenv (fst p)) = rx (wenv w)) ->
  fst (ask w q (after session no_caches)) = fresh w q.
Proof.
  intros w session q Hq H. apply (text_ask (texts_right (rx (wenv w)))); [apply texts_stable|exact Hq|]. apply after_texts; [|exact H].
  split; intros k v X; discriminate X.
Qed.
Print Assumptions C41_names_across_units.

(** The answers about classes and functions can: they are remembered by the
    address of the declaration, and a later unit may reuse the address. *)
Definition unit_of (hidden : bool) : world :=
  mkworld (tu [mkrecord (nm $"A" $"n::A" $"<a.hh>") None false false false true true (Some 0) true hidden true false false true true true None [] []]
              [fn0 (nm $"f" $"n::f" $"<a.hh>") void [mkparam $"a" (TRec false 0 []) false]] [] (fun _ => $"class n::A") (fun _ => []))
          default_config (test_options $"m").
Theorem C41_across_units_refuted : ~ (forall w session q,
  question_from_clang w q -> (forall p, In p session -> question_from_clang (fst p) (snd p) /\ rx (wenv (fst p)) = rx (wenv w)) ->
  fst (ask w q (after session no_caches)) = fresh w q).
Proof.
  intros H. assert (F : forall hidden, from_clang (unit_of hidden) (rec_type (unit_of hidden) 0)).
  { intros hidden c r args P. inversion P; subst; [reflexivity| |]; cbn in *; tauto. }
  specialize (H (unit_of false) [(unit_of true, ClassBindable 0)] (ClassBindable 0) (F false)).
  assert (X : fst (ask (unit_of false) (ClassBindable 0) (after [(unit_of true, ClassBindable 0)] no_caches)) = fresh (unit_of false) (ClassBindable 0)).
  { apply H. intros p [<-|[]]. split; [apply F|reflexivity]. }
  vm_compute in X. discriminate X.
Qed.
Print Assumptions C41_across_units_refuted.

(** A unit with a class template instance, an undefined std::function whose
    signature mentions an unnamed-namespace class, and functions taking them. *)
Definition memo_spec (name qn : str) (complete : bool) (self : nat) (args : list targ) : record :=
  mkrecord (nm name qn $"<a.hh>") (Some args) false false false complete complete (Some self) true false true false false complete true true None [] [].
Definition memo_hidden : qty := TRec false 0 [].
Definition memo_args : list targ := [Targ (KDecl 0 (Some (void, [TLRef memo_hidden]))) $"void (H &)"].
Definition memo_w : world :=
  mkworld (mkenv (fun r => nth r
               [mkrecord (nm $"H" $"H" $"<a.hh>") None false false false true true (Some 0) true true true false false true true true None [] [];
                memo_spec $"function" $"std::function" false 1 memo_args;
                memo_spec $"vector" $"std::vector" true 2 [Targ (KType int) $"int"; Targ (KType int) $"std::allocator<int>"]] norec)
             (fun f => nth f
               [fn0 (nm $"f" $"f" $"<a.hh>") void [mkparam $"x" (TLRef (TRec true 2 [Targ (KType int) $"int"; Targ (KType int) $"std::allocator<int>"])) false];
                fn0 (nm $"g" $"g" $"<a.hh>") void [mkparam $"x" (TSugar false $"F" (TRec false 1 memo_args)) false]] nofn)
             (fun _ => noenum)
             (fun t => match t with TRec _ 2 _ => $"std::vector<int, std::allocator<int>>" | TRec _ 1 _ => $"std::function<void (H &)>" | _ => $"H" end)
             std_engine 10)
          default_config (test_options $"m").
Definition memo_session : list question :=
  [FunctionBindable 1; ClassBindable 1; TypeBindable memo_hidden; FunctionBindable 0; FunctionBindable 1; ClassBindable 2;
   TypeName (TRec false 2 [Targ (KType int) $"int"; Targ (KType int) $"std::allocator<int>"]); StandardName $"std::vector<int, std::allocator<int>>"; Builtin (DRec 1); Banned (DRec 2)].
Example C41_case :
  (forall q, In q memo_session -> question_from_clang memo_w q) /\
  answers (map (fun q => (memo_w, q)) memo_session) no_caches =
    [YesNo false; YesNo false; YesNo false; YesNo true; YesNo false; YesNo true; Text $"std::vector<int>"; Text $"std::vector<int>"; YesNo true; YesNo false] /\
  let c := after (map (fun q => (memo_w, q)) memo_session) no_caches in
  (length (k_standard c), length (k_simplified c), length (k_records c), length (k_functions c)) = (5, 3, 3, 2).
Proof.
  split; [|split; vm_compute; reflexivity].
  assert (Cl : forall t, (forall c r args, part t (TRec c r args) -> args = targs_of (rec_ memo_w r)) -> from_clang memo_w t) by (intros t H; exact H).
  assert (Hint : forall u, part int u -> u = int) by (intros u P; inversion P; reflexivity).
  assert (Hvoid : forall u, part void u -> u = void) by (intros u P; inversion P; reflexivity).
  assert (H0 : forall c, from_clang memo_w (TRec c 0 [])).
  { intros c c' r args P. inversion P; subst; [reflexivity| |]; cbn in *; tauto. }
  assert (H1 : forall c, from_clang memo_w (TRec c 1 memo_args)).
  { intros c c' r args P. inversion P as [| | | | | | | |? ? ? t text u [I|I] Q|? ? ? f ret ps text t u I J Q]; subst; [reflexivity|..].
    - destruct I as [I|[]]; discriminate I.
    - destruct I as [I|[]]; discriminate I.
    - destruct I as [I|[]]; injection I as <- <- <- <-. destruct J as [->|[<-|[]]].
      + apply Hvoid in Q; discriminate Q.
      + inversion Q as [| |? ? Q'| | | | | | |]; subst. apply (H0 false _ _ _ Q'). }
  assert (H2 : forall c, from_clang memo_w (TRec c 2 [Targ (KType int) $"int"; Targ (KType int) $"std::allocator<int>"])).
  { intros c c' r args P. inversion P as [| | | | | | | |? ? ? t text u [I|I] Q|? ? ? f ret ps text t u I J Q]; subst; [reflexivity|..].
    - destruct I as [I|[I|[]]]; injection I as <- <-; apply Hint in Q; discriminate Q.
    - destruct I as [I|[I|[]]]; discriminate I.
    - destruct I as [I|[I|[]]]; discriminate I. }
  assert (Hv : from_clang memo_w void) by (intros c r args P; apply Hvoid in P; discriminate P).
  assert (Hf : question_from_clang memo_w (FunctionBindable 0)).
  { split; [exact Hv|]. intros p [<-|[]] c r args P. inversion P as [| |? ? Q| | | | | | |]; subst. apply (H2 true _ _ _ Q). }
  assert (Hg : question_from_clang memo_w (FunctionBindable 1)).
  { split; [exact Hv|]. intros p [<-|[]] c r args P. inversion P as [| | | | | | |? ? ? ? Q| |]; subst. apply (H1 false _ _ _ Q). }
  intros q Hq. repeat (destruct Hq as [<-|Hq]; [|]); try contradiction; try exact I; try assumption; cbn [question_from_clang].
  - apply (H1 false).
  - apply (H0 false).
  - apply (H2 false).
Qed.
