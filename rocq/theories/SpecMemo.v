(** Questions that binder answers from memory, and what a session of questions
    is.  [fresh] is the answer computed from nothing, by the definitions of
    Types.v and Func.v that the other theorems are about. *)
From Coq Require Import Ascii String Bool Arith.
From Coq Require Import List.
From Verif Require Import Str Util Config Ast Types Func Memo.
Import ListNotations.

Inductive question :=
| StandardName (text : str)        (* standard_name(string) *)
| SimplifiedName (text : str)      (* simplify_std_class_name *)
| TypeName (t : qty)               (* standard_name(QualType) *)
| Builtin (d : decl)               (* is_python_builtin *)
| Banned (d : decl)                (* is_banned_symbol *)
| TypeBindable (t : qty)           (* is_bindable(QualType) *)
| ClassBindable (r : nat)          (* is_bindable(CXXRecordDecl) *)
| FunctionBindable (f : nat).      (* is_bindable(FunctionDecl) *)
Inductive answer := Text (s : str) | YesNo (b : bool).

Definition fresh (w : world) (q : question) : answer :=
  match q with
  | StandardName s => Text (standard_name w s)
  | SimplifiedName s => Text (simplify_std_class_name (rx (wenv w)) s)
  | TypeName t => Text (standard_name_q w t)
  | Builtin d => YesNo (is_python_builtin w (named_of (wenv w) d))
  | Banned d => YesNo (is_banned_symbol w (named_of (wenv w) d))
  | TypeBindable t => YesNo (is_bindable_q w t)
  | ClassBindable r => YesNo (is_bindable_rec w r)
  | FunctionBindable f => YesNo (is_bindable_fun w (fun_ w f))
  end.

(** The same question asked while the caches hold what earlier questions left. *)
Definition ask (w : world) (q : question) (c : caches) : answer * caches :=
  let text (m : cached str) := let (s, c') := m c in (Text s, c') in
  let yes (m : cached bool) := let (b, c') := m c in (YesNo b, c') in
  match q with
  | StandardName s => text (standard_name_c w s)
  | SimplifiedName s => text (simplify_c w s)
  | TypeName t => text (standard_name_q_c w t)
  | Builtin d => yes (is_python_builtin_c w (named_of (wenv w) d))
  | Banned d => yes (is_banned_symbol_c w (named_of (wenv w) d))
  | TypeBindable t => yes (is_bindable_q_c w t)
  | ClassBindable r => yes (is_bindable_rec_c w r)
  | FunctionBindable f => yes (is_bindable_fun_c w f)
  end.

(** A session: questions asked one after the other, each about the translation
    unit that is being processed at that time. *)
Fixpoint after (session : list (world * question)) (c : caches) : caches :=
  match session with
  | [] => c
  | (w, q) :: rest => after rest (snd (ask w q c))
  end.
Fixpoint answers (session : list (world * question)) (c : caches) : list answer :=
  match session with
  | [] => []
  | (w, q) :: rest => fst (ask w q c) :: answers rest (snd (ask w q c))
  end.

(** [part t u]: the type [u] occurs in the type [t]. *)
Inductive part : qty -> qty -> Prop :=
| P_self t : part t t
| P_pointer c t u : part t u -> part (TPtr c t) u
| P_reference t u : part t u -> part (TLRef t) u
| P_rvalue t u : part t u -> part (TRRef t) u
| P_array c t u : part t u -> part (TArray c t) u
| P_result ret ps u : part ret u -> part (TFun ret ps) u
| P_param ret ps t u : In t ps -> part t u -> part (TFun ret ps) u
| P_typedef c n t u : part t u -> part (TSugar c n t) u
| P_argument c r args t text u : In (Targ (KType t) text) args \/ In (Targ (KIntegral t) text) args -> part t u -> part (TRec c r args) u
| P_signature c r args f ret ps text t u : In (Targ (KDecl f (Some (ret, ps))) text) args -> t = ret \/ In t ps -> part t u -> part (TRec c r args) u.

(** A class type carries the template arguments of the class declaration it
    refers to, as clang guarantees: both are the arguments of the same
    specialization. *)
Definition from_clang (w : world) (t : qty) : Prop :=
  forall c r args, part t (TRec c r args) -> args = targs_of (rec_ w r).
Definition question_from_clang (w : world) (q : question) : Prop :=
  match q with
  | TypeBindable t => from_clang w t
  | ClassBindable r => from_clang w (rec_type w r)
  | FunctionBindable f => from_clang w (f_ret (fun_ w f)) /\ forall p, In p (f_params (fun_ w f)) -> from_clang w (p_type p)
  | _ => True
  end.

(** Questions whose memory is keyed by texts, not by declarations. *)
Definition about_text (q : question) : Prop :=
  match q with
  | TypeBindable _ | ClassBindable _ | FunctionBindable _ => False
  | _ => True
  end.
