(** Declarative specifications for collecting, binding, sorting and writing.
    The vocabulary is the input (declarations, configuration) and the decisions
    and texts attached to one declaration; nothing here refers to the loops of
    Context.v. *)
From Coq Require Import Ascii String Bool Arith NArith Sorted Relations.
From Coq Require Import List.
From Verif Require Import Str SpecUtil Util Config Ast Types Func Enum Includes Class Context.
Import ListNotations.

(** ** Collection *)

(** Declarations that get an item: free functions and non-member classes that
    can be bound, and non-member enums. *)
Definition collectible (w : world) (d : decl) : Prop :=
  match d with
  | DFun f => f_method (fun_ w f) = false /\ is_bindable_fun w (fun_ w f) = true
  | DRec r => n_member (r_decl (rec_ w r)) = false /\ is_bindable_rec w r = true
  | DEnum e => n_member (e_decl (enum_ w e)) = false
  end.
(** [a] is [b] with some elements left out. *)
Inductive sublist {A} : list A -> list A -> Prop :=
| SL_nil : sublist [] []
| SL_skip x a b : sublist a b -> sublist a (x :: b)
| SL_keep x a b : sublist a b -> sublist (x :: a) (x :: b).
(** [d] is the first collectible declaration of its identity in the visit order. *)
Definition first_visit (w : world) (visits : list decl) (d : decl) : Prop :=
  exists before after, visits = before ++ d :: after /\ collectible w d /\
    forall d', In d' before -> collectible w d' -> decl_id w d' <> decl_id w d.

(** ** Binding *)

(** The generator can handle the declaration (whatever is requested). *)
Definition can_bind (w : world) (d : decl) : bool :=
  match d with
  | DFun f => is_bindable_fun w (fun_ w f)
  | DRec r => is_bindable_rec w r
  | DEnum e => enum_bindable w (enum_ w e)
  end.
(** A declaration that may be bound: it can be, the configuration does not ask
    to skip it, and it is not a Python builtin. *)
Definition eligible (w : world) (d : decl) : Prop :=
  can_bind w d = true /\ skip_decl w d = Ok false /\ is_python_builtin w (named_of (wenv w) d) = false.
(** The code of [d] mentions the type called [name]. *)
Definition mentions (w : world) (ops : list (str * nat)) (d : decl) (name : str) : Prop :=
  exists g, generate_code w ops d = Ok g /\ In name (cb_req g).
(** The item of a type name: the last one collected under this name. *)
Definition named_item (w : world) (items : list decl) (name : str) (i : nat) : Prop :=
  exists d, nth_error items i = Some d /\ In name (type_names w d) /\
    forall j d', i < j -> nth_error items j = Some d' -> ~ In name (type_names w d').
(** The items (by position) that have to be bound: those the configuration
    asks for, unless they come from a system header, and those whose type is
    mentioned by an item that has to be bound. *)
Inductive needed (w : world) (ops : list (str * nat)) (items : list decl) : nat -> Prop :=
| by_config i d :
    nth_error items i = Some d -> eligible w d ->
    n_system (named_of (wenv w) d) = false -> bind_decl w d = Ok true ->
    needed w ops items i
| by_mention i j d dj name :
    nth_error items i = Some d -> eligible w d ->
    needed w ops items j -> nth_error items j = Some dj ->
    mentions w ops dj name -> named_item w items name i ->
    needed w ops items i.

(** ** Sorting *)

(** The class [c] is available after the items [s]: Python has it already, or
    an item of [s] is a class of the same qualified name. *)
Definition available (key : nat -> str) (known : nat -> bool) (s : list binder) (c : nat) : Prop :=
  known c = true \/ exists b r, In b s /\ b_decl b = DRec r /\ key r = key c.
(** Every class comes after all the classes it depends on. *)
Definition dependencies_first (key : nat -> str) (known : nat -> bool) (s : list binder) : Prop :=
  forall s1 b r s2 c, s = s1 ++ b :: s2 -> b_decl b = DRec r -> In c (b_deps b) -> available key known s1 c.
(** [r] depends directly on [c]. *)
Definition depends (l : list binder) (r c : nat) : Prop :=
  exists b, In b l /\ b_decl b = DRec r /\ In c (b_deps b).
(** No class depends on itself through a chain. *)
Definition acyclic (l : list binder) : Prop := forall r, ~ clos_trans nat (depends l) r r.
(** A dependency that is neither known to Python nor an item. *)
Definition missing (known : nat -> bool) (l : list binder) (c : nat) : Prop :=
  known c = false /\ (exists r, depends l r c) /\ forall b, In b l -> b_decl b <> DRec c.
(** [c] is a direct base class of [r]. *)
Definition inherits (w : world) (r c : nat) : Prop :=
  exists b, In b (r_bases (rec_ w r)) /\ base_record b = Some c.
(** What C++ guarantees about class hierarchies. *)
Definition hierarchy_acyclic (w : world) : Prop := forall r, ~ clos_trans nat (inherits w) r r.
(** A base type refers to a class with the template arguments of that class. *)
Definition bases_consistent (w : world) : Prop :=
  forall r b c k args, In b (r_bases (rec_ w r)) -> canonical (b_type b) = TRec k c args -> args = targs_of (rec_ w c).
(** The bases that a binding has to name: public, not handled by Python
    builtins of the holder kind, can be bound, and not asked to be skipped. *)
Definition bound_base (w : world) (r c : nat) : Prop :=
  exists b, In b (r_bases (rec_ w r)) /\ b_access b = Public /\ base_record b = Some c /\
    ~ In (standard_name w (n_qname (r_decl (rec_ w c)))) base_skip_list /\
    is_bindable_rec w c = true /\ is_skipping_requested_rec w c = Ok false.
(** A class named by an item or as a base of one is determined by its
    qualified name; a type name belongs to one item. *)
Definition names_distinct (w : world) (items : list decl) : Prop :=
  forall r c r', In (DRec r) items -> In (DRec r') items -> inherits w r' c ->
    class_qualified_name w r = class_qualified_name w c -> r = c.
Definition types_distinct (w : world) (items : list decl) : Prop :=
  forall d d' n, In d items -> In d' items -> In n (type_names w d) -> In n (type_names w d') -> d = d'.

(** ** Writing *)

(** The text of a sequence of items when [tc] trace lines were written before:
    the optional trace line and the code of each item. *)
Fixpoint texts (w : world) (tc : nat) (l : list binder) : str :=
  match l with
  | [] => []
  | b :: l' => (if trace (wopt w) then trace_line tc (decl_id w (b_decl b)) else []) ++ b_code b
               ++ texts w (if trace (wopt w) then S tc else tc) l'
  end.
(** Trace lines written for items that are put in a file. *)
Definition traced (w : world) (l : list binder) : nat := if trace (wopt w) then length l else 0.
(** The call configured for a namespace: the binder of the namespace or, if
    there is none, its add-on binder. *)
Definition configured_call (w : world) (ns : str) : str :=
  match lookup ns (maps (wcfg w) binder_for_namespaces), lookup ns (maps (wcfg w) add_on_binder_for_namespaces) with
  | Some f, _ | None, Some f => namespace_call f ns
  | None, None => []
  end.
(** A namespace whose items are left to its own binder. *)
Definition replaced_namespace (w : world) (ns : str) : bool :=
  match lookup ns (maps (wcfg w) binder_for_namespaces) with Some _ => true | None => false end.
(** The files of one namespace. *)
Definition files_of (ns : str) (gs : list gen_file) : list gen_file := filter (fun g => streqb (g_ns g) ns) gs.
(** A text below the size limit. *)
Definition small (w : world) (s : str) : Prop := (N.of_nat (length s) < max_file_size (wopt w))%N.
(** A file holds items of one namespace, and its body without the text of the
    last item is below the limit. *)
Definition file_ok (w : world) (g : gen_file) : Prop :=
  Forall (fun b => binder_namespace w b = g_ns g) (g_items g) /\
  ((g_items g = [] /\ g_body g = g_call g) \/
   exists p x before k, g_items g = p ++ [x] /\ small w before /\
     g_body g = before ++ (if g_skip g then []
                           else (if trace (wopt w) then trace_line k (decl_id w (b_decl x)) else []) ++ b_code x)).
(** The items whose text goes into files. *)
Definition written (gs : list gen_file) : list binder := flat_map (fun g => if g_skip g then [] else g_items g) gs.

(** What the generated root module does with its list of submodules: every
    step looks up the parent, which has to exist, and adds the module.
    [None]: a parent is missing. *)
Fixpoint run_submodules (pairs : list (str * str)) (modules : list str) : option (list str) :=
  match pairs with
  | [] => Some modules
  | (p, l) :: pairs' =>
      if mem p modules then run_submodules pairs' ((match p with [] => l | _ => p ++ $"::" ++ l end) :: modules) else None
  end.
(** [n] is [inner::x], split at its last separator. *)
Definition last_separator (n inner x : str) : Prop :=
  n = inner ++ $"::" ++ x /\ forall j, length inner < j -> ~ occurs_at $"::" n j.
(** The enclosing namespaces of [ns], itself included. *)
Inductive encloses (ns : str) : str -> Prop :=
| E_self : ns <> [] -> encloses ns ns
| E_outer n inner x : encloses ns n -> last_separator n inner x -> inner <> [] -> encloses ns inner.
(** [x] stands before [y] in [l]. *)
Definition before {A} (l : list A) (x y : A) : Prop := exists l1 l2 l3, l = l1 ++ x :: l2 ++ y :: l3.

(** ** A whole run *)

(** The declarations with an item, in order. *)
Definition collected_items (w : world) (visits : list decl) : list decl := map b_decl (x_binders (collect w visits)).
(** The stream operators noted during collection. *)
Definition operators (w : world) (visits : list decl) : list (str * nat) := x_ops (collect w visits).
Definition run (w : world) (visits : list decl) : result output := generate w (collect w visits).
(** The item of [d] has code in the output. *)
Definition bound (o : output) (d : decl) : Prop := exists b, In b (out_sorted o) /\ b_decl b = d /\ b_code b <> [].
(** Strictly smaller in byte order. *)
Definition byte_less (a b : str) : Prop :=
  exists p, (exists c r, a = p /\ b = p ++ c :: r) \/
            (exists x y r s, a = p ++ x :: r /\ b = p ++ y :: s /\ (N_of_ascii x < N_of_ascii y)%N).
