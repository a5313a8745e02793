(** Specification of what happens when the generated module is imported: the
    sequence of registrations, and when pybind11 accepts it. *)
From Coq Require Import Ascii String Bool Arith NArith Relations.
From Coq Require Import List.
From Verif Require Import Str Util Config Ast Types Func Enum Includes Class Context SpecTypes SpecBind SpecClass SpecContext SpecOutput.
Import ListNotations.

(** ** Registrations *)

(** C++ types that are registered. *)
Inductive entity := EClass (r : nat) | EEnum (e : nat).
(** Where a Python object is put: a module, by its namespace, or a class. *)
Inductive scope := InModule (ns : str) | InClass (r : nat).
Inductive action :=
| Register (x : entity) (bases : list nat) (s : scope) (name : str)
| Define (s : scope) (name : str)          (* a function *)
| Delegate (ns : str) (r : nat).           (* a configured binder is called with a module; it registers the class *)

Definition register_enum (w : world) (s : scope) (e : nat) : action := Register (EEnum e) [] s (n_name (e_decl (enum_ w e))).
(** [class_actions w s r l]: the code of the class [r], put in [s], does [l]:
    the class, its enums, its nested classes.  (An anonymous member structure is
    not registered; what is nested in it goes to the enclosing scope.) *)
Inductive class_actions (w : world) : scope -> nat -> list action -> Prop :=
| AC_python s r : python_type w (class_name w r) -> class_actions w s r []
| AC_binder s r binder : ~ python_type w (class_name w r) -> lookup (class_name w r) (maps (wcfg w) Config.binders) = Some binder ->
    class_actions w s r [Delegate (namespace_from_named_decl w (r_decl (rec_ w r))) r]
| AC_class s s' r bases enums inner inner_actions head :
    generated w r ->
    (if r_anon (rec_ w r) then s' = s /\ head = []
     else s' = InClass r /\ selection (named_base w) (r_bases (rec_ w r)) bases /\ head = [Register (EClass r) (base_classes bases) s (python_class_name w r)]) ->
    selection (bound_enum w) (inner_enums w r) enums ->
    selection (bound_inner w) (inner_classes w r) inner -> Forall2 (fun i l => class_actions w s' (definition_of w i) l) inner inner_actions ->
    class_actions w s r (head ++ map (register_enum w s') enums ++ concat inner_actions).
(** An item. *)
Inductive item_actions (w : world) : decl -> list action -> Prop :=
| AI_function f name : python_name w (fun_ w f) name ->
    item_actions w (DFun f) [Define (InModule (namespace_from_named_decl w (f_decl (fun_ w f)))) name]
| AI_enum e : item_actions w (DEnum e) [register_enum w (InModule (namespace_from_named_decl w (e_decl (enum_ w e)))) e]
| AI_class r l : class_actions w (InModule (namespace_from_named_decl w (r_decl (rec_ w r)))) r l -> item_actions w (DRec r) l.
(** The items of all files, in the order in which the root module calls their
    functions; an item without code does nothing. *)
Definition run_actions (w : world) (o : output) (l : list (list action)) : Prop :=
  Forall2 (fun b acts => (b_code b = [] /\ acts = []) \/ (b_code b <> [] /\ item_actions w (b_decl b) acts)) (written (out_files o)) l.

(** ** What pybind11 accepts *)

Definition registered (l : list action) : list entity :=
  flat_map (fun a => match a with Register x _ _ _ => [x] | Define _ _ => [] | Delegate _ r => [EClass r] end) l.
Definition exists_after (modules : list str) (l : list action) (s : scope) : Prop :=
  match s with InModule ns => In ns modules | InClass r => In (EClass r) (registered l) end.
(** [accepted modules before a]: after [before], the action [a] is no error: the
    module or class it is put in exists, the type is not registered yet, its
    bases are, and the name is free, except that functions can be overloaded. *)
Definition accepted (modules : list str) (before : list action) (a : action) : Prop :=
  match a with
  | Register x bases s name =>
      exists_after modules before s /\ ~ In x (registered before) /\ (forall c, In c bases -> In (EClass c) (registered before)) /\
      (forall y bs, ~ In (Register y bs s name) before) /\ ~ In (Define s name) before
  | Define s name => exists_after modules before s /\ forall y bs, ~ In (Register y bs s name) before
  | Delegate ns _ => In ns modules
  end.
Definition importable (modules : list str) (l : list action) : Prop :=
  forall before a after, l = before ++ a :: after -> accepted modules before a.

(** ** Inputs *)

(** What C++ guarantees about nesting: a nested class is a member of one class,
    listed once (by its first declaration), and no class is nested in itself. *)
Definition nested_in (w : world) (i r : nat) : Prop := exists j, In j (inner_classes w r) /\ r_first (rec_ w j) = true /\ definition_of w j = i.
Record proper_nesting (w : world) : Prop := mkpn {
  pn_member i r : nested_in w i r -> n_member (r_decl (rec_ w i)) = true;
  pn_parent i r1 r2 : nested_in w i r1 -> nested_in w i r2 -> r1 = r2;
  pn_once r : NoDup (map (definition_of w) (filter (fun j => r_first (rec_ w j)) (inner_classes w r)));
  pn_acyclic r : ~ clos_trans nat (nested_in w) r r;
  pn_enum e r : In e (inner_enums w r) -> n_member (e_decl (enum_ w e)) = true;
  pn_enum_parent e r1 r2 : In e (inner_enums w r1) -> In e (inner_enums w r2) -> r1 = r2;
  pn_enum_once r : NoDup (inner_enums w r);
  pn_base r c : inherits w r c -> r_anon (rec_ w c) = false
}.
(** No two objects of a run have the same name in the same place, except
    functions. *)
Definition names_free (l : list action) : Prop :=
  forall l1 a l2 b l3, l = l1 ++ a :: l2 ++ b :: l3 ->
    match a, b with
    | Register _ _ s name, Register _ _ s' name' | Register _ _ s name, Define s' name' | Define s name, Register _ _ s' name' => (s, name) <> (s', name')
    | _, _ => True
    end.
(** The nested classes of an item are not left to configured binders, and their
    bases are bases of the item or nested before. *)
Definition simple_nesting (w : world) (r : nat) (l : list action) : Prop :=
  (forall ns i, In (Delegate ns i) l -> i = r) /\
  (forall before i bases s name after c, l = before ++ Register (EClass i) bases s name :: after -> i <> r -> In c bases ->
     (r_anon (rec_ w r) = false /\ bound_base w r c) \/ In (EClass c) (registered before)).

(** ** Text *)

(** [in_order l s]: the texts [l] occur in [s], one after the other. *)
Inductive in_order : list str -> str -> Prop :=
| IO_nil s : in_order [] s
| IO_cons a t l s : in_order l s -> in_order (t :: l) (a ++ t ++ s).
(** The expression for a module or class in the statement of an enum and in that
    of a class. *)
Definition module_text (ns : str) : str := $"M(" ++ quoted ns ++ $")".
(** [statement w a t]: the generated statement for the action [a] begins with
    [t]: the kind and types, where the object is put, and its name. *)
Inductive statement (w : world) : action -> str -> Prop :=
| SM_class r bases s name hold tramp : statement w (Register (EClass r) bases s name)
    ($"pybind11::class_<" ++ class_qualified_name w r ++ hold ++ tramp ++ concat (map (fun c => $", " ++ class_qualified_name w c) bases)
     ++ $"> cl(" ++ (match s with InModule ns => module_text ns | InClass _ => $"enclosing_class" end) ++ $", " ++ quoted name)
| SM_enum e s name : statement w (Register (EEnum e) [] s name)
    ($"pybind11::enum_<" ++ n_qname (e_decl (enum_ w e)) ++ $">(" ++ (match s with InModule ns => module_text ns | InClass _ => $"cl" end) ++ $", " ++ quoted name)
| SM_function ns name static : statement w (Define (InModule ns) name) (module_text ns ++ $".def" ++ static ++ $"(" ++ quoted name)
| SM_binder ns r binder : statement w (Delegate ns r) (binder ++ standard_name w (rec_specialization (rec_ w r)) ++ $"(" ++ module_text ns).
