(** Specification of what the code of a class defines in the Python class, and
    of when pybind11 accepts it. *)
From Coq Require Import Ascii String Bool Arith NArith Relations.
From Coq Require Import List.
From Verif Require Import Str Util Config Ast Types Func Enum Includes Class Context SpecTypes SpecBind SpecClass.
Import ListNotations.

(** ** Definitions *)

Inductive attribute :=
| Method (static : bool) (name : str)
| Value (name : str)         (* a data member or an enumerator *)
| Type_ (name : str).        (* a nested class or an enum *)
Definition name_of (a : attribute) : str := match a with Method _ n | Value n | Type_ n => n end.
Definition is_object (a : attribute) : bool := match a with Method _ _ => false | _ => true end.

(** An enum, and the enumerators it exports. *)
Definition enum_attributes (e : enum) : list attribute :=
  Type_ (n_name (e_decl e)) :: (if e_class_tag e then [] else map (fun v => Value (fst v)) (e_values e)).
Definition field_attribute (f : field) : attribute := Value (n_name (fd_decl f)).
(** A function, once for each number of arguments. *)
Definition method_attributes (w : world) (c : nat * option nat) (l : list attribute) : Prop :=
  let F := fun_ w (fst c) in
  exists k name, smallest_arity F k /\ python_name w F name /\ l = repeat (Method (is_static F) name) (length (f_params F) + 1 - k).
(** The data members and functions of a class. *)
Definition member_attributes (w : world) (r : nat) (l : list attribute) : Prop :=
  exists fs cs ms, exposed w (rec_ w r) fs /\ selection (chosen w) (candidates w r) cs /\ Forall2 (method_attributes w) cs ms /\
    l = map field_attribute fs ++ concat ms.
(** [class_attributes w ops r l]: the code of the class [r] defines [l], in this
    order.  Left out: constructors, and what a configured add-on binder does. *)
Inductive class_attributes (w : world) (ops : list (str * nat)) : nat -> list attribute -> Prop :=
| TA_other r : ~ generated w r -> class_attributes w ops r []
| TA_class r enums own bases folded print print_text print_incl inner inner_attributes :
    generated w r ->
    selection (bound_enum w) (inner_enums w r) enums ->
    member_attributes w r own ->
    folded_bases w r bases -> Forall2 (member_attributes w) bases folded ->
    str_text w ops r print_text print_incl -> print = (match print_incl with [] => [] | _ => [Method false $"__str__"] end) ->
    selection (bound_inner w) (inner_classes w r) inner ->
    Forall2 (fun i l => nested_attributes w ops (definition_of w i) l) inner inner_attributes ->
    class_attributes w ops r (concat (map (fun e => enum_attributes (enum_ w e)) enums) ++ own ++ concat folded ++ print ++ concat inner_attributes)
(** A nested class; the members of an anonymous one are members of the class
    around it. *)
with nested_attributes (w : world) (ops : list (str * nat)) : nat -> list attribute -> Prop :=
| NA_anonymous i l : r_anon (rec_ w i) = true -> class_attributes w ops i l -> nested_attributes w ops i l
| NA_other i : r_anon (rec_ w i) = false -> ~ generated w i -> nested_attributes w ops i []
| NA_class i : r_anon (rec_ w i) = false -> generated w i -> nested_attributes w ops i [Type_ (python_class_name w i)].

(** The beginning of the statement for a definition. *)
Inductive defined_by : attribute -> str -> Prop :=
| DB_method static name : defined_by (Method static name) ($"cl.def" ++ (if static then $"_static" else []) ++ $"(" ++ quoted name ++ $", ")
| DB_field how name : In how [$"readonly"; $"readwrite"] -> defined_by (Value name) ($"cl.def_" ++ how ++ $"(" ++ quoted name ++ $", ")
| DB_enumerator name : defined_by (Value name) ($".value(" ++ quoted name ++ $", ")
| DB_enum type name : defined_by (Type_ name) ($"pybind11::enum_<" ++ type ++ $">(cl, " ++ quoted name)
| DB_class name : defined_by (Type_ name) ($"> cl(enclosing_class, " ++ quoted name ++ $", ").

(** The names of the definitions other than functions. *)
Definition objects (l : list attribute) : list str := map name_of (filter is_object l).

(** ** What pybind11 accepts *)

(** [latest l a]: of the definitions [l], [a] is the last one of its name. *)
Definition latest (l : list attribute) (a : attribute) : Prop :=
  exists before after, l = before ++ a :: after /\ forall b, In b after -> name_of b <> name_of a.
Definition underscored (n : str) : Prop := exists s, n = "_"%char :: s.
(** [accepted inherited before a]: after [before], the definition [a] is no
    error.  [inherited n]: the bases in Python offer an object of the name [n]
    that is no function. 
    pybind11 (pybind11.h): a data member or enumerator is simply assigned
    (class_::def_property_static_impl, enum_base::export_values); a type fails
    if the class has an attribute of this name (generic_type::initialize); a
    function fails if the object found under its name is no function, unless the
    name begins with an underscore, or is a function of the class and only one
    of them is static (cpp_function::initialize_generic). *)
Definition accepted (inherited : str -> Prop) (before : list attribute) (a : attribute) : Prop :=
  match a with
  | Value _ => True
  | Type_ n => forall b, In b before -> name_of b <> n
  | Method static n =>
      (forall static', latest before (Method static' n) -> static' = static) /\
      (forall b, latest before b -> name_of b = n -> is_object b = true -> underscored n) /\
      ((forall b, In b before -> name_of b <> n) -> inherited n -> underscored n)
  end.
Definition all_accepted (inherited : str -> Prop) (l : list attribute) : Prop :=
  forall before a after, l = before ++ a :: after -> accepted inherited before a.
(** Nothing is replaced by something else: of two definitions of a name, both
    are functions. *)
Definition nothing_lost (l : list attribute) : Prop :=
  forall l1 a l2 b l3, l = l1 ++ a :: l2 ++ b :: l3 -> name_of a = name_of b -> is_object a = false /\ is_object b = false.

(** Objects other than functions that the bases of a class offer. *)
Inductive offered_by_base (w : world) (ops : list (str * nat)) : nat -> str -> Prop :=
| OB_direct r b R l n : In b (r_bases (rec_ w r)) -> named_base w b -> base_record b = Some R ->
    class_attributes w ops R l -> (exists a, latest l a /\ name_of a = n /\ is_object a = true) -> offered_by_base w ops r n
| OB_further r b R n : In b (r_bases (rec_ w r)) -> named_base w b -> base_record b = Some R -> offered_by_base w ops R n -> offered_by_base w ops r n.

(** ** Inputs *)

(** The names declared in a class, other than those of functions: enums,
    enumerators that C++ exports, data members and nested classes. *)
Definition object_names (w : world) (r : nat) : list str :=
  flat_map (fun m => match m with
                     | MEnum e => n_name (e_decl (enum_ w e)) :: (if e_scoped (enum_ w e) then [] else map fst (e_values (enum_ w e)))
                     | _ => []
                     end) (r_members (rec_ w r))
  ++ map (fun f => n_name (fd_decl f)) (used_fields (rec_ w r) ++ declared_fields (rec_ w r))
  ++ map (fun i => python_class_name w (definition_of w i)) (filter (fun i => r_first (rec_ w i)) (inner_classes w r)).
(** What C++ guarantees for a class in which no name is both a type and
    something else: a name has one meaning; only functions share one. *)
Record one_meaning (w : world) (r : nat) : Prop := mkom {
  om_objects : NoDup (object_names w r);
  om_functions c : In c (candidates w r) -> ~ In (n_name (f_decl (fun_ w (fst c)))) (object_names w r)
}.
(** The further conditions: the class is no instance of a template and has no
    anonymous members, no [enum struct] is nested in it, the names of operators
    and prefixed names are no others, no function is both static and not, and no
    function hides a data member or type of a base. *)
Definition chosen_name (w : world) (r : nat) (c : nat * option nat) (n : str) : Prop := In c (candidates w r) /\ chosen w c /\ python_name w (fun_ w (fst c)) n.
Record separate_class (w : world) (ops : list (str * nat)) (r : nat) : Prop := mksc {
  sc_names : one_meaning w r;
  sc_plain : r_targs (rec_ w r) = None;
  sc_named i : In i (inner_classes w r) -> r_anon (rec_ w (definition_of w i)) = false;
  sc_scoped e : In e (inner_enums w r) -> e_scoped (enum_ w e) = true -> e_class_tag (enum_ w e) = true;
  sc_aliases c n : chosen_name w r c n -> f_operator (fun_ w (fst c)) = true \/ (is_static (fun_ w (fst c)) = true /\ strs (wcfg w) prefix_for_static_member_functions <> []) ->
    ~ In n (object_names w r);
  sc_static c c' n : chosen_name w r c n -> chosen_name w r c' n -> is_static (fun_ w (fst c)) = is_static (fun_ w (fst c'));
  sc_str : ~ In $"__str__" (object_names w r) /\ forall c, chosen_name w r c $"__str__" -> is_static (fun_ w (fst c)) = false;
  sc_hides c n : chosen_name w r c n -> offered_by_base w ops r n -> underscored n
}.
