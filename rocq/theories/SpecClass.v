(** Declarative specifications for the code generated for classes: which
    members, bases, constructors and overriders it contains.  Vocabulary: the
    declarations of Ast.v, the decisions specified in SpecTypes.v ([unbindable],
    [function_skipped], [rejected], ...) and the texts of SpecBind.v. *)
From Coq Require Import Ascii String Bool Arith NArith Relations.
From Coq Require Import List.
From Verif Require Import Str SpecUtil SpecConfig Util Config Ast Types Func Enum Includes Class SpecTypes SpecBind.
Import ListNotations.

(** [l'] is [l] with exactly the elements that satisfy [P], in the same order. *)
Inductive selection {A} (P : A -> Prop) : list A -> list A -> Prop :=
| SEL_none : selection P [] []
| SEL_taken x l l' : P x -> selection P l l' -> selection P (x :: l) (x :: l')
| SEL_left x l l' : ~ P x -> selection P l l' -> selection P (x :: l) l'.

Definition public (n : named) : Prop := n_access n = Public.
Definition constructor (F : fn) : Prop := f_ctor F <> None.

(** ** Data members *)

(** A field can be exposed: its type is no pointer, reference or array, it is
    named, and its type is supported. *)
Definition exposable (w : world) (f : field) : Prop :=
  (forall p c, canonical (fd_type f) <> TPtr c p /\ canonical (fd_type f) <> TLRef p /\ canonical (fd_type f) <> TRRef p /\ canonical (fd_type f) <> TArray c p) /\
  fd_anon f = false /\ ~ rejected w (fd_type f).
Definition field_skipped (w : world) (f : field) : Prop := In (n_qname (fd_decl f)) (lists (wcfg w) fields_to_skip).
(** Fields brought in by public using declarations and fields of the class, in
    the order of declaration. *)
Definition using_targets (C : record) : list target :=
  flat_map (fun m => match m with MUsing Public ts => ts | _ => [] end) (r_members C).
Definition used_fields (C : record) : list field :=
  flat_map (fun t => match t with UField f => [f] | UMethod _ => [] end) (using_targets C).
Definition declared_fields (C : record) : list field :=
  flat_map (fun m => match m with MField f => [f] | _ => [] end) (r_members C).
Definition exposed (w : world) (C : record) (fs : list field) : Prop :=
  exists used own, fs = used ++ own /\
    selection (fun f => ~ field_skipped w f /\ exposable w f) (used_fields C) used /\
    selection (fun f => ~ field_skipped w f /\ public (fd_decl f) /\ exposable w f) (declared_fields C) own.
(** A field can be assigned from Python unless it is const or of a class whose
    copy assignment is deleted or not public. *)
Definition frozen (w : world) (f : field) : Prop :=
  is_const (fd_type f) = true \/
  exists c r args m, fd_type f = TRec c r args /\ In (MMethod m) (r_members (rec_ w r)) /\
    f_copy_assign (fun_ w m) = true /\ (~ public (f_decl (fun_ w m)) \/ f_deleted (fun_ w m) = true).
(** The name of the class in a pointer to a member: members of an anonymous
    union are members of the enclosing class. *)
Inductive owner_name : str -> str -> Prop :=
| ON_both s : owner_name (s ++ $"::(anonymous union)" ++ $"::(anonymous)") s
| ON_anonymous s : (forall r, s <> r ++ $"::(anonymous union)") -> owner_name (s ++ $"::(anonymous)") s
| ON_union s : owner_name (s ++ $"::(anonymous union)") s
| ON_other s : (forall r, s <> r ++ $"::(anonymous)") -> (forall r, s <> r ++ $"::(anonymous union)") -> owner_name s s.
Inductive field_line (w : world) (class : str) (f : field) : str -> Prop :=
| FL owner how : owner_name class owner -> (frozen w f -> how = $"readonly") -> (~ frozen w f -> how = $"readwrite") ->
    field_line w class f
      ([tab] ++ $"cl.def_" ++ how ++ $"(" ++ quoted (n_name (fd_decl f)) ++ $", &" ++ owner ++ $"::" ++ n_name (fd_decl f) ++ $");" ++ [nl]).

(** ** Member functions *)

(** Name and parameter types, without constness. *)
Definition signature_text (w : world) (F : fn) (s : str) : Prop :=
  exists args, parameter_types w F args /\ s = standard_name w (n_qname (f_decl F) ++ fun_specialization w F) ++ $"(" ++ args ++ $")".
(** [F] is the const version of a method of the same class, with the same
    access and the same signature. *)
Definition const_overload (w : world) (F : fn) : Prop :=
  f_const F = true /\
  exists m s, In (MMethod m) (r_members (rec_ w (parent_of F))) /\ n_access (f_decl (fun_ w m)) = n_access (f_decl F) /\ f_const (fun_ w m) = false /\
    signature_text w F s /\ signature_text w (fun_ w m) s.
(** A method that can be exposed if it can be accessed. *)
Definition offered (w : world) (F : fn) : Prop :=
  ~ unbindable w F /\ ~ function_skipped w F /\ ~ constructor F /\ f_dtor F = false /\ ~ const_overload w F.
(** The candidates: methods brought in by public using declarations ([Some r]:
    bound as methods of the class [r]) and instances of method templates, in
    the order of declaration, then the methods of the class. *)
Definition candidates (w : world) (r : nat) : list (nat * option nat) :=
  flat_map (fun m => match m with
                     | MUsing Public ts => flat_map (fun t => match t with UMethod f => [(f, Some r)] | UField _ => [] end) ts
                     | MFunTemplate specs => map (fun f => (f, None)) (filter (fun f => f_method (fun_ w f)) specs)
                     | _ => []
                     end) (r_members (rec_ w r))
  ++ map (fun f => (f, None)) (methods (rec_ w r)).
Definition chosen (w : world) (c : nat * option nat) : Prop :=
  offered w (fun_ w (fst c)) /\ (snd c = None -> public (f_decl (fun_ w (fst c)))).

(** The members of template bases: the public, non-virtual bases of a template
    specialisation that are not to be skipped are bound as part of it, and
    theirs if they are template specialisations, in order. *)
Inductive folded_bases (w : world) : nat -> list nat -> Prop :=
| FB_plain r : r_targs (rec_ w r) = None -> folded_bases w r []
| FB_template r l : r_targs (rec_ w r) <> None -> folded_from w (r_bases (rec_ w r)) l -> folded_bases w r l
with folded_from (w : world) : list base -> list nat -> Prop :=
| FF_none : folded_from w [] []
| FF_base b bs R l1 l2 : b_access b = Public -> b_virtual b = false -> base_record b = Some R -> ~ class_skipped w R (targs_of (rec_ w R)) ->
    folded_bases w R l1 -> folded_from w bs l2 -> folded_from w (b :: bs) (R :: l1 ++ l2)
| FF_other b bs l : b_access b <> Public \/ b_virtual b = true \/ base_record b = None \/
    (exists R, base_record b = Some R /\ class_skipped w R (targs_of (rec_ w R))) ->
    folded_from w bs l -> folded_from w (b :: bs) l.

(** ** Holder *)

Inductive derives_shared (w : world) : nat -> Prop :=
| DS_self r : n_qname (r_decl (rec_ w r)) = $"std::enable_shared_from_this" -> derives_shared w r
| DS_base r b r' : r_complete (rec_ w r) = true -> In b (r_bases (rec_ w r)) -> base_record b = Some r' -> derives_shared w r' -> derives_shared w r.

(** ** Call-back structures *)

(** The classes in which overriders are looked for: the class itself, then
    those of its non-private bases, depth first.  [hierarchy w r l]: in the
    order of [l]. *)
Inductive hierarchy (w : world) : nat -> list nat -> Prop :=
| HI r l : hierarchies w (r_bases (rec_ w r)) l -> hierarchy w r (r :: l)
with hierarchies (w : world) : list base -> list nat -> Prop :=
| HS_none : hierarchies w [] []
| HS_base b bs R l1 l2 : b_access b <> Private -> base_record b = Some R -> hierarchy w R l1 -> hierarchies w bs l2 -> hierarchies w (b :: bs) (l1 ++ l2)
| HS_other b bs l : b_access b = Private \/ base_record b = None -> hierarchies w bs l -> hierarchies w (b :: bs) l.
Definition versions (w : world) (l : list nat) : list (nat * nat) :=
  flat_map (fun c => map (fun m => (c, m)) (methods (rec_ w c))) l.
(** Virtual methods that can be overridden. *)
Definition overridable (w : world) (M : fn) : Prop :=
  n_access (f_decl M) <> Private /\ ~ unbindable w M /\ ~ function_skipped w M /\ ~ constructor M /\ f_dtor M = false /\ f_virtual M = true /\ ~ const_overload w M.
(** The parameters as they are declared in the structure: each with the text of
    its type and its name. *)
Definition declared_parameters (w : world) (M : fn) (s : str) : Prop :=
  exists texts params, Forall2 (type_text w) (map p_type (f_params M)) texts /\
    length params = length texts /\
    (forall i t p, nth_error texts i = Some t -> nth_error params i = Some p -> p = t ++ $" " ++ parameter_name i) /\
    separated $", " params s.
(** Name, parameters and constness. *)
Definition virtual_signature (w : world) (M : fn) (s : str) : Prop :=
  exists params, declared_parameters w M params /\ s = n_name (f_decl M) ++ $"(" ++ params ++ $")" ++ (if f_const M then $" const" else []).
(** [nearest w l c m]: in the order [l] of classes, the version [m] of class [c]
    comes before every other overridable version of its signature. *)
Definition nearest (w : world) (l : list (nat * nat)) (c m : nat) : Prop :=
  exists before after s, l = before ++ (c, m) :: after /\ overridable w (fun_ w m) /\ virtual_signature w (fun_ w m) s /\
    forall c' m', In (c', m') before -> overridable w (fun_ w m') -> ~ virtual_signature w (fun_ w m') s.

(** When a call-back structure is generated. *)
Inductive needs_callback (w : world) (r : nat) : Prop :=
| NC_own m : ~ (r_abstract (rec_ w r) = true /\ exists p, In (MMethod p) (r_members (rec_ w r)) /\ f_pure (fun_ w p) = true /\ const_overload w (fun_ w p)) ->
    r_final (rec_ w r) = false -> In (MMethod m) (r_members (rec_ w r)) -> n_access (f_decl (fun_ w m)) <> Private -> ~ unbindable w (fun_ w m) ->
    f_virtual (fun_ w m) = true -> f_dtor (fun_ w m) = false -> needs_callback w r
| NC_base b R : ~ (r_abstract (rec_ w r) = true /\ exists p, In (MMethod p) (r_members (rec_ w r)) /\ f_pure (fun_ w p) = true /\ const_overload w (fun_ w p)) ->
    r_final (rec_ w r) = false -> In b (r_bases (rec_ w r)) -> b_access b <> Private -> base_record b = Some R -> needs_callback w R -> needs_callback w r.
(** When it could not be instantiated. *)
Inductive blocked (w : world) (r : nat) : Prop :=
| BL_own m : r_abstract (rec_ w r) = true -> In (MMethod m) (r_members (rec_ w r)) -> f_pure (fun_ w m) = true -> ~ constructor (fun_ w m) ->
    n_access (f_decl (fun_ w m)) = Private \/ unbindable w (fun_ w m) \/ function_skipped w (fun_ w m) -> blocked w r
| BL_private b R : r_abstract (rec_ w r) = true -> In b (r_bases (rec_ w r)) -> base_record b = Some R -> b_access b = Private -> r_abstract (rec_ w R) = true -> blocked w r
| BL_base b R : r_abstract (rec_ w r) = true -> In b (r_bases (rec_ w r)) -> base_record b = Some R -> b_access b <> Private -> blocked w R -> blocked w r.

(** [extends w c' c]: [c] is a non-private base of [c']; [descends]: direct or
    indirect. *)
Inductive extends (w : world) : nat -> nat -> Prop :=
| XT c b R : In b (r_bases (rec_ w c)) -> b_access b <> Private -> base_record b = Some R -> extends w c R.
Definition descends (w : world) : nat -> nat -> Prop := clos_trans nat (extends w).
(** The pure methods an object of a class derived from [r] would lack: those of
    [r] and, as long as the classes are abstract, of its non-private bases. *)
Inductive lacks (w : world) (r : nat) : nat -> nat -> Prop :=
| LK_own m : r_abstract (rec_ w r) = true -> In (MMethod m) (r_members (rec_ w r)) -> f_pure (fun_ w m) = true -> lacks w r r m
| LK_base R c m : r_abstract (rec_ w r) = true -> extends w r R -> lacks w R c m -> lacks w r c m.

(** ** Text of an overrider *)


(** Lines of a method that asks Python for an override and calls it. *)
Definition ask_python (cls name args ret : str) : list str :=
  [ [];
    $"pybind11::gil_scoped_acquire gil;";
    $"pybind11::function overload = pybind11::get_overload(static_cast<const " ++ cls ++ $" *>(this), " ++ quoted name ++ $");";
    $"if (overload) {";
    [tab] ++ $"auto o = overload.operator()<pybind11::return_value_policy::reference>(" ++ args ++ $");";
    [tab] ++ $"if (pybind11::detail::cast_is_temporary_value_reference<" ++ ret ++ $">::value) {";
    [tab; tab] ++ $"static pybind11::detail::override_caster_t<" ++ ret ++ $"> caster;";
    [tab; tab] ++ $"return pybind11::detail::cast_ref<" ++ ret ++ $">(std::move(o), caster);";
    [tab] ++ $"}";
    [tab] ++ $"return pybind11::detail::cast_safe<" ++ ret ++ $">(std::move(o));";
    $"}" ].
Definition lines (l : list str) : str := concat (map (fun s => s ++ [nl]) l).
(** The return type; one with a comma, which macros could not digest, gets a
    numbered alias.  [returned w M k text alias k']: [k], [k']: aliases so far. *)
Inductive returned (w : world) (M : fn) (k : nat) : str -> str -> nat -> Prop :=
| RT_plain t : type_text w (f_ret M) t -> ~ In ","%char t -> returned w M k t [] k
| RT_class t : type_text w (f_ret M) ($"class " ++ t) -> In ","%char t -> returned w M k ($"_binder_ret_" ++ dec k) ($"	using _binder_ret_" ++ dec k ++ $" = " ++ t ++ $";" ++ [nl]) (S k)
| RT_alias t : type_text w (f_ret M) t -> In ","%char t -> ~ starts $"class " t ->
    returned w M k ($"_binder_ret_" ++ dec k) ($"	using _binder_ret_" ++ dec k ++ $" = " ++ t ++ $";" ++ [nl]) (S k).
(** The Python name of a method in an overrider (no prefix for static ones). *)
Definition method_name (M : fn) (s : str) : Prop :=
  (f_operator M = true /\ operator_name (n_name (f_decl M)) (length (f_params M)) s) \/
  (f_operator M = true /\ s = [] /\ forall name, ~ operator_name (n_name (f_decl M)) (length (f_params M)) name) \/
  (f_operator M = false /\ s = n_name (f_decl M)).
(** The name under which a custom trampoline is configured. *)
Definition trampoline_key (w : world) (r : nat) (M : fn) : str :=
  let ns := namespace_from_named_decl w (r_decl (rec_ w r)) in
  (match ns with [] => [] | _ => ns ++ $"::" end) ++ n_name (r_decl (rec_ w r)) ++ $"::" ++ n_name (f_decl M).
(** The exception specification, by clang's number (0 none, 4 nothrow, 5
    noexcept, 8 noexcept(true); see Class.v). *)
Definition exception_text (est : nat) (s : str) : Prop :=
  (In est [0; 8] -> s = []) /\ (est = 4 -> s = $"noexcept ") /\ (In est [1; 2; 3; 5; 6; 7; 9; 10; 11] -> s = $"throw() ").
(** [overrider_for w r m cls k s k']: [s] overrides method [m] of class [r] in
    the structure generated for the class [cls]: it declares all parameters; it
    calls the configured function, or the Python override if there is one and
    else the method of the class, and fails if that is pure. *)
Inductive overrider_for (w : world) (r m : nat) (cls structure : str) (k : nat) : str -> nat -> Prop :=
| OV ret alias k' params args name spec body :
    returned w (fun_ w m) k ret alias k' -> method_name (fun_ w m) name ->
    declared_parameters w (fun_ w m) params -> forwards (length (f_params (fun_ w m))) [] params args ->
    separated $", " (map parameter_name (seq 0 (length (f_params (fun_ w m))))) args ->
    exception_text (f_est (fun_ w m)) spec ->
    (((forall custom, lookup (trampoline_key w r (fun_ w m)) (maps (wcfg w) custom_trampoline_functions) = Some custom -> custom = []) /\
      body = indent (lines (ask_python cls name args ret)) [tab; tab]
        ++ (if f_pure (fun_ w m)
            then [tab; tab] ++ $"pybind11::pybind11_fail(""Tried to call pure virtual function \""" ++ n_name (r_decl (rec_ w r)) ++ $"::" ++ name ++ $"\"""");" ++ [nl]
            else [tab; tab] ++ $"return " ++ n_name (r_decl (rec_ w r)) ++ $"::" ++ n_name (f_decl (fun_ w m)) ++ $"(" ++ args ++ $");" ++ [nl])) \/
     (exists custom, lookup (trampoline_key w r (fun_ w m)) (maps (wcfg w) custom_trampoline_functions) = Some custom /\ custom <> [] /\
      body = [nl; tab; tab] ++ $"return " ++ custom ++ $"<" ++ n_name (r_decl (rec_ w r)) ++ $"," ++ structure ++ $">(this, " ++ quoted cls ++ $", " ++ quoted (n_name (f_decl (fun_ w m)))
        ++ (match args with [] => [] | _ => $", " ++ args end) ++ $");" ++ [nl])) ->
    overrider_for w r m cls structure k
      (alias ++ [tab] ++ ret ++ $" " ++ n_name (f_decl (fun_ w m)) ++ $"(" ++ params ++ $")" ++ (if f_const (fun_ w m) then $" const" else []) ++ $" "
       ++ spec ++ $"override {" ++ body ++ [tab] ++ $"}" ++ [nl]) k'.

(** The structure: one overrider per element of [l], with numbered aliases. *)
Inductive overriders (w : world) (cls : str) : nat -> list (nat * nat) -> list str -> nat -> Prop :=
| OS_none k : overriders w cls k [] [] k
| OS_more k c m l s k1 ss k2 : overrider_for w c m cls (callback_structure_name w c) k s k1 -> overriders w cls k1 l ss k2 ->
    overriders w cls k ((c, m) :: l) (s :: ss) k2.
Definition structure_text (w : world) (r : nat) (comment : str) (body : list str) : str :=
  comment ++ $"struct " ++ callback_structure_name w r ++ $" : public " ++ class_qualified_name w r ++ $" {" ++ [nl; tab]
  ++ $"using " ++ class_qualified_name w r ++ $"::" ++ n_name (r_decl (rec_ w r)) ++ $";" ++ [nl; nl] ++ concat body ++ $"};" ++ [nl; nl].

(** ** Constructors *)

Definition default_constructor (T : fn) : Prop := exists k, f_ctor T = Some k /\ c_default k = true.
Definition copy_constructor (T : fn) (const : bool) : Prop := exists k, f_ctor T = Some k /\ c_copy k = Some const.
Definition move_constructor (T : fn) : Prop := exists k, f_ctor T = Some k /\ c_move k = true.

(** A new object without arguments: of the class, of the call-back structure
    ([tramp]) if a Python class derives from it, always if it is abstract. *)
Definition new_object (cls : str) : str := $"[](){ return new " ++ cls ++ $"(); }".
Inductive default_line (abstract : bool) (cls : str) : option str -> str -> Prop :=
| DE_abstract t : abstract = true -> default_line abstract cls (Some t) ([tab] ++ $"cl.def( pybind11::init( " ++ new_object t ++ $" ) );" ++ [nl])
| DE_both t : abstract = false -> default_line abstract cls (Some t) ([tab] ++ $"cl.def( pybind11::init( " ++ new_object cls ++ $", " ++ new_object t ++ $" ) );" ++ [nl])
| DE_plain : abstract = false -> default_line abstract cls None ([tab] ++ $"cl.def( pybind11::init( " ++ new_object cls ++ $" ) );" ++ [nl]).
(** A copy. *)
Definition copying (cls : str) (const : bool) : str :=
  [tab] ++ $"cl.def( pybind11::init( [](" ++ cls ++ (if const then $" const" else []) ++ $" &o){ return new " ++ cls ++ $"(o); } ) );" ++ [nl].
Inductive copy_lines (abstract : bool) (cls : str) (const : bool) : option str -> str -> Prop :=
| CO_abstract t : abstract = true -> copy_lines abstract cls const (Some t)
    ([tab] ++ $"cl.def(pybind11::init<" ++ t ++ (if const then $" const" else []) ++ $" &>());" ++ [nl])
| CO_both t : abstract = false -> copy_lines abstract cls const (Some t) (copying t const ++ copying cls const)
| CO_plain : abstract = false -> copy_lines abstract cls const None (copying cls const).

(** The text for the constructor [T]. *)
Inductive constructor_text (w : world) (abstract : bool) (cls : str) (tramp : option str) (T : fn) : str -> Prop :=
| CT_copy const s : copy_constructor T const -> copy_lines abstract cls const tramp s -> constructor_text w abstract cls tramp T (annotation w T true ++ s)
| CT_default s : (forall const, ~ copy_constructor T const) -> default_constructor T -> f_params T = [] -> default_line abstract cls tramp s ->
    constructor_text w abstract cls tramp T (annotation w T true ++ s)
| CT_other k ls : (forall const, ~ copy_constructor T const) -> ~ (default_constructor T /\ f_params T = []) -> first_default_at (f_params T) k ->
    length ls = length (f_params T) + 1 - k ->
    (forall i l, nth_error ls i = Some l -> constructor_line w abstract cls tramp T (k + i) l) ->
    constructor_text w abstract cls tramp T (concat (map (fun l => annotation w T true ++ l ++ [nl]) ls)).

(** The constructors for which there is a text: the public ones of the class,
    except for moves and those that cannot be bound or are to be skipped; those
    brought in by public using declarations, except for copies and those that
    cannot be bound. *)
Definition own_constructors (w : world) (r : nat) : list nat := filter (fun m => match f_ctor (fun_ w m) with Some _ => true | None => false end) (methods (rec_ w r)).
Definition used_constructors (w : world) (r : nat) : list nat :=
  flat_map (fun t => match t with
                     | UMethod m => match f_ctor (fun_ w m) with Some _ => [m] | None => [] end
                     | UField _ => []
                     end) (using_targets (rec_ w r)).
Definition bound_constructor (w : world) (m : nat) : Prop :=
  public (f_decl (fun_ w m)) /\ ~ move_constructor (fun_ w m) /\ ~ unbindable w (fun_ w m) /\ ~ function_skipped w (fun_ w m).
Definition used_constructor (w : world) (m : nat) : Prop :=
  ~ unbindable w (fun_ w m) /\ forall const, ~ copy_constructor (fun_ w m) const.
(** A base, direct or indirect, cannot be constructed without arguments. *)
Inductive base_without_default (w : world) (r : nat) : Prop :=
| BD_none b R : In b (r_bases (rec_ w r)) -> base_record b = Some R -> r_has_default (rec_ w R) = false -> base_without_default w r
| BD_hidden b R m : In b (r_bases (rec_ w r)) -> base_record b = Some R -> In (MMethod m) (r_members (rec_ w R)) -> default_constructor (fun_ w m) ->
    n_access (f_decl (fun_ w m)) = Private \/ f_deleted (fun_ w m) = true -> base_without_default w r
| BD_base b R : In b (r_bases (rec_ w r)) -> base_record b = Some R -> base_without_default w R -> base_without_default w r.
(** The class has an implicit default constructor. *)
Definition implicit_default (w : world) (r : nat) : Prop :=
  r_needs_default (rec_ w r) = true /\ ~ base_without_default w r /\
  forall m, In m (own_constructors w r ++ used_constructors w r) -> ~ default_constructor (fun_ w m).
(** All constructors. *)
Inductive constructors_text (w : world) (r : nat) (cls : str) (tramp : option str) : str -> Prop :=
| CS implicit own owns used useds :
    (implicit_default w r /\ (exists l, default_line (r_abstract (rec_ w r)) cls tramp l /\
        implicit = (if annotate_functions (wopt w) then [tab] ++ $"// function-signature: " ++ cls ++ $"()" ++ [nl] else []) ++ l)) \/
    (~ implicit_default w r /\ implicit = []) ->
    selection (bound_constructor w) (own_constructors w r) own ->
    Forall2 (fun m s => constructor_text w (r_abstract (rec_ w r)) cls tramp (fun_ w m) s) own owns ->
    selection (used_constructor w) (used_constructors w r) used ->
    Forall2 (fun m s => constructor_text w (r_abstract (rec_ w r)) cls tramp (fun_ w m) s) used useds ->
    constructors_text w r cls tramp (implicit ++ concat owns ++ concat useds).

(** ** The statement for a class *)

(** The bases named in the statement. *)
Definition silent_bases : list str :=
  [$"std::enable_shared_from_this"; $"std::string"; $"std::basic_string"; $"std::pair"; $"std::tuple"].
Definition named_base (w : world) (b : base) : Prop :=
  b_access b = Public /\ exists R, base_record b = Some R /\ ~ In (standard_name w (n_qname (r_decl (rec_ w R)))) silent_bases /\
    ~ rejected_class w R (targs_of (rec_ w R)) /\ ~ class_skipped w R (targs_of (rec_ w R)).
Definition base_classes (l : list base) : list nat :=
  flat_map (fun b => match base_record b with Some R => [R] | None => [] end) l.

(** The line that creates the class; [enclosing]: the variable of the module or
    class it is put in. *)
Definition class_line (w : world) (r : nat) (hold : str) (tramp : option str) (bases : list nat) (enclosing : str) (local : bool) : str :=
  let name := standard_name w (n_qname (r_decl (rec_ w r))) in
  let cls := class_qualified_name w r in
  (if mem (nospace name) (lists (wcfg w) smart_held_classes) then [tab] ++ $"PYBIND11_TYPE_CASTER_BASE_HOLDER(" ++ cls ++ $" " ++ hold ++ $")" ++ [nl] else [])
  ++ [tab] ++ $"pybind11::class_<" ++ cls ++ hold ++ (match tramp with Some t => $", " ++ t | None => [] end)
  ++ concat (map (fun R => $", " ++ class_qualified_name w R) bases) ++ $"> cl(" ++ enclosing ++ $", " ++ quoted (python_class_name w r)
  ++ $", " ++ quoted (documentation_string (n_doc (r_decl (rec_ w r))))
  ++ (if local then $", pybind11::module_local()" else [])
  ++ (if mem (nospace name) (lists (wcfg w) buffer_protocols) then $", pybind11::buffer_protocol()" else []) ++ $");" ++ [nl].

(** ** Nested declarations *)

(** The nested classes that are bound with a class: the public ones and the
    instances of public templates, each by its definition, unless it cannot be
    bound. *)
Definition inner_classes (w : world) (r : nat) : list nat :=
  flat_map (fun m => match m with
                     | MRec i => match n_access (r_decl (rec_ w i)) with Public => [i] | _ => [] end
                     | MClassTemplate Public specs => specs
                     | _ => []
                     end) (r_members (rec_ w r)).
Definition definition_of (w : world) (i : nat) : nat :=
  if r_is_def (rec_ w i) then i else match r_definition (rec_ w i) with Some d => d | None => i end.
Definition bound_inner (w : world) (i : nat) : Prop :=
  r_first (rec_ w i) = true /\ ~ rejected_class w (definition_of w i) (targs_of (rec_ w (definition_of w i))).
(** Public enums of the class. *)
Definition inner_enums (w : world) (r : nat) : list nat :=
  flat_map (fun m => match m with MEnum e => [e] | _ => [] end) (r_members (rec_ w r)).
Definition bound_enum (w : world) (e : nat) : Prop :=
  public (e_decl (enum_ w e)) /\ e_instance (enum_ w e) = false /\ n_name (e_decl (enum_ w e)) <> [] /\ ~ In ")"%char (n_name (e_decl (enum_ w e))) /\
  ~ enum_skipped w (enum_ w e).
(** Types and values of the namespace are to be local to the module. *)
Definition local_to_module (w : world) (ns : str) (b : bool) : Prop :=
  let add := lists (wcfg w) module_local_namespaces_to_add in
  let drop := lists (wcfg w) module_local_namespaces_to_skip in
  (In $"@all_namespaces" add /\ (b = true <-> ~ In ns drop)) \/ (~ In $"@all_namespaces" add /\ (b = true <-> In ns add)).
Definition enum_text (w : world) (module : str) (e : enum) (s : str) : Prop :=
  exists local, local_to_module w (namespace_from_named_decl w (e_decl e)) local /\
    s = enum_head module e local ++ concat (map (fun v => enum_entry (fst v) (snd v)) (e_values e)) ++ (if e_class_tag e then not_exported else exported).
(** The lines for a function, for an object called [cl]. *)
Definition method_text (w : world) (c : nat * option nat) (s : str) : Prop :=
  let F := fun_ w (fst c) in
  exists k ls, smallest_arity F k /\ length ls = length (f_params F) + 1 - k /\
    (forall i l, nth_error ls i = Some l -> def_line w F (k + i) (snd c) ((match snd c with Some _ => true | None => false end) || f_variadic F) l) /\
    s = annotation w F false ++ concat (map (fun l => [tab] ++ $"cl" ++ l ++ [nl]) ls).

(** [members_text w r cls s]: the public data members and member functions of
    the class [r], which is called [cls]. *)
Definition data_text (w : world) (r : nat) (s : str) : Prop :=
  exists fs ls, exposed w (rec_ w r) fs /\ Forall2 (field_line w (class_qualified_name w r)) fs ls /\ s = concat ls.
Definition methods_text (w : world) (r : nat) (s : str) : Prop :=
  exists l ts, selection (chosen w) (candidates w r) l /\ Forall2 (method_text w) l ts /\ s = concat ts.
Definition folded_text (w : world) (r : nat) (s : str) : Prop :=
  exists l ts, folded_bases w r l /\ Forall2 (fun R t => exists d m, data_text w R d /\ methods_text w R m /\ t = d ++ m) l ts /\ s = concat ts.

(** ** Conversion to a string *)

(** The type of the operator that prints objects of the class; for an instance
    of a class template, also of the template operator. *)
Definition printer_type (w : world) (r : nat) : str :=
  $"std::ostream & (*)(std::ostream &, const " ++ (if r_struct (rec_ w r) then $"struct " else $"class ") ++ class_qualified_name w r ++ $" &)".
Definition template_printer_type (w : world) (r : nat) (s : str) : Prop :=
  exists args, separated $", " (map (fun i => $"type-parameter-0-" ++ dec i) (seq 0 (length (targs_of (rec_ w r))))) args /\
    s = $"std::ostream & (*)(std::ostream &, const " ++ standard_name w (n_name (r_decl (rec_ w r))) ++ $"<" ++ args ++ $"> &)".
(** [printer w ops r o]: of the insertion operators [ops], by type, the one for
    the class. *)
Inductive printer (w : world) (ops : list (str * nat)) (r : nat) : option nat -> Prop :=
| PR_own f : lookup (printer_type w r) ops = Some f -> printer w ops r (Some f)
| PR_plain : lookup (printer_type w r) ops = None -> r_targs (rec_ w r) = None -> printer w ops r None
| PR_template key : lookup (printer_type w r) ops = None -> r_targs (rec_ w r) <> None -> template_printer_type w r key -> printer w ops r (lookup key ops)
| PR_no_arguments o : lookup (printer_type w r) ops = None -> r_targs (rec_ w r) = Some [] -> printer w ops r o.
Definition no_printing (w : world) (r : nat) : Prop :=
  listed_in w functions_to_skip (class_qualified_name w r ++ $"::__str__") \/
  listed_in w functions_to_skip (standard_name w (n_qname (r_decl (rec_ w r)) ++ $"::__str__")).
Definition printing (w : world) (r f : nat) : str :=
  let ns := namespace_from_named_decl w (f_decl (fun_ w f)) in
  [nl; tab] ++ $"cl.def(" ++ quoted $"__str__" ++ $", [](" ++ class_qualified_name w r ++ $" const &o) -> std::string { std::ostringstream s;"
  ++ (match ns with [] => [] | _ => $" using namespace " ++ ns ++ $";" end) ++ $" s << o; return s.str(); } );" ++ [nl].
Inductive str_text (w : world) (ops : list (str * nat)) (r : nat) : str -> list nat -> Prop :=
| ST_skipped : no_printing w r -> str_text w ops r [] []
| ST_none : ~ no_printing w r -> printer w ops r None -> str_text w ops r [] []
| ST_some f : ~ no_printing w r -> printer w ops r (Some f) -> str_text w ops r (printing w r f) [f].

(** ** The whole class *)

Definition class_name (w : world) (r : nat) : str := standard_name w (n_qname (r_decl (rec_ w r))).
(** A call of a configured binder in place of the generated code. *)
Definition binder_call (w : world) (r : nat) (binder : str) : str :=
  [tab] ++ generate_comment_for_declaration w (r_decl (rec_ w r))
  ++ [tab] ++ binder ++ standard_name w (rec_specialization (rec_ w r)) ++ $"(M(" ++ quoted (namespace_from_named_decl w (r_decl (rec_ w r))) ++ $")"
  ++ concat (map (fun a => $", " ++ quoted (fix_boolean_types (mangle_type_name (standard_name w (arg_text a)) true))) (targs_of (rec_ w r)))
  ++ $");" ++ [nl; nl].
Definition add_on_call (binder : option str) : str := match binder with Some b => [nl; tab] ++ b ++ $"(cl);" ++ [nl] | None => [] end.
(** The call-back structure a class gets, if any. *)
Definition has_structure (w : world) (r : nat) : Prop := needs_callback w r /\ ~ blocked w r.
Inductive structure_of (w : world) (r : nat) : option str -> str -> list nat -> Prop :=
| SO_none : ~ has_structure w r -> structure_of w r None [] []
| SO_some L l body k : has_structure w r -> hierarchy w r L ->
    (forall c m, In (c, m) l <-> nearest w (versions w L) c m /\ f_final (fun_ w m) = false) ->
    (forall c m s, In (c, m) (versions w L) -> overridable w (fun_ w m) -> virtual_signature w (fun_ w m) s ->
       exists c' m', nearest w (versions w L) c' m' /\ virtual_signature w (fun_ w m') s) ->
    NoDup l -> overriders w (class_qualified_name w r) 0 l body k ->
    structure_of w r (Some (callback_structure_name w r)) (structure_text w r (generate_comment_for_declaration w (r_decl (rec_ w r))) body) (map snd l).
Inductive holder_text (w : world) (r : nat) : str -> Prop :=
| HT_smart : derives_shared w r \/ (forall a, r_dtor (rec_ w r) = Some a -> a = Public) -> holder_text w r ($", " ++ strs (wcfg w) holder_type ++ $"<" ++ class_qualified_name w r ++ $">")
| HT_raw a : ~ derives_shared w r -> r_dtor (rec_ w r) = Some a -> a <> Public -> holder_text w r ($", " ++ class_qualified_name w r ++ $"*").

(** The code of the class is generated: the class is neither known to Python nor
    left to a configured binder. *)
Definition generated (w : world) (r : nat) : Prop :=
  ~ python_type w (class_name w r) /\ lookup (class_name w r) (maps (wcfg w) Config.binders) = None.
(** [class_binding w ops r b]: [b] is generated for the class [r]. *)
Inductive class_binding (w : world) (ops : list (str * nat)) : nat -> cbound -> Prop :=
| CB_python r : python_type w (class_name w r) -> class_binding w ops r (mkcbound [] [] [] [] [])
| CB_binder r binder : ~ python_type w (class_name w r) -> lookup (class_name w r) (maps (wcfg w) Config.binders) = Some binder ->
    class_binding w ops r (mkcbound (binder_call w r binder) [] [] [] [])
| CB_class r tramp struct_text struct_incl hold local bases head ctors enums enum_texts data meths folded print_text print_incl inner inner_bound req :
    ~ python_type w (class_name w r) -> lookup (class_name w r) (maps (wcfg w) Config.binders) = None ->
    structure_of w r tramp struct_text struct_incl ->
    holder_text w r hold -> local_to_module w (namespace_from_named_decl w (r_decl (rec_ w r))) local ->
    (if r_anon (rec_ w r) then bases = [] /\ head = []
     else selection (named_base w) (r_bases (rec_ w r)) bases /\
       head = class_line w r hold tramp (base_classes bases)
                (if n_member (r_decl (rec_ w r)) then $"enclosing_class" else $"M(" ++ quoted (namespace_from_named_decl w (r_decl (rec_ w r))) ++ $")") local) ->
    (if r_anon (rec_ w r) || r_abstract (rec_ w r) && (match tramp with None => true | Some _ => false end) then ctors = []
     else constructors_text w r (class_qualified_name w r) tramp ctors) ->
    selection (bound_enum w) (inner_enums w r) enums -> Forall2 (fun e s => enum_text w $"cl" (enum_ w e) s) enums enum_texts ->
    data_text w r data -> methods_text w r meths -> folded_text w r folded ->
    str_text w ops r print_text print_incl ->
    selection (bound_inner w) (inner_classes w r) inner -> Forall2 (fun i b => class_binding w ops (definition_of w i) b) inner inner_bound ->
    class_binding w ops r
      (mkcbound
        (indent ($"{ " ++ generate_comment_for_declaration w (r_decl (rec_ w r))
          ++ (if n_member (r_decl (rec_ w r)) && negb (r_anon (rec_ w r)) then [tab] ++ $"auto & enclosing_class = cl;" ++ [nl] else [])
          ++ head ++ ctors ++ concat (map (fun s => [nl] ++ s) enum_texts) ++ data ++ meths ++ folded ++ print_text
          ++ add_on_call (lookup (class_name w r) (maps (wcfg w) add_on_binders))
          ++ (match inner_bound with [] => [] | _ => [nl] ++ concat (map (fun b => cb_code b ++ [nl]) inner_bound) end) ++ $"}" ++ [nl]) [tab])
        (struct_text ++ concat (map cb_prefix inner_bound)) (struct_incl ++ print_incl) (base_classes bases) req).
