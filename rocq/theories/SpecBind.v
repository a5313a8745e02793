(** Declarative specifications for the generated code: what the statements
    written for a function, an enum or a class say.  Vocabulary: the
    declarations of Ast.v, the settings of Config.v, and the C++ names
    [standard_name], [class_qualified_name] and so on of Types.v and Func.v. *)
From Coq Require Import Ascii String Bool Arith NArith.
From Coq Require Import List.
From Verif Require Import Str Util Config Ast Types Func SpecTypes.
Import ListNotations.

(** [s] is the texts of [l] with [sep] between neighbours. *)
Inductive separated (sep : str) : list str -> str -> Prop :=
| SP_none : separated sep [] []
| SP_one x : separated sep [x] x
| SP_more x y l s : separated sep (y :: l) s -> separated sep (x :: y :: l) (x ++ sep ++ s).

(** ** Functions *)

(** The C++ text of a type: [std::size_t] is kept, any other type is named by
    its canonical type. *)
Inductive type_text (w : world) (t : qty) : str -> Prop :=
| TT_size : print (wenv w) t = $"std::size_t" -> type_text w t $"std::size_t"
| TT_other : print (wenv w) t <> $"std::size_t" -> type_text w t (standard_name w (print (wenv w) (canonical t))).

(** The parameter types of a function, in order. *)
Definition parameter_types (w : world) (F : fn) (s : str) : Prop :=
  exists texts, Forall2 (type_text w) (map p_type (f_params F)) texts /\ separated $", " texts s.
(** The type of a pointer to the function. *)
Definition pointer_type (w : world) (F : fn) (s : str) : Prop :=
  exists ret args, type_text w (f_ret F) ret /\ parameter_types w F args /\
    s = ret ++ $" (" ++ (if f_method F && negb (f_static F) then class_qualified_name w (parent_of F) ++ $"::" else []) ++ $"*)(" ++ args ++ $")"
        ++ (if f_method F && f_const F then $" const" else []).

(** The parameters of a lambda: the i-th is called ai; values are taken by
    reference to const. *)
Definition parameter_name (i : nat) : str := $"a" ++ dec i.
Definition by_value (t : qty) : Prop := forall p c, canonical t <> TLRef p /\ canonical t <> TRRef p /\ canonical t <> TPtr c p.
Inductive lambda_parameter (w : world) (i : nat) (t : qty) : str -> Prop :=
| LP_indirect s : ~ by_value t -> type_text w t s -> lambda_parameter w i t (s ++ $" " ++ parameter_name i)
| LP_const s : by_value t -> is_const t = true -> type_text w t s -> lambda_parameter w i t (s ++ $" & " ++ parameter_name i)
| LP_value s : by_value t -> is_const t = false -> type_text w t s -> lambda_parameter w i t (s ++ $" const & " ++ parameter_name i).
(** A lambda return type has no elaborated type keyword in front.  (Types
    printed with two keywords do not exist; nothing is said about them.) *)
Definition keywords : list str := [$"enum "; $"class "; $"struct "].
Definition no_keyword (s : str) : Prop := forall k, In k keywords -> ~ starts k s /\ ~ starts ($"const " ++ k) s.
Inductive keyword_dropped : str -> str -> Prop :=
| KD_keyword k s : In k keywords -> no_keyword s -> keyword_dropped (k ++ s) s
| KD_const_keyword k s : In k keywords -> no_keyword ($"const " ++ s) -> keyword_dropped ($"const " ++ k ++ s) ($"const " ++ s)
| KD_none s : no_keyword s -> keyword_dropped s s
| KD_repeated k s s' : In k keywords -> ~ no_keyword s -> keyword_dropped (k ++ s) s'
| KD_const_repeated k s s' : In k keywords -> ~ no_keyword ($"const " ++ s) -> keyword_dropped ($"const " ++ k ++ s) s'.
Definition return_text (w : world) (t : qty) (s : str) : Prop := exists full, type_text w t full /\ keyword_dropped full s.

(** The C++ name under which a function is called; [lifted]: the class to which
    a using declaration brought it. *)
Inductive callee (w : world) (F : fn) : option nat -> str -> Prop :=
| CA_own : callee w F None (standard_name w (n_qname (f_decl F)))
| CA_lifted r : callee w F (Some r) (standard_name w (class_qualified_name w r ++ $"::" ++ n_name (f_decl F))).

(** [expression w F n lifted lambda e]: [e] is the C++ expression for calls with
    [n] arguments. *)
Inductive expression (w : world) (F : fn) (n : nat) (lifted : option nat) (lambda : bool) : str -> Prop :=
| EX_pointer type name : n = length (f_params F) -> lambda = false -> pointer_type w F type -> callee w F lifted name ->
    expression w F n lifted lambda ($"(" ++ type ++ $") &" ++ name ++ fun_specialization w F)
| EX_method params args typed names ret : n < length (f_params F) \/ lambda = true -> f_method F = true -> f_static F = false ->
    args = map parameter_name (seq 0 n) ->
    length params = n -> (forall i t s, nth_error (map p_type (f_params F)) i = Some t -> nth_error params i = Some s -> lambda_parameter w i t s) ->
    separated $", " ((class_qualified_name w (match lifted with Some r => r | None => parent_of F end) ++ (if f_const F then $" const" else []) ++ $" &o") :: params) typed ->
    separated $", " args names -> return_text w (f_ret F) ret ->
    expression w F n lifted lambda ($"[](" ++ typed ++ $") -> " ++ ret ++ $" { return o." ++ n_name (f_decl F) ++ $"(" ++ names ++ $"); }")
| EX_function params args typed names ret name : n < length (f_params F) \/ lambda = true -> f_method F = false \/ f_static F = true ->
    args = map parameter_name (seq 0 n) ->
    length params = n -> (forall i t s, nth_error (map p_type (f_params F)) i = Some t -> nth_error params i = Some s -> lambda_parameter w i t s) ->
    separated $", " params typed -> separated $", " args names -> return_text w (f_ret F) ret -> callee w F lifted name ->
    expression w F n lifted lambda ($"[](" ++ typed ++ $") -> " ++ ret ++ $" { return " ++ name ++ $"(" ++ names ++ $"); }").

(** [forwards n self typed passed]: the parameter list [typed] declares [n]
    parameters with different names after [self], and the argument list
    [passed] is exactly these names in order. *)
Definition forwards (n : nat) (self : list str) (typed passed : str) : Prop :=
  exists names params, length names = n /\ NoDup names /\
    Forall2 (fun name text => exists type, text = type ++ $" " ++ name) names params /\
    separated $", " (self ++ params) typed /\ separated $", " names passed.

(** The Python name: the one of the operator table, or the C++ name; static
    member functions get the configured prefix. *)
Definition is_static (F : fn) : bool := f_method F && f_static F.
Definition python_name (w : world) (F : fn) (s : str) : Prop :=
  exists base, s = (if is_static F then strs (wcfg w) prefix_for_static_member_functions else []) ++ base /\
    ((f_operator F = true /\ operator_name (n_name (f_decl F)) (length (f_params F)) base) \/
     (f_operator F = true /\ base = [] /\ forall name, ~ operator_name (n_name (f_decl F)) (length (f_params F)) name) \/
     (f_operator F = false /\ base = n_name (f_decl F))).

(** The documentation: comment and C++ signature, for the full set of arguments. *)
Inductive documented (w : world) (F : fn) (n : nat) (lambda : bool) : str -> Prop :=
| DC_full comment args ret : n = length (f_params F) -> lambda = false ->
    comment = (match documentation_string (n_doc (f_decl F)) with [] => [] | d => d ++ [bs; "n"%char; bs; "n"%char] end) ->
    parameter_types w F args -> type_text w (f_ret F) ret ->
    documented w F n lambda (comment ++ $"C++: " ++ standard_name w (n_qname (f_decl F) ++ $"(" ++ args ++ $")" ++ (if f_method F && f_const F then $" const" else []) ++ $" --> " ++ ret))
| DC_none : n < length (f_params F) \/ lambda = true -> documented w F n lambda [].

(** The return value policy, by kind of function and of return type. *)
Definition instance (F : fn) : Prop := f_method F = true /\ f_static F = false.
Inductive policy (w : world) (F : fn) : str -> Prop :=
| PO_member_pointer c t : instance F -> canonical (f_ret F) = TPtr c t -> policy w F ($", " ++ strs (wcfg w) default_member_pointer_return_value_policy)
| PO_member_lvalue t : instance F -> canonical (f_ret F) = TLRef t -> policy w F ($", " ++ strs (wcfg w) default_member_lvalue_reference_return_value_policy)
| PO_member_rvalue t : instance F -> canonical (f_ret F) = TRRef t -> policy w F ($", " ++ strs (wcfg w) default_member_rvalue_reference_return_value_policy)
| PO_static_pointer c t : ~ instance F -> canonical (f_ret F) = TPtr c t -> policy w F ($", " ++ strs (wcfg w) default_static_pointer_return_value_policy)
| PO_static_lvalue t : ~ instance F -> canonical (f_ret F) = TLRef t -> policy w F ($", " ++ strs (wcfg w) default_static_lvalue_reference_return_value_policy)
| PO_static_rvalue t : ~ instance F -> canonical (f_ret F) = TRRef t -> policy w F ($", " ++ strs (wcfg w) default_static_rvalue_reference_return_value_policy)
| PO_value : by_value (f_ret F) -> policy w F [].

(** The statement for calls with [n] arguments (without the object it is
    applied to). *)
Definition quoted (s : str) : str := [dq] ++ s ++ [dq].
Inductive def_line (w : world) (F : fn) (n : nat) (lifted : option nat) (lambda : bool) : str -> Prop :=
| DL name expr doc pol guard :
    python_name w F name -> expression w F n lifted lambda expr -> documented w F n lambda doc -> policy w F pol ->
    guard = (match strs (wcfg w) default_call_guard with [] => [] | g => $", pybind11::call_guard<" ++ g ++ $">()" end) ->
    def_line w F n lifted lambda
      ($".def" ++ (if is_static F then $"_static" else []) ++ $"(" ++ quoted name ++ $", " ++ expr ++ $", " ++ quoted doc ++ pol
       ++ concat (map (fun p => $", pybind11::arg(" ++ quoted (p_name p) ++ $")") (firstn n (f_params F))) ++ guard ++ $");").

(** The smallest number of arguments for which there is an overload: the
    position of the first default argument; all of them if a parameter has
    function type. *)
Inductive function_type : qty -> Prop :=
| FT_function r ps : function_type (TFun r ps)
| FT_pointer c t : function_type t -> function_type (TPtr c t)
| FT_lvalue t : function_type t -> function_type (TLRef t)
| FT_rvalue t : function_type t -> function_type (TRRef t).
Definition first_default_at (ps : list param) (k : nat) : Prop :=
  k <= length ps /\ (forall p, In p (firstn k ps) -> p_default p = false) /\ (k = length ps \/ exists p, nth_error ps k = Some p /\ p_default p = true).
Definition takes_function (F : fn) : Prop := exists p, In p (f_params F) /\ function_type (canonical (p_type p)).
Definition smallest_arity (F : fn) (k : nat) : Prop :=
  (takes_function F /\ k = length (f_params F)) \/ (~ takes_function F /\ first_default_at (f_params F) k).

(** ** Constructors *)

(** [factory w T n cls f]: [f] is the C++ lambda which constructs a [cls] from
    [n] arguments. *)
Inductive factory (w : world) (T : fn) (n : nat) (cls : str) : str -> Prop :=
| FA params typed names : length params = n ->
    (forall i t s, nth_error (map p_type (f_params T)) i = Some t -> nth_error params i = Some s -> lambda_parameter w i t s) ->
    separated $", " params typed -> separated $", " (map parameter_name (seq 0 n)) names ->
    factory w T n cls ($"[](" ++ typed ++ $"){ return new " ++ cls ++ $"(" ++ names ++ $"); }").

(** The statement for constructing an object from [n] arguments: by the
    constructor itself for the full set of arguments of a constructor without
    ellipsis, else by a factory.  [abstract]: the class is abstract; [cls]: its
    name; [tramp]: the name of its call-back structure, if it has one. *)
Inductive constructor_line (w : world) (abstract : bool) (cls : str) (tramp : option str) (T : fn) (n : nat) : str -> Prop :=
| CL_init types : n = length (f_params T) -> f_variadic T = false -> parameter_types w T types ->
    constructor_line w abstract cls tramp T n
      ([tab] ++ $"cl.def( pybind11::init<" ++ types ++ $">()"
       ++ concat (map (fun p => $", pybind11::arg(" ++ quoted (p_name p) ++ $")") (firstn n (f_params T))) ++ $" );" ++ [nl])
| CL_abstract t f : n < length (f_params T) \/ f_variadic T = true -> abstract = true -> tramp = Some t -> factory w T n t f ->
    constructor_line w abstract cls tramp T n ([tab] ++ $"cl.def( pybind11::init( " ++ f ++ $" ), ""doc"");")
| CL_both t f g : n < length (f_params T) \/ f_variadic T = true -> abstract = false -> tramp = Some t -> factory w T n cls f -> factory w T n t g ->
    constructor_line w abstract cls tramp T n ([tab] ++ $"cl.def( pybind11::init( " ++ f ++ $", " ++ g ++ $" ), ""doc"");")
| CL_plain f : n < length (f_params T) \/ f_variadic T = true -> abstract = false -> tramp = None -> factory w T n cls f ->
    constructor_line w abstract cls tramp T n
      ([tab] ++ $"cl.def( pybind11::init( " ++ f ++ $" ), ""doc"" "
       ++ concat (map (fun p => $", pybind11::arg(" ++ quoted (p_name p) ++ $")") (firstn n (f_params T))) ++ $");").

(** ** Enums *)

(** The statement for an enum: its head, one entry per enumerator, and the
    export of the enumerators to the enclosing scope. *)
Definition enum_head (module : str) (e : enum) (local : bool) : str :=
  [tab] ++ $"pybind11::enum_<" ++ n_qname (e_decl e) ++ $">(" ++ module ++ $", " ++ quoted (n_name (e_decl e))
  ++ (if e_scoped e then [] else $", pybind11::arithmetic()") ++ $", " ++ quoted (documentation_string (n_doc (e_decl e)))
  ++ (if local then $", pybind11::module_local()" else []) ++ $")".
Definition enum_entry (name qualified_name : str) : str := [nl; tab; tab] ++ $".value(" ++ quoted name ++ $", " ++ qualified_name ++ $")".
Definition exported : str := [nl; tab; tab] ++ $".export_values();" ++ [nl; nl].
Definition not_exported : str := $";" ++ [nl; nl].

(** ** Requests *)

(** The type names announced as needed for the type [t]: those of the classes
    and enums reached through pointers and references, up to one that is to be
    skipped. *)
Inductive announces (w : world) : qty -> str -> Prop :=
| AN_class t r name : ~ type_skipped w t -> as_tag t = Some (DRec r) -> r_complete (rec_ w r) = true \/ r_targs (rec_ w r) <> None ->
    name = standard_name w (print (wenv w) (rec_type w r)) -> announces w t name
| AN_enum t e name : ~ type_skipped w t -> as_tag t = Some (DEnum e) -> e_complete (enum_ w e) = true ->
    name = standard_name w (print (wenv w) (TEnum false e)) -> announces w t name
| AN_pointer c t name : ~ type_skipped w (TPtr c t) -> announces w t name -> announces w (TPtr c t) name
| AN_lvalue t name : ~ type_skipped w (TLRef t) -> announces w t name -> announces w (TLRef t) name
| AN_rvalue t name : ~ type_skipped w (TRRef t) -> announces w t name -> announces w (TRRef t) name.
