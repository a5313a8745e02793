(** The inputs of binder: what clang tells it about a translation unit.

    Nothing here models /repo code by itself: a declaration is a record whose
    fields are the answers of the clang queries that /repo/source makes, and
    every theorem quantifies over all such records.  Declarations are
    identified by numbers (the C++ code identifies them by pointers). *)
From Coq Require Import Ascii String Bool Arith.
From Coq Require Import List.
From Verif Require Import Str Util Config.
Import ListNotations.

(** [clang::AccessSpecifier] *)
Inductive access := Public | Protected | Private | NoAccess.
Definition access_eqb (a b : access) : bool :=
  match a, b with
  | Public, Public | Protected, Protected | Private, Private | NoAccess, NoAccess => true
  | _, _ => false
  end.

(** [clang::QualType].  The boolean [c] is the local [const] qualifier.
    [TSugar] is any non-canonical node (typedef, elaborated, parenthesised
    type, ...) written [name]; [TDep] is a template-dependent type.  A class
    type carries the number of its declaration and its template arguments
    ([[]] when it is not a template specialization). *)
Inductive qty :=
| TBuiltin (c : bool) (name : str)
| TPtr (c : bool) (t : qty)
| TLRef (t : qty)
| TRRef (t : qty)
| TArray (c : bool) (t : qty)
| TFun (ret : qty) (params : list qty)
| TRec (c : bool) (r : nat) (args : list targ)
| TEnum (c : bool) (e : nat)
| TSugar (c : bool) (name : str) (t : qty)
| TDep (c : bool) (name : str)
(** [clang::TemplateArgument] together with the text that
    [template_argument_to_string] (util.cpp:229-252) prints for it. *)
with targ :=
| Targ (k : targ_kind) (printed : str)
with targ_kind :=
| KType (t : qty)
| KIntegral (t : qty)
| KTemplate (d : nat)                             (* number of the templated class *)
| KDecl (d : nat) (proto : option (qty * list qty)) (* a value declaration (a function [d]); its function type, if any *)
| KPack (size : nat)
| KOther.

(** Fields common to every [clang::NamedDecl]. *)
Record named := mknamed {
  n_name : str;               (* getNameAsString() *)
  n_qname : str;              (* getQualifiedNameAsString() *)
  n_include : option str;     (* text at the #include that brought the file in, up to the end of the buffer; None: invalid location *)
  n_line : nat;               (* spelling line of the declaration *)
  n_system : bool;            (* declared in a system header *)
  n_access : access;          (* getAccess() *)
  n_member : bool;            (* isCXXClassMember() *)
  n_parent : option nat;      (* enclosing class *)
  n_doc : option comment      (* local doxygen comment *)
}.

Record param := mkparam { p_name : str; p_type : qty; p_default : bool }.

(** Queries made on constructors: isDefaultConstructor, isCopyConstructor (and
    whether its parameter is exactly [const]-qualified), isMoveConstructor. *)
Record ctor := mkctor { c_default : bool; c_copy : option bool; c_move : bool }.

(** [FunctionDecl::getTemplatedKind] as far as it is distinguished. *)
Inductive tkind := TK_NonTemplate | TK_FunctionTemplate | TK_Specialization | TK_Other.

Record fn := mkfn {
  f_decl : named;
  f_ret : qty;
  f_params : list param;
  f_method : bool;            (* isa<CXXMethodDecl> *)
  f_static : bool;
  f_const : bool;
  f_virtual : bool;
  f_pure : bool;
  f_final : bool;             (* hasAttr<FinalAttr> *)
  f_variadic : bool;
  f_deleted : bool;
  f_operator : bool;          (* isOverloadedOperator() *)
  f_conversion : bool;        (* isa<CXXConversionDecl> *)
  f_dtor : bool;              (* isa<CXXDestructorDecl> *)
  f_ctor : option ctor;       (* isa<CXXConstructorDecl> *)
  f_kind : tkind;
  f_targs : option (list targ);  (* getTemplateSpecializationArgs() *)
  f_est : nat;                (* getExceptionSpecType() *)
  f_copy_assign : bool        (* isCopyAssignmentOperator() *)
}.

Record field := mkfield { fd_decl : named; fd_type : qty; fd_anon : bool }.

Record enum := mkenum {
  e_decl : named;
  e_scoped : bool;            (* isScoped() *)
  e_class_tag : bool;         (* isScopedUsingClassTag() *)
  e_instance : bool;          (* isCXXInstanceMember() *)
  e_complete : bool;          (* isCompleteDefinition() *)
  e_values : list (str * str);  (* enumerators: name, qualified name *)
  e_definition : option nat   (* getDefinition() *)
}.

Inductive target := UMethod (f : nat) | UField (f : field).

Inductive member :=
| MField (f : field)
| MMethod (f : nat)           (* every CXXMethodDecl, constructors and destructors included *)
| MEnum (e : nat)
| MRec (r : nat)
| MUsing (a : access) (targets : list target)
| MFunTemplate (specs : list nat)
| MClassTemplate (a : access) (specs : list nat).

Record base := mkbase { b_access : access; b_virtual : bool; b_type : qty }.

Record record := mkrecord {
  r_decl : named;
  r_targs : option (list targ);   (* Some: ClassTemplateSpecializationDecl *)
  r_struct : bool;
  r_abstract : bool;
  r_final : bool;
  r_complete : bool;              (* isCompleteDefinition() *)
  r_is_def : bool;                (* isThisDeclarationADefinition() *)
  r_definition : option nat;      (* getDefinition() *)
  r_first : bool;                 (* isFirstDecl() *)
  r_anon_ns : bool;               (* isInAnonymousNamespace() *)
  r_linkage : bool;               (* hasNameForLinkage() *)
  r_anon : bool;                  (* isAnonymousStructOrUnion() *)
  r_dependent : bool;             (* isDependentType() *)
  r_instantiated : bool;          (* getPointOfInstantiation().isValid() *)
  r_has_default : bool;           (* hasDefaultConstructor() *)
  r_needs_default : bool;         (* needsImplicitDefaultConstructor() *)
  r_dtor : option access;         (* getDestructor(): its access *)
  r_bases : list base;
  r_members : list member         (* decls_begin() .. decls_end() *)
}.

(** [method_begin() .. method_end()] and [ctor_begin() .. ctor_end()]: the
    methods among the declarations, in order. *)
Definition methods (r : record) : list nat :=
  flat_map (fun m => match m with MMethod f => [f] | _ => [] end) (r_members r).

(** A translation unit with the two clang services used as oracles:
    [QualType::getAsString()] and [llvm::Regex::sub] (one function per entry of
    the [regex_map] of type.cpp:619-640).  [e_fuel] bounds the depth of
    recursions over base classes and nested classes; theorems assume it is
    large enough. *)
Record env := mkenv {
  recs : nat -> record;
  funs : nat -> fn;
  enums : nat -> enum;
  print : qty -> str;
  rx : list (str -> str);
  e_fuel : nat
}.

Inductive decl := DFun (f : nat) | DRec (r : nat) | DEnum (e : nat).
Definition decl_eq (a b : decl) : {a = b} + {a <> b}.
Proof. decide equality; apply Nat.eq_dec. Defined.

Definition named_of (E : env) (d : decl) : named :=
  match d with
  | DFun f => f_decl (funs E f)
  | DRec r => r_decl (recs E r)
  | DEnum e => e_decl (enums E e)
  end.

(** Everything a run depends on besides the file system. *)
Record world := mkworld { wenv : env; wcfg : config; wopt : options }.

Definition rec_ (w : world) (r : nat) : record := recs (wenv w) r.
Definition fun_ (w : world) (f : nat) : fn := funs (wenv w) f.
Definition enum_ (w : world) (e : nat) : enum := enums (wenv w) e.

Definition targs_of (r : record) : list targ := match r_targs r with Some l => l | None => [] end.
Definition is_specialization (r : record) : bool := match r_targs r with Some _ => true | None => false end.
Definition is_ctor (f : fn) : bool := match f_ctor f with Some _ => true | None => false end.

(** [getTypeForDecl()] *)
Definition rec_type (w : world) (r : nat) : qty := TRec false r (targs_of (rec_ w r)).

(** ** clang queries on types *)

Definition add_const (c : bool) (t : qty) : qty :=
  match t with
  | TBuiltin c' n => TBuiltin (c || c') n
  | TPtr c' t' => TPtr (c || c') t'
  | TArray c' t' => TArray (c || c') t'
  | TRec c' r l => TRec (c || c') r l
  | TEnum c' e => TEnum (c || c') e
  | TSugar c' n t' => TSugar (c || c') n t'
  | TDep c' n => TDep (c || c') n
  | TLRef _ | TRRef _ | TFun _ _ => t          (* references and function types are never const *)
  end.

(** [getCanonicalType()].  The template arguments of a class type are kept
    (they identify the class). *)
Fixpoint canonical (t : qty) : qty :=
  match t with
  | TBuiltin _ _ | TRec _ _ _ | TEnum _ _ | TDep _ _ => t
  | TPtr c t' => TPtr c (canonical t')
  | TLRef t' => TLRef (canonical t')
  | TRRef t' => TRRef (canonical t')
  | TArray c t' => TArray c (canonical t')
  | TFun r ps => TFun (canonical r) (map canonical ps)
  | TSugar c _ t' => add_const c (canonical t')
  end.

(** [getDesugaredType()]: strips sugar at the top only. *)
Fixpoint desugared (t : qty) : qty :=
  match t with
  | TSugar c _ t' => add_const c (desugared t')
  | _ => t
  end.

(** [isPointerType], [isLValueReferenceType], ...: all look at the canonical type. *)
Definition is_pointer (t : qty) : bool := match canonical t with TPtr _ _ => true | _ => false end.
Definition is_lref (t : qty) : bool := match canonical t with TLRef _ => true | _ => false end.
Definition is_rref (t : qty) : bool := match canonical t with TRRef _ => true | _ => false end.
Definition is_reference (t : qty) : bool := is_lref t || is_rref t.
Definition is_array (t : qty) : bool := match canonical t with TArray _ _ => true | _ => false end.
Definition is_function_pointer (t : qty) : bool :=
  match canonical t with TPtr _ (TFun _ _) => true | _ => false end.
(** [isConstQualified()]: sees through sugar. *)
Definition is_const (t : qty) : bool :=
  match canonical t with
  | TBuiltin c _ | TPtr c _ | TArray c _ | TRec c _ _ | TEnum c _ | TSugar c _ _ | TDep c _ => c
  | TLRef _ | TRRef _ | TFun _ _ => false
  end.
(** [isInstantiationDependentType()] *)
Fixpoint dependent (t : qty) : bool :=
  match t with
  | TDep _ _ => true
  | TPtr _ t' | TLRef t' | TRRef t' | TArray _ t' | TSugar _ _ t' => dependent t'
  | TFun r ps => dependent r || existsb dependent ps
  | TRec _ _ args =>
      existsb (fun a => match a with
                        | Targ (KType t') _ | Targ (KIntegral t') _ => dependent t'
                        | _ => false
                        end) args
  | TBuiltin _ _ | TEnum _ _ => false
  end.

(** [getAsCXXRecordDecl()] and [getAsTagDecl()]: through sugar. *)
Fixpoint as_record (t : qty) : option nat :=
  match t with
  | TRec _ r _ => Some r
  | TSugar _ _ t' => as_record t'
  | _ => None
  end.
Fixpoint as_tag (t : qty) : option decl :=
  match t with
  | TRec _ r _ => Some (DRec r)
  | TEnum _ e => Some (DEnum e)
  | TSugar _ _ t' => as_tag t'
  | _ => None
  end.

(** [dyn_cast<RecordType>(b->getType().getCanonicalType().getTypePtr())] and its declaration. *)
Definition base_record (b : base) : option nat :=
  match canonical (b_type b) with TRec _ r _ => Some r | _ => None end.
