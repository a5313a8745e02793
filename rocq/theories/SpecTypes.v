(** Declarative specifications for the decisions on types, classes and
    functions.  Vocabulary: the declarations of Ast.v, the settings of Config.v
    and the names [standard_name], [class_qualified_name], [function_qualified_name]. *)
From Coq Require Import Ascii String Bool Arith NArith.
From Coq Require Import List.
From Verif Require Import Str Util Config SpecConfig Ast Types Func.
Import ListNotations.

Definition starts (p s : str) : Prop := exists r, s = p ++ r.
Definition hidden (n : named) : Prop := n_access n = Protected \/ n_access n = Private.
(** The normalised qualified name of a declaration. *)
Notation std_name w n := (standard_name w (n_qname n)).

(** ** What cannot be bound *)

(** Names of the C++ library internals that are never bound. *)
Definition banned_name (s : str) : Prop := starts $"std::_" s \/ s = $"std::initializer_list" \/ s = $"std::locale::facet".
(** Classes that Python already knows: listed in the config file, or one of the
    builtin list (which contains the holder), or of the containers of
    pybind11/stl.h when this header is used; the config file can take a name out. *)
Definition python_type (w : world) (s : str) : Prop :=
  ~ In s (lists (wcfg w) not_python_builtins) /\
  (In s (lists (wcfg w) python_builtins) \/ s = strs (wcfg w) holder_type \/ In s known_builtin \/
   (include_pybind11_stl (wopt w) = true /\ In s stl_builtin)).

(** [rejected w t]: the type [t], as written, cannot be bound.
    [rejected_class w r args]: the class [r] (with template arguments [args])
    cannot be bound. *)
Inductive rejected (w : world) : qty -> Prop :=
| RJ_function_pointer t c r ps : canonical t = TPtr c (TFun r ps) -> rejected w t
| RJ_rvalue_reference t p : canonical t = TRRef p -> rejected w t
| RJ_array t c p : canonical t = TArray c p -> rejected w t
| RJ_dependent t : dependent t = true -> rejected w t
| RJ_pointer_to_pointer c p c' p' : canonical p = TPtr c' p' -> rejected w (TPtr c p)
| RJ_pointer_to_array c p c' p' : canonical p = TArray c' p' -> rejected w (TPtr c p)
| RJ_pointer_to_pair c p k : In k [$"struct std::pair"; $"const struct std::pair"; $"class std::tuple"; $"const class std::tuple"] ->
    starts k (standard_name w (print (wenv w) p)) -> rejected w (TPtr c p)
| RJ_pointer c p : rejected w p -> rejected w (TPtr c p)
| RJ_reference_to_pair p k : In k [$"struct std::pair"; $"class std::tuple"] ->
    starts k (standard_name w (print (wenv w) p)) -> rejected w (TLRef p)
| RJ_reference p : rejected w p -> rejected w (TLRef p)
| RJ_class t c r args : desugared t = TRec c r args -> rejected_class w r args -> rejected w t
| RJ_enum t c e : desugared t = TEnum c e -> hidden (e_decl (enum_ w e)) -> rejected w t
with rejected_class (w : world) : nat -> list targ -> Prop :=
| RC_anonymous_namespace r args : r_anon_ns (rec_ w r) = true -> rejected_class w r args
| RC_no_linkage r args : r_linkage (rec_ w r) = false -> n_member (r_decl (rec_ w r)) = false -> rejected_class w r args
| RC_unnamed r args : In ")"%char (n_qname (r_decl (rec_ w r))) ->
    r_linkage (rec_ w r) = true \/ r_anon (rec_ w r) = false -> rejected_class w r args
| RC_dependent r args : r_dependent (rec_ w r) = true -> rejected_class w r args
| RC_hidden r args : hidden (r_decl (rec_ w r)) -> rejected_class w r args
| RC_incomplete r args : r_complete (rec_ w r) = false -> r_targs (rec_ w r) = None -> rejected_class w r args
| RC_never_instantiated r args : r_complete (rec_ w r) = false -> n_qname (r_decl (rec_ w r)) <> $"std::function" ->
    r_instantiated (rec_ w r) = false -> ~ python_type w (std_name w (r_decl (rec_ w r))) -> rejected_class w r args
| RC_function_signature r args f ret ps text t : r_complete (rec_ w r) = false -> n_qname (r_decl (rec_ w r)) = $"std::function" ->
    In (Targ (KDecl f (Some (ret, ps))) text) args -> t = ret \/ In t ps -> rejected w t -> rejected_class w r args
| RC_banned r args : banned_name (std_name w (r_decl (rec_ w r))) -> rejected_class w r args.

(** The operators with a Python counterpart, by number of parameters of the
    member function; the last name also serves all larger numbers. *)
Inductive operator_name : str -> nat -> str -> Prop :=
| ON_pos : operator_name $"operator+" 0 $"__pos__"
| ON_add n : n >= 1 -> operator_name $"operator+" n $"__add__"
| ON_neg : operator_name $"operator-" 0 $"__neg__"
| ON_sub n : n >= 1 -> operator_name $"operator-" n $"__sub__"
| ON_deref : operator_name $"operator*" 0 $"dereference"
| ON_mul n : n >= 1 -> operator_name $"operator*" n $"__mul__"
| ON_pre_inc : operator_name $"operator++" 0 $"pre_increment"
| ON_post_inc n : n >= 1 -> operator_name $"operator++" n $"post_increment"
| ON_pre_dec : operator_name $"operator--" 0 $"pre_decrement"
| ON_post_dec n : n >= 1 -> operator_name $"operator--" n $"post_decrement"
| ON_other op name n : In (op, name)
    [($"operator/", $"__truediv__"); ($"operator%", $"__mod__"); ($"operator~", $"__invert__");
     ($"operator|", $"__or__"); ($"operator&", $"__and__"); ($"operator^", $"__xor__");
     ($"operator<<", $"__lshift__"); ($"operator>>", $"__rshift__");
     ($"operator+=", $"__iadd__"); ($"operator-=", $"__isub__"); ($"operator*=", $"__imul__"); ($"operator/=", $"__itruediv__");
     ($"operator%=", $"__imod__"); ($"operator|=", $"__ior__"); ($"operator&=", $"__iand__"); ($"operator^=", $"__ixor__");
     ($"operator<<=", $"__ilshift__"); ($"operator>>=", $"__irshift__");
     ($"operator()", $"__call__"); ($"operator==", $"__eq__"); ($"operator!=", $"__ne__"); ($"operator[]", $"__getitem__");
     ($"operator=", $"assign"); ($"operator->", $"arrow")] -> operator_name op n name.

(** A name with brackets other than the ones of [operator()]: something inside
    an unnamed entity. *)
Definition inside_unnamed (qn : str) : Prop :=
  exists before after, qn = before ++ ")"%char :: after /\ ~ In ")"%char after /\ forall b, before <> b ++ ["("%char].

(** [unbindable w F]: no binding can be generated for the function. *)
Inductive unbindable (w : world) (F : fn) : Prop :=
| UB_unnamed : inside_unnamed (n_qname (f_decl F)) -> unbindable w F
| UB_free_operator : f_operator F = true -> f_method F = false -> unbindable w F
| UB_operator : f_operator F = true -> (forall name, ~ operator_name (n_name (f_decl F)) (length (f_params F)) name) -> unbindable w F
| UB_deleted : f_deleted F = true -> unbindable w F
| UB_pattern : f_kind F = TK_FunctionTemplate -> unbindable w F
| UB_conversion : f_conversion F = true -> unbindable w F
| UB_return : rejected w (f_ret F) -> unbindable w F
| UB_parameter p : In p (f_params F) -> rejected w (canonical (p_type p)) -> unbindable w F
| UB_banned : banned_name (std_name w (f_decl F)) -> unbindable w F.

(** ** What is asked for and what is to be left out *)

(** The names listed in the config file, compared without blanks. *)
Definition listed_in (w : world) (k : list_key) (name : str) : Prop := In (nospace name) (lists (wcfg w) k).
(** The first name that is listed decides; if none is, [otherwise]. *)
Fixpoint by_precedence (w : world) (no yes : list_key) (names : list str) (otherwise : Prop) : Prop :=
  match names with
  | [] => otherwise
  | n :: names' => listed_in w no n \/ (~ listed_in w no n /\ ~ listed_in w yes n /\ by_precedence w no yes names' otherwise)
  end.
Definition unlisted (w : world) (no yes : list_key) (names : list str) : Prop :=
  forall n, In n names -> ~ listed_in w no n /\ ~ listed_in w yes n.
(** The deepest listed enclosing namespace is to be skipped, resp. bound. *)
Definition namespace_skipped (w : world) (ns : str) : Prop :=
  exists b s, longest_match (lists (wcfg w) namespaces_to_bind) ns b /\ longest_match (lists (wcfg w) namespaces_to_skip) ns s /\ b < s.
Definition namespace_requested (w : world) (ns : str) : Prop :=
  exists b s, longest_match (lists (wcfg w) namespaces_to_bind) ns b /\ longest_match (lists (wcfg w) namespaces_to_skip) ns s /\
    (s < b \/ (b = 0 /\ s = 0 /\ In [] (lists (wcfg w) namespaces_to_bind))).
(** No namespace is listed both ways. *)
Definition namespaces_consistent (w : world) : Prop :=
  forall ns, In ns (lists (wcfg w) namespaces_to_bind) -> In ns (lists (wcfg w) namespaces_to_skip) -> ns = [].

(** The names by which a class can be listed: with its template arguments, without. *)
Definition class_names (w : world) (r : nat) : list str := [class_qualified_name w r; std_name w (r_decl (rec_ w r))].
Inductive type_skipped (w : world) : qty -> Prop :=
| TS_pointer c t : type_skipped w t -> type_skipped w (TPtr c t)
| TS_lvalue t : type_skipped w t -> type_skipped w (TLRef t)
| TS_rvalue t : type_skipped w t -> type_skipped w (TRRef t)
| TS_class t c r args : desugared t = TRec c r args -> class_skipped w r args -> type_skipped w t
with class_skipped (w : world) : nat -> list targ -> Prop :=
| CS_exact r args : listed_in w classes_to_skip (class_qualified_name w r) -> class_skipped w r args
| CS_template r args :
    ~ listed_in w classes_to_skip (class_qualified_name w r) -> ~ listed_in w classes_to_bind (class_qualified_name w r) ->
    listed_in w classes_to_skip (std_name w (r_decl (rec_ w r))) -> class_skipped w r args
| CS_namespace r args : unlisted w classes_to_skip classes_to_bind (class_names w r) ->
    namespace_skipped w (namespace_from_named_decl w (r_decl (rec_ w r))) -> class_skipped w r args
| CS_argument r args t text : unlisted w classes_to_skip classes_to_bind (class_names w r) ->
    In (Targ (KType t) text) args -> type_skipped w t -> class_skipped w r args.

(** The class is asked for. *)
Inductive class_requested (w : world) (r : nat) : Prop :=
| CR_listed n : In n (class_names w r) -> listed_in w classes_to_bind n -> class_requested w r
| CR_namespace : (forall n, In n (class_names w r) -> ~ listed_in w classes_to_bind n) ->
    bind_class_template_specialization (wopt w) = true \/ r_targs (rec_ w r) = None ->
    namespace_requested w (namespace_from_named_decl w (r_decl (rec_ w r))) ->
    (forall t text, In (Targ (KType t) text) (targs_of (rec_ w r)) -> ~ type_skipped w t) -> class_requested w r.
Inductive type_requested (w : world) : qty -> Prop :=
| TR_pointer c t : type_requested w t -> type_requested w (TPtr c t)
| TR_lvalue t : type_requested w t -> type_requested w (TLRef t)
| TR_rvalue t : type_requested w t -> type_requested w (TRRef t)
| TR_class t c r args : desugared t = TRec c r args -> class_requested w r -> type_requested w t.

(** [t] is written in the signature of a function, or is a template argument of it. *)
Definition in_signature (F : fn) (t : qty) : Prop :=
  t = f_ret F \/ (exists p, In p (f_params F) /\ t = p_type p) \/
  (f_kind F <> TK_NonTemplate /\ exists args text, f_targs F = Some args /\ In (Targ (KType t) text) args).
(** The names by which a function can be listed: the signature, the name. *)
Definition function_names (w : world) (F : fn) : list str := [function_qualified_name w F true; std_name w (f_decl F)].
Definition function_skipped (w : world) (F : fn) : Prop :=
  by_precedence w functions_to_skip functions_to_bind (function_names w F)
    (namespace_skipped w (namespace_from_named_decl w (f_decl F)) \/
     (* a member of any instance of a class template, listed without template arguments *)
     (f_method F = true /\ (exists args, r_targs (rec_ w (parent_of F)) = Some args) /\
      listed_in w functions_to_skip (standard_name w (n_qname (r_decl (rec_ w (parent_of F))) ++ $"::" ++ n_name (f_decl F)))) \/
     exists t, in_signature F t /\ type_skipped w t).
Definition function_requested (w : world) (F : fn) : Prop :=
  listed_in w functions_to_bind (n_qname (f_decl F)) \/ listed_in w functions_to_bind (function_qualified_name w F true) \/
  namespace_requested w (namespace_from_named_decl w (f_decl F)) \/ exists t, in_signature F t /\ type_requested w t.

(** ** Texts *)

(** [s] is the elements of [l] separated by commas. *)
Inductive commas : list str -> str -> Prop :=
| CM_one x : commas [x] x
| CM_more x l s : commas l s -> commas (x :: l) (x ++ ","%char :: s).
(** The text of a template argument; a pack is printed in angle brackets, which
    are dropped. *)
Definition argument_text (a : targ) (s : str) : Prop :=
  exists p, (exists k, a = Targ k p) /\ (p = "<"%char :: s ++ [">"%char] \/ (p = s /\ forall x, p <> "<"%char :: x ++ [">"%char])).

(** ** Enums *)
(** The names of enums are compared exactly. *)
Inductive enum_skipped (w : world) (e : enum) : Prop :=
| ES_listed : In (std_name w (e_decl e)) (lists (wcfg w) enums_to_skip) -> enum_skipped w e
| ES_namespace : ~ In (std_name w (e_decl e)) (lists (wcfg w) enums_to_skip) -> ~ In (std_name w (e_decl e)) (lists (wcfg w) enums_to_bind) ->
    namespace_skipped w (namespace_from_named_decl w (e_decl e)) -> enum_skipped w e.
Inductive enum_requested (w : world) (e : enum) : Prop :=
| ER_listed : In (n_qname (e_decl e)) (lists (wcfg w) enums_to_bind) -> enum_requested w e
| ER_namespace : namespace_requested w (namespace_from_named_decl w (e_decl e)) -> enum_requested w e.

(** ** Abbreviations of standard library names *)

(** [with_defaults full short]: [full] is the name of a container with its
    default template arguments written out, [short] is the name without them. *)
Inductive with_defaults : str -> str -> Prop :=
| WD_sequence c x : In c [$"list"; $"deque"; $"vector"; $"forward_list"] ->
    with_defaults (c ++ $"<" ++ x ++ $", std::allocator<" ++ x ++ $"> >") (c ++ $"<" ++ x ++ $">")
| WD_set x : with_defaults ($"set<" ++ x ++ $", std::less<" ++ x ++ $">, std::allocator<" ++ x ++ $"> >") ($"set<" ++ x ++ $">")
| WD_map c k v : In c [$"map"; $"multimap"] ->
    with_defaults (c ++ $"<" ++ k ++ $"," ++ v ++ $", std::less<" ++ k ++ $">, std::allocator<std::pair<const " ++ k ++ $", " ++ v ++ $"> > >") (c ++ $"<" ++ k ++ $"," ++ v ++ $">")
| WD_unordered_set c x : In c [$"unordered_set"; $"unordered_multiset"] ->
    with_defaults (c ++ $"<" ++ x ++ $", std::hash<" ++ x ++ $">, std::equal_to<" ++ x ++ $">, std::allocator<" ++ x ++ $"> >") (c ++ $"<" ++ x ++ $">")
| WD_unordered_map c k v : In c [$"unordered_map"; $"unordered_multimap"] ->
    with_defaults (c ++ $"<" ++ k ++ $"," ++ v ++ $", std::hash<" ++ k ++ $">, std::equal_to<" ++ k ++ $">, std::allocator<std::pair<const " ++ k ++ $", " ++ v ++ $"> > >")
                  (c ++ $"<" ++ k ++ $"," ++ v ++ $">").
(** What is done to a multiset that is not caught by the rule for sets. *)
Definition multiset_rule (full short : str) : Prop :=
  exists x y z, full = $"multiset<" ++ x ++ $", std::less<" ++ y ++ $">, std::allocator<" ++ z ++ $">>" /\ short = $"multiset<" ++ x ++ $" *>".
(** A container somewhere in the name loses its default arguments (blanks in
    the longer form do not matter). *)
Definition shortens (rule : str -> str -> Prop) (s s' : str) : Prop :=
  exists a m z full short, s = a ++ m ++ z /\ s' = a ++ short ++ z /\ nospace m = nospace full /\ rule full short.
Inductive steps (R : str -> str -> Prop) : str -> str -> Prop :=
| ST_refl s : steps R s s
| ST_step s1 s2 s3 : R s1 s2 -> steps R s2 s3 -> steps R s1 s3.

(** ** Headers *)

(** The include recorded for a declaration, from the text at the directive. *)
Inductive directive_text : str -> str -> Prop :=
| IT_angle body rest : ~ In ">"%char body -> body ++ rest <> [] -> directive_text ("<"%char :: body ++ ">"%char :: rest) ("<"%char :: body ++ [">"%char])
| IT_unterminated body : ~ In ">"%char body -> length body >= 2 -> directive_text ("<"%char :: body) ("<"%char :: body).

(** The name under which the header of a declaration is looked up: its own,
    unless it is a class member.  For a method, that of its class, or of the
    class around that class; for a nested class, that of the class around it;
    for the other members none. *)
Inductive header_name (w : world) : decl -> str -> Prop :=
| HN_free d : n_member (named_of (wenv w) d) = false -> header_name w d (n_qname (named_of (wenv w) d))
| HN_method f p : n_member (f_decl (fun_ w f)) = true -> f_method (fun_ w f) = true -> n_parent (f_decl (fun_ w f)) = Some p ->
    n_member (r_decl (rec_ w p)) = false -> header_name w (DFun f) (n_qname (r_decl (rec_ w p)))
| HN_inner_method f p q : n_member (f_decl (fun_ w f)) = true -> f_method (fun_ w f) = true -> n_parent (f_decl (fun_ w f)) = Some p ->
    n_member (r_decl (rec_ w p)) = true -> n_parent (r_decl (rec_ w p)) = Some q -> header_name w (DFun f) (n_qname (r_decl (rec_ w q)))
| HN_class r p : n_member (r_decl (rec_ w r)) = true -> n_parent (r_decl (rec_ w r)) = Some p ->
    header_name w (DRec r) (n_qname (r_decl (rec_ w p)))
| HN_enum e : n_member (e_decl (enum_ w e)) = true -> header_name w (DEnum e) []
| HN_other f : n_member (f_decl (fun_ w f)) = true -> f_method (fun_ w f) = false -> header_name w (DFun f) []
(** a member without a class around it: this does not occur *)
| HN_lost_method f : n_member (f_decl (fun_ w f)) = true -> f_method (fun_ w f) = true -> n_parent (f_decl (fun_ w f)) = None ->
    header_name w (DFun f) []
| HN_lost_inner_method f p : n_member (f_decl (fun_ w f)) = true -> f_method (fun_ w f) = true -> n_parent (f_decl (fun_ w f)) = Some p ->
    n_member (r_decl (rec_ w p)) = true -> n_parent (r_decl (rec_ w p)) = None -> header_name w (DFun f) []
| HN_lost_class r : n_member (r_decl (rec_ w r)) = true -> n_parent (r_decl (rec_ w r)) = None -> header_name w (DRec r) [].

(** The header that is written for a declaration of the given name, whose file
    was brought in by [include]: one known for exactly this name, else one
    known for a prefix of the name, else the public header for an internal
    one, else the include itself. *)
Inductive header_for (name include : str) : str -> Prop :=
| HF_name h : In (name, h) type_map -> header_for name include h
| HF_prefix p h : ~ In name (map fst type_map) -> In (p, h) name_map_old -> starts p name -> header_for name include h
| HF_public h : ~ In name (map fst type_map) -> (forall p, In p (map fst name_map_old) -> ~ starts p name) ->
    In (include, h) include_map -> header_for name include h
| HF_itself : ~ In name (map fst type_map) -> (forall p, In p (map fst name_map_old) -> ~ starts p name) ->
    ~ In include (map fst include_map) -> header_for name include include.
