(** Declarative specification of the headers needed by declarations. *)
From Coq Require Import Ascii String Bool Arith NArith.
From Coq Require Import List.
From Coq Require Import Relations.
From Verif Require Import Str Util Config Ast Types Func Enum Includes Class Context SpecContext SpecTypes.
Import ListNotations.

(** The #include text for a declaration, if it has one. *)
Definition include_text (w : world) (d : decl) (i : str) : Prop :=
  exists name h, header_name w d name /\ header_for (standard_name w name) (relevant_include (named_of (wenv w) d)) h /\ h <> [] /\
    i = if annotate_includes (wopt w) then h ++ $" // " ++ standard_name w name else h.
(** The class or enum a written type leads to, behind written pointers and
    references. *)
Inductive names_tag : qty -> decl -> Prop :=
| NT_tag t d : as_tag t = Some d -> names_tag t d
| NT_pointer c t d : names_tag t d -> names_tag (TPtr c t) d
| NT_lvalue t d : names_tag t d -> names_tag (TLRef t) d
| NT_rvalue t d : names_tag t d -> names_tag (TRRef t) d.
(** What a declaration [d], looked at from distance [level], leads to: a header
    that is needed, or another declaration to look at. *)
Inductive looks_at (w : world) : decl -> nat -> action -> Prop :=
| L_function f n : looks_at w (DFun f) n (Header (DFun f))
| L_signature f n t d : in_signature (fun_ w f) t -> names_tag t d -> looks_at w (DFun f) n (Visit d n)
| L_enum e n : looks_at w (DEnum e) n (Header (DEnum e))
| L_enum_definition e n d : e_definition (enum_ w e) = Some d -> looks_at w (DEnum e) n (Header (DEnum d))
| L_class r n : looks_at w (DRec r) n (Header (DRec r))
| L_type_argument r n t text d : In (Targ (KType t) text) (targs_of (rec_ w r)) -> names_tag (desugared t) d ->
    looks_at w (DRec r) n (Visit d (n + 1))
| L_integral_argument r n t text d : In (Targ (KIntegral t) text) (targs_of (rec_ w r)) -> names_tag t d ->
    looks_at w (DRec r) n (Visit d (n + 1))
| L_template_argument r n c text : In (Targ (KTemplate c) text) (targs_of (rec_ w r)) -> looks_at w (DRec r) n (Header (DRec c))
| L_declaration_argument r n f p text : In (Targ (KDecl f p) text) (targs_of (rec_ w r)) -> looks_at w (DRec r) n (Header (DFun f))
| L_member_template r n l f : In (MFunTemplate l) (r_members (rec_ w r)) -> In f l ->
    f_method (fun_ w f) = true -> n_access (f_decl (fun_ w f)) = Public -> is_bindable_fun w (fun_ w f) = true ->
    is_skipping_requested_fun w (fun_ w f) = Ok false -> f_ctor (fun_ w f) = None -> f_dtor (fun_ w f) = false ->
    looks_at w (DRec r) n (Visit (DFun f) (n + 1))
| L_method r n f : n <= 1 -> In (MMethod f) (r_members (rec_ w r)) ->
    n_access (f_decl (fun_ w f)) = Public -> is_bindable_fun w (fun_ w f) = true -> f_dtor (fun_ w f) = false ->
    looks_at w (DRec r) n (Visit (DFun f) (n + 1)).
(** The declarations reached from a set of starting points. *)
Inductive reached (w : world) (start : decl -> nat -> Prop) : decl -> nat -> Prop :=
| R_start d level : start d level -> reached w start d level
| R_step d level d' level' : reached w start d level -> looks_at w d level (Visit d' level') -> reached w start d' level'.
(** The header [i] is needed: some reached declaration leads to it. *)
Definition needs_header (w : world) (start : decl -> nat -> Prop) (i : str) : Prop :=
  exists d level d', reached w start d level /\ looks_at w d level (Header d') /\ include_text w d' i.
(** In a history of visits (latest first) every declaration comes back only at
    a strictly smaller level. *)
Definition revisits_smaller (h : list (decl * nat)) : Prop :=
  forall later d n earlier m, h = later ++ (d, n) :: earlier -> In (d, m) earlier -> n < m.
(** A set of declarations closed under "looks at". *)
Definition closed_unit (w : world) (U : list decl) : Prop :=
  forall d level d' level', In d U -> looks_at w d level (Visit d' level') -> In d' U.

(** [j] is declared as a public class of [r], or is an instance of a public
    class template of [r]. *)
Definition public_nested (w : world) (r j : nat) : Prop :=
  (In (MRec j) (r_members (rec_ w r)) /\ n_access (r_decl (rec_ w j)) = Public) \/
  exists specs, In (MClassTemplate Public specs) (r_members (rec_ w r)) /\ In j specs.
(** A class and the public classes nested in it, at any depth. *)
Inductive with_nested (w : world) (r : nat) : nat -> Prop :=
| N_self : with_nested w r r
| N_step i j : with_nested w r i -> public_nested w i j -> with_nested w r j.
(** Where the collection starts for an item: the declaration, the nested
    classes, and the functions its code relies on ([incl]). *)
Definition item_starts (w : world) (d : decl) (incl : list nat) (d' : decl) (level : nat) : Prop :=
  level = 0 /\
  match d with
  | DRec r => (exists f, In f incl /\ d' = DFun f) \/ (exists i, with_nested w r i /\ d' = DRec i)
  | _ => d' = d
  end.
(** Headers an item gets besides: those configured for the class or a nested
    class, and the one for [__str__]. *)
Definition item_extra (w : world) (d : decl) (i : str) : Prop :=
  match d with
  | DRec r =>
      i = $"<sstream> // __str__" \/
      exists c l h, with_nested w r c /\ lookup (standard_name w (n_qname (r_decl (rec_ w c)))) (vecs (wcfg w) class_includes) = Some l /\
        In h l /\ i = if annotate_includes (wopt w) then h ++ $" // +include_for_class" else h
  | _ => False
  end.
(** Exactly the headers needed by a list of items. *)
Definition items_need (w : world) (l : list (decl * list nat)) (i : str) : Prop :=
  (exists d incl, In (d, incl) l /\ item_extra w d i) \/
  needs_header w (fun d level => exists d0 incl, In (d0, incl) l /\ item_starts w d0 incl d level) i.

(** The header of the trace output. *)
Definition trace_header (w : world) : str := if annotate_includes (wopt w) then $"<iostream> // --trace" else $"<iostream>".
(** The items of a file whose headers count: those with code. *)
Definition code_items (l : list binder) : list (decl * list nat) := map (fun b => (b_decl b, b_incl b)) (filter has_code l).
(** Headers configured for a namespace. *)
Definition namespace_header (w : world) (ns i : str) : Prop :=
  exists l, lookup ns (vecs (wcfg w) namespace_includes) = Some l /\ In i l.
(** Exactly the headers a file needs. *)
Definition file_needs (w : world) (g : gen_file) (i : str) : Prop :=
  namespace_header w (g_ns g) i \/
  (g_skip g = false /\ trace (wopt w) = true /\ g_items g <> [] /\ i = trace_header w) \/
  (g_skip g = false /\ items_need w (code_items (g_items g)) i).

(** ** The translation unit *)

(** [i] is a class nested in [r] that the generator descends to. *)
Definition nests (w : world) (r i : nat) : Prop :=
  public_nested w r i \/ exists j, public_nested w r j /\ r_definition (rec_ w j) = Some i.
Definition nesting_acyclic (w : world) : Prop := forall r, ~ Relation_Operators.clos_trans nat (nests w) r r.
(** [U] lists the declarations of a translation unit: whatever a declaration of
    it refers to is in it.  [e_fuel] is the number of steps the model grants to
    a recursion; it stands for the size of the C++ stack and has to exceed the
    number of declarations. *)
Record translation_unit (w : world) (U : list decl) : Prop := {
  tu_looks : closed_unit w U;
  tu_bases : forall r c, inherits w r c -> In (DRec r) U /\ In (DRec c) U;
  tu_nested : forall r i, nests w r i -> In (DRec r) U /\ In (DRec i) U;
  tu_methods : forall r f, In (DRec r) U -> In (MMethod f) (r_members (rec_ w r)) -> In (DFun f) U;
  tu_stack : length U < e_fuel (wenv w)
}.
