(** Specification of lexically well-formed C++ text, as far as generated code
    needs it: string and character literals with escapes, line comments,
    preprocessor lines, brackets.  (No raw strings; block comments are not
    accepted.) *)
From Coq Require Import Ascii String Bool Arith NArith.
From Coq Require Import List.
From Verif Require Import Str Util Config Ast Types Func Enum Includes Class Context SpecTypes SpecBind SpecClass SpecContext SpecIncludes SpecOutput.
Import ListNotations.

(** ** The scanner *)

Definition sq : ascii := "'"%char.
Inductive mode :=
| Code
| Slash                  (* after a slash, which may begin a comment *)
| Rest                   (* comment or preprocessor line: up to the end of the line *)
| RestBs                 (* after a backslash in it: the line may go on *)
| Lit (q : ascii)        (* string or character literal that ends with [q] *)
| Esc (q : ascii).       (* after a backslash in it *)
(** Where the scanner is: the mode and the brackets still to be closed. *)
Definition place := (mode * list ascii)%type.
Definition closer (c : ascii) : option ascii :=
  if Ascii.eqb c "(" then Some ")"%char else if Ascii.eqb c "[" then Some "]"%char else if Ascii.eqb c "{" then Some "}"%char else None.
Definition closing (c : ascii) : bool := Ascii.eqb c ")" || Ascii.eqb c "]" || Ascii.eqb c "}".
Definition code_char (st : list ascii) (c : ascii) : option place :=
  if Ascii.eqb c dq || Ascii.eqb c sq then Some (Lit c, st)
  else if Ascii.eqb c "/" then Some (Slash, st)
  else if Ascii.eqb c "#" then Some (Rest, st)
  else if Ascii.eqb c bs then None
  else match closer c with
       | Some d => Some (Code, d :: st)
       | None => if closing c then match st with d :: st' => if Ascii.eqb c d then Some (Code, st') else None | [] => None end
                 else Some (Code, st)
       end.
Definition scan_char (p : place) (c : ascii) : option place :=
  match p with
  | (Code, st) => code_char st c
  | (Slash, st) => if Ascii.eqb c "/" then Some (Rest, st) else if Ascii.eqb c "*" then None else code_char st c
  | (Rest, st) => if Ascii.eqb c nl then Some (Code, st) else if Ascii.eqb c bs then Some (RestBs, st) else Some (Rest, st)
  | (RestBs, st) => if Ascii.eqb c bs then Some (RestBs, st) else Some (Rest, st)
  | (Lit q, st) => if Ascii.eqb c q then Some (Code, st) else if Ascii.eqb c bs then Some (Esc q, st) else if Ascii.eqb c nl then None else Some (Lit q, st)
  | (Esc q, st) => if Ascii.eqb c nl then None else Some (Lit q, st)
  end.
(** [None]: the text is not well formed. *)
Definition scan_from (p : option place) (s : str) : option place :=
  fold_left (fun p c => match p with Some p => scan_char p c | None => None end) s p.
(** All literals, comments and brackets are closed. *)
Definition well_formed (s : str) : Prop := scan_from (Some (Code, [])) s = Some (Code, []).

(** ** Names *)

(** Characters that can stand in literals and comments. *)
Definition plain (s : str) : Prop := forall c, In c s -> ~ In c [dq; bs; nl].
(** Text that fits on one line. *)
Definition one_line (s : str) : Prop := forall c, In c s -> ~ In c [bs; nl].
(** A name or type: no quotes, comments or preprocessor lines, brackets closed. *)
Definition tidy (s : str) : Prop := plain s /\ ~ In sq s /\ ~ In "#"%char s /\ well_formed s.
(** The name of a function may end with a slash: the operator for division. *)
Definition tidy_name (s : str) : Prop :=
  plain s /\ ~ In sq s /\ ~ In "#"%char s /\ (well_formed s \/ scan_from (Some (Code, [])) s = Some (Slash, [])).

(** ** Inputs *)

Definition identifier (s : str) : Prop := forall c, In c s -> is_alnum c = true \/ c = "_"%char.
(** Where and what a declaration is, as shown in comments; its namespace. *)
Record tidy_named (w : world) (n : named) : Prop := mktn {
  tn_qualified : one_line (n_qname n);
  tn_standard : one_line (standard_name w (n_qname n));
  tn_header : one_line (relevant_include n);
  tn_namespace : tidy (namespace_from_named_decl w n)
}.
(** Functions: types, names and the signature shown in the documentation.
    [lifted]: the class to which a using declaration brought it. *)
Record tidy_function (w : world) (lifted : option nat) (F : fn) : Prop := mktf {
  tf_named : tidy_named w (f_decl F);
  tf_return t : type_text w (f_ret F) t -> tidy t /\ (forall k s, In k keywords -> t = k ++ s -> no_keyword s) /\
    (forall k s, In k keywords -> t = $"const " ++ k ++ s -> no_keyword ($"const " ++ s));
  tf_parameter p t : In p (f_params F) -> type_text w (p_type p) t -> tidy t;
  tf_parameter_name p : In p (f_params F) -> plain (p_name p);
  tf_name : tidy_name (n_name (f_decl F));
  tf_callee s : callee w F lifted s -> tidy_name s /\ tidy_name (s ++ fun_specialization w F);
  tf_class : f_method F = true -> tidy (class_qualified_name w (parent_of F));
  tf_object r : lifted = Some r -> tidy (class_qualified_name w r);
  tf_signature args ret : parameter_types w F args -> type_text w (f_ret F) ret ->
    plain (standard_name w (n_qname (f_decl F) ++ $"(" ++ args ++ $")" ++ (if f_method F && f_const F then $" const" else []) ++ $" --> " ++ ret));
  tf_annotation omit : one_line (function_qualified_name w F omit);
  tf_id : plain (fun_id w F);
  tf_exceptions : f_est F <= 11
}.
Record tidy_enum (w : world) (e : enum) : Prop := mkte {
  te_named : tidy_named w (e_decl e);
  te_qualified : tidy (n_qname (e_decl e));
  te_name : plain (n_name (e_decl e));
  te_value v : In v (e_values e) -> plain (fst v) /\ tidy (snd v)
}.
(** A class by itself: its names, its fields, its functions that can be bound
    and its enums. *)
Record tidy_class (w : world) (r : nat) : Prop := mktc {
  tc_named : tidy_named w (r_decl (rec_ w r));
  tc_name : tidy (n_name (r_decl (rec_ w r)));
  tc_qualified : tidy (class_qualified_name w r);
  tc_python : plain (python_class_name w r);
  tc_structure : tidy (callback_structure_name w r);
  tc_template : tidy (standard_name w (rec_specialization (rec_ w r)));
  tc_argument a : In a (targs_of (rec_ w r)) -> plain (fix_boolean_types (mangle_type_name (standard_name w (arg_text a)) true));
  tc_field f : In f (used_fields (rec_ w r) ++ declared_fields (rec_ w r)) -> tidy (n_name (fd_decl f));
  tc_function f lifted : In (f, lifted) (candidates w r) -> ~ unbindable w (fun_ w f) -> tidy_function w lifted (fun_ w f);
  tc_enum e : In e (inner_enums w r) -> bound_enum w e -> tidy_enum w (enum_ w e)
}.
(** The classes that show in the code of a class: its bases and the nested
    classes bound with it. *)
Inductive involved (w : world) (r : nat) : nat -> Prop :=
| IV_self : involved w r r
| IV_base c b R : involved w r c -> In b (r_bases (rec_ w c)) -> base_record b = Some R -> involved w r R
| IV_nested c i : involved w r c -> In i (inner_classes w c) -> bound_inner w i -> involved w r (definition_of w i).
(** An item. *)
Definition tidy_item (w : world) (d : decl) : Prop :=
  match d with
  | DFun f => tidy_function w None (fun_ w f)
  | DEnum e => tidy_enum w (enum_ w e)
  | DRec r => forall c, involved w r c -> tidy_class w c
  end.
(** Names written in the config file and given as options. *)
Definition policies : list str_key :=
  [default_member_pointer_return_value_policy; default_member_lvalue_reference_return_value_policy; default_member_rvalue_reference_return_value_policy;
   default_static_pointer_return_value_policy; default_static_lvalue_reference_return_value_policy; default_static_rvalue_reference_return_value_policy].
Record tidy_settings (w : world) : Prop := mkts {
  ts_holder : tidy (strs (wcfg w) holder_type);
  ts_guard : tidy (strs (wcfg w) default_call_guard);
  ts_policy k : In k policies -> tidy (strs (wcfg w) k);
  ts_static : plain (strs (wcfg w) prefix_for_static_member_functions);
  ts_call m k s : In m [Config.binders; add_on_binders; binder_for_namespaces; add_on_binder_for_namespaces; custom_trampoline_functions] ->
    lookup k (maps (wcfg w) m) = Some s -> tidy s;
  ts_pybind11 : one_line (strs (wcfg w) pybind11_include_file);
  ts_include i : In i (lists (wcfg w) includes_to_add) -> one_line i;
  ts_configured v k l i : lookup k (vecs (wcfg w) v) = Some l -> In i l -> one_line i;
  ts_root : identifier (root_module (wopt w));
  ts_prefix : one_line (prefix (wopt w))
}.
(** All declarations: names and headers have no line ends or backslashes; the
    functions have proper namespaces. *)
Definition declared (w : world) (n : named) : Prop :=
  (exists f, n = f_decl (fun_ w f)) \/ (exists r, n = r_decl (rec_ w r)) \/ (exists e, n = e_decl (enum_ w e)).
Record tidy_unit (w : world) : Prop := mktu {
  tu_named n : declared w n -> one_line (n_qname n) /\ one_line (standard_name w (n_qname n)) /\ one_line (relevant_include n);
  tu_empty : one_line (standard_name w []);
  tu_namespace f : tidy (namespace_from_named_decl w (f_decl (fun_ w f)))
}.
(** The items that are bound, and the names of items shown by traces. *)
Record tidy_run (w : world) (o : output) : Prop := mktr {
  tr_item b : In b (out_sorted o) -> b_code b <> [] -> tidy_item w (b_decl b);
  tr_id b : In b (out_sorted o) -> trace (wopt w) = true -> plain (decl_id w (b_decl b))
}.
