(** Declarative specifications for the config file and its queries.  They use
    the settings of Config.v as vocabulary, none of its functions. *)
From Coq Require Import Ascii String Bool Arith.
From Coq Require Import List.
From Verif Require Import Str SpecUtil Config.
Import ListNotations.

(** ** Namespace selection *)
Definition is_prefix (e ns : str) : Prop := exists r, ns = e ++ r.
(** [k] is the length of the longest entry that is a prefix of [ns] (0 if none). *)
Definition longest_match (entries : list str) (ns : str) (k : nat) : Prop :=
  (forall e, In e entries -> is_prefix e ns -> length e <= k) /\
  (k = 0 \/ exists e, In e entries /\ is_prefix e ns /\ length e = k).
(** [ns] is [e] or is nested in [e]; the empty entry is the global namespace. *)
Definition component_prefix (e ns : str) : Prop := e = [] \/ ns = e \/ is_prefix (e ++ $"::") ns.

(** ** Lines of a config file *)
(** The text of a line: a single trailing carriage return is not part of it. *)
Definition line_text (line t : str) : Prop :=
  line = t ++ [cr] \/ (line = t /\ forall t', t <> t' ++ [cr]).
Definition ignored_line (line : str) : Prop :=
  line = [] \/ (exists r, line = "#"%char :: r) \/ line = [cr].
(** [sign token arg] is what the line says: sign, token up to the first space, rest. *)
Definition says (line : str) (bind : bool) (token arg : str) : Prop :=
  (forall r, line <> "#"%char :: r) /\
  line_text line ((if bind then "+"%char else "-"%char) :: token ++ sp :: arg) /\ ~ In sp token.

(** What each directive is for. *)
Inductive kind :=
| Names (plus minus : list_key)    (* + adds to one list, - to another *)
| PlusNames (plus : list_key)      (* - has no effect *)
| MinusNames (minus : list_key)    (* + has no effect *)
| Keyed (m : map_key) (trims : bool)  (* + key value;  - has no effect *)
| KeyedInclude (v : vec_key)       (* + key value;  - is an error *)
| Scalar (s : str_key).            (* either sign sets the value *)
Definition directives : list (str * kind) :=
  [ ($"namespace", Names namespaces_to_bind namespaces_to_skip);
    ($"class", Names classes_to_bind classes_to_skip);
    ($"enum", Names enums_to_bind enums_to_skip);
    ($"python_builtin", Names python_builtins not_python_builtins);
    ($"function", Names functions_to_bind functions_to_skip);
    ($"include", Names includes_to_add includes_to_skip);
    ($"include_for_class", KeyedInclude class_includes);
    ($"include_for_namespace", KeyedInclude namespace_includes);
    ($"buffer_protocol", PlusNames buffer_protocols);
    ($"module_local_namespace", Names module_local_namespaces_to_add module_local_namespaces_to_skip);
    ($"binder", Keyed binders true);
    ($"add_on_binder", Keyed add_on_binders true);
    ($"binder_for_namespace", Keyed binder_for_namespaces true);
    ($"add_on_binder_for_namespace", Keyed add_on_binder_for_namespaces true);
    ($"field", MinusNames fields_to_skip);
    ($"custom_shared", Scalar holder_type);
    ($"smart_holder", PlusNames smart_held_classes);
    ($"pybind11_include_file", Scalar pybind11_include_file);
    ($"default_static_pointer_return_value_policy", Scalar default_static_pointer_return_value_policy);
    ($"default_static_lvalue_reference_return_value_policy", Scalar default_static_lvalue_reference_return_value_policy);
    ($"default_static_rvalue_reference_return_value_policy", Scalar default_static_rvalue_reference_return_value_policy);
    ($"default_member_pointer_return_value_policy", Scalar default_member_pointer_return_value_policy);
    ($"default_member_lvalue_reference_return_value_policy", Scalar default_member_lvalue_reference_return_value_policy);
    ($"default_member_rvalue_reference_return_value_policy", Scalar default_member_rvalue_reference_return_value_policy);
    ($"default_call_guard", Scalar default_call_guard);
    ($"prefix_for_static_member_functions", Scalar prefix_for_static_member_functions);
    ($"trampoline_member_function_binder", Keyed custom_trampoline_functions false) ].

(** [arg] is a key without blanks, one space or tab, and a value. *)
Definition two_parts (arg x v : str) : Prop :=
  exists b, blank b /\ arg = x ++ b :: v /\ (forall c, In c x -> ~ blank c).

(** Which uses of a directive are accepted. *)
Definition accepted (k : kind) (bind : bool) (arg : str) : Prop :=
  match k with
  | Keyed _ _ => bind = true -> exists x v, two_parts arg x v
  | KeyedInclude _ => bind = true /\ exists x v, two_parts arg x v
  | _ => True
  end.
Definition valid_line (line : str) : Prop :=
  exists bind token arg k, says line bind token arg /\ In (token, k) directives /\ accepted k bind arg.

(** Everything outside the named setting is unchanged. *)
Definition unchanged (c c' : config) : Prop :=
  (forall k, lists c' k = lists c k) /\ (forall k, maps c' k = maps c k) /\
  (forall k, vecs c' k = vecs c k) /\ (forall k, strs c' k = strs c k).
Definition adds_name (key : list_key) (v : str) (c c' : config) : Prop :=
  lists c' key = lists c key ++ [v] /\
  (forall k, k <> key -> lists c' k = lists c k) /\ (forall k, maps c' k = maps c k) /\
  (forall k, vecs c' k = vecs c k) /\ (forall k, strs c' k = strs c k).
Definition sets_key (key : map_key) (x v : str) (c c' : config) : Prop :=
  lookup x (maps c' key) = Some v /\ (forall y, y <> x -> lookup y (maps c' key) = lookup y (maps c key)) /\
  (forall k, lists c' k = lists c k) /\ (forall k, k <> key -> maps c' k = maps c k) /\
  (forall k, vecs c' k = vecs c k) /\ (forall k, strs c' k = strs c k).
Definition get_vec (x : str) (m : list (str * list str)) : list str :=
  match lookup x m with Some l => l | None => [] end.
Definition adds_include (key : vec_key) (x v : str) (c c' : config) : Prop :=
  get_vec x (vecs c' key) = get_vec x (vecs c key) ++ [v] /\
  (forall y, y <> x -> get_vec y (vecs c' key) = get_vec y (vecs c key)) /\
  (forall k, lists c' k = lists c k) /\ (forall k, maps c' k = maps c k) /\
  (forall k, k <> key -> vecs c' k = vecs c k) /\ (forall k, strs c' k = strs c k).
Definition sets_value (key : str_key) (v : str) (c c' : config) : Prop :=
  strs c' key = v /\
  (forall k, lists c' k = lists c k) /\ (forall k, maps c' k = maps c k) /\
  (forall k, vecs c' k = vecs c k) /\ (forall k, k <> key -> strs c' k = strs c k).

(** The effect of an accepted directive; [nospace] removes all spaces. *)
Definition nospace (s : str) : str := remove_char sp s.
Definition effect (k : kind) (bind : bool) (arg : str) (c c' : config) : Prop :=
  match k with
  | Names plus minus => adds_name (if bind then plus else minus) (nospace arg) c c'
  | PlusNames key => if bind then adds_name key (nospace arg) c c' else unchanged c c'
  | MinusNames key => if bind then unchanged c c' else adds_name key (nospace arg) c c'
  | Keyed key trims =>
      if bind then forall x v, two_parts arg x v ->
                     exists w, (if trims then trimmed v w else w = v) /\ sets_key key x w c c'
      else unchanged c c'
  | KeyedInclude key => forall x v, two_parts arg x v -> adds_include key x v c c'
  | Scalar key => sets_value key (nospace arg) c c'
  end.

(** ** Whole files *)
(** The file [text] contains a line that says [bind token arg]. *)
Definition file_says (text : str) (bind : bool) (token arg : str) : Prop :=
  exists ls line, pieces_of nl text ls /\ In line ls /\ says line bind token arg.
(** ... for some [arg] that is [x] up to spaces. *)
Definition listed (text : str) (bind : bool) (token x : str) : Prop :=
  exists arg, file_says text bind token arg /\ nospace arg = x.

(** The same text with Windows line ends. *)
Definition with_crlf (text : str) : str := flat_map (fun c => if Ascii.eqb c nl then [cr; nl] else [c]) text.

(** Two configurations that answer every question alike: the lists as sets,
    the keyed and scalar settings exactly, the include_for_* settings as sets. *)
Definition same_settings (c c' : config) : Prop :=
  (forall k x, In x (lists c' k) <-> In x (lists c k)) /\
  (forall k x, lookup x (maps c' k) = lookup x (maps c k)) /\
  (forall k, strs c' k = strs c k) /\
  (forall k x i, In i (get_vec x (vecs c' k)) <-> In i (get_vec x (vecs c k))).
