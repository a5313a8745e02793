(** What may make a run fail. *)
From Coq Require Import Ascii String Bool Arith NArith.
From Coq Require Import List.
From Verif Require Import Str SpecUtil Util Config SpecConfig Ast Types Func Enum Includes Class Context SpecContext Program.
Import ListNotations.

(** Two directives of opposite sign name the same namespace, [ns] or a prefix
    of it. *)
Definition namespaces_conflict (c : config) (ns : str) : Prop :=
  exists n, n <> [] /\ is_prefix n ns /\ In n (lists c namespaces_to_bind) /\ In n (lists c namespaces_to_skip).
(** [ns] is named by a [+module_local_namespace] and by a [-module_local_namespace],
    and not all namespaces are asked to be local. *)
Definition locals_conflict (c : config) (ns : str) : Prop :=
  ~ In $"@all_namespaces" (lists c module_local_namespaces_to_add) /\
  In ns (lists c module_local_namespaces_to_add) /\ In ns (lists c module_local_namespaces_to_skip).
(** The message [m] of an exception is about such a pair of directives. *)
Definition about_conflict (c : config) (m : str) : Prop :=
  exists ns,
    (namespaces_conflict c ns /\
     m = $"Could not determent if namespace '" ++ ns ++ $"' should be binded or not... please check if options --bind and --skip conflicting!!!") \/
    (locals_conflict c ns /\
     m = $"Could not determent if namespace '" ++ ns ++ $"' should use module_local or not... please resolve the conlficting options +module_local_namespace and -module_local_namespace!!!").

(** [c] is a base that the binding of the item [r] names, it is no item, and
    Python does not have it either. *)
Definition base_missing (w : world) (visits : list decl) (r c : nat) : Prop :=
  In (DRec r) (collected_items w visits) /\ bound_base w r c /\
  ~ In (DRec c) (collected_items w visits) /\ is_python_builtin w (r_decl (rec_ w c)) = false.
(** [m] names such a base. *)
Definition about_base (w : world) (visits : list decl) (m : str) : Prop :=
  exists r c, base_missing w visits r c /\ m = $"ERROR: Could not find binder for type: " ++ class_qualified_name w c ++ $"!".

(** The config file has to be read and cannot be, or has a line that is no
    directive. *)
Definition config_unreadable (i : invocation) : Prop := i_config i <> [] /\ i_config_text i = None.
Definition config_invalid (i : invocation) : Prop :=
  i_config i <> [] /\ exists text ls line, i_config_text i = Some text /\
    pieces_of nl text ls /\ In line ls /\ ~ ignored_line line /\ ~ valid_line line.
(** The disk refuses something that the run asks for: the file of the root
    module, the directory of a generated file or a generated file. *)
Definition refused (i : invocation) (w : world) (o : output) (m : str) : Prop :=
  (exists path, i_can_open i path = false /\ m = $"ERROR: Can not open file " ++ path ++ $" for writing..." /\
     (path = prefix (wopt w) ++ $"/" ++ root_module (wopt w) ++ $".cpp" \/
      single_file (wopt w) = false /\ exists g, In g (out_files o) /\ path = prefix (wopt w) ++ $"/" ++ g_name g)) \/
  (exists path, i_mkdir_ok i path = false /\ m = $"ERROR: Command ""mkdir -p " ++ path ++ $""" failed" /\
     single_file (wopt w) = false /\ exists g, In g (out_files o) /\ is_prefix path (prefix (wopt w) ++ $"/" ++ g_name g)).
