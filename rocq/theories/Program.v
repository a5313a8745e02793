(** One invocation of the program on several source files. *)
From Coq Require Import Ascii String Bool Arith NArith.
From Coq Require Import List.
From Verif Require Import Str Util Config Ast Types Func Enum Includes Class Context.
Import ListNotations.

(** The command line (options.cpp:21-66), the text of the config file and what
    the file system allows. *)
Record invocation := mkinvocation {
  i_options : options;
  i_bind : list str;
  i_skip : list str;
  i_config : str;
  i_config_text : option str;
  i_mkdir_ok : str -> bool;
  i_can_open : str -> bool
}.
(** A source file as the compiler's front end presents it: its declarations
    and the order in which they are visited. *)
Record source := mksource { so_env : env; so_visits : list decl }.

(** What the processing of a source file leaves. *)
Record done := mkdone { d_source : source; d_config : config; d_output : output; d_disk : fs }.

(** main.cpp:81-106, 185-212: for each source file a [BinderVisitor] is made,
    with a [Context] of its own; it sets up the settings, which outlive it,
    visits the declarations and generates the output.
    Simplifications: the caches that outlive a source file (is_bindable,
    python builtins) are those of Memo.v and are left out here; the operations on
    the disk of one source file are taken as one step, see Disk.v. *)
Definition process (i : invocation) (s : source) (c : config) (f : fs) : result done :=
  do c1 <- setup c (i_bind i) (i_skip i) (i_config i) (i_config_text i);
  let w := mkworld (so_env s) c1 (i_options i) in
  do o <- generate w (collect w (so_visits s));
  do f1 <- write_output (i_mkdir_ok i) (i_can_open i) w o f;
  Ok (mkdone s c1 o f1).

(** main.cpp:215-253, [ClangTool::run]: the source files in the order of the
    command line; an exception ends the program. *)
Fixpoint process_all (i : invocation) (l : list source) (c : config) (f : fs) : list done * result unit :=
  match l with
  | [] => ([], Ok tt)
  | s :: l' =>
      match process i s c f with
      | Ok d => let '(ds, r) := process_all i l' (d_config d) (d_disk d) in (d :: ds, r)
      | r => ([], do _ <- r; Ok tt)
      end
  end.
Definition program (i : invocation) (l : list source) (f : fs) : list done * result unit := process_all i l default_config f.
