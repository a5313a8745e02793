(** Specification vocabulary for runs that differ in the layout options only. *)
From Coq Require Import Ascii String Bool Arith.
From Coq Require Import List.
From Verif Require Import Str Util Config Ast Context.
Import ListNotations.

(** The options that choose what is bound and how: --skip-line-number,
    --include-pybind11-stl, --bind-class-template-specialization and
    --annotate-functions.  The others (--annotate-includes, --single-file,
    --trace, --flat, --root-module, --max-file-size, --prefix) concern the
    layout of the result. *)
Definition same_content_options (o o' : options) : Prop :=
  skip_line_number o' = skip_line_number o /\ include_pybind11_stl o' = include_pybind11_stl o /\
  bind_class_template_specialization o' = bind_class_template_specialization o /\ annotate_functions o' = annotate_functions o.
(** [i] is the include text [j], possibly followed by a comment. *)
Definition annotated (i j : str) : Prop := i = j \/ exists comment, i = j ++ $" // " ++ comment.
(** The lines that include the headers [l]. *)
Definition include_lines (l : list str) : str := concat (map (fun i => $"#include " ++ i ++ [nl]) l).
(** Two files that are the same except for the comments after their include
    directives: [l] and [l'] include the same headers. *)
Definition same_file_but_comments (g g' : gen_file) : Prop :=
  g_name g' = g_name g /\ g_fun g' = g_fun g /\ g_ns g' = g_ns g /\ g_call g' = g_call g /\
  g_skip g' = g_skip g /\ g_items g' = g_items g /\ g_body g' = g_body g /\
  exists l l' rest, g_text g = include_lines l ++ rest /\ g_text g' = include_lines l' ++ rest /\
    (forall i, In i l -> exists j, In j l' /\ annotated i j) /\ (forall j, In j l' -> exists i, In i l /\ annotated i j).
Definition same_output_but_comments (x x' : output) : Prop :=
  out_log x' = out_log x /\ out_sorted x' = out_sorted x /\ out_namespaces x' = out_namespaces x /\
  Forall2 same_file_but_comments (out_files x) (out_files x').
(** What a run decides before it writes files: the items, in order, with their
    code, and the positions of the bound ones. *)
Definition plan (w : world) (visits : list decl) : result (list binder * list nat) :=
  do (l, log) <- bind_all w (collect w visits); do s <- sort_binders w l; Ok (s, log).
