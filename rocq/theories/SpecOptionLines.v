(** Specification vocabulary: namespaces named on the command line and in the
    config file. *)
From Coq Require Import Ascii String Bool.
From Coq Require Import List.
From Verif Require Import Str SpecUtil Config SpecConfig.
Import ListNotations.

(** The second list of lines is the first one with +namespace lines for the
    names [plus] and -namespace lines for the names [minus], wherever they stand. *)
Inductive namespace_lines : list str -> list str -> list str -> list str -> Prop :=
| nl_end : namespace_lines [] [] [] []
| nl_same l a b plus minus : namespace_lines a b plus minus -> namespace_lines (l :: a) (l :: b) plus minus
| nl_plus l arg a b plus minus : says l true $"namespace" arg -> namespace_lines a b plus minus -> namespace_lines a (l :: b) (nospace arg :: plus) minus
| nl_minus l arg a b plus minus : says l false $"namespace" arg -> namespace_lines a b plus minus -> namespace_lines a (l :: b) plus (nospace arg :: minus).
(** The options and the added lines together name the same namespaces. *)
Definition moved (options options' lines : list str) : Prop := forall n, In n options <-> In n options' \/ In n lines.
