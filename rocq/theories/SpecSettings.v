(** Specification vocabulary for runs with equivalent settings. *)
From Coq Require Import Ascii String Bool Arith.
From Coq Require Import List.
From Verif Require Import Str SpecUtil Util Config SpecConfig Ast Types Func Enum Includes Class Context.
Import ListNotations.

(** Two outcomes of a computation that correspond: both values, and related, or
    the same failure. *)
Definition same_outcome {A} (R : A -> A -> Prop) (x y : result A) : Prop :=
  match x, y with
  | Ok a, Ok b => R a b
  | Ok _, _ | _, Ok _ => False
  | _, _ => x = y
  end.

(** Two generated files that are the same except for the block of lines that
    the +include directives add to every file. *)
Definition same_file_but (block block' : str) (g g' : gen_file) : Prop :=
  g_name g' = g_name g /\ g_fun g' = g_fun g /\ g_ns g' = g_ns g /\ g_call g' = g_call g /\
  g_skip g' = g_skip g /\ g_items g' = g_items g /\ g_body g' = g_body g /\
  exists front back, g_text g = front ++ block ++ back /\ g_text g' = front ++ block' ++ back.
Definition same_output_but (block block' : str) (x x' : output) : Prop :=
  out_log x' = out_log x /\ out_sorted x' = out_sorted x /\ out_namespaces x' = out_namespaces x /\
  Forall2 (same_file_but block block') (out_files x) (out_files x').

(** ** Config files that say the same *)
(** The two files contain the same directives, in any order and number;
    comments, blank lines and line ends do not count. *)
Definition same_directives (text text' : str) : Prop :=
  forall bind token arg, file_says text bind token arg <-> file_says text' bind token arg.
(** No two lines of the file give different values to one setting that holds
    a single value. *)
Definition consistent (text : str) : Prop :=
  (forall k t1 b1 a1 t2 b2 a2, In (t1, Scalar k) directives -> In (t2, Scalar k) directives ->
     file_says text b1 t1 a1 -> file_says text b2 t2 a2 -> nospace a1 = nospace a2) /\
  (forall m t1 r1 a1 t2 r2 a2 x u1 u2 v1 v2, In (t1, Keyed m r1) directives -> In (t2, Keyed m r2) directives ->
     file_says text true t1 a1 -> file_says text true t2 a2 -> two_parts a1 x u1 -> two_parts a2 x u2 ->
     (if r1 then trimmed u1 v1 else v1 = u1) -> (if r2 then trimmed u2 v2 else v2 = u2) -> v1 = v2).
