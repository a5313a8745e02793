(** Specification vocabulary for what stays when declarations are appended. *)
From Coq Require Import Ascii String Bool Arith NArith.
From Coq Require Import List.
From Verif Require Import Str Util Config Ast Context SpecContext.
Import ListNotations.

(** The declarations of the items, in the order in which they are written. *)
Definition written_order (o : output) : list decl := map b_decl (out_sorted o).
(** The same file on the disk. *)
Definition same_file (g g' : gen_file) : Prop := g_name g' = g_name g /\ g_text g' = g_text g.
(** The second file begins like the first: same name, same function, same
    namespace, and the function has the same definitions and then perhaps more. *)
Definition continues (g g' : gen_file) : Prop :=
  g_name g' = g_name g /\ g_fun g' = g_fun g /\ g_ns g' = g_ns g /\
  (exists d, map b_decl (g_items g') = map b_decl (g_items g) ++ d) /\ (exists code, g_body g' = g_body g ++ code).
(** The file has reached the size at which no item is added any more. *)
Definition full (w : world) (g : gen_file) : Prop := (max_file_size (wopt w) <= N.of_nat (length (g_body g)))%N.
