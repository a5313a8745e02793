(** Specification of what the program reports on the console. *)
From Coq Require Import Ascii String Bool Arith.
From Coq Require Import List.
From Verif Require Import Str Util Config Ast Context SpecUtil SpecContext SpecDisk Program Console.
Import ListNotations.

(** The settings under which a source file was processed. *)
Definition world_of (i : invocation) (d : done) : world := mkworld (so_env (d_source d)) (d_config d) (i_options i).
(** Numbered passes; [ids]: what each of them has bound. *)
Fixpoint passes (n : nat) (ids : list (list str)) : list line :=
  match ids with
  | [] => []
  | l :: ids' => LPass n :: map LBinding l ++ passes (S n) ids'
  end.
(** The lines that are only printed with -v. *)
Definition detail (x : line) : bool :=
  match x with LConfig _ | LBinding _ | LWrite _ | LUpToDate _ => true | _ => false end.
(** The line for a generated file: it tells whether the file had to be written,
    that is, whether the disk [f] had something else in its place. *)
Definition file_line (dir : str) (f : fs) (g : gen_file) (x : line) : Prop :=
  let path := dir ++ $"/" ++ g_name g in
  (content f path = g_text g /\ x = LUpToDate path) \/ (content f path <> g_text g /\ x = LWrite path).
