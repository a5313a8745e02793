(** Specification vocabulary for what a run does to the disk. *)
From Coq Require Import Ascii String Bool Arith NArith Relations.
From Coq Require Import List.
From Verif Require Import Str SpecUtil Util Config Ast Types Func Enum Includes Class Context SpecContext Disk.
Import ListNotations.

(** The run on the visited declarations, started with the disk [f]. *)
Definition plan_of (can_open : str -> bool) (w : world) (visits : list decl) : plan := generate_plan can_open w (collect w visits).
Definition started (can_open : str -> bool) (w : world) (visits : list decl) (f : fs) : state :=
  mkstate (p_acts (plan_of can_open w visits)) f [] false.
(** [s] may be observed during the run, in particular be what a kill leaves. *)
Definition during (mkdir_ok can_open : str -> bool) (w : world) (visits : list decl) (f : fs) (s : state) : Prop :=
  clos_refl_trans_1n state (step mkdir_ok can_open (prefix (wopt w))) (started can_open w visits f) s.
(** The program has returned from writing, without an exception. *)
Definition finished (s : state) : Prop := st_acts s = [] /\ st_stopped s = false.
(** The files that the run makes before it ends or fails. *)
Definition made (can_open : str -> bool) (w : world) (visits : list decl) : list gen_file := p_files (plan_of can_open w visits).

(** What the disk shows at a path. *)
Definition shows (s : state) (q text : str) : Prop := content (st_fs s) q = text.
Definition unchanged (s : state) (f : fs) (q : str) : Prop := lookup q (files (st_fs s)) = lookup q (files f).
Definition part_of (s : state) (q text : str) : Prop := exists rest, text = content (st_fs s) q ++ rest.
Definition in_dir (w : world) (name : str) : str := prefix (wopt w) ++ $"/" ++ name.
