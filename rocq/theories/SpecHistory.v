(** Specification of what a sequence of runs leaves on the disk. *)
From Coq Require Import Ascii String Bool Arith.
From Coq Require Import List.
From Verif Require Import Str Util Config Ast Context Disk SpecContext SpecOutput SpecDisk.
Import ListNotations.

(** One run: what the operating system allows, the settings and the input. *)
Record attempt := mkattempt { a_mkdir : str -> bool; a_open : str -> bool; a_world : world; a_visits : list decl }.
(** [history f l f']: the runs [l], one after the other, each ended at any
    moment (by itself, by an error or by a kill), lead from the disk [f] to [f']. *)
Inductive history (f : fs) : list attempt -> fs -> Prop :=
| HY_none : history f [] f
| HY_run l f' a s : history f l f' -> during (a_mkdir a) (a_open a) (a_world a) (a_visits a) f' s -> history f (l ++ [a]) (st_fs s).
Definition root_file (a : attempt) (extension : str) : str := in_dir (a_world a) (root_module (wopt (a_world a)) ++ extension).
(** [writes_text a q text]: [text] is what the run writes at the path [q]. *)
Inductive writes_text (a : attempt) : str -> str -> Prop :=
| WT_file g : In g (made (a_open a) (a_world a) (a_visits a)) -> writes_text a (in_dir (a_world a) (g_name g)) (g_text g)
| WT_root o : run (a_world a) (a_visits a) = Ok o -> writes_text a (root_file a $".cpp") (root_text (a_world a) (out_namespaces o) (out_files o))
| WT_no_root : (forall o, run (a_world a) (a_visits a) <> Ok o) -> writes_text a (root_file a $".cpp") []
| WT_sources o : run (a_world a) (a_visits a) = Ok o ->
    writes_text a (root_file a $".sources") (concat (map (fun n => n ++ [nl]) ((root_module (wopt (a_world a)) ++ $".cpp") :: map g_name (out_files o))))
| WT_modules o : run (a_world a) (a_visits a) = Ok o -> writes_text a (root_file a $".modules") (modules_text (out_namespaces o)).
(** A run in the default mode whose files have different names. *)
Definition regular (a : attempt) : Prop :=
  single_file (wopt (a_world a)) = false /\
  NoDup ((root_module (wopt (a_world a)) ++ $".cpp") :: map g_name (made (a_open a) (a_world a) (a_visits a))).
