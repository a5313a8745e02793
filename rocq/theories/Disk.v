(** What a run does to the disk, operation by operation: context.cpp:325-493
    with the opening, writing and closing of its streams, so that failures,
    kills and buffering can be looked at. *)
From Coq Require Import Ascii String Bool Arith NArith Relations.
From Coq Require Import List.
From Verif Require Import Str Util Config Ast Types Func Enum Includes Class Context.
Import ListNotations.

(** What the program still has to do. *)
Inductive act :=
| Open (path : str)                    (* std::ofstream opened: the file is truncated *)
| Write (path text : str)              (* operator<< on that stream: goes to its buffer *)
| Close (path : str)                   (* destructor of the stream: the buffer is written *)
| Update (name text : str).            (* util.cpp:128-153 [update_source_file], before it looks at the file *)
Record state := mkstate {
  st_acts : list act;
  st_fs : fs;
  st_pending : list (str * str);       (* what the streams hold back, by path *)
  st_stopped : bool                    (* an exception was thrown *)
}.
Definition pending (s : state) (q : str) : str := match lookup q (st_pending s) with Some b => b | None => [] end.

(** One step of the program, or of a stream that writes some of its buffer.
    util.cpp:143-147: the file is only opened if its content differs.
    Simplification: no writing fails, and directories made are not recorded. *)
Inductive step (mkdir_ok can_open : str -> bool) (prefix : str) : state -> state -> Prop :=
| ST_open p l f b :
    step mkdir_ok can_open prefix (mkstate (Open p :: l) f b false) (mkstate l (run_op f (Truncate p)) (update p [] b) false)
| ST_write p t l f b s : s = mkstate (Write p t :: l) f b false ->
    step mkdir_ok can_open prefix s (mkstate l f (update p (pending s p ++ t) b) false)
| ST_close p l f b s : s = mkstate (Close p :: l) f b false ->
    step mkdir_ok can_open prefix s (mkstate l (run_op f (Append p (pending s p))) (update p [] b) false)
| ST_same n t l f b f' : update_source_file mkdir_ok can_open prefix n t f = Ok f' -> content f (path_of prefix n) = t ->
    step mkdir_ok can_open prefix (mkstate (Update n t :: l) f b false) (mkstate l f b false)
| ST_differs n t l f b f' : update_source_file mkdir_ok can_open prefix n t f = Ok f' -> content f (path_of prefix n) <> t ->
    step mkdir_ok can_open prefix (mkstate (Update n t :: l) f b false)
      (mkstate (Open (path_of prefix n) :: Write (path_of prefix n) t :: Close (path_of prefix n) :: l) f b false)
| ST_fails n t l f b : (forall f', update_source_file mkdir_ok can_open prefix n t f <> Ok f') ->
    step mkdir_ok can_open prefix (mkstate (Update n t :: l) f b false) (mkstate (Update n t :: l) f b true)
| ST_flush p x y s : pending s p = x ++ y -> x <> [] ->
    step mkdir_ok can_open prefix s (mkstate (st_acts s) (run_op (st_fs s) (Append p x)) (update p y (st_pending s)) (st_stopped s)).

(** context.cpp:345-450: the files made before the loop ends or fails, and how
    it ends. *)
Definition ending {A} (r : result A) : result unit := do _ <- r; Ok tt.
Fixpoint loop_files (fuel : nat) (w : world) (rest : list binder) (fnames entrance : list (str * nat)) (tc : nat)
  : list gen_file * result unit :=
  match rest with
  | [] => ([], Ok tt)
  | b :: rest' =>
      match fuel with
      | 0 => ([], Diverges)
      | S fuel' =>
          if negb (has_code b) then loop_files fuel' w rest' fnames entrance tc
          else
            let np := name_prefix w b in
            let stem := file_stem w np (count np fnames) in
            let ns := binder_namespace w b in
            let incs := fold_left (fun s i => add_include i s)
                          (match lookup ns (vecs (wcfg w) namespace_includes) with Some l => l | None => [] end) (mkis [] []) in
            let '(call, skip) := first_code w ns (count ns entrance) in
            match fill w ns skip rest (mkfst call [] incs tc) with
            | Ok (taken, later, st) =>
                let g := mkfile (stem ++ $".cpp") (function_name stem) ns call skip taken (s_code st) (file_text w (function_name stem) st) in
                let '(gs, r) := loop_files fuel' w later (bump np fnames) (bump ns entrance) (s_tc st) in
                (g :: gs, r)
            | r => ([], ending r)
            end
      end
  end.

(** context.cpp:325-493 [Context::generate]: the operations, up to the point
    where the run fails for another reason than the disk, the files made, and
    how it ends. *)
Definition root_file (w : world) : str := path_of (prefix (wopt w)) (root_file_name w).
Definition file_acts (w : world) (g : gen_file) : act :=
  if single_file (wopt w) then Write (root_file w) ($"// File: " ++ g_name g ++ [nl] ++ g_text g ++ [nl; nl])
  else Update (g_name g) (g_text g).
Definition list_acts (can_open : str -> bool) (path text : str) : list act :=
  if can_open path then [Open path; Write path text; Close path] else [].
Definition last_acts (can_open : str -> bool) (w : world) (namespaces : list str) (gs : list gen_file) : list act :=
  [Write (root_file w) (root_text w namespaces gs)]
  ++ (if single_file (wopt w) then
        [Write (root_file w)
           ([nl] ++ $"// Source list file: " ++ root_path w ++ $".sources" ++ [nl]
            ++ concat (map (fun s => $"// " ++ s ++ [nl]) (source_names w gs))
            ++ [nl] ++ $"// Modules list file: " ++ root_path w ++ $".modules" ++ [nl] ++ $"// "
            ++ modules_text namespaces ++ [nl])]
      else list_acts can_open (root_path w ++ $".sources") (sources_text (source_names w gs))
           ++ list_acts can_open (root_path w ++ $".modules") (modules_text namespaces))
  ++ [Close (root_file w)].
Record plan := mkplan { p_acts : list act; p_files : list gen_file; p_end : result unit }.
Definition generate_plan (can_open : str -> bool) (w : world) (c : context) : plan :=
  match bind_all w c with
  | Ok (l, _) =>
      if negb (can_open (root_file w)) then mkplan [] [] (Throw ($"ERROR: Can not open file " ++ root_file w ++ $" for writing..."))
      else match sort_binders w l with
           | Ok s =>
               let '(gs, r) := loop_files (write_fuel s) w s [] [] 0 in
               mkplan (Open (root_file w) :: map (file_acts w) gs
                       ++ match r with Ok _ => last_acts can_open w (nested_namespaces w s) gs | _ => [] end) gs r
           | r => mkplan [Open (root_file w)] [] (ending r)
           end
  | r => mkplan [] [] (ending r)
  end.
