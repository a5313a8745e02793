(** What the program reports on the console. *)
From Coq Require Import Ascii String Bool Arith NArith.
From Coq Require Import List.
From Verif Require Import Str Util Config Ast Types Func Enum Includes Class Context Program.
Import ListNotations.

(** The lines printed to the standard output of the program while it runs
    (config.cpp:56; context.cpp:265, 270, 283, 322, 344, 451; main.cpp:220;
    util.cpp:145, 151). *)
Inductive line :=
| LInput (file : str)
| LConfig (file : str)
| LPass (n : nat)
| LBinding (id : str)
| LSorting
| LSorted
| LWriting
| LWrite (path : str)
| LUpToDate (path : str)
| LWritten.
Definition line_text (x : line) : str :=
  match x with
  | LInput f => $"Process input file " ++ f ++ [nl]
  | LConfig f => $"Read config from file " ++ f ++ [nl]
  | LPass n => $"Generate bindings, pass " ++ dec n ++ $"..." ++ [nl]
  | LBinding id => $"Binding: " ++ id ++ [nl]
  | LSorting => $"Sorting Binders..." ++ [nl]
  | LSorted => $"Sorting Binders... Done." ++ [nl]
  | LWriting => $"Writing code..." ++ [nl]
  | LWrite p => $"Writing " ++ p ++ [nl]
  | LUpToDate p => $"File " ++ p ++ $" is up-to-date, skipping..." ++ [nl]
  | LWritten => $"Writing code... Done." ++ [nl]
  end.
(** [if( O_verbose ) outs() << ...]; [v] is the value of [-v]. *)
Definition if_verbose (v : bool) (x : line) : list line := if v then [x] else [].

(** context.cpp:267-274: one pass, with its lines; the flag tells whether an
    item was bound. *)
Fixpoint say_pass (v : bool) (w : world) (c : context) (todo : list nat) (l : list binder) : result (list binder * list line * bool) :=
  match todo with
  | [] => Ok (l, [], false)
  | i :: todo' =>
      match nth_error l i with
      | None => Ok (l, [], false)                    (* unreachable: todo = 0 .. size-1 *)
      | Some b =>
          if wants_binding w b then
            do g <- generate_code w (x_ops c) (b_decl b);
            let l1 := fold_left (fun l n => request w (x_types c) n l) (cb_req g) l in
            do (l2, said, _) <- say_pass v w c todo' (update_nth i (set_code g) l1);
            Ok (l2, if_verbose v (LBinding (decl_id w (b_decl b))) ++ said, true)
          else say_pass v w c todo' l
      end
  end.
(** context.cpp:260-278: the passes, [n] is the number of the next one.
    [Diverges]: more than [fuel] passes. *)
Fixpoint say_loop (fuel : nat) (v : bool) (w : world) (c : context) (n : nat) (l : list binder) : result (list binder * list line) :=
  match fuel with
  | 0 => Diverges
  | S fuel' =>
      do (l1, said, again) <- say_pass v w c (seq 0 (length l)) l;
      if again then
        do (l2, more) <- say_loop fuel' v w c (S n) l1;
        Ok (l2, LPass n :: said ++ more)
      else Ok (l1, LPass n :: said)
  end.
(** context.cpp:250-278 [Context::bind] *)
Definition say_bind (v : bool) (w : world) (c : context) : result (list binder * list line) :=
  do l <- map_r (initial_request w) (x_binders c);
  say_loop (S (length l)) v w c 1 l.

(** util.cpp:128-153 [update_source_file], with its line. *)
Definition say_update (v : bool) (mkdir_ok can_open : str -> bool) (prefix file_name code : str) (f : fs) : result (fs * list line) :=
  let full := prefix ++ $"/" ++ file_name in
  let old_code := match lookup full (files f) with Some c => c | None => [] end in
  do f1 <- update_source_file mkdir_ok can_open prefix file_name code f;
  Ok (f1, if_verbose v (if streqb old_code code then LUpToDate full else LWrite full)).
Fixpoint say_updates (v : bool) (mkdir_ok can_open : str -> bool) (prefix : str) (l : list (str * str)) (f : fs) : result (fs * list line) :=
  match l with
  | [] => Ok (f, [])
  | (name, code) :: l' =>
      do (f1, said) <- say_update v mkdir_ok can_open prefix name code f;
      do (f2, more) <- say_updates v mkdir_ok can_open prefix l' f1;
      Ok (f2, said ++ more)
  end.

(** context.cpp:324-493 [Context::generate], main.cpp:81-98 and 215-224: a run
    on one source file that ends normally, with the files it makes and the disk
    it leaves.  Simplification, as for [write_output]: the texts are computed
    before the first file is written; of a run that fails nothing is said. *)
Definition say_output (v : bool) (mkdir_ok can_open : str -> bool) (w : world) (l : list binder) (f : fs) : result (list gen_file * fs * list line) :=
  let root := prefix (wopt w) ++ $"/" ++ root_file_name w in
  if negb (can_open root) then Throw ($"ERROR: Can not open file " ++ root ++ $" for writing...")
  else
    do s <- sort_binders w l;
    do gs <- write_files w s;
    let o := mkout [] s gs (nested_namespaces w s) in
    do (f1, said) <-
      (if single_file (wopt w) then Ok (write_file root (single_file_text w o) f, [])
       else
         do (f1, said) <- say_updates v mkdir_ok can_open (prefix (wopt w)) (map (fun g => (g_name g, g_text g)) gs) (write_file root [] f);
         let put p t f := if can_open p then write_file p t f else f in
         Ok (put (root_path w ++ $".modules") (modules_text (out_namespaces o))
               (put (root_path w ++ $".sources") (sources_text (source_names w gs))
                  (write_file root (root_text w (out_namespaces o) gs) f1)), said));
    Ok (gs, f1, [LSorting; LSorted; LWriting] ++ said ++ [LWritten]).
Definition say_process (v : bool) (i : invocation) (file : str) (s : source) (c : config) (f : fs) : result (list gen_file * fs * list line) :=
  do c1 <- setup c (i_bind i) (i_skip i) (i_config i) (i_config_text i);
  let w := mkworld (so_env s) c1 (i_options i) in
  do (l, said) <- say_bind v w (collect w (so_visits s));
  do (gs, f1, more) <- say_output v (i_mkdir_ok i) (i_can_open i) w l f;
  Ok (gs, f1, LInput file :: (match i_config i with [] => [] | _ => if_verbose v (LConfig (i_config i)) end) ++ said ++ more).
