(** Model of /repo/source/util.cpp: string, naming and file helpers. *)
From Coq Require Import Ascii String ZArith Bool Arith.
From Coq Require Import List.
From Verif Require Import Str.
Import ListNotations.

(** Outcome of a C++ computation: a value, an escaping [std::runtime_error]
    with its message, [std::exit(1)] with the text sent to stderr, undefined
    behaviour, or a loop that does not terminate. *)
Inductive result (A : Type) : Type :=
| Ok (a : A)
| Throw (msg : str)
| Exit1 (msg : str)
| Undefined (what : str)
| Diverges.
Arguments Ok {A} a.
Arguments Throw {A} msg.
Arguments Exit1 {A} msg.
Arguments Undefined {A} what.
Arguments Diverges {A}.

Definition bind_r {A B} (x : result A) (f : A -> result B) : result B :=
  match x with
  | Ok a => f a
  | Throw m => Throw m
  | Exit1 m => Exit1 m
  | Undefined w => Undefined w
  | Diverges => Diverges
  end.
Notation "'do' x <- e ; f" := (bind_r e (fun x => f)) (at level 200, x pattern, e at level 100, f at level 200).

(** Short-circuit [a and b] whose second operand may throw. *)
Definition and_r (a : bool) (b : result bool) : result bool := if a then b else Ok false.

(** util.cpp:39-55 [split].  The index loop over [buffer] is a recursion over
    the suffix [rest] starting at index [i]; the comparison
    [buffer.compare(i, separator.size(), separator)] looks at that suffix.
    On a match only one character is skipped (the [++i] of the loop). *)
Fixpoint split_loop (separator rest line : str) (lines : list str) : list str :=
  match rest with
  | [] => match line with [] => lines | _ => lines ++ [line] end
  | c :: rest' =>
      if streqb (firstn (length separator) rest) separator
      then split_loop separator rest' [] (lines ++ [line])
      else split_loop separator rest' (line ++ [c]) lines
  end.
Definition split (buffer separator : str) : list str := split_loop separator buffer [] [].

(** util.cpp:69-76 [replace].  [None]: fuel exhausted. *)
Fixpoint replace_loop (fuel : nat) (r from to : str) (i : nat) : option str :=
  match fuel with
  | 0 => None
  | S fuel' =>
      match find r from i with
      | None => Some r
      | Some j => replace_loop fuel' (splice r j (length from) to) from to (j + length to)
      end
  end.

(** util.cpp:69-83 [replace] / [replace_].  The loop body runs at most once
    per character of the text when [from] is not empty
    (theorem [replace_total]); with an empty [from] it never ends
    (theorem [replace_empty_diverges]).  Every call in the sources passes a
    non-empty literal for [from]; the total function below is only used with
    such arguments. *)
Definition replace_opt (s from to : str) : option str := replace_loop (S (length s)) s from to 0.
Definition replace (s from to : str) : str :=
  match replace_opt s from to with Some r => r | None => s end.

(** util.cpp:88-91 [begins_with] *)
Definition begins_with (source prefix : str) : bool := same_at source 0 (length prefix) prefix.

(** util.cpp:95-99 [ends_with] *)
Definition ends_with (source prefix : str) : bool :=
  if length source <? length prefix then false
  else same_at source (length source - length prefix) (length prefix) prefix.

(** util.cpp:102-110 [indent] *)
Definition indent (code indentation : str) : str :=
  fold_left (fun r l => r ++ (match l with [] => l ++ [nl] | _ => indentation ++ l ++ [nl] end))
            (split code [nl]) [].

(** [std::string::find_first_not_of] / [find_last_not_of] as used by util.cpp:114-124 *)
Fixpoint find_first_not_of (s set : str) : option nat :=
  match s with
  | [] => None
  | c :: s' => if existsb (Ascii.eqb c) set then option_map S (find_first_not_of s' set) else Some 0
  end.
Fixpoint find_last_not_of (s set : str) : option nat :=
  match s with
  | [] => None
  | c :: s' => match find_last_not_of s' set with
               | Some i => Some (S i)
               | None => if existsb (Ascii.eqb c) set then None else Some 0
               end
  end.

(** util.cpp:114-124 [trim] *)
Definition trim (s : str) : str :=
  let whitespaces := [sp; tab] in
  match find_first_not_of s whitespaces with
  | None => []
  | Some b => match find_last_not_of s whitespaces with
              | None => []                 (* unreachable: some character is not blank *)
              | Some e => substr s b (e - b + 1)
              end
  end.

(** Abstract file system for util.cpp:128-153: contents by path, and the log
    of paths opened for writing.  Simplification: a path string identifies a
    file (no links, no normalisation of [//]). *)
Record fs := mkfs { files : list (str * str); writes : list str }.

(** util.cpp:128-153 [update_source_file].  [mkdir_ok] and [can_open] are the
    (external) success of [mkdir -p path] and of opening the output stream.
    [dirs.pop_back()] on an empty vector is undefined behaviour. *)
Definition update_source_file (mkdir_ok can_open : str -> bool) (prefix file_name code : str) (f : fs) : result fs :=
  match split file_name $"/" with
  | [] => Undefined $"pop_back on empty vector"
  | dirs =>
      let path := fold_left (fun p d => p ++ $"/" ++ d) (removelast dirs) prefix in
      if negb (mkdir_ok path) then Throw ($"ERROR: Command " ++ [dq] ++ $"mkdir -p " ++ path ++ [dq] ++ $" failed")
      else
        let full := prefix ++ $"/" ++ file_name in
        let old_code := match lookup full (files f) with Some c => c | None => [] end in
        if streqb old_code code then Ok f
        else if negb (can_open full) then Throw ($"ERROR: Can not open file " ++ full ++ $" for writing...")
        else Ok (mkfs (update full code (files f)) (writes f ++ [full]))
  end.

(** util.cpp:156-169 [namespace_from_named_decl], given the standardised
    qualified name [qn] and the plain name [n].  [int namespace_len] may be
    negative, in which case the [size_t] argument of [substr] is huge and the
    whole string is returned. *)
Definition namespace_from_names (qn n : str) : str :=
  let namespace_len := (Z.of_nat (length qn) - Z.of_nat (length n))%Z in
  let len := (if (1 <? namespace_len)%Z then namespace_len - 2 else namespace_len)%Z in
  if (len <? 0)%Z then qn else substr qn 0 (Z.to_nat len).

(** util.cpp:180-185 [base_namespace] *)
Definition base_namespace (ns : str) : str :=
  match rfind ns $"::" with
  | None => []
  | Some f => substr ns 0 f
  end.

(** util.cpp:189-194 [last_namespace] *)
Definition last_namespace (ns : str) : str :=
  match rfind ns $"::" with
  | None => ns
  | Some f => substr ns (f + 2) (length ns - f - 2)
  end.

(** util.cpp:198-207 [fix_boolean_types].  [nth_error] gives [type[i]]; the
    neighbours are tested with [std::isalpha]/[std::isdigit].  Simplification:
    for characters >= 128 (for which the C call is undefined when [char] is
    signed) the model answers "not alphanumeric". *)
Definition word_char (o : option ascii) : bool :=
  match o with Some c => is_alpha c || is_digit c | None => false end.
Definition B : str := $"_Bool".
Fixpoint fix_boolean_loop (fuel : nat) (type : str) (i : nat) : option str :=
  match fuel with
  | 0 => None
  | S fuel' =>
      match find type B i with
      | None => Some type
      | Some j =>
          let before_ok := match j with 0 => true | S j' => negb (word_char (nth_error type j')) end in
          let after_ok := (j + length B =? length type) || negb (word_char (nth_error type (j + length B))) in
          let type' := if before_ok && after_ok then splice type j (length B) $"bool" else type in
          fix_boolean_loop fuel' type' (S j)
      end
  end.
Definition fix_boolean_types (type : str) : str :=
  match fix_boolean_loop (S (length type)) type 0 with
  | Some r => r
  | None => type                           (* unreachable: theorem [fix_boolean_total] *)
  end.

(** util.cpp:268-289 [mangle_type_name] *)
Definition mangled_punct (c : ascii) : bool := existsb (Ascii.eqb c) $" <>,:".
Definition template_punct (c : ascii) : bool := existsb (Ascii.eqb c) $"<>,".
Definition last_is (r : str) (c : ascii) : bool :=
  match rev r with [] => false | x :: _ => Ascii.eqb x c end.
Fixpoint mangle_loop (name r : str) (template_ : bool) : str * bool :=
  match name with
  | [] => (r, template_)
  | c :: name' =>
      let r' := if mangled_punct c then (if last_is r "_" then r else r ++ $"_") else r ++ [c] in
      mangle_loop name' r' (template_ || template_punct c)
  end.
Definition mangle_type_name (name : str) (mark_template : bool) : str :=
  let '(r, template_) := mangle_loop name [] false in
  if template_ && mark_template
  then replace (replace r $"*" $"_star_") $"&" $"_ref_" ++ $"t"
  else r.

(** Comment tree of clang ([comments::Comment]): text leaves, and inner nodes
    that may be paragraphs; each node carries the line of its begin location. *)
Inductive comment :=
| CText (line : nat) (text : str)
| CNode (line : nat) (paragraph : bool) (children : list comment).
Definition comment_line (c : comment) : nat :=
  match c with CText l _ => l | CNode l _ _ => l end.

(** util.cpp:303-329 [get_text].  [previous] is the line number of the
    location passed by value (0 for an invalid location). *)
Fixpoint get_text (c : comment) (previous : nat) : str :=
  match c with
  | CText _ text => text
  | CNode _ paragraph children =>
      (if paragraph then [nl] else []) ++
      (fix loop (l : list comment) (previous : nat) : str :=
         match l with
         | [] => []
         | i :: l' =>
             if negb (previous =? comment_line i)
             then [nl] ++ get_text i (comment_line i) ++ loop l' (comment_line i)
             else get_text i previous ++ loop l' previous
         end) children previous
  end.

(** util.cpp:333-366 [generate_documentation_string_for_declaration];
    [None]: the declaration has no comment. *)
Fixpoint skip_leading (s : str) : str :=
  match s with
  | c :: s' => if Ascii.eqb c sp || Ascii.eqb c nl then skip_leading s' else s
  | [] => []
  end.
Definition escape_text (text : str) : str :=
  replace (replace (replace text [bs] [bs; bs]) [dq] [bs; dq]) [nl] [bs; "n"%char].
Definition documentation_string (c : option comment) : str :=
  match c with
  | None => []
  | Some c => escape_text (skip_leading (get_text c 0))
  end.

(** The system calls made by util.cpp:128-153, one by one, to describe a
    process that is killed in the middle: [std::ofstream f(full)] truncates
    (or creates) the file, [f << code] then appends the code in chunks that
    the stream library and the OS choose ([chunks] with [concat chunks = code]). *)
Inductive fs_op :=
| Truncate (path : str)
| Append (path : str) (data : str).
Definition run_op (f : fs) (o : fs_op) : fs :=
  match o with
  | Truncate p => mkfs (update p [] (files f)) (writes f ++ [p])
  | Append p d => mkfs (update p ((match lookup p (files f) with Some c => c | None => [] end) ++ d) (files f)) (writes f)
  end.
Definition update_ops (prefix file_name code : str) (chunks : list str) (f : fs) : list fs_op :=
  let full := prefix ++ $"/" ++ file_name in
  let old_code := match lookup full (files f) with Some c => c | None => [] end in
  if streqb old_code code then [] else Truncate full :: map (Append full) chunks.

(** The sequence of [update_source_file] calls of one run
    (context.cpp:331-493 calls it once per generated file). *)
Fixpoint update_all (mkdir_ok can_open : str -> bool) (prefix : str) (l : list (str * str)) (f : fs) : result fs :=
  match l with
  | [] => Ok f
  | (name, code) :: l' =>
      do f1 <- update_source_file mkdir_ok can_open prefix name code f;
      update_all mkdir_ok can_open prefix l' f1
  end.

(** States left behind by a run that is killed at an arbitrary point. *)
Inductive interrupted (prefix : str) : list (str * str) -> fs -> fs -> Prop :=
| I_now l f : interrupted prefix l f f
| I_within name code l chunks n f :
    concat chunks = code ->
    interrupted prefix ((name, code) :: l) f (fold_left run_op (firstn n (update_ops prefix name code chunks f)) f)
| I_after name code l chunks f f' :
    concat chunks = code ->
    interrupted prefix l (fold_left run_op (update_ops prefix name code chunks f) f) f' ->
    interrupted prefix ((name, code) :: l) f f'.

(** Observations on a file system: what reading a path yields (an absent file
    reads as empty), and the path of a generated file. *)
Definition content (f : fs) (p : str) : str := match lookup p (files f) with Some c => c | None => [] end.
Definition path_of (prefix name : str) : str := prefix ++ $"/" ++ name.
