(** Model of the part of the bundled fmt library (/repo/source/fmt, version
    7.1.3) that binder uses: [fmt::format] with arguments of type
    [std::string], no format specifications and no named arguments. *)
From Coq Require Import Ascii String Bool Arith NArith.
From Coq Require Import List.
From Verif Require Import Str Util.
Import ListNotations.

(** core.h:562 [next_arg_id_]: [Automatic n] for [n >= 0], [Manual] for -1. *)
Inductive numbering := Automatic (n : nat) | Manual.

(** core.h:593-599 [next_arg_id] *)
Definition next_arg_id (st : numbering) : result (N * numbering) :=
  match st with
  | Automatic n => Ok (N.of_nat n, Automatic (S n))
  | Manual => Throw $"cannot switch from manual to automatic argument indexing"
  end.
(** core.h:605-610 [check_arg_id] *)
Definition check_arg_id (st : numbering) : result numbering :=
  match st with
  | Automatic (S _) => Throw $"cannot switch from automatic to manual argument indexing"
  | _ => Ok Manual
  end.

(** format.h:2341-2343 [is_name_start] and the test for a digit *)
Definition is_name_start (c : ascii) : bool := is_alpha c || Ascii.eqb c "_".
Definition digit_value (c : ascii) : option N :=
  let n := N_of_ascii c in if (48 <=? n)%N && (n <=? 57)%N then Some (n - 48)%N else None.

(** format.h:2348-2367 [parse_nonnegative_int]: [max_int] is 2^31-1; a value
    above [max_int / 10] before another digit is too big. *)
Definition max_int : N := 2147483647.
Fixpoint parse_int_loop (value : N) (s : str) : result (N * str) :=
  match s with
  | c :: s' =>
      match digit_value c with
      | Some d =>
          if (max_int / 10 <? value)%N then Throw $"number is too big"
          else parse_int_loop (value * 10 + d) s'
      | None => if (max_int <? value)%N then Throw $"number is too big" else Ok (value, s)
      end
  | [] => if (max_int <? value)%N then Throw $"number is too big" else Ok (value, s)
  end.
Definition parse_nonnegative_int (s : str) : result (N * str) := parse_int_loop 0 s.

(** format.h:2699-2731 [parse_arg_id] for a text [s] that is not empty: the
    argument, the rest of the text, the numbering.  There are no named
    arguments, so a name is not found (format.h:3069-3073). *)
Definition parse_arg_id (s : str) (st : numbering) : result (N * str * numbering) :=
  match s with
  | [] => Undefined $"parse_arg_id: empty"
  | c :: s' =>
      if Ascii.eqb c "}" || Ascii.eqb c ":" then
        do (id, st') <- next_arg_id st; Ok (id, s, st')
      else match digit_value c with
           | Some _ =>
               do (id, s1) <- (if Ascii.eqb c "0" then Ok (0%N, s') else parse_nonnegative_int s);
               match s1 with
               | d :: _ => if Ascii.eqb d "}" || Ascii.eqb d ":" then do st' <- check_arg_id st; Ok (id, s1, st')
                           else Throw $"invalid format string"
               | [] => Throw $"invalid format string"
               end
           | None => if is_name_start c then Throw $"argument not found" else Throw $"invalid format string"
           end
  end.

(** format.h:2559-2563 [get_arg] and 3076-3082 [on_replacement_field] *)
Definition get_arg (args : list str) (id : N) : result str :=
  if (id <? N.of_nat (length args))%N then
    match nth_error args (N.to_nat id) with Some a => Ok a | None => Throw $"argument not found" end
  else Throw $"argument not found".

(** format.h:2958-2983 [parse_replacement_field]; [s] is the text behind the
    opening brace.  Result: the text put out, the rest, the numbering.  A format
    specification ([:]) is not modelled; it is reported as [Undefined]. *)
Definition parse_replacement_field (args : list str) (s : str) (st : numbering) : result (str * str * numbering) :=
  match s with
  | [] => Throw $"invalid format string"
  | c :: s' =>
      if Ascii.eqb c "}" then
        do (id, st') <- next_arg_id st; do a <- get_arg args id; Ok (a, s', st')
      else if Ascii.eqb c "{" then Ok ([c], s', st)
      else
        do (id, s1, st') <- parse_arg_id s st;
        match s1 with
        | d :: s2 => if Ascii.eqb d "}" then do a <- get_arg args id; Ok (a, s2, st')
                     else if Ascii.eqb d ":" then Undefined $"format specification"
                     else Throw $"missing '}' in format string"
        | [] => Throw $"missing '}' in format string"
        end
  end.

(** format.h:2990-3007: the loop for texts of fewer than 32 characters.  [text]
    is what lies between [begin] and [p], [s] what lies behind [p].
    [Diverges]: fuel exhausted. *)
Fixpoint short_loop (fuel : nat) (args : list str) (text s : str) (st : numbering) : result str :=
  match s with
  | [] => Ok text
  | c :: s' =>
      match fuel with
      | 0 => Diverges
      | S fuel' =>
          if Ascii.eqb c "{" then
            do (a, rest, st') <- parse_replacement_field args s' st;
            do out <- short_loop fuel' args [] rest st';
            Ok (text ++ a ++ out)
          else if Ascii.eqb c "}" then
            match s' with
            | d :: rest => if Ascii.eqb d "}" then do out <- short_loop fuel' args [] rest st; Ok (text ++ [c] ++ out)
                           else Throw $"unmatched '}' in format string"
            | [] => Throw $"unmatched '}' in format string"
            end
          else short_loop fuel' args (text ++ [c]) s' st
      end
  end.

(** [memchr] as used by format.h [find]: the text before the first [c], and the
    text from it on (empty: not found). *)
Fixpoint span_to (c : ascii) (s : str) : str * str :=
  match s with
  | [] => ([], [])
  | x :: s' => if Ascii.eqb x c then ([], s) else let '(a, b) := span_to c s' in (x :: a, b)
  end.

(** format.h:3008-3024 [writer]: text without opening braces. *)
Fixpoint write_text (fuel : nat) (s : str) : result str :=
  match s with
  | [] => Ok []
  | _ =>
      match span_to "}" s with
      | (a, []) => Ok a
      | (a, c :: rest) =>
          match rest with
          | d :: rest' =>
              if Ascii.eqb d "}" then
                match fuel with
                | 0 => Diverges
                | S fuel' => do out <- write_text fuel' rest'; Ok (a ++ [c] ++ out)
                end
              else Throw $"unmatched '}' in format string"
          | [] => Throw $"unmatched '}' in format string"
          end
      end
  end.
(** format.h:3025-3034: the loop for longer texts. *)
Fixpoint long_loop (fuel : nat) (args : list str) (s : str) (st : numbering) : result str :=
  match s with
  | [] => Ok []
  | _ =>
      match span_to "{" s with
      | (a, []) => write_text (length a) a
      | (a, _ :: rest) =>
          match fuel with
          | 0 => Diverges
          | S fuel' =>
              do t <- write_text (length a) a;
              do (v, rest', st') <- parse_replacement_field args rest st;
              do out <- long_loop fuel' args rest' st';
              Ok (t ++ v ++ out)
          end
      end
  end.

(** format.h:2985-3034 [parse_format_string] *)
Definition parse_format_string (args : list str) (s : str) : result str :=
  if length s <? 32 then short_loop (length s) args [] s (Automatic 0) else long_loop (length s) args s (Automatic 0).

(** format-inl.h:2745-2754 [vformat], format.h:3760-3777 [vformat_to] and
    core.h:2073-2077 [format]; the operator [_format] (format.h:3881-3888,
    3923-3926) is the same.  The shortcut for the text [{}] is the first case. *)
Definition format (s : str) (args : list str) : result str :=
  if streqb s $"{}" then get_arg args 0 else parse_format_string args s.
