(** Specification vocabulary: what is said about a line of the config file that
    is not accepted. *)
From Coq Require Import Ascii String Bool.
From Coq Require Import List.
From Verif Require Import Str SpecUtil Config SpecConfig.
Import ListNotations.

(** What has to stand after a directive that needs two parts. *)
Definition expected_form (k : kind) : str :=
  match k with
  | KeyedInclude _ => $"name_of_type + <space or tab> + include_path"
  | Keyed _ true => $"name_of_type + <space or tab> + name_of_binder"
  | _ => $"qualified_class_name::member_funtion_name + <space or tab> + name_of_function"
  end.
Definition needs_two_parts (k : kind) : Prop := match k with Keyed _ _ | KeyedInclude _ => True | _ => False end.
(** The message for a line; [t] is the text of the line without a carriage
    return at its end. *)
Inductive complaint (line : str) : str -> Prop :=
| No_sign t : ~ ignored_line line -> line_text line t -> (forall r, t <> "+"%char :: r) -> (forall r, t <> "-"%char :: r) ->
    complaint line ($"Invalid token at the begining of line in config file! Each line should begin with ether '+' or '-' or '#'! Line: " ++ t)
| No_space t : ~ ignored_line line -> line_text line t -> (exists r, t = "+"%char :: r \/ t = "-"%char :: r) -> ~ In sp t ->
    complaint line ($"Invalid line in config file! Each line must have token separated with space from object name. For example: '+function aaa::bb::my_function'. Line: " ++ t)
| Unknown_token t bind token arg : line_text line t -> says line bind token arg -> (forall k, ~ In (token, k) directives) ->
    complaint line ($"Invalid token in config file! Each token must be either: namespace, class or function! For example: '+function aaa::bb::my_function'. Token: '"
                    ++ token ++ $"' Line: '" ++ t ++ $"'")
| Minus_include token arg key : says line false token arg -> In (token, KeyedInclude key) directives ->
    complaint line (token ++ $" must be '+' configuration.")
| One_part t token arg k : line_text line t -> says line true token arg -> In (token, k) directives -> needs_two_parts k ->
    ~ (exists x v, two_parts arg x v) ->
    complaint line ($"Invalid line for " ++ token ++ $" specification! Must be: " ++ expected_form k ++ $". Got: " ++ t).
(** The first line of the file that is not accepted. *)
Definition first_rejected (text line : str) : Prop :=
  exists before after, pieces_of nl text (before ++ line :: after) /\
    (forall l, In l before -> ignored_line l \/ valid_line l) /\ ~ ignored_line line /\ ~ valid_line line.
