(** Specification vocabulary: further functions, enums and data members are
    left out by name. *)
From Coq Require Import Ascii String Bool.
From Coq Require Import List.
From Verif Require Import Str SpecUtil Util Config SpecConfig Ast Types Func Enum Context SpecTypes.
Import ListNotations.

(** The directives that leave out by name, and the lists they extend. *)
Definition skip_tokens : list (str * list_key) :=
  [($"function", functions_to_skip); ($"enum", enums_to_skip); ($"field", fields_to_skip)].
Definition left_out_by_name : list list_key := map snd skip_tokens.
(** The second file is the first one with further lines -function, -enum and
    -field, wherever they stand; [new] has all the names in these lines. *)
Inductive file_leaves_out (new : list (list_key * str)) : list str -> list str -> Prop :=
| lo_end : file_leaves_out new [] []
| lo_same l a b : file_leaves_out new a b -> file_leaves_out new (l :: a) (l :: b)
| lo_added l token k arg a b : says l false token arg -> In (token, k) skip_tokens -> In (k, nospace arg) new ->
    file_leaves_out new a b -> file_leaves_out new a (l :: b).
(** [c'] differs from [c], as far as the selection is concerned, only in that
    it leaves out names of [new]. *)
Definition leaves_out (new : list (list_key * str)) (c c' : config) : Prop :=
  (forall k, incl (lists c k) (lists c' k)) /\
  (forall k v, In v (lists c' k) -> In v (lists c k) \/ In (k, v) new) /\
  (forall k, ~ In k left_out_by_name -> lists c' k = lists c k) /\
  (forall n, lookup n (maps c' binders) = None <-> lookup n (maps c binders) = None) /\
  strs c' holder_type = strs c holder_type.
(** What a declaration is called in these directives: a function with its
    parameters, without them, and, if it is a member of an instance of a class
    template, by the template's name and its own; an enum by its name. *)
Inductive called (w : world) : decl -> list_key -> str -> Prop :=
| Called_full f : called w (DFun f) functions_to_skip (nospace (function_qualified_name w (fun_ w f) true))
| Called_plain f : called w (DFun f) functions_to_skip (nospace (standard_name w (n_qname (f_decl (fun_ w f)))))
| Called_member f : f_method (fun_ w f) = true -> is_specialization (rec_ w (parent_of (fun_ w f))) = true ->
    called w (DFun f) functions_to_skip
      (nospace (standard_name w (n_qname (r_decl (rec_ w (parent_of (fun_ w f)))) ++ $"::" ++ n_name (f_decl (fun_ w f)))))
| Called_enum n : called w (DEnum n) enums_to_skip (standard_name w (n_qname (e_decl (enum_ w n)))).
Definition newly_named (w : world) (new : list (list_key * str)) (d : decl) : Prop :=
  exists k v, called w d k v /\ In (k, v) new.
(** The configuration itself asks for the declaration: it is not bound only
    because something else needs it. *)
Definition asked_for (w : world) (d : decl) : Prop :=
  n_system (named_of (wenv w) d) = false /\
  match d with
  | DFun f => function_requested w (fun_ w f)
  | DRec r => class_requested w r
  | DEnum n => enum_requested w (enum_ w n)
  end.
