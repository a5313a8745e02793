(** Model of the collection of the headers needed by a declaration:
    type.cpp:378-386, function.cpp:483-490, enum.cpp:35-41, class.cpp:368-441. *)
From Coq Require Import Ascii String Bool Arith NArith.
From Coq Require Import List.
From Verif Require Import Str Util Config Ast Types Func Enum.
Import ListNotations.

(** What one declaration adds: its own or another declaration's header, or the
    visit of another declaration at some level. *)
Inductive action := Header (d : decl) | Visit (d : decl) (level : nat).

(** type.cpp:378-386 [add_relevant_includes(QualType)]: pointers and references
    are peeled unless they are hidden behind a typedef; then the class or enum. *)
Fixpoint peeled_tag (t : qty) : option decl :=
  match t with
  | TPtr _ p | TLRef p | TRRef p => peeled_tag p
  | _ => as_tag t
  end.
Definition visit_type (t : qty) (level : nat) : list action :=
  match peeled_tag t with Some d => [Visit d level] | None => [] end.

(** function.cpp:483-490 *)
Definition fun_actions (w : world) (f level : nat) : list action :=
  Header (DFun f) :: flat_map (fun t => visit_type t level) (fun_type_dependencies (fun_ w f)).

(** enum.cpp:35-41 *)
Definition enum_actions (w : world) (e : nat) : list action :=
  Header (DEnum e) :: match e_definition (enum_ w e) with Some d => [Header (DEnum d)] | None => [] end.

(** class.cpp:374-389: template arguments *)
Definition targ_actions (level : nat) (a : targ) : list action :=
  match a with
  | Targ (KType t) _ => visit_type (desugared t) (S level)
  | Targ (KTemplate d) _ => [Header (DRec d)]
  | Targ (KDecl d _) _ => [Header (DFun d)]
  | Targ (KIntegral t) _ => visit_type t (S level)
  | Targ _ _ => []
  end.

(** class.cpp:392-405: instantiations of member function templates.  The test
    of [is_skipping_requested] may throw. *)
Definition is_public (n : named) : bool := access_eqb (n_access n) Public.
Definition member_ok (w : world) (F : fn) : result bool :=
  and_r (is_public (f_decl F) && is_bindable_fun w F)
    (do skip <- is_skipping_requested_fun w F;
     Ok (negb skip && negb (is_ctor F) && negb (f_dtor F))).
Fixpoint spec_actions (w : world) (level : nat) (l : list nat) : result (list action) :=
  match l with
  | [] => Ok []
  | f :: l' =>
      do ok <- and_r (f_method (fun_ w f)) (member_ok w (fun_ w f));
      do rest <- spec_actions w level l';
      Ok (if ok then Visit (DFun f) (S level) :: rest else rest)
  end.
Definition member_template_specs (r : record) : list nat :=
  flat_map (fun m => match m with MFunTemplate l => l | _ => [] end) (r_members r).

(** class.cpp:368-441 [add_relevant_includes(CXXRecordDecl)] *)
Definition rec_actions (w : world) (r level : nat) : result (list action) :=
  let C := rec_ w r in
  do specs <- spec_actions w level (member_template_specs C);
  Ok (Header (DRec r)
        :: flat_map (targ_actions level) (targs_of C)
        ++ specs
        ++ (if level <? 2 then
              flat_map (fun f => let F := fun_ w f in
                                 if is_public (f_decl F) && is_bindable_fun w F && negb (f_dtor F)
                                 then [Visit (DFun f) (S level)] else []) (methods C)
            else [])).

Definition actions (w : world) (d : decl) (level : nat) : result (list action) :=
  match d with
  | DFun f => Ok (fun_actions w f level)
  | DRec r => rec_actions w r level
  | DEnum e => Ok (enum_actions w e)
  end.

(** The recursion common to the four functions.  [add_decl] decides whether a
    declaration is visited.  [Diverges]: fuel exhausted. *)
Fixpoint add_includes (fuel : nat) (w : world) (d : decl) (level : nat) (s : include_set) : result include_set :=
  match add_decl d level s with
  | None => Ok s
  | Some s1 =>
      match fuel with
      | 0 => Diverges
      | S fuel' =>
          do acts <- actions w d level;
          (fix run (l : list action) (s : include_set) : result include_set :=
             match l with
             | [] => Ok s
             | Header d' :: l' => run l' (add_relevant_include_for_decl w d' s)
             | Visit d' level' :: l' => do s2 <- add_includes fuel' w d' level' s; run l' s2
             end) acts s1
      end
  end.
Definition run_actions (fuel : nat) (w : world) : list action -> include_set -> result include_set :=
  fix run (l : list action) (s : include_set) : result include_set :=
    match l with
    | [] => Ok s
    | Header d' :: l' => run l' (add_relevant_include_for_decl w d' s)
    | Visit d' level' :: l' => do s2 <- add_includes fuel w d' level' s; run l' s2
    end.
