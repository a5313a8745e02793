(** Specification vocabulary for declarations that are moved to other lines or
    get other comments. *)
From Coq Require Import Ascii String Bool Arith.
From Coq Require Import List.
From Verif Require Import Str Util Config Ast Context.
Import ListNotations.

(** Two documentation comments that give the same documentation, and any two. *)
Definition same_documentation (d d' : option comment) : Prop := documentation_string d' = documentation_string d.
Definition any_documentation (d d' : option comment) : Prop := True.

Section Moved.
(** How the documentation comments may differ. *)
Variable D : option comment -> option comment -> Prop.
(** The same declaration on another line, with another comment. *)
Definition moved_named (n n' : named) : Prop :=
  n_name n' = n_name n /\ n_qname n' = n_qname n /\ n_include n' = n_include n /\ n_system n' = n_system n /\ n_access n' = n_access n /\
  n_member n' = n_member n /\ n_parent n' = n_parent n /\ D (n_doc n) (n_doc n').
Definition moved_field (f f' : field) : Prop :=
  moved_named (fd_decl f) (fd_decl f') /\ fd_type f' = fd_type f /\ fd_anon f' = fd_anon f.
Inductive moved_target : target -> target -> Prop :=
| MT_method f : moved_target (UMethod f) (UMethod f)
| MT_field f f' : moved_field f f' -> moved_target (UField f) (UField f').
(** The members of a class are the same, its data members may be on other lines. *)
Inductive moved_member : member -> member -> Prop :=
| MM_field f f' : moved_field f f' -> moved_member (MField f) (MField f')
| MM_using a l l' : Forall2 moved_target l l' -> moved_member (MUsing a l) (MUsing a l')
| MM_other m : (forall f, m <> MField f) -> (forall a l, m <> MUsing a l) -> moved_member m m.
Definition moved_fn (F F' : fn) : Prop :=
  moved_named (f_decl F) (f_decl F') /\
  F' = mkfn (f_decl F') (f_ret F) (f_params F) (f_method F) (f_static F) (f_const F) (f_virtual F) (f_pure F) (f_final F) (f_variadic F) (f_deleted F)
            (f_operator F) (f_conversion F) (f_dtor F) (f_ctor F) (f_kind F) (f_targs F) (f_est F) (f_copy_assign F).
Definition moved_enum (E E' : enum) : Prop :=
  moved_named (e_decl E) (e_decl E') /\
  E' = mkenum (e_decl E') (e_scoped E) (e_class_tag E) (e_instance E) (e_complete E) (e_values E) (e_definition E).
Definition moved_record (C C' : record) : Prop :=
  moved_named (r_decl C) (r_decl C') /\ Forall2 moved_member (r_members C) (r_members C') /\
  C' = mkrecord (r_decl C') (r_targs C) (r_struct C) (r_abstract C) (r_final C) (r_complete C) (r_is_def C) (r_definition C) (r_first C) (r_anon_ns C)
                (r_linkage C) (r_anon C) (r_dependent C) (r_instantiated C) (r_has_default C) (r_needs_default C) (r_dtor C) (r_bases C) (r_members C').
(** The same program with its declarations on other lines and other
    documentation comments. *)
Definition moved (e e' : env) : Prop :=
  (forall r, moved_record (recs e r) (recs e' r)) /\ (forall f, moved_fn (funs e f) (funs e' f)) /\ (forall n, moved_enum (enums e n) (enums e' n)) /\
  print e' = print e /\ rx e' = rx e /\ e_fuel e' = e_fuel e.
End Moved.

(** ** Texts that differ in documentation only *)
(** What the documentation of a function says of its comment. *)
Definition comment_part (d : option comment) : str :=
  match documentation_string d with [] => [] | _ => documentation_string d ++ [bs; "n"%char; bs; "n"%char] end.
(** The two texts are the same except for the documentation of classes and
    enums, a string literal, and the first part of that of functions. *)
Inductive but_documentation : str -> str -> Prop :=
| bd_same s : but_documentation s s
| bd_app a a' b b' : but_documentation a a' -> but_documentation b b' -> but_documentation (a ++ b) (a' ++ b')
| bd_literal d d' : but_documentation ([dq] ++ documentation_string d ++ [dq]) ([dq] ++ documentation_string d' ++ [dq])
| bd_function d d' : but_documentation ([dq] ++ comment_part d ++ $"C++: ") ([dq] ++ comment_part d' ++ $"C++: ").
(** The same item, decided in the same way; the documentation in its text may differ. *)
Definition redocumented (b b' : binder) : Prop :=
  b_decl b' = b_decl b /\ b_bind_req b' = b_bind_req b /\ b_skip_req b' = b_skip_req b /\ b_deps b' = b_deps b /\ b_incl b' = b_incl b /\
  b_prefix b' = b_prefix b /\ but_documentation (b_code b) (b_code b').
