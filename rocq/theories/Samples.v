(** Concrete inputs, used only to show that the hypotheses of the theorems are
    met by real cases and that the model produces the text of the reference
    files of /repo/test. *)
From Coq Require Import Ascii String Bool Arith NArith.
From Coq Require Import List.
From Verif Require Import Str Util Config Ast Types Func Enum Includes Class Context.
Import ListNotations.

(** clang's printing of the types used below. *)
Definition ends_star (s : str) : bool := last_is s "*".
Fixpoint pr (rname ename : nat -> str) (t : qty) : str :=
  match t with
  | TBuiltin c n => (if c then $"const " else []) ++ n
  | TPtr c p => let s := pr rname ename p in s ++ (if ends_star s then $"*" else $" *") ++ (if c then $"const" else [])
  | TLRef p => let s := pr rname ename p in s ++ (if ends_star s then $"&" else $" &")
  | TRRef p => pr rname ename p ++ $" &&"
  | TArray c p => pr rname ename p ++ $"[]"
  | TFun r ps => pr rname ename r ++ $" ()"
  | TRec c r _ => (if c then $"const " else []) ++ rname r
  | TEnum c e => (if c then $"const " else []) ++ ename e
  | TSugar c n _ => (if c then $"const " else []) ++ n
  | TDep c n => n
  end.

Definition nm (name qname include : str) : named :=
  mknamed name qname (Some include) 7 false Public false None None.
Definition member_of (p : nat) (a : access) (n : named) : named :=
  mknamed (n_name n) (n_qname n) (n_include n) (n_line n) (n_system n) a true (Some p) (n_doc n).
Definition fn0 (n : named) (ret : qty) (ps : list param) : fn :=
  mkfn n ret ps false false false false false false false false false false false None TK_NonTemplate None 0 false.
Definition meth (n : named) (ret : qty) (ps : list param) (static const virt pure : bool) : fn :=
  mkfn n ret ps true static const virt pure false false false false false false None TK_NonTemplate None 0 false.
Definition final_of (F : fn) : fn :=
  mkfn (f_decl F) (f_ret F) (f_params F) (f_method F) (f_static F) (f_const F) (f_virtual F) (f_pure F) true (f_variadic F) (f_deleted F)
       (f_operator F) (f_conversion F) (f_dtor F) (f_ctor F) (f_kind F) (f_targs F) (f_est F) (f_copy_assign F).
Definition deleted_of (F : fn) : fn :=
  mkfn (f_decl F) (f_ret F) (f_params F) (f_method F) (f_static F) (f_const F) (f_virtual F) (f_pure F) (f_final F) (f_variadic F) true
       (f_operator F) (f_conversion F) (f_dtor F) (f_ctor F) (f_kind F) (f_targs F) (f_est F) (f_copy_assign F).
Definition ctor_of (n : named) (ps : list param) (k : ctor) (deleted : bool) : fn :=
  mkfn n (TBuiltin false $"void") ps true false false false false false false deleted false false false (Some k) TK_NonTemplate None 0 false.
Definition assign_of (n : named) (r : nat) : fn :=
  mkfn n (TLRef (TRec false r [])) [mkparam [] (TLRef (TRec true r [])) false] true false false false false false false false
       true false false None TK_NonTemplate None 0 true.
Definition cls (n : named) (self : nat) (bases : list base) (members : list member) : record :=
  mkrecord n None false false false true true (Some self) true false true false false false true true None bases members.
Definition nofn : fn := fn0 (nm [] [] []) (TBuiltin false $"void") [].
Definition norec : record := cls (nm [] [] []) 0 [] [].
Definition noenum : enum := mkenum (nm [] [] []) false false false false [] None.
Definition tu (rs : list record) (fs : list fn) (es : list enum) (rname ename : nat -> str) : env :=
  mkenv (fun n => nth n rs norec) (fun n => nth n fs nofn) (fun n => nth n es noenum) (pr rname ename) [] 10.
(** self-test.py:117: the options of the self tests. *)
Definition test_options (root : str) : options :=
  mkoptions true false true false false false root 102400%N true $"TEST" true.

Definition void : qty := TBuiltin false $"void".
Definition int : qty := TBuiltin false $"int".

(** /repo/test/T10.inheritance.hpp: classes Base 0, Derived 1, Delete 2, X 3, Y 4. *)
Definition t10_inc : str := $"<T10.inheritance.hpp>".
Definition t10_name (r : nat) : str := nth r [$"Base"; $"Derived"; $"Delete"; $"X"; $"Y"] [].
Definition t10_mem (r : nat) (a : access) (t10_n : str) : named := member_of r a (nm t10_n (t10_name r ++ $"::" ++ t10_n) t10_inc).
Definition t10_asg (r : nat) : fn := assign_of (t10_mem r Public $"operator=") r.
Definition t10_fns : list fn := [
  meth (t10_mem 0 Protected $"foo_protected") void [] false false true false;  (* 0 *)
  meth (t10_mem 0 Public $"foo") void [] false false false false;
  meth (t10_mem 0 Public $"maybe") void [] false false false false;
  meth (t10_mem 0 Public $"f_v") void [] false false true false;
  meth (t10_mem 0 Public $"f_v_2") void [] false false true false;
  t10_asg 0;                                                                    (* 5 *)
  t10_asg 1;
  ctor_of (t10_mem 2 Public $"Delete") [] (mkctor true None false) true;         (* 7 *)
  deleted_of (meth (t10_mem 2 Public $"maybe") void [] false false false false);
  t10_asg 2;                                                                    (* 9 *)
  final_of (meth (t10_mem 3 Public $"f_v") void [] false false true false);
  t10_asg 3;                                                                    (* 11 *)
  meth (t10_mem 4 Public $"f_v_2") void [] false false true false;
  t10_asg 4].
Definition t10_data : field := mkfield (t10_mem 0 Protected $"data") int false.
Definition t10_n (r : nat) : named := nm (t10_name r) (t10_name r) t10_inc.
Definition t10_below (b : nat) : list base := [mkbase Public false (TRec false b [])].
Definition t10_rs : list record := [
  cls (t10_n 0) 0 [] [MMethod 0; MField t10_data; MMethod 1; MMethod 2; MMethod 3; MMethod 4; MMethod 5];
  cls (t10_n 1) 1 (t10_below 0) [MUsing Public [UField t10_data]; MUsing Public [UMethod 0]; MMethod 6];
  cls (t10_n 2) 2 (t10_below 0) [MMethod 7; MMethod 8; MMethod 9];
  cls (t10_n 3) 3 (t10_below 0) [MMethod 10; MMethod 11];
  mkrecord (t10_n 4) None false false true true true (Some 4) true false true false false false true true None (t10_below 3) [MMethod 12; MMethod 13]].
Definition t10_w : world :=
  mkworld (tu t10_rs t10_fns [] (fun r => $"class " ++ t10_name r) (fun _ => [])) (assign_list namespaces_to_bind [ [] ] default_config)
          (test_options $"T10_inheritance").
Definition t10_visits : list decl := map DRec [0; 1; 2; 3; 4; 1].

(** /repo/test/T50.namespace_binder.hpp with its config file. *)
Definition t50_config_text : str :=
  $"+include_for_namespace aaaa <T50.namespace_binder.a.1.include>
+include_for_namespace aaaa <T50.namespace_binder.a.2.include>

+include_for_namespace aaaa::bbbb <T50.namespace_binder.a.b.include>


+add_on_binder_for_namespace aaaa add_on_binder_for_aaaa
+binder_for_namespace aaaa::bbbb binder_for_aaaa_bbbb
".
Definition t50_config : config :=
  match setup default_config [ [] ] [] $"T50.namespace_binder.config" (Some t50_config_text) with Ok c => c | _ => default_config end.
Definition t50_fn (name qname : str) : fn := fn0 (nm name qname $"<T50.namespace_binder.hpp>") void [].
Definition t50_env : env :=
  tu [] [t50_fn $"foo_root" $"foo_root"; t50_fn $"foo_aaaa" $"aaaa::foo_aaaa";
         t50_fn $"foo_aaaa_bbbb_not_binded" $"aaaa::bbbb::foo_aaaa_bbbb_not_binded"] [] (fun _ => []) (fun _ => []).
Definition t50_w : world := mkworld t50_env t50_config (test_options $"T50_namespace_binder").
Definition t50_visits : list decl := map DFun [0; 1; 2].

(** A mix: function [f] of namespace n (mentions the system class [S] and has a
    default argument), class [B] of namespace n::m derived from class [A] of n,
    enum [E], class [S] of a system header, class [K] that the configuration
    skips, class [U] of a system header that nobody mentions.  The derived
    class is visited before its base. *)
Definition mix_cls (name qname include : str) (system : bool) (self : nat) (bases : list base) (members : list member) : record :=
  let n := nm name qname include in
  cls (mknamed name qname (Some include) 7 system Public false None None) self bases members.
Definition mix_rname (r : nat) : str := nth r [$"class n::A"; $"class n::m::B"; $"class S"; $"class n::K"; $"class U"] [].
Definition mix_recs : list record := [
  mix_cls $"A" $"n::A" $"<a.hh>" false 0 [] [];
  mix_cls $"B" $"n::m::B" $"<b.hh>" false 1 [mkbase Public false (TRec false 0 [])] [];
  mix_cls $"S" $"S" $"<s.hh>" true 2 [] [];
  mix_cls $"K" $"n::K" $"<a.hh>" false 3 [] [];
  mix_cls $"U" $"U" $"<s.hh>" true 4 [] []].
Definition mix_f : fn :=
  fn0 (nm $"f" $"n::f" $"<a.hh>") void
      [mkparam $"s" (TLRef (TRec true 2 [])) false; mkparam $"k" (TPtr false (TRec false 3 [])) false; mkparam $"d" int true].
Definition mix_g : fn := fn0 (nm $"g" $"n::g" $"<a.hh>") int [mkparam $"s" (TLRef (TRec true 2 [])) false; mkparam $"d" int true].
Definition mix_e : enum :=
  mkenum (nm $"E" $"n::E" $"<a.hh>") false false false true [($"e1", $"n::e1"); ($"e2", $"n::e2")] (Some 0).
Definition mix_env : env := tu mix_recs [mix_f; mix_g] [mix_e] mix_rname (fun _ => $"enum n::E").
Definition mix_config : config :=
  match setup default_config [$"n"; []] [] $"c" (Some ($"-class n::K" ++ [nl] ++ $"+add_on_binder_for_namespace n add_n" ++ [nl])) with
  | Ok c => c | _ => default_config end.
Definition mix_options (tracing flat_names : bool) (max : N) : options :=
  mkoptions false false false tracing flat_names false $"root" max true $"out" false.
Definition mix_w (tracing flat_names : bool) (max : N) : world := mkworld mix_env mix_config (mix_options tracing flat_names max).
Definition mix_visits : list decl := [DFun 0; DFun 1; DRec 1; DRec 0; DEnum 0; DRec 2; DRec 3; DRec 4; DRec 0].

(** Class A with the nested class In derived from B, and D derived from A::In. *)
Definition nest_n (name : str) : named := nm name name $"<n.hh>".
Definition nest_rs : list record := [
  cls (nest_n $"A") 0 [] [MRec 1];
  cls (member_of 0 Public (nm $"In" $"A::In" $"<n.hh>")) 1 [mkbase Public false (TRec false 2 [])] [];
  cls (nest_n $"B") 2 [] [];
  cls (nest_n $"D") 3 [mkbase Public false (TRec false 1 [])] []].
Definition nest_w : world :=
  mkworld (tu nest_rs [] [] (fun r => nth r [$"class A"; $"class A::In"; $"class B"; $"class D"] []) (fun _ => []))
          (assign_list namespaces_to_bind [ [] ] default_config) (mix_options false false 1000%N).

(** Functions without arguments, given by qualified name and header. *)
Definition flat_fn (ns name include : str) : fn :=
  fn0 (nm name (match ns with [] => name | _ => ns ++ $"::" ++ name end) include) void [].
Definition fns_w (fs : list fn) (o : options) (config : str) : world :=
  mkworld (tu [] fs [] (fun _ => []) (fun _ => []))
          (match setup default_config [ [] ] [] $"c" (Some config) with Ok c => c | _ => default_config end) o.

(** Classes P and Q whose methods mention each other. *)
Definition cyc_name (r : nat) : str := nth r [$"P"; $"Q"] [].
Definition cyc_mem (r : nat) (name : str) : named := member_of r Public (nm name ($"n::" ++ cyc_name r ++ $"::" ++ name) ($"<" ++ cyc_name r ++ $".hh>")).
Definition cyc_n (r : nat) : named := nm (cyc_name r) ($"n::" ++ cyc_name r) ($"<" ++ cyc_name r ++ $".hh>").
Definition cyc_fns : list fn := [
  meth (cyc_mem 0 $"to_q") void [mkparam $"q" (TLRef (TRec false 1 [])) false] false false false false;
  meth (cyc_mem 1 $"to_p") void [mkparam $"p" (TLRef (TRec false 0 [])) false] false false false false].
Definition cyc_rs : list record := [cls (cyc_n 0) 0 [] [MMethod 0]; cls (cyc_n 1) 1 [] [MMethod 1]].
Definition cyc_w : world :=
  mkworld (tu cyc_rs cyc_fns [] (fun r => $"class n::" ++ cyc_name r) (fun _ => [])) mix_config (mix_options false false 1000%N).
Definition cyc_visits : list decl := [DRec 0; DRec 1].
Definition cyc_unit : list decl := [DRec 0; DRec 1; DFun 0; DFun 1].

(** Class n::Shape (abstract: a pure, a plain, a protected and a private virtual
    method, a const overload, two constructors, data members), n::Circle derived
    from it, and n::Closed with a private pure method. *)
Definition sh_name (r : nat) : str := nth r [$"Shape"; $"Circle"; $"Closed"] [].
Definition sh_mem (r : nat) (a : access) (name : str) : named := member_of r a (nm name ($"n::" ++ sh_name r ++ $"::" ++ name) $"<s.hh>").
Definition sh_n (r : nat) : named := nm (sh_name r) ($"n::" ++ sh_name r) $"<s.hh>".
Definition sh_fns : list fn := [
  meth (sh_mem 0 Public $"area") int [mkparam $"scale" int false] false true true true;          (* 0 *)
  meth (sh_mem 0 Public $"draw") void [] false false true false;
  meth (sh_mem 0 Protected $"hook") void [] false false true false;
  meth (sh_mem 0 Private $"secret") void [] false false true false;
  meth (sh_mem 0 Public $"label") int [] false false false false;
  meth (sh_mem 0 Public $"label") int [] false true false false;                                  (* 5 *)
  ctor_of (sh_mem 0 Public $"Shape") [mkparam $"a" int false; mkparam $"b" int true] (mkctor false None false) false;
  ctor_of (sh_mem 0 Public $"Shape") [mkparam [] (TLRef (TRec true 0 [])) false] (mkctor false (Some true) false) false;
  meth (sh_mem 1 Public $"area") int [mkparam $"scale" int false] false true true false;          (* 8 *)
  final_of (meth (sh_mem 1 Public $"draw") void [] false false true false);
  meth (sh_mem 2 Private $"must") void [] false false true true;
  ctor_of (sh_mem 2 Public $"Closed") [] (mkctor true None false) false].
Definition sh_field (a : access) (name : str) (t : qty) : member := MField (mkfield (sh_mem 0 a name) t false).
Definition abstract_of (C : record) : record :=
  mkrecord (r_decl C) (r_targs C) (r_struct C) true (r_final C) (r_complete C) (r_is_def C) (r_definition C) (r_first C) (r_anon_ns C) (r_linkage C)
           (r_anon C) (r_dependent C) (r_instantiated C) (r_has_default C) false (r_dtor C) (r_bases C) (r_members C).
Definition sh_rs : list record := [
  abstract_of (cls (sh_n 0) 0 [] (map MMethod [0; 1; 2; 3; 4; 5; 6; 7] ++ [sh_field Public $"width" int; sh_field Public $"kind" (TBuiltin true $"int"); sh_field Private $"hidden" int]));
  cls (sh_n 1) 1 [mkbase Public false (TRec false 0 [])] (map MMethod [8; 9] ++ [MUsing Public [UMethod 2]]);
  abstract_of (cls (sh_n 2) 2 [] [MMethod 10; MMethod 11])].
Definition sh_w (config : str) : world :=
  mkworld (tu sh_rs sh_fns [] (fun r => $"class n::" ++ sh_name r) (fun _ => []))
          (match setup default_config [$"n"] [] $"c" (Some config) with Ok c => c | _ => default_config end)
          (mix_options false false 1000%N).
Definition bound_class (w : world) (r : nat) : cbound := match bind_class 10 w [] r with Ok b => b | _ => mkcbound [] [] [] [] [] end.

(** A virtual diamond: X, Y with [virtual X] as base, D with bases [virtual X]
    and Y; X and Y define [f].  Class P: [f], D final [f] that is skipped. *)
Definition di_name (r : nat) : str := nth r [$"X"; $"Y"; $"D"; $"P"; $"Q"] [].
Definition di_mem (r : nat) (name : str) : named := member_of r Public (nm name ($"n::" ++ di_name r ++ $"::" ++ name) $"<d.hh>").
Definition di_fns : list fn := [
  meth (di_mem 0 $"f") void [] false false true false;
  meth (di_mem 1 $"f") void [] false false true false;
  final_of (meth (di_mem 4 $"f") void [] false false true false);
  meth (di_mem 3 $"f") void [] false false true false;
  meth (di_mem 4 $"g") void [] false false true false].
Definition di_n (r : nat) : named := nm (di_name r) ($"n::" ++ di_name r) $"<d.hh>".
Definition di_base (v : bool) (r : nat) : base := mkbase Public v (TRec false r []).
Definition di_rs : list record := [
  cls (di_n 0) 0 [] [MMethod 0];
  cls (di_n 1) 1 [di_base true 0] [MMethod 1];
  cls (di_n 2) 2 [di_base true 0; di_base false 1] [];
  cls (di_n 3) 3 [] [MMethod 3];
  cls (di_n 4) 4 [di_base false 3] [MMethod 2; MMethod 4]].
Definition di_w : world :=
  mkworld (tu di_rs di_fns [] (fun r => $"class n::" ++ di_name r) (fun _ => []))
          (match setup default_config [$"n"] [] $"c" (Some ($"-function n::Q::f" ++ [nl])) with Ok c => c | _ => default_config end)
          (mix_options false false 1000%N).

(** Class O with the pure methods [f] and [f] const, and V derived from it with
    a virtual method [g]: both abstract. *)
Definition pu_name (r : nat) : str := nth r [$"O"; $"V"] [].
Definition pu_mem (r : nat) (name : str) : named := member_of r Public (nm name ($"n::" ++ pu_name r ++ $"::" ++ name) $"<o.hh>").
Definition pu_fns : list fn := [
  meth (pu_mem 0 $"f") void [] false false true true;
  meth (pu_mem 0 $"f") void [] false true true true;
  meth (pu_mem 1 $"g") void [] false false true false].
Definition pu_n (r : nat) : named := nm (pu_name r) ($"n::" ++ pu_name r) $"<o.hh>".
Definition pu_rs : list record := [
  abstract_of (cls (pu_n 0) 0 [] [MMethod 0; MMethod 1]);
  abstract_of (cls (pu_n 1) 1 [mkbase Public false (TRec false 0 [])] [MMethod 2])].
Definition pu_w : world :=
  mkworld (tu pu_rs pu_fns [] (fun r => $"class n::" ++ pu_name r) (fun _ => []))
          (match setup default_config [$"n"] [] $"c" (Some []) with Ok c => c | _ => default_config end) (mix_options false false 1000%N).
