(** The four caches of binder: the answers that are remembered from call to
    call, and the functions that ask or fill them.  Types.v and Func.v model the
    same functions without the caches; Properties files relate the two. *)
From Coq Require Import Ascii String Bool Arith.
From Coq Require Import List.
From Verif Require Import Str Util Config Ast Types Func.
Import ListNotations.

(** The static variables [cache] of type.cpp:542 ([standard_name]),
    type.cpp:662 ([simplify_std_class_name]), class.cpp:226 and
    function.cpp:542 ([is_bindable]).  A map is a list of entries of which the
    first with a given key counts, so that appending models [try_emplace],
    [emplace] and [insert], which never replace an entry. *)
Record caches := mkcaches {
  k_standard : list (str * str);
  k_simplified : list (str * str);
  k_records : list (nat * bool);
  k_functions : list (nat * bool)
}.
Definition no_caches : caches := mkcaches [] [] [] [].

(** A computation that may read and extend the caches. *)
Definition cached (A : Type) : Type := caches -> A * caches.
Definition ret {A} (a : A) : cached A := fun c => (a, c).
Definition andthen {A B} (m : cached A) (f : A -> cached B) : cached B :=
  fun c => let (a, c') := m c in f a c'.
Notation "'let*' x := m 'in' f" := (andthen m (fun x => f)) (at level 60, x name, m at level 60, f at level 60, right associativity).

Fixpoint found {K V} (eqb : K -> K -> bool) (k : K) (l : list (K * V)) : option V :=
  match l with
  | [] => None
  | (k', v) :: l' => if eqb k k' then Some v else found eqb k l'
  end.

(** [if( it != cache.end() ) return it->second; else { r = raw(k); cache.insert({k, r}); return r; }]
    The raw computation may itself extend the caches. *)
Definition remember {K V} (eqb : K -> K -> bool) (read : caches -> list (K * V))
  (write : list (K * V) -> caches -> caches) (k : K) (raw : cached V) : cached V :=
  fun c => match found eqb k (read c) with
           | Some v => (v, c)
           | None => let (v, c') := raw c in (v, write (read c' ++ [(k, v)]) c')
           end.
Definition write_standard l c := mkcaches l (k_simplified c) (k_records c) (k_functions c).
Definition write_simplified l c := mkcaches (k_standard c) l (k_records c) (k_functions c).
Definition write_records l c := mkcaches (k_standard c) (k_simplified c) l (k_functions c).
Definition write_functions l c := mkcaches (k_standard c) (k_simplified c) (k_records c) l.

(** type.cpp:660-680 [simplify_std_class_name]; [regex_map] (type.cpp:617) is
    filled by the first call and constant afterwards. *)
Definition simplify_c (w : world) (type : str) : cached str :=
  remember streqb k_simplified write_simplified type
    (ret (simplify_std_class_name (rx (wenv w)) type)).

(** type.cpp:492-536 [standard_name_raw] and 540-568 [standard_name] *)
Definition standard_name_raw_c (w : world) (type : str) : cached str :=
  let r := fold_left (fun r p => replace r (fst p) (snd p)) name_map type in
  if begins_with r $"std::"
  then let* s := simplify_c w (substr r 5 (length r)) in ret (fix_boolean_types ($"std::" ++ s))
  else ret (fix_boolean_types r).
Definition standard_name_c (w : world) (type : str) : cached str :=
  remember streqb k_standard write_standard type (standard_name_raw_c w type).

(** type.cpp:459-488 [standard_name(QualType)] *)
Definition standard_name_q_c (w : world) (t : qty) : cached str :=
  let r := print (wenv w) t in
  if streqb r $"std::size_t" then ret r else standard_name_c w (print (wenv w) (canonical t)).

(** type.cpp:683-786 [is_python_builtin] and 789-811 [is_banned_symbol] *)
Definition is_python_builtin_c (w : world) (n : named) : cached bool :=
  let* name := standard_name_c w (n_qname n) in ret (builtin_name w name).
Definition is_banned_symbol_c (w : world) (n : named) : cached bool :=
  let* name := standard_name_c w (n_qname n) in
  ret (begins_with name $"std::_" || mem name known_banned_symbols).

(** class.cpp:246-331 [is_bindable_raw(CXXRecordDecl)]: the calls that touch a
    cache are made only where the C++ code makes them. *)
Definition rec_bindable_raw_c (w : world) (r : nat) (std_function_ok : cached bool) : cached bool :=
  let C := rec_ w r in
  let n := r_decl C in
  let anonymous_name := contains_char ")" (n_qname n) in
  if r_anon_ns C then ret false
  else if negb (r_linkage C) && negb (n_member n) then ret false
  else if anonymous_name && r_linkage C then ret false
  else if anonymous_name && negb (r_linkage C) && negb (r_anon C) then ret false
  else if r_dependent C then ret false
  else if access_eqb (n_access n) Protected || access_eqb (n_access n) Private then ret false
  else
    let* incomplete :=
      (if r_complete C then ret false
       else if is_specialization C
       then if streqb (n_qname n) $"std::function" then let* ok := std_function_ok in ret (negb ok)
            else if r_instantiated C then ret false
            else let* b := is_python_builtin_c w n in ret (negb b)
       else ret true) in
    if incomplete then ret false
    else let* banned := is_banned_symbol_c w n in ret (negb banned).

(** [for(...) if( not f(x) ) return false;] and [for(...) r &= f(x);] *)
Section Loops.
Context {A : Type} (f : A -> cached bool).
Fixpoint every (l : list A) : cached bool :=
  match l with
  | [] => ret true
  | x :: l' => let* b := f x in if b then every l' else ret false
  end.
Fixpoint every_evaluated (l : list A) : cached bool :=
  match l with
  | [] => ret true
  | x :: l' => let* b := f x in let* b' := every_evaluated l' in ret (b && b')
  end.
End Loops.

(** type.cpp:390-439 [is_bindable(QualType)], class.cpp:195-218
    [is_std_function_bindable] and class.cpp:224-243 [is_bindable(CXXRecordDecl)].
    As in Types.v the template arguments are taken from the type.  The answers
    [r] computed before an early [return false] are evaluated too. *)
Definition class_bindable_c (w : world) (r : nat) (std_function_ok : cached bool) : cached bool :=
  remember Nat.eqb k_records write_records r (rec_bindable_raw_c w r std_function_ok).
Fixpoint bindable_type_c (w : world) (sugared : bool) (t : qty) {struct t} : cached bool :=
  let top := shallow_ok t in
  match t with
  | TPtr _ p =>
      if sugared then ret top
      else if is_pointer p then ret false
      else if is_array p then ret false
      else let* name := standard_name_c w (print (wenv w) p) in
           if pair_pointee name then ret false
           else let* b := bindable_type_c w false p in ret (top && b)
  | TLRef p | TRRef p =>
      if sugared then ret top
      else let* name := standard_name_c w (print (wenv w) p) in
           if pair_referee name then ret false
           else let* b := bindable_type_c w false p in ret (top && b)
  | TRec _ r args =>
      let* b := class_bindable_c w r
                  (every (fun a => match a with
                                   | Targ (KDecl _ (Some (result, ps))) _ =>
                                       let* b := bindable_type_c w false result in
                                       if b then every (bindable_type_c w false) ps else ret false
                                   | _ => ret true
                                   end) args) in
      if tag_accessible (r_decl (rec_ w r)) then ret (top && b) else ret false
  | TEnum _ e => if tag_accessible (e_decl (enum_ w e)) then ret top else ret false
  | TSugar _ _ t' => let* b := bindable_type_c w true t' in ret (top && b)
  | TBuiltin _ _ | TArray _ _ | TFun _ _ | TDep _ _ => ret top
  end.
Definition is_bindable_q_c (w : world) (t : qty) : cached bool := bindable_type_c w false t.
Definition is_std_function_bindable_c (w : world) (args : list targ) : cached bool :=
  every (fun a => match a with
                  | Targ (KDecl _ (Some (result, ps))) _ =>
                      let* b := bindable_type_c w false result in
                      if b then every (bindable_type_c w false) ps else ret false
                  | _ => ret true
                  end) args.
Definition is_bindable_rec_c (w : world) (r : nat) : cached bool :=
  class_bindable_c w r (is_std_function_bindable_c w (targs_of (rec_ w r))).

(** function.cpp:501-537 [is_bindable_raw(FunctionDecl)] and 540-569 [is_bindable(FunctionDecl)] *)
Definition fun_bindable_raw_c (w : world) (F : fn) : cached bool :=
  if negb (bracket_ok (n_qname (f_decl F))) then ret false
  else if f_operator F && negb (f_method F && negb (streqb (cpp_python_operator F) [])) then ret false
  else
    let start := negb (f_deleted F) && (match f_kind F with TK_FunctionTemplate => false | _ => true end)
                 && negb (f_conversion F) in
    let* result := is_bindable_q_c w (f_ret F) in
    let* ps := every_evaluated (fun p => is_bindable_q_c w (canonical (p_type p))) (f_params F) in
    if start && result && ps
    then let* banned := is_banned_symbol_c w (f_decl F) in ret (negb banned)
    else ret false.
Definition is_bindable_fun_c (w : world) (f : nat) : cached bool :=
  remember Nat.eqb k_functions write_functions f (fun_bindable_raw_c w (fun_ w f)).
