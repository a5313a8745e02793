(** Model of /repo/source/class.cpp (code generation for classes); the
    decisions on classes are in Types.v, their includes in Includes.v. *)
From Coq Require Import Ascii String Bool Arith NArith.
From Coq Require Import List.
From Verif Require Import Str Util Config Ast Types Func Enum Includes.
Import ListNotations.

(** Loops with an early [return true] over tests that may throw. *)
Fixpoint exists_r {A} (f : A -> result bool) (l : list A) : result bool :=
  match l with
  | [] => Ok false
  | x :: l' => do b <- f x; if b then Ok true else exists_r f l'
  end.
(** The elements selected by a test that may throw. *)
Fixpoint filter_r {A} (f : A -> result bool) (l : list A) : result (list A) :=
  match l with
  | [] => Ok []
  | x :: l' => do b <- f x; do r <- filter_r f l'; Ok (if b then x :: r else r)
  end.

(** [ctor_begin() .. ctor_end()] *)
Definition ctors (w : world) (C : record) : list nat := filter (fun f => is_ctor (fun_ w f)) (methods C).

(** ** Holder *)

(** class.cpp:110-122 [is_inherited_from_enable_shared_from_this].
    [Diverges]: fuel (depth of the hierarchy) exhausted. *)
Fixpoint inherits_enable_shared (fuel : nat) (w : world) (r : nat) : result bool :=
  let C := rec_ w r in
  if streqb (n_qname (r_decl C)) $"std::enable_shared_from_this" then Ok true
  else if r_complete C then
    match fuel with
    | 0 => match r_bases C with [] => Ok false | _ => Diverges end
    | S fuel' =>
        exists_r (fun b => match base_record b with
                           | Some r' => inherits_enable_shared fuel' w r'
                           | None => Ok false
                           end) (r_bases C)
    end
  else Ok false.

(** class.cpp:1280-1289: [maybe_holder_type] *)
Definition holder (w : world) (r : nat) : result str :=
  let C := rec_ w r in
  let qualified_name := class_qualified_name w r in
  let smart := $", " ++ strs (wcfg w) holder_type ++ $"<" ++ qualified_name ++ $">" in
  do shared <- inherits_enable_shared (e_fuel (wenv w)) w r;
  if shared then Ok smart
  else match r_dtor C with
       | Some a => Ok (if access_eqb a Public then smart else $", " ++ qualified_name ++ $"*")
       | None => Ok smart
       end.

(** ** Data members *)

(** class.cpp:125-137 [is_field_assignable] *)
Definition is_field_assignable (w : world) (f : field) : bool :=
  match fd_type f with
  | TRec _ r _ =>
      forallb (fun m => let M := fun_ w m in
                        negb (f_copy_assign M && (negb (is_public (f_decl M)) || f_deleted M))) (methods (rec_ w r))
  | _ => true
  end.

(** class.cpp:140-151 [is_bindable(FieldDecl)] *)
Definition is_bindable_field (w : world) (f : field) : bool :=
  negb (is_pointer (fd_type f) || is_reference (fd_type f) || is_array (fd_type f))
  && negb (fd_anon f)
  && is_bindable_q w (fd_type f).

(** class.cpp:155-167 [bind_data_member] *)
Definition strip_anonymous (qn : str) : str :=
  fold_left (fun q a => if ends_with q a then firstn (length q - length a) q else q)
            [$"::(anonymous)"; $"::(anonymous union)"] qn.
Definition bind_data_member (w : world) (f : field) (class_qualified_name : str) : str :=
  let qn := strip_anonymous class_qualified_name in
  let n := n_name (fd_decl f) in
  (if is_const (fd_type f) || negb (is_field_assignable w f) then $".def_readonly(""" else $".def_readwrite(""")
    ++ n ++ $""", &" ++ qn ++ $"::" ++ n ++ $")".

(** class.cpp:567-601 [binding_public_data_members]: first the fields lifted by
    public using declarations, then the fields of the class. *)
Definition lifted_fields (C : record) : list field :=
  flat_map (fun m => match m with
                     | MUsing Public ts => flat_map (fun t => match t with UField f => [f] | _ => [] end) ts
                     | _ => []
                     end) (r_members C).
Definition own_fields (C : record) : list field :=
  flat_map (fun m => match m with MField f => [f] | _ => [] end) (r_members C).
Definition exposed_fields (w : world) (C : record) : list field :=
  filter (fun f => negb (is_field_skipping_requested (wcfg w) (n_qname (fd_decl f))) && is_bindable_field w f) (lifted_fields C)
  ++ filter (fun f => negb (is_field_skipping_requested (wcfg w) (n_qname (fd_decl f)))
                      && (is_public (fd_decl f) && is_bindable_field w f)) (own_fields C).
Definition binding_public_data_members (w : world) (r : nat) : str :=
  concat (map (fun f => tab :: $"cl" ++ bind_data_member w f (class_qualified_name w r) ++ $";" ++ [nl])
              (exposed_fields w (rec_ w r))).

(** ** Member functions *)

(** class.cpp:171-192 [is_const_overload] *)
Definition is_const_overload (w : world) (F : fn) : bool :=
  f_const F &&
  (let name := function_qualified_name w F true in
   (length $" const" <? length name) &&
   (let name := firstn (length name - length $" const") name in
    existsb (fun m => let M := fun_ w m in
                      access_eqb (n_access (f_decl M)) (n_access (f_decl F)) && negb (f_const M)
                      && streqb (function_qualified_name w M true) name)
            (methods (rec_ w (parent_of F))))).

(** class.cpp:843-896 [binding_public_member_functions].  The three groups of
    functions: lifted by a using declaration (bound through a lambda on the
    derived class), instantiated member templates, own methods. *)
Definition plain_method_ok (w : world) (F : fn) : result bool :=
  and_r (is_bindable_fun w F)
    (do skip <- is_skipping_requested_fun w F;
     Ok (negb skip && negb (is_ctor F) && negb (f_dtor F) && negb (is_const_overload w F))).
Definition public_method_ok (w : world) (F : fn) : result bool :=
  and_r (is_public (f_decl F)) (plain_method_ok w F).
(** A function to bind: its number, and the class it is lifted to (if any). *)
Definition decl_candidates (w : world) (r : nat) (m : member) : list (nat * option nat) :=
  match m with
  | MUsing Public ts => flat_map (fun t => match t with UMethod f => [(f, Some r)] | _ => [] end) ts
  | MFunTemplate specs => map (fun f => (f, None)) (filter (fun f => f_method (fun_ w f)) specs)
  | _ => []
  end.
Definition candidate_ok (w : world) (c : nat * option nat) : result bool :=
  match c with
  | (f, Some _) => plain_method_ok w (fun_ w f)
  | (f, None) => public_method_ok w (fun_ w f)
  end.
Definition exposed_methods (w : world) (r : nat) : result (list (nat * option nat)) :=
  let C := rec_ w r in
  filter_r (candidate_ok w)
    (flat_map (decl_candidates w r) (r_members C) ++ map (fun f => (f, None)) (methods C)).
Definition bind_member (w : world) (c : nat * option nat) : result emitted :=
  let '(f, lifted) := c in
  bind_function w (tab :: $"cl") (fun_ w f) lifted (match lifted with Some _ => true | None => false end).
Definition binding_public_member_functions (w : world) (r : nat) : result emitted :=
  do l <- exposed_methods w r;
  emit_all (map (bind_member w) l).

(** class.cpp:899-920 [binding_template_bases].  [Diverges]: fuel exhausted. *)
Fixpoint binding_template_bases (fuel : nat) (w : world) (r : nat) : result emitted :=
  let C := rec_ w r in
  if is_specialization C then
    match fuel with
    | 0 => match r_bases C with [] => Ok ([], []) | _ => Diverges end
    | S fuel' =>
        emit_all (map (fun b =>
          if access_eqb (b_access b) Public && negb (b_virtual b) then
            match base_record b with
            | Some R =>
                do skip <- is_skipping_requested_rec w R;
                if skip then Ok ([], [])
                else
                  do (s1, q1) <- binding_public_member_functions w R;
                  do (s2, q2) <- binding_template_bases fuel' w R;
                  Ok (binding_public_data_members w R ++ s1 ++ s2, q1 ++ q2)
            | None => Ok ([], [])
            end
          else Ok ([], [])) (r_bases C))
    end
  else Ok ([], []).

(** ** Call-back structures (trampolines) *)

(** class.cpp:604-608 [callback_structure_name] *)
Definition callback_structure_name (w : world) (r : nat) : str :=
  let ns := replace (namespace_from_named_decl w (r_decl (rec_ w r))) $"::" $"_" in
  mangle_type_name ($"PyCallBack_" ++ (match ns with [] => [] | _ => ns ++ $"_" end) ++ python_class_name w r) false.

(** class.cpp:612-644 [is_callback_structure_needed] *)
Fixpoint is_callback_structure_needed (fuel : nat) (w : world) (r : nat) : result bool :=
  let C := rec_ w r in
  if r_abstract C && existsb (fun m => f_pure (fun_ w m) && is_const_overload w (fun_ w m)) (methods C) then Ok false
  else if r_final C then Ok false
  else if existsb (fun m => let M := fun_ w m in
                            negb (access_eqb (n_access (f_decl M)) Private) && is_bindable_fun w M && f_virtual M && negb (f_dtor M))
                  (methods C) then Ok true
  else
    match fuel with
    | 0 => match r_bases C with [] => Ok false | _ => Diverges end
    | S fuel' =>
        exists_r (fun b => if access_eqb (b_access b) Private then Ok false
                           else match base_record b with
                                | Some R => is_callback_structure_needed fuel' w R
                                | None => Ok false
                                end) (r_bases C)
    end.

(** class.cpp:647-671 [is_callback_structure_constructible] *)
Definition blocking_method (w : world) (M : fn) : result bool :=
  and_r (f_pure M && negb (is_ctor M))
    (if access_eqb (n_access (f_decl M)) Private || negb (is_bindable_fun w M) then Ok true
     else is_skipping_requested_fun w M).
Fixpoint is_callback_structure_constructible (fuel : nat) (w : world) (r : nat) : result bool :=
  let C := rec_ w r in
  if r_abstract C then
    do blocked <- exists_r (fun m => blocking_method w (fun_ w m)) (methods C);
    if blocked then Ok false
    else
      match fuel with
      | 0 => match r_bases C with [] => Ok true | _ => Diverges end
      | S fuel' =>
          do blocked <- exists_r (fun b =>
               match base_record b with
               | Some R => if access_eqb (b_access b) Private then Ok (r_abstract (rec_ w R))
                           else do ok <- is_callback_structure_constructible fuel' w R; Ok (negb ok)
               | None => Ok false
               end) (r_bases C);
          Ok (negb blocked)
      end
  else Ok true.

(** class.cpp:694-705 [call_back_function_body_template] *)
Definition call_back_body (class_name python_name args return_type : str) : str :=
  [nl] ++ $"pybind11::gil_scoped_acquire gil;" ++ [nl]
  ++ $"pybind11::function overload = pybind11::get_overload(static_cast<const " ++ class_name ++ $" *>(this), """ ++ python_name ++ $""");" ++ [nl]
  ++ $"if (overload) {" ++ [nl]
  ++ [tab] ++ $"auto o = overload.operator()<pybind11::return_value_policy::reference>(" ++ args ++ $");" ++ [nl]
  ++ [tab] ++ $"if (pybind11::detail::cast_is_temporary_value_reference<" ++ return_type ++ $">::value) {" ++ [nl]
  ++ [tab; tab] ++ $"static pybind11::detail::override_caster_t<" ++ return_type ++ $"> caster;" ++ [nl]
  ++ [tab; tab] ++ $"return pybind11::detail::cast_ref<" ++ return_type ++ $">(std::move(o), caster);" ++ [nl]
  ++ [tab] ++ $"}" ++ [nl]
  ++ [tab] ++ $"return pybind11::detail::cast_safe<" ++ return_type ++ $">(std::move(o));" ++ [nl]
  ++ $"}" ++ [nl].

(** class.cpp:762-768: the exception specification.  The values of
    [clang::ExceptionSpecificationType] are those of LLVM 9 and later:
    EST_None 0, EST_DynamicNone 1, EST_Dynamic 2, EST_MSAny 3, EST_NoThrow 4,
    EST_BasicNoexcept 5, EST_DependentNoexcept 6, EST_NoexceptFalse 7,
    EST_NoexceptTrue 8, EST_Unevaluated 9, EST_Uninstantiated 10, EST_Unparsed 11;
    the code tests them with a bitwise [&]. *)
Definition exception_specification (est : nat) : str :=
  if negb (Nat.land est (Nat.lor (Nat.lor 1 2) 3) =? 0) then $"throw() "
  else if negb (Nat.land est 5 =? 0) then $"noexcept "
  else [].

(** class.cpp:709-824 [bind_member_functions_for_call_back].  State: the set of
    keys already handled and the counter of return type aliases.  Output: one
    entry per overrider (class, method, key and text). *)
Record overrider := mkov { o_class : nat; o_method : nat; o_key : str; o_text : str }.
Record cb_state := mkcb { cb_keys : list str; cb_ret : nat }.

Definition callback_key (w : world) (M : fn) : str :=
  n_name (f_decl M) ++ $"(" ++ fst (function_arguments_for_py_overload w M) ++ (if f_const M then $") const" else $")").

(** class.cpp:715-720: the methods that are considered.  [is_overloadable] is always true. *)
Definition callback_candidate (w : world) (M : fn) : result bool :=
  and_r (negb (access_eqb (n_access (f_decl M)) Private) && is_bindable_fun w M)
    (do skip <- is_skipping_requested_fun w M;
     Ok (negb skip && negb (is_ctor M) && negb (f_dtor M) && f_virtual M && negb (is_const_overload w M))).

(** class.cpp:727-789: text of one overrider. *)
Definition overrider_text (w : world) (r m : nat) (class_name : str) (ret_id : nat) : str * nat :=
  let C := rec_ w r in
  let M := fun_ w m in
  let cn := n_name (r_decl C) in
  let mn := n_name (f_decl M) in
  let return_type := fix_boolean_types (standard_name_q w (f_ret M)) in
  let '(typed, names) := function_arguments_for_py_overload w M in
  let '(alias, return_type, ret_id) :=
    if contains_char "," return_type then
      let a := $"_binder_ret_" ++ dec ret_id in
      let rt := if begins_with return_type $"class " then substr return_type 6 (length return_type) else return_type in
      ([tab] ++ $"using " ++ a ++ $" = " ++ rt ++ $";" ++ [nl], a, S ret_id)
    else ([], return_type, ret_id) in
  let python_name := python_function_name M in
  let ns := namespace_from_named_decl w (r_decl C) in
  let custom := is_custom_trampoline_function_requested (wcfg w)
                  ((match ns with [] => [] | _ => ns ++ $"::" end) ++ cn ++ $"::" ++ mn) in
  (alias
   ++ [tab] ++ return_type ++ $" " ++ mn ++ $"(" ++ typed ++ $")" ++ (if f_const M then $" const" else []) ++ $" "
   ++ exception_specification (f_est M) ++ $"override {"
   ++ (match custom with
       | [] =>
           indent (call_back_body class_name python_name names return_type) [tab; tab]
           ++ (if f_pure M
               then [tab; tab] ++ $"pybind11::pybind11_fail(""Tried to call pure virtual function \""" ++ cn ++ $"::" ++ python_name ++ $"\"""");" ++ [nl]
               else [tab; tab] ++ $"return " ++ cn ++ $"::" ++ mn ++ $"(" ++ names ++ $");" ++ [nl])
       | _ =>
           [nl; tab; tab] ++ $"return " ++ custom ++ $"<" ++ cn ++ $"," ++ callback_structure_name w r ++ $">(this, """
           ++ class_name ++ $""", """ ++ mn ++ $""""
           ++ (match names with [] => [] | _ => $", " ++ names end) ++ $");" ++ [nl]
       end)
   ++ [tab] ++ $"}" ++ [nl], ret_id).

Fixpoint callback_methods (w : world) (r : nat) (class_name : str) (l : list nat) (st : cb_state) : result (list overrider * cb_state) :=
  match l with
  | [] => Ok ([], st)
  | m :: l' =>
      let M := fun_ w m in
      do ok <- callback_candidate w M;
      let key := callback_key w M in
      if ok && negb (mem key (cb_keys st)) then
        let st1 := mkcb (key :: cb_keys st) (cb_ret st) in
        if f_final M then callback_methods w r class_name l' st1
        else
          let '(text, ret_id) := overrider_text w r m class_name (cb_ret st1) in
          do (os, st2) <- callback_methods w r class_name l' (mkcb (cb_keys st1) ret_id);
          Ok (mkov r m key text :: os, st2)
      else callback_methods w r class_name l' st
  end.
(** [Diverges]: fuel (depth of the hierarchy) exhausted. *)
Fixpoint callback_overriders (fuel : nat) (w : world) (r : nat) (class_name : str) (st : cb_state) : result (list overrider * cb_state) :=
  let C := rec_ w r in
  do (own, st1) <- callback_methods w r class_name (methods C) st;
  match fuel with
  | 0 => match r_bases C with [] => Ok (own, st1) | _ => Diverges end
  | S fuel' =>
      do (rest, st2) <-
        (fix over (l : list base) (st : cb_state) : result (list overrider * cb_state) :=
           match l with
           | [] => Ok ([], st)
           | b :: l' =>
               do (os, st') <- (if access_eqb (b_access b) Private then Ok ([], st)
                                else match base_record b with
                                     | Some R => callback_overriders fuel' w R class_name st
                                     | None => Ok ([], st)
                                     end);
               do (os', st'') <- over l' st';
               Ok (os ++ os', st'')
           end) (r_bases C) st1;
      Ok (own ++ rest, st2)
  end.

(** class.cpp:827-841 [ClassBinder::generate_prefix_code] (called only when the
    structure is needed): its text and the methods added to [prefix_includes_]. *)
Definition generate_prefix_code (w : world) (r : nat) : result (str * list nat) :=
  let qn := class_qualified_name w r in
  do (os, _) <- callback_overriders (e_fuel (wenv w)) w r qn (mkcb [] 0);
  Ok (generate_comment_for_declaration w (r_decl (rec_ w r))
        ++ $"struct " ++ callback_structure_name w r ++ $" : public " ++ qn ++ $" {" ++ [nl; tab]
        ++ $"using " ++ qn ++ $"::" ++ n_name (r_decl (rec_ w r)) ++ $";" ++ [nl; nl]
        ++ concat (map o_text os) ++ $"};" ++ [nl; nl],
      map o_method os).

(** ** Constructors *)

(** class.cpp:487-507 [base_default_default_constructor_available] *)
Fixpoint base_default_available (fuel : nat) (w : world) (r : nat) : result bool :=
  let C := rec_ w r in
  match fuel with
  | 0 => match r_bases C with [] => Ok true | _ => Diverges end
  | S fuel' =>
      do missing <- exists_r (fun b =>
           match base_record b with
           | Some R =>
               let B := rec_ w R in
               if negb (r_has_default B) then Ok true
               else if existsb (fun t => let T := fun_ w t in
                                         match f_ctor T with
                                         | Some k => c_default k && (access_eqb (n_access (f_decl T)) Private || f_deleted T)
                                         | None => false
                                         end) (ctors w B) then Ok true
               else do ok <- base_default_available fuel' w R; Ok (negb ok)
           | None => Ok false
           end) (r_bases C);
      Ok (negb missing)
  end.

(** class.cpp:1002-1013 [ConstructorBindingInfo] without the constructor. *)
Record ctor_info := mkci { ci_class : nat; ci_trampoline : bool; ci_name : str; ci_trampoline_name : str }.

(** class.cpp:1020-1022 (templates) and 1029-1073 [bind_constructor], one overload. *)
Definition bind_ctor_overload (w : world) (ci : ctor_info) (T : fn) (args_to_bind : nat) (request : bool) : result emitted :=
  if (args_to_bind =? num_params T) && negb (f_variadic T) then
    do reqs <- (if request then request_types w (map p_type (firstn args_to_bind (f_params T))) else Ok []);
    Ok (annotation w T true
          ++ [tab] ++ $"cl.def( pybind11::init<" ++ function_arguments w T ++ $">()" ++ py_args T args_to_bind ++ $" );" ++ [nl], reqs)
  else
    let '(typed, names) := function_arguments_for_lambda w T args_to_bind in
    let params := if args_to_bind =? 0 then [] else typed in
    let make (n : str) := $"[](" ++ params ++ $"){ return new " ++ n ++ $"(" ++ names ++ $"); }" in
    Ok (annotation w T true
          ++ [tab] ++ $"cl.def( pybind11::init( "
          ++ (if r_abstract (rec_ w (ci_class ci)) then make (ci_trampoline_name ci) ++ $" ), ""doc"");"
              else if ci_trampoline ci then make (ci_name ci) ++ $", " ++ make (ci_trampoline_name ci) ++ $" ), ""doc"");"
              else make (ci_name ci) ++ $" ), ""doc"" " ++ py_args T args_to_bind ++ $");"), []).

(** class.cpp:1156-1168 [bind_constructor] *)
Definition ctor_counts (T : fn) : list nat := seq (first_default (f_params T)) (num_params T + 1 - first_default (f_params T)).
Definition bind_constructor (w : world) (ci : ctor_info) (T : fn) : result emitted :=
  emit_all (map (fun n => do (s, q) <- bind_ctor_overload w ci T n (n =? num_params T); Ok (s ++ [nl], q)) (ctor_counts T)).

(** class.cpp:1077-1101 [bind_default_constructor]; [None]: no declared constructor. *)
Definition bind_default_constructor (w : world) (ci : ctor_info) (T : option fn) : str :=
  let make (n : str) := $"[](){ return new " ++ n ++ $"(); }" in
  (match T with
   | Some F => annotation w F true
   | None => if annotate_functions (wopt w) then [tab] ++ $"// function-signature: " ++ ci_name ci ++ $"()" ++ [nl] else []
   end)
  ++ [tab] ++ $"cl.def( pybind11::init( "
  ++ (if r_abstract (rec_ w (ci_class ci)) then make (ci_trampoline_name ci)
      else if ci_trampoline ci then make (ci_name ci) ++ $", " ++ make (ci_trampoline_name ci)
      else make (ci_name ci))
  ++ $" ) );" ++ [nl].

(** class.cpp:1105-1153 [bind_copy_constructor] *)
Definition bind_copy_constructor (w : world) (ci : ctor_info) (T : fn) : str :=
  let const_bit := match f_ctor T with Some k => match c_copy k with Some true => $" const" | _ => [] end | None => [] end in
  let copy (n : str) := [tab] ++ $"cl.def( pybind11::init( [](" ++ n ++ const_bit ++ $" &o){ return new " ++ n ++ $"(o); } ) );" ++ [nl] in
  annotation w T true
  ++ (if ci_trampoline ci then
        if r_abstract (rec_ w (ci_class ci))
        then [tab] ++ $"cl.def(pybind11::init<" ++ ci_trampoline_name ci ++ const_bit ++ $" &>());" ++ [nl]
        else copy (ci_trampoline_name ci) ++ (if is_public (f_decl T) then copy (ci_name ci) else [])
      else copy (ci_name ci)).

(** class.cpp:1324-1341: the declared constructors that are bound. *)
Definition ctor_ok (w : world) (T : fn) : result bool :=
  and_r (is_public (f_decl T) && negb (match f_ctor T with Some k => c_move k | None => false end) && is_bindable_fun w T)
    (do skip <- is_skipping_requested_fun w T; Ok (negb skip)).
Definition is_copy (T : fn) : bool := match f_ctor T with Some k => match c_copy k with Some _ => true | None => false end | None => false end.
Definition is_default (T : fn) : bool := match f_ctor T with Some k => c_default k | None => false end.
Definition bind_declared_ctor (w : world) (ci : ctor_info) (T : fn) : result emitted :=
  if is_copy T then Ok (bind_copy_constructor w ci T, [])
  else if is_default T && (num_params T =? 0) then Ok (bind_default_constructor w ci (Some T), [])
  else bind_constructor w ci T.

(** class.cpp:1343-1366: constructors inherited through public using declarations. *)
Definition lifted_ctors (w : world) (C : record) : list nat :=
  filter (fun f => is_ctor (fun_ w f))
    (flat_map (fun m => match m with
                        | MUsing Public ts => flat_map (fun t => match t with UMethod f => [f] | _ => [] end) ts
                        | _ => []
                        end) (r_members C)).
Definition bind_lifted_ctor (w : world) (ci : ctor_info) (T : fn) : result emitted :=
  if negb (is_bindable_fun w T) then Ok ([], [])
  else if is_copy T then Ok ([], [])
  else if is_default T && (num_params T =? 0) then Ok (bind_default_constructor w ci (Some T), [])
  else bind_constructor w ci T.

(** class.cpp:1319-1386: all constructors. *)
Definition bind_ctors (w : world) (r : nat) (ci : ctor_info) : result emitted :=
  let C := rec_ w r in
  do own <- filter_r (fun t => ctor_ok w (fun_ w t)) (ctors w C);
  do (s1, q1) <- emit_all (map (fun t => bind_declared_ctor w ci (fun_ w t)) own);
  do (s2, q2) <- emit_all (map (fun t => bind_lifted_ctor w ci (fun_ w t)) (lifted_ctors w C));
  let default_constructor_processed := existsb (fun t => is_default (fun_ w t)) (ctors w C ++ lifted_ctors w C) in
  do implicit <- (if negb default_constructor_processed && r_needs_default C
                  then base_default_available (e_fuel (wenv w)) w r else Ok false);
  Ok ((if implicit then bind_default_constructor w ci None else []) ++ s1 ++ s2, q1 ++ q2).

(** ** The class binder *)

(** class.cpp:951-977 [ClassBinder::maybe_base_classes]: the bases that are
    named in the binding, in order. *)
Definition base_skip_list : list str :=
  [$"std::enable_shared_from_this"; $"std::string"; $"std::basic_string"; $"std::pair"; $"std::tuple"].
Definition base_ok (w : world) (b : base) : result bool :=
  if access_eqb (b_access b) Public then
    match base_record b with
    | Some R =>
        and_r (negb (mem (standard_name w (n_qname (r_decl (rec_ w R)))) base_skip_list) && is_bindable_rec w R)
              (do skip <- is_skipping_requested_rec w R; Ok (negb skip))
    | None => Ok false
    end
  else Ok false.
Definition bound_bases (w : world) (C : record) : result (list base) := filter_r (base_ok w) (r_bases C).
Definition base_ids (l : list base) : list nat :=
  flat_map (fun b => match base_record b with Some R => [R] | None => [] end) l.

(** class.cpp:980-1000 [ClassBinder::bind_with] *)
Definition bind_with (w : world) (r : nat) (binder : str) : str :=
  let C := rec_ w r in
  [tab] ++ generate_comment_for_declaration w (r_decl C)
  ++ [tab] ++ binder ++ standard_name w (rec_specialization C) ++ $"(" ++ module_variable_name (namespace_from_named_decl w (r_decl C))
  ++ concat (map (fun a => $", """ ++ fix_boolean_types (mangle_type_name (standard_name w (arg_text a)) true) ++ $"""") (targs_of C))
  ++ $");" ++ [nl; nl].

(** class.cpp:1172-1194 [ClassBinder::bind_repr] and context.cpp:164-197
    [Context::global_insertion_operator]; [ops]: the insertion operators seen,
    by function pointer type. *)
Definition insertion_operator_key (w : world) (r : nat) : str :=
  $"std::ostream & (*)(std::ostream &, const " ++ (if r_struct (rec_ w r) then $"struct " else $"class ") ++ class_qualified_name w r ++ $" &)".
Definition insertion_operator_template_key (w : world) (r : nat) : str :=
  fix_boolean_types
    (set_last ">" (removelast
       ($"std::ostream & (*)(std::ostream &, const " ++ standard_name w (n_name (r_decl (rec_ w r))) ++ $"<"
        ++ concat (mapi (fun i _ => $"type-parameter-0-" ++ dec i ++ $", ") (targs_of (rec_ w r))))))
  ++ $" &)".
Definition global_insertion_operator (w : world) (ops : list (str * nat)) (r : nat) : option nat :=
  match lookup (insertion_operator_key w r) ops with
  | Some f => Some f
  | None => if is_specialization (rec_ w r) then lookup (insertion_operator_template_key w r) ops else None
  end.
Definition bind_repr (w : world) (ops : list (str * nat)) (r : nat) : str * list nat :=
  let qualified_name := class_qualified_name w r in
  if is_function_skipping_requested (wcfg w) (qualified_name ++ $"::__str__")
     || is_function_skipping_requested (wcfg w) (standard_name w (n_qname (r_decl (rec_ w r)) ++ $"::__str__")) then ([], [])
  else match global_insertion_operator w ops r with
       | None => ([], [])
       | Some f =>
           let ns := namespace_from_named_decl w (f_decl (fun_ w f)) in
           ([nl; tab] ++ $"cl.def(""__str__"", [](" ++ qualified_name ++ $" const &o) -> std::string { std::ostringstream s;"
              ++ (match ns with [] => [] | _ => $" using namespace " ++ ns ++ $";" end)
              ++ $" s << o; return s.str(); } );" ++ [nl], [f])
       end.

(** class.cpp:1197-1211 [for_public_nested_classes] *)
Definition nested_classes (w : world) (C : record) : list nat :=
  flat_map (fun m => match m with
                     | MRec r => if is_public (r_decl (rec_ w r)) then [r] else []
                     | MClassTemplate Public specs => specs
                     | _ => []
                     end) (r_members C).

(** class.cpp:1214-1234: the nested classes that are bound, resolved to their definitions. *)
Definition bound_nested (w : world) (C : record) : list nat :=
  flat_map (fun r => let I := rec_ w r in
                     if negb (r_first I) then []
                     else
                       let d := if r_is_def I then r else match r_definition I with Some d => d | None => r end in
                       if is_bindable_rec w d then [d] else []) (nested_classes w C).

(** class.cpp:1388-1401: public nested enums. *)
Definition public_enums (w : world) (C : record) : list nat :=
  flat_map (fun m => match m with
                     | MEnum e => if is_public (e_decl (enum_ w e)) && is_bindable_enum (enum_ w e) then [e] else []
                     | _ => []
                     end) (r_members C).
Fixpoint bind_enums (w : world) (l : list nat) : result str :=
  match l with
  | [] => Ok []
  | e :: l' =>
      do skip <- is_skipping_requested_enum w (enum_ w e);
      do s <- (if skip then Ok [] else do t <- bind_enum w $"cl" (enum_ w e); Ok ([nl] ++ t));
      do s' <- bind_enums w l';
      Ok (s ++ s')
  end.

(** Result of binding a class: code, prefix code, functions whose headers the
    prefix needs, base classes it depends on, requested type names. *)
Record cbound := mkcbound { cb_code : str; cb_prefix : str; cb_incl : list nat; cb_deps : list nat; cb_req : list str }.

(** class.cpp:1304-1315: the head of a named class. *)
Definition class_head (w : world) (r : nat) (hold trampoline_text bases_text module_var extra : str) : str :=
  let qualified_name := class_qualified_name w r in
  (if is_smart_holder_requested (wcfg w) (standard_name w (n_qname (r_decl (rec_ w r))))
   then [tab] ++ $"PYBIND11_TYPE_CASTER_BASE_HOLDER(" ++ qualified_name ++ $" " ++ hold ++ $")" ++ [nl] else [])
  ++ [tab] ++ $"pybind11::class_<" ++ qualified_name ++ hold ++ trampoline_text ++ bases_text ++ $"> cl(" ++ module_var ++ $", """
  ++ python_class_name w r ++ $""", """ ++ documentation_string (n_doc (r_decl (rec_ w r))) ++ $"""" ++ extra ++ $");" ++ [nl].

(** class.cpp:1238-1418 [ClassBinder::bind] and 1214-1234
    [bind_nested_classes].  The requests made while generating are collected.
    [Diverges]: fuel (depth of nesting) exhausted. *)
Fixpoint bind_class (fuel : nat) (w : world) (ops : list (str * nat)) (r : nat) : result cbound :=
  let C := rec_ w r in
  let n := r_decl C in
  let qualified_name := class_qualified_name w r in
  let qualified_name_without_template := standard_name w (n_qname n) in
  if is_python_builtin w n then Ok (mkcbound [] [] [] [] [])         (* is_binded() *)
  else
  match lookup qualified_name_without_template (maps (wcfg w) Config.binders) with
  | Some binder => Ok (mkcbound (bind_with w r binder) [] [] [] [])
  | None =>
      do callback_structure <- is_callback_structure_needed (e_fuel (wenv w)) w r;
      do trampoline <- (if callback_structure then is_callback_structure_constructible (e_fuel (wenv w)) w r else Ok false);
      do (prefix0, incl0) <- (if trampoline then generate_prefix_code w r else Ok ([], []));
      let named_class := negb (r_anon C) in
      let module_var := if n_member n && named_class then $"enclosing_class"
                        else module_variable_name (namespace_from_named_decl w n) in
      let trampoline_name := if trampoline then callback_structure_name w r else [] in
      do hold <- holder w r;
      do local <- is_module_local_requested (wcfg w) (namespace_from_named_decl w n);
      let extra := (if local then $", pybind11::module_local()" else [])
                   ++ (if is_buffer_protocol_requested (wcfg w) qualified_name_without_template then $", pybind11::buffer_protocol()" else []) in
      do (head, deps, q0) <-
        (if named_class then
           do bs <- bound_bases w C;
           do q <- request_types w (map (fun b => canonical (b_type b)) bs);
           Ok (class_head w r hold (if trampoline then $", " ++ trampoline_name else [])
                 (concat (map (fun R => $", " ++ class_qualified_name w R) (base_ids bs))) module_var extra,
               base_ids bs, q)
         else Ok ([], [], []));
      do (s1, q1) <- (if (negb (r_abstract C) || trampoline) && named_class
                      then bind_ctors w r (mkci r trampoline qualified_name trampoline_name) else Ok ([], []));
      do s2 <- bind_enums w (public_enums w C);
      do (s3, q3) <- binding_public_member_functions w r;
      do (s4, q4) <- binding_template_bases (e_fuel (wenv w)) w r;
      let '(s5, incl5) := bind_repr w ops r in
      let s6 := match lookup qualified_name_without_template (maps (wcfg w) add_on_binders) with
                | Some b => [nl; tab] ++ b ++ $"(cl);" ++ [nl]
                | None => []
                end in
      do (s7, prefix7, q7) <-
        match bound_nested w C with
        | [] => Ok ([], [], [])
        | nested =>
            match fuel with
            | 0 => Diverges
            | S fuel' =>
                (fix over (l : list nat) : result (str * str * list str) :=
                   match l with
                   | [] => Ok ([], [], [])
                   | i :: l' =>
                       do b <- bind_class fuel' w ops i;
                       do (s, p, q) <- over l';
                       Ok (cb_code b ++ [nl] ++ s, cb_prefix b ++ p, cb_req b ++ q)
                   end) nested
            end
        end;
      let c := $"{ " ++ generate_comment_for_declaration w n
               ++ (if n_member n && named_class then [tab] ++ $"auto & enclosing_class = cl;" ++ [nl] else [])
               ++ head ++ s1 ++ s2 ++ binding_public_data_members w r ++ s3 ++ s4 ++ s5 ++ s6
               ++ (match s7 with [] => [] | _ => [nl] ++ s7 end) ++ $"}" ++ [nl] in
      Ok (mkcbound (indent c [tab]) (prefix0 ++ prefix7) (incl0 ++ incl5) deps (q0 ++ q1 ++ q3 ++ q4 ++ q7))
  end.

(** class.cpp:534-550 [ClassBinder::add_relevant_includes]; [incl]: the
    functions recorded by [bind] ([[]] for a nested class, whose binder object
    is created anew). *)
Fixpoint class_includes_rec (fuel : nat) (inc_fuel : nat) (w : world) (r : nat) (incl : list nat) (s : include_set) : result include_set :=
  let C := rec_ w r in
  let s := fold_left (fun s i => add_include (if annotate_includes (wopt w) then i ++ $" // +include_for_class" else i) s)
             (match lookup (standard_name w (n_qname (r_decl C))) (vecs (wcfg w) class_includes) with Some l => l | None => [] end) s in
  do s <-
    match nested_classes w C with
    | [] => Ok s
    | nested =>
        match fuel with
        | 0 => Diverges
        | S fuel' =>
            (fix over (l : list nat) (s : include_set) : result include_set :=
               match l with
               | [] => Ok s
               | i :: l' => do s <- class_includes_rec fuel' inc_fuel w i [] s; over l' s
               end) nested s
        end
    end;
  do s <- run_actions inc_fuel w (map (fun f => Visit (DFun f) 0) incl ++ [Visit (DRec r) 0]) s;
  Ok (add_include $"<sstream> // __str__" s).
