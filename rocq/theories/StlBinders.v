(** The binders for standard containers that binder ships for use by generated
    code (config line [+binder std::vector binder::vector_binder]): the Python
    name under which they register the container.  pybind11's [bind_vector] and
    [bind_map] are not modelled, only the name passed to them. *)
From Coq Require Import Ascii String Bool Arith.
From Coq Require Import List.
From Verif Require Import Str Util.
Import ListNotations.

(** stl_binders.hpp:31-38 [vector_binder::vector_binder]; the second name is not used. *)
Definition vector_python_name (name allocator_name : str) : str := $"vector_" ++ name.

(** stl_binders.hpp:65-80 [map_binder::map_binder] *)
Definition map_python_name (key_name value_name comparator_name allocator_name : str) : str :=
  let maybe_extra :=
    (if streqb comparator_name ($"std_less_" ++ key_name ++ $"_t") then [] else $"_" ++ comparator_name) ++
    (if streqb allocator_name ($"std_allocator_std_pair_const_" ++ key_name ++ $"_" ++ value_name ++ $"_t") then [] else $"_" ++ allocator_name) in
  $"map_" ++ key_name ++ $"_" ++ value_name ++ maybe_extra.
